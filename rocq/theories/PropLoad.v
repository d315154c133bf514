(** PropLoad.v - C92: what signing an ELF file means for the program a loader runs. *)
From Verif Require Import Base Algorithms Utf8 SigningBlock Digest Signable ZipSpec Elf ElfSpec ElfFacts ElfProps Toy ToyElf LoadSpec LoadFacts.
From Coq Require Import Strings.String.
From Coq Require Import Lia.
Open Scope N_scope.

(** * C92: signing does not change what a loader sees *)

(** The signed file has the same entry point and the same program headers, and each
    segment has the same bytes - apart from the three fields of the file header
    that describe the section table, if a segment contains the file header. *)
Theorem C92_signed : forall rest f b out e wide big entry phoff segs,
  elf_write_with_signature rest f b = Ok out -> elf_parse rest (el_data f) = Ok e ->
  loads (el_data f) wide big entry phoff segs -> segs = [] \/ (if wide then 64 else 52) <= phoff ->
  exists segs', loads out wide big entry phoff segs' /\ Forall2 (same_segment wide) segs segs'.
Proof. exact loads_signed. Qed.
Print Assumptions C92_signed.
(** If no segment contains these fields, the segments are the same. *)
Theorem C92_same : forall rest f b out e wide big entry phoff segs,
  elf_write_with_signature rest f b = Ok out -> elf_parse rest (el_data f) = Ok e ->
  loads (el_data f) wide big entry phoff segs -> segs = [] \/ (if wide then 64 else 52) <= phoff ->
  Forall (fun s => (if wide then 62 else 50) <= sg_offset s) segs ->
  loads out wide big entry phoff segs.
Proof.
  intros rest f b out e wide big entry phoff segs H He Hl Hp Hs.
  destruct (loads_signed rest f b out e wide big entry phoff segs H He Hl Hp) as (segs' & H1 & H2).
  now rewrite (same_equal wide segs segs' H2 Hs) in H1.
Qed.
Print Assumptions C92_same.
(** What a loader sees of a file is determined by the file. *)
Theorem C92_determined : forall d wide big entry phoff segs wide' big' entry' phoff' segs',
  loads d wide big entry phoff segs -> loads d wide' big' entry' phoff' segs' ->
  wide' = wide /\ big' = big /\ entry' = entry /\ phoff' = phoff /\ segs' = segs.
Proof. exact loads_fun. Qed.
Print Assumptions C92_determined.

(** * C92: but the signature does not protect it *)

(** Block and digest depend on the ranges [examined] only: any other byte of the
    file, the entry point and the program headers among them, can be changed
    without effect on either. *)
Theorem C92_free : forall rest d d' e names,
  elf_parse rest d = Ok e -> List.length d' = List.length d -> rest d' = true ->
  (forall o n, examined e names o n -> same_at d d' o n) ->
  (forall p, elf_get_signing_block rest p (mkElfFile d' names) = elf_get_signing_block rest p (mkElfFile d names)) /\
  (forall C a, elf_digest rest C (mkElfFile d' names) a = elf_digest rest C (mkElfFile d names) a).
Proof.
  intros rest d d' e names H L. apply signature_same; [exact H|]. unfold len. now rewrite L.
Qed.
Print Assumptions C92_free.

(** A program: one segment, its code, entered at [entry]. *)
Definition ph64 (off vaddr size : N) : bytes :=
  le 4 1 ++ le 4 5 ++ le 8 off ++ le 8 vaddr ++ le 8 vaddr ++ le 8 size ++ le 8 size ++ le 8 4096.
Definition toy_program (entry : N) : bytes :=
  let names := toy_names in
  let body := toy_text ++ toy_rodata in
  let tab := mkShdr 15 3 0 0 64 (len names) 0 0 1 0 in
  let start := 64 + len names in
  let pre := names ++ body ++ ph64 start 4096 (len toy_text) in
  ehdr_to_u8 x64 (mkEhdr (ident_of x64) 2 183 1 entry (start + len body) (64 + len pre) 0 64 56 1 64 4 3) ++
  pre ++ flat_map (shdr_to_u8 x64) [mkShdr 0 0 0 0 0 0 0 0 0 0; text_at x64 names; rodata_at x64 names; tab].
Definition toy_segment : segment := mkSegment 1 5 (64 + len toy_names) 4096 4096 (len toy_text) (len toy_text) 4096 toy_text.
Definition toy_program_signed (entry : N) : bytes :=
  ToyElf.get [] (elf_write_with_signature all_ok (mkElfFile (toy_program entry) DEFAULT_SIGNED_SECTIONS) ex_block).
Definition signed_program : bytes := Eval vm_compute in toy_program_signed 4096.
(** The same file after a change of the entry point. *)
Definition other_entry : bytes := Eval vm_compute in takeN 24 signed_program ++ le 8 4103 ++ dropN 32 signed_program.

Lemma one_segment d entry : takeN 6 d = ELFMAG ++ [x02; x01] -> 64 <= len d -> entry = number false d 24 8 ->
  number false d 32 8 = 117 -> number false d 54 2 = 56 -> number false d 56 2 = 1 -> 173 <= len d ->
  segment_at true false d 117 = toy_segment ->
  loads d true false entry 117 [toy_segment].
Proof.
  intros H1 H2 H3 H4 H5 H6 H7 H8. unfold loads. rewrite H4, H5, H6. repeat split; auto.
  - destruct i as [|[|i]]; [|discriminate|discriminate]. change (N.of_nat 0) with 0. unfold ph_size. lia.
  - destruct i as [|[|i]]; [|discriminate|discriminate]. injection H as <-. symmetry. exact H8.
  - destruct i as [|[|i]]; [|discriminate|discriminate]. injection H as <-. change (sg_offset toy_segment + sg_filesz toy_segment) with 103. lia.
Qed.
Ltac seg := apply one_segment; [vm_compute; reflexivity|vm_compute; discriminate|vm_compute; reflexivity|vm_compute; reflexivity|
  vm_compute; reflexivity|vm_compute; reflexivity|vm_compute; discriminate|vm_compute; reflexivity].

Example C92_signed_example :
  (exists e, elf_parse all_ok (toy_program 4096) = Ok e) /\
  elf_write_with_signature all_ok (mkElfFile (toy_program 4096) DEFAULT_SIGNED_SECTIONS) ex_block = Ok signed_program /\
  loads (toy_program 4096) true false 4096 117 [toy_segment] /\ Forall (fun s => 62 <= sg_offset s) [toy_segment] /\
  loads signed_program true false 4096 117 [toy_segment] /\ signed_program <> toy_program 4096.
Proof.
  split; [eexists; vm_compute; reflexivity|]. split; [vm_compute; reflexivity|]. split; [seg|].
  split; [repeat constructor; vm_compute; discriminate|]. split; [seg|]. intros H. apply (f_equal (@List.length _)) in H. vm_compute in H. discriminate H.
Qed.

(** The hypotheses of [C92_free] hold for a signed program and the same program
    with another entry point. *)
Definition signed_elf : elf := Eval vm_compute in ToyElf.get no_elf (elf_parse all_ok signed_program).
Example C92_free_example : elf_parse all_ok signed_program = Ok signed_elf /\ List.length other_entry = List.length signed_program /\
  (forall o n, examined signed_elf DEFAULT_SIGNED_SECTIONS o n -> same_at signed_program other_entry o n) /\
  elf_get_signing_block all_ok Release (mkElfFile signed_program DEFAULT_SIGNED_SECTIONS) = Ok (Some ex_block).
Proof.
  split; [vm_compute; reflexivity|]. split; [vm_compute; reflexivity|]. split; [|vm_compute; reflexivity].
  intros o n H. destruct H as [| | | |i s Hs _|s n Hs _ _].
  - vm_compute; reflexivity.
  - vm_compute; reflexivity.
  - vm_compute; reflexivity.
  - vm_compute; reflexivity.
  - apply nth_error_In in Hs. cbn in Hs. repeat (destruct Hs as [<-|Hs]; [vm_compute; reflexivity|]). destruct Hs.
  - cbn in Hs. repeat (destruct Hs as [<-|Hs]; [vm_compute; reflexivity|]). destruct Hs.
Qed.

(** So it is not true that files with the same signing block and the same digests
    start at the same instruction. *)
Theorem C92_entry_refuted :
  ~ (forall rest C d d' names wide big entry phoff segs wide' big' entry' phoff' segs' b,
      elf_get_signing_block rest Release (mkElfFile d names) = Ok (Some b) ->
      elf_get_signing_block rest Release (mkElfFile d' names) = Ok (Some b) ->
      (forall a, exists v, elf_digest rest C (mkElfFile d names) a = Ok v /\ elf_digest rest C (mkElfFile d' names) a = Ok v) ->
      loads d wide big entry phoff segs -> loads d' wide' big' entry' phoff' segs' -> entry' = entry).
Proof.
  intros H.
  specialize (H all_ok toyC signed_program other_entry DEFAULT_SIGNED_SECTIONS true false 4096 117 [toy_segment] true false 4103 117 [toy_segment] ex_block).
  discriminate H.
  - vm_compute; reflexivity.
  - vm_compute; reflexivity.
  - intros a. destruct (signature_same all_ok signed_program other_entry signed_elf DEFAULT_SIGNED_SECTIONS) as (_ & D).
    + vm_compute; reflexivity.
    + vm_compute; reflexivity.
    + reflexivity.
    + apply C92_free_example.
    + rewrite D. assert (R : exists ts, resolved_sections all_ok (mkElfFile signed_program DEFAULT_SIGNED_SECTIONS) = Ok ts) by (eexists; vm_compute; reflexivity).
      destruct R as (ts & R). unfold elf_digest. rewrite R. cbn [bind]. exists (digest_elf_sections toyC (el_data (mkElfFile signed_program DEFAULT_SIGNED_SECTIONS)) ts a).
      split; exact eq_refl.
  - seg.
  - seg.
Qed.
Print Assumptions C92_entry_refuted.
