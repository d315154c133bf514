(** PropRaceDigest.v - C93: digest and info while other processes change the file. *)
From Verif Require Import Base Algorithms Utf8 SigningBlock Zip Digest Module Signable Signer Verifier Elf ElfSpec ZipSpec Cli CliSpec CliFacts Base64
  Race RaceDigest RaceDigestSpec RaceDigestFacts Toy ToyElf ToyVerify ToyCli.
From Coq Require Import Strings.String.
From Coq Require Import Lia.
Open Scope N_scope.

(** * C93: digest *)

(** Without other processes the model is that of C62 and C63. *)
Theorem C93_undisturbed : forall p C rest base64 ds s a, da_dump a = None ->
  let r := cli_digest_race p C rest base64 ds (d_undisturbed s (da_dump a)) a in
  fst r = None /\ cli_digest p C rest base64 ds s a = ([], snd r).
Proof. exact digest_undisturbed. Qed.
Print Assumptions C93_undisturbed.
Theorem C93_dump_undisturbed : forall p C rest base64 ds s a out, da_dump a = Some out -> fs_file s (da_input a) <> fs_file s out ->
  let r := cli_digest_race p C rest base64 ds (d_undisturbed s (da_dump a)) a in
  snd (cli_digest p C rest base64 ds s a) = snd r /\ (fst (cli_digest p C rest base64 ds s a) = [] <-> fst r = None) /\
  (snd r = Ok None -> exists w, fst r = Some (fs_file s out, w) /\
     fs_data (run s (fst (cli_digest p C rest base64 ds s a))) (fs_file s out) = Some w).
Proof. exact dump_undisturbed. Qed.
Print Assumptions C93_dump_undisturbed.

(** The digest printed for a module is that of the file as it was when it was
    digested, if its length was the one it had when it was opened; what it was
    when the regions were printed does not matter. *)
Theorem C93_module : forall p C rest base64 ds H a o t f0 g,
  cli_digest_race p C rest base64 ds H a = (o, Ok (Some t)) ->
  (forall t, fs_read (d_detect H) (da_input a) <> Some (ELFMAG ++ t)) ->
  fs_read (d_open H) (da_input a) = Some f0 -> fs_read (d_digest H) (da_input a) = Some g -> len g = len f0 ->
  o = None /\ exists d,
    let algo := if da_sha512 a then ECDSA_SHA2_512 else ECDSA_SHA2_256 in
    m_digest p C (ds algo) (module_new g) g algo = Ok d /\
    t = match da_format a with Hex => hex_encode d | Base64 => base64 d end.
Proof.
  intros p C rest base64 ds H a o t f0 g E Hm H0 Hg L. split; [exact (proj1 (digest_printed _ _ _ _ _ _ _ _ _ E))|].
  destruct (digest_module _ _ _ _ _ _ _ _ _ E Hm) as (f & d & F & D & T). exists d. split; [|exact T].
  rewrite H0 in F. injection F as <-. rewrite Hg in D. cbn [now_content] in D.
  replace (module_new f0) with (module_new g) in D by (unfold module_new; now rewrite L). exact D.
Qed.
Print Assumptions C93_module.
(** An ELF file is read once: the digest is that of the file that was opened. *)
Theorem C93_elf : forall p C rest base64 ds H a s t t', da_dump a = None ->
  fs_read (d_detect H) (da_input a) = Some (ELFMAG ++ t) -> fs_read (d_open H) (da_input a) = Some (ELFMAG ++ t') ->
  fs_read s (da_input a) = Some (ELFMAG ++ t') ->
  cli_digest p C rest base64 ds s a = ([], snd (cli_digest_race p C rest base64 ds H a)).
Proof. exact digest_elf. Qed.
Print Assumptions C93_elf.
(** A dump that succeeds has the size of the regions, and every piece of it is
    what the input was, at that place, when the piece was read. *)
Theorem C93_dump : forall p C rest base64 ds H a o, cli_digest_race p C rest base64 ds H a = (o, Ok None) ->
  exists out w x y l, da_dump a = Some out /\ o = Some (fs_file (d_create H) out, w) /\
    race_open rest (fs_read (d_detect H) (da_input a)) (fs_read (d_open H) (da_input a)) = Ok x /\
    choose_sections x (da_sections a) = Ok y /\
    signable_regions p rest y (fs_read (d_regions H) (da_input a)) = Ok l /\
    torn (fun i => now_content (fs_data (d_piece H i) (fs_file (d_input H) (da_input a)))) l w.
Proof. exact dump_torn. Qed.
Print Assumptions C93_dump.
(** This says which bytes are dumped; and if the file does not change while they
    are read they are the regions of the file. *)
Theorem C93_dump_one : forall content l w w', torn content l w -> torn content l w' -> w' = w.
Proof. exact torn_fun. Qed.
Print Assumptions C93_dump_one.
Theorem C93_dump_still : forall file l w, torn (fun _ => file) l w -> w = region_bytes file l.
Proof. exact torn_still. Qed.
Print Assumptions C93_dump_still.

(** * C93: info *)

(** info shows what it shows of the file cut to the length that it had at first,
    and nothing if the file has become shorter. *)
Theorem C93_info : forall p C K builtin now s1 s2 s file f o, fs_read s1 file = Some f ->
  let g := now_content (fs_data s2 (fs_file s1 file)) in
  fs_read s file = Some (takeN (len f) g) ->
  cli_info_race p C K builtin now s1 s2 file = Ok o <-> len f <= len g /\ cli_info p C K builtin now s file = Ok o.
Proof. exact info_race. Qed.
Print Assumptions C93_info.

(** * Examples *)

Definition other_text : bytes := bstr "evil code here".
Definition other_rodata : bytes := bstr "more read only".
Definition elf_a : bytes := el_data toy64.
Definition elf_b : bytes := toy_elf x64 ToyElf.toy_names (other_text ++ other_rodata) 1 [text_at x64 ToyElf.toy_names; rodata_at x64 ToyElf.toy_names].
Definition dump_args : digest_args := mkDigestArgs (bstr "in") false (Some (bstr "out")) [] Hex.
(** The file is replaced when the first region has been read. *)
Definition replaced : dmoments :=
  mkDMoments (toy_fs elf_a) (toy_fs elf_a) (toy_fs elf_a) (toy_fs elf_a) (toy_fs elf_a) (toy_fs elf_a)
    (fun i => match i with O => toy_fs elf_a | S _ => toy_fs elf_b end).
(** It is not true that a dump shows the regions of the file as it was at some
    moment: here the code is that of one file, the data that of another. *)
Theorem C93_dump_one_moment_refuted :
  exists w, cli_digest_race Release toyC all_ok b64_encode fr2 replaced dump_args = (Some (fs_file (toy_fs elf_a) (bstr "out"), w), Ok None) /\
    w = toy_text ++ other_rodata /\
    forall l, elf_digest_regions all_ok toy64 = Ok l -> w <> region_bytes elf_a l /\ w <> region_bytes elf_b l.
Proof.
  exists (toy_text ++ other_rodata). split; [vm_compute; reflexivity|]. split; [reflexivity|].
  intros l Hl. assert (E : exists k, elf_digest_regions all_ok toy64 = Ok k /\ toy_text ++ other_rodata <> region_bytes elf_a k /\ toy_text ++ other_rodata <> region_bytes elf_b k).
  { eexists. split; [vm_compute; reflexivity|]. split; vm_compute; discriminate. }
  destruct E as (k & E & X). rewrite E in Hl. injection Hl as <-. exact X.
Qed.
Print Assumptions C93_dump_one_moment_refuted.
(** The same file, replaced at once after it was opened: printed is the digest of
    the file that was opened, dumped is the file that was not. *)
Definition replaced_early : dmoments :=
  mkDMoments (toy_fs elf_a) (toy_fs elf_a) (toy_fs elf_b) (toy_fs elf_b) (toy_fs elf_b) (toy_fs elf_b) (fun i => toy_fs elf_b).
Theorem C93_dump_digest_refuted :
  (exists w, cli_digest_race Release toyC all_ok b64_encode fr2 replaced_early dump_args = (Some (fs_file (toy_fs elf_a) (bstr "out"), w), Ok None) /\
     w = other_text ++ other_rodata) /\
  snd (cli_digest_race Release toyC all_ok b64_encode fr2 replaced_early (mkDigestArgs (bstr "in") false None [] Hex)) =
  snd (cli_digest Release toyC all_ok b64_encode fr2 (toy_fs elf_a) (mkDigestArgs (bstr "in") false None [] Hex)).
Proof. split; [eexists; split; vm_compute; reflexivity|vm_compute; reflexivity]. Qed.
Print Assumptions C93_dump_digest_refuted.

(** A module that others change between the opening and the digest, without a
    change of its length. *)
Definition changed_zip : bytes := plain (mkZip (rev (z_entries ex_zip)) (z_cd ex_zip) (z_head ex_zip) (z_comment ex_zip)).
Definition changed : dmoments :=
  mkDMoments (toy_fs (plain ex_zip)) (toy_fs (plain ex_zip)) (toy_fs (plain ex_zip)) (toy_fs changed_zip) (toy_fs changed_zip) (toy_fs changed_zip) (fun _ => toy_fs changed_zip).
Example C93_module_example : exists t,
  cli_digest_race Debug toyC all_ok b64_encode fr2 changed (mkDigestArgs (bstr "in") true None [] Base64) = (None, Ok (Some t)) /\
  (forall t, fs_read (d_detect changed) (bstr "in") <> Some (ELFMAG ++ t)) /\
  fs_read (d_open changed) (bstr "in") = Some (plain ex_zip) /\ fs_read (d_digest changed) (bstr "in") = Some changed_zip /\
  len changed_zip = len (plain ex_zip) /\ changed_zip <> plain ex_zip.
Proof.
  eexists. split; [vm_compute; reflexivity|]. split; [intros t H; vm_compute in H; discriminate H|]. split; [vm_compute; reflexivity|].
  split; [vm_compute; reflexivity|]. split; [vm_compute; reflexivity|]. intros H. vm_compute in H. discriminate H.
Qed.
(** info on a signed module to which others append bytes. *)
Example C93_info_example : let s1 := toy_fs ex_signed in let s2 := toy_fs (ex_signed ++ [x00; x01]) in
  fs_read s1 (bstr "in") = Some ex_signed /\
  fs_read s1 (bstr "in") = Some (takeN (len ex_signed) (now_content (fs_data s2 (fs_file s1 (bstr "in"))))) /\
  exists o, cli_info_race Debug toyC toyK [] (Some 500) s1 s2 (bstr "in") = Ok o.
Proof.
  cbv zeta. split; [vm_compute; reflexivity|]. split; [vm_compute; reflexivity|].
  assert (X : exists o, cli_info Debug toyC toyK [] (Some 500) (toy_fs ex_signed) (bstr "in") = Ok o) by (eexists; vm_compute; reflexivity).
  destruct X as (o & X). exists o. apply (proj2 (C93_info Debug toyC toyK [] (Some 500) (toy_fs ex_signed) (toy_fs (ex_signed ++ [x00; x01])) (toy_fs ex_signed) (bstr "in") ex_signed o eq_refl eq_refl)).
  split; [vm_compute; discriminate|exact X].
Qed.
