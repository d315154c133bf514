(** PropUnified.v - property C80: which files the unified interface reports as
    signed, as unsigned, or neither.

    Vocabulary: UnifiedSpec.v, FindSpec.v, Wire.v, ElfSpec.v. *)
From Verif Require Import Base BaseFacts SigningBlock Wire ZipSpec FindSpec Zip Digest Module Signable Elf ElfSpec
  Cli Verifier ModuleVerify Unified UnifiedSpec UnifiedFacts Toy ToyElf ToyVerify VerifySpec PropModule PropFind PropVerify.
From Coq Require Import Strings.String.
Open Scope N_scope.

(** * C80 *)
(** An ELF file: the block of the first section called ".ksu_sign", and only
    that; [p] and the sections chosen for signing do not matter. *)
Theorem C80_elf_block : forall rest p f b, len (el_data f) < U64 ->
  (elf_get_signing_block rest p f = Ok (Some b) <-> elf_carries rest (el_data f) b).
Proof. exact elf_block. Qed.
Print Assumptions C80_elf_block.
Theorem C80_elf_none : forall rest p f,
  (elf_get_signing_block rest p f = Ok None <-> elf_unsigned rest (el_data f)).
Proof. exact elf_none. Qed.
Print Assumptions C80_elf_none.
Theorem C80_elf_signed : forall rest p f, len (el_data f) < U64 ->
  (elf_is_signed rest p f = true <-> exists b, elf_carries rest (el_data f) b).
Proof. exact elf_signed. Qed.
Print Assumptions C80_elf_signed.

(** A module. *)
Theorem C80_module_block : forall p f b, len f < U64 ->
  (s_get_signing_block p (module_new f) f = Ok (Some b) <-> module_carries f b).
Proof. exact module_block. Qed.
Print Assumptions C80_module_block.
Theorem C80_module_none : forall p f, len f < U64 ->
  (s_get_signing_block p (module_new f) f = Ok None <-> module_unsigned f).
Proof. exact module_none. Qed.
Print Assumptions C80_module_none.
Theorem C80_module_signed : forall p f, len f < U64 ->
  (s_is_signed p (module_new f) f = true <-> exists b, module_carries f b).
Proof. exact module_signed. Qed.
Print Assumptions C80_module_signed.

(** A file opened without saying what it is: the reader of its format answers.
    An ELF file is read once, so what is in the file later ([now]) does not
    matter. *)
Theorem C80_opened : forall p rest f x, len f < U64 -> signable_open rest (Some f) = Ok x ->
  (detect_file_format f = Ok FModule /\ signable_kind x = FModule /\
   (forall b, signable_block p rest x (Some f) = Ok (Some b) <-> module_carries f b) /\
   (signable_block p rest x (Some f) = Ok None <-> module_unsigned f)) \/
  (detect_file_format f = Ok FElf /\ signable_kind x = FElf /\
   (forall now b, signable_block p rest x now = Ok (Some b) <-> elf_carries rest f b) /\
   (forall now, signable_block p rest x now = Ok None <-> elf_unsigned rest f)).
Proof. exact opened. Qed.
Print Assumptions C80_opened.

(** A module whose verification is valid is reported as signed. *)
Theorem C80_valid : forall p C K now ds f roots r,
  m_verify_with_roots p C K now ds (module_new f) f roots = Ok r -> is_valid r = true ->
  s_is_signed p (module_new f) f = true.
Proof. exact valid_signed. Qed.
Print Assumptions C80_valid.
Example C80_valid_example : exists r,
  m_verify_with_roots Debug toyC toyK (Some 500) (fun _ _ => full_reads) (module_new zip_signed) zip_signed
    (configured toyK [root_cert]) = Ok r /\ is_valid r = true.
Proof. destruct C40_file_example as (r & H & V & _). exists r. split; [exact H|exact V]. Qed.

(** A file whose signature section is empty, one whose section holds no block,
    and one whose section lies outside the file. *)
Definition sign_names : bytes := ToyElf.toy_names ++ KSU_SIGN_SECTION ++ nul.
Definition with_sign (off size : N) : bytes :=
  toy_elf x64 sign_names (toy_text ++ toy_rodata) 1
    [text_at x64 sign_names; rodata_at x64 sign_names; mkShdr (len ToyElf.toy_names) 1 0 0 off size 0 0 1 0].
Lemma with_sign_parse : exists e s, elf_parse all_ok (with_sign 70 0) = Ok e /\ first_named e KSU_SIGN_SECTION s /\ sh_size s = 0.
Proof.
  do 2 eexists. split; [vm_compute; reflexivity|]. split; [|shelve].
  exists 3%nat. split; [reflexivity|]. split; [vm_compute; reflexivity|].
  intros [|[|[|j]]] t J H; cbn in H; try (injection H as <-; vm_compute; discriminate).
  exfalso. do 3 apply Nat.succ_lt_mono in J. inversion J.
  Unshelve. reflexivity.
Qed.
Example C80_example :
  (elf_get_signing_block all_ok Debug (mkElfFile toy64_signed []) = Ok (Some ex_block) /\
   elf_is_signed all_ok Debug (mkElfFile toy64_signed []) = true /\ len toy64_signed < U64) /\
  (exists x, signable_open all_ok (Some toy64_signed) = Ok x /\ signable_kind x = FElf) /\
  (elf_get_signing_block all_ok Debug toy64 = Ok None /\ elf_unsigned all_ok (el_data toy64)) /\
  (elf_unsigned all_ok (with_sign 70 0) /\ elf_is_signed all_ok Release (mkElfFile (with_sign 70 0) []) = false) /\
  (elf_get_signing_block all_ok Debug (mkElfFile (with_sign 70 40) []) = Err EeValue /\
   elf_is_signed all_ok Debug (mkElfFile (with_sign 70 40) []) = false) /\
  elf_get_signing_block all_ok Debug (mkElfFile (with_sign 700 1) []) = Err EeValue /\
  (s_is_signed Debug (module_new ex_signed) ex_signed = true /\ (exists b, module_carries ex_signed b) /\
   exists x, signable_open all_ok (Some ex_signed) = Ok x /\ signable_kind x = FModule) /\
  (module_unsigned (plain ex_zip) /\ s_is_signed Debug (module_new (plain ex_zip)) (plain ex_zip) = false) /\
  ((exists x, s_get_signing_block Debug (module_new (plain stray_zip)) (plain stray_zip) = Err x) /\
   s_is_signed Debug (module_new (plain stray_zip)) (plain stray_zip) = false).
Proof.
  split; [split; [vm_compute; reflexivity|split; vm_compute; reflexivity]|].
  split; [eexists; split; vm_compute; reflexivity|].
  split; [split; [vm_compute; reflexivity|apply (elf_none all_ok Debug); vm_compute; reflexivity]|].
  split. { split; [|vm_compute; reflexivity]. destruct with_sign_parse as (e & s & P & F & Z). exists e. split; [exact P|]. right. eauto. }
  split; [split; vm_compute; reflexivity|]. split; [vm_compute; reflexivity|].
  split. { split; [vm_compute; reflexivity|]. split.
           - exists (offset_by ex_block 36). apply (module_block Debug); vm_compute; reflexivity.
           - eexists; split; vm_compute; reflexivity. }
  split. { split; [|vm_compute; reflexivity]. apply (module_none Debug); vm_compute; reflexivity. }
  split; [eexists; vm_compute; reflexivity|vm_compute; reflexivity].
Qed.
