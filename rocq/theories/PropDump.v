(** PropDump.v - C63 (base64 output) and C76 (what is dumped is what is digested). *)
From Verif Require Import Base BaseFacts Utils Algorithms Common SchemeV2 SourceStamp Utf8 ElfInfo
  SigningBlock Zip Digest Module Signable ZipSpec RegionSpec ZipFacts Toy Signer Verifier VerifySpec
  Keystore Elf ElfSpec ToyElf Cli CliSpec CliProps4 ToyCli PropElf PropCli Base64 DumpSpec Base64Facts DumpFacts.
From Coq Require Import Strings.String Lia.
Open Scope N_scope.

(** * C63 - base64 output *)
Theorem C63_base64_spells : forall d, b64_spells (b64_encode d) d.
Proof. exact b64_encode_spells. Qed.
Print Assumptions C63_base64_spells.
(** A text spells one value, and a value is spelled by one text. *)
Theorem C63_base64_unique : forall t1 t2 d1 d2, b64_spells t1 d1 -> b64_spells t2 d2 -> (t1 = t2 <-> d1 = d2).
Proof.
  intros t1 t2 d1 d2 H1 H2. split; intros ->; [exact (b64_spells_fun _ _ _ H1 H2)|exact (b64_spells_text _ _ _ H1 H2)].
Qed.
Print Assumptions C63_base64_unique.
Theorem C63_base64_length : forall d, len (b64_encode d) = 4 * ((len d + 2) / 3).
Proof. exact b64_length. Qed.
Print Assumptions C63_base64_length.
(** What the command prints spells the digest in the chosen format. *)
Theorem C63_printed : forall p C rest ds s a steps t,
  cli_digest p C rest b64_encode ds s a = (steps, Ok (Some t)) ->
  steps = [] /\ exists x y d, signable_open rest (fs_read s (da_input a)) = Ok x /\
    choose_sections x (da_sections a) = Ok y /\
    signable_digest p C rest ds y (fs_read s (da_input a)) (if da_sha512 a then ECDSA_SHA2_512 else ECDSA_SHA2_256) = Ok d /\
    match da_format a with Hex => spells t d | Base64 => b64_spells t d end.
Proof.
  intros p C rest ds s a steps t H. destruct (digest_print _ _ _ _ _ _ _ _ _ H) as (-> & _ & x & y & d & A & B & D & ->).
  split; [reflexivity|]. exists x, y, d. do 3 (split; [assumption|]).
  destruct (da_format a); [apply CliFacts.hex_spells|apply b64_encode_spells].
Qed.
Print Assumptions C63_printed.
Example C63_base64_example :
  b64_encode (bstr "Man") = bstr "TWFu" /\ b64_encode (bstr "Ma") = bstr "TWE=" /\ b64_encode (bstr "M") = bstr "TQ==" /\
  b64_encode (bstr "light work.") = bstr "bGlnaHQgd29yay4=" /\ b64_encode [xfb; xff; xbf] = bstr "+/+/".
Proof. repeat split. Qed.
Example C63_printed_example : exists t,
  cli_digest Debug toyC all_ok b64_encode fr2 (toy_fs (plain ex_zip)) (mkDigestArgs (bstr "in") true None [] Base64) = ([], Ok (Some t)).
Proof. eexists. vm_compute. reflexivity. Qed.

(** * C76 - what is dumped is what is digested *)
(** A module.  The parts dumped are those digested, the directory offset of the
    record being replaced, for the digest, by the length of the content. *)
Theorem C76_module : forall p C rest base64 ds s a out steps file e,
  cli_digest p C rest base64 ds s a = (steps, Ok None) -> da_dump a = Some out -> fs_read s (da_input a) = Some file ->
  fs_file s (da_input a) <> fs_file s out ->
  (forall algo, fills (ds algo)) ->
  (forall t, file <> ELFMAG ++ t) -> len file < 2 ^ 63 -> find_eocd file (len file) = Ok e ->
  p = Debug \/ eo_cd_offset e <= eo_off e ->
  exists content mid cdr h t d,
    regions_of p file e content mid cdr h (le 4 (eo_cd_offset e)) t /\
    fs_data (run s steps) (fs_file s out) = Some (content ++ cdr ++ h ++ le 4 (eo_cd_offset e) ++ t) /\
    is_digest (hash C (if da_sha512 a then ECDSA_SHA2_512 else ECDSA_SHA2_256)) content cdr (h ++ le 4 (len content) ++ t) d /\
    cli_digest p C rest base64 ds s (without_dump a) =
      ([], Ok (Some (match da_format a with Hex => hex_encode d | Base64 => base64 d end))).
Proof. exact dump_module. Qed.
Print Assumptions C76_module.

(** An unsigned module is dumped whole, and its digest is that of the dump cut at
    the directory and at the end record. *)
Theorem C76_unsigned : forall p C rest base64 ds s a out steps file e,
  cli_digest p C rest base64 ds s a = (steps, Ok None) -> da_dump a = Some out -> fs_read s (da_input a) = Some file ->
  fs_file s (da_input a) <> fs_file s out ->
  (forall algo, fills (ds algo)) ->
  (forall t, file <> ELFMAG ++ t) -> len file < 2 ^ 63 -> find_eocd file (len file) = Ok e ->
  p = Debug \/ eo_cd_offset e <= eo_off e ->
  s_get_signing_block p (module_new file) file = Ok None ->
  fs_data (run s steps) (fs_file s out) = Some file /\
  exists content cdr record d, file = content ++ cdr ++ record /\ len content = eo_cd_offset e /\
    len (content ++ cdr) = eo_off e /\
    is_digest (hash C (if da_sha512 a then ECDSA_SHA2_512 else ECDSA_SHA2_256)) content cdr record d /\
    cli_digest p C rest base64 ds s (without_dump a) =
      ([], Ok (Some (match da_format a with Hex => hex_encode d | Base64 => base64 d end))).
Proof. exact dump_unsigned. Qed.
Print Assumptions C76_unsigned.

(** An ELF file: the sections, and the two-level digest of their pieces. *)
Theorem C76_elf : forall p C rest base64 ds s a out steps file,
  cli_digest p C rest base64 ds s a = (steps, Ok None) -> da_dump a = Some out -> fs_read s (da_input a) = Some file ->
  fs_file s (da_input a) <> fs_file s out ->
  (exists t, file = ELFMAG ++ t) ->
  exists sections pieces,
    fs_data (run s steps) (fs_file s out) = Some (List.concat sections) /\
    Forall (fun x => x <> [] /\ exists before after, file = before ++ x ++ after) sections /\
    Forall2 splits sections pieces /\
    cli_digest p C rest base64 ds s (without_dump a) =
      ([], Ok (Some (let d := tree_digest (hash C (if da_sha512 a then ECDSA_SHA2_512 else ECDSA_SHA2_256)) (List.concat pieces) in
                     match da_format a with Hex => hex_encode d | Base64 => base64 d end))).
Proof. exact dump_elf. Qed.
Print Assumptions C76_elf.

Example C76_unsigned_example :
  let s := toy_fs (plain ex_zip) in
  exists w e, cli_digest Debug toyC all_ok b64_encode fr2 s (dump_to (bstr "out")) = (w, Ok None) /\
    (forall algo, fills (fr2 algo)) /\ (forall t, plain ex_zip <> ELFMAG ++ t) /\
    find_eocd (plain ex_zip) (len (plain ex_zip)) = Ok e /\ eo_cd_offset e <= eo_off e /\
    s_get_signing_block Debug (module_new (plain ex_zip)) (plain ex_zip) = Ok None.
Proof.
  do 2 eexists. split; [vm_compute; reflexivity|]. split; [intros a i k; vm_compute; discriminate|].
  split; [intros t; vm_compute; discriminate|]. split; [vm_compute; reflexivity|]. split; [vm_compute; discriminate|vm_compute; reflexivity].
Qed.
Example C76_signed_example :
  let s := toy_fs ex_signed in
  exists w e d, cli_digest Debug toyC all_ok b64_encode fr2 s (dump_to (bstr "out")) = (w, Ok None) /\
    find_eocd ex_signed (len ex_signed) = Ok e /\ eo_cd_offset e <= eo_off e /\
    fs_data (run s w) 2 = Some d /\ len d < len ex_signed /\ len d = len (plain ex_zip) /\ beq d (plain ex_zip) = false.
Proof.
  do 3 eexists. split; [vm_compute; reflexivity|]. split; [vm_compute; reflexivity|]. split; [vm_compute; discriminate|].
  split; [vm_compute; reflexivity|]. split; [vm_compute; reflexivity|]. split; vm_compute; reflexivity.
Qed.
Example C76_elf_example :
  let s := toy_fs (el_data toy64) in
  exists w d, cli_digest Debug toyC all_ok b64_encode fr2 s (mkDigestArgs (bstr "in") false (Some (bstr "out")) [str ".text"; str ".rodata"] Base64) = (w, Ok None) /\
    fs_data (run s w) 2 = Some d /\ d = toy_text ++ toy_rodata.
Proof. do 2 eexists. split; [vm_compute; reflexivity|]. split; vm_compute; reflexivity. Qed.

(** The digest command does not find, in the dump of a signed module, the digest
    that it prints for the module: the record of the dump still has the
    directory offset of the signed file. *)
Theorem C76_dump_again_refuted :
  let s := toy_fs ex_signed in
  let '(w, r) := cli_digest Debug toyC all_ok b64_encode fr2 s (dump_to (bstr "out")) in
  r = Ok None /\
  (exists t, cli_digest Debug toyC all_ok b64_encode fr2 s (without_dump (dump_to (bstr "out"))) = ([], Ok (Some t))) /\
  forall t, snd (cli_digest Debug toyC all_ok b64_encode fr2 (run s w) (mkDigestArgs (bstr "out") false None [] Hex)) <> Ok (Some t).
Proof. vm_compute. split; [reflexivity|]. split; [eexists; reflexivity|discriminate]. Qed.
Print Assumptions C76_dump_again_refuted.

(** A digest is printed for an ELF file whose sections cannot be dumped. *)
Theorem C76_undumpable_refuted :
  let s := toy_fs PropElf.toy_ghost in
  let a := mkDigestArgs (bstr "in") false (Some (bstr "out")) [str ".text"; str ".rodata"] Hex in
  (exists t, cli_digest Debug toyC all_ok b64_encode fr2 s (without_dump a) = ([], Ok (Some t))) /\
  exists e, snd (cli_digest Debug toyC all_ok b64_encode fr2 s a) = Err e.
Proof. cbv zeta. split; eexists; vm_compute; reflexivity. Qed.
Print Assumptions C76_undumpable_refuted.
