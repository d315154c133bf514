(** PropCli.v - properties C49-C52, C57 and C60-C64: the commands.

    Vocabulary: CliSpec.v (and VerifySpec.v, ZipSpec.v, RegionSpec.v, ElfSpec.v).
    [s] is a file system, [ds] are read schedules, [L] the key library, [rest]
    the unmodelled checks of the ELF parser.  [cli_sign] returns the steps that
    change the file system and the exit status; [reached s steps s'] are the
    states that a run can leave behind at any moment. *)
From Verif Require Import Base BaseFacts Utils Algorithms Common SchemeV2 SourceStamp Utf8 ElfInfo
  SigningBlock Wire Built BuiltFacts Spec PropBlockFacts Zip Digest Module Signable ZipSpec RegionSpec ZipFacts DigestFacts ModuleFacts
  ModuleProps RawFacts Toy Signer Verifier ModuleVerify VerifySpec VerifyFacts SignSpec SignFacts VerifyProps
  EndToEnd ToyVerify Keystore Elf ElfSpec ElfFacts ToyElf Cli CliSpec CliFacts CliProps CliProps2 CliProps3 CliProps4 ToyCli.
From Coq Require Import Strings.String.
Open Scope N_scope.

(** * C49 - verify's exit status *)
Theorem C49_exit_status : forall p C K builtin now ds s file root,
  cli_verify p C K builtin now ds s file root = Ok tt <->
  exists f b roots, fs_read s file = Some f /\ m_get_signing_block p (module_new f) f = Ok b /\
    roots_given K builtin s root roots /\
    let D := fun a d => m_digest p C (ds a) (module_new f) f a = Ok d in
    v2_signers_of b <> [] /\ Forall (v2_signer_good C K now roots D) (v2_signers_of b) /\
    match stamps_of b with [] => True | st :: _ => stamp_good C K now roots D st end.
Proof. exact cli_verify_iff. Qed.
Print Assumptions C49_exit_status.
(** The file signed by the sign command below is accepted with the right root
    and refused without. *)
Example C49_example :
  cli_verify Debug toyC toyK [] (Some 500) fr2 signed_fs (bstr "out") (Some (bstr "root")) = Ok tt /\
  cli_verify Debug toyC toyK [] (Some 500) fr2 signed_fs (bstr "out") None <> Ok tt /\
  cli_verify Debug toyC toyK [] (Some 500) fr2 signed_fs (bstr "in") (Some (bstr "root")) <> Ok tt.
Proof. split; [vm_compute; reflexivity|split; vm_compute; discriminate]. Qed.

(** * C50 - sign, then verify *)
(** What the sign command does with an unsigned module: it writes the module
    with a block, or the credentials do not fit a signing block and it fails
    without touching anything. *)
Theorem C50_sign : forall p C L rest clk ds s a z signer,
  crypto_ok C -> fs_read s (sa_input a) = Some (plain z) -> zip_ok z [] -> zip_small z [] -> unsigned z ->
  (forall t, plain z <> ELFMAG ++ t) -> sa_sections a = [] ->
  fs_file s (sa_output a) <> fs_file s (sa_input a) -> fs_can_create s (sa_output a) = true ->
  cli_signer L s a = Ok signer ->
  (forall c, ms_v2 signer = Some c \/ ms_stamp signer = Some c ->
     (exists pub, public_key_der C (sc_key c) = Ok pub) /\ exists k, clone_private_key C (sc_key c) = Ok k) ->
  (ms_stamp signer <> None -> clk <> None) ->
  (exists b, built_block b /\ cli_sign p C L rest clk ds s a =
     ([Truncate (fs_file s (sa_output a)); Append (fs_file s (sa_output a)) (with_block z (block_to_u8 b))], Ok tt)) \/
  cli_sign p C L rest clk ds s a = ([], Err EGeneratedTooLarge) \/
  cli_sign p C L rest clk ds s a = ([], match p with Debug => Panic | Release => Err EPaddingGap end).
Proof. exact cli_sign_result. Qed.
Print Assumptions C50_sign.

(** After a successful run, verify accepts exactly if the certificates chain to
    the configured root.  [zip_ok]: the archive stays well-formed when a block is
    inserted; see [C50_short_comment]. *)
Theorem C50_sign_verify : forall p q C K L rest builtin clk now ds1 ds2 s a z steps signer root pem r,
  crypto_ok C -> (forall x, fills (ds1 x)) -> (forall x, fills (ds2 x)) ->
  fs_read s (sa_input a) = Some (plain z) -> zip_ok z [] -> unsigned z -> (forall t, plain z <> ELFMAG ++ t) ->
  (forall blk, len blk <= 16392 -> zip_ok z blk /\ zip_small z blk) ->
  fs_file s (sa_output a) <> fs_file s (sa_input a) -> fs_can_read s (sa_output a) = true ->
  fs_read s root = Some pem -> fs_file s root <> fs_file s (sa_output a) ->
  pem_parse K pem = Some (CERTIFICATE_TAG, r) ->
  cli_signer L s a = Ok signer ->
  (forall c, ms_v2 signer = Some c \/ ms_stamp signer = Some c -> certified C K c) ->
  cli_sign p C L rest clk ds1 s a = (steps, Ok tt) ->
  (cli_verify q C K builtin now ds2 (run s steps) (sa_output a) (Some root) = Ok tt <->
     (forall c, ms_v2 signer = Some c -> trusted K now [r] (sc_cert c) (sc_chain c)) /\
     (forall c, ms_stamp signer = Some c -> trusted K now [r] (sc_cert c) [])).
Proof. exact cli_sign_verify. Qed.
Print Assumptions C50_sign_verify.

Theorem C50_short_comment : forall z, zip_ok z [] -> len (z_comment z) < 13 ->
  len (z_entries z) + 16392 < 2 ^ 32 -> len (plain z) + 16392 < 2 ^ 63 ->
  forall blk, len blk <= 16392 -> zip_ok z blk /\ zip_small z blk.
Proof. exact blocks_fit. Qed.
Print Assumptions C50_short_comment.

(** The two-key example satisfies all of it. *)
Example C50_example : let s := toy_fs (plain ex_zip) in
  fs_read s (sa_input toy_args) = Some (plain ex_zip) /\ zip_ok ex_zip [] /\ unsigned ex_zip /\
  len (z_comment ex_zip) < 13 /\ len (z_entries ex_zip) + 16392 < 2 ^ 32 /\ len (plain ex_zip) + 16392 < 2 ^ 63 /\
  fs_file s (sa_output toy_args) <> fs_file s (sa_input toy_args) /\ fs_can_read s (sa_output toy_args) = true /\
  pem_parse toyK (x50 :: root_cert) = Some (CERTIFICATE_TAG, root_cert) /\
  cli_signer toyKL s toy_args = Ok signer12 /\ ms_stamp signer12 <> None /\
  (forall c, ms_v2 signer12 = Some c \/ ms_stamp signer12 = Some c -> certified toyC toyK c) /\
  snd toy_run = Ok tt /\
  (forall c, ms_v2 signer12 = Some c -> trusted toyK (Some 500) [root_cert] (sc_cert c) (sc_chain c)).
Proof.
  cbv zeta. split; [reflexivity|]. split; [apply ex_zip_ok|]. split; [apply ex_unsigned|].
  do 3 (split; [vm_compute; reflexivity|]). split; [vm_compute; discriminate|]. split; [reflexivity|].
  split; [reflexivity|]. split; [reflexivity|]. split; [discriminate|].
  split; [intros c [[= <-]|[= <-]]; [apply certified1|apply certified2]|].
  split; [vm_compute; reflexivity|]. intros c [= <-]. apply trusted1.
Qed.

(** * C51 - tampering *)
(** Two accepted files with a V2 signer in common agree outside the block, or two
    different messages that were hashed while digesting them have the same
    hash. *)
Theorem C51_verify : forall p q C K1 K2 builtin1 builtin2 now1 now2 ds1 ds2 s1 s2 file1 file2 root1 root2 f1 f2 b1 b2 e1 e2 sg,
  hash_sized C -> (forall a, fills (ds1 a)) -> (forall a, fills (ds2 a)) ->
  fs_read s1 file1 = Some f1 -> fs_read s2 file2 = Some f2 -> len f1 < 2 ^ 63 -> len f2 < 2 ^ 63 ->
  cli_verify p C K1 builtin1 now1 ds1 s1 file1 root1 = Ok tt -> cli_verify q C K2 builtin2 now2 ds2 s2 file2 root2 = Ok tt ->
  m_get_signing_block p (module_new f1) f1 = Ok b1 -> m_get_signing_block q (module_new f2) f2 = Ok b2 ->
  In sg (v2_signers_of b1) -> In sg (v2_signers_of b2) ->
  find_eocd f1 (len f1) = Ok e1 -> p = Debug \/ eo_cd_offset e1 <= eo_off e1 ->
  find_eocd f2 (len f2) = Ok e2 -> q = Debug \/ eo_cd_offset e2 <= eo_off e2 ->
  (exists a, (a = ECDSA_SHA2_256 \/ a = ECDSA_SHA2_512) /\ module_clash p q (hash C a) f1 e1 f2 e2) \/ same_outside_block p q f1 f2 e1 e2.
Proof. exact cli_tamper. Qed.
Print Assumptions C51_verify.
(** The signed archive, and the same archive with the values of its block in
    another order: two different files, both accepted, with the same signer. *)
Definition swapped_signed : bytes :=
  with_block ex_zip (block_to_u8 (fresh_block (rev (bk_content zip_block)))).
Example C51_example : hash_sized toyC /\ zip_signed <> swapped_signed /\
  cli_verify Debug toyC toyK [] (Some 500) fr2 (toy_fs zip_signed) (bstr "in") (Some (bstr "root")) = Ok tt /\
  cli_verify Release toyC toyK [] (Some 500) fr2 (toy_fs swapped_signed) (bstr "in") (Some (bstr "root")) = Ok tt /\
  exists b1 b2 e1 e2 sg,
    m_get_signing_block Debug (module_new zip_signed) zip_signed = Ok b1 /\
    m_get_signing_block Release (module_new swapped_signed) swapped_signed = Ok b2 /\
    In sg (v2_signers_of b1) /\ In sg (v2_signers_of b2) /\
    find_eocd zip_signed (len zip_signed) = Ok e1 /\ eo_cd_offset e1 <= eo_off e1 /\
    find_eocd swapped_signed (len swapped_signed) = Ok e2 /\ eo_cd_offset e2 <= eo_off e2.
Proof.
  split; [split; exists 32; (split; [reflexivity|apply toy_hash_len])|].
  split; [intros E; assert (X : beq zip_signed swapped_signed = false) by (vm_compute; reflexivity); rewrite E, beq_refl in X; discriminate X|].
  split; [vm_compute; reflexivity|]. split; [vm_compute; reflexivity|].
  assert (Z : forall blk, len blk <= 16392 -> zip_ok ex_zip blk).
  { intros blk H. apply (blocks_fit ex_zip ex_zip_ok); [reflexivity|vm_compute; reflexivity|vm_compute; reflexivity|exact H]. }
  assert (Y1 : len (block_to_u8 zip_block) <= 16392) by (vm_compute; discriminate).
  assert (Y2 : len (block_to_u8 (fresh_block (rev (bk_content zip_block)))) <= 16392) by (vm_compute; discriminate).
  pose proof (find_eocd_with_block _ _ (Z _ Y1)) as Z1. pose proof (find_eocd_with_block _ _ (Z _ Y2)) as Z2.
  exists (get_ok dummy_block (m_get_signing_block Debug (module_new zip_signed) zip_signed)),
    (get_ok dummy_block (m_get_signing_block Release (module_new swapped_signed) swapped_signed)).
  do 2 eexists. exists (hd no_sigs (v2_signers_of zip_block)).
  split; [vm_compute; reflexivity|]. split; [vm_compute; reflexivity|].
  assert (H : forall (x : signer) l, l = [x] -> In x l) by (intros x l ->; now left).
  split; [apply H; vm_compute; reflexivity|]. split; [apply H; vm_compute; reflexivity|].
  split; [exact Z1|]. split; [cbn [zip_eocd eo_cd_offset eo_off]; lia|]. split; [exact Z2|cbn [zip_eocd eo_cd_offset eo_off]; lia].
Qed.

(** * C52 - info *)
(** info shows the block that verify checks exactly if no magic follows the
    block and the block ends in the last 16 MiB of the file. *)
Theorem C52_same_block : forall p C K builtin now s file f b, len f < U64 -> fs_read s file = Some f ->
  m_get_signing_block p (module_new f) f = Ok b ->
  ((exists o, cli_info p C K builtin now s file = Ok o /\ io_block o = b) <->
   (forall x y, f = x ++ MAGIC ++ y -> len x + 16 <= bk_end b) /\ len f + 24 <= bk_end b + 2 ^ 24).
Proof. exact cli_info_iff. Qed.
Print Assumptions C52_same_block.
Definition has_ok {A} (r : res A) : bool := match r with Ok _ => true | _ => false end.
Example C52_example : exists f b o, fs_read signed_fs (bstr "out") = Some f /\
  m_get_signing_block Debug (module_new f) f = Ok b /\
  cli_info Debug toyC toyK [] (Some 500) signed_fs (bstr "out") = Ok o /\ io_block o = b.
Proof.
  assert (H : exists f, fs_read signed_fs (bstr "out") = Some f /\
            (do o <- cli_info Debug toyC toyK [] (Some 500) signed_fs (bstr "out"); Ok (io_block o)) = m_get_signing_block Debug (module_new f) f /\
            has_ok (m_get_signing_block Debug (module_new f) f) = true).
  { exists (now_content (fs_read signed_fs (bstr "out"))). split; [vm_compute; reflexivity|split; vm_compute; reflexivity]. }
  destruct H as (f & H1 & H2 & H3). exists f. destruct (m_get_signing_block Debug (module_new f) f) as [b|?|]; [|discriminate H3|discriminate H3].
  apply bind_Ok in H2 as (o & H4 & H5). exists b, o. split; [exact H1|]. split; [reflexivity|]. split; [exact H4|]. now injection H5.
Qed.

(** An archive comment that contains a signing block: verify checks the real
    block, info shows the one in the comment. *)
Definition comment_run := cli_sign Debug toyC toyKL all_ok (Some 500) fr2 (toy_fs (plain comment_zip)) toy_args.
Definition comment_fs := run (toy_fs (plain comment_zip)) (fst comment_run).
Definition comment_file := now_content (fs_read comment_fs (bstr "out")).
Lemma other_block : forall (rb : res signing_block) (ro : res info_output) X,
  match rb, ro with Ok b, Ok o => (bk_start b =? bk_start (io_block o), bk_content (io_block o)) | _, _ => (true, []) end = (false, X) ->
  exists b o, rb = Ok b /\ ro = Ok o /\ io_block o <> b /\ bk_content (io_block o) = X.
Proof.
  intros [b|e|] [o|e'|] X; try discriminate. intros [= H1 <-]. exists b, o. split; [auto|]. split; [auto|]. split; [|auto].
  intros <-. rewrite N.eqb_refl in H1. discriminate.
Qed.
Theorem C52_refuted :
  cli_verify Debug toyC toyK [] (Some 500) fr2 comment_fs (bstr "out") (Some (bstr "root")) = Ok tt /\
  exists b o, m_get_signing_block Debug (module_new comment_file) comment_file = Ok b /\
    cli_info Debug toyC toyK [] (Some 500) comment_fs (bstr "out") = Ok o /\ io_block o <> b /\
    bk_content (io_block o) = bk_content ex_block.
Proof. split; [|apply other_block]; vm_compute; reflexivity. Qed.
Print Assumptions C52_refuted.

(** * C57 - signed ELF files can be read back *)
(** The block in a signed ELF file has [4096 * k] bytes and the section list;
    it can be read exactly if that is within the parser's limit. *)
Theorem C57_readable : forall p C L rest clk ds s a t e steps out,
  crypto_ok C -> Forall scalars (sa_sections a) ->
  fs_read s (sa_input a) = Some (ELFMAG ++ t) -> elf_parse rest (ELFMAG ++ t) = Ok e -> well_named (ELFMAG ++ t) e ->
  cli_sign p C L rest clk ds s a = (steps, Ok tt) ->
  fs_data (run s steps) (fs_file s (sa_output a)) = Some out -> fits_class e (len out) -> rest out = true ->
  exists e' sh sec signed ts k, elf_parse rest out = Ok e' /\ first_named e' KSU_SIGN_SECTION sh /\ contents out sh = Some sec /\
    resolved_sections rest (mkElfFile (ELFMAG ++ t) signed) = Ok ts /\ k <= 4 /\ len sec = 4096 * k + info_bytes ts /\
    forall q names, (len sec <= 16392 -> exists b, elf_get_signing_block rest q (mkElfFile out names) = Ok (Some b) /\ block_to_u8 b = sec) /\
      (16392 < len sec -> elf_get_signing_block rest q (mkElfFile out names) = Err EeValue).
Proof. exact cli_elf_read. Qed.
Print Assumptions C57_readable.
Definition elf_run := cli_sign Debug toyC toyKL all_ok (Some 500) fr2 (toy_fs (el_data toy64)) toy_args.
Lemma entry_count : forall (r : res (option signing_block)) n,
  match r with Ok (Some b) => len (bk_content b) =? n | _ => false end = true -> exists b, r = Ok (Some b) /\ len (bk_content b) = n.
Proof. intros [[b|]|e|] n; try discriminate. intros H. exists b. split; [auto|now apply N.eqb_eq]. Qed.
Definition elf_out : bytes := now_content (fs_data (run (toy_fs (el_data toy64)) (fst elf_run)) 2).
Example C57_example : exists b, snd elf_run = Ok tt /\
  fs_data (run (toy_fs (el_data toy64)) (fst elf_run)) 2 = Some elf_out /\
  elf_parse all_ok (el_data toy64) = Ok toy64_elf /\
  fits_class toy64_elf (len elf_out) /\ elf_get_signing_block all_ok Debug (mkElfFile elf_out []) = Ok (Some b) /\
  len (bk_content b) = 4.
Proof.
  assert (H : exists b, elf_get_signing_block all_ok Debug (mkElfFile elf_out []) = Ok (Some b) /\ len (bk_content b) = 4)
    by (apply entry_count; vm_compute; reflexivity).
  destruct H as (b & H1 & H2). exists b. split; [vm_compute; reflexivity|]. split; [vm_compute; reflexivity|].
  split; [vm_compute; reflexivity|]. split; [vm_compute; reflexivity|]. split; [exact H1|exact H2].
Qed.

(** A certificate of 12 KiB: signing succeeds, the signature cannot be read. *)
Definition big_cert : bytes := leaf_cert ++ zeros 12600.
Definition big_fs : fs := cert_fs (el_data toy64) big_cert.
Definition big_run := cli_sign Debug toyC toyKL all_ok (Some 500) fr2 big_fs toy_args.
Definition big_out : bytes := now_content (fs_data (run big_fs (fst big_run)) 2).
Theorem C57_refuted : snd big_run = Ok tt /\ fs_data (run big_fs (fst big_run)) 2 = Some big_out /\
  forall q names, elf_get_signing_block all_ok q (mkElfFile big_out names) = Err EeValue.
Proof.
  assert (H1 : elf_get_signing_block all_ok Debug (mkElfFile big_out []) = Err EeValue) by (vm_compute; reflexivity).
  assert (H2 : elf_get_signing_block all_ok Release (mkElfFile big_out []) = Err EeValue) by (vm_compute; reflexivity).
  split; [vm_compute; reflexivity|]. split; [vm_compute; reflexivity|].
  intros q names. rewrite (elf_block_names all_ok q big_out names []). destruct q; [exact H1|exact H2].
Qed.
Print Assumptions C57_refuted.

(** * C60 - other files, and interrupted runs *)
Theorem C60_other_files : forall p C L rest clk ds s a steps r s' q,
  cli_sign p C L rest clk ds s a = (steps, r) -> reached s steps s' ->
  fs_file s q <> fs_file s (sa_output a) -> fs_read s' q = fs_read s q.
Proof. exact sign_others. Qed.
Print Assumptions C60_other_files.
(** The output is as it was (possibly absent), or an initial part of the final
    bytes. *)
Theorem C60_output : forall p C L rest clk ds s a steps r s',
  cli_sign p C L rest clk ds s a = (steps, r) -> reached s steps s' ->
  let out := fs_file s (sa_output a) in
  fs_data s' out = fs_data s out \/
  exists w final, fs_data s' out = Some w /\ fs_data (run s steps) out = Some final /\ CliSpec.prefix w final.
Proof. exact sign_output. Qed.
Print Assumptions C60_output.
(** A run killed after ten bytes. *)
Lemma cut_run : forall s l, match l with
  | [Truncate f; Append g w] => (f =? 2) && (g =? 2) && (10 <? len w) | _ => false end = true ->
  exists s' w, reached s l s' /\ fs_data s' 2 = Some (takeN 10 w) /\ fs_data (run s l) 2 = Some w /\ 10 < len w.
Proof.
  intros s [|[f|] [|[|g w] [|]]]; try discriminate. rewrite !Bool.andb_true_iff, !N.eqb_eq, N.ltb_lt. intros [[-> ->] H].
  exists (apply (apply s (Truncate 2)) (Append 2 (takeN 10 w))), w.
  split; [apply reached_next, reached_cut|]. split; [reflexivity|]. split; [reflexivity|exact H].
Qed.
Example C60_example : exists s' w, reached (toy_fs (plain ex_zip)) (fst toy_run) s' /\
  fs_data s' 2 = Some (takeN 10 w) /\ fs_data signed_fs 2 = Some w /\ 10 < len w /\
  fs_data (toy_fs (plain ex_zip)) 2 = Some (bstr "old").
Proof.
  assert (H : exists s' w, reached (toy_fs (plain ex_zip)) (fst toy_run) s' /\ fs_data s' 2 = Some (takeN 10 w) /\
    fs_data signed_fs 2 = Some w /\ 10 < len w) by (apply cut_run; vm_compute; reflexivity).
  destruct H as (s' & w & H1 & H2 & H3 & H4). exists s', w.
  split; [exact H1|]. split; [exact H2|]. split; [exact H3|]. split; [exact H4|reflexivity].
Qed.

(** * C61 - signing in place *)
(** ELF files: the result does not depend on where the output goes; but if the
    file cannot be written after it was created, nothing is left. *)
Theorem C61_elf : forall p C L rest clk ds s a o t,
  fs_read s (sa_input a) = Some (ELFMAG ++ t) ->
  fs_can_create s (sa_output a) = true -> fs_can_create s o = true ->
  let a' := mkSignArgs (sa_input a) o (sa_v2 a) (sa_stamp a) (sa_sections a) in
  let '(steps, r) := cli_sign p C L rest clk ds s a in
  let '(steps', r') := cli_sign p C L rest clk ds s a' in
  r' = r /\
  ((steps = [] /\ steps' = [] /\ r <> Ok tt) \/
   exists w, fs_data (run s steps) (fs_file s (sa_output a)) = Some w /\
             fs_data (run s steps') (fs_file s o) = Some w /\ (r <> Ok tt -> w = [])).
Proof. exact in_place_elf. Qed.
Print Assumptions C61_elf.
Example C61_elf_example :
  let run1 := cli_sign Debug toyC toyKL all_ok (Some 500) fr2 (toy_fs (el_data toy64)) toy_args in
  let run2 := cli_sign Debug toyC toyKL all_ok (Some 500) fr2 (toy_fs (el_data toy64)) (in_place (bstr "link")) in
  snd run1 = Ok tt /\ snd run2 = Ok tt /\
  fs_data (run (toy_fs (el_data toy64)) (fst run1)) 2 = fs_data (run (toy_fs (el_data toy64)) (fst run2)) 1.
Proof. cbv zeta. split; [vm_compute; reflexivity|split; vm_compute; reflexivity]. Qed.

(** Modules: signing in place never succeeds, and if the output is created the
    module is lost. *)
Theorem C61_module : forall p C L rest clk ds s a steps r file,
  cli_sign p C L rest clk ds s a = (steps, r) ->
  fs_file s (sa_output a) = fs_file s (sa_input a) ->
  fs_read s (sa_input a) = Some file -> (forall t, file <> ELFMAG ++ t) ->
  r <> Ok tt /\
  ((steps = [] /\ fs_read (run s steps) (sa_input a) = Some file) \/
   (steps <> [] /\ fs_read (run s steps) (sa_input a) = Some [])).
Proof. exact in_place_module. Qed.
Print Assumptions C61_module.
(** The same inputs that are signed well elsewhere; under its own name and
    through a link. *)
Theorem C61_refuted :
  let s := toy_fs (plain ex_zip) in
  let here o := cli_sign Debug toyC toyKL all_ok (Some 500) fr2 s (in_place o) in
  snd toy_run = Ok tt /\
  (exists e, snd (here (bstr "in")) = Err e) /\ fs_read (run s (fst (here (bstr "in")))) (bstr "in") = Some [] /\
  (exists e, snd (here (bstr "link")) = Err e) /\ fs_read (run s (fst (here (bstr "link")))) (bstr "in") = Some [].
Proof.
  cbv zeta. split; [vm_compute; reflexivity|]. split; [eexists; vm_compute; reflexivity|].
  split; [vm_compute; reflexivity|]. split; [eexists; vm_compute; reflexivity|vm_compute; reflexivity].
Qed.
Print Assumptions C61_refuted.
(** An ELF file that passes every check before the output is created and cannot
    be written: it is lost as well. *)
Theorem C61_elf_refuted :
  let s := toy_fs toy_xindex in
  let here := cli_sign Debug toyC toyKL all_ok (Some 500) fr2 s (in_place (bstr "in")) in
  (exists e, snd here = Err e) /\ fs_read (run s (fst here)) (bstr "in") = Some [].
Proof. cbv zeta. split; [eexists; vm_compute; reflexivity|vm_compute; reflexivity]. Qed.
Print Assumptions C61_elf_refuted.

(** * C62 - digest --dump *)
Theorem C62_dump : forall p s input output l file, fs_read s input = Some file ->
  fs_file s input <> fs_file s output -> fs_can_create s output = true ->
  exists w r, dump_regions p s input output l = (w, r) /\
    (forall q, fs_file s q <> fs_file s output -> fs_read (run s w) q = fs_read s q) /\
    (Forall (region_in file) l -> sizes l < U64 \/ p = Release -> r = Ok tt) /\
    (r = Ok tt -> Forall (region_in file) l /\
       fs_data (run s w) (fs_file s output) = Some (region_bytes file l)) /\
    (r = Panic -> p = Debug /\ U64 <= sizes l).
Proof. exact dump_spec. Qed.
Print Assumptions C62_dump.
(** The command: for the regions [l] of the opened file. *)
Theorem C62_command : forall p C rest base64 ds s a out steps r file,
  cli_digest p C rest base64 ds s a = (steps, r) -> da_dump a = Some out -> fs_read s (da_input a) = Some file ->
  fs_file s (da_input a) <> fs_file s out -> fs_can_create s out = true ->
  (forall q, fs_file s q <> fs_file s out -> fs_read (run s steps) q = fs_read s q) /\
  forall x l, signable_open rest (Some file) = Ok x -> forall y, choose_sections x (da_sections a) = Ok y ->
    signable_regions p rest y (Some file) = Ok l ->
    (r = Ok None <-> Forall (region_in file) l /\ (sizes l < U64 \/ p = Release)) /\
    (r = Ok None -> fs_data (run s steps) (fs_file s out) = Some (region_bytes file l)).
Proof. exact digest_dump. Qed.
Print Assumptions C62_command.
(** A module: everything but the signing block (the directory offset in it is
    that of the signed file). *)
Theorem C62_module : forall p C rest base64 ds s a out steps r file e,
  cli_digest p C rest base64 ds s a = (steps, r) -> da_dump a = Some out -> fs_read s (da_input a) = Some file ->
  fs_file s (da_input a) <> fs_file s out ->
  (forall t, file <> ELFMAG ++ t) -> len file < 2 ^ 63 -> find_eocd file (len file) = Ok e ->
  p = Debug \/ eo_cd_offset e <= eo_off e -> r = Ok None ->
  exists content mid cdr h off t, regions_of p file e content mid cdr h off t /\
    fs_data (run s steps) (fs_file s out) = Some (content ++ cdr ++ h ++ off ++ t).
Proof. exact digest_dump_module. Qed.
Print Assumptions C62_module.
Definition dump_to (o : path) : digest_args := mkDigestArgs (bstr "in") false (Some o) [] Hex.
Example C62_example :
  let s := toy_fs (plain ex_zip) in
  let '(w, r) := cli_digest Debug toyC all_ok (fun b => b) fr2 s (dump_to (bstr "out")) in
  r = Ok None /\ fs_read (run s w) (bstr "out") = Some (plain ex_zip) /\ fs_read (run s w) (bstr "in") = Some (plain ex_zip).
Proof. vm_compute. split; [reflexivity|split; reflexivity]. Qed.
(** A dump over the input destroys it. *)
Theorem C62_alias_refuted :
  let s := toy_fs (plain ex_zip) in
  let '(w, r) := cli_digest Debug toyC all_ok (fun b => b) fr2 s (dump_to (bstr "link")) in
  (exists e, r = Err e) /\ fs_read (run s w) (bstr "in") = Some [].
Proof. vm_compute. split; [eexists; reflexivity|reflexivity]. Qed.
Print Assumptions C62_alias_refuted.

(** * C63 - hexadecimal output *)
Theorem C63_spells : forall d, spells (hex_encode d) d.
Proof. exact hex_spells. Qed.
Print Assumptions C63_spells.
Theorem C63_injective : forall d1 d2, hex_encode d1 = hex_encode d2 -> d1 = d2.
Proof. exact hex_injective. Qed.
Print Assumptions C63_injective.
Theorem C63_length : forall d, len (hex_encode d) = 2 * len d.
Proof. exact hex_length. Qed.
Print Assumptions C63_length.
(** The command prints the digest of the opened file, and changes nothing. *)
Theorem C63_command : forall p C rest base64 ds s a steps t,
  cli_digest p C rest base64 ds s a = (steps, Ok (Some t)) ->
  steps = [] /\ da_dump a = None /\ exists x y d, signable_open rest (fs_read s (da_input a)) = Ok x /\
    choose_sections x (da_sections a) = Ok y /\
    signable_digest p C rest ds y (fs_read s (da_input a)) (if da_sha512 a then ECDSA_SHA2_512 else ECDSA_SHA2_256) = Ok d /\
    t = match da_format a with Hex => hex_encode d | Base64 => base64 d end.
Proof. exact digest_print. Qed.
Print Assumptions C63_command.
Example C63_example : hex_encode [x00; xaf; x9c] = bstr "00af9c".
Proof. reflexivity. Qed.
Example C63_command_example : exists t,
  cli_digest Debug toyC all_ok (fun b => b) fr2 (toy_fs (plain ex_zip)) (mkDigestArgs (bstr "in") true None [] Hex) = ([], Ok (Some t)).
Proof. eexists. vm_compute. reflexivity. Qed.

(** * C64 - format detection *)
Theorem C64_detection : forall f,
  (detect_file_format f = Ok FElf <-> exists t, f = ELFMAG ++ t) /\
  (detect_file_format f = Ok FModule <->
     4 <= len f /\ (forall t, f <> ELFMAG ++ t) /\
     ((exists t, f = [x50; x4b] ++ t) \/ exists o, record_at f o /\ len f <= o + 65557)) /\
  detect_file_format f <> Panic.
Proof. exact detect_spec. Qed.
Print Assumptions C64_detection.
Example C64_example : detect_file_format (el_data toy64) = Ok FElf /\ detect_file_format (plain ex_zip) = Ok FModule /\
  detect_file_format (bstr "no") <> Ok FModule /\ detect_file_format (bstr "hello world") <> Ok FModule.
Proof. do 2 (split; [vm_compute; reflexivity|]). split; vm_compute; discriminate. Qed.
