(** PropAuth.v - C94: what verify accepts has been signed by the owner of the
    key.  Vocabulary: AuthSpec.v, VerifySpec.v, RegionSpec.v. *)
From Verif Require Import Base BaseFacts Utils Algorithms Common SchemeV2 SourceStamp Utf8 ElfInfo
  SigningBlock Wire Built Spec Zip Digest DigestFacts Module Signable ZipSpec ZipFacts RegionSpec
  Toy Signer Verifier ModuleVerify VerifySpec SignSpec SignFacts EndToEnd ToyVerify
  Keystore Elf ElfSpec ToyElf ElfVerifySpec Cli CliSpec ToyCli CrossSpec CliProps2
  ModuleFacts AuthSpec AuthFacts AuthFacts2 PropElf PropCli PropElfVerify.
From Coq Require Import Strings.String.
Open Scope N_scope.

(** * Modules accepted by the verify command *)
(** Take any V2 signer in an accepted module.  If the owner of its key has used
    the library to sign the signer's message, for whatever purpose, then what the
    owner signed then has the content of the module, or hashes collide. *)
Theorem C94_module : forall p C K builtin now ds s file root f e b sg,
  hash_sized C -> (forall a, fills (ds a)) -> fs_read s file = Some f -> proper (Archive p f e) ->
  cli_verify p C K builtin now ds s file root = Ok tt ->
  m_get_signing_block p (module_new f) f = Ok b -> In sg (v2_signers_of b) ->
  forall y k, proper y -> has_signed C (pk_data (sn_key sg)) y k (v2_message sg) ->
  collide C (Archive p f e) y \/ same_content (Archive p f e) y.
Proof. exact auth_module. Qed.
Print Assumptions C94_module.

(** The same the other way round: if nothing that the owner has ever signed has
    the content of the accepted module, and no hashes collide, then the module
    carries a signature that is accepted under the key of a trusted certificate,
    for a message that the owner of the key has never signed. *)
Theorem C94_history : forall p C K builtin now ds s file root f e b sg history,
  hash_sized C -> (forall a, fills (ds a)) -> fs_read s file = Some f -> proper (Archive p f e) ->
  cli_verify p C K builtin now ds s file root = Ok tt ->
  m_get_signing_block p (module_new f) f = Ok b -> In sg (v2_signers_of b) ->
  Forall (fun y => proper y /\ ~ collide C (Archive p f e) y /\ ~ same_content (Archive p f e) y) history ->
  exists roots leaf rest g, roots_given K builtin s root roots /\
    map ct_data (cts_data (sd_certs (sn_data sg))) = leaf :: rest /\ trusted K now roots leaf rest /\
    spki_of K leaf = Some (pk_data (sn_key sg)) /\
    In g (sgs_data (sn_sigs sg)) /\ accepted C (sg_algo g) (pk_data (sn_key sg)) (v2_message sg) (sg_data g) /\
    forall y k, In y history -> ~ has_signed C (pk_data (sn_key sg)) y k (v2_message sg).
Proof. exact auth_history. Qed.
Print Assumptions C94_history.

(** The stamp of an accepted module was moreover made as a stamp. *)
Theorem C94_stamp : forall p C K builtin now ds s file root f e b sb more,
  hash_sized C -> (forall a, fills (ds a)) -> fs_read s file = Some f -> proper (Archive p f e) ->
  cli_verify p C K builtin now ds s file root = Ok tt ->
  m_get_signing_block p (module_new f) f = Ok b -> stamps_of b = sb :: more ->
  forall y k, proper y -> has_signed C (pk_data (sb_key sb)) y k (stamp_message sb) ->
  k = ForStamp /\ (collide C (Archive p f e) y \/ same_content (Archive p f e) y).
Proof. exact auth_stamp. Qed.
Print Assumptions C94_stamp.

(** * ELF files that the library finds valid *)
Theorem C94_elf : forall rest p C K now roots f names0 names b ctx sg,
  hash_sized C -> len f < 2 ^ 64 -> of_sections rest C f names ctx ->
  elf_get_signing_block rest p (mkElfFile f names0) = Ok (Some b) ->
  is_valid (verify_all_with_digest C K now (configured K roots) b (Some ctx)) = true ->
  In sg (v2_signers_of b) ->
  forall y k, proper y -> has_signed C (pk_data (sn_key sg)) y k (v2_message sg) ->
  collide C (Sections rest f names) y \/ same_content (Sections rest f names) y.
Proof. exact auth_elf. Qed.
Print Assumptions C94_elf.

(** * What the sign command signs *)
(** A run of the sign command on an unsigned module signs that module, and
    nothing else can be read from what it writes. *)
Theorem C94_sign_module : forall p q C L rest clk ds s a z e steps,
  crypto_ok C -> (forall x, fills (ds x)) ->
  fs_read s (sa_input a) = Some (plain z) -> zip_ok z [] -> unsigned z -> (forall t, plain z <> ELFMAG ++ t) ->
  (forall blk, len blk <= 16392 -> zip_ok z blk /\ zip_small z blk) ->
  fs_file s (sa_output a) <> fs_file s (sa_input a) ->
  cli_sign p C L rest clk ds s a = (steps, Ok tt) ->
  exists out b, fs_data (run s steps) (fs_file s (sa_output a)) = Some out /\
    m_get_signing_block q (module_new out) out = Ok b /\
    (forall sg, In sg (v2_signers_of b) -> has_signed C (pk_data (sn_key sg)) (Archive p (plain z) e) ForModule (v2_message sg)) /\
    (forall sb, In sb (stamps_of b) -> has_signed C (pk_data (sb_key sb)) (Archive p (plain z) e) ForStamp (stamp_message sb)).
Proof. exact auth_sign_module. Qed.
Print Assumptions C94_sign_module.

(** A run on an ELF file signs the sections asked for. *)
Theorem C94_sign_elf : forall p q C L rest clk ds s a t e steps out names b chosen,
  crypto_ok C -> Forall scalars (sa_sections a) ->
  fs_read s (sa_input a) = Some (ELFMAG ++ t) -> elf_parse rest (ELFMAG ++ t) = Ok e -> well_named (ELFMAG ++ t) e ->
  cli_sign p C L rest clk ds s a = (steps, Ok tt) ->
  fs_data (run s steps) (fs_file s (sa_output a)) = Some out -> fits_class e (len out) -> rest out = true ->
  asked (sa_sections a) chosen ->
  elf_get_signing_block rest q (mkElfFile out names) = Ok (Some b) ->
  (forall sg, In sg (v2_signers_of b) -> has_signed C (pk_data (sn_key sg)) (Sections rest (ELFMAG ++ t) chosen) ForModule (v2_message sg)) /\
  (forall sb, In sb (stamps_of b) -> has_signed C (pk_data (sb_key sb)) (Sections rest (ELFMAG ++ t) chosen) ForStamp (stamp_message sb)).
Proof. exact auth_sign_elf. Qed.
Print Assumptions C94_sign_elf.

(** * The kind of file is not signed *)
(** An ELF file whose sections are the three parts of a module has the digests
    of the module. *)
Theorem C94_kind : forall p C f e content mid cdr h off t rest g names ts,
  proper (Archive p f e) -> regions_of p f e content mid cdr h off t ->
  resolved_sections rest (mkElfFile g names) = Ok ts ->
  map (section_bytes g) ts = [content; cdr; h ++ le 4 (len content) ++ t] ->
  forall a d sched, fills sched -> m_digest p C sched (module_new f) f a = Ok d ->
  elf_digest rest C (mkElfFile g names) a = Ok d.
Proof. exact auth_kind. Qed.
Print Assumptions C94_kind.

(** So a signature for an ELF file can be accepted for a module that nobody has
    signed.  The ELF file: three sections with the parts of the example archive. *)
Definition zip_names : bytes := ToyElf.toy_names ++ bstr ".end" ++ nul.
Definition zip_record : bytes := end_record ex_zip (len (z_entries ex_zip)).
Definition zip_elf : bytes := Eval vm_compute in
  let at_ := 64 + len zip_names in
  toy_elf ToyElf.x64 zip_names (z_entries ex_zip ++ z_cd ex_zip ++ zip_record) 1
    [mkShdr 1 1 0 0 at_ (len (z_entries ex_zip)) 0 0 1 0;
     mkShdr 7 1 0 0 (at_ + len (z_entries ex_zip)) (len (z_cd ex_zip)) 0 0 1 0;
     mkShdr 25 1 0 0 (at_ + len (z_entries ex_zip) + len (z_cd ex_zip)) (len zip_record) 0 0 1 0].
Definition zip_sections : list rstring := [str ".text"; str ".rodata"; str ".end"].
Definition zip_args : sign_args := mkSignArgs (bstr "in") (bstr "out") key1 key2 zip_sections.
Definition zip_elf_run : list step * res unit :=
  cli_sign Debug toyC toyKL all_ok (Some 500) fr2 (toy_fs zip_elf) zip_args.

(** The block that the sign command put into the ELF file, moved to the archive. *)
Definition zip_elf_out : bytes :=
  match fs_data (run (toy_fs zip_elf) (fst zip_elf_run)) (fs_file (toy_fs zip_elf) (bstr "out")) with Some w => w | None => [] end.
Definition zip_elf_block : signing_block :=
  match elf_get_signing_block all_ok Debug (mkElfFile zip_elf_out []) with Ok (Some b) => b | _ => dummy_block end.
Definition zip_forged : bytes :=
  fst (s_write_with_signature Debug (module_new (plain ex_zip)) (plain ex_zip) zip_elf_block).

Theorem C94_kind_refuted : exists steps b,
  zip_elf_run = (steps, Ok tt) /\
  fs_data (run (toy_fs zip_elf) steps) (fs_file (toy_fs zip_elf) (bstr "out")) = Some zip_elf_out /\
  elf_get_signing_block all_ok Debug (mkElfFile zip_elf_out []) = Ok (Some b) /\
  s_write_with_signature Debug (module_new (plain ex_zip)) (plain ex_zip) b = (zip_forged, Ok tt) /\
  cli_verify Debug toyC toyK [] (Some 500) fr2 (toy_fs zip_forged) (bstr "in") (Some (bstr "root")) = Ok tt.
Proof.
  exists (fst zip_elf_run), zip_elf_block.
  assert (E : snd zip_elf_run = Ok tt) by (vm_compute; reflexivity).
  split; [rewrite <- E; now destruct zip_elf_run|]. repeat (split; [vm_compute; reflexivity|]). vm_compute. reflexivity.
Qed.
Print Assumptions C94_kind_refuted.

(** * Concrete cases *)
Definition here (z : zip) (blk : bytes) : eocd := zip_eocd z (len (z_entries z) + len blk + len (z_cd z)) (len (z_entries z) + len blk).
Lemma toy_sized : hash_sized toyC.
Proof. split; exists 32; (split; [reflexivity|apply toy_hash_len]). Qed.
Lemma ok_pair {A B} (a c : A) (b d : B) : Ok (a, b) = Ok (c, d) -> a = c /\ b = d.
Proof. intros [= -> ->]. auto. Qed.
Lemma pair_snd {A B} (x : A * B) b : snd x = b -> x = (fst x, b).
Proof. intros <-. now destruct x. Qed.
Lemma fr2_fills : forall a, fills (fr2 a).
Proof. intros a i k. vm_compute. discriminate. Qed.
Lemma ex_zip_blocks : forall blk, len blk <= 16392 -> zip_ok ex_zip blk /\ zip_small ex_zip blk.
Proof. intros blk H. apply (blocks_fit ex_zip ex_zip_ok); [reflexivity|vm_compute; reflexivity|vm_compute; reflexivity|exact H]. Qed.
Lemma ex_proper blk : len blk <= 16392 -> proper (Archive Debug (with_block ex_zip blk) (here ex_zip blk)).
Proof.
  intros H. destruct (ex_zip_blocks blk H) as (Z & S). split; [exact S|]. split; [now apply find_eocd_with_block|now left].
Qed.

(** The module that the sign command writes from the example archive: it is
    accepted, and it was signed. *)
Example C94_example : hash_sized toyC /\
  exists b sg sb, fs_read signed_fs (bstr "out") = Some zip_signed /\
  proper (Archive Debug zip_signed (here ex_zip (block_to_u8 zip_block))) /\
  cli_verify Debug toyC toyK [] (Some 500) fr2 signed_fs (bstr "out") (Some (bstr "root")) = Ok tt /\
  m_get_signing_block Debug (module_new zip_signed) zip_signed = Ok b /\
  v2_signers_of b = [sg] /\ stamps_of b = [sb] /\
  let y := Archive Debug (plain ex_zip) (here ex_zip []) in
  proper y /\ has_signed toyC (pk_data (sn_key sg)) y ForModule (v2_message sg) /\
  has_signed toyC (pk_data (sb_key sb)) y ForStamp (stamp_message sb).
Proof.
  split; [apply toy_sized|].
  destruct (C94_sign_module Debug Debug toyC toyKL all_ok (Some 500) fr2 (toy_fs (plain ex_zip)) toy_args ex_zip (here ex_zip [])
    (fst (cli_sign Debug toyC toyKL all_ok (Some 500) fr2 (toy_fs (plain ex_zip)) toy_args)))
    as (out & b & O & B & V & S).
  - apply toy_crypto_ok.
  - exact fr2_fills.
  - reflexivity.
  - apply ex_zip_ok.
  - apply ex_unsigned.
  - intros t X. discriminate X.
  - exact ex_zip_blocks.
  - vm_compute. discriminate.
  - apply pair_snd. vm_compute. reflexivity.
  - assert (X : fs_data (run (toy_fs (plain ex_zip)) (fst (cli_sign Debug toyC toyKL all_ok (Some 500) fr2 (toy_fs (plain ex_zip)) toy_args)))
      (fs_file (toy_fs (plain ex_zip)) (sa_output toy_args)) = Some zip_signed) by (vm_compute; reflexivity).
    rewrite X in O. injection O as <-. clear X.
    assert (X : (do b <- m_get_signing_block Debug (module_new zip_signed) zip_signed; Ok (v2_signers_of b, stamps_of b)) =
                Ok (v2_signers_of zip_block, stamps_of zip_block)) by (vm_compute; reflexivity).
    rewrite B in X. cbn [bind] in X. apply ok_pair in X. destruct X as (X1 & X2).
    assert (Y1 : v2_signers_of zip_block = [hd no_sigs (v2_signers_of zip_block)]) by (vm_compute; reflexivity).
    assert (Y2 : exists sb, stamps_of zip_block = [sb]).
    { destruct (stamps_of zip_block) as [|sb [|sb2 l]] eqn:E.
      - exfalso. assert (Q : len (stamps_of zip_block) = 1) by (vm_compute; reflexivity). rewrite E in Q. discriminate Q.
      - eauto.
      - exfalso. assert (Q : len (stamps_of zip_block) = 1) by (vm_compute; reflexivity). rewrite E, !len_cons in Q. lia. }
    destruct Y2 as (sb & Y2). rewrite Y1 in X1. rewrite Y2 in X2.
    exists b, (hd no_sigs (v2_signers_of zip_block)), sb.
    split; [vm_compute; reflexivity|]. split; [apply ex_proper; vm_compute; discriminate|]. split; [vm_compute; reflexivity|].
    split; [exact B|]. split; [exact X1|]. split; [exact X2|]. cbv zeta. split.
    { apply (ex_proper []). discriminate. }
    rewrite X1 in V. rewrite X2 in S. split; [apply V; now left|apply S; now left].
Qed.

(** Nothing in the history has the content of the module, and no hashes collide:
    the ELF file above, with its first section only. *)
Definition one_section : subject := Sections all_ok zip_elf [str ".text"].
Lemma short_splits d cs : 0 < len d -> len d <= 1024 * 1024 -> splits d cs -> cs = [d].
Proof.
  intros H1 H2 H. inversion H as [E|d' A B E|c d' l A B C E]; subst.
  - vm_compute in H1. discriminate H1.
  - reflexivity.
  - exfalso. assert (Q : len (c ++ d') = len c + len d') by apply len_app. lia.
Qed.
Lemma zip_signed_regions : regions_of Debug zip_signed (here ex_zip (block_to_u8 zip_block))
  (z_entries ex_zip) (block_to_u8 zip_block) (z_cd ex_zip) (takeN 16 (end_record ex_zip 0))
  (le 4 (len (z_entries ex_zip) + len (block_to_u8 zip_block))) (dropN 20 (end_record ex_zip 0)).
Proof.
  split; [vm_compute; reflexivity|]. split; [vm_compute; reflexivity|]. split; [vm_compute; reflexivity|]. split; [vm_compute; reflexivity|].
  right. exists (get_ok dummy_block (m_get_signing_block Debug (module_new zip_signed) zip_signed)).
  split; [vm_compute; reflexivity|]. split; vm_compute; reflexivity.
Qed.
Definition clash_free (H : bytes -> bytes) (m1 m2 : list bytes) : bool :=
  forallb (fun x => forallb (fun y => beq x y || negb (beq (H x) (H y))) m2) m1.
Lemma clash_free_ok H m1 m2 : clash_free H m1 m2 = true -> ~ clash H m1 m2.
Proof.
  intros F (x & y & I1 & I2 & N & E). unfold clash_free in F. rewrite forallb_forall in F. specialize (F x I1).
  rewrite forallb_forall in F. specialize (F y I2). rewrite E, beq_refl, orb_false_r in F. apply N. now apply beq_eq.
Qed.
Example C94_history_example :
  let x := Archive Debug zip_signed (here ex_zip (block_to_u8 zip_block)) in
  Forall (fun y => proper y /\ ~ collide toyC x y /\ ~ same_content x y) [one_section] /\
  exists d, digest_of toyC one_section ECDSA_SHA2_256 d.
Proof.
  cbv zeta. pose proof zip_signed_regions as R.
  assert (Q : exists ts, resolved_sections all_ok (mkElfFile zip_elf [str ".text"]) = Ok ts /\ map (section_bytes zip_elf) ts = [z_entries ex_zip] /\
    flat_map (section_bytes zip_elf) ts = z_entries ex_zip).
  { exists (get_ok [] (resolved_sections all_ok (mkElfFile zip_elf [str ".text"]))). split; [|split]; vm_compute; reflexivity. }
  destruct Q as (ts & Q1 & Q2 & Q3). split.
  - constructor; [|constructor]. split; [exact I|]. split.
    + intros (a & m1 & m2 & Kn & (content & mid & cdr & h & off & t & R' & c1 & c2 & c3 & S1 & S2 & S3 & ->) & (ts' & cs & Q' & (css & F & ->) & ->) & K).
      destruct (regions_unique _ _ _ _ _ _ _ _ _ _ _ _ _ _ _ R R') as (<- & <- & <- & <-).
      rewrite Q1 in Q'. injection Q' as <-.
      apply short_splits in S1; [|vm_compute; reflexivity|vm_compute; discriminate]. subst c1.
      apply short_splits in S2; [|vm_compute; reflexivity|vm_compute; discriminate]. subst c2.
      apply short_splits in S3; [|vm_compute; reflexivity|vm_compute; discriminate]. subst c3.
      destruct ts as [|t1 [|t2 ts]]; try discriminate Q2. cbn [map] in Q2.
      inversion F as [|? y ? l F1 F2]; subst. inversion F2; subst.
      assert (E : section_bytes zip_elf t1 = z_entries ex_zip) by congruence. rewrite E in F1.
      apply short_splits in F1; [|vm_compute; reflexivity|vm_compute; discriminate]. subst y.
      assert (Hh : hash toyC a = toy_hash) by (destruct Kn as [-> | ->]; reflexivity). rewrite Hh in K. revert K.
      apply clash_free_ok. vm_compute. reflexivity.
    + intros ((b & A1 & A2) & _). inversion A1 as [? ? ? content mid cdr h off t R' |]; subst.
      destruct (regions_unique _ _ _ _ _ _ _ _ _ _ _ _ _ _ _ R R') as (<- & <- & <- & <-).
      inversion A2 as [|? ? ? ts' Q' E]; subst. rewrite Q1 in Q'. injection Q' as <-.
      match goal with X : flat_map _ _ = _ |- _ => rename X into E end.
      pose proof (f_equal len (eq_trans (eq_sym Q3) E)) as X. vm_compute in X. discriminate X.
  - exists (get_ok [] (elf_digest all_ok toyC (mkElfFile zip_elf [str ".text"]) ECDSA_SHA2_256)). vm_compute. reflexivity.
Qed.

(** The ELF file of C81: it is found valid, and its sections were signed. *)
Example C94_elf_example :
  is_valid (verify_all_with_digest toyC toyK (Some 500) (configured toyK [root_cert]) elf_block_out
    (Some (both_digests toyC elf_out [str ".text"; str ".rodata"]))) = true /\
  elf_get_signing_block all_ok Debug (mkElfFile elf_out []) = Ok (Some elf_block_out) /\
  exists sg sb, v2_signers_of elf_block_out = [sg] /\ stamps_of elf_block_out = [sb] /\
  let y := Sections all_ok (el_data toy64) [str ".text"; str ".rodata"] in
  has_signed toyC (pk_data (sn_key sg)) y ForModule (v2_message sg) /\
  has_signed toyC (pk_data (sb_key sb)) y ForStamp (stamp_message sb).
Proof.
  destruct C82_example as (_ & _ & _ & V & _). split; [exact V|].
  assert (G : elf_get_signing_block all_ok Debug (mkElfFile elf_out []) = Ok (Some elf_block_out)) by (vm_compute; reflexivity).
  split; [exact G|]. clear V. destruct C81_example as (_ & _ & _ & K4 & _).
  assert (D : ELFMAG ++ dropN 4 (el_data toy64) = el_data toy64) by (vm_compute; reflexivity).
  destruct (C94_sign_elf Debug Debug toyC toyKL all_ok (Some 500) fr2 (toy_fs (el_data toy64)) toy_args (dropN 4 (el_data toy64)) toy64_elf
    (fst (cli_sign Debug toyC toyKL all_ok (Some 500) fr2 (toy_fs (el_data toy64)) toy_args)) elf_out []
    elf_block_out [str ".text"; str ".rodata"]) as (S1 & S2).
  - apply toy_crypto_ok.
  - constructor.
  - vm_compute. reflexivity.
  - vm_compute. reflexivity.
  - rewrite D. exact K4.
  - apply pair_snd. vm_compute. reflexivity.
  - vm_compute. reflexivity.
  - exact I.
  - reflexivity.
  - reflexivity.
  - exact G.
  - rewrite D in S1, S2. clear G. assert (Y1 : len (v2_signers_of elf_block_out) = 1) by (vm_compute; reflexivity).
    assert (Y2 : len (stamps_of elf_block_out) = 1) by (vm_compute; reflexivity).
    destruct (v2_signers_of elf_block_out) as [|sg [|? ?]]; try (rewrite ?len_nil, ?len_cons in Y1; exfalso; lia).
    destruct (stamps_of elf_block_out) as [|sb [|? ?]]; try (rewrite ?len_nil, ?len_cons in Y2; exfalso; lia).
    exists sg, sb. split; [reflexivity|]. split; [reflexivity|]. split; [apply S1; now left|apply S2; now left].
Qed.
