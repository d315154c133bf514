(** PropKeyUse.v - property C84: which key and certificates the sign command uses,
    and what it puts into the file.

    Vocabulary: KeyUseSpec.v, KeySpec.v, VerifySpec.v, CliSpec.v. *)
From Verif Require Import Base BaseFacts Utils Algorithms Common SchemeV2 SourceStamp Utf8 ElfInfo
  SigningBlock Zip ZipSpec Digest Module Signable Signer SignSpec Verifier VerifySpec EndToEnd Keystore KeySpec Elf ElfSpec Cli CliSpec
  KeyUseSpec KeyUseFacts Toy ToyVerify ToyElf ToyCli PropVerify PropElf PropCli PropElfVerify.
From Coq Require Import Strings.String.
Open Scope N_scope.

(** * C84 *)
(** What a group of options loads. *)
Theorem C84_options : forall L s k cr,
  load_credentials L s k = Ok (Some cr) <->
  given L s k (cr_key cr) (cr_cert cr :: cr_chain cr) /\ cr_algo cr = algo_of_key (cr_key cr).
Proof. exact given_exact. Qed.
Print Assumptions C84_options.

(** Nothing is loaded exactly if no keystore and no key is named, even if a
    certificate is. *)
Theorem C84_no_options : forall L s k,
  load_credentials L s k = Ok None <-> no_key_option k.
Proof. exact none_exact. Qed.
Print Assumptions C84_no_options.

Theorem C84_unique : forall L s k key certs key' certs',
  given L s k key certs -> given L s k key' certs' -> key = key' /\ certs = certs'.
Proof. exact given_unique. Qed.
Print Assumptions C84_unique.

(** A module signed by the command. *)
Theorem C84_module : forall p q C L rest clk ds s a z steps,
  crypto_ok C -> fs_read s (sa_input a) = Some (plain z) -> zip_ok z [] -> unsigned z -> (forall t, plain z <> ELFMAG ++ t) ->
  (forall blk, len blk <= 16392 -> zip_ok z blk /\ zip_small z blk) ->
  fs_file s (sa_output a) <> fs_file s (sa_input a) ->
  cli_sign p C L rest clk ds s a = (steps, Ok tt) ->
  exists out b, fs_data (run s steps) (fs_file s (sa_output a)) = Some out /\
    m_get_signing_block q (module_new out) out = Ok b /\ as_asked C L s a b.
Proof. exact module_as_asked. Qed.
Print Assumptions C84_module.

(** An ELF file signed by the command, if its block can be read back (C57). *)
Theorem C84_elf : forall p q C L rest clk ds s a t e steps out names b,
  crypto_ok C -> Forall scalars (sa_sections a) ->
  fs_read s (sa_input a) = Some (ELFMAG ++ t) -> elf_parse rest (ELFMAG ++ t) = Ok e -> well_named (ELFMAG ++ t) e ->
  cli_sign p C L rest clk ds s a = (steps, Ok tt) ->
  fs_data (run s steps) (fs_file s (sa_output a)) = Some out -> fits_class e (len out) -> rest out = true ->
  elf_get_signing_block rest q (mkElfFile out names) = Ok (Some b) -> as_asked C L s a b.
Proof. exact elf_as_asked. Qed.
Print Assumptions C84_elf.

(** When the verify command accepts what the sign command wrote, in terms of the
    files named by the options. *)
Theorem C84_accepted : forall p q C K L rest builtin clk now ds1 ds2 s a z steps root pem r,
  crypto_ok C -> (forall x, fills (ds1 x)) -> (forall x, fills (ds2 x)) ->
  fs_read s (sa_input a) = Some (plain z) -> zip_ok z [] -> unsigned z -> (forall t, plain z <> ELFMAG ++ t) ->
  (forall blk, len blk <= 16392 -> zip_ok z blk /\ zip_small z blk) ->
  fs_file s (sa_output a) <> fs_file s (sa_input a) -> fs_can_read s (sa_output a) = true ->
  fs_read s root = Some pem -> fs_file s root <> fs_file s (sa_output a) ->
  pem_parse K pem = Some (CERTIFICATE_TAG, r) ->
  cli_sign p C L rest clk ds1 s a = (steps, Ok tt) ->
  (cli_verify q C K builtin now ds2 (run s steps) (sa_output a) (Some root) = Ok tt <->
     (exists key leaf chain, given L s (sa_v2 a) key (leaf :: chain) /\ cert_for C K key leaf /\ trusted K now [r] leaf chain) /\
     (no_key_option (sa_stamp a) \/
      exists key leaf chain, given L s (sa_stamp a) key (leaf :: chain) /\ cert_for C K key leaf /\ trusted K now [r] leaf [])).
Proof. exact accepted_exact. Qed.
Print Assumptions C84_accepted.

(** ** Examples *)
Definition p12_args : key_args := mkKeyArgs (Some (bstr "key2")) (Some (bstr "key1")) (Some (bstr "cert1")) (Some (bstr "pw")).
Definition cert_only : key_args := mkKeyArgs None None (Some (bstr "cert2")) (Some (bstr "pw")).
Example C84_given : forall data,
  given toyKL (toy_fs data) key1 (EcdsaP256 (bstr "key1")) [leaf_cert; inter_cert] /\
  given toyKL (toy_fs data) key2 (EcdsaP384 (bstr "key2")) [bstr "ZSkey2"] /\
  given toyKL (toy_fs data) p12_args (EcdsaP384 (bstr "key2")) [bstr "ZSkey2"] /\
  no_key_option cert_only /\ cli_signer toyKL (toy_fs data) (mkSignArgs (bstr "in") (bstr "out") key1 cert_only []) = Ok (ms_v2_only cfg1).
Proof.
  intros data. split; [|split; [|split; [|split; [split; reflexivity|reflexivity]]]].
  - apply (proj1 (given_exact toyKL (toy_fs data) key1 (mkCreds (EcdsaP256 (bstr "key1")) leaf_cert ECDSA_SHA2_256 [inter_cert])) eq_refl).
  - apply (proj1 (given_exact toyKL (toy_fs data) key2 (mkCreds (EcdsaP384 (bstr "key2")) (bstr "ZSkey2") ECDSA_SHA2_512 [])) eq_refl).
  - apply (proj1 (given_exact toyKL (toy_fs data) p12_args (mkCreds (EcdsaP384 (bstr "key2")) (bstr "ZSkey2") ECDSA_SHA2_512 [])) eq_refl).
Qed.

(** The two-key run of C50 and C81: the block of the module and of the ELF file. *)
Example C84_example : exists b b',
  snd toy_run = Ok tt /\ m_get_signing_block Debug (module_new (now_content (fs_data signed_fs 2))) (now_content (fs_data signed_fs 2)) = Ok b /\
  as_asked toyC toyKL (toy_fs (plain ex_zip)) toy_args b /\ stamps_of b <> [] /\
  snd elf_run = Ok tt /\ elf_get_signing_block all_ok Debug (mkElfFile elf_out []) = Ok (Some b') /\
  as_asked toyC toyKL (toy_fs (el_data toy64)) toy_args b' /\ stamps_of b' <> [].
Proof.
  destruct (C84_given (plain ex_zip)) as (G1 & G2 & _). destruct (C84_given (el_data toy64)) as (G3 & G4 & _).
  assert (M : exists b g t, m_get_signing_block Debug (module_new (now_content (fs_data signed_fs 2))) (now_content (fs_data signed_fs 2)) = Ok b /\
    v2_signers_of b = [g] /\ stamps_of b = [t] /\
    made_with toyC (EcdsaP256 (bstr "key1")) [leaf_cert; inter_cert] (sd_certs (sn_data g)) (sn_sigs g) (sn_key g) /\
    made_with toyC (EcdsaP384 (bstr "key2")) [bstr "ZSkey2"] (st_certs (sb_data t)) (sb_sigs t) (sb_key t)).
  { vm_compute. do 3 eexists. split; [reflexivity|]. split; [reflexivity|]. split; [reflexivity|].
    split; (split; [reflexivity|]; split; [reflexivity|]; eexists; split; reflexivity). }
  assert (E : exists b g t, elf_get_signing_block all_ok Debug (mkElfFile elf_out []) = Ok (Some b) /\
    v2_signers_of b = [g] /\ stamps_of b = [t] /\
    made_with toyC (EcdsaP256 (bstr "key1")) [leaf_cert; inter_cert] (sd_certs (sn_data g)) (sn_sigs g) (sn_key g) /\
    made_with toyC (EcdsaP384 (bstr "key2")) [bstr "ZSkey2"] (st_certs (sb_data t)) (sb_sigs t) (sb_key t)).
  { vm_compute. do 3 eexists. split; [reflexivity|]. split; [reflexivity|]. split; [reflexivity|].
    split; (split; [reflexivity|]; split; [reflexivity|]; eexists; split; reflexivity). }
  destruct M as (b & g & t & M1 & M2 & M3 & M4 & M5). destruct E as (b' & g' & t' & E1 & E2 & E3 & E4 & E5). exists b, b'.
  split; [vm_compute; reflexivity|]. split; [exact M1|].
  split. { split; [exists (EcdsaP256 (bstr "key1")), [leaf_cert; inter_cert], g; auto|]. right.
           exists (EcdsaP384 (bstr "key2")), (bstr "ZSkey2"), [], t. auto. }
  split; [rewrite M3; discriminate|]. split; [vm_compute; reflexivity|]. split; [exact E1|].
  split. { split; [exists (EcdsaP256 (bstr "key1")), [leaf_cert; inter_cert], g'; auto|]. right.
           exists (EcdsaP384 (bstr "key2")), (bstr "ZSkey2"), [], t'. auto. }
  rewrite E3. discriminate.
Qed.

(** The hypotheses of C84_accepted are those of [C50_example]; both credentials
    are for their keys and trusted. *)
Example C84_accepted_example :
  (cert_for toyC toyK (EcdsaP256 (bstr "key1")) leaf_cert /\ trusted toyK (Some 500) [root_cert] leaf_cert [inter_cert]) /\
  (cert_for toyC toyK (EcdsaP384 (bstr "key2")) (bstr "ZSkey2") /\ trusted toyK (Some 500) [root_cert] (bstr "ZSkey2") []).
Proof. exact (conj (conj certified1 trusted1) (conj certified2 trusted2)). Qed.
