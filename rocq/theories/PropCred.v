(** PropCred.v - C58 and C67 continued: exactly which credentials are loaded, and
    mismatched credentials in every verification.

    Vocabulary: [first_some], [plain_keys], [encrypted_keys], [der_keys],
    [pem_certs], [algo_of_key] of KeySpec.v. *)
From Verif Require Import Base Algorithms Common SchemeV2 SourceStamp Utf8 SigningBlock Digest Module Signer
  Verifier Keystore KeySpec SignSpec VerifySpec Toy ToyVerify ZipSpec PropModule PropKeystore CredFacts.
From Coq Require Import Strings.String.
Open Scope N_scope.

(** * C58 - exactly when loading succeeds, and what it gives *)
Theorem C58_pem_exact : forall L k c pw cr, load_pem_from_bytes L k c pw = Ok cr <->
  (exists s, utf8_dec k = Some s) /\
  first_some (plain_keys L k ++ match pw with Some pwd => encrypted_keys L k pwd | None => [] end) = Some (cr_key cr) /\
  cr_algo cr = algo_of_key (cr_key cr) /\
  pem_certs L c = Some (cr_cert cr :: cr_chain cr).
Proof. exact pem_exact. Qed.
Print Assumptions C58_pem_exact.
Theorem C58_p12_exact : forall L data pw cr, load_p12_from_bytes L data pw = Ok cr <->
  pfx_ok L data = true /\
  (exists key others, pfx_keys L data pw = Some (key :: others) /\ first_some (der_keys L key) = Some (cr_key cr)) /\
  cr_algo cr = algo_of_key (cr_key cr) /\
  pfx_certs L data pw = Some (cr_cert cr :: cr_chain cr).
Proof. exact p12_exact. Qed.
Print Assumptions C58_p12_exact.
(** From files: they must be readable, and the PEM files text. *)
Theorem C58_pem_files : forall L key cert pw cr, load_pem L key cert pw = Ok cr <->
  exists k c, key = Some k /\ cert = Some c /\ (exists s, utf8_dec c = Some s) /\ load_pem_from_bytes L k c pw = Ok cr.
Proof. exact files_exact. Qed.
Print Assumptions C58_pem_files.
Theorem C58_p12_file : forall L file pw cr, load_p12 L file pw = Ok cr <->
  exists data, file = Some data /\ load_p12_from_bytes L data pw = Ok cr.
Proof. exact p12_file_exact. Qed.
Print Assumptions C58_p12_file.
Theorem C58_certificate_der : forall der c, load_certificate_der der = Ok c <-> c = der /\ der <> [].
Proof. exact cert_der_exact. Qed.
Print Assumptions C58_certificate_der.
(** The signer they produce carries the leaf, then the chain in file order, and
    the public key of the loaded key. *)
Theorem C58_embedded : forall C cr d v, v2_sign C (config_from_credentials cr) d = Ok v ->
  exists sg, sns_data (v2_signers v) = [sg] /\
    map ct_data (cts_data (sd_certs (sn_data sg))) = cr_cert cr :: cr_chain cr /\
    public_key_der C (cr_key cr) = Ok (pk_data (sn_key sg)).
Proof. exact embedded. Qed.
Print Assumptions C58_embedded.
Example C58_exact_example :
  load_pem toyL (Some (bstr "9key")) (Some (bstr "CaXbCcCd")) None =
    Ok (mkCreds (EcdsaP384 (bstr "key")) (bstr "a") ECDSA_SHA2_512 [bstr "c"; bstr "d"]) /\
  load_pem toyL (Some (bstr "9key")) (Some [xff]) None = Err KIo /\
  load_p12 toyL (Some (bstr "tkey")) (bstr "p") =
    Ok (mkCreds (EcdsaP384 (bstr "key")) (bstr "c1") ECDSA_SHA2_512 [bstr "c2"]) /\
  exists v, v2_sign toyC (config_from_credentials (mkCreds (EcdsaP384 (bstr "key")) (bstr "a") ECDSA_SHA2_512 [bstr "c"; bstr "d"]))
    (digests_of_pairs ex_pairs) = Ok v.
Proof.
  split; [ vm_compute; reflexivity | ]. split; [ vm_compute; reflexivity | ]. split; [ vm_compute; reflexivity | ].
  eexists. vm_compute. reflexivity.
Qed.

(** * C67 - with or without digests, and for [Module::sign_v2] *)
Theorem C67_every_verification : forall C K now roots ctx cfg d v b pub,
  v2_sign C cfg d = Ok v -> In (V2Block v) (bk_content b) ->
  public_key_der C (sc_key cfg) = Ok pub -> spki_of K (sc_cert cfg) <> Some pub ->
  exists failures, verify_v2_with_digest C K now roots b ctx = VErr (VMultiSigner failures) /\ In SEBinding failures.
Proof. exact mismatch_signed. Qed.
Print Assumptions C67_every_verification.
Theorem C67_module_sign : forall p C K now roots ctx sched m f a cert key m1 pub,
  m_sign_v2 p C sched m f a cert key = Ok m1 ->
  public_key_der C key = Ok pub -> spki_of K cert <> Some pub ->
  exists b failures, m_sig m1 = Some b /\
    verify_v2_with_digest C K now roots b ctx = VErr (VMultiSigner failures) /\ In SEBinding failures.
Proof. exact mismatch_module. Qed.
Print Assumptions C67_module_sign.
Definition cfg_mismatch : signer_config := mkConfig (EcdsaP256 (bstr "key9")) leaf_cert ECDSA_SHA2_256 [inter_cert].
Example C67_every_example : exists v,
  v2_sign toyC cfg_mismatch (digests_of_pairs ex_pairs) = Ok v /\
  public_key_der toyC (sc_key cfg_mismatch) = Ok (bstr "key9") /\
  spki_of toyK (sc_cert cfg_mismatch) = Some (bstr "key1").
Proof. eexists. split; [ vm_compute; reflexivity | ]. split; vm_compute; reflexivity. Qed.
Example C67_module_example : exists m1,
  m_sign_v2 Debug toyC fr (module_new_raw (plain ex_zip)) (plain ex_zip) ECDSA_SHA2_256 leaf_cert (EcdsaP256 [x07]) = Ok m1 /\
  public_key_der toyC (EcdsaP256 [x07]) = Ok [x07] /\ spki_of toyK leaf_cert = Some (bstr "key1").
Proof. eexists. split; [ vm_compute; reflexivity | ]. split; vm_compute; reflexivity. Qed.
