(** PropKeystore.v - properties C58, C59 and C67: loading credentials.

    [L] gathers the external decoders; vocabulary in KeySpec.v. *)
From Verif Require Import Base BaseFacts Algorithms Utf8 Signer Keystore KeySpec KeyFacts SignSpec SignFacts
  SigningBlock Toy Verifier VerifySpec ToyVerify VerifyProps.
From Coq Require Import Strings.String.
Open Scope N_scope.

(** A toy decoder: keys are "8" + P-256 key, "9" + P-384 key, "s", "t" for
    SEC1, "E" + one-byte password + key for encrypted ones; certificates are
    "C" + one byte each. *)
Definition cut (x : byte) (s : bytes) : option bytes :=
  match s with y :: r => if Byte.eqb x y then Some r else None | [] => None end.
Definition cut_enc (s pwd : bytes) : option bytes :=
  match s with x45 :: y :: r => if beq [y] pwd then Some r else None | _ => None end.
Fixpoint cut_certs (s : bytes) : list (bytes * bytes) :=
  match s with
  | x43 :: y :: r => (CERT_TAG, [y]) :: cut_certs r
  | _ :: y :: r => (bstr "OTHER", [y]) :: cut_certs r
  | _ => []
  end.
Definition toyL : keylib :=
  mkKeylib (cut x38) (cut x39) (cut x73) (cut x74) cut_enc (fun _ _ => None)
    (cut x38) (cut x39) (cut x73) (cut x74)
    (fun s => match cut_certs s with b :: _ => Some b | [] => None end)
    (fun s => match s with x21 :: _ => None | _ => Some (cut_certs s) end)
    (fun _ => true) (fun d _ => Some [d]) (fun d _ => Some [bstr "c1"; bstr "c2"]).

(** * C58 *)
Theorem C58_pem : forall L k c pw cr, load_pem_from_bytes L k c pw = Ok cr ->
  cr_algo cr = algo_of_key (cr_key cr) /\ pem_certs L c = Some (cr_cert cr :: cr_chain cr).
Proof. exact c58_pem. Qed.
Print Assumptions C58_pem.
Theorem C58_pem_iff : forall L k c pw cr, load_pem_from_bytes L k c pw = Ok cr <->
  parse_private_key_pem L k pw = Ok (cr_key cr, cr_algo cr) /\
  pem_certs L c = Some (cr_cert cr :: cr_chain cr).
Proof. exact load_pem_iff. Qed.
Print Assumptions C58_pem_iff.
Theorem C58_p12 : forall L data pw cr, load_p12_from_bytes L data pw = Ok cr ->
  cr_algo cr = algo_of_key (cr_key cr) /\ pfx_certs L data pw = Some (cr_cert cr :: cr_chain cr) /\
  exists key others, pfx_keys L data pw = Some (key :: others) /\ first_some (der_keys L key) = Some (cr_key cr).
Proof. exact c58_p12. Qed.
Print Assumptions C58_p12.
Theorem C58_der : forall L der,
  load_private_key_der L der =
  match first_some (der_keys L der) with Some k => Ok (k, algo_of_key k) | None => Err KUnsupported end.
Proof. exact private_key_der. Qed.
Print Assumptions C58_der.
(** Signing with loaded credentials fails only if the public key cannot be
    encoded. *)
Theorem C58_signs : forall C cr d, cr_algo cr = algo_of_key (cr_key cr) ->
  ((exists v, v2_sign C (config_from_credentials cr) d = Ok v) <-> exists pub, public_key_der C (cr_key cr) = Ok pub).
Proof. exact c58_signs. Qed.
Print Assumptions C58_signs.
Example C58_example :
  load_pem_from_bytes toyL (bstr "9key") (bstr "CaXbCcCd") None =
    Ok (mkCreds (EcdsaP384 (bstr "key")) (bstr "a") ECDSA_SHA2_512 [bstr "c"; bstr "d"]) /\
  load_pem_from_bytes toyL (bstr "Epkey") (bstr "Ca") (Some (bstr "p")) =
    Ok (mkCreds (EcdsaP256 (bstr "key")) (bstr "a") ECDSA_SHA2_256 []) /\
  load_p12_from_bytes toyL (bstr "tkey") (bstr "p") =
    Ok (mkCreds (EcdsaP384 (bstr "key")) (bstr "c1") ECDSA_SHA2_512 [bstr "c2"]).
Proof. split; [|split]; vm_compute; reflexivity. Qed.

(** * C59 *)
Theorem C59_plain_key : forall L k c pw cr, load_pem_from_bytes L k c None = Ok cr ->
  load_pem_from_bytes L k c pw = Ok cr.
Proof. exact c59_plain. Qed.
Print Assumptions C59_plain_key.
Theorem C59_errors : forall L k c s, utf8_dec k = Some s -> Forall (fun o => o = None) (plain_keys L k) ->
  (forall pwd, Forall (fun o => o = None) (encrypted_keys L k pwd) ->
     load_pem_from_bytes L k c (Some pwd) = Err KInvalidPassword) /\
  (occurs ENCRYPTED k -> load_pem_from_bytes L k c None = Err KPasswordRequired) /\
  (~ occurs ENCRYPTED k -> load_pem_from_bytes L k c None = Err KUnsupported).
Proof. exact c59_errors. Qed.
Print Assumptions C59_errors.
Theorem C59_only : forall L k c pw,
  (load_pem_from_bytes L k c pw = Err KPasswordRequired -> pw = None /\ occurs ENCRYPTED k) /\
  (load_pem_from_bytes L k c pw = Err KInvalidPassword -> exists pwd, pw = Some pwd /\
     Forall (fun o => o = None) (plain_keys L k) /\ Forall (fun o => o = None) (encrypted_keys L k pwd)).
Proof. exact c59_only. Qed.
Print Assumptions C59_only.
Example C59_example :
  load_pem_from_bytes toyL (bstr "Epkey") (bstr "Ca") (Some (bstr "q")) = Err KInvalidPassword /\
  load_pem_from_bytes toyL (bstr "-ENCRYPTED-") (bstr "Ca") None = Err KPasswordRequired /\
  load_pem_from_bytes toyL (bstr "Epkey") (bstr "Ca") None = Err KUnsupported /\
  (exists cr, load_pem_from_bytes toyL (bstr "skey") (bstr "Ca") None = Ok cr).
Proof. split; [|split; [|split]]; try (vm_compute; reflexivity). eexists. vm_compute. reflexivity. Qed.

(** * C67 - a certificate for another key is accepted when loading and signing,
    and the result never verifies. *)
Theorem C67_refuted : exists cr, load_pem_from_bytes toyL (bstr "8key1") (bstr "Ca") None = Ok cr /\
  (exists v, v2_sign toyC (config_from_credentials cr) (digests_of_pairs ex_pairs) = Ok v) /\
  (forall pub, public_key_der toyC (cr_key cr) = Ok pub -> spki_of toyK (cr_cert cr) <> Some pub).
Proof.
  eexists. split; [vm_compute; reflexivity|]. split; [eexists; vm_compute; reflexivity|].
  intros pub [= <-]. vm_compute. discriminate.
Qed.
Print Assumptions C67_refuted.
Theorem C67_never_verifies : forall C K now roots ctx cfg d v b pub,
  v2_sign C cfg d = Ok v -> In (V2Block v) (bk_content b) ->
  public_key_der C (sc_key cfg) = Ok pub -> spki_of K (sc_cert cfg) <> Some pub ->
  exists failures, verify_v2_with_digest C K now roots b (Some ctx) = VErr (VMultiSigner failures) /\ failures <> [].
Proof. exact c67. Qed.
Print Assumptions C67_never_verifies.
