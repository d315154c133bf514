(** ToyVerify.v - a toy certificate world and configurations for the examples
    of PropVerify.v.  Nothing here is part of the model. *)
From Verif Require Import Base BaseFacts Utils Algorithms Common SchemeV2 SourceStamp Utf8 ElfInfo
  SigningBlock Zip Digest Module Signable ZipSpec ZipFacts Toy Signer Verifier ModuleVerify VerifySpec SignSpec EndToEnd.
From Coq Require Import Strings.String.
Open Scope N_scope.

Lemma toy_crypto_ok : forall h, crypto_ok (toy_crypto h).
Proof.
  intros h. unfold crypto_ok, toy_crypto; cbn. split; [|split; [|split]].
  - intros k pub d [= <-]. do 2 eexists. split; [reflexivity|]. split; [reflexivity|]. apply beq_refl.
  - intros k pub d [= <-]. do 2 eexists. split; [reflexivity|]. split; [reflexivity|]. apply beq_refl.
  - congruence.
  - congruence.
Qed.

(** A certificate is an issuer byte, a subject byte and the key. *)
Definition toy_names (c : bytes) : option (bytes * bytes) :=
  match c with i :: s :: _ => Some ([i], [s]) | _ => None end.
Definition toy_path (anchors : list bytes) (leaf : bytes) (inter : list bytes) (t : N) : path_result :=
  if 1000 <? t then PathExpired
  else
    match toy_names (List.last inter leaf) with
    | Some (i, _) =>
        if existsb (fun a => match toy_names a with Some (_, s) => beq s i | None => false end) anchors
        then PathOk else PathUnknownIssuer
    | None => PathOther
    end.
Definition toy_pem (b : bytes) : option (bytes * bytes) :=
  match b with x50 :: rest => Some (CERTIFICATE_TAG, rest) | _ => None end.
Definition toyK : pki :=
  mkPki Some (fun c => 2 <=? len c) toy_path (fun c => match c with _ :: _ :: k => Some k | _ => None end)
    toy_names toy_pem.

Definition root_cert : bytes := bstr "ZZrootkey".
Definition inter_cert : bytes := bstr "ZIinterkey".
Definition leaf_cert : bytes := bstr "ILkey1".
Definition cfg1 : signer_config := mkConfig (EcdsaP256 (bstr "key1")) leaf_cert ECDSA_SHA2_256 [inter_cert].
Definition cfg2 : signer_config := mkConfig (EcdsaP384 (bstr "key2")) (bstr "ZSkey2") ECDSA_SHA2_512 [].
Definition cfg_bad : signer_config := mkConfig (EcdsaP256 (bstr "key1")) leaf_cert ECDSA_SHA2_512 [].
Definition signer12 : module_signer := ms_with_stamp cfg1 cfg2.
Definition ex_pairs : list (algorithms * bytes) :=
  [(ECDSA_SHA2_256, bstr "digest-256"); (ECDSA_SHA2_512, bstr "digest-512")].
Definition ex_ctx : context := [(0x0201, bstr "digest-256"); (0x0202, bstr "digest-512")].
Definition ex_ctx_wrong : context := [(0x0201, bstr "digest-999"); (0x0202, bstr "digest-512")].

Definition get_ok {A} (d : A) (r : res A) : A := match r with Ok x => x | _ => d end.
Definition dummy_block : signing_block := mkBlock 0 0 0 0 [] 0 [].
(** A V2 signer and a stamp. *)
Definition both_block : signing_block :=
  get_ok dummy_block (ms_sign Debug toyC (Some 500) signer12 (digests_of_pairs ex_pairs)).

(** The digests of the example archive, and the block made from them. *)
Definition zip_pairs : list (algorithms * bytes) :=
  map (fun a => (a, get_ok [] (m_digest Debug toyC (fun _ => full_reads) (module_new (plain ex_zip)) (plain ex_zip) a)))
    [ECDSA_SHA2_256; ECDSA_SHA2_512].
Definition zip_block : signing_block :=
  get_ok dummy_block (ms_sign Debug toyC (Some 500) signer12 (digests_of_pairs zip_pairs)).
Definition zip_signed : bytes := with_block ex_zip (block_to_u8 zip_block).

Lemma certified1 : certified toyC toyK cfg1.
Proof. eexists. split; reflexivity. Qed.
Lemma certified2 : certified toyC toyK cfg2.
Proof. eexists. split; reflexivity. Qed.
Lemma trusted1 : trusted toyK (Some 500) [root_cert] (sc_cert cfg1) (sc_chain cfg1).
Proof. right. split; [discriminate|]. split; reflexivity. Qed.
Lemma trusted2 : trusted toyK (Some 500) [root_cert] (sc_cert cfg2) [].
Proof. right. split; [discriminate|]. split; reflexivity. Qed.

(** A signer without signatures. *)
Definition no_sigs : signer :=
  signer_new (sd_new (digests_of_pairs ex_pairs) (certs_new [cert_new leaf_cert; cert_new inter_cert]) (attrs_new []))
    (sigs_new []) (pub_new (bstr "key1")).
Definition no_sigs_block : signing_block :=
  get_ok dummy_block (block_new [V2Block (v2_new (signers_new [no_sigs]))]).
(** A signer whose only signature uses an algorithm without digest entry. *)
Definition no_digest_signer : signer :=
  signer_new (sd_new (digests_of_pairs [(ECDSA_SHA2_512, bstr "digest-512")]) (certs_new [cert_new leaf_cert; cert_new inter_cert]) (attrs_new []))
    (sigs_new [sig_new ECDSA_SHA2_256 (bstr "forged")]) (pub_new (bstr "key1")).
Definition no_digest_block : signing_block :=
  get_ok dummy_block (block_new [V2Block (v2_new (signers_new [no_digest_signer]))]).
(** A good signer followed by one with a forged signature. *)
Definition forged : signer :=
  signer_new (sd_new (digests_of_pairs ex_pairs) (certs_new [cert_new leaf_cert; cert_new inter_cert]) (attrs_new []))
    (sigs_new [sig_new ECDSA_SHA2_256 (bstr "forged")]) (pub_new (bstr "key1")).
Definition good_signers : list signer := v2_signers_of both_block.
Definition forged_block : signing_block :=
  get_ok dummy_block (block_new [V2Block (v2_new (signers_new (good_signers ++ [forged])))]).

