(** KeySpec.v - vocabulary of the credential properties (C58, C59). *)
From Verif Require Import Base Algorithms Utf8 Signer Keystore.

(** The key found in a PEM text without a password: the first decoder that
    accepts, in the order PKCS#8 P-256, PKCS#8 P-384, SEC1 P-256, SEC1 P-384. *)
Definition first_some {A} (l : list (option A)) : option A :=
  fold_right (fun o r => match o with Some _ => o | None => r end) None l.
Definition plain_keys (L : keylib) (pem : bytes) : list (option private_key) :=
  [option_map EcdsaP256 (pkcs8_pem_256 L pem); option_map EcdsaP384 (pkcs8_pem_384 L pem);
   option_map EcdsaP256 (sec1_pem_256 L pem); option_map EcdsaP384 (sec1_pem_384 L pem)].
Definition encrypted_keys (L : keylib) (pem pwd : bytes) : list (option private_key) :=
  [option_map EcdsaP256 (enc_pem_256 L pem pwd); option_map EcdsaP384 (enc_pem_384 L pem pwd)].
Definition der_keys (L : keylib) (der : bytes) : list (option private_key) :=
  [option_map EcdsaP256 (pkcs8_der_256 L der); option_map EcdsaP384 (pkcs8_der_384 L der);
   option_map EcdsaP256 (sec1_der_256 L der); option_map EcdsaP384 (sec1_der_384 L der)].

(** The algorithm of a key. *)
Definition algo_of_key (k : private_key) : algorithms :=
  match k with EcdsaP256 _ => ECDSA_SHA2_256 | EcdsaP384 _ => ECDSA_SHA2_512 end.

(** The certificates of a PEM file: the contents of its CERTIFICATE blocks, in
    order; a text that is not a sequence of blocks is read as a single block. *)
Definition pem_certs (L : keylib) (pem : bytes) : option (list bytes) :=
  match pem_many L pem with
  | Some blocks => Some (map snd (filter (fun b => beq (fst b) CERT_TAG) blocks))
  | None =>
      match pem_one L pem with
      | Some (tag, c) => if beq tag CERT_TAG then Some [c] else None
      | None => None
      end
  end.

(** "a text contains a word". *)
Definition occurs (w s : bytes) : Prop := exists before after, s = before ++ w ++ after.
