(** Algorithms.v - model of /repo/src/signing_block/algorithms.rs *)
From Verif Require Import Base.

(** src/signing_block/algorithms.rs:7-9. *)
Definition SIGNATURE_ECDSA_256 : N := 0x0201.
Definition SIGNATURE_ECDSA_512 : N := 0x0202.

(** src/signing_block/algorithms.rs:14-21 [enum Algorithms]. *)
Inductive algorithms :=
| ECDSA_SHA2_256
| ECDSA_SHA2_512
| Unknown (u : N).

(** src/signing_block/algorithms.rs:12 derived [PartialEq] on [Algorithms]. *)
Definition algo_eqb (a b : algorithms) : bool :=
  match a, b with
  | ECDSA_SHA2_256, ECDSA_SHA2_256 => true
  | ECDSA_SHA2_512, ECDSA_SHA2_512 => true
  | Unknown u, Unknown v => u =? v
  | _, _ => false
  end.

(** src/signing_block/algorithms.rs:44-52 [PartialEq<Algorithms> for u32]. *)
Definition u32_eq_algo (u : N) (a : algorithms) : bool :=
  match a with
  | ECDSA_SHA2_256 => u =? SIGNATURE_ECDSA_256
  | ECDSA_SHA2_512 => u =? SIGNATURE_ECDSA_512
  | Unknown v => u =? v
  end.

(** src/signing_block/algorithms.rs:66-74 [From<u32> for Algorithms]. *)
Definition algo_of_u32 (sig : N) : algorithms :=
  if sig =? SIGNATURE_ECDSA_256 then ECDSA_SHA2_256
  else if sig =? SIGNATURE_ECDSA_512 then ECDSA_SHA2_512
  else Unknown sig.

(** src/signing_block/algorithms.rs:76-84 [From<&Algorithms> for u32], 106-108 [to_u32]. *)
Definition u32_of_algo (a : algorithms) : N :=
  match a with
  | ECDSA_SHA2_256 => SIGNATURE_ECDSA_256
  | ECDSA_SHA2_512 => SIGNATURE_ECDSA_512
  | Unknown u => u
  end.

(** The external cryptography crates (sha2, p256, p384), as total functions
    that every theorem quantifies over.  Keys, points and signatures are
    represented by byte strings.  [Some]/[None] stand for [Ok]/[Err] of the
    decoders and encoders. *)
Record crypto := mkCrypto {
  sha256 : bytes -> bytes;                    (* src/signing_block/algorithms.rs:88-93 *)
  sha512 : bytes -> bytes;                    (* src/signing_block/algorithms.rs:97-102 *)
  p256_pub_of_der : bytes -> option bytes;    (* VerifyingKey::from_public_key_der *)
  p384_pub_of_der : bytes -> option bytes;
  p256_sig_of_der : bytes -> option bytes;    (* Signature::from_der *)
  p384_sig_of_der : bytes -> option bytes;
  p256_check : bytes -> bytes -> bytes -> bool; (* key.verify(data, sig) *)
  p384_check : bytes -> bytes -> bytes -> bool;
  p256_sign_der : bytes -> bytes -> bytes;    (* key.sign(data).to_der() *)
  p384_sign_der : bytes -> bytes -> bytes;
  p256_public_der : bytes -> option bytes;    (* verifying_key().to_public_key_der() *)
  p384_public_der : bytes -> option bytes;
  p256_clone : bytes -> option bytes;         (* signer.rs clone_private_key *)
  p384_clone : bytes -> option bytes
}.

(** src/signing_block/algorithms.rs:112-118 [Algorithms::hash]. *)
Definition hash (C : crypto) (a : algorithms) (data : bytes) : bytes :=
  match a with
  | ECDSA_SHA2_256 => sha256 C data
  | ECDSA_SHA2_512 => sha512 C data
  | Unknown _ => []
  end.

(** src/signing_block/algorithms.rs:128-153 [Algorithms::verify]. *)
Definition algo_verify (C : crypto) (a : algorithms) (pubkey raw_data signature : bytes)
  : res unit :=
  let data := hash C a raw_data in
  match a with
  | ECDSA_SHA2_256 =>
      do key <- of_option EBadPublicKey (p256_pub_of_der C pubkey);
      do sig <- of_option EBadSignatureFormat (p256_sig_of_der C signature);
      if p256_check C key data sig then Ok tt else Err EInvalidSignature
  | ECDSA_SHA2_512 =>
      do key <- of_option EBadPublicKey (p384_pub_of_der C pubkey);
      do sig <- of_option EBadSignatureFormat (p384_sig_of_der C signature);
      if p384_check C key data sig then Ok tt else Err EInvalidSignature
  | Unknown _ => Err EUnknownAlgorithm
  end.

(** src/signing_block/algorithms.rs:179-184 [enum PrivateKey]. *)
Inductive private_key :=
| EcdsaP256 (k : bytes)
| EcdsaP384 (k : bytes).

(** src/signing_block/algorithms.rs:159-174 [Algorithms::sign]. *)
Definition algo_sign (C : crypto) (a : algorithms) (k : private_key) (raw_data : bytes)
  : res bytes :=
  let hashed := hash C a raw_data in
  match a, k with
  | ECDSA_SHA2_256, EcdsaP256 key => Ok (p256_sign_der C key hashed)
  | ECDSA_SHA2_512, EcdsaP384 key => Ok (p384_sign_der C key hashed)
  | _, _ => Err EKeyMismatch
  end.

(** src/signing_block/algorithms.rs:191-210 [PrivateKey::public_key_der]. *)
Definition public_key_der (C : crypto) (k : private_key) : res bytes :=
  match k with
  | EcdsaP256 key => of_option EPublicKeyDer (p256_public_der C key)
  | EcdsaP384 key => of_option EPublicKeyDer (p384_public_der C key)
  end.
