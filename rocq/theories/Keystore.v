(** Keystore.v - model of /repo/src/keystore.rs and of
    [ModuleSignerConfig::from_credentials] (src/signer.rs:60-67).

    The external decoders (p256, p384, sec1, pkcs8, pem, p12) are total functions
    gathered in a record; a decoded key is its bytes. *)
From Verif Require Import Base Algorithms Utf8 Signer.
Open Scope N_scope.

Record keylib := mkKeylib {
  (* SigningKey::from_pkcs8_pem, from_sec1_pem (src/keystore.rs:150-166) *)
  pkcs8_pem_256 : bytes -> option bytes;
  pkcs8_pem_384 : bytes -> option bytes;
  sec1_pem_256 : bytes -> option bytes;
  sec1_pem_384 : bytes -> option bytes;
  (* from_pkcs8_encrypted_pem text password (src/keystore.rs:171-180) *)
  enc_pem_256 : bytes -> bytes -> option bytes;
  enc_pem_384 : bytes -> bytes -> option bytes;
  (* from_pkcs8_der, from_sec1_der (src/keystore.rs:337-352) *)
  pkcs8_der_256 : bytes -> option bytes;
  pkcs8_der_384 : bytes -> option bytes;
  sec1_der_256 : bytes -> option bytes;
  sec1_der_384 : bytes -> option bytes;
  (* pem::parse and pem::parse_many: tags and contents (src/keystore.rs:199, 229) *)
  pem_one : bytes -> option (bytes * bytes);
  pem_many : bytes -> option (list (bytes * bytes));
  (* p12::PFX::parse succeeds; key_bags, cert_x509_bags with a password
     (src/keystore.rs:293-302) *)
  pfx_ok : bytes -> bool;
  pfx_keys : bytes -> bytes -> option (list bytes);
  pfx_certs : bytes -> bytes -> option (list bytes)
}.

(** src/keystore.rs:10-29 [KeystoreError], without the message texts. *)
Definition KIo : err := EKey 1.
Definition KPem : err := EKey 2.
Definition KP12 : err := EKey 4.
Definition KCert : err := EKey 5.
Definition KUnsupported : err := EKey 6.
Definition KPasswordRequired : err := EKey 7.
Definition KInvalidPassword : err := EKey 8.

(** src/keystore.rs:47-74 [SignerCredentials]. *)
Record credentials := mkCreds {
  cr_key : private_key; cr_cert : bytes; cr_algo : algorithms; cr_chain : list bytes }.

(** [str::contains] on the bytes. *)
Fixpoint starts (pat s : bytes) : bool :=
  match pat, s with
  | [], _ => true
  | a :: pat', b :: s' => Byte.eqb a b && starts pat' s'
  | _, [] => false
  end.
Fixpoint contains (pat s : bytes) : bool :=
  starts pat s || match s with [] => false | _ :: s' => contains pat s' end.

(** "ENCRYPTED" *)
Definition ENCRYPTED : bytes := [x45; x4e; x43; x52; x59; x50; x54; x45; x44].
(** "CERTIFICATE" *)
Definition CERT_TAG : bytes := [x43;x45;x52;x54;x49;x46;x49;x43;x41;x54;x45].

Definition k256 (k : bytes) : private_key * algorithms := (EcdsaP256 k, ECDSA_SHA2_256).
Definition k384 (k : bytes) : private_key * algorithms := (EcdsaP384 k, ECDSA_SHA2_512).

(** src/keystore.rs:142-193 [parse_private_key_pem]. *)
Definition parse_private_key_pem (L : keylib) (pem : bytes) (password : option bytes)
  : res (private_key * algorithms) :=
  match utf8_dec pem with
  | None => Err KPem
  | Some _ =>
  match pkcs8_pem_256 L pem with Some k => Ok (k256 k) | None =>
  match pkcs8_pem_384 L pem with Some k => Ok (k384 k) | None =>
  match sec1_pem_256 L pem with Some k => Ok (k256 k) | None =>
  match sec1_pem_384 L pem with Some k => Ok (k384 k) | None =>
  match password with
  | Some pwd =>
      match enc_pem_256 L pem pwd with Some k => Ok (k256 k) | None =>
      match enc_pem_384 L pem pwd with Some k => Ok (k384 k) | None =>
      Err KInvalidPassword end end
  | None =>
      if contains ENCRYPTED pem then Err KPasswordRequired else Err KUnsupported
  end end end end end end.

(** src/keystore.rs:198-209 [parse_certificate_pem]. *)
Definition parse_certificate_pem (L : keylib) (pem : bytes) : res bytes :=
  match pem_one L pem with
  | None => Err KPem
  | Some (tag, contents) => if beq tag CERT_TAG then Ok contents else Err KCert
  end.

(** src/keystore.rs:227-267 [parse_certificate_chain_pem]. *)
Definition parse_certificate_chain_pem (L : keylib) (pem : bytes) : res (bytes * list bytes) :=
  match pem_many L pem with
  | Some blocks =>
      match blocks with
      | [] => Err KCert
      | _ =>
          match map snd (filter (fun b => beq (fst b) CERT_TAG) blocks) with
          | [] => Err KCert
          | c :: rest => Ok (c, rest)
          end
      end
  | None => do c <- parse_certificate_pem L pem; Ok (c, [])
  end.

(** src/keystore.rs:112-130 [load_pem_from_bytes]. *)
Definition load_pem_from_bytes (L : keylib) (key_pem cert_pem : bytes) (password : option bytes)
  : res credentials :=
  do '(k, a) <- parse_private_key_pem L key_pem password;
  do '(c, chain) <- parse_certificate_chain_pem L cert_pem;
  Ok (mkCreds k c a chain).

(** [std::fs::read_to_string] of a file with content [f], [None] if it cannot
    be read. *)
Definition read_to_string (f : option bytes) : res bytes :=
  match f with
  | None => Err KIo
  | Some b => match utf8_dec b with None => Err KIo | Some _ => Ok b end
  end.

(** src/keystore.rs:85-99 [load_pem]; the two paths are given by their contents. *)
Definition load_pem (L : keylib) (key cert : option bytes) (password : option bytes)
  : res credentials :=
  do k <- read_to_string key;
  do c <- read_to_string cert;
  load_pem_from_bytes L k c password.

(** src/keystore.rs:335-357 [parse_private_key_der], 363-365 [load_private_key_der]. *)
Definition parse_private_key_der (L : keylib) (der : bytes) : res (private_key * algorithms) :=
  match pkcs8_der_256 L der with Some k => Ok (k256 k) | None =>
  match pkcs8_der_384 L der with Some k => Ok (k384 k) | None =>
  match sec1_der_256 L der with Some k => Ok (k256 k) | None =>
  match sec1_der_384 L der with Some k => Ok (k384 k) | None =>
  Err KUnsupported end end end end.
Definition load_private_key_der (L : keylib) (der : bytes) := parse_private_key_der L der.

(** src/keystore.rs:289-326 [load_p12_from_bytes]. *)
Definition load_p12_from_bytes (L : keylib) (data password : bytes) : res credentials :=
  if negb (pfx_ok L data) then Err KP12
  else
    match pfx_keys L data password with
    | None => Err KP12
    | Some keys =>
        match pfx_certs L data password with
        | None => Err KP12
        | Some certs =>
            match keys, certs with
            | [], _ => Err KP12
            | _, [] => Err KP12
            | key_der :: _, c :: chain =>
                do '(k, a) <- parse_private_key_der L key_der;
                Ok (mkCreds k c a chain)
            end
        end
    end.

(** src/keystore.rs:277-280 [load_p12]. *)
Definition load_p12 (L : keylib) (file : option bytes) (password : bytes) : res credentials :=
  match file with
  | None => Err KIo
  | Some data => load_p12_from_bytes L data password
  end.

(** src/keystore.rs:371-378 [load_certificate_der]. *)
Definition load_certificate_der (der : bytes) : res bytes :=
  match der with [] => Err KCert | _ => Ok der end.

(** src/signer.rs:60-67 [ModuleSignerConfig::from_credentials]. *)
Definition config_from_credentials (c : credentials) : signer_config :=
  mkConfig (cr_key c) (cr_cert c) (cr_algo c) (cr_chain c).
