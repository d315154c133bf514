(** KeyUseSpec.v - vocabulary of C84: the key and certificates selected by the
    options of the sign command, and the signatures made with them. *)
From Verif Require Import Base Algorithms Common SchemeV2 SourceStamp Utf8 SigningBlock Signer Verifier VerifySpec
  Keystore KeySpec Elf Cli.

Definition text (b : bytes) : Prop := exists s, utf8_dec b = Some s.

(** The files named by the options contain this key and these certificates,
    leaf first.  A keystore option comes before a key option. *)
Definition in_keystore (L : keylib) (data pwd : bytes) (key : private_key) (certs : list bytes) : Prop :=
  pfx_ok L data = true /\
  (exists first others, pfx_keys L data pwd = Some (first :: others) /\ first_some (der_keys L first) = Some key) /\
  pfx_certs L data pwd = Some certs.
Definition in_pem (L : keylib) (key_file cert_file : bytes) (pwd : option bytes) (key : private_key) (certs : list bytes) : Prop :=
  text key_file /\ text cert_file /\
  first_some (plain_keys L key_file ++ match pwd with Some w => encrypted_keys L key_file w | None => [] end) = Some key /\
  pem_certs L cert_file = Some certs.
Definition given (L : keylib) (s : fs) (k : key_args) (key : private_key) (certs : list bytes) : Prop :=
  (exists p pwd data, ka_p12 k = Some p /\ ka_password k = Some pwd /\ text p /\ fs_read s p = Some data /\
     in_keystore L data pwd key certs) \/
  (ka_p12 k = None /\
   exists kp cp kf cf, ka_key k = Some kp /\ ka_cert k = Some cp /\ text kp /\ text cp /\
     fs_read s kp = Some kf /\ fs_read s cp = Some cf /\ in_pem L kf cf (ka_password k) key certs).

(** No keystore and no key is named; a certificate or password may be. *)
Definition no_key_option (k : key_args) : Prop := ka_p12 k = None /\ ka_key k = None.

(** A signature made with a key, carrying these certificates. *)
Definition made_with (C : crypto) (key : private_key) (certs : list bytes)
  (embedded : certificates) (sigs : signatures) (pub : pubkey) : Prop :=
  map ct_data (cts_data embedded) = certs /\
  public_key_der C key = Ok (pk_data pub) /\
  exists sig, sgs_data sigs = [sig] /\ sg_algo sig = algo_of_key key.

(** The block has one V2 signer and, exactly if stamp options are given, one
    stamp; the stamp carries the leaf certificate alone. *)
Definition as_asked (C : crypto) (L : keylib) (s : fs) (a : sign_args) (b : signing_block) : Prop :=
  (exists key certs g, given L s (sa_v2 a) key certs /\ v2_signers_of b = [g] /\
     made_with C key certs (sd_certs (sn_data g)) (sn_sigs g) (sn_key g)) /\
  ((no_key_option (sa_stamp a) /\ stamps_of b = []) \/
   (exists key leaf chain t, given L s (sa_stamp a) key (leaf :: chain) /\ stamps_of b = [t] /\
      made_with C key [leaf] (st_certs (sb_data t)) (sb_sigs t) (sb_key t))).

(** The certificate is for the public key of this key. *)
Definition cert_for (C : crypto) (K : pki) (key : private_key) (leaf : bytes) : Prop :=
  exists pub, public_key_der C key = Ok pub /\ spki_of K leaf = Some pub.
