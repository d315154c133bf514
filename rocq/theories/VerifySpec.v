(** VerifySpec.v - vocabulary of the signing and verification properties
    (C34-C48): what it means for a signer or a stamp to be properly signed.
    Written from the meaning of the fields, without the verifier's functions. *)
From Verif Require Import Base Utils Algorithms Common SchemeV2 SourceStamp SigningBlock Verifier.
Open Scope N_scope.

(** [sig] is an ECDSA signature by [key] over the hash of [data], in the curve
    and hash that the algorithm [a] names; no signature of another algorithm is
    acceptable. *)
Definition accepted (C : crypto) (a : algorithms) (key data sig : bytes) : Prop :=
  match a with
  | ECDSA_SHA2_256 => exists k s,
      p256_pub_of_der C key = Some k /\ p256_sig_of_der C sig = Some s /\
      p256_check C k (sha256 C data) s = true
  | ECDSA_SHA2_512 => exists k s,
      p384_pub_of_der C key = Some k /\ p384_sig_of_der C sig = Some s /\
      p384_check C k (sha512 C data) s = true
  | Unknown _ => False
  end.

(** What the cryptography crates promise: a signature made with a key is
    accepted under the public key of that key; a key survives cloning. *)
Definition crypto_ok (C : crypto) : Prop :=
  (forall k pub h, p256_public_der C k = Some pub ->
     exists vk s, p256_pub_of_der C pub = Some vk /\
       p256_sig_of_der C (p256_sign_der C k h) = Some s /\ p256_check C vk h s = true) /\
  (forall k pub h, p384_public_der C k = Some pub ->
     exists vk s, p384_pub_of_der C pub = Some vk /\
       p384_sig_of_der C (p384_sign_der C k h) = Some s /\ p384_check C vk h s = true) /\
  (forall k k', p256_clone C k = Some k' -> k' = k) /\
  (forall k k', p384_clone C k = Some k' -> k' = k).

(** The first digest entry for algorithm [a] is [d]. *)
Definition stored_digest (l : list digest) (a : algorithms) (d : bytes) : Prop :=
  exists before e after, l = before ++ e :: after /\ dg_algo e = a /\ dg_digest e = d /\
    Forall (fun x => dg_algo x <> a) before.
Definition no_digest (l : list digest) (a : algorithms) : Prop :=
  Forall (fun x => dg_algo x <> a) l.

(** The digest computed for algorithm [a] is [d]. *)
Definition computed (ctx : context) (a : algorithms) (d : bytes) : Prop :=
  get_digest ctx (u32_of_algo a) = Some d.

(** The bytes that are signed: the signed data without its length prefix. *)
Definition v2_message (s : signer) : bytes := skipn 4 (sd_to_u8 (sn_data s)).
Definition stamp_message (b : stamp_block) : bytes := skipn 4 (std_to_u8 (sb_data b)).

(** The leaf certificate is one of the roots, or the path validator accepts the
    path to an anchor made from one of the roots at that time. *)
Definition anchors (K : pki) (roots : list bytes) : list bytes :=
  flat_map (fun r => match anchor_of K r with Some a => [a] | None => [] end) roots.
Definition time_of (now : option N) : N := match now with Some t => t | None => 0 end.
Definition trusted (K : pki) (now : option N) (roots : list bytes) (leaf : bytes)
    (inter : list bytes) : Prop :=
  In leaf roots \/
  (roots <> [] /\ ee_parse K leaf = true /\
   path K (anchors K roots) leaf inter (time_of now) = PathOk).

(** The roots a user configured, in the order of the [add_root] calls. *)
Definition configured (K : pki) (roots : list bytes) : trusted_roots :=
  fold_left (add_root K) roots roots_new.

(** Below, [D a d] says that [d] is the digest of the file for algorithm [a].
    A V2 signer that deserves to be called valid. *)
Definition v2_signer_good (C : crypto) (K : pki) now (roots : list bytes)
    (D : algorithms -> bytes -> Prop) (s : signer) : Prop :=
  let key := pk_data (sn_key s) in
  sgs_data (sn_sigs s) <> [] /\
  Forall (fun g =>
    accepted C (sg_algo g) key (v2_message s) (sg_data g) /\
    exists d, stored_digest (dgs_data (sd_digests (sn_data s))) (sg_algo g) d /\
              D (sg_algo g) d) (sgs_data (sn_sigs s)) /\
  exists leaf rest, map ct_data (cts_data (sd_certs (sn_data s))) = leaf :: rest /\
    spki_of K leaf = Some key /\ trusted K now roots leaf rest.

(** A source stamp that deserves to be called valid.  A signature whose
    algorithm has no digest entry is tolerated as long as another signature's
    algorithm has one; every entry used must match. *)
Definition stamp_good (C : crypto) (K : pki) now (roots : list bytes)
    (D : algorithms -> bytes -> Prop) (b : stamp_block) : Prop :=
  let key := pk_data (sb_key b) in
  let digs := dgs_data (st_digests (sb_data b)) in
  Forall (fun g =>
    accepted C (sg_algo g) key (stamp_message b) (sg_data g) /\
    forall d, stored_digest digs (sg_algo g) d -> D (sg_algo g) d)
    (sgs_data (sb_sigs b)) /\
  Exists (fun g => exists d, stored_digest digs (sg_algo g) d) (sgs_data (sb_sigs b)) /\
  exists leaf rest, map ct_data (cts_data (st_certs (sb_data b))) = leaf :: rest /\
    spki_of K leaf = Some key /\ trusted K now roots leaf [].

(** What is present in a block. *)
Definition v2_signers_of (b : signing_block) : list signer :=
  flat_map (fun v => match v with V2Block x => sns_data (v2_signers x) | _ => [] end)
    (bk_content b).
Definition stamps_of (b : signing_block) : list stamp_block :=
  flat_map (fun v => match v with StampBlk s => [ss_block s] | _ => [] end) (bk_content b).

(** A signer with a definite defect: a signature that is not accepted, a stored
    digest different from the computed one, or a leaf certificate for another
    key. *)
Definition v2_signer_bad (C : crypto) (K : pki)
    (D : algorithms -> bytes -> Prop) (s : signer) : Prop :=
  let key := pk_data (sn_key s) in
  (exists before g after, sgs_data (sn_sigs s) = before ++ g :: after /\
     Forall (fun g => ~ no_digest (dgs_data (sd_digests (sn_data s))) (sg_algo g)) (before ++ [g]) /\
     (~ accepted C (sg_algo g) key (v2_message s) (sg_data g) \/
      exists d, stored_digest (dgs_data (sd_digests (sn_data s))) (sg_algo g) d /\
                ~ D (sg_algo g) d)) \/
  (exists leaf rest, map ct_data (cts_data (sd_certs (sn_data s))) = leaf :: rest /\
     spki_of K leaf <> Some key).

(** Each certificate names the next one as its issuer. *)
Definition linked (K : pki) (l : list bytes) : Prop :=
  forall before c d after, l = before ++ c :: d :: after ->
  exists issuer_c subject_c issuer_d subject_d,
    names_of K c = Some (issuer_c, subject_c) /\ names_of K d = Some (issuer_d, subject_d) /\
    issuer_c = subject_d.

(** The library does not know who issued the leaf: no roots at all, or the path
    validator says so. *)
Definition issuer_unknown (K : pki) (now : option N) (roots : list bytes) (leaf : bytes)
    (inter : list bytes) : Prop :=
  roots = [] \/
  (~ In leaf roots /\ ee_parse K leaf = true /\
   path K (anchors K roots) leaf inter (time_of now) = PathUnknownIssuer).
