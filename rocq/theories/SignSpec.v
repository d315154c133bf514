(** SignSpec.v - vocabulary of the signing properties (C34-C39): the documented
    byte layout of a freshly signed block, written with [le], [len] and
    concatenation only. *)
From Verif Require Import Base Algorithms SchemeV2 SourceStamp SigningBlock Wire.
Open Scope N_scope.

(** A 4-byte length followed by that many bytes. *)
Definition lp (x : bytes) : bytes := le 4 (len x) ++ x.

(** Length-prefixed sequences of length-prefixed elements. *)
Definition digests_layout (l : list (algorithms * bytes)) : bytes :=
  lp (flat_map (fun p => lp (le 4 (u32_of_algo (fst p)) ++ lp (snd p))) l).
Definition certs_layout (l : list bytes) : bytes := lp (flat_map lp l).
Definition attrs_layout (l : list (N * bytes)) : bytes :=
  lp (flat_map (fun p => lp (le 4 (fst p) ++ snd p)) l).
Definition sig_layout (a : algorithms) (sig : bytes) : bytes :=
  lp (lp (le 4 (u32_of_algo a) ++ lp sig)).

(** The signed bytes of a V2 signer end with four zero bytes; those of a stamp
    do not. *)
Definition v2_signed_layout (digs : list (algorithms * bytes)) (certs : list bytes) : bytes :=
  digests_layout digs ++ certs_layout certs ++ attrs_layout [] ++ [x00; x00; x00; x00].
Definition stamp_signed_layout (digs : list (algorithms * bytes)) (cert : bytes)
    (time : option N) : bytes :=
  digests_layout digs ++ certs_layout [cert] ++
  attrs_layout (match time with Some t => [(STAMP_TIME_ATTR_ID, le 8 t)] | None => [] end).

(** The two kinds of pairs. *)
Definition v2_pair (signed : bytes) (a : algorithms) (sig pub : bytes) : bytes :=
  pair SIGNATURE_SCHEME_V2_BLOCK_ID (lp (lp (lp signed ++ sig_layout a sig ++ lp pub))).
Definition stamp_pair (signed : bytes) (a : algorithms) (sig pub : bytes) : bytes :=
  pair SOURCE_STAMP_BLOCK_ID (lp (lp signed ++ sig_layout a sig ++ lp pub)).

(** The algorithm belongs to the key. *)
Definition matches (a : algorithms) (k : private_key) : Prop :=
  match a, k with
  | ECDSA_SHA2_256, EcdsaP256 _ => True
  | ECDSA_SHA2_512, EcdsaP384 _ => True
  | _, _ => False
  end.

(** What [add_source_stamp] must keep: everything but stamps and padding. *)
Definition other_value (v : value) : bool :=
  match v with
  | StampBlk _ => false
  | _ => negb (value_id v =? 0x42726577)
  end.
