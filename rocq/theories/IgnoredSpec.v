(** IgnoredSpec.v - vocabulary of C71: the parts of a signing block that
    verification looks at. *)
From Verif Require Import Base Algorithms Common SchemeV2 SourceStamp SigningBlock.
Open Scope N_scope.

(** Of a signature, the algorithm and the bytes (not its size field). *)
Definition sig_seen (g : signature) : algorithms * bytes := (sg_algo g, sg_data g).

(** Of a V2 signer or a stamp: the signed data, the signatures, the public key. *)
Definition v2_seen (s : signer) : signed_data * list (algorithms * bytes) * bytes :=
  (sn_data s, map sig_seen (sgs_data (sn_sigs s)), pk_data (sn_key s)).
Definition stamp_seen (b : stamp_block) : stamp_data * list (algorithms * bytes) * bytes :=
  (sb_data b, map sig_seen (sgs_data (sb_sigs b)), pk_data (sb_key b)).

(** Of a list of values: the V2 signers, value by value, and the first stamp. *)
Definition v2_part (content : list value) :=
  flat_map (fun v => match v with V2Block x => [map v2_seen (sns_data (v2_signers x))] | _ => [] end) content.
Fixpoint first_stamp (content : list value) : option stamp_block :=
  match content with
  | [] => None
  | StampBlk s :: _ => Some (ss_block s)
  | _ :: rest => first_stamp rest
  end.
Definition stamp_part (content : list value) := option_map stamp_seen (first_stamp content).

(** The V2 and stamp values of a block, without everything else. *)
Definition signature_values (content : list value) : list value :=
  filter (fun v => match v with V2Block _ | StampBlk _ => true | _ => false end) content.
