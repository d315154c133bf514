(** ClockSpec.v - vocabulary of C96: what the clock and the roots can change. *)
From Verif Require Import Base Algorithms Common SchemeV2 SourceStamp SigningBlock Verifier VerifySpec.
Open Scope N_scope.

(** Two reports on a signer that agree in everything but chain, trust and warnings. *)
Definition same_checks (r r' : signer_result) : Prop :=
  sr_index r = sr_index r' /\ sr_signature_valid r = sr_signature_valid r' /\ sr_digest_valid r = sr_digest_valid r' /\
  sr_cert r = sr_cert r' /\ sr_chain r = sr_chain r' /\ sr_error r = sr_error r'.
(** Two answers of the verifier that do. *)
Definition same_but_trust (x y : vres) : Prop :=
  match x, y with
  | VErr e, VErr e' => e = e'
  | VOk r, VOk r' =>
      vr_signature_valid r = vr_signature_valid r' /\ vr_digest_valid r = vr_digest_valid r' /\
      vr_cert r = vr_cert r' /\ vr_chain r = vr_chain r' /\ Forall2 same_checks (vr_signers r) (vr_signers r')
  | _, _ => False
  end.

(** The certificates of a V2 signer: the leaf and the others. *)
Definition certs_of (s : signer) (leaf : bytes) (others : list bytes) : Prop :=
  map ct_data (cts_data (sd_certs (sn_data s))) = leaf :: others.

(** A path that is valid at two times is valid at all times in between. *)
Definition no_gaps (K : pki) : Prop := forall roots leaf others t1 t t2, t1 <= t <= t2 ->
  path K roots leaf others t1 = PathOk -> path K roots leaf others t2 = PathOk -> path K roots leaf others t = PathOk.
(** A clock reading between two others; [None] is a clock before the epoch. *)
Definition reads_between (t1 t2 : N) (r : option N) : Prop := t1 <= time_of r <= t2.

(** Two answers of a module's verification that agree in everything but trust. *)
Definition same_report (x y : res verify_all) : Prop :=
  match x, y with
  | Ok a, Ok a' => same_but_trust (va_v2 a) (va_v2 a') /\ same_but_trust (va_stamp a) (va_stamp a')
  | Err e, Err e' => e = e'
  | Panic, Panic => True
  | _, _ => False
  end.

(** Every V2 signer is good at the moment its chain is checked, and the first stamp
    at the moment its chain is ([v2_signer_good], [stamp_good]: VerifySpec.v). *)
Definition accepts_at (C : crypto) (K : pki) (clk : nat -> option N) (t : option N) (roots : list bytes)
    (D : algorithms -> bytes -> Prop) (b : signing_block) : Prop :=
  (forall i s, nth_error (v2_signers_of b) i = Some s -> v2_signer_good C K (clk i) roots D s) /\
  match stamps_of b with [] => True | st :: _ => stamp_good C K t roots D st end.
