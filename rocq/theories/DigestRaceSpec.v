(** DigestRaceSpec.v - vocabulary of C97. *)
From Verif Require Import Base Zip ZipSpec.
Open Scope N_scope.

(** Every byte of [g] stands at the same place in one of the contents the file had. *)
Definition mixture_of (V : nat -> nat -> bytes) (g : bytes) : Prop :=
  forall i b, nth_error g i = Some b -> exists r k, nth_error (V r k) i = Some b.
(** Writers change bytes in place: the file keeps its length. *)
Definition in_place (V : nat -> nat -> bytes) (n : N) : Prop := forall r k, len (V r k) = n.

(** The regions that are digested follow each other. *)
Definition in_order (o : file_offsets) : Prop :=
  fo_start_content o <= fo_stop_content o /\ fo_stop_content o <= fo_start_cd o /\ fo_start_cd o <= fo_stop_cd o /\
  fo_stop_cd o <= fo_start_eocd o.
(** The places that are digested. *)
Definition digested (o : file_offsets) (i : nat) : Prop :=
  fo_start_content o <= N.of_nat i < fo_stop_content o \/ fo_start_cd o <= N.of_nat i < fo_stop_cd o \/ fo_start_eocd o <= N.of_nat i.

(** [v] differs from the signed archive at most inside its signing block. *)
Definition block_may_differ (z : zip) (raw v : bytes) : Prop :=
  exists raw', len raw' = len raw /\ v = with_block z raw'.
