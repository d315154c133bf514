(** Base64Facts.v - base64 text spells the encoded bytes. *)
From Verif Require Import Base BaseFacts CliFacts Base64 DumpSpec.
From Coq Require Import Strings.String Lia.
Open Scope N_scope.

Lemma b64_digit_value : forall n, n < 64 -> b64_value (b64_digit n) n.
Proof.
  intros n H.
  assert (A : forall k, (k < 64)%nat -> b64_value (b64_digit (N.of_nat k)) (N.of_nat k)).
  { intros k K. unfold b64_value, b64_digit. rewrite Nnat.Nat2N.id.
    do 64 (destruct k as [|k]; [ cbv; repeat first [ left; split; reflexivity | left; split; [split; [discriminate|reflexivity]|reflexivity] | right ]; tauto | ]).
    lia. }
  rewrite <- (Nnat.N2Nat.id n). apply A. lia.
Qed.

Lemma b64_value_fun : forall c n m, b64_value c n -> b64_value c m -> n = m.
Proof. unfold b64_value. intros c n m H G. lia. Qed.
Lemma b64_value_lt : forall c n, b64_value c n -> n < 64.
Proof. unfold b64_value. intros c n H. lia. Qed.
Lemma b64_pad : forall n, ~ b64_value "="%byte n.
Proof. intros n H. unfold b64_value in H. change (Byte.to_N "="%byte) with 61 in H. lia. Qed.

Lemma mod64 n : n mod 64 < 64.
Proof. apply N.mod_lt. discriminate. Qed.
Lemma dm64 n : n = 64 * (n / 64) + n mod 64.
Proof. apply N.div_mod. discriminate. Qed.

Lemma b64_encode_spells : forall d, b64_spells (b64_encode d) d.
Proof.
  fix IH 1. intros [|a [|b [|c d]]].
  - constructor.
  - cbn [b64_encode]. cbv zeta. set (n := Byte.to_N a * 16). pose proof (to_N_lt a). pose proof (dm64 n). pose proof (mod64 n).
    econstructor; [apply b64_digit_value; lia|apply b64_digit_value; lia|]. fold n. lia.
  - cbn [b64_encode]. cbv zeta. set (n := (Byte.to_N a * 256 + Byte.to_N b) * 4).
    pose proof (to_N_lt a). pose proof (to_N_lt b). pose proof (dm64 n). pose proof (mod64 n).
    pose proof (dm64 (n / 64)). pose proof (mod64 (n / 64)).
    econstructor; [apply b64_digit_value; lia|apply b64_digit_value; lia|apply b64_digit_value; lia|]. fold n. lia.
  - cbn [b64_encode]. cbv zeta. set (n := (Byte.to_N a * 256 + Byte.to_N b) * 256 + Byte.to_N c).
    pose proof (to_N_lt a). pose proof (to_N_lt b). pose proof (to_N_lt c). pose proof (dm64 n). pose proof (mod64 n).
    pose proof (dm64 (n / 64)). pose proof (mod64 (n / 64)).
    pose proof (dm64 (n / 64 / 64)). pose proof (mod64 (n / 64 / 64)).
    econstructor; [apply b64_digit_value; lia|apply b64_digit_value; lia|apply b64_digit_value; lia|apply b64_digit_value; lia| |apply IH].
    lia.
Qed.

Ltac same_values :=
  repeat match goal with
  | A : b64_value "="%byte _ |- _ => exfalso; exact (b64_pad _ A)
  | A : b64_value ?c ?n, B : b64_value ?c ?m |- _ =>
      assert (n = m) by exact (b64_value_fun c n m A B); subst m; clear B
  end.

Lemma b64_spells_fun : forall t d1 d2, b64_spells t d1 -> b64_spells t d2 -> d1 = d2.
Proof.
  intros t d1 d2 H. revert d2.
  induction H as [|c1 c2 a v1 v2 A1 A2 E|c1 c2 c3 a b v1 v2 v3 A1 A2 A3 E
                 |c1 c2 c3 c4 a b c v1 v2 v3 v4 t d A1 A2 A3 A4 E H IH]; intros d2 G.
  - inversion G; reflexivity.
  - inversion G as [|? ? a' w1 w2 B1 B2 F|? ? ? a' b' w1 w2 w3 B1 B2 B3 F
                   |? ? ? ? a' b' c' w1 w2 w3 w4 t' d' B1 B2 B3 B4 F G']; subst; same_values.
    f_equal. apply to_N_inj. lia.
  - inversion G as [|? ? a' w1 w2 B1 B2 F|? ? ? a' b' w1 w2 w3 B1 B2 B3 F
                   |? ? ? ? a' b' c' w1 w2 w3 w4 t' d' B1 B2 B3 B4 F G']; subst; same_values.
    pose proof (to_N_lt a). pose proof (to_N_lt b). pose proof (to_N_lt a'). pose proof (to_N_lt b').
    f_equal; [apply to_N_inj; lia|]. f_equal. apply to_N_inj. lia.
  - inversion G as [|? ? a' w1 w2 B1 B2 F|? ? ? a' b' w1 w2 w3 B1 B2 B3 F
                   |? ? ? ? a' b' c' w1 w2 w3 w4 t' d' B1 B2 B3 B4 F G']; subst; same_values.
    pose proof (to_N_lt a). pose proof (to_N_lt b). pose proof (to_N_lt c).
    pose proof (to_N_lt a'). pose proof (to_N_lt b'). pose proof (to_N_lt c').
    f_equal; [apply to_N_inj; lia|]. f_equal; [apply to_N_inj; lia|]. f_equal; [apply to_N_inj; lia|]. now apply IH.
Qed.

(** A text spells the bytes in one way only. *)
Lemma b64_value_inj : forall c d n, b64_value c n -> b64_value d n -> c = d.
Proof. unfold b64_value. intros c d n H G. apply to_N_inj. lia. Qed.

Lemma b64_injective : forall d1 d2, b64_encode d1 = b64_encode d2 -> d1 = d2.
Proof.
  intros d1 d2 H. apply (b64_spells_fun (b64_encode d1)); [apply b64_encode_spells|]. rewrite H. apply b64_encode_spells.
Qed.

Lemma b64_length : forall d, len (b64_encode d) = 4 * ((len d + 2) / 3).
Proof.
  fix IH 1. intros [|a [|b [|c d]]]; try reflexivity.
  cbn [b64_encode]. cbv zeta. rewrite !len_cons, IH.
  replace (1 + (1 + (1 + len d)) + 2) with (len d + 2 + 1 * 3) by lia. rewrite N.div_add by discriminate. lia.
Qed.

Lemma b64_spells_text : forall t1 t2 d, b64_spells t1 d -> b64_spells t2 d -> t1 = t2.
Proof.
  intros t1 t2 d H. revert t2.
  induction H as [|c1 c2 a v1 v2 A1 A2 E|c1 c2 c3 a b v1 v2 v3 A1 A2 A3 E
                 |c1 c2 c3 c4 a b c v1 v2 v3 v4 t d A1 A2 A3 A4 E H IH]; intros t2 G;
  inversion G as [|b1 b2 a' w1 w2 B1 B2 F|b1 b2 b3 a' b' w1 w2 w3 B1 B2 B3 F
                 |b1 b2 b3 b4 a' b' c' w1 w2 w3 w4 t' d' B1 B2 B3 B4 F G']; subst;
  repeat match goal with X : b64_value _ _ |- _ => pose proof (b64_value_lt _ _ X); revert X end; intros.
  - reflexivity.
  - assert (w1 = v1) by lia. assert (w2 = v2) by lia. subst.
    now rewrite (b64_value_inj b1 c1 v1), (b64_value_inj b2 c2 v2).
  - assert (w1 = v1) by lia. assert (w2 = v2) by lia. assert (w3 = v3) by lia. subst.
    now rewrite (b64_value_inj b1 c1 v1), (b64_value_inj b2 c2 v2), (b64_value_inj b3 c3 v3).
  - assert (w1 = v1) by lia. assert (w2 = v2) by lia. assert (w3 = v3) by lia. assert (w4 = v4) by lia. subst.
    rewrite (b64_value_inj b1 c1 v1), (b64_value_inj b2 c2 v2), (b64_value_inj b3 c3 v3), (b64_value_inj b4 c4 v4) by assumption.
    now rewrite (IH t').
Qed.
