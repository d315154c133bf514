(** DecFacts.v - decimal and hexadecimal numbers as text. *)
From Coq Require Import Strings.String Lia Decimal DecimalN DecimalPos Hexadecimal HexadecimalN HexadecimalPos.
From Verif Require Import Base BaseFacts Text.
Open Scope N_scope.
Open Scope list_scope.

Definition is_dec (b : byte) : bool := (48 <=? Byte.to_N b) && (Byte.to_N b <=? 57).
Definition is_hex (b : byte) : bool := is_dec b || ((97 <=? Byte.to_N b) && (Byte.to_N b <=? 102)).
Lemma dec_digits_inj u : forall v, dec_digits u = dec_digits v -> u = v.
Proof. induction u; intros v; destruct v; cbn; intros H; try discriminate; try reflexivity; injection H as H; f_equal; auto. Qed.
Lemma dec_inj a b : dec a = dec b -> a = b.
Proof. intros H. apply dec_digits_inj in H. rewrite <- (DecimalN.Unsigned.of_to a), <- (DecimalN.Unsigned.of_to b). now rewrite H. Qed.
Lemma hex_digits_inj u : forall v, hex_digits u = hex_digits v -> u = v.
Proof. induction u; intros v; destruct v; cbn; intros H; try discriminate; try reflexivity; injection H as H; f_equal; auto. Qed.
Lemma hex_inj a b : hex a = hex b -> a = b.
Proof. intros H. apply hex_digits_inj in H. rewrite <- (HexadecimalN.Unsigned.of_to a), <- (HexadecimalN.Unsigned.of_to b). now rewrite H. Qed.
Lemma dec_is n : forallb is_dec (dec n) = true.
Proof. unfold dec. induction (N.to_uint n); cbn; auto. Qed.
Lemma hex_is n : forallb is_hex (hex n) = true.
Proof. unfold hex. induction (N.to_hex_uint n); cbn; auto. Qed.
Lemma dec_head n : exists b r, dec n = b :: r /\ is_dec b = true.
Proof.
  pose proof (dec_is n) as F. destruct (dec n) as [|b r] eqn:E; [|exists b, r; split; [reflexivity|cbn in F; now apply andb_true_iff in F]].
  exfalso. unfold dec in E. destruct n as [|p]; [discriminate|]. cbn in E.
  pose proof (DecimalPos.Unsigned.to_uint_nonnil p) as Z. destruct (Pos.to_uint p); try discriminate. now apply Z.
Qed.
Lemma hex_head n : exists b r, hex n = b :: r /\ is_hex b = true.
Proof.
  pose proof (hex_is n) as F. destruct (hex n) as [|b r] eqn:E; [|exists b, r; split; [reflexivity|cbn in F; now apply andb_true_iff in F]].
  exfalso. unfold hex in E. destruct n as [|p]; [discriminate|]. cbn in E.
  pose proof (HexadecimalPos.Unsigned.to_uint_nonnil p) as Z. destruct (Pos.to_hex_uint p); try discriminate. now apply Z.
Qed.
(** The number is read off a text up to the first byte that is not a digit. *)
Lemma digits_split (f : byte -> bool) : forall a b x y r s, forallb f a = true -> forallb f b = true -> f x = false -> f y = false ->
  a ++ x :: r = b ++ y :: s -> a = b /\ x :: r = y :: s.
Proof.
  induction a as [|c a IH]; intros [|d b] x y r s A B X Y E; cbn in *.
  - auto.
  - injection E as -> _. apply andb_true_iff in B as [B _]. congruence.
  - injection E as -> _. apply andb_true_iff in A as [A _]. congruence.
  - injection E as -> E. apply andb_true_iff in A as [_ A], B as [_ B]. destruct (IH b x y r s A B X Y E) as [-> H]. auto.
Qed.
Lemma dec_split a b x y r s : is_dec x = false -> is_dec y = false -> dec a ++ x :: r = dec b ++ y :: s -> a = b /\ x :: r = y :: s.
Proof. intros X Y E. apply (digits_split is_dec) in E as [E E']; auto using dec_is. apply dec_inj in E. auto. Qed.
Lemma hex_split a b x y r s : is_hex x = false -> is_hex y = false -> hex a ++ x :: r = hex b ++ y :: s -> a = b /\ x :: r = y :: s.
Proof. intros X Y E. apply (digits_split is_hex) in E as [E E']; auto using hex_is. apply hex_inj in E. auto. Qed.
Fixpoint zeros (k : nat) (u : Hexadecimal.uint) : Hexadecimal.uint := match k with O => u | S k => Hexadecimal.D0 (zeros k u) end.
Lemma zeros_digits k u : hex_digits (zeros k u) = repeat x30 k ++ hex_digits u.
Proof. induction k; cbn; congruence. Qed.
Lemma zeros_value k u : N.of_hex_uint (zeros k u) = N.of_hex_uint u.
Proof. induction k; cbn; auto. Qed.
Lemma hex_width_digits w n : exists k, hex_width w n = hex_digits (zeros k (N.to_hex_uint n)).
Proof. exists (w - List.length (hex n))%nat. now rewrite zeros_digits. Qed.
Lemma hex_width_inj w a b : hex_width w a = hex_width w b -> a = b.
Proof.
  destruct (hex_width_digits w a) as (k & ->), (hex_width_digits w b) as (m & ->). intros H. apply hex_digits_inj in H.
  apply (f_equal N.of_hex_uint) in H. rewrite !zeros_value in H. now rewrite !HexadecimalN.Unsigned.of_to in H.
Qed.
Lemma hex_width_is w n : forallb is_hex (hex_width w n) = true.
Proof. unfold hex_width. rewrite forallb_app, hex_is, andb_true_r. induction (w - _)%nat; cbn; auto. Qed.
Lemma hex_width_split w a b x y r s : is_hex x = false -> is_hex y = false -> hex_width w a ++ x :: r = hex_width w b ++ y :: s -> a = b /\ x :: r = y :: s.
Proof. intros X Y E. apply (digits_split is_hex) in E as [E E']; auto using hex_width_is. apply hex_width_inj in E. auto. Qed.
