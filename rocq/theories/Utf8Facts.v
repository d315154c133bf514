(** Utf8Facts.v - UTF-8 decoding and encoding are inverse to each other *)
From Verif Require Import Base BaseFacts Utf8.

Lemma to_N_b8_small n : n < 256 -> Byte.to_N (b8 n) = n.
Proof. intros. rewrite to_N_b8. apply N.mod_small; auto. Qed.
Lemma b8_eq b n : n = Byte.to_N b -> b8 n = b.
Proof. intros ->. apply b8_to_N. Qed.

Lemma utf8_dec1_enc1 c r : is_scalar c = true -> utf8_dec1 (utf8_enc1 c ++ r) = Some (c, r).
Proof.
  unfold is_scalar, utf8_enc1, utf8_dec1, is_cont, cont_val. intros H.
  destruct (c <? 0x80) eqn:E1.
  { cbn [app]. rewrite to_N_b8_small by lia. rewrite E1. auto. }
  destruct (c <? 0x800) eqn:E2.
  { cbn [app]. rewrite !to_N_b8_small by lia.
    replace (0xC0 + c / 64 <? 0x80) with false by lia.
    replace ((0xC0 <=? 0xC0 + c / 64) && (0xC0 + c / 64 <? 0xE0)) with true by lia.
    replace ((0xC0 + c / 64 - 0xC0) * 64 + (0x80 + c mod 64 - 0x80)) with c by lia.
    replace ((0x80 <=? 0x80 + c mod 64) && (0x80 + c mod 64 <? 0xC0) && (0x80 <=? c)) with true by lia.
    auto. }
  destruct (c <? 0x10000) eqn:E3.
  { cbn [app]. rewrite !to_N_b8_small by lia.
    replace (0xE0 + c / 4096 <? 0x80) with false by lia.
    replace ((0xC0 <=? 0xE0 + c / 4096) && (0xE0 + c / 4096 <? 0xE0)) with false by lia.
    replace ((0xE0 <=? 0xE0 + c / 4096) && (0xE0 + c / 4096 <? 0xF0)) with true by lia.
    replace ((0xE0 + c / 4096 - 0xE0) * 4096 + (0x80 + (c / 64) mod 64 - 0x80) * 64
             + (0x80 + c mod 64 - 0x80)) with c by lia.
    replace ((0x80 <=? 0x80 + (c / 64) mod 64) && (0x80 + (c / 64) mod 64 <? 0xC0)) with true by lia.
    replace ((0x80 <=? 0x80 + c mod 64) && (0x80 + c mod 64 <? 0xC0)) with true by lia.
    replace (0x800 <=? c) with true by lia.
    replace (is_scalar c) with true by (unfold is_scalar; lia). auto. }
  cbn [app]. rewrite !to_N_b8_small by lia.
  replace (0xF0 + c / 262144 <? 0x80) with false by lia.
  replace ((0xC0 <=? 0xF0 + c / 262144) && (0xF0 + c / 262144 <? 0xE0)) with false by lia.
  replace ((0xE0 <=? 0xF0 + c / 262144) && (0xF0 + c / 262144 <? 0xF0)) with false by lia.
  replace ((0xF0 <=? 0xF0 + c / 262144) && (0xF0 + c / 262144 <? 0xF8)) with true by lia.
  replace ((0xF0 + c / 262144 - 0xF0) * 262144 + (0x80 + (c / 4096) mod 64 - 0x80) * 4096
           + (0x80 + (c / 64) mod 64 - 0x80) * 64 + (0x80 + c mod 64 - 0x80)) with c by lia.
  replace ((0x80 <=? 0x80 + (c / 4096) mod 64) && (0x80 + (c / 4096) mod 64 <? 0xC0)) with true by lia.
  replace ((0x80 <=? 0x80 + (c / 64) mod 64) && (0x80 + (c / 64) mod 64 <? 0xC0)) with true by lia.
  replace ((0x80 <=? 0x80 + c mod 64) && (0x80 + c mod 64 <? 0xC0)) with true by lia.
  replace (0x10000 <=? c) with true by lia.
  replace (is_scalar c) with true by (unfold is_scalar; lia). auto.
Qed.

Lemma utf8_dec1_inv l c r : utf8_dec1 l = Some (c, r) -> is_scalar c = true /\ l = utf8_enc1 c ++ r.
Proof.
  unfold utf8_dec1, is_cont, cont_val. destruct l as [|b0 l]; [ discriminate | ].
  pose proof (to_N_lt b0) as B0. set (v := Byte.to_N b0) in *.
  destruct (v <? 0x80) eqn:E1.
  { intros H; injection H as <- <-. split; [ unfold is_scalar; lia | ].
    unfold utf8_enc1. rewrite E1. cbn. rewrite b8_eq with (b := b0); auto. }
  destruct ((0xC0 <=? v) && (v <? 0xE0)) eqn:E2.
  { destruct l as [|b1 l]; [ discriminate | ].
    pose proof (to_N_lt b1) as B1. set (v1 := Byte.to_N b1) in *. cbv zeta.
    destruct (_ && (0x80 <=? _)) eqn:E3; [ | discriminate ].
    intros H; injection H as <- <-. split; [ unfold is_scalar; lia | ].
    unfold utf8_enc1. set (c := (v - 0xC0) * 64 + (v1 - 0x80)) in *.
    assert (c / 64 = v - 0xC0 /\ c mod 64 = v1 - 0x80) as [D1 D2] by (subst c; lia).
    replace (c <? 0x80) with false by (subst c; lia). replace (c <? 0x800) with true by (subst c; lia).
    cbn [app]. rewrite D1, D2.
    rewrite (b8_eq b0), (b8_eq b1) by (subst v v1; lia). auto. }
  destruct ((0xE0 <=? v) && (v <? 0xF0)) eqn:E3.
  { destruct l as [|b1 [|b2 l]]; try discriminate.
    pose proof (to_N_lt b1) as B1. set (v1 := Byte.to_N b1) in *.
    pose proof (to_N_lt b2) as B2. set (v2 := Byte.to_N b2) in *. cbv zeta.
    destruct (_ && is_scalar _) eqn:E4; [ | discriminate ].
    apply andb_true_iff in E4 as [E4 Es].
    intros H; injection H as <- <-. split; [ auto | ].
    unfold utf8_enc1. set (c := (v - 0xE0) * 4096 + (v1 - 0x80) * 64 + (v2 - 0x80)) in *.
    assert (c / 4096 = v - 0xE0 /\ (c / 64) mod 64 = v1 - 0x80 /\ c mod 64 = v2 - 0x80)
      as (D1&D2&D3) by (subst c; lia).
    replace (c <? 0x80) with false by (subst c; lia). replace (c <? 0x800) with false by (subst c; lia).
    replace (c <? 0x10000) with true by (subst c; lia).
    cbn [app]. rewrite D1, D2, D3.
    rewrite (b8_eq b0), (b8_eq b1), (b8_eq b2) by (subst v v1 v2; lia). auto. }
  destruct ((0xF0 <=? v) && (v <? 0xF8)) eqn:E4; [ | discriminate ].
  destruct l as [|b1 [|b2 [|b3 l]]]; try discriminate.
  pose proof (to_N_lt b1) as B1. set (v1 := Byte.to_N b1) in *.
  pose proof (to_N_lt b2) as B2. set (v2 := Byte.to_N b2) in *.
  pose proof (to_N_lt b3) as B3. set (v3 := Byte.to_N b3) in *. cbv zeta.
  destruct (_ && is_scalar _) eqn:E5; [ | discriminate ].
  apply andb_true_iff in E5 as [E5 Es].
  intros H; injection H as <- <-. split; [ auto | ].
  unfold utf8_enc1.
  set (c := (v - 0xF0) * 262144 + (v1 - 0x80) * 4096 + (v2 - 0x80) * 64 + (v3 - 0x80)) in *.
  assert (c / 262144 = v - 0xF0 /\ (c / 4096) mod 64 = v1 - 0x80 /\
          (c / 64) mod 64 = v2 - 0x80 /\ c mod 64 = v3 - 0x80)
    as (D1&D2&D3&D4) by (subst c; lia).
  replace (c <? 0x80) with false by (subst c; lia). replace (c <? 0x800) with false by (subst c; lia).
  replace (c <? 0x10000) with false by (subst c; lia).
  cbn [app]. rewrite D1, D2, D3, D4.
  rewrite (b8_eq b0), (b8_eq b1), (b8_eq b2), (b8_eq b3) by (subst v v1 v2 v3; lia). auto.
Qed.

Lemma utf8_enc1_nonempty c : (1 <= length (utf8_enc1 c))%nat.
Proof.
  unfold utf8_enc1. destruct (_ <? _); [ cbn; lia | ]. destruct (_ <? _); [ cbn; lia | ].
  destruct (_ <? _); cbn; lia.
Qed.

Lemma utf8_dec_fuel_enc s : forall fuel, Forall (fun c => is_scalar c = true) s ->
  (length (utf8_enc s) <= fuel)%nat -> utf8_dec_fuel fuel (utf8_enc s) = Some s.
Proof.
  induction s as [|c s IH]; intros fuel HF Hl.
  - destruct fuel; auto.
  - inversion HF as [|? ? Hc Hs]; subst. unfold utf8_enc in *. cbn [flat_map] in *.
    rewrite app_length in Hl. pose proof (utf8_enc1_nonempty c) as Hn.
    pose proof (utf8_dec1_enc1 c (flat_map utf8_enc1 s) Hc) as Hd.
    destruct fuel as [|fuel]; [ lia | ].
    destruct (utf8_enc1 c ++ flat_map utf8_enc1 s) as [|b l] eqn:E.
    + destruct (utf8_enc1 c); cbn in *; [ lia | discriminate ].
    + cbn [utf8_dec_fuel]. rewrite Hd, IH; auto. lia.
Qed.
Lemma utf8_dec_enc s : Forall (fun c => is_scalar c = true) s -> utf8_dec (utf8_enc s) = Some s.
Proof. intros. apply utf8_dec_fuel_enc; auto. Qed.

Lemma utf8_dec_fuel_inv fuel : forall l s, utf8_dec_fuel fuel l = Some s ->
  Forall (fun c => is_scalar c = true) s /\ utf8_enc s = l.
Proof.
  induction fuel as [|fuel IH]; intros l s H; destruct l as [|b l]; cbn [utf8_dec_fuel] in H.
  - injection H as <-. auto.
  - discriminate.
  - injection H as <-. auto.
  - destruct (utf8_dec1 (b :: l)) as [[c r]|] eqn:E; [ | discriminate ].
    destruct (utf8_dec_fuel fuel r) as [s'|] eqn:E2; [ | discriminate ].
    injection H as <-. apply utf8_dec1_inv in E as [Hc ->]. apply IH in E2 as [HF <-].
    split; [ constructor; auto | reflexivity ].
Qed.
Lemma utf8_dec_inv l s : utf8_dec l = Some s ->
  Forall (fun c => is_scalar c = true) s /\ utf8_enc s = l.
Proof. apply utf8_dec_fuel_inv. Qed.
