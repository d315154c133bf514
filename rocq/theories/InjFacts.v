(** InjFacts.v - the serialisation of parsed structures is self-delimiting *)
From Verif Require Import Base BaseFacts Utils ParseFacts Algorithms Common SchemeV2 SourceStamp
  Utf8 ElfInfo SigningBlock Wire Built CodecFacts BlockFacts BuiltFacts.

Definition self_delim {A} (P : A -> Prop) (enc : A -> bytes) : Prop :=
  forall x y s t, P x -> P y -> enc x ++ s = enc y ++ t -> x = y /\ s = t.

Lemma list_self_delim {A} (P : A -> Prop) (enc : A -> bytes) (f : A -> N) :
  self_delim P enc -> forall xs ys max s t,
  Forall P xs -> Forall P ys -> stops f max xs -> stops f max ys ->
  flat_map enc xs ++ s = flat_map enc ys ++ t -> xs = ys /\ s = t.
Proof.
  intros Hd. induction xs as [|x xs IH]; intros [|y ys] max s t HX HY SX SY E; cbn [stops flat_map] in *.
  - auto.
  - lia.
  - lia.
  - rewrite <- !app_assoc in E. inversion HX; inversion HY; subst.
    apply Hd in E as [-> E]; auto. destruct SX as [_ SX], SY as [_ SY].
    apply (IH ys (max - f y)) in E as [-> ->]; auto.
Qed.

Lemma stops_Forall2 {A} (R : A -> bytes -> Prop) (f : A -> N) xs raws :
  (forall x raw, R x raw -> len raw = f x) -> Forall2 R xs raws ->
  forall max, stops len max raws -> stops f max xs.
Proof.
  intros H HF. induction HF as [|x raw xs raws HR HF IH]; intros max; cbn [stops]; auto.
  intros [H1 H2]. rewrite (H _ _ HR) in H2. auto.
Qed.
Lemma Forall2_ex {A} (R : A -> bytes -> Prop) xs raws :
  Forall2 R xs raws -> Forall (fun x => exists raw, R x raw) xs.
Proof. induction 1; constructor; eauto. Qed.

Lemma le_self k a b (s t : bytes) : a < 256 ^ N.of_nat k -> b < 256 ^ N.of_nat k ->
  le k a ++ s = le k b ++ t -> a = b /\ s = t.
Proof.
  intros Ha Hb E. apply app_inj_len in E as [E ->]; [ | rewrite !len_le; auto ].
  apply le_inj in E; auto.
Qed.

Definition ok_digest d := exists raw, W_digest d raw.
Definition ok_cert d := exists raw, W_cert d raw.
Definition ok_sig d := exists raw, W_sig d raw.
Definition ok_attr d := exists raw, W_attr d raw.
Definition ok_digests d := exists raw, W_digests d raw.
Definition ok_certs d := exists raw, W_certs d raw.
Definition ok_attrs d := exists raw, W_attrs d raw.

Lemma u32_of_algo_inj a b : canonical a -> canonical b -> u32_of_algo a = u32_of_algo b -> a = b.
Proof.
  intros Ha Hb E. rewrite <- (algo_of_u32_of_algo a), <- (algo_of_u32_of_algo b) by auto. congruence.
Qed.

Lemma digest_self : self_delim ok_digest digest_to_u8.
Proof.
  intros [sx ax dx] [sy ay dy] s t (rx&_&Hx1&Hx2&Hx3) (ry&_&Hy1&Hy2&Hy3) E. prj.
  unfold digest_to_u8, sized in E. prj. rewrite <- !app_assoc in E.
  apply le_self in E as [-> E]; [ | bounds | bounds ].
  apply le_self in E as [Ea E]; [ | apply u32_of_algo_bound; auto | apply u32_of_algo_bound; auto ].
  apply u32_of_algo_inj in Ea as ->; auto.
  apply le_self in E as [El E]; [ | bounds | bounds ].
  apply app_inj_len in E as [-> E]; [ | auto ].
  apply app_inv_head in E as ->. auto.
Qed.
Lemma cert_self : self_delim ok_cert cert_to_u8.
Proof.
  intros [sx dx] [sy dy] s t (rx&_&Hx1&Hx2) (ry&_&Hy1&Hy2) E. prj.
  unfold cert_to_u8 in E. prj. rewrite !sized_exact in E by auto. rewrite <- !app_assoc in E.
  apply le_self in E as [-> E]; [ | bounds | bounds ].
  apply app_inj_len in E as [-> ->]; [ | congruence ]. auto.
Qed.
Lemma attr_self : self_delim ok_attr attr_to_u8.
Proof.
  intros [sx ix dx] [sy iy dy] s t (rx&_&Hx1&Hx2&Hx3) (ry&_&Hy1&Hy2&Hy3) E. prj.
  unfold attr_to_u8 in E. prj.
  rewrite !sized_exact in E by (rewrite len_app, len_le; lia). rewrite <- !app_assoc in E.
  apply le_self in E as [-> E]; [ | bounds | bounds ].
  apply le_self in E as [-> E]; [ | bounds | bounds ].
  apply app_inj_len in E as [-> ->]; [ | lia ]. auto.
Qed.

Lemma W_digest_len d raw : W_digest d raw -> len raw = 12 + len (dg_digest d).
Proof. intros (->&_). rewrite !len_app, !len_le. lia. Qed.
Lemma W_cert_len d raw : W_cert d raw -> len raw = 4 + len (ct_data d).
Proof. intros (->&_). rewrite !len_app, !len_le. lia. Qed.
Lemma W_attr_len d raw : W_attr d raw -> len raw = 8 + len (at_data d).
Proof. intros (->&_). rewrite !len_app, !len_le. lia. Qed.

Lemma digests_self : self_delim ok_digests digests_to_u8.
Proof.
  intros [sx lx] [sy ly] s t (rx&rawx&FX&_&Hx1&Hx2) (ry&rawy&FY&_&Hy1&Hy2) E. prj.
  unfold digests_to_u8, sized in E. prj. rewrite <- !app_assoc in E.
  apply le_self in E as [Es E]; [ | bounds | bounds ].
  assert (SX : stops (fun d => 12 + len (dg_digest d)) sx lx).
  { eapply stops_Forall2; [ apply W_digest_len | exact FX | ]. rewrite Hx1, len_concat.
    apply stops_exact. eapply Forall2_nonempty; [ apply digest_nonempty | exact FX ]. }
  assert (SY : stops (fun d => 12 + len (dg_digest d)) sx ly).
  { eapply stops_Forall2; [ apply W_digest_len | exact FY | ]. rewrite Es, Hy1, len_concat.
    apply stops_exact. eapply Forall2_nonempty; [ apply digest_nonempty | exact FY ]. }
  apply Forall2_ex in FX, FY.
  eapply list_self_delim in E as [-> E]; [ | apply digest_self | exact FX | exact FY | exact SX | exact SY ].
  rewrite Es in E. apply app_inv_head in E as ->. rewrite Es. auto.
Qed.
Lemma certs_self : self_delim ok_certs certs_to_u8.
Proof.
  intros [sx lx] [sy ly] s t (rx&rawx&FX&_&Hx1&Hx2) (ry&rawy&FY&_&Hy1&Hy2) E. prj.
  unfold certs_to_u8, sized in E. prj. rewrite <- !app_assoc in E.
  apply le_self in E as [Es E]; [ | bounds | bounds ]. subst sy.
  apply reaches_stops in Hx1, Hy1.
  eapply stops_Forall2 in Hx1; [ | apply W_cert_len | exact FX ].
  eapply stops_Forall2 in Hy1; [ | apply W_cert_len | exact FY ].
  apply Forall2_ex in FX, FY.
  eapply list_self_delim in E as [-> E]; [ | apply cert_self | exact FX | exact FY | exact Hx1 | exact Hy1 ].
  apply app_inv_head in E as ->. auto.
Qed.
Lemma attrs_self : self_delim ok_attrs attrs_to_u8.
Proof.
  intros [sx lx] [sy ly] s t (rx&rawx&FX&_&Hx1&Hx2) (ry&rawy&FY&_&Hy1&Hy2) E. prj.
  unfold attrs_to_u8, sized in E. prj. rewrite <- !app_assoc in E.
  apply le_self in E as [Es E]; [ | bounds | bounds ]. subst sy.
  apply reaches_stops in Hx1, Hy1.
  eapply stops_Forall2 in Hx1; [ | apply W_attr_len | exact FX ].
  eapply stops_Forall2 in Hy1; [ | apply W_attr_len | exact FY ].
  apply Forall2_ex in FX, FY.
  eapply list_self_delim in E as [-> E]; [ | apply attr_self | exact FX | exact FY | exact Hx1 | exact Hy1 ].
  apply app_inv_head in E as ->. auto.
Qed.

(** Digests, certificates and attributes are determined by any byte string
    that starts with their three serialisations. *)
Lemma triple_self d1 c1 a1 d2 c2 a2 s t :
  ok_digests d1 -> ok_certs c1 -> ok_attrs a1 -> ok_digests d2 -> ok_certs c2 -> ok_attrs a2 ->
  (digests_to_u8 d1 ++ certs_to_u8 c1 ++ attrs_to_u8 a1) ++ s =
  (digests_to_u8 d2 ++ certs_to_u8 c2 ++ attrs_to_u8 a2) ++ t ->
  d1 = d2 /\ c1 = c2 /\ a1 = a2 /\ s = t.
Proof.
  intros D1 C1 A1 D2 C2 A2 E. rewrite <- !app_assoc in E.
  apply digests_self in E as [-> E]; auto.
  apply certs_self in E as [-> E]; auto.
  apply attrs_self in E as [-> E]; auto.
Qed.

Lemma drop4_le n (s : bytes) : dropN 4 (le 4 n ++ s) = s.
Proof. apply dropN_app_eq. rewrite len_le. auto. Qed.

Lemma sd_signed_bytes s :
  dropN 4 (sd_to_u8 s) =
  (digests_to_u8 (sd_digests s) ++ certs_to_u8 (sd_certs s) ++ attrs_to_u8 (sd_attrs s)) ++
  zeros (sd_size s - len (digests_to_u8 (sd_digests s) ++ certs_to_u8 (sd_certs s) ++ attrs_to_u8 (sd_attrs s))).
Proof. unfold sd_to_u8, sized, padding. apply drop4_le. Qed.
Lemma std_signed_bytes s :
  dropN 4 (std_to_u8 s) =
  (digests_to_u8 (st_digests s) ++ certs_to_u8 (st_certs s) ++ attrs_to_u8 (st_attrs s)) ++ [].
Proof. unfold std_to_u8. rewrite drop4_le, app_nil_r. auto. Qed.

Lemma W_sd_parts s raw : W_sd s raw -> ok_digests (sd_digests s) /\ ok_certs (sd_certs s) /\ ok_attrs (sd_attrs s).
Proof. intros (d&c&a&j&HD&HC&HA&_). split; [ | split ]; eexists; eauto. Qed.
Lemma W_std_parts s raw : W_std s raw -> ok_digests (st_digests s) /\ ok_certs (st_certs s) /\ ok_attrs (st_attrs s).
Proof. intros (d&c&a&j&HD&HC&HA&_). split; [ | split ]; eexists; eauto. Qed.

Lemma sd_signed_inj s1 r1 s2 r2 : W_sd s1 r1 -> W_sd s2 r2 ->
  dropN 4 (sd_to_u8 s1) = dropN 4 (sd_to_u8 s2) ->
  sd_digests s1 = sd_digests s2 /\ sd_certs s1 = sd_certs s2 /\ sd_attrs s1 = sd_attrs s2.
Proof.
  intros H1 H2 E. rewrite !sd_signed_bytes in E.
  apply W_sd_parts in H1 as (?&?&?), H2 as (?&?&?).
  apply triple_self in E as (?&?&?&_); auto.
Qed.
Lemma std_signed_inj s1 r1 s2 r2 : W_std s1 r1 -> W_std s2 r2 ->
  dropN 4 (std_to_u8 s1) = dropN 4 (std_to_u8 s2) -> s1 = s2.
Proof.
  intros H1 H2 E. rewrite !std_signed_bytes in E.
  apply W_std_parts in H1 as (?&?&?), H2 as (?&?&?).
  apply triple_self in E as (?&?&?&_); auto. destruct s1, s2; cbn in *; congruence.
Qed.
