(** ZipFacts.v - the end record search *)
From Verif Require Import Base BaseFacts SigningBlock Zip ZipSpec.

Lemma sub_app (p d s : bytes) a b : a = len p -> b = len p + len d -> sub (p ++ d ++ s) a b = d.
Proof.
  intros -> ->. unfold sub. rewrite dropN_app. apply takeN_app_eq. lia.
Qed.
Lemma len_sub l a b : len (sub l a b) = N.min (b - a) (len l - a).
Proof. unfold sub. rewrite len_takeN, len_dropN. auto. Qed.
Lemma sub_dropN l o a b : sub (dropN o l) a b = sub l (o + a) (o + b).
Proof. unfold sub. rewrite dropN_dropN. f_equal. lia. Qed.
Lemma sub_join l a b c : a <= b -> b <= c -> sub l a b ++ sub l b c = sub l a c.
Proof.
  intros H1 H2. unfold sub. replace (c - a) with (b - a + (c - b)) by lia.
  rewrite takeN_add, dropN_dropN. do 3 f_equal. lia.
Qed.
Lemma sub_split l a b : a <= b -> b <= len l -> l = takeN a l ++ sub l a b ++ dropN b l.
Proof.
  intros H1 H2. rewrite <- (take_drop a l) at 1. f_equal.
  rewrite <- (take_drop (b - a) (dropN a l)) at 1. unfold sub. f_equal.
  rewrite dropN_dropN. f_equal. lia.
Qed.

Definition record_atb (file : bytes) (o : N) : bool :=
  match get_range file o (o + 4) with
  | Some s => beq s EOCD_SIG && (o + 22 <=? len file) &&
              (o + 22 + un_le (sub file (o + 20) (o + 22)) <=? len file)
  | None => false
  end.

Lemma len_sig : len EOCD_SIG = 4. Proof. reflexivity. Qed.

Lemma record_atb_iff file o : record_atb file o = true <-> record_at file o.
Proof.
  unfold record_atb, record_at. split.
  - destruct (get_range file o (o + 4)) as [s|] eqn:E; [ | discriminate ].
    intros H. apply andb_prop in H as [H H3]. apply andb_prop in H as [H1 H2].
    apply beq_eq in H1. subst s. apply N.leb_le in H2, H3.
    set (c := un_le _) in *.
    exists (takeN o file), (sub file (o + 4) (o + 20)), (sub file (o + 22) (o + 22 + c)),
      (dropN (o + 22 + c) file).
    assert (Hc : c < U16).
    { unfold c. rewrite <- pow256_2. eapply N.lt_le_trans; [ apply un_le_bound | ].
      apply N.pow_le_mono_r; [ lia | ]. rewrite len_sub. lia. }
    rewrite !len_sub, len_takeN. split; [ | lia ].
    replace (N.min (o + 22 + c - (o + 22)) (len file - (o + 22))) with c by lia.
    unfold c at 1. rewrite (le_un_le' 2).
    2: { rewrite length_len, len_sub. lia. }
    apply get_range_split in E. rewrite E at 1. do 2 f_equal.
    rewrite (app_assoc (sub _ _ _)), sub_join by lia.
    rewrite (app_assoc (sub _ _ _)), sub_join by lia.
    unfold sub. rewrite <- (take_drop (o + 22 + c - (o + 4)) (dropN (o + 4) file)) at 1.
    f_equal. rewrite dropN_dropN. f_equal. lia.
  - intros (pre&body&comment&post&->&<-&Hb&Hc).
    rewrite (get_range_app _ pre EOCD_SIG _ (len pre) (len pre + 4) eq_refl) by (rewrite ?len_sig; lia).
    rewrite beq_refl. rewrite !len_app, len_le, len_sig, Hb.
    replace (len pre + 22 <=? _) with true by lia.
    rewrite (app_assoc pre), (app_assoc _ body).
    rewrite (sub_app ((pre ++ EOCD_SIG) ++ body)) by (rewrite ?len_app, ?len_le, ?len_sig, ?Hb; lia).
    rewrite un_le2 by auto. lia.
Qed.

(** The record that starts at [o]. *)
Definition eocd_at (file : bytes) (o : N) : eocd :=
  let f a b := un_le (sub file (o + a) (o + b)) in
  mkEocd o (sub file o (o + 4)) (f 4 6) (f 6 8) (f 8 10) (f 10 12) (f 12 16) (f 16 20) (f 20 22)
    (sub file (o + 22) (o + 22 + f 20 22)).

Lemma find_eocd_loop_step file rs k : rs + N.of_nat k + 22 <= len file ->
  find_eocd_loop (dropN rs file) rs (len file) (S k) =
  if record_atb file (rs + N.of_nat k) then Ok (eocd_at file (rs + N.of_nat k))
  else find_eocd_loop (dropN rs file) rs (len file) k.
Proof.
  intros H. cbn [find_eocd_loop]. set (i := N.of_nat k) in *. unfold record_atb.
  assert (E : get_range (dropN rs file) i (i + 4) = get_range file (rs + i) (rs + i + 4)).
  { rewrite !get_range_Some by (rewrite ?len_dropN; lia). rewrite dropN_dropN. do 2 f_equal. lia. }
  rewrite E. destruct (get_range file (rs + i) (rs + i + 4)) as [s|] eqn:Es; auto.
  destruct (beq s EOCD_SIG); cbn [andb]; auto.
  unfold parse_eocd_at_offset. rewrite len_dropN.
  replace (len file - rs <? i) with false by lia. rewrite !len_dropN.
  unfold MIN_EOCD_SIZE. replace (len file - rs - i <? 22) with false by lia.
  rewrite dropN_dropN. rewrite !sub_dropN. cbv zeta.
  set (c := un_le _). replace (rs + i + 22 <=? len file) with true by lia. cbn [andb].
  replace (rs + i + 0) with (rs + i) by lia. replace (rs + i + (22 + c)) with (rs + i + 22 + c) by lia.
  replace (len file - rs - i <? 22 + c) with (len file <? rs + i + 22 + c) by lia.
  replace (rs + i + 22 + c <=? len file) with (negb (len file <? rs + i + 22 + c)) by lia.
  destruct (len file <? rs + i + 22 + c); cbn [negb]; [ auto | ].
  unfold eocd_at. reflexivity.
Qed.

Definition search_start (n : N) : N := n - N.min 65557 n.

Lemma find_eocd_eq file : 22 <= len file ->
  find_eocd file (len file) =
  find_eocd_loop (dropN (search_start (len file)) file) (search_start (len file)) (len file)
    (S (N.to_nat (len file - search_start (len file) - 22))).
Proof.
  intros H. unfold find_eocd, MIN_EOCD_SIZE, MAX_COMMENT_LEN.
  replace (len file <? 22) with false by lia. change (65535 + 22) with 65557.
  unfold read_exact_at. unfold search_start.
  rewrite get_range_Some by lia. cbn [bind].
  replace (len file - N.min 65557 (len file) + N.min 65557 (len file) - (len file - N.min 65557 (len file)))
    with (N.min 65557 (len file)) by lia.
  rewrite (takeN_all (N.min 65557 (len file))) by (rewrite len_dropN; lia).
  rewrite len_dropN. auto.
Qed.

Lemma loop_found file rs k o : rs + N.of_nat k + 21 <= len file -> rs <= o -> o < rs + N.of_nat k ->
  record_at file o -> (forall o', o < o' -> o' < rs + N.of_nat k -> ~ record_at file o') ->
  find_eocd_loop (dropN rs file) rs (len file) k = Ok (eocd_at file o).
Proof.
  intros Hk H1 H2 Hr Hn. revert Hk H2 Hn. induction k as [|k IH]; intros Hk H2 Hn; [ lia | ].
  rewrite find_eocd_loop_step by lia.
  destruct (N.eq_dec o (rs + N.of_nat k)) as [->|E].
  - apply record_atb_iff in Hr. rewrite Hr. auto.
  - destruct (record_atb file (rs + N.of_nat k)) eqn:Eb.
    + apply record_atb_iff in Eb. exfalso. apply (Hn (rs + N.of_nat k)); auto; lia.
    + apply IH; try lia. intros. apply Hn; auto; lia.
Qed.
Lemma loop_none file rs k : rs + N.of_nat k + 21 <= len file ->
  (forall o, rs <= o -> o < rs + N.of_nat k -> ~ record_at file o) ->
  find_eocd_loop (dropN rs file) rs (len file) k = Err EEocdNotFound.
Proof.
  induction k as [|k IH]; intros Hk Hn; [ auto | ].
  rewrite find_eocd_loop_step by lia.
  destruct (record_atb file (rs + N.of_nat k)) eqn:Eb.
  - apply record_atb_iff in Eb. exfalso. apply (Hn (rs + N.of_nat k)); auto; lia.
  - apply IH; [ lia | ]. intros. apply Hn; lia.
Qed.

Lemma record_at_room file o : record_at file o -> o + 22 <= len file.
Proof.
  intros (pre&body&comment&post&->&<-&Hb&Hc). rewrite !len_app, len_le, len_sig. lia.
Qed.

Lemma find_eocd_found file o : last_record file o -> find_eocd file (len file) = Ok (eocd_at file o).
Proof.
  intros (Hr&Hw&Hn). pose proof (record_at_room _ _ Hr). rewrite find_eocd_eq by lia.
  unfold search_start. apply loop_found; auto; lia.
Qed.

Lemma record_cases file : (exists o, last_record file o) \/ (forall o, len file <= o + 65557 -> ~ record_at file o).
Proof.
  assert (K : forall k, (forall o, len file - N.of_nat k <= o -> ~ record_at file o) \/
            (exists o, len file - N.of_nat k <= o /\ record_at file o /\ forall o', o < o' -> ~ record_at file o')).
  { induction k as [|k IH].
    - left. intros o Ho Hr. apply record_at_room in Hr. lia.
    - destruct IH as [IH|(o&H1&H2&H3)]; [ | right; exists o; repeat split; auto; lia ].
      destruct (record_atb file (len file - N.of_nat (S k))) eqn:E.
      + apply record_atb_iff in E. right. eexists. split; [ | split; [ exact E | ] ]; [ lia | ].
        intros o' Ho'. apply IH. lia.
      + left. intros o Ho Hr. destruct (N.eq_dec o (len file - N.of_nat (S k))) as [->|].
        * apply record_atb_iff in Hr. congruence.
        * apply (IH o); auto. lia. }
  destruct (K (N.to_nat 65557)) as [H|(o&H1&H2&H3)].
  - right. intros o Ho. apply H. lia.
  - left. exists o. repeat split; auto. lia.
Qed.

Lemma find_eocd_none file : (forall o, len file <= o + 65557 -> ~ record_at file o) ->
  find_eocd file (len file) = Err EZipTooSmall \/ find_eocd file (len file) = Err EEocdNotFound.
Proof.
  intros H. destruct (N.lt_ge_cases (len file) 22) as [Hl|Hl].
  - left. unfold find_eocd, MIN_EOCD_SIZE. replace (len file <? 22) with true by lia. auto.
  - right. rewrite find_eocd_eq by auto. unfold search_start. apply loop_none; [ lia | ].
    intros o H1 H2. apply H. lia.
Qed.

Lemma find_eocd_inv file e : find_eocd file (len file) = Ok e ->
  last_record file (eo_off e) /\ e = eocd_at file (eo_off e).
Proof.
  intros H. destruct (record_cases file) as [(o&Ho)|Hn].
  - rewrite (find_eocd_found _ _ Ho) in H. injection H as <-. cbn [eo_off eocd_at]. auto.
  - destruct (find_eocd_none _ Hn) as [E|E]; rewrite E in H; discriminate.
Qed.

Lemma find_eocd_no_panic file : find_eocd file (len file) <> Panic.
Proof.
  destruct (record_cases file) as [(o&Ho)|Hn].
  - rewrite (find_eocd_found _ _ Ho). discriminate.
  - destruct (find_eocd_none _ Hn) as [E|E]; rewrite E; discriminate.
Qed.

(** Field sizes of a parsed record. *)
Definition eocd_fields_ok (e : eocd) : Prop :=
  eo_sig e = EOCD_SIG /\ eo_disk e < U16 /\ eo_disk_cd e < U16 /\ eo_num e < U16 /\ eo_total e < U16 /\
  eo_cd_size e < U32 /\ eo_cd_offset e < U32 /\ eo_comment_len e < U16 /\
  len (eo_comment e) = eo_comment_len e.

Lemma un_sub_lt l a b k : b - a <= N.of_nat k -> un_le (sub l a b) < 256 ^ N.of_nat k.
Proof.
  intros H. eapply N.lt_le_trans; [ apply un_le_bound | ].
  apply N.pow_le_mono_r; [ lia | ]. rewrite len_sub. lia.
Qed.

Lemma le_sub l a b k : b - a = N.of_nat k -> b <= len l -> le k (un_le (sub l a b)) = sub l a b.
Proof. intros H1 H2. apply le_un_le'. rewrite length_len, len_sub. lia. Qed.

Lemma eocd_at_bytes file o : record_at file o ->
  eocd_fields_ok (eocd_at file o) /\
  file = takeN o file ++ eocd_to_u8 (eocd_at file o) ++
         dropN (o + 22 + eo_comment_len (eocd_at file o)) file /\ o + 22 + eo_comment_len (eocd_at file o) <= len file.
Proof.
  intros Hr. pose proof (record_at_room _ _ Hr) as Hroom.
  apply record_atb_iff in Hr. unfold record_atb in Hr.
  destruct (get_range file o (o + 4)) as [s|] eqn:Es; [ | discriminate ].
  apply andb_prop in Hr as [Hr H3]. apply andb_prop in Hr as [H1 H2].
  apply beq_eq in H1. subst s. apply N.leb_le in H3.
  apply get_range_spec in Es as (_&_&Es).
  assert (Ecl : eo_comment_len (eocd_at file o) = un_le (sub file (o + 20) (o + 22))) by reflexivity.
  split; [ | split ].
  - unfold eocd_fields_ok, eocd_at. cbv zeta.
    cbn [eo_sig eo_disk eo_disk_cd eo_num eo_total eo_cd_size eo_cd_offset eo_comment_len eo_comment].
    rewrite <- pow256_2, <- pow256_4.
    split; [ unfold sub; auto | ].
    do 7 (split; [ apply un_sub_lt; lia | ]).
    rewrite len_sub. lia.
  - rewrite Ecl. set (c := un_le _) in *.
    unfold eocd_to_u8, eocd_at. cbv zeta.
    cbn [eo_sig eo_disk eo_disk_cd eo_num eo_total eo_cd_size eo_cd_offset eo_comment_len eo_comment].
    fold c. rewrite !le_sub by lia. unfold c at 1. rewrite le_sub by lia.
    rewrite (sub_join _ (o + 20)) by lia. rewrite (sub_join _ (o + 16)) by lia.
    rewrite (sub_join _ (o + 12)) by lia. rewrite (sub_join _ (o + 10)) by lia.
    rewrite (sub_join _ (o + 8)) by lia. rewrite (sub_join _ (o + 6)) by lia.
    rewrite (sub_join _ (o + 4)) by lia. rewrite (sub_join _ o) by lia.
    apply sub_split; lia.
  - rewrite Ecl. auto.
Qed.

(** A record is determined by its bytes. *)
Lemma eocd_bytes_inj e1 e2 t1 t2 : eocd_fields_ok e1 -> eocd_fields_ok e2 -> eo_off e1 = eo_off e2 ->
  eocd_to_u8 e1 ++ t1 = eocd_to_u8 e2 ++ t2 -> e1 = e2.
Proof.
  destruct e1 as [a0 a1 a2 a3 a4 a5 a6 a7 a8 a9], e2 as [b0 b1 b2 b3 b4 b5 b6 b7 b8 b9]. unfold eocd_fields_ok, eocd_to_u8.
  cbn [eo_off eo_sig eo_disk eo_disk_cd eo_num eo_total eo_cd_size eo_cd_offset eo_comment_len eo_comment].
  intros (->&A1&A2&A3&A4&A5&A6&A7&A8) (->&B1&B2&B3&B4&B5&B6&B7&B8) -> H.
  rewrite <- !app_assoc in H. apply app_inv_head in H.
  do 7 (apply app_inj_len in H as [?H H]; [ | rewrite !len_le; auto ]).
  apply le_inj in H0; [ | rewrite pow256_2; lia .. ].
  apply le_inj in H1; [ | rewrite pow256_2; lia .. ].
  apply le_inj in H2; [ | rewrite pow256_2; lia .. ].
  apply le_inj in H3; [ | rewrite pow256_2; lia .. ].
  apply le_inj in H4; [ | rewrite pow256_4; lia .. ].
  apply le_inj in H5; [ | rewrite pow256_4; lia .. ].
  apply le_inj in H6; [ | rewrite pow256_2; lia .. ].
  subst. apply app_inj_len in H as [-> _]; [ auto | lia ].
Qed.

Lemma find_eocd_iff file e : find_eocd file (len file) = Ok e <->
  last_record file (eo_off e) /\ eocd_fields_ok e /\
  exists pre post, file = pre ++ eocd_to_u8 e ++ post /\ len pre = eo_off e.
Proof.
  split.
  - intros H. apply find_eocd_inv in H as [Hl He]. split; [ auto | ].
    destruct (eocd_at_bytes file (eo_off e)) as (H1&H2&H3); [ apply Hl | ].
    rewrite <- He in *. split; [ auto | ]. do 2 eexists. split; [ exact H2 | ].
    rewrite len_takeN. lia.
  - intros (Hl&Hf&pre&post&E&Ho). rewrite (find_eocd_found _ _ Hl). f_equal.
    destruct (eocd_at_bytes file (eo_off e)) as (H1&H2&H3); [ apply Hl | ].
    rewrite E in H2 at 1. apply app_inj_len in H2 as [_ H2].
    + symmetry. eapply eocd_bytes_inj; eauto.
    + rewrite len_takeN. lia.
Qed.

(** ** Archives *)
Lemma record_at_app pre r o : record_at (pre ++ r) (len pre + o) <-> record_at r o.
Proof.
  split; intros (p&body&comment&post&E&Hp&Hb&Hc).
  - exists (dropN (len pre) p), body, comment, post.
    assert (Hs : p = pre ++ dropN (len pre) p).
    { rewrite <- (take_drop (len pre) p) at 1. f_equal.
      apply (f_equal (takeN (len pre))) in E. rewrite takeN_app in E.
      rewrite takeN_app_l in E by lia. auto. }
    rewrite Hs, <- app_assoc in E. apply app_inv_head in E.
    repeat split; auto. rewrite len_dropN. lia.
  - exists (pre ++ p), body, comment, post. rewrite <- app_assoc, <- E, len_app.
    repeat split; auto. lia.
Qed.

Lemma end_record_at z off : len (z_head z) = 12 -> len (z_comment z) < U16 ->
  record_at (end_record z off) 0.
Proof.
  intros H1 H2. exists [], (z_head z ++ le 4 off), (z_comment z), [].
  unfold end_record. rewrite <- !app_assoc, app_nil_r. rewrite len_app, len_le. repeat split; auto; lia.
Qed.
Lemma len_end_record z off : len (z_head z) = 12 -> len (end_record z off) = 22 + len (z_comment z).
Proof. intros H. unfold end_record. rewrite !len_app, !len_le, len_sig. lia. Qed.

(** The parsed end record of an archive. *)
Definition zip_eocd (z : zip) (off cd_offset : N) : eocd :=
  let f a b := un_le (sub (z_head z) a b) in
  mkEocd off EOCD_SIG (f 0 2) (f 2 4) (f 4 6) (f 6 8) (f 8 12) cd_offset
    (len (z_comment z)) (z_comment z).
Lemma zip_eocd_bytes z off cd : len (z_head z) = 12 -> eocd_to_u8 (zip_eocd z off cd) = end_record z cd.
Proof.
  intros H. unfold eocd_to_u8, zip_eocd, end_record. cbv zeta.
  cbn [eo_sig eo_disk eo_disk_cd eo_num eo_total eo_cd_size eo_cd_offset eo_comment_len eo_comment].
  rewrite !le_sub by lia. f_equal.
  rewrite (app_assoc (sub _ 6 8)), sub_join by lia. rewrite (app_assoc (sub _ 4 6)), sub_join by lia.
  rewrite (app_assoc (sub _ 2 4)), sub_join by lia. rewrite (app_assoc (sub _ 0 2)), sub_join by lia.
  f_equal. unfold sub. rewrite dropN_0. apply takeN_all. lia.
Qed.
Lemma zip_eocd_fields z off cd : len (z_comment z) < U16 -> cd < U32 ->
  eocd_fields_ok (zip_eocd z off cd).
Proof.
  intros H Hc. unfold eocd_fields_ok, zip_eocd. cbv zeta.
  cbn [eo_sig eo_disk eo_disk_cd eo_num eo_total eo_cd_size eo_cd_offset eo_comment_len eo_comment].
  split; [ auto | ]. rewrite <- pow256_2, <- pow256_4 in *.
  do 5 (split; [ apply un_sub_lt; lia | ]). auto.
Qed.

(** The end record of an archive is found, with any bytes before it. *)
Lemma find_eocd_zip pre z cd : len (z_head z) = 12 -> len (z_comment z) < U16 -> cd < U32 ->
  only_record (end_record z cd) ->
  find_eocd (pre ++ end_record z cd) (len (pre ++ end_record z cd)) = Ok (zip_eocd z (len pre) cd).
Proof.
  intros H1 H2 H3 H4. apply find_eocd_iff. cbn [zip_eocd eo_off].
  split; [ | split ].
  - split; [ | split ].
    + replace (len pre) with (len pre + 0) by lia. apply record_at_app. apply end_record_at; auto.
    + rewrite len_app, len_end_record by auto. unfold U16 in *; lia.
    + intros o' Ho'. replace o' with (len pre + (o' - len pre)) by lia. rewrite record_at_app.
      apply H4. lia.
  - apply zip_eocd_fields; auto.
  - exists pre, []. rewrite zip_eocd_bytes by auto. rewrite app_nil_r. auto.
Qed.

(** Changing the directory offset in a record with a short comment creates no
    other record. *)
Lemma get_range_same {A} (l1 l2 h t1 t2 : list A) a b :
  l1 = h ++ t1 -> l2 = h ++ t2 -> b <= len h -> get_range l1 a b = get_range l2 a b.
Proof.
  intros -> -> H. unfold get_range. rewrite !len_app.
  replace (b <=? len h + len t1) with true by lia. replace (b <=? len h + len t2) with true by lia.
  destruct (a <=? b) eqn:E; cbn [andb]; auto. f_equal.
  rewrite !dropN_app_l by lia. rewrite !takeN_app_l by (rewrite len_dropN; lia). auto.
Qed.
Lemma sub_same_tail (h1 h2 t : bytes) a b : len h1 = len h2 -> len h1 <= a ->
  sub (h1 ++ t) a b = sub (h2 ++ t) a b.
Proof.
  intros H1 H2. unfold sub. rewrite !dropN_app_r by lia. rewrite H1. auto.
Qed.

Lemma only_record_offset z a b : len (z_head z) = 12 -> len (z_comment z) < 13 ->
  only_record (end_record z a) -> only_record (end_record z b).
Proof.
  intros Hh Hc H o Ho Hr. apply (H o Ho).
  apply record_atb_iff in Hr. apply record_atb_iff. unfold record_atb in *.
  assert (E : get_range (end_record z a) o (o + 4) = get_range (end_record z b) o (o + 4)).
  { destruct (get_range (end_record z b) o (o + 4)) as [s|] eqn:E; [ | discriminate ].
    rewrite <- E. apply andb_prop in Hr as [Hr _]. apply andb_prop in Hr as [_ Hr].
    rewrite len_end_record in Hr by auto.
    unfold end_record. eapply (get_range_same _ _ (EOCD_SIG ++ z_head z));
      [ rewrite <- app_assoc; reflexivity .. | ].
    rewrite len_app, len_sig. lia. }
  rewrite E. rewrite !len_end_record in * by auto.
  destruct (get_range _ _ _); [ | discriminate ].
  assert (E2 : sub (end_record z a) (o + 20) (o + 22) = sub (end_record z b) (o + 20) (o + 22)).
  { unfold end_record. rewrite !(app_assoc EOCD_SIG). rewrite !(app_assoc (EOCD_SIG ++ _)).
    apply sub_same_tail; rewrite !len_app, !len_le, ?len_sig; lia. }
  rewrite E2. auto.
Qed.
