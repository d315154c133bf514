(** GrammarFacts.v - what is found is exactly what the grammar says *)
From Verif Require Import Base BaseFacts Utils ParseFacts Algorithms Common SchemeV2 SourceStamp
  Utf8 ElfInfo SigningBlock Wire Built CodecFacts BlockFacts BuiltFacts SearchFacts Spec LimitFacts
  Zip Digest Module Signable ZipSpec RegionSpec ZipFacts DigestFacts ModuleFacts ModuleProps RawFacts FindSpec.
From Coq Require Import Lia.
Open Scope N_scope.

Lemma denotes_eq b s raw : denotes b s raw <->
  W_block (bk_content b) raw /\ len raw <= MAX_SIGNING_BLOCK_SIZE + 8 /\
  b = with_offsets (parsed_block raw (bk_content b)) s (s + len raw).
Proof.
  unfold denotes, MAX_SIGNING_BLOCK_SIZE. split.
  - intros (H1&H2&H3&H4&H5&H6&H7&H8). split; [ auto | ]. split; [ lia | ].
    destruct b as [a1 a2 a3 a4 a5 a6 a7]. unfold with_offsets, parsed_block. cbn in *. subst. f_equal; lia.
  - intros (H1&H2&H3). assert (32 <= len raw) by (destruct H1 as (?&_&->); rewrite len_block_layout; lia).
    pose proof (f_equal bk_start H3) as F1. pose proof (f_equal bk_end H3) as F2.
    pose proof (f_equal bk_size_start H3) as F3. pose proof (f_equal bk_size_end H3) as F4.
    pose proof (f_equal bk_content_size H3) as F5. pose proof (f_equal bk_magic H3) as F6.
    unfold with_offsets, parsed_block in *. cbn in F1, F2, F3, F4, F5, F6.
    split; [ exact H1 | ]. repeat split; try lia. exact F6.
Qed.

Lemma ends_last_iff f lim pre raw post l : W_block l raw -> f = pre ++ raw ++ post -> lim <= len f ->
  (last_magic f lim (len (pre ++ raw)) <->
   ends_last f lim pre raw post /\ lim + 24 <= len (pre ++ raw) + 16 * 1024 * 1024).
Proof.
  intros HW Ef Hl. destruct (W_block_magic l raw HW) as (pm&Epm&Hpm).
  assert (L : len (pre ++ raw) = len (pre ++ pm) + 16) by (rewrite Epm, !len_app, len_MAGIC; lia).
  assert (M : magic_ends f (len (pre ++ raw))).
  { rewrite magic_ends_split. exists (pre ++ pm), post. split; [ rewrite Ef, Epm, <- !app_assoc; auto | auto ]. }
  unfold last_magic, ends_last, window_start, MAX_WINDOW_SIZE. split.
  - intros (A&B&_&D). split; [ | lia ]. split; [ auto | ]. split; [ auto | ]. intros x y Exy Hx.
    destruct (N.le_gt_cases (len (x ++ MAGIC)) (len (pre ++ raw))) as [|G]; [ auto | exfalso ].
    apply (D _ G Hx). rewrite magic_ends_split. exists x, y. split; [ auto | rewrite len_app; reflexivity ].
  - intros ((_&A&D)&W). split; [ | split; [ auto | split; [ auto | ] ] ].
    + rewrite L in *. rewrite len_app in *. lia.
    + intros e' G1 G2 Hm. rewrite magic_ends_split in Hm. destruct Hm as (x&y&Exy&->).
      specialize (D x y Exy). rewrite len_app, len_MAGIC in D. lia.
Qed.

Lemma c69_reader p f eo b : len f < U64 ->
  (from_reader p f (len f) eo = Ok b <->
   exists pre raw post, ends_last f (len f - eo) pre raw post /\
     len f - eo + 24 <= len (pre ++ raw) + 16 * 1024 * 1024 /\
     denotes b (len pre) raw).
Proof.
  intros Hf. set (lim := len f - eo). assert (Hlim : lim <= len f) by (unfold lim; lia). split.
  - intros H. destruct (N.lt_ge_cases lim 24) as [Hs|Hs].
    { rewrite from_reader_small in H by auto. discriminate. }
    destruct (magic_cases f lim) as [(e&He)|Hn].
    2: { rewrite from_reader_none in H by auto. discriminate. }
    rewrite (from_reader_found _ f _ e) in H by auto.
    apply block_at_ok in H as (raw&Hg&HW&He'&Hb&Hm); [ | auto | destruct He as (_&?&_); lia ].
    pose proof (get_range_len _ _ _ _ Hg) as Hlen.
    pose proof (proj1 (get_range_spec _ _ _ _) Hg) as (G1&G2&_).
    apply get_range_split in Hg.
    assert (Lp : len (takeN (bk_start b) f) = bk_start b) by (rewrite len_takeN; lia).
    assert (Le : len (takeN (bk_start b) f ++ raw) = e) by (rewrite len_app, Lp; lia).
    rewrite <- Le in He. rewrite (ends_last_iff f lim _ raw _ _ HW Hg Hlim) in He. destruct He as [E1 E2].
    exists (takeN (bk_start b) f), raw, (dropN (bk_end b) f). split; [ exact E1 | ]. split; [ exact E2 | ].
    apply denotes_eq. split; [ auto | ]. split; [ auto | ]. rewrite Hb at 1. f_equal; lia.
  - intros (pre&raw&post&H1&H2&H3). apply denotes_eq in H3 as (HW&Hs&Hb).
    assert (Ef : f = pre ++ raw ++ post) by apply H1.
    assert (LM : last_magic f lim (len (pre ++ raw))).
    { rewrite (ends_last_iff f lim pre raw post _ HW Ef Hlim). auto. }
    assert (H24 : 24 <= lim) by (destruct LM as (?&?&_); lia).
    rewrite (from_reader_found p f eo (len (pre ++ raw))) by auto.
    rewrite (block_at_parses p f (len f) (len pre) _ raw (bk_content b)).
    + rewrite Hb at 2. rewrite len_app. reflexivity.
    + auto.
    + apply (get_range_app _ pre raw post); auto. apply len_app.
    + auto.
    + auto.
    + rewrite Ef, !len_app. lia.
Qed.

Lemma c69_module p f e b : len f < U64 -> find_eocd f (len f) = Ok e ->
  (m_get_signing_block p (module_new f) f = Ok b <->
   exists pre raw post, ends_last f (N.min (eo_cd_offset e) (len f)) pre raw post /\
     N.min (eo_cd_offset e) (len f) + 24 <=
       len (pre ++ raw) + 16 * 1024 * 1024 /\
     denotes b (len pre) raw).
Proof.
  intros Hf E. rewrite (get_sb_eq p f e E), c69_reader by auto. rewrite sat_lim. reflexivity.
Qed.

Lemma c69_slice p data b : len data < U64 ->
  (from_u8 p data = Ok b <->
   exists pre raw post, ends_last data (len data) pre raw post /\ denotes b 0 raw).
Proof.
  intros Hf. split.
  - intros H. unfold from_u8, SIZE_UINT64, MAGIC_LEN in H.
    destruct (len data <? 8 + 8 + 16) eqn:E; [ discriminate | ].
    destruct (u8_cases data (N.to_nat (len data - 16))) as [(s&H1&H2&H3&H4)|Hn].
    2: { rewrite u8_none in H; auto; [ discriminate | lia ]. }
    rewrite (u8_found p data _ s) in H; auto; [ | lia ].
    apply from_u8_at_inv in H as (fr&raw&Hg&HW&Hb&Hl); [ | auto | lia ].
    pose proof (get_range_len _ _ _ _ Hg) as Hlen.
    pose proof (proj1 (get_range_spec _ _ _ _) Hg) as (G1&G2&_).
    apply get_range_split in Hg. exists (takeN fr data), raw, (dropN (s + 16) data).
    split.
    + split; [ auto | ]. assert (Le : len (takeN fr data ++ raw) = s + 16) by (rewrite len_app, len_takeN; lia).
      rewrite Le. split; [ lia | ]. intros x y Exy _. rewrite len_app, len_MAGIC.
      destruct (N.le_gt_cases (len x) s) as [|G]; [ lia | exfalso ].
      assert (len x + 16 <= len data) by (rewrite Exy, !len_app, len_MAGIC; lia).
      apply (H4 (len x)); [ lia | lia | ]. rewrite magic_ends_split. eauto.
    + apply denotes_eq. split; [ auto | ]. split; [ auto | ].
      rewrite Hb at 1. unfold with_offsets, parsed_block. cbn. f_equal; lia.
  - intros (pre&raw&post&(Ef&_&Hlast)&Hd). apply denotes_eq in Hd as (HW&Hs&Hb).
    destruct (W_block_magic _ raw HW) as (pm&Epm&Hpm).
    assert (L : len (pre ++ raw) = len (pre ++ pm) + 16) by (rewrite Epm, !len_app, len_MAGIC; lia).
    assert (Lr : len raw = len pm + 16) by (rewrite Epm, len_app, len_MAGIC; lia).
    assert (Ld : len data = len (pre ++ raw) + len post) by (rewrite Ef, !len_app; lia).
    pose proof (from_u8_ok p pre raw _ ltac:(lia) HW Hs) as F.
    unfold from_u8, SIZE_UINT64, MAGIC_LEN in F |- *.
    rewrite len_app in *. replace (len pre + len raw <? 8 + 8 + 16) with false in F by lia.
    replace (len data <? 8 + 8 + 16) with false by lia.
    assert (Ms : magic_ends data (len pre + len pm + 16)).
    { rewrite magic_ends_split. exists (pre ++ pm), post. split; [ rewrite Ef, Epm, <- !app_assoc; auto | rewrite len_app; auto ]. }
    rewrite (u8_found p data _ (len pre + len pm)); try lia; [ | exact Ms | ].
    2: { intros q Hq1 Hq2 Hm. rewrite magic_ends_split in Hm. destruct Hm as (x&y&Exy&Eq).
         assert (len (x ++ MAGIC) <= len data) by (rewrite Exy, !len_app; lia).
         specialize (Hlast x y Exy). rewrite len_app, len_MAGIC in *. lia. }
    rewrite (u8_found p (pre ++ raw) _ (len pre + len pm)) in F; try (rewrite ?len_app; lia).
    2: { rewrite magic_ends_split. exists (pre ++ pm), []. rewrite app_nil_r. split; [ rewrite Epm, <- !app_assoc; auto | rewrite len_app; auto ]. }
    (* only the bytes up to the end of the magic matter *)
    assert (P : forall a b, b <= len pre + len raw -> get_range (pre ++ raw) a b = get_range data a b).
    { intros a c Hc. rewrite Ef. rewrite app_assoc. symmetry.
      unfold get_range. rewrite !len_app. 
      destruct (a <=? c) eqn:Ea; cbn [andb]; [ | auto ].
      replace (c <=? len pre + len raw + len post) with true by lia.
      replace (c <=? len pre + len raw) with true by lia.
      f_equal. rewrite dropN_app_l by (rewrite len_app; lia).
      rewrite takeN_app_l; [ auto | rewrite len_dropN, len_app; lia ]. }
    assert (S : from_u8_at p data (len pre + len pm) = from_u8_at p (pre ++ raw) (len pre + len pm)).
    { unfold from_u8_at, SIZE_UINT64, MAGIC_LEN. rewrite usub_ok by lia. cbn [bind].
      rewrite <- P by lia. destruct (get_range (pre ++ raw) (len pre + len pm - 8) (len pre + len pm)) as [sp|]; cbn [of_option bind]; auto.
      destruct (_ <? _); auto. destruct (usub p (un_le sp) 16) as [a| |]; cbn [bind]; auto.
      destruct (uadd p a 8) as [k| |]; cbn [bind]; auto. destruct (_ <? k); auto.
      rewrite P by lia. auto. }
    rewrite S, F. rewrite Hb at 2. unfold with_offsets, parsed_block. cbn. do 2 f_equal; lia.
Qed.

(** ** Files without a block *)
Lemma c69_none p f e : len f < U64 -> find_eocd f (len f) = Ok e ->
  (s_get_signing_block p (module_new f) f = Ok None <->
   24 <= len (takeN (eo_cd_offset e) f) /\ no_block_magic (takeN (eo_cd_offset e) f)).
Proof.
  intros Hf E. set (lim := N.min (eo_cd_offset e) (len f)).
  assert (NM : no_magic f lim <-> no_block_magic (takeN (eo_cd_offset e) f)).
  { rewrite <- (no_magic_iff _ (dropN (eo_cd_offset e) f)). rewrite take_drop, len_takeN. reflexivity. }
  rewrite <- NM, len_takeN. fold lim.
  unfold s_get_signing_block. rewrite (get_sb_eq p f e E). set (eo := len f - eo_cd_offset e).
  assert (Hl : len f - eo = lim) by (unfold eo; apply sat_lim).
  destruct (N.lt_ge_cases lim 24) as [Hs|Hs].
  - rewrite from_reader_small by lia. cbn [maybe_missing_signature]. split; [ discriminate | lia ].
  - destruct (magic_cases f lim) as [(m&Hm)|Hn].
    + rewrite (from_reader_found p f eo m) by (rewrite ?Hl; auto).
      split.
      * destruct (block_at p f (len f) m) as [b|x|] eqn:B; try discriminate.
        destruct Hm as (_&_&Hm&_). rewrite (block_at_not_missing p f (len f) m x) by auto. discriminate.
      * intros [_ Hn]. exfalso. destruct Hm as (A&B&M&_). apply (Hn m); auto.
    + rewrite from_reader_none by (rewrite ?Hl; auto). cbn [maybe_missing_signature]. tauto.
Qed.

(** ** A broken block is an error *)
Lemma c25_broken p f b e x y : len f < U64 -> find_eocd f (len f) = Ok e ->
  takeN (eo_cd_offset e) f = x ++ MAGIC ++ y ->
  8 + (len (x ++ MAGIC ++ y) - N.min (len (x ++ MAGIC ++ y)) (16 * 1024 * 1024)) <= len x ->
  (forall x' y', takeN (eo_cd_offset e) f = x' ++ MAGIC ++ y' -> len x' <= len x) ->
  no_block_ends (x ++ MAGIC) ->
  (forall b0, m_get_signing_block p (module_new f) f <> Ok b0) /\
  s_get_signing_block p (module_new f) f <> Ok None /\
  exists r, s_write_with_signature p (module_new f) f b = ([], r) /\ r <> Ok tt.
Proof.
  intros Hf E Ex Hw Hlast Hno.
  assert (Ef : f = x ++ MAGIC ++ y ++ dropN (eo_cd_offset e) f).
  { rewrite <- (take_drop (eo_cd_offset e) f) at 1. rewrite Ex, <- !app_assoc. auto. }
  set (t := dropN (eo_cd_offset e) f) in *. clearbody t.
  assert (LT : len (x ++ MAGIC ++ y) = N.min (eo_cd_offset e) (len f)) by (rewrite <- Ex; apply len_takeN).
  assert (Hn : forall b0, m_get_signing_block p (module_new f) f <> Ok b0).
  { intros b0 H. apply (c69_module p f e b0 Hf E) in H as (pre&raw&post&(Eq&Hl&Hm)&_&(HW&Hs&_)).
    assert (L1 : len (x ++ MAGIC) <= len (pre ++ raw)).
    { apply (Hm x (y ++ t)); [ auto | ]. rewrite <- LT, !len_app. lia. }
    destruct (W_block_magic _ raw HW) as (pm&Epm&Hpm).
    assert (Lpr : len (pre ++ raw) = len (pre ++ pm) + 16) by (rewrite Epm, !len_app, len_MAGIC; lia).
    assert (L2 : len (pre ++ pm) <= len x).
    { apply (Hlast (pre ++ pm) (takeN (len y - (len (pre ++ raw) - len (x ++ MAGIC))) (dropN (len (pre ++ raw) - len (x ++ MAGIC)) y))).
      assert (T : takeN (eo_cd_offset e) f = takeN (N.min (eo_cd_offset e) (len f)) f).
      { destruct (N.le_gt_cases (eo_cd_offset e) (len f)); [ f_equal; lia | ]. rewrite !takeN_all by lia. auto. }
      rewrite T. set (lim := N.min (eo_cd_offset e) (len f)) in *. clearbody lim.
      transitivity (takeN lim (pre ++ raw ++ post)); [ congruence | ]. rewrite Epm at 1. rewrite <- !app_assoc.
      rewrite (app_assoc pre pm), (app_assoc (pre ++ pm) MAGIC).
      rewrite takeN_app_r by (rewrite len_app, len_MAGIC; lia).
      rewrite <- (app_assoc (pre ++ pm) MAGIC). rewrite (app_assoc pre pm). f_equal. f_equal.
      assert (Ey : y ++ t = dropN (len (x ++ MAGIC)) f).
      { rewrite Ef. rewrite app_assoc. rewrite dropN_app_eq by auto. auto. }
      assert (Ep : post = dropN (len (pre ++ raw)) f).
      { rewrite Eq. rewrite app_assoc. rewrite dropN_app_eq by auto. auto. }
      assert (Ep2 : post = dropN (len (pre ++ raw) - len (x ++ MAGIC)) y ++ t).
      { rewrite Ep. replace (len (pre ++ raw)) with (len (x ++ MAGIC) + (len (pre ++ raw) - len (x ++ MAGIC))) at 1 by lia.
        rewrite <- dropN_dropN, <- Ey. apply dropN_app_l.
        rewrite !len_app in *. lia. }
            rewrite Ep2. rewrite takeN_app_l.
      - f_equal. rewrite !len_app in *. rewrite len_MAGIC in *. lia.
      - rewrite len_dropN. rewrite !len_app in *. rewrite len_MAGIC in *. lia. }
    assert (Q : pre ++ raw = x ++ MAGIC).
    { assert (Lq : len (pre ++ raw) = len (x ++ MAGIC)) by (rewrite Lpr in *; rewrite (len_app x), len_MAGIC in *; lia).
      assert (A1 : takeN (len (pre ++ raw)) f = pre ++ raw) by (rewrite Eq; rewrite app_assoc; apply takeN_app_eq; auto).
      assert (A2 : takeN (len (x ++ MAGIC)) f = x ++ MAGIC) by (rewrite Ef; rewrite app_assoc; apply takeN_app_eq; auto).
      rewrite Lq in A1. congruence. }
    apply (Hno (bk_content b0) pre raw); auto. }
  assert (Nm : ~ (24 <= len (takeN (eo_cd_offset e) f) /\ no_block_magic (takeN (eo_cd_offset e) f))).
  { intros [_ Hm]. specialize (Hm x y Ex). rewrite Ex in Hm. lia. }
  split; [ exact Hn | ]. split; [ rewrite (c69_none p f e Hf E); exact Nm | ].
  eapply c25_spec; eauto.
Qed.

(** A size field that is too large for a block. *)
Lemma no_block_check x : (16 * 1024 <? un_le (sub x (len x - 24) (len x - 16))) = true -> no_block_ends x.
Proof.
  rewrite N.ltb_lt. intros H l pre raw -> Hl (pairs&_&->). unfold block_layout in *.
  set (n := len pairs + 24) in *. revert H. 
  assert (E : pre ++ le 8 n ++ pairs ++ le 8 n ++ MAGIC = (pre ++ le 8 n ++ pairs) ++ le 8 n ++ MAGIC) by now rewrite <- !app_assoc.
  rewrite !len_app, !len_le in Hl. change (len MAGIC) with 16 in Hl.
  rewrite E, sub_app.
  - rewrite un_le8 by (unfold U64; lia). lia.
  - rewrite !len_app, !len_le. change (len MAGIC) with 16. lia.
  - rewrite !len_app, !len_le. change (len MAGIC) with 16. lia.
Qed.
