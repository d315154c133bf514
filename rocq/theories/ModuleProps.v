(** ModuleProps.v - lemmas behind PropModule.v *)
From Verif Require Import Base BaseFacts Utils ParseFacts Algorithms Common SchemeV2 SourceStamp
  Utf8 ElfInfo SigningBlock Wire Built CodecFacts BlockFacts BuiltFacts SearchFacts Spec LimitFacts
  PropBlockFacts Zip Digest Module Signable ZipSpec RegionSpec ZipFacts DigestFacts ModuleFacts.

(** ** A magic that was found never yields a "missing signature" error *)
Lemma leaf_not_missing e : is_leaf e = true -> maybe_missing_signature e = false.
Proof. destruct e; cbn; auto; discriminate. Qed.

Lemma parse_full_not_missing p d x : len d < U64 -> 32 <= len d -> dropN (len d - 16) d = MAGIC ->
  parse_full_block p d = Err x -> maybe_missing_signature x = false.
Proof.
  intros Hl Hn Hm H. unfold parse_full_block, SIZE_UINT64, MAGIC_LEN in H. rewrite Hm, beq_refl in H.
  replace (len d <? 8 + 8 + 16) with false in H by lia. cbn [negb] in H.
  set (s := un_le (takeN 8 d)) in *. set (e := un_le _) in H.
  assert (K : forall q : bool, debug_assert p q = Ok tt \/ debug_assert p q = Panic).
  { intros q. destruct p, q; cbn; auto. }
  destruct (K (s =? e)) as [K1|K1]; rewrite K1 in H; cbn [bind] in H; [ | discriminate ].
  destruct (s =? e); cbn [negb] in H; [ | injection H as <-; auto ].
  destruct (e <? 8 + 16); [ injection H as <-; auto | ].
  assert (K2 : (exists v, uadd p e 8 = Ok v) \/ uadd p e 8 = Panic).
  { unfold uadd. destruct (_ <? _); eauto. destruct p; eauto. }
  destruct K2 as [(v&K2)|K2]; rewrite K2 in H; cbn [bind] in H; [ | discriminate ].
  destruct (len d =? v); cbn [negb] in H; [ | injection H as <-; auto ].
  set (inner := takeN _ (dropN 8 d)) in *.
  assert (F : pfine (extract_values (new_reader inner))).
  { apply extract_pfine. apply rwf_new. unfold inner. rewrite len_takeN, len_dropN. lia. }
  destruct (extract_values (new_reader inner)) as [c|y|]; cbn [map_err bind] in H; try discriminate.
  injection H as <-. cbn [maybe_missing_signature]. apply leaf_not_missing. exact F.
Qed.

Lemma block_at_not_missing p file fl e x : len file < U64 -> magic_ends file e ->
  block_at p file fl e = Err x -> maybe_missing_signature x = false.
Proof.
  intros Hf Hm H. unfold block_at in H. set (bs := un_le _) in *.
  destruct (_ <? bs); [ injection H as <-; auto | ].
  destruct (fl <? bs); [ injection H as <-; auto | ].
  destruct (e <? bs + 8) eqn:E3; [ injection H as <-; auto | ].
  destruct Hm as [Hm1 Hm]. apply get_range_spec in Hm as (_&Hm2&Hm).
  set (d := takeN (bs + 8) (dropN (e - (bs + 8)) file)) in *.
  assert (Hd : len d = bs + 8) by (unfold d; rewrite len_takeN, len_dropN; lia).
  destruct (parse_full_block p d) as [b|y|] eqn:E; cbn [map_err bind] in H; try discriminate.
  injection H as <-. cbn [maybe_missing_signature].
  destruct (N.lt_ge_cases (len d) 32) as [Hs|Hs].
  - unfold parse_full_block, SIZE_UINT64, MAGIC_LEN in E.
    replace (len d <? 8 + 8 + 16) with true in E by lia. injection E as <-. auto.
  - eapply parse_full_not_missing; [ | exact Hs | | exact E ]; [ lia | ].
    rewrite Hd. unfold d. replace (bs + 8) with (bs + 8 - 16 + 16) at 2 by lia.
    rewrite <- takeN_dropN_comm. rewrite dropN_dropN. rewrite Hm.
    replace (e - (bs + 8) + (bs + 8 - 16)) with (e - 16) by lia.
    f_equal. lia.
Qed.

(** ** Files in general *)
Lemma sat_lim n c : n - (n - c) = N.min c n. Proof. lia. Qed.

Lemma get_sb_eq p f e : find_eocd f (len f) = Ok e ->
  m_get_signing_block p (module_new f) f = from_reader p f (len f) (len f - eo_cd_offset e).
Proof.
  intros H. unfold m_get_signing_block, m_find_eocd, module_new; cbn [m_sig m_raw m_len]. rewrite H. auto.
Qed.

Lemma get_sb_ok p f b : len f < U64 -> m_get_signing_block p (module_new f) f = Ok b ->
  exists e raw, find_eocd f (len f) = Ok e /\ get_range f (bk_start b) (bk_end b) = Some raw /\
    bk_end b <= eo_cd_offset e /\ block_bytes (bk_content b) raw /\
    b = with_offsets (parsed_block raw (bk_content b)) (bk_start b) (bk_end b).
Proof.
  intros Hf H. destruct (find_eocd f (len f)) as [e|x|] eqn:E.
  2, 3: unfold m_get_signing_block, m_find_eocd, module_new in H; cbn [m_sig m_raw m_len] in H;
        rewrite E in H; discriminate.
  exists e. rewrite (get_sb_eq p f e E) in H. set (eo := len f - eo_cd_offset e) in *.
  assert (Hlim : len f - eo <= eo_cd_offset e) by (unfold eo; lia).
  destruct (N.lt_ge_cases (len f - eo) 24) as [Hs|Hs].
  { rewrite from_reader_small in H by auto. discriminate. }
  destruct (magic_cases f (len f - eo)) as [(e'&He)|Hn].
  2: { rewrite from_reader_none in H by auto. discriminate. }
  rewrite (from_reader_found p f eo e') in H by auto.
  destruct He as (_&He&_). apply block_at_ok in H; [ | auto | lia ].
  destruct H as (raw&H1&H2&H3&H4&H5). exists raw. split; [ auto | ]. split; [ auto | ].
  split; [ lia | ]. split; [ split; auto | auto ].
Qed.

Lemma get_sb_err p f x : len f < U64 -> m_get_signing_block p (module_new f) f = Err x ->
  maybe_missing_signature x = true -> exists e, find_eocd f (len f) = Ok e /\
  x = EReaderMagicNotFound /\ 24 <= N.min (eo_cd_offset e) (len f) /\ no_magic f (N.min (eo_cd_offset e) (len f)).
Proof.
  intros Hf H Hx. destruct (find_eocd f (len f)) as [e|y|] eqn:E.
  2: { exfalso. unfold m_get_signing_block, m_find_eocd, module_new in H; cbn [m_sig m_raw m_len] in H.
       rewrite E in H. injection H as <-.
       destruct (record_cases f) as [(o&Ho)|Hn].
       - rewrite (find_eocd_found _ _ Ho) in E. discriminate.
       - destruct (find_eocd_none _ Hn) as [E'|E']; rewrite E' in E; injection E as <-; discriminate Hx. }
  2: { unfold m_get_signing_block, m_find_eocd, module_new in H; cbn [m_sig m_raw m_len] in H.
       rewrite E in H. discriminate. }
  exists e. rewrite (get_sb_eq p f e E) in H. rewrite <- sat_lim. set (eo := len f - eo_cd_offset e) in *.
  destruct (N.lt_ge_cases (len f - eo) 24) as [Hs|Hs].
  { rewrite from_reader_small in H by auto. injection H as <-. discriminate. }
  destruct (magic_cases f (len f - eo)) as [(e'&He)|Hn].
  - exfalso. rewrite (from_reader_found p f eo e') in H by auto.
    apply block_at_not_missing in H; [ congruence | auto | apply He ].
  - rewrite from_reader_none in H by auto. injection H as <-. auto.
Qed.

(** An archive without trailing bytes is [plain z] for some [z]. *)
Lemma plain_complete f e : find_eocd f (len f) = Ok e -> eo_cd_offset e <= eo_off e ->
  len f = eo_off e + 22 + eo_comment_len e -> exists z, f = plain z /\ zip_ok z [] /\
    len (z_entries z) = eo_cd_offset e /\ len (z_entries z) + len (z_cd z) = eo_off e.
Proof.
  intros H Hc Hl. apply find_eocd_iff in H as (Hr&Hf&pre&post&E&Hp).
  destruct Hf as (F1&F2&F3&F4&F5&F6&F7&F8&F9).
  assert (Hpost : post = []).
  { apply len_0. apply (f_equal len) in E. rewrite !len_app in E. unfold eocd_to_u8 in E.
    rewrite !len_app, !len_le, F1, len_sig in E. lia. }
  subst post. rewrite app_nil_r in E.
  set (z := mkZip (takeN (eo_cd_offset e) pre) (dropN (eo_cd_offset e) pre)
              (le 2 (eo_disk e) ++ le 2 (eo_disk_cd e) ++ le 2 (eo_num e) ++ le 2 (eo_total e) ++ le 4 (eo_cd_size e))
              (eo_comment e)).
  assert (L : len (z_entries z) = eo_cd_offset e) by (cbn [z z_entries]; rewrite len_takeN; lia).
  assert (Er : eocd_to_u8 e = end_record z (len (z_entries z))).
  { rewrite L. unfold eocd_to_u8, end_record. cbn [z z_head z_comment]. rewrite F1, F9, <- !app_assoc. auto. }
  assert (Ef : f = plain z).
  { rewrite plain_eq, <- Er. rewrite E. cbn [z z_entries z_cd]. rewrite app_assoc, take_drop. auto. }
  exists z. split; [ auto | ]. split; [ | split; [ auto | ] ].
  - unfold zip_ok. rewrite len_nil, N.add_0_r. cbn [z_head z_comment z].
    split; [ rewrite !len_app, !len_le; auto | ]. split; [ lia | ]. split; [ fold z; lia | ].
    fold z. rewrite <- Er. intros o Ho Hro. destruct Hr as (_&_&Hr).
    apply (Hr (eo_off e + o)); [ lia | ]. rewrite E, <- Hp. apply record_at_app. auto.
  - cbn [z z_entries z_cd]. rewrite len_takeN, len_dropN. lia.
Qed.

(** ** C16 *)
Lemma from_u8_slice q raw l : len raw < U64 -> block_bytes l raw ->
  from_u8 q raw = Ok (parsed_block raw l).
Proof.
  intros Hl [H1 H2]. apply (from_u8_ok q [] raw l); auto.
Qed.

Lemma c16 p f b : len f < U64 -> m_get_signing_block p (module_new f) f = Ok b ->
  exists e raw, find_eocd f (len f) = Ok e /\ get_range f (bk_start b) (bk_end b) = Some raw /\
    bk_end b <= eo_cd_offset e /\ get_full_size b = bk_end b - bk_start b /\
    (forall q, exists b0, from_u8 q raw = Ok b0 /\ offset_by b0 (bk_start b) = b).
Proof.
  intros Hf H. destruct (get_sb_ok p f b Hf H) as (e&raw&H1&H2&H3&H4&H5).
  exists e, raw. split; [ auto | ]. split; [ auto | ]. split; [ auto | ].
  pose proof (get_range_len _ _ _ _ H2) as Hl. pose proof (block_bytes_len _ _ H4) as Hb.
  apply get_range_spec in H2 as (G1&G2&_).
  split.
  - rewrite H5. unfold get_full_size, with_offsets, parsed_block;
      cbn [bk_size_start bk_start bk_end]. lia.
  - intros q. exists (parsed_block raw (bk_content b)). split.
    + apply from_u8_slice; auto. lia.
    + rewrite H5 at 3. unfold offset_by, with_offsets, parsed_block;
        cbn [bk_start bk_end bk_size_start bk_content_size bk_content bk_size_end bk_magic].
      f_equal; lia.
Qed.

(** ** C18 *)
Lemma c18_iff p z : zip_ok z [] -> zip_small z [] ->
  (s_get_signing_block p (module_new (plain z)) (plain z) = Ok None <->
   24 <= len (z_entries z) /\ no_block_magic (z_entries z)).
Proof.
  intros Hz Hs. unfold s_get_signing_block. split.
  - destruct (m_get_signing_block p (module_new (plain z)) (plain z)) as [b|x|] eqn:E;
      [ discriminate | | discriminate ].
    destruct (maybe_missing_signature x) eqn:Ex; [ | discriminate ]. intros _.
    apply get_sb_err in E as (e&He&->&H1&H2); auto.
    2: { unfold zip_small, I64 in Hs. unfold plain, U64. lia. }
    rewrite find_eocd_plain in He by auto. injection He as <-.
    unfold zip_eocd in *; cbn [eo_cd_offset] in *.
    pose proof (len_with_block z [] (proj1 Hz)) as HL. fold (plain z) in HL.
    rewrite N.min_l in H1, H2 by lia. split; [ auto | ].
    rewrite plain_eq in H2. apply no_magic_iff in H2. auto.
  - intros Hu. rewrite get_sb_plain by auto. auto.
Qed.

(** ** C19-C23 *)
Lemma c20 p z b : built_block b -> zip_ok z (block_to_u8 b) -> zip_small z (block_to_u8 b) ->
  m_get_signing_block p (module_new (with_block z (block_to_u8 b))) (with_block z (block_to_u8 b)) =
  Ok (offset_by b (len (z_entries z))).
Proof.
  intros Hb Hz Hs. destruct (built_block_bytes b Hb) as (H1&H2&H3).
  rewrite (get_sb_signed p z _ _ Hz Hs H1). f_equal.
  replace (offset_by b (len (z_entries z))) with
    (offset_by (parsed_block (block_to_u8 b) (bk_content b)) (len (z_entries z))) by (rewrite <- H2; auto).
  set (raw := block_to_u8 b) in *. clearbody raw.
  unfold offset_by, with_offsets, parsed_block;
    cbn [bk_start bk_end bk_size_start bk_content_size bk_content bk_size_end bk_magic].
  f_equal; lia.
Qed.

Lemma zip_ok_short z b : zip_ok z [] -> len (z_comment z) < 13 ->
  len (z_entries z) + len b < U32 -> zip_ok z b.
Proof.
  intros Hz Hc Hs. destruct (zip_ok_plain z Hz) as (H1&H2&H3&H4).
  split; [ auto | ]. split; [ auto | ]. split; [ auto | ].
  eapply only_record_offset; eauto.
Qed.

Lemma zip_small_plain z b : zip_small z b -> len (z_head z) = 12 -> zip_small z [].
Proof. unfold zip_small. intros H Hh. rewrite len_with_block in * by auto. rewrite len_nil. lia. Qed.

Lemma c21 p q C sched z b a : built_block b -> zip_ok z [] -> unsigned z ->
  zip_ok z (block_to_u8 b) -> zip_small z (block_to_u8 b) ->
  exists d, m_digest p C sched (module_new (plain z)) (plain z) a = Ok d /\
    m_digest q C sched (module_new (with_block z (block_to_u8 b))) (with_block z (block_to_u8 b)) a = Ok d.
Proof.
  intros Hb Hz0 Hu Hz Hs. destruct (built_block_bytes b Hb) as (H1&_). eexists. split.
  - apply m_digest_plain; auto. eapply zip_small_plain; eauto. apply Hz.
  - eapply m_digest_signed; eauto.
Qed.

(** A file [with_block z raw] in which the block was found at its place. *)
Lemma found_bytes p z raw b : zip_ok z raw -> zip_small z raw ->
  m_get_signing_block p (module_new (with_block z raw)) (with_block z raw) = Ok b ->
  bk_start b = len (z_entries z) -> bk_end b = len (z_entries z) + len raw ->
  block_bytes (bk_content b) raw.
Proof.
  intros Hz Hs H H1 H2. apply get_sb_ok in H as (e&raw'&_&G&_&Hb&_).
  - rewrite H1, H2 in G. rewrite (get_range_app (with_block z raw) (z_entries z) raw
      (z_cd z ++ end_record z (len (z_entries z) + len raw))) in G by (unfold with_block; auto).
    injection G as <-. auto.
  - unfold zip_small, I64 in Hs. unfold U64. lia.
Qed.

(** ** C25 *)
Lemma c25 p f b w r : s_write_with_signature p (module_new f) f b = (w, r) -> len f < U64 ->
  (r = Ok tt \/ (w = [] /\ r <> Ok tt)) /\
  (r = Ok tt -> (exists b0, m_get_signing_block p (module_new f) f = Ok b0) \/
     (exists e, find_eocd f (len f) = Ok e /\ 24 <= N.min (eo_cd_offset e) (len f) /\
                no_magic f (N.min (eo_cd_offset e) (len f)))).
Proof.
  intros H Hf. unfold s_write_with_signature in H.
  remember (s_source p (module_new f) f) as src eqn:Es. unfold s_source in Es.
  assert (Hsrc : forall raw e, src = Ok (raw, e) -> find_eocd raw (len raw) = Ok e /\
    ((exists b0, m_get_signing_block p (module_new f) f = Ok b0) \/
     (exists e, find_eocd f (len f) = Ok e /\ 24 <= N.min (eo_cd_offset e) (len f) /\
                no_magic f (N.min (eo_cd_offset e) (len f))))).
  { intros raw e. rewrite Es. destruct (m_get_signing_block p (module_new f) f) as [b0|x|] eqn:E; intros Hs.
    - apply bind_Ok in Hs as (raw'&_&Hs). apply bind_Ok in Hs as (e'&He&Hs). injection Hs as <- <-. eauto.
    - destruct (maybe_missing_signature x) eqn:Ex; [ | discriminate ].
      apply bind_Ok in Hs as (e'&He&Hs). injection Hs as <- <-. split; [ auto | right ].
      apply get_sb_err in E as (e&H1&_&H2&H3); eauto.
    - discriminate. }
  destruct src as [(raw&e)|x|].
  - destruct (Hsrc raw e eq_refl) as [He Hc]. split; [ | auto ].
    assert (Ho : eo_off e <= len raw).
    { apply find_eocd_inv in He as [(Hr&_) _]. apply record_at_room in Hr. lia. }
    destruct (s_write_raw_error p raw e (block_to_u8 b) Ho) as [[E1 E2]|(h&c&t&_&_&_&E)].
    + rewrite H in E1, E2. cbn [fst snd] in *. right. split; [ auto | rewrite E2; discriminate ].
    + rewrite E in H. injection H as <- <-. auto.
  - injection H as <- <-. split; [ right; split; [ auto | discriminate ] | discriminate ].
  - injection H as <- <-. split; [ right; split; [ auto | discriminate ] | discriminate ].
Qed.

(** ** The regions of any module *)
Lemma regions_gen p f e o : len f < U64 -> find_eocd f (len f) = Ok e ->
  m_get_offsets p (module_new f) f = Ok o -> fo_start_cd o <= fo_stop_cd o ->
  exists content mid cdr tail, f = content ++ mid ++ cdr ++ tail /\
    o = mkOffsets 0 (len content) (len content + len mid) (eo_off e) (eo_off e) (len f) /\
    eo_off e = len (content ++ mid ++ cdr) /\ len content < U32 /\ 22 <= len tail <= 65557 /\
    ((mid = [] /\ s_get_signing_block p (module_new f) f = Ok None /\ len content = eo_cd_offset e) \/
     (exists b, s_get_signing_block p (module_new f) f = Ok (Some b) /\
        bk_start b = len content /\ bk_end b = len (content ++ mid))).
Proof.
  intros Hf He H Hle. unfold m_get_offsets, m_find_eocd in H. cbn [module_new m_len m_raw] in H.
  rewrite He in H. cbn [bind] in H.
  destruct (find_eocd_inv f e He) as [(Hr&Hw&_) Ee]. pose proof (record_at_room _ _ Hr) as Hroom.
  assert (Hcd : eo_cd_offset e < U32).
  { destruct (eocd_at_bytes f (eo_off e) Hr) as (Hfl&_). rewrite <- Ee in Hfl. apply Hfl. }
  assert (Gen : forall a b, a <= b -> b <= eo_cd_offset e -> b <= eo_off e ->
    exists content mid cdr tail, f = content ++ mid ++ cdr ++ tail /\
    offsets_new a b (eo_off e) (len f) = mkOffsets 0 (len content) (len content + len mid) (eo_off e) (eo_off e) (len f) /\
    eo_off e = len (content ++ mid ++ cdr) /\ len content < U32 /\ 22 <= len tail <= 65557 /\
    len content = a /\ len mid = b - a).
  { intros a b Hab Hb Hbe. exists (takeN a f), (sub f a b), (sub f b (eo_off e)), (dropN (eo_off e) f).
    assert (L1 : len (takeN a f) = a) by (rewrite len_takeN; lia).
    assert (L2 : len (sub f a b) = b - a) by (rewrite len_sub; lia).
    assert (L3 : len (sub f b (eo_off e)) = eo_off e - b) by (rewrite len_sub; lia).
    split; [ rewrite (app_assoc (sub _ _ _)), sub_join by lia; apply sub_split; lia | ].
    split; [ unfold offsets_new; f_equal; lia | ].
    split; [ rewrite !len_app, L1, L2, L3; lia | ].
    split; [ lia | ]. split; [ rewrite len_dropN; lia | ]. auto. }
  unfold s_get_signing_block.
  destruct (m_get_signing_block p (module_new f) f) as [b|x|] eqn:E; [ | | discriminate ].
  - injection H as <-. destruct (get_sb_ok p f b Hf E) as (e'&raw&He'&G&Hend&_).
    rewrite He in He'. injection He' as <-. apply get_range_spec in G as (G1&G2&_).
    destruct (Gen (bk_start b) (bk_end b) G1 Hend Hle) as (c&m&d&t&H1&H2&H3&H4&H5&H6&H7).
    exists c, m, d, t. do 5 (split; [ auto | ]). right. exists b. split; [ auto | ].
    rewrite len_app. split; lia.
  - destruct (maybe_missing_signature x) eqn:Ex; [ | discriminate ]. injection H as <-.
    destruct (Gen (eo_cd_offset e) (eo_cd_offset e)) as (c&m&d&t&H1&H2&H3&H4&H5&H6&H7); [ lia | lia | exact Hle | ].
    exists c, m, d, t. do 5 (split; [ auto | ]). left. split; [ apply len_0; lia | auto ].
Qed.
Lemma regions p f e o : len f < U64 -> find_eocd f (len f) = Ok e -> eo_cd_offset e <= eo_off e ->
  m_get_offsets p (module_new f) f = Ok o ->
  exists content mid cdr tail, f = content ++ mid ++ cdr ++ tail /\
    o = mkOffsets 0 (len content) (len content + len mid) (eo_off e) (eo_off e) (len f) /\
    eo_off e = len (content ++ mid ++ cdr) /\ len content < U32 /\ 22 <= len tail <= 65557 /\
    ((mid = [] /\ s_get_signing_block p (module_new f) f = Ok None /\ len content = eo_cd_offset e) \/
     (exists b, s_get_signing_block p (module_new f) f = Ok (Some b) /\
        bk_start b = len content /\ bk_end b = len (content ++ mid))).
Proof.
  intros Hf He Hc H. apply regions_gen; auto.
  unfold m_get_offsets, m_find_eocd in H. cbn [module_new m_len m_raw] in H. rewrite He in H. cbn [bind] in H.
  destruct (m_get_signing_block p (module_new f) f) as [b|x|] eqn:E; [ | | discriminate ].
  - injection H as <-. destruct (get_sb_ok p f b Hf E) as (e'&raw&He'&_&Hend&_).
    rewrite He in He'. injection He' as <-. cbn [fo_start_cd fo_stop_cd offsets_new]. lia.
  - destruct (maybe_missing_signature x); [ | discriminate ]. injection H as <-. exact Hc.
Qed.

(** In Debug a digest is only computed if the directory offset lies before the
    end record. *)
Lemma digest_offsets p C sched f e a d o : len f < U64 -> find_eocd f (len f) = Ok e ->
  p = Debug \/ eo_cd_offset e <= eo_off e ->
  m_get_offsets p (module_new f) f = Ok o -> digest_module p C sched f o a = Ok d ->
  fo_start_cd o <= fo_stop_cd o.
Proof.
  intros Hf He [->|Hc] Ho H.
  - unfold digest_module in H. apply bind_Ok in H as (n1&_&H). apply bind_Ok in H as (d1&_&H).
    apply bind_Ok in H as (n2&H2&_). unfold usub in H2. destruct (N.leb_spec (fo_start_cd o) (fo_stop_cd o)); [ auto | discriminate ].
  - destruct (regions p f e o Hf He Hc Ho) as (c&m&y&t&_&->&He'&_). cbn [fo_start_cd fo_stop_cd].
    rewrite He', !len_app. lia.
Qed.

(** The tail with the directory offset replaced. *)
Definition patched (tail : bytes) (n : N) : bytes := takeN 16 tail ++ le 4 n ++ dropN 20 tail.

Lemma digest_regions_ok p C sched f a content mid cdr tail :
  len f < I64 -> f = content ++ mid ++ cdr ++ tail -> 22 <= len tail ->
  digest_module p C sched f
    (mkOffsets 0 (len content) (len content + len mid) (len (content ++ mid ++ cdr))
       (len (content ++ mid ++ cdr)) (len f)) a =
  Ok (tree_digest (hash C a) (read_chunks (sched 0%nat) content ++ read_chunks (sched 1%nat) cdr ++
                              read_chunks full_reads (patched tail (len content)))).
Proof.
  intros Hl Hf Ht.
  assert (HL : len f = len content + len mid + len cdr + len tail) by (rewrite Hf, !len_app; lia).
  rewrite digest_module_ok;
    cbn [fo_start_content fo_stop_content fo_start_cd fo_stop_cd fo_start_eocd fo_stop_eocd];
    auto; try (rewrite !len_app; lia).
  do 3 f_equal; [ | f_equal ].
  - rewrite Hf. rewrite takeN_app. auto.
  - f_equal. rewrite Hf, app_assoc. apply sub_app; rewrite !len_app; lia.
  - unfold patched. cbv zeta. rewrite Hf at 1 2.
    assert (E : dropN (len (content ++ mid ++ cdr)) (content ++ mid ++ cdr ++ tail) = tail).
    { replace (content ++ mid ++ cdr ++ tail) with ((content ++ mid ++ cdr) ++ tail) by (rewrite <- !app_assoc; auto).
      apply dropN_app. }
    rewrite E. auto.
Qed.

Lemma digest_cases p C sched f e a d : len f < I64 -> find_eocd f (len f) = Ok e ->
  p = Debug \/ eo_cd_offset e <= eo_off e ->
  m_digest p C sched (module_new f) f a = Ok d ->
  exists content mid cdr tail, f = content ++ mid ++ cdr ++ tail /\
    len (content ++ mid ++ cdr) = eo_off e /\ len content < U32 /\ 22 <= len tail <= 65557 /\
    ((mid = [] /\ s_get_signing_block p (module_new f) f = Ok None /\ len content = eo_cd_offset e) \/
     (exists b, s_get_signing_block p (module_new f) f = Ok (Some b) /\
        bk_start b = len content /\ bk_end b = len (content ++ mid))) /\
    d = tree_digest (hash C a) (read_chunks (sched 0%nat) content ++ read_chunks (sched 1%nat) cdr ++
                              read_chunks full_reads (patched tail (len content))).
Proof.
  intros Hl He Hc H. unfold m_digest in H. apply bind_Ok in H as (o&Ho&H).
  assert (Hu : len f < U64) by (unfold I64, U64 in *; lia).
  destruct (regions_gen p f e o Hu He Ho (digest_offsets _ _ _ _ _ _ _ _ Hu He Hc Ho H))
    as (content&mid&cdr&tail&Hf&->&Hoff&H1&H2&H3).
  exists content, mid, cdr, tail. do 5 (split; [ auto | ]).
  rewrite Hoff in H. rewrite (digest_regions_ok p C sched f a content mid cdr tail) in H by (auto; lia).
  injection H as <-. auto.
Qed.

Lemma len_patched t n : 22 <= len t -> len (patched t n) = len t.
Proof. intros. unfold patched. rewrite !len_app, len_takeN, len_le, len_dropN. lia. Qed.

Lemma regions_of_tail p f e content mid cdr tail : f = content ++ mid ++ cdr ++ tail ->
  len (content ++ mid ++ cdr) = eo_off e -> 22 <= len tail ->
  ((mid = [] /\ s_get_signing_block p (module_new f) f = Ok None /\ len content = eo_cd_offset e) \/
   (exists b, s_get_signing_block p (module_new f) f = Ok (Some b) /\
      bk_start b = len content /\ bk_end b = len (content ++ mid))) ->
  regions_of p f e content mid cdr (takeN 16 tail) (sub tail 16 20) (dropN 20 tail).
Proof.
  intros Hf H1 H3 H4. split; [ rewrite Hf at 1; do 3 f_equal; apply sub_split; lia | ].
  split; [ auto | ]. split; [ rewrite len_takeN; lia | ]. split; [ rewrite len_sub; lia | ]. tauto.
Qed.

Lemma c29 p C sched f e a d : fills sched -> len f < I64 -> find_eocd f (len f) = Ok e ->
  p = Debug \/ eo_cd_offset e <= eo_off e -> m_digest p C sched (module_new f) f a = Ok d ->
  exists content mid cdr h off t, regions_of p f e content mid cdr h off t /\
    is_digest (hash C a) content cdr (h ++ le 4 (len content) ++ t) d.
Proof.
  intros Hs Hl He Hc H.
  destruct (digest_cases p C sched f e a d Hl He Hc H) as (content&mid&cdr&tail&Hf&H1&H2&H3&H4&H5).
  exists content, mid, cdr, (takeN 16 tail), (sub tail 16 20), (dropN 20 tail).
  split; [ apply regions_of_tail; auto; lia | ]. do 3 eexists. split; [ | split; [ | split ] ]; [ .. | exact H5 ].
  - apply read_chunks_splits. apply Hs.
  - apply read_chunks_splits. apply Hs.
  - apply read_chunks_splits. apply full_reads_full.
Qed.

Lemma c31 p q C s1 s2 f1 f2 e1 e2 a d n : fills s1 -> fills s2 ->
  0 < n -> (forall x, len (hash C a x) = n) ->
  len f1 < I64 -> len f2 < I64 ->
  find_eocd f1 (len f1) = Ok e1 -> p = Debug \/ eo_cd_offset e1 <= eo_off e1 ->
  find_eocd f2 (len f2) = Ok e2 -> q = Debug \/ eo_cd_offset e2 <= eo_off e2 ->
  m_digest p C s1 (module_new f1) f1 a = Ok d -> m_digest q C s2 (module_new f2) f2 a = Ok d ->
  module_clash p q (hash C a) f1 e1 f2 e2 \/ same_outside_block p q f1 f2 e1 e2.
Proof.
  intros F1 F2 Hn Hlen L1 L2 E1 C1 E2 C2 D1 D2.
  destruct (digest_cases p C s1 f1 e1 a d L1 E1 C1 D1) as (x1&m1&y1&t1&Hf1&O1&U1&T1&B1&H1).
  destruct (digest_cases q C s2 f2 e2 a d L2 E2 C2 D2) as (x2&m2&y2&t2&Hf2&O2&U2&T2&B2&H2).
  rewrite H1 in H2.
  assert (SX1 := read_chunks_splits (s1 0%nat) x1 (F1 0%nat)).
  assert (SY1 := read_chunks_splits (s1 1%nat) y1 (F1 1%nat)).
  assert (SX2 := read_chunks_splits (s2 0%nat) x2 (F2 0%nat)).
  assert (SY2 := read_chunks_splits (s2 1%nat) y2 (F2 1%nat)).
  assert (ST1 : read_chunks full_reads (patched t1 (len x1)) = [patched t1 (len x1)]).
  { apply splits_single; [ rewrite len_patched; lia .. | ]. apply read_chunks_splits, full_reads_full. }
  assert (ST2 : read_chunks full_reads (patched t2 (len x2)) = [patched t2 (len x2)]).
  { apply splits_single; [ rewrite len_patched; lia .. | ]. apply read_chunks_splits, full_reads_full. }
  rewrite ST1, ST2 in H2.
  assert (K : forall d cs, splits d cs -> Forall (fun c => len c < U32) cs).
  { intros d0 cs Hc. apply splits_len in Hc. eapply Forall_impl; [ | exact Hc ]. cbn beta. unfold U32. lia. }
  assert (KT : forall t n, 22 <= len t <= 65557 -> Forall (fun c => len c < U32) [patched t n]).
  { intros t n0 Ht. constructor; [ rewrite len_patched by lia; unfold U32; lia | constructor ]. }
  apply (tree_digest_inj _ _ _ n) in H2; auto.
  2, 3: repeat (apply Forall_app; split); eauto.
  pose proof (regions_of_tail p f1 e1 x1 m1 y1 t1 Hf1 O1 ltac:(lia) B1) as R1.
  pose proof (regions_of_tail q f2 e2 x2 m2 y2 t2 Hf2 O2 ltac:(lia) B2) as R2.
  destruct H2 as [Hcol|H2]; [ left | right ].
  { do 2 eexists. split; [ | split; [ | exact Hcol ] ].
    - do 6 eexists. split; [ exact R1 | ]. do 3 eexists. split; [ exact SX1 | ]. split; [ exact SY1 | ].
      split; [ | reflexivity ]. apply splits_last; rewrite len_patched; lia.
    - do 6 eexists. split; [ exact R2 | ]. do 3 eexists. split; [ exact SX2 | ]. split; [ exact SY2 | ].
      split; [ | reflexivity ]. apply splits_last; rewrite len_patched; lia. }
  rewrite !app_assoc in H2. apply app_inj_tail in H2 as [H2 H3].
  unfold patched in H3. apply app_inj_len in H3 as [P1 H3]; [ | rewrite !len_takeN; lia ].
  apply app_inj_len in H3 as [P2 P3]; [ | rewrite !len_le; auto ].
  apply le_inj in P2; [ | rewrite pow256_4; auto .. ].
  assert (Exy : x1 ++ y1 = x2 ++ y2).
  { apply (f_equal (@concat byte)) in H2. rewrite !concat_app in H2.
    rewrite (splits_concat _ _ SX1), (splits_concat _ _ SY1), (splits_concat _ _ SX2), (splits_concat _ _ SY2) in H2. auto. }
  apply app_inj_len in Exy as [-> ->]; auto.
  exists x2, m1, m2, y2, (takeN 16 t2), (sub t1 16 20), (sub t2 16 20), (dropN 20 t2).
  split; [ | exact R2 ]. rewrite <- P1, <- P3. exact R1.
Qed.

(** ** C33 *)
Lemma bind_no_panic {A B} (m : res A) (k : A -> res B) :
  m <> Panic -> (forall x, m = Ok x -> k x <> Panic) -> bind m k <> Panic.
Proof. destruct m; cbn; auto. discriminate. Qed.
Lemma usub_release_no_panic a b : usub Release a b <> Panic.
Proof. unfold usub. destruct (_ <=? _); discriminate. Qed.
Lemma seek_no_panic n : seek n <> Panic. Proof. unfold seek. destruct (_ <? _); discriminate. Qed.

Lemma get_sb_release_no_panic m f : m_len m = len f -> len f < U64 -> m_get_signing_block Release m f <> Panic.
Proof.
  intros Hm Hf. unfold m_get_signing_block, m_find_eocd. rewrite Hm. destruct (m_sig m); [ discriminate | ].
  destruct (m_raw m); [ discriminate | ]. apply bind_no_panic; [ apply find_eocd_no_panic | ].
  intros e _. pose proof (from_reader_fine f (len f - eo_cd_offset e) Hf) as F.
  intros E. rewrite E in F. exact F.
Qed.

(** Offsets of a module whose [sig] field was not set. *)
Lemma offsets_shape p m f o : m_len m = len f -> m_sig m = None -> len f < U64 -> m_get_offsets p m f = Ok o ->
  fo_start_content o = 0 /\ fo_start_eocd o <= fo_stop_eocd o /\ fo_stop_eocd o = len f.
Proof.
  intros Hm Hs Hf H. unfold m_get_offsets, m_find_eocd in H. rewrite Hm in H.
  apply bind_Ok in H as (e&He&H).
  assert (Ho : eo_off e <= len f).
  { apply find_eocd_inv in He as [(Hr&_) _]. apply record_at_room in Hr. lia. }
  destruct (m_get_signing_block p m f) as [b|x|] eqn:E; [ | | discriminate ].
  - injection H as <-. unfold m_get_signing_block in E. rewrite Hs in E. destruct (m_raw m); [ discriminate | ].
    cbn. auto.
  - destruct (maybe_missing_signature x); [ | discriminate ]. injection H as <-. cbn. auto.
Qed.

Lemma c33_digest C sched m f a : m_len m = len f -> m_sig m = None -> len f < I64 ->
  m_digest Release C sched m f a <> Panic /\ m_digest_regions Release m f <> Panic.
Proof.
  intros Hm Hs Hf. assert (Hu : len f < U64) by (unfold I64, U64 in *; lia).
  assert (Hoff : m_get_offsets Release m f <> Panic).
  { unfold m_get_offsets, m_find_eocd. rewrite Hm. apply bind_no_panic; [ apply find_eocd_no_panic | ].
    intros e _. pose proof (get_sb_release_no_panic m f Hm Hu) as E.
    destruct (m_get_signing_block Release m f) as [b|x|]; [ discriminate | | congruence ].
    destruct (maybe_missing_signature x); discriminate. }
  split.
  - unfold m_digest. apply bind_no_panic; [ auto | ]. intros o Ho.
    destruct (offsets_shape Release m f o Hm Hs Hu Ho) as (_&H2&H3).
    unfold digest_module, digest_region, digest_eocd.
    assert (NS : forall n (k : unit -> res (list bytes)), (forall u, k u <> Panic) ->
      bind (seek n) k <> Panic).
    { intros n k Hk. apply bind_no_panic; [ apply seek_no_panic | intros; apply Hk ]. }
    apply bind_no_panic; [ apply usub_release_no_panic | intros n1 _ ].
    apply bind_no_panic; [ apply NS; discriminate | intros d1 _ ].
    apply bind_no_panic; [ apply usub_release_no_panic | intros n2 _ ].
    apply bind_no_panic; [ apply NS; discriminate | intros d2 _ ].
    rewrite usub_ok by auto. cbn [bind].
    apply bind_no_panic; [ apply NS; intros _ | discriminate ].
    replace (I64 <=? fo_stop_eocd o - fo_start_eocd o) with false by lia.
    destruct (_ <? _); [ discriminate | ]. destruct (_ <? _); discriminate.
  - unfold m_digest_regions. apply bind_no_panic; [ auto | ]. intros o Ho.
    repeat (apply bind_no_panic; [ apply usub_release_no_panic | intros ? ? ]). discriminate.
Qed.
