(** ModuleFacts.v - reading and writing signed modules *)
From Verif Require Import Base BaseFacts Utils ParseFacts Algorithms Common SchemeV2 SourceStamp
  Utf8 ElfInfo SigningBlock Wire Built CodecFacts BlockFacts BuiltFacts SearchFacts Spec LimitFacts
  PropBlockFacts Zip Digest Module Signable ZipSpec ZipFacts DigestFacts.

Lemma built_block_fresh b : built_block b ->
  exists l, Forall built_value l /\ b = fresh_block l /\ content_size l + 24 <= MAX_SIGNING_BLOCK_SIZE.
Proof.
  intros (l&HF&[H|(p&H)]).
  - exists l. apply block_new_spec in H as [H1 ->]. auto.
  - destruct (padding_ok p l b HF H) as (pad&->&HF'&Hm&Hs&_).
    exists (l ++ pad). split; [ auto | split; [ auto | ] ].
    rewrite fresh_block_len in Hs by auto. unfold MAX_SIGNING_BLOCK_SIZE. lia.
Qed.

(** Everything the archive lemmas need to know about a block's bytes. *)
Definition block_bytes (l : list value) (raw : bytes) : Prop :=
  W_block l raw /\ len raw <= MAX_SIGNING_BLOCK_SIZE + 8.

Lemma built_block_bytes b : built_block b ->
  block_bytes (bk_content b) (block_to_u8 b) /\ b = parsed_block (block_to_u8 b) (bk_content b) /\
  get_full_size b = len (block_to_u8 b).
Proof.
  intros H. apply built_block_fresh in H as (l&HF&->&Hs). cbn [bk_content fresh_block].
  split; [ split | split ].
  - apply fresh_block_W; auto. unfold MAX_SIGNING_BLOCK_SIZE, MAX_PAIR_SIZE in *. lia.
  - rewrite fresh_block_len by auto. lia.
  - apply fresh_block_parsed. auto.
  - rewrite fresh_block_len by auto. unfold get_full_size, fresh_block; cbn [bk_size_start].
    unfold SIZE_UINT64, MAGIC_LEN. lia.
Qed.

Lemma block_bytes_len l raw : block_bytes l raw -> 32 <= len raw /\ len raw <= 16392.
Proof.
  intros [H1 H2]. pose proof (W_block_len _ _ H1). unfold MAX_SIGNING_BLOCK_SIZE in H2. lia.
Qed.

(** ** Magic and entries *)
Lemma magic_ends_prefix a b e : e <= len a -> magic_ends (a ++ b) e <-> magic_ends a e.
Proof.
  intros H. unfold magic_ends.
  rewrite (get_range_same (a ++ b) a a b [] (e - 16) e); auto; [ tauto | ]. rewrite app_nil_r; auto.
Qed.
Lemma magic_ends_split a e : magic_ends a e <-> exists x y, a = x ++ MAGIC ++ y /\ e = len x + 16.
Proof.
  split.
  - intros [H1 H2]. pose proof H2 as H3. apply get_range_split in H2.
    apply get_range_spec in H3 as (_&H3&_).
    exists (takeN (e - 16) a), (dropN e a). split; auto. rewrite len_takeN. lia.
  - intros (x&y&->&->). split; [ lia | ]. apply (get_range_app _ x MAGIC y); auto; rewrite ?len_MAGIC; lia.
Qed.
Lemma no_magic_iff entries rest : no_magic (entries ++ rest) (len entries) <-> no_block_magic entries.
Proof.
  unfold no_magic, no_block_magic, window_start, MAX_WINDOW_SIZE. split.
  - intros H a b E. destruct (N.lt_ge_cases (len a) (8 + (len entries - N.min (len entries) (16 * 1024 * 1024)))) as [?|Hge]; auto.
    exfalso. apply (H (len a + 16)); [ lia | rewrite E, !len_app, len_MAGIC; lia | ].
    rewrite magic_ends_prefix by (rewrite E, !len_app, len_MAGIC; lia). rewrite magic_ends_split. eauto.
  - intros H e H1 H2 Hm. rewrite magic_ends_prefix in Hm by auto. rewrite magic_ends_split in Hm. destruct Hm as (x&y&E&->).
    specialize (H x y E). lia.
Qed.

(** ** Archives *)
Lemma with_block_split z blk :
  with_block z blk = (z_entries z ++ blk ++ z_cd z) ++ end_record z (len (z_entries z) + len blk).
Proof. unfold with_block. rewrite <- !app_assoc. auto. Qed.

Lemma find_eocd_with_block z blk : zip_ok z blk ->
  find_eocd (with_block z blk) (len (with_block z blk)) =
  Ok (zip_eocd z (len (z_entries z) + len blk + len (z_cd z)) (len (z_entries z) + len blk)).
Proof.
  intros (H1&H2&H3&H4). rewrite with_block_split. rewrite find_eocd_zip by auto.
  do 2 f_equal. rewrite !len_app. lia.
Qed.
Lemma len_with_block z blk : len (z_head z) = 12 ->
  len (with_block z blk) = len (z_entries z) + len blk + len (z_cd z) + 22 + len (z_comment z).
Proof. intros H. rewrite with_block_split, len_app, !len_app, len_end_record by auto. lia. Qed.

Lemma get_sb_with_block p z blk : zip_ok z blk ->
  m_get_signing_block p (module_new (with_block z blk)) (with_block z blk) =
  from_reader p (with_block z blk) (len (with_block z blk))
    (len (with_block z blk) - (len (z_entries z) + len blk)).
Proof.
  intros Hz. unfold m_get_signing_block, module_new; cbn [m_sig m_raw m_len]. unfold m_find_eocd.
  cbn [m_len]. rewrite find_eocd_with_block by auto. cbn [bind]. auto.
Qed.

Lemma get_sb_signed p z raw l : zip_ok z raw -> zip_small z raw -> block_bytes l raw ->
  m_get_signing_block p (module_new (with_block z raw)) (with_block z raw) =
  Ok (with_offsets (parsed_block raw l) (len (z_entries z)) (len (z_entries z) + len raw)).
Proof.
  intros Hz Hs Hb. rewrite get_sb_with_block by auto.
  pose proof (block_bytes_len _ _ Hb) as Hl.
  pose proof (len_with_block z raw (proj1 Hz)) as HL.
  assert (Hlim : len (with_block z raw) - (len (with_block z raw) - (len (z_entries z) + len raw))
                 = len (z_entries z) + len raw) by lia.
  assert (Hg : get_range (with_block z raw) (len (z_entries z)) (len (z_entries z) + len raw) = Some raw).
  { eapply get_range_app; [ unfold with_block; reflexivity | auto | auto ]. }
  rewrite (from_reader_found p _ _ (len (z_entries z) + len raw)).
  - apply block_at_parses; auto.
    + unfold zip_small, I64 in Hs. unfold U64. lia.
    + apply Hb.
    + apply Hb.
    + lia.
  - rewrite Hlim. lia.
  - rewrite Hlim. split; [ | split; [ | split ] ].
    + unfold window_start, MAX_WINDOW_SIZE. lia.
    + lia.
    + destruct Hb as [Hb _]. destruct (W_block_magic _ _ Hb) as (pre&E&_).
      rewrite magic_ends_split. exists (z_entries z ++ pre), (z_cd z ++ end_record z (len (z_entries z) + len raw)).
      split; [ | rewrite E, !len_app, len_MAGIC; lia ].
      unfold with_block. rewrite E at 1. rewrite <- !app_assoc. auto.
    + intros. lia.
Qed.

(** The archive has no signature: long enough for the search, and nothing found. *)
Lemma plain_eq z : plain z = z_entries z ++ z_cd z ++ end_record z (len (z_entries z)).
Proof. unfold plain, with_block. cbn [app]. do 3 f_equal. cbn. lia. Qed.

Lemma zip_ok_plain z : zip_ok z [] ->
  len (z_head z) = 12 /\ len (z_comment z) < U16 /\ len (z_entries z) < U32 /\
  only_record (end_record z (len (z_entries z))).
Proof. unfold zip_ok. rewrite len_nil, N.add_0_r. auto. Qed.

Lemma get_sb_plain p z : zip_ok z [] -> unsigned z ->
  m_get_signing_block p (module_new (plain z)) (plain z) = Err EReaderMagicNotFound.
Proof.
  intros Hz [H1 H2]. unfold plain. rewrite get_sb_with_block by auto.
  pose proof (len_with_block z [] (proj1 Hz)) as HL. rewrite len_nil in *.
  apply from_reader_none; replace (len (with_block z []) - (len (with_block z []) - (len (z_entries z) + 0)))
    with (len (z_entries z)) by lia; auto.
  unfold with_block. apply no_magic_iff. auto.
Qed.

Lemma find_eocd_plain z : zip_ok z [] ->
  find_eocd (plain z) (len (plain z)) = Ok (zip_eocd z (len (z_entries z) + len (z_cd z)) (len (z_entries z))).
Proof.
  intros Hz. unfold plain. rewrite find_eocd_with_block by auto. unfold zip_eocd. rewrite len_nil, N.add_0_r. auto.
Qed.

Lemma offsets_signed p z raw l : zip_ok z raw -> zip_small z raw -> block_bytes l raw ->
  m_get_offsets p (module_new (with_block z raw)) (with_block z raw) =
  Ok (mkOffsets 0 (len (z_entries z)) (len (z_entries z) + len raw)
        (len (z_entries z) + len raw + len (z_cd z)) (len (z_entries z) + len raw + len (z_cd z))
        (len (with_block z raw))).
Proof.
  intros Hz Hs Hb. unfold m_get_offsets. rewrite (get_sb_signed p z raw l) by auto.
  unfold m_find_eocd. cbn [module_new m_len m_raw]. rewrite find_eocd_with_block by auto.
  cbn [bind]. reflexivity.
Qed.
Lemma offsets_plain p z : zip_ok z [] -> unsigned z ->
  m_get_offsets p (module_new (plain z)) (plain z) =
  Ok (mkOffsets 0 (len (z_entries z)) (len (z_entries z))
        (len (z_entries z) + len (z_cd z)) (len (z_entries z) + len (z_cd z)) (len (plain z))).
Proof.
  intros Hz Hu. unfold m_get_offsets. rewrite get_sb_plain by auto.
  unfold m_find_eocd. cbn [module_new m_len m_raw]. rewrite find_eocd_plain by auto.
  cbn [bind maybe_missing_signature]. reflexivity.
Qed.

Lemma patch_end_record z a b : len (z_head z) = 12 ->
  takeN 16 (end_record z a) ++ le 4 b ++ dropN 20 (end_record z a) = end_record z b.
Proof.
  intros H.
  assert (E1 : takeN 16 (end_record z a) = EOCD_SIG ++ z_head z).
  { unfold end_record. rewrite (app_assoc EOCD_SIG). apply takeN_app_eq. rewrite len_app, len_sig. lia. }
  assert (E2 : dropN 20 (end_record z a) = le 2 (len (z_comment z)) ++ z_comment z).
  { unfold end_record. rewrite (app_assoc EOCD_SIG), (app_assoc (EOCD_SIG ++ _)). apply dropN_app_eq.
    rewrite !len_app, len_sig, len_le. lia. }
  rewrite E1, E2. unfold end_record. rewrite <- !app_assoc. auto.
Qed.

(** What the digest of an archive covers. *)
Definition zip_chunks (sched : nat -> nat -> N) (z : zip) : list bytes :=
  read_chunks (sched 0%nat) (z_entries z) ++ read_chunks (sched 1%nat) (z_cd z) ++
  read_chunks full_reads (end_record z (len (z_entries z))).

Lemma digest_zip p C sched z blk a o : len (z_head z) = 12 -> len (with_block z blk) < I64 ->
  o = mkOffsets 0 (len (z_entries z)) (len (z_entries z) + len blk)
        (len (z_entries z) + len blk + len (z_cd z)) (len (z_entries z) + len blk + len (z_cd z))
        (len (with_block z blk)) ->
  digest_module p C sched (with_block z blk) o a = Ok (tree_digest (hash C a) (zip_chunks sched z)).
Proof.
  intros Hh Hs ->. pose proof (len_with_block z blk Hh) as HL.
  rewrite digest_module_ok;
    cbn [fo_start_content fo_stop_content fo_start_cd fo_stop_cd fo_start_eocd fo_stop_eocd]; auto; try lia.
  unfold zip_chunks. do 3 f_equal; [ | f_equal ].
  - unfold with_block. rewrite takeN_app. auto.
  - f_equal. unfold with_block. rewrite app_assoc. apply sub_app; rewrite len_app; lia.
  - f_equal. cbv zeta. rewrite with_block_split.
    rewrite !dropN_app_eq by (rewrite !len_app; lia). apply patch_end_record. auto.
Qed.

Lemma m_digest_signed p C sched z raw l a : zip_ok z raw -> zip_small z raw -> block_bytes l raw ->
  m_digest p C sched (module_new (with_block z raw)) (with_block z raw) a =
  Ok (tree_digest (hash C a) (zip_chunks sched z)).
Proof.
  intros Hz Hs Hb. unfold m_digest. rewrite (offsets_signed p z raw l) by auto. cbn [bind].
  eapply digest_zip; [ apply Hz | apply Hs | reflexivity ].
Qed.
Lemma m_digest_plain p C sched z a : zip_ok z [] -> zip_small z [] -> unsigned z ->
  m_digest p C sched (module_new (plain z)) (plain z) a =
  Ok (tree_digest (hash C a) (zip_chunks sched z)).
Proof.
  intros Hz Hs Hu. unfold m_digest. rewrite offsets_plain by auto. cbn [bind].
  apply (digest_zip p C sched z [] a); [ apply Hz | apply Hs | ].
  pose proof (@len_nil byte) as En. fold (plain z). f_equal; lia.
Qed.

(** ** Writing *)
Lemma with_cd_offset_bytes z off a b : len (z_head z) = 12 ->
  eocd_to_u8 (with_cd_offset (zip_eocd z off a) b) = end_record z b.
Proof.
  intros H. rewrite <- (zip_eocd_bytes z off b) by auto. reflexivity.
Qed.
Lemma le4_mod n : le 4 (n mod U32) = le 4 n.
Proof. rewrite <- pow256_4. apply le_mod. Qed.
Lemma end_record_mod z n : end_record z (n mod U32) = end_record z n.
Proof. unfold end_record. rewrite le4_mod. auto. Qed.

Lemma s_write_raw_zip p z blk : zip_ok z [] ->
  s_write_raw p (plain z) (zip_eocd z (len (z_entries z) + len (z_cd z)) (len (z_entries z))) blk
  = (with_block z blk, Ok tt).
Proof.
  intros Hz. destruct (zip_ok_plain z Hz) as (Hh&_). unfold s_write_raw.
  pose proof (len_with_block z [] Hh) as HL. rewrite len_nil in HL. fold (plain z) in HL.
  cbn [zip_eocd eo_cd_offset eo_off].
  replace (len (z_entries z) + len (z_cd z) <? len (z_entries z)) with false by lia.
  rewrite usub_ok by lia.
  rewrite (get_range_app (plain z) [] (z_entries z) (z_cd z ++ end_record z (len (z_entries z))));
    [ | apply plain_eq | auto | auto ].
  rewrite (get_range_app (plain z) (z_entries z) (z_cd z) (end_record z (len (z_entries z))));
    [ | apply plain_eq | auto | auto ].
  replace (debug_assert p _) with (Ok tt).
  2: { unfold debug_assert. destruct p; auto.
       match goal with |- context [ ?a =? ?b ] => replace (a =? b) with true by lia end. auto. }
  rewrite with_cd_offset_bytes by auto. rewrite end_record_mod. reflexivity.
Qed.

Lemma s_write_unsigned p z b : zip_ok z [] -> unsigned z ->
  s_write_with_signature p (module_new (plain z)) (plain z) b = (with_block z (block_to_u8 b), Ok tt).
Proof.
  intros Hz Hu. unfold s_write_with_signature, s_source. rewrite get_sb_plain by auto.
  cbn [maybe_missing_signature]. rewrite find_eocd_plain by auto. cbn [bind].
  apply s_write_raw_zip. auto.
Qed.

Lemma raw_of_signed p z raw l : zip_ok z raw -> zip_small z raw -> block_bytes l raw ->
  m_get_raw_module p (module_new (with_block z raw)) (with_block z raw) = Ok (plain z).
Proof.
  intros Hz Hs Hb. pose proof Hz as (Hh&Hc&H32&_).
  unfold m_get_raw_module. rewrite (get_sb_signed p z raw l) by auto.
  cbn [module_new m_raw bind with_offsets bk_start bk_end].
  rewrite usub_ok by lia. cbn [bind].
  rewrite (get_range_app (with_block z raw) [] (z_entries z)
    (raw ++ z_cd z ++ end_record z (len (z_entries z) + len raw))) by auto.
  cbn [of_option bind]. unfold m_find_eocd; cbn [module_new m_len].
  rewrite find_eocd_with_block by auto. cbn [bind zip_eocd eo_cd_offset].
  replace ((len (z_entries z) + len raw - len (z_entries z)) mod U32) with (len raw).
  2: { pose proof (block_bytes_len _ _ Hb). rewrite N.mod_small; unfold U32; lia. }
  replace (len (z_entries z) + len raw <? len raw) with false by lia.
  pose proof (len_with_block z raw Hh) as HL.
  cbv zeta. fold (zip_eocd z (len (z_entries z) + len raw + len (z_cd z)) (len (z_entries z) + len raw)).
  rewrite with_cd_offset_bytes by auto.
  replace (len (z_entries z) + len raw - len raw) with (len (z_entries z)) by lia.
  rewrite len_end_record by auto. rewrite usub_ok by lia. cbn [bind].
  rewrite (get_range_app (with_block z raw) (z_entries z ++ raw) (z_cd z)
    (end_record z (len (z_entries z) + len raw))).
  - cbn [of_option bind]. rewrite plain_eq. auto.
  - unfold with_block. rewrite <- app_assoc. auto.
  - rewrite len_app. auto.
  - rewrite len_app. lia.
Qed.

Lemma s_write_signed p z raw l b : zip_ok z [] -> zip_ok z raw -> zip_small z raw -> block_bytes l raw ->
  s_write_with_signature p (module_new (with_block z raw)) (with_block z raw) b
  = (with_block z (block_to_u8 b), Ok tt).
Proof.
  intros Hz0 Hz Hs Hb. unfold s_write_with_signature, s_source. rewrite (get_sb_signed p z raw l) by auto.
  rewrite (raw_of_signed p z raw l) by auto. cbn [bind]. rewrite find_eocd_plain by auto. cbn [bind].
  apply s_write_raw_zip. auto.
Qed.

(** Errors are reported before anything is written. *)
Lemma s_write_raw_error p raw e block : eo_off e <= len raw ->
  fst (s_write_raw p raw e block) = [] /\ snd (s_write_raw p raw e block) = Err EInvalidCdOffset \/
  (exists h c t, raw = h ++ c ++ t /\ len h = eo_cd_offset e /\ len (h ++ c) = eo_off e /\
   s_write_raw p raw e block =
   (h ++ block ++ c ++ eocd_to_u8 (with_cd_offset e ((eo_cd_offset e + len block) mod U32)), Ok tt)).
Proof.
  intros H. unfold s_write_raw. destruct (eo_off e <? eo_cd_offset e) eqn:E; [ left; auto | right ].
  rewrite usub_ok by auto. rewrite !get_range_Some by lia.
  exists (takeN (eo_cd_offset e - 0) (dropN 0 raw)),
    (takeN (eo_off e - eo_cd_offset e) (dropN (eo_cd_offset e) raw)), (dropN (eo_off e) raw).
  rewrite dropN_0, N.sub_0_r.
  split; [ | split; [ | split ] ].
  - rewrite <- (take_drop (eo_cd_offset e) raw) at 1. f_equal.
    rewrite <- (take_drop (eo_off e - eo_cd_offset e) (dropN (eo_cd_offset e) raw)) at 1. f_equal.
    rewrite dropN_dropN. f_equal. lia.
  - rewrite len_takeN. lia.
  - rewrite len_app, !len_takeN, len_dropN. lia.
  - replace (debug_assert p _) with (Ok tt); auto.
    unfold debug_assert. destruct p; auto.
    match goal with |- context [ ?a =? ?b ] => replace (a =? b) with true by lia end. auto.
Qed.
