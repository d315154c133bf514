(** ExactFacts.v - the exact boundary of properties that do not hold in general *)
From Verif Require Import Base BaseFacts Utils ParseFacts Algorithms Common SchemeV2 SourceStamp
  Utf8 ElfInfo SigningBlock Wire Built CodecFacts BlockFacts BuiltFacts SearchFacts Spec LimitFacts
  PropBlockFacts Zip Digest Module Signable ZipSpec RegionSpec ZipFacts DigestFacts ModuleFacts ModuleProps
  RawFacts Signer Verifier ModuleVerify VerifySpec VerifyFacts SignFacts Cli.

(** ** Section names *)
Lemma c06_exact l : Forall (fun '(nm, o, s) => Forall (fun c => is_scalar c = true) nm /\ o < U64 /\ s < U64) l ->
  len l < U32 -> len (info_to_u8 (info_from_tuples l)) < U64 ->
  (reads_back (info_parse (ei_size (info_from_tuples l)) (ei_id (info_from_tuples l)))
     (dropN 12 (info_to_u8 (info_from_tuples l))) (info_from_tuples l) <->
   Forall (fun '(nm, _, _) => len (utf8_enc nm) < 65536) l).
Proof.
  intros Hl Hn Hu. split.
  - intros H. specialize (H [] []). cbn [app] in H. rewrite app_nil_r in H.
    assert (Hw : rwf (mkReader (dropN 12 (info_to_u8 (info_from_tuples l))) (len (@nil byte)))).
    { apply rwf_new. rewrite len_dropN. lia. }
    specialize (H ltac:(rewrite len_dropN; lia)).
    destruct (proj2 (info_recognises _ _) _ _ _ Hw H) as (raw&((raws&HF&_)&_)&_).
    cbn [info_from_tuples info_new ei_sections] in HF. clear -HF.
    revert raws HF. induction l as [|[[nm o] s] l IH]; intros raws HF; cbn [map] in HF; [ constructor | ].
    inversion HF as [|? raw ? raws' HR HF']; subst. constructor; [ | eauto ].
    destruct HR as (_&_&E&B&_). cbn [entry_new en_name_len en_name] in E, B. unfold U16 in *. lia.
  - intros H. apply c06_info. exists (map (fun '(nm, o, s) => entry_new nm o s) l).
    split; [ | split; [ rewrite len_map; auto | auto ] ].
    apply Forall_map. rewrite Forall_forall in *. intros [[nm o] s] Hin.
    specialize (Hl _ Hin). specialize (H _ Hin). cbn in Hl, H. destruct Hl as (A&B&D).
    exists nm, o, s. split; [ split; auto | auto ].
Qed.

(** ** Reserved memory *)
Lemma c12_any n : n < U32 -> exists r, rdata r = le 4 n /\ rpos r = 0 /\ info_reserved r = Ok n.
Proof.
  intros H. exists (mkReader (le 4 n) 0). split; [ auto | split; [ auto | ] ].
  unfold info_reserved, read_u32. rewrite (read_le_ok 4 _ n []); [ auto | | | exact H ].
  - apply rwf_new. rewrite len_le. reflexivity.
  - unfold rem. cbn [rdata rpos]. rewrite dropN_0, app_nil_r. auto.
Qed.

(** ** Where the block ends *)
Lemma c16_last p f b e : len f < U64 -> m_get_signing_block p (module_new f) f = Ok b ->
  find_eocd f (len f) = Ok e ->
  magic_ends f (bk_end b) /\ bk_end b <= N.min (eo_cd_offset e) (len f) /\
  forall x y, f = x ++ MAGIC ++ y -> len x + 16 <= eo_cd_offset e -> len x + 16 <= bk_end b.
Proof.
  intros Hf H E. rewrite (get_sb_eq p f e E) in H. set (eo := len f - eo_cd_offset e) in *.
  assert (Hlim : len f - eo = N.min (eo_cd_offset e) (len f)) by (unfold eo; lia).
  destruct (N.lt_ge_cases (len f - eo) 24) as [Hs|Hs].
  { rewrite from_reader_small in H by auto. discriminate. }
  destruct (magic_cases f (len f - eo)) as [(e'&He)|Hn].
  2: { rewrite from_reader_none in H by auto. discriminate. }
  rewrite (from_reader_found p f eo e') in H by auto.
  destruct He as (_&He&Hm&Hlast). apply block_at_ok in H; [ | auto | lia ].
  destruct H as (raw&H1&H2&H3&H4&H5).
  assert (Eb : bk_end b = e') by congruence.
  rewrite Eb. split; [ auto | ]. split; [ lia | ]. intros x y Hx Hle.
  destruct (N.le_gt_cases (len x + 16) e') as [A|A]; [ auto | exfalso ].
  apply (Hlast (len x + 16)); [ lia | | rewrite magic_ends_split; eauto ].
  assert (len f = len x + 16 + len y) by (rewrite Hx, !len_app; change (len MAGIC) with 16; lia). lia.
Qed.

(** ** The directory offset that is written *)
Lemma c26_exact p z b : zip_ok z [] -> unsigned z -> exists k, k < U32 /\
  s_write_with_signature p (module_new (plain z)) (plain z) b =
    (z_entries z ++ block_to_u8 b ++ z_cd z ++ end_record z k, Ok tt) /\
  (k = len (z_entries z ++ block_to_u8 b) <-> len (z_entries z ++ block_to_u8 b) < U32).
Proof.
  intros Hz Hu. exists ((len (z_entries z) + len (block_to_u8 b)) mod U32).
  assert (Hb : (len (z_entries z) + len (block_to_u8 b)) mod U32 < U32) by (apply N.mod_lt; discriminate).
  split; [ auto | ]. split.
  - rewrite end_record_mod. apply s_write_unsigned; auto.
  - rewrite len_app. split; intros H; [ lia | apply N.mod_small; auto ].
Qed.

(** ** The inherent writer on a module opened with [new] *)
Lemma c28_signed p z b : built_block b -> zip_ok z (block_to_u8 b) -> zip_small z (block_to_u8 b) ->
  len (z_entries z) + 2 * len (block_to_u8 b) < U32 ->
  m_write_with_signature p (module_new (with_block z (block_to_u8 b))) (with_block z (block_to_u8 b)) =
  (z_entries z ++ block_to_u8 b ++ takeN (len (z_cd z)) (block_to_u8 b ++ z_cd z) ++
     end_record z (len (z_entries z) + 2 * len (block_to_u8 b)), Ok tt).
Proof.
  intros Hb Hz Hs H32. destruct (built_block_bytes b Hb) as (H1&H2&H3).
  pose proof (block_bytes_len _ _ H1) as Hl. pose proof (len_with_block z (block_to_u8 b) (proj1 Hz)) as HL.
  pose proof (c20 p z b Hb Hz Hs) as Hg.
  assert (Hfull : get_full_size (offset_by b (len (z_entries z))) = len (block_to_u8 b)) by (rewrite <- H3; auto).
  assert (Hu8 : block_to_u8 (offset_by b (len (z_entries z))) = block_to_u8 b) by reflexivity.
  pose proof (offsets_signed p z (block_to_u8 b) (bk_content b) Hz Hs H1) as Ho.
  unfold m_write_with_signature. rewrite Hg, Ho. unfold m_find_eocd. cbn [module_new m_len].
  rewrite find_eocd_with_block by auto. cbn [bind]. rewrite Hfull. rewrite N.mod_small by lia.
  unfold zip_eocd at 1. cbn [eo_cd_offset].
  replace (U32 <=? len (z_entries z) + len (block_to_u8 b) + len (block_to_u8 b)) with false by lia.
  rewrite Hu8, Hfull. set (raw := block_to_u8 b) in *. clearbody raw.
  rewrite with_cd_offset_bytes by apply Hz. cbn [fo_stop_content fo_start_cd fo_stop_eocd].
  unfold zip_eocd. cbn [eo_cd_offset]. rewrite len_end_record by apply Hz.
  rewrite usub_ok by lia. cbn [bind]. unfold seek.
  unfold zip_small in Hs. change (2 ^ 63) with I64 in Hs.
  replace (len (z_entries z) + len raw - len raw) with (len (z_entries z)) by lia.
  replace (len (z_entries z) <? I64) with true by lia. cbn [bind].
  rewrite usub_ok by lia. cbn [bind]. rewrite usub_ok by lia. cbn [bind].
  replace (len (with_block z raw) - (len (z_entries z) + len raw) - (22 + len (z_comment z))) with (len (z_cd z)) by lia.
  replace (len (z_entries z) + len raw + len raw) with (len (z_entries z) + 2 * len raw) by lia.
  unfold taken. rewrite dropN_0. f_equal. rewrite <- !app_assoc. f_equal; [ unfold with_block; apply takeN_app | ].
  f_equal. f_equal. unfold with_block. rewrite dropN_app. rewrite (app_assoc raw). apply takeN_app_l.
  rewrite len_app. lia.
Qed.

Lemma usub_wrap a b : a < b -> b < U64 -> usub Release a b = Ok (U64 + a - b).
Proof. intros H H1. unfold usub. replace (b <=? a) with false by lia. f_equal; try lia. Qed.

Lemma c28_unsigned p z b : built_block b -> zip_ok z [] -> zip_small z [] ->
  len (z_entries z) + len (block_to_u8 b) < U32 ->
  m_write_with_signature p (mkModule false (len (plain z)) (Some (offset_by b (len (z_entries z))))) (plain z) =
  if len (block_to_u8 b) <=? len (z_cd z) then
    (z_entries z ++ block_to_u8 b ++ takeN (len (z_cd z) - len (block_to_u8 b)) (z_cd z) ++
       end_record z (len (z_entries z) + len (block_to_u8 b)), Ok tt)
  else match p with
       | Debug => (z_entries z ++ block_to_u8 b, Panic)
       | Release =>
           (z_entries z ++ block_to_u8 b ++ z_cd z ++ end_record z (len (z_entries z)) ++
              end_record z (len (z_entries z) + len (block_to_u8 b)), Ok tt)
       end.
Proof.
  intros Hb Hz Hs H32. destruct (zip_ok_plain z Hz) as (Hh&_).
  destruct (built_block_bytes b Hb) as (H1&H2&H3).
  pose proof (block_bytes_len _ _ H1) as Hl.
  pose proof (len_with_block z [] Hh) as HL. rewrite len_nil in HL. fold (plain z) in HL.
  assert (Hfull : get_full_size (offset_by b (len (z_entries z))) = len (block_to_u8 b)) by (rewrite <- H3; auto).
  assert (Hbs : bk_start b = 0).
  { rewrite H2. unfold parsed_block. auto. }
  assert (Hbe : bk_end b = len (block_to_u8 b)).
  { set (raw := block_to_u8 b) in *. clearbody raw. rewrite H2. unfold parsed_block. auto. }
  assert (Hu8 : block_to_u8 (offset_by b (len (z_entries z))) = block_to_u8 b) by reflexivity.
  unfold m_write_with_signature, m_get_offsets, m_find_eocd, m_get_signing_block.
  cbn [m_raw m_len m_sig]. rewrite find_eocd_plain by auto. cbn [bind].
  rewrite Hfull. rewrite N.mod_small by lia.
  unfold zip_eocd at 1. cbn [eo_cd_offset].
  replace (U32 <=? len (z_entries z) + len (block_to_u8 b)) with false by lia.
  rewrite with_cd_offset_bytes by auto. unfold offsets_new.
  cbn [fo_stop_content fo_start_cd fo_stop_eocd]. rewrite Hu8, Hfull.
  cbn [offset_by bk_start bk_end]. rewrite Hbs, Hbe.
  unfold zip_eocd. cbn [eo_cd_offset]. set (raw := block_to_u8 b) in *. clearbody raw.
  rewrite len_end_record by auto. rewrite usub_ok by lia. cbn [bind]. unfold seek.
  replace (len raw + len (z_entries z) - len raw) with (len (z_entries z)) by lia.
  unfold zip_small in Hs. fold (plain z) in Hs. change (2 ^ 63) with I64 in Hs.
  replace (len (z_entries z) <? I64) with true by lia. cbn [bind].
  assert (E1 : taken (plain z) 0 (0 + len (z_entries z)) = z_entries z).
  { unfold taken. rewrite dropN_0, N.add_0_l, plain_eq. apply takeN_app. }
  assert (E2 : dropN (len (z_entries z)) (plain z) = z_cd z ++ end_record z (len (z_entries z)))
    by (rewrite plain_eq; apply dropN_app).
  rewrite E1. unfold taken. rewrite E2.
  destruct (N.leb_spec (len raw) (len (z_cd z))) as [Hle|Hgt].
  - rewrite usub_ok by lia. cbn [bind]. rewrite usub_ok by lia. cbn [bind].
    rewrite takeN_app_l by lia. rewrite <- !app_assoc. do 3 f_equal. f_equal. f_equal. lia.
  - destruct p.
    + destruct (N.le_gt_cases (len raw + len (z_entries z)) (len (plain z))) as [A|A].
      * rewrite usub_ok by lia. cbn [bind]. unfold usub.
        replace (22 + len (z_comment z) <=? len (plain z) - (len raw + len (z_entries z))) with false by lia. reflexivity.
      * unfold usub at 1. replace (len raw + len (z_entries z) <=? len (plain z)) with false by lia. reflexivity.
    + assert (K : exists k, (do t1 <- usub Release (len (plain z)) (len raw + len (z_entries z));
              do t2 <- usub Release t1 (22 + len (z_comment z)); Ok t2) = Ok k /\ len (z_cd z ++ end_record z (len (z_entries z))) <= k).
      { rewrite len_app, len_end_record by auto. unfold I64 in *.
        destruct (N.le_gt_cases (len raw + len (z_entries z)) (len (plain z))) as [A|A].
        - rewrite usub_ok by lia. cbn [bind]. rewrite usub_wrap by (unfold U64; lia). cbn [bind].
          eexists. split; [ reflexivity | unfold U64, U32 in *; lia ].
        - rewrite usub_wrap by (unfold U64, U32 in *; lia). cbn [bind]. rewrite usub_ok by (unfold U64, U32 in *; lia). cbn [bind].
          eexists. split; [ reflexivity | unfold U64, U32 in *; lia ]. }
      destruct K as (k&K1&K2).
      destruct (usub Release (len (plain z)) (len raw + len (z_entries z))) as [t1|x|]; try discriminate K1. cbn [bind] in K1 |- *.
      destruct (usub Release t1 (22 + len (z_comment z))) as [t2|x|]; try discriminate K1. cbn [bind] in K1 |- *.
      injection K1 as ->. rewrite takeN_all by auto. rewrite <- !app_assoc. reflexivity.
Qed.
(** Never the signed archive. *)
Lemma c28_never p z b w r : built_block b -> zip_ok z [] -> zip_small z [] ->
  m_write_with_signature p (mkModule false (len (plain z)) (Some (offset_by b (len (z_entries z))))) (plain z) = (w, r) ->
  w <> with_block z (block_to_u8 b).
Proof.
  intros Hb Hz Hs H E. destruct (zip_ok_plain z Hz) as (Hh&_).
  destruct (built_block_bytes b Hb) as (H1&_). pose proof (block_bytes_len _ _ H1) as Hl.
  apply (f_equal len) in E. rewrite len_with_block in E by auto.
  destruct (N.lt_ge_cases (len (z_entries z) + len (block_to_u8 b)) U32) as [A|A].
  - rewrite c28_unsigned in H by auto. destruct (N.leb_spec (len (block_to_u8 b)) (len (z_cd z))).
    + assert (W : w = z_entries z ++ block_to_u8 b ++ takeN (len (z_cd z) - len (block_to_u8 b)) (z_cd z) ++ end_record z (len (z_entries z) + len (block_to_u8 b))) by congruence.
      clear H. rewrite W, !len_app, len_end_record, len_takeN in E by auto. lia.
    + destruct p.
      * assert (W : w = z_entries z ++ block_to_u8 b) by congruence. rewrite W, !len_app in E. lia.
      * assert (W : w = z_entries z ++ block_to_u8 b ++ z_cd z ++ end_record z (len (z_entries z)) ++
          end_record z (len (z_entries z) + len (block_to_u8 b))) by congruence.
        clear H. rewrite W, !len_app, !len_end_record in E by auto. lia.
  - assert (W : w = []).
    { pose proof (proj2 (proj2 (built_block_bytes b Hb))) as H3.
      assert (Hfull : get_full_size (offset_by b (len (z_entries z))) = len (block_to_u8 b)) by (rewrite <- H3; auto).
      unfold m_write_with_signature, m_get_offsets, m_find_eocd, m_get_signing_block in H.
      cbn [m_raw m_len m_sig] in H. rewrite find_eocd_plain in H by auto. cbn [bind] in H.
      rewrite Hfull in H. rewrite N.mod_small in H by (unfold U32; lia).
      unfold zip_eocd at 1 in H. cbn [eo_cd_offset] in H.
      replace (U32 <=? len (z_entries z) + len (block_to_u8 b)) with true in H by lia. injection H as <- _. auto. }
    subst w. rewrite len_nil in E. lia.
Qed.

(** ** The directory offset field *)
Lemma get_sb_offset p z b off : built_block b -> len (z_head z) = 12 -> len (z_comment z) < U16 -> off < U32 ->
  only_record (end_record z off) -> len (with_offset z (block_to_u8 b) off) < 2 ^ 63 ->
  len (z_entries z) + len (block_to_u8 b) <= off <= len (z_entries z) + len (block_to_u8 b) + 1024 * 1024 ->
  (forall x y, with_offset z (block_to_u8 b) off = x ++ MAGIC ++ y ->
     len x + 16 <= len (z_entries z) + len (block_to_u8 b) \/ off < len x + 16) ->
  m_get_signing_block p (module_new (with_offset z (block_to_u8 b) off)) (with_offset z (block_to_u8 b) off) =
  Ok (offset_by b (len (z_entries z))).
Proof.
  intros Hb Hh Hc H32 Hr Hs Hoff Hm. destruct (built_block_bytes b Hb) as ((HW&Hmax)&Eb&_).
  replace (offset_by b (len (z_entries z))) with
    (offset_by (parsed_block (block_to_u8 b) (bk_content b)) (len (z_entries z))) by (rewrite <- Eb; auto).
  set (raw := block_to_u8 b) in *. set (l := bk_content b) in *. clearbody raw l. clear Eb Hb b.
  destruct (W_block_magic l raw HW) as (pre&Epre&Hpre).
  assert (Hraw : 32 <= len raw) by (rewrite Epre, len_app; change (len MAGIC) with 16; lia).
  assert (Ef : with_offset z raw off = (z_entries z ++ raw ++ z_cd z) ++ end_record z off)
    by (unfold with_offset; rewrite <- !app_assoc; auto).
  assert (He : find_eocd (with_offset z raw off) (len (with_offset z raw off)) =
               Ok (zip_eocd z (len (z_entries z ++ raw ++ z_cd z)) off)) by (rewrite Ef; apply find_eocd_zip; auto).
  rewrite (get_sb_eq p _ _ He). cbn [zip_eocd eo_cd_offset].
  set (f := with_offset z raw off) in *.
  assert (HL : len f = len (z_entries z) + len raw + len (z_cd z) + 22 + len (z_comment z))
    by (rewrite Ef, !len_app, len_end_record by auto; lia).
  assert (Hlim : len f - (len f - off) = N.min off (len f)) by lia.
  change (2 ^ 63) with I64 in Hs.
  rewrite (from_reader_found p f _ (len (z_entries z) + len raw)).
  - rewrite (block_at_parses p f (len f) (len (z_entries z)) _ raw l).
    + unfold with_offsets, offset_by, parsed_block. cbn. do 2 f_equal; lia.
    + unfold U64, I64 in *. lia.
    + apply (get_range_app _ (z_entries z) raw (z_cd z ++ end_record z off)); auto.
    + auto.
    + auto.
    + lia.
  - rewrite Hlim. lia.
  - rewrite Hlim. split; [ unfold window_start, MAX_WINDOW_SIZE; lia | ]. split; [ lia | ]. split.
    + rewrite magic_ends_split. exists (z_entries z ++ pre), (z_cd z ++ end_record z off).
      split; [ unfold f, with_offset; rewrite Epre, <- !app_assoc; auto | rewrite Epre, !len_app; change (len MAGIC) with 16; lia ].
    + intros e' A B M. rewrite magic_ends_split in M. destruct M as (x&y&E&->).
      destruct (Hm x y E); lia.
Qed.

Lemma digest_offset p C sched z b off a : built_block b -> len (z_head z) = 12 -> len (z_comment z) < U16 -> off < U32 ->
  only_record (end_record z off) -> len (with_offset z (block_to_u8 b) off) < 2 ^ 63 ->
  len (z_entries z) + len (block_to_u8 b) <= off <= len (z_entries z) + len (block_to_u8 b) + 1024 * 1024 ->
  (forall x y, with_offset z (block_to_u8 b) off = x ++ MAGIC ++ y ->
     len x + 16 <= len (z_entries z) + len (block_to_u8 b) \/ off < len x + 16) ->
  m_digest p C sched (module_new (with_offset z (block_to_u8 b) off)) (with_offset z (block_to_u8 b) off) a =
  Ok (tree_digest (hash C a) (read_chunks (sched 0%nat) (z_entries z) ++ read_chunks (sched 1%nat) (z_cd z) ++
                              read_chunks full_reads (end_record z (len (z_entries z))))).
Proof.
  intros Hb Hh Hc H32 Hr Hs Hoff Hm.
  pose proof (get_sb_offset p z b off Hb Hh Hc H32 Hr Hs Hoff Hm) as Hg.
  destruct (built_block_bytes b Hb) as (H1&H2&H3).
  assert (Ef : with_offset z (block_to_u8 b) off = (z_entries z ++ block_to_u8 b ++ z_cd z) ++ end_record z off)
    by (unfold with_offset; rewrite <- !app_assoc; auto).
  assert (He : find_eocd (with_offset z (block_to_u8 b) off) (len (with_offset z (block_to_u8 b) off)) =
               Ok (zip_eocd z (len (z_entries z ++ block_to_u8 b ++ z_cd z)) off)) by (rewrite Ef; apply find_eocd_zip; auto).
  unfold m_digest, m_get_offsets. rewrite Hg. unfold m_find_eocd. cbn [module_new m_len m_raw]. rewrite He. cbn [bind].
  unfold offsets_new, offset_by. cbn [bk_start bk_end zip_eocd eo_off].
  assert (Hbs : bk_start b = 0) by (rewrite H2; auto).
  assert (Hbe : bk_end b = len (block_to_u8 b))
    by (set (raw := block_to_u8 b) in *; clearbody raw; rewrite H2; auto).
  rewrite Hbs, Hbe, N.add_0_l. rewrite (N.add_comm (len (block_to_u8 b))).
  rewrite (digest_regions_ok p C sched _ a (z_entries z) (block_to_u8 b) (z_cd z) (end_record z off)).
  - do 4 f_equal. f_equal. unfold patched. apply patch_end_record. auto.
  - exact Hs.
  - reflexivity.
  - rewrite len_end_record by auto. lia.
Qed.

Lemma fill_context_ext p C ds m1 f1 m2 f2 : (forall a, m_digest p C (ds a) m1 f1 a = m_digest p C (ds a) m2 f2 a) ->
  forall l ctx, fill_context p C ds m1 f1 l ctx = fill_context p C ds m2 f2 l ctx.
Proof.
  intros H. induction l as [|a l IH]; intros ctx; cbn [fill_context]; [ auto | ].
  rewrite H. destruct (get_digest ctx (u32_of_algo a)); [ auto | ].
  destruct (m_digest p C (ds a) m2 f2 a); auto.
Qed.

Lemma c32_free p z b off : built_block b -> zip_ok z (block_to_u8 b) -> zip_small z (block_to_u8 b) -> off < U32 ->
  only_record (end_record z off) ->
  len (z_entries z) + len (block_to_u8 b) <= off <= len (z_entries z) + len (block_to_u8 b) + 1024 * 1024 ->
  (forall x y, with_offset z (block_to_u8 b) off = x ++ MAGIC ++ y ->
     len x + 16 <= len (z_entries z) + len (block_to_u8 b) \/ off < len x + 16) ->
  let f := with_offset z (block_to_u8 b) off in let g := with_block z (block_to_u8 b) in
  (exists e, find_eocd f (len f) = Ok e /\ eo_cd_offset e = off) /\
  m_get_signing_block p (module_new f) f = m_get_signing_block p (module_new g) g /\
  (forall C sched a, m_digest p C sched (module_new f) f a = m_digest p C sched (module_new g) g a) /\
  forall C K now ds roots, m_verify_with_roots p C K now ds (module_new f) f roots =
                           m_verify_with_roots p C K now ds (module_new g) g roots.
Proof.
  intros Hb Hz Hs H32 Hr Hoff Hm f g.
  assert (Hh : len (z_head z) = 12) by apply Hz. assert (Hc : len (z_comment z) < U16) by apply Hz.
  assert (Hf : len f < 2 ^ 63).
  { unfold f, with_offset. rewrite !len_app, len_end_record by auto. pose proof Hs as Hs1. unfold zip_small in Hs1.
    rewrite len_with_block in Hs1 by auto. unfold I64 in *. lia. }
  assert (G : m_get_signing_block p (module_new f) f = m_get_signing_block p (module_new g) g).
  { unfold f, g. rewrite get_sb_offset by auto. symmetry. apply c20; auto. }
  assert (D : forall C sched a, m_digest p C sched (module_new f) f a = m_digest p C sched (module_new g) g a).
  { intros C sched a. unfold f, g. rewrite digest_offset by auto. symmetry.
    destruct (built_block_bytes b Hb) as (H1&_). eapply m_digest_signed; eauto. }
  split; [ | split; [ exact G | split; [ exact D | ] ] ].
  - exists (zip_eocd z (len (z_entries z ++ block_to_u8 b ++ z_cd z)) off). split; [ | reflexivity ].
    replace f with ((z_entries z ++ block_to_u8 b ++ z_cd z) ++ end_record z off)
      by (unfold f, with_offset; rewrite <- !app_assoc; auto).
    apply find_eocd_zip; auto.
  - intros. unfold m_verify_with_roots. rewrite G. destruct (m_get_signing_block p (module_new g) g); auto.
    rewrite (fill_context_ext p C ds (module_new f) f (module_new g) g); auto.
Qed.

(** ** Adjacency *)
Lemma c17_exact p f b e : len f < U64 -> m_get_signing_block p (module_new f) f = Ok b ->
  find_eocd f (len f) = Ok e ->
  (bk_end b = eo_cd_offset e <-> exists x y, f = x ++ MAGIC ++ y /\ len (x ++ MAGIC) = eo_cd_offset e).
Proof.
  intros Hf H E. destruct (c16_last p f b e Hf H E) as (M&L&U). split.
  - intros Q. rewrite magic_ends_split in M. destruct M as (x&y&Ex&El). exists x, y.
    split; [ auto | rewrite len_app; change (len MAGIC) with 16; lia ].
  - intros (x&y&Ex&El). rewrite len_app in El. change (len MAGIC) with 16 in El.
    specialize (U x y Ex). lia.
Qed.
Lemma c16_last_spec p f b e : len f < U64 -> m_get_signing_block p (module_new f) f = Ok b ->
  find_eocd f (len f) = Ok e ->
  (exists x y, f = x ++ MAGIC ++ y /\ bk_end b = len (x ++ MAGIC)) /\ bk_end b <= eo_cd_offset e /\
  forall x y, f = x ++ MAGIC ++ y -> len (x ++ MAGIC) <= eo_cd_offset e -> len (x ++ MAGIC) <= bk_end b.
Proof.
  intros Hf H E. destruct (c16_last p f b e Hf H E) as (M&L&U). split; [ | split; [ lia | ] ].
  - rewrite magic_ends_split in M. destruct M as (x&y&Ex&El). exists x, y.
    split; [ auto | rewrite len_app; change (len MAGIC) with 16; lia ].
  - intros x y Ex El. rewrite len_app in El |- *. change (len MAGIC) with 16 in El |- *. apply (U x y); auto.
Qed.

(** A check for the last hypothesis of [c32_free]. *)
Definition magic_free (f : bytes) (start : N) (k : nat) : bool :=
  forallb (fun i => match get_range f (start + N.of_nat i + 1 - 16) (start + N.of_nat i + 1) with
                    | Some m => negb (beq m MAGIC) | None => true end) (seq 0 k).
Lemma magic_free_check f start k : magic_free f start (N.to_nat k) = true ->
  forall x y, f = x ++ MAGIC ++ y -> len x + 16 <= start \/ start + k < len x + 16.
Proof.
  intros H x y E. destruct (N.le_gt_cases (len x + 16) start) as [A|A]; [ auto | ].
  destruct (N.lt_ge_cases (start + k) (len x + 16)) as [B|B]; [ auto | exfalso ].
  unfold magic_free in H. rewrite forallb_forall in H.
  specialize (H (N.to_nat (len x + 16 - start - 1))). rewrite in_seq in H. specialize (H ltac:(lia)).
  rewrite N2Nat.id in H.
  replace (start + (len x + 16 - start - 1) + 1) with (len x + 16) in H by lia.
  replace (len x + 16 - 16) with (len x) in H by lia.
  rewrite E, (get_range_app _ x MAGIC y) in H by reflexivity.
  rewrite beq_refl in H. discriminate.
Qed.

(** ** Read schedules *)
Lemma read_chunks_lens s d : Forall (fun c => len c < U32) (read_chunks s d).
Proof.
  unfold read_chunks. generalize 0%nat. generalize (length d) as fuel. intros fuel. revert d.
  induction fuel as [|fuel IH]; intros d k; cbn [chunks]; destruct d as [|x d]; try constructor; [ | apply IH ].
  rewrite len_takeN. unfold CHUNK_SIZE, U32. lia.
Qed.

Lemma c30_exact p C s1 s2 f e a d1 d2 n : 0 < n -> (forall x, len (hash C a x) = n) -> len f < 2 ^ 63 ->
  find_eocd f (len f) = Ok e -> eo_cd_offset e <= eo_off e ->
  m_digest p C s1 (module_new f) f a = Ok d1 -> m_digest p C s2 (module_new f) f a = Ok d2 ->
  exists content mid cdr h off t, regions_of p f e content mid cdr h off t /\
  let pieces s := read_chunks (s 0%nat) content ++ read_chunks (s 1%nat) cdr ++
                  read_chunks full_reads (h ++ le 4 (len content) ++ t) in
  d1 = tree_digest (hash C a) (pieces s1) /\ d2 = tree_digest (hash C a) (pieces s2) /\
  (d1 = d2 -> clash (hash C a) (tree_messages (hash C a) (pieces s1)) (tree_messages (hash C a) (pieces s2)) \/
              pieces s1 = pieces s2).
Proof.
  intros Hn Hlen Hl He Hc D1 D2. change (2 ^ 63) with I64 in Hl.
  assert (Hu : len f < U64) by (unfold I64, U64 in *; lia). unfold m_digest in D1, D2.
  destruct (m_get_offsets p (module_new f) f) as [o| |] eqn:Eo; try discriminate. cbn [bind] in D1, D2.
  destruct (regions p f e o Hu He Hc Eo) as (x&m&y&t&Hf&E&Ee&H4&Ht&H5). rewrite Ee in E. rewrite E in D1, D2.
  rewrite (digest_regions_ok p C s1 f a x m y t Hl Hf (proj1 Ht)) in D1.
  rewrite (digest_regions_ok p C s2 f a x m y t Hl Hf (proj1 Ht)) in D2.
  injection D1 as D1. injection D2 as D2.
  exists x, m, y, (takeN 16 t), (sub t 16 20), (dropN 20 t).
  split; [ apply regions_of_tail; auto; try lia; destruct H5 as [(?&?&?)|?]; tauto | ].
  cbv zeta. fold (patched t (len x)). split; [ auto | ]. split; [ auto | ].
  intros Hd. rewrite <- D1, <- D2 in Hd. apply (tree_digest_inj _ _ _ n); auto;
    rewrite !Forall_app; auto using read_chunks_lens.
Qed.

(** ** When a given block is the one that is found *)
Lemma get_sb_at p f pre b post e : built_block b -> f = pre ++ block_to_u8 b ++ post -> len f < U64 ->
  find_eocd f (len f) = Ok e ->
  (m_get_signing_block p (module_new f) f = Ok (offset_by b (len pre)) <->
   len (pre ++ block_to_u8 b) <= eo_cd_offset e /\
   N.min (eo_cd_offset e) (len f) + 24 <= len (pre ++ block_to_u8 b) + 16 * 1024 * 1024 /\
   forall x y, f = x ++ MAGIC ++ y -> len (x ++ MAGIC) <= eo_cd_offset e -> len (x ++ MAGIC) <= len (pre ++ block_to_u8 b)).
Proof.
  intros Hb Ef Hf E. destruct (built_block_bytes b Hb) as ((HW&Hmax)&Eb&_).
  assert (Hbe : bk_end (offset_by b (len pre)) = len (pre ++ block_to_u8 b)).
  { unfold offset_by. cbn [bk_end]. rewrite len_app. set (raw := block_to_u8 b) in *. clearbody raw. rewrite Eb. cbn. lia. }
  replace (offset_by b (len pre)) with (offset_by (parsed_block (block_to_u8 b) (bk_content b)) (len pre)) in *
    by (rewrite <- Eb; auto).
  set (raw := block_to_u8 b) in *. set (l := bk_content b) in *. clearbody raw l. clear Eb Hb b.
  destruct (W_block_magic l raw HW) as (pm&Epm&Hpm).
  assert (Hraw : 32 <= len raw) by (rewrite Epm, len_app; change (len MAGIC) with 16; lia).
  assert (HL : len f = len pre + len raw + len post) by (rewrite Ef, !len_app; lia).
  rewrite (get_sb_eq p f e E). rewrite len_app in *.
  assert (Hlim : len f - (len f - eo_cd_offset e) = N.min (eo_cd_offset e) (len f)) by lia.
  assert (LM : last_magic f (len f - (len f - eo_cd_offset e)) (len pre + len raw) <->
    len pre + len raw <= eo_cd_offset e /\
    N.min (eo_cd_offset e) (len f) + 24 <= len pre + len raw + 16 * 1024 * 1024 /\
    forall x y, f = x ++ MAGIC ++ y -> len (x ++ MAGIC) <= eo_cd_offset e -> len (x ++ MAGIC) <= len pre + len raw).
  { rewrite Hlim. unfold last_magic, window_start, MAX_WINDOW_SIZE. split.
    - intros (A&B&_&D). split; [ lia | ]. split; [ lia | ]. intros x y Exy Hx.
      destruct (N.le_gt_cases (len (x ++ MAGIC)) (len pre + len raw)) as [|G]; [ auto | exfalso ].
      apply (D (len (x ++ MAGIC)) G).
      + rewrite Exy, !len_app in *. lia.
      + apply magic_ends_split. exists x, y. split; [ auto | rewrite len_app; reflexivity ].
    - intros (A&B&D). split; [ lia | ]. split; [ lia | ]. split.
      + apply magic_ends_split. exists (pre ++ pm), post. split; [ rewrite Ef, Epm, <- !app_assoc; auto | ].
        rewrite Epm, !len_app. change (len MAGIC) with 16. lia.
      + intros e' G1 G2 M. apply magic_ends_split in M. destruct M as (x&y&Exy&->).
        specialize (D x y Exy). rewrite len_app in D. change (len MAGIC) with 16 in D. lia. }
  rewrite <- LM. split.
  - intros H. destruct (N.lt_ge_cases (len f - (len f - eo_cd_offset e)) 24) as [Hs|Hs].
    { rewrite from_reader_small in H by auto. discriminate. }
    destruct (magic_cases f (len f - (len f - eo_cd_offset e))) as [(e'&He)|Hn].
    2: { rewrite from_reader_none in H by auto. discriminate. }
    rewrite (from_reader_found _ f _ e') in H by auto.
    enough (e' = len pre + len raw) by (subst; auto).
    unfold block_at in H. destruct (_ <? _); [ discriminate | ]. destruct (_ <? _); [ discriminate | ].
    destruct (_ <? _); [ discriminate | ].
    destruct (parse_full_block _ _) as [sig| |]; cbn [map_err bind] in H; try discriminate.
    assert (X : bk_end (with_offsets sig (e' - (un_le (takeN 8 (dropN (e' - 24) f)) + 8)) e') =
                bk_end (offset_by (parsed_block raw l) (len pre))) by congruence.
    rewrite Hbe in X. exact X.
  - intros H. assert (H24 : 24 <= len f - (len f - eo_cd_offset e)) by (destruct H as (?&?&_); lia).
    rewrite (from_reader_found p f _ (len pre + len raw)) by auto.
    rewrite (block_at_parses p f (len f) (len pre) _ raw l).
    + unfold with_offsets, offset_by, parsed_block. cbn. do 2 f_equal; lia.
    + auto.
    + apply (get_range_app _ pre raw post); auto.
    + auto.
    + auto.
    + lia.
Qed.

Lemma c20_exact p q z b out : built_block b -> zip_ok z [] -> unsigned z -> len out < U64 ->
  s_write_with_signature p (module_new (plain z)) (plain z) b = (out, Ok tt) ->
  exists e, find_eocd out (len out) = Ok e /\
  let t := len (z_entries z ++ block_to_u8 b) in
  (m_get_signing_block q (module_new out) out = Ok (offset_by b (len (z_entries z))) <->
   t <= eo_cd_offset e /\ N.min (eo_cd_offset e) (len out) + 24 <= t + 16 * 1024 * 1024 /\
   forall x y, out = x ++ MAGIC ++ y -> len (x ++ MAGIC) <= eo_cd_offset e -> len (x ++ MAGIC) <= t).
Proof.
  intros Hb Hz Hu Hl H. destruct (c26_exact p z b Hz Hu) as (k&Hk&W&_). rewrite W in H.
  assert (Eo : out = z_entries z ++ block_to_u8 b ++ z_cd z ++ end_record z k) by congruence. clear H W.
  destruct (zip_ok_plain z Hz) as (Hh&Hc&_).
  destruct (proj2 (find_eocd_exists out)) as (e&He).
  { exists (len (z_entries z ++ block_to_u8 b ++ z_cd z)). split.
    - replace out with ((z_entries z ++ block_to_u8 b ++ z_cd z) ++ end_record z k) by (rewrite Eo, <- !app_assoc; auto).
      rewrite <- (N.add_0_r (len _)). apply record_at_app. apply end_record_at; auto.
    - rewrite Eo, !len_app, len_end_record by auto. unfold U16 in Hc. lia. }
  exists e. split; [ auto | ]. cbv zeta.
  apply (get_sb_at q out (z_entries z) b (z_cd z ++ end_record z k) e); auto.
Qed.

(** ** Mismatched credentials: stamps *)
Lemma c67_stamp C K now now' roots ctx ts cfg d st b rest pub :
  stamp_sign C now ts cfg d = Ok st -> stamps_of b = ss_block st :: rest ->
  public_key_der C (sc_key cfg) = Ok pub -> spki_of K (sc_cert cfg) <> Some pub ->
  verify_source_stamp_with_digest C K now' roots b ctx = VErr (VMultiSigner [SEBinding]).
Proof.
  intros HS HB HP HK. apply stamp_sign_inv in HS as (attrs&sig&pub'&_&->&_&Hp). rewrite HP in Hp. injection Hp as <-.
  unfold verify_source_stamp_with_digest. rewrite stamp_results_eq, HB. cbn [ss_new ss_block].
  unfold verify_stamp. destruct (stamp_sig_loop _ _ _ _ _ _ _ _ _) as [[[sv er] dv] dver].
  destruct (if is_none ctx then _ else _) as [dv' ws].
  change (cts_data (st_certs (sb_data (stamp_one cfg attrs d sig pub)))) with [cert_new (sc_cert cfg)].
  cbn [cert_new ct_data]. change (pk_data (sb_key (stamp_one cfg attrs d sig pub))) with pub.
  unfold verify_pubkey_binding. destruct (spki_of K (sc_cert cfg)) as [k|] eqn:E; [ | reflexivity ].
  destruct (beq pub k) eqn:B; [ apply beq_eq in B; subst; congruence | reflexivity ].
Qed.

(** ** A dump over the input *)
Lemma copy_regions_empty p f : forall l s total w r, fs_data s f = Some [] ->
  copy_regions p s f f l total = (w, r) -> w = [] /\ (r = Ok tt -> Forall (fun g => rg_size g = 0) l).
Proof.
  induction l as [|g l IH]; intros s total w r Hs H; cbn [copy_regions] in H.
  - injection H as <- <-. auto.
  - destruct (seek (rg_offset g)); [ | injection H as <- <-; split; [ auto | discriminate ] .. ].
    destruct (N.eqb_spec (rg_size g) 0) as [E|E].
    + assert (Z : copy_pieces (copy_fuel s f (rg_size g)) s f f (rg_offset g) (rg_size g) = ([], Ok tt)).
      { rewrite E. destruct (copy_fuel s f 0); reflexivity. }
      rewrite Z in H. cbn [bind] in H.
      destruct (uadd p total (rg_size g)) as [t| |].
      * destruct (copy_regions p (run s []) f f l t) as [w' r'] eqn:Ec. injection H as <- <-.
        apply IH in Ec as (->&Hr); [ | exact Hs ]. split; auto.
      * injection H as <- <-. split; [ auto | discriminate ].
      * injection H as <- <-. split; [ auto | discriminate ].
    + assert (Z : copy_pieces (copy_fuel s f (rg_size g)) s f f (rg_offset g) (rg_size g) = ([], Err EIoEof)).
      { unfold copy_fuel. replace (N.to_nat (_ / _ + 2)) with (S (N.to_nat (N.min (rg_size g) (len (now_content (fs_data s f))) / BUFFER_SIZE + 1))) by lia.
        cbn [copy_pieces]. replace (rg_size g =? 0) with false by lia. rewrite Hs. cbn [now_content].
        unfold read_exact_at. destruct (get_range _ _ _) eqn:G; [ | reflexivity ].
        apply get_range_spec in G as (_&G&_). rewrite len_nil in G. unfold BUFFER_SIZE in G. lia. }
      rewrite Z in H. cbn [bind] in H. injection H as <- <-. split; [ auto | discriminate ].
Qed.

Lemma c62_alias p s input output l file w r : fs_read s input = Some file -> fs_file s output = fs_file s input ->
  fs_can_create s output = true -> dump_regions p s input output l = (w, r) ->
  fs_read (run s w) input = Some [] /\ (r = Ok tt -> Forall (fun g => rg_size g = 0) l).
Proof.
  intros Hr Hf Hc H. unfold dump_regions in H. rewrite Hr, Hc, Hf in H.
  destruct (copy_regions _ _ _ _ _ _) as [w' r'] eqn:Ec. injection H as <- <-.
  apply copy_regions_empty in Ec as (->&Ec).
  2: { cbn. rewrite N.eqb_refl. auto. }
  split; [ | exact Ec ]. unfold fs_read in *. cbn. rewrite N.eqb_refl. destruct (fs_can_read s input); [ auto | discriminate ].
Qed.
