(** GapFacts.v - signing a module whose old block does not stand right before
    the central directory (C70) *)
From Verif Require Import Base BaseFacts Utils ParseFacts Algorithms Common SchemeV2 SourceStamp
  Utf8 ElfInfo SigningBlock Wire Built CodecFacts BlockFacts BuiltFacts SearchFacts Spec LimitFacts
  Zip Digest Module Signable ZipSpec RegionSpec ZipFacts DigestFacts ModuleFacts ModuleProps RawFacts
  FindSpec GrammarFacts.
From Coq Require Import Lia.
Open Scope N_scope.

Lemma profile_get_sb p q f b : len f < U64 -> m_get_signing_block p (module_new f) f = Ok b ->
  m_get_signing_block q (module_new f) f = Ok b.
Proof.
  intros Hf H. destruct (find_eocd f (len f)) as [e|x|] eqn:E.
  - apply (c69_module q f e b Hf E), (c69_module p f e b Hf E), H.
  - unfold m_get_signing_block, m_find_eocd, module_new in H. cbn [m_sig m_raw m_len] in H. rewrite E in H. discriminate.
  - unfold m_get_signing_block, m_find_eocd, module_new in H. cbn [m_sig m_raw m_len] in H. rewrite E in H. discriminate.
Qed.

Lemma end_record_gap z gap off : end_record (with_gap z gap) off = end_record z off.
Proof. reflexivity. Qed.

Lemma gap_raw p q z raw gap b0 : zip_ok z (raw ++ gap) -> zip_small z (raw ++ gap) ->
  let f := with_block z (raw ++ gap) in
  m_get_signing_block p (module_new f) f = Ok b0 ->
  bk_start b0 = len (z_entries z) -> bk_end b0 = len (z_entries z) + len raw ->
  m_get_raw_module q (module_new f) f = Ok (plain (with_gap z gap)).
Proof.
  intros Hz Hs f H H1 H2. pose proof Hz as (Hh&Hc&H32&_).
  pose proof (len_with_block z (raw ++ gap) Hh) as HL. rewrite len_app in *.
  assert (Hf : len f < U64).
  { unfold zip_small, I64 in Hs. unfold f, U64. lia. }
  apply (profile_get_sb p q f b0 Hf) in H.
  pose proof H as H'. apply get_sb_ok in H' as (e&raw'&He&_&_&Hb&_); [ | auto ].
  unfold m_get_raw_module. rewrite H. cbn [module_new m_raw bind]. rewrite H1, H2.
  rewrite usub_ok by lia. cbn [bind].
  assert (Ef : f = z_entries z ++ raw ++ gap ++ z_cd z ++ end_record z (len (z_entries z) + (len raw + len gap))).
  { unfold f, with_block. rewrite <- !app_assoc, len_app. auto. }
  rewrite (get_range_app f [] (z_entries z) (raw ++ gap ++ z_cd z ++ end_record z (len (z_entries z) + (len raw + len gap)))) by auto.
  cbn [of_option bind]. unfold m_find_eocd; cbn [module_new m_len].
  unfold f. rewrite find_eocd_with_block by auto. fold f. cbn [bind zip_eocd eo_cd_offset].
  rewrite len_app.
  replace ((len (z_entries z) + len raw - len (z_entries z)) mod U32) with (len raw).
  2: { rewrite N.mod_small by lia. lia. }
  replace (len (z_entries z) + (len raw + len gap) <? len raw) with false by lia.
  cbv zeta. fold (zip_eocd z (len (z_entries z) + (len raw + len gap) + len (z_cd z)) (len (z_entries z) + (len raw + len gap))).
  rewrite with_cd_offset_bytes by auto.
  replace (len (z_entries z) + (len raw + len gap) - len raw) with (len (z_entries z) + len gap) by lia.
  rewrite len_end_record by auto. fold f in HL. rewrite usub_ok by lia. cbn [bind].
  rewrite (get_range_app f (z_entries z ++ raw) (gap ++ z_cd z)
    (end_record z (len (z_entries z) + (len raw + len gap)))).
  - cbn [of_option bind]. f_equal. unfold plain, with_block, with_gap. cbn [z_entries z_cd].
    rewrite !len_app, len_nil, N.add_0_r. cbn [app]. rewrite <- !app_assoc. auto.
  - rewrite Ef, <- !app_assoc. auto.
  - rewrite len_app. auto.
  - rewrite !len_app. lia.
Qed.

Lemma gap_write p q z raw gap b0 b : zip_ok z (raw ++ gap) -> zip_small z (raw ++ gap) ->
  zip_ok (with_gap z gap) [] ->
  let f := with_block z (raw ++ gap) in
  m_get_signing_block p (module_new f) f = Ok b0 ->
  bk_start b0 = len (z_entries z) -> bk_end b0 = len (z_entries z) + len raw ->
  s_write_with_signature q (module_new f) f b = (with_block (with_gap z gap) (block_to_u8 b), Ok tt).
Proof.
  intros Hz Hs Hz' f H H1 H2. unfold s_write_with_signature, s_source.
  assert (Hf : len f < U64).
  { unfold zip_small, I64 in Hs. unfold f, U64. lia. }
  rewrite (profile_get_sb p q f b0 Hf H).
  pose proof (gap_raw p q z raw gap b0 Hz Hs H H1 H2) as R. fold f in R. rewrite R. cbn [bind]. rewrite find_eocd_plain by auto. cbn [bind].
  apply s_write_raw_zip. auto.
Qed.

(** No gap: the digest is kept. *)
Lemma adjacent_digest p q r C sched z raw b0 b a : zip_ok z raw -> zip_small z raw ->
  let f := with_block z raw in
  m_get_signing_block p (module_new f) f = Ok b0 ->
  bk_start b0 = len (z_entries z) -> bk_end b0 = len (z_entries z) + len raw ->
  built_block b -> zip_ok z (block_to_u8 b) -> zip_small z (block_to_u8 b) ->
  exists d, m_digest q C sched (module_new f) f a = Ok d /\
    m_digest r C sched (module_new (with_block z (block_to_u8 b))) (with_block z (block_to_u8 b)) a = Ok d.
Proof.
  intros Hz Hs f H H1 H2 Hb Hzb Hsb. destruct (built_block_bytes b Hb) as (B&_).
  eexists. split; eapply m_digest_signed; eauto. eapply found_bytes; eauto.
Qed.

(** A gap: it is not. *)
Lemma gap_digest p q C s1 s2 z raw gap b0 b a d1 d2 n e1 e2 : fills s1 -> fills s2 ->
  0 < n -> (forall x, len (hash C a x) = n) ->
  zip_ok z (raw ++ gap) -> zip_small z (raw ++ gap) -> gap <> [] ->
  let f := with_block z (raw ++ gap) in
  m_get_signing_block p (module_new f) f = Ok b0 ->
  bk_start b0 = len (z_entries z) -> bk_end b0 = len (z_entries z) + len raw ->
  let out := with_block (with_gap z gap) (block_to_u8 b) in
  built_block b -> zip_ok (with_gap z gap) (block_to_u8 b) -> zip_small (with_gap z gap) (block_to_u8 b) ->
  m_digest p C s1 (module_new f) f a = Ok d1 -> m_digest q C s2 (module_new out) out a = Ok d2 ->
  find_eocd f (len f) = Ok e1 -> find_eocd out (len out) = Ok e2 ->
  d1 = d2 -> module_clash p q (hash C a) f e1 out e2.
Proof.
  intros F1 F2 Hn Hlen Hz Hs Hg f H H1 H2 out Hb Hzb Hsb D1 D2 E1 E2 <-.
  assert (X1 : eo_cd_offset e1 <= eo_off e1).
  { unfold f in E1. rewrite find_eocd_with_block in E1 by auto. injection E1 as <-.
    cbn [zip_eocd eo_cd_offset eo_off]. lia. }
  assert (X2 : eo_cd_offset e2 <= eo_off e2).
  { unfold out in E2. rewrite find_eocd_with_block in E2 by auto. injection E2 as <-.
    cbn [zip_eocd eo_cd_offset eo_off]. lia. }
  destruct (c31 p q C s1 s2 f out e1 e2 a d1 n F1 F2 Hn Hlen Hs Hsb E1 (or_intror X1) E2 (or_intror X2) D1 D2)
    as [Hc|(x&m1&m2&y&h&c1&c2&t'&(_&_&_&_&R1)&(_&_&_&_&R2))]; [ auto | exfalso ].
  assert (G1 : s_get_signing_block p (module_new f) f = Ok (Some b0)).
  { unfold s_get_signing_block. rewrite H. auto. }
  assert (G2 : s_get_signing_block q (module_new out) out = Ok (Some (offset_by b (len (z_entries z ++ gap))))).
  { unfold s_get_signing_block. unfold out. rewrite (c20 q (with_gap z gap) b Hb Hzb Hsb). auto. }
  assert (L1 : len x = len (z_entries z)).
  { destruct R1 as [(R1&_)|(b1&R1&S1&_)]; [ congruence | ]. rewrite G1 in R1.
    assert (b0 = b1) by congruence. subst b1. lia. }
  assert (L2 : len x = len (z_entries z ++ gap)).
  { destruct R2 as [(R2&_)|(b1&R2&S1&_)]; [ congruence | ]. rewrite G2 in R2.
    assert (W : offset_by b (len (z_entries z ++ gap)) = b1) by congruence. subst b1.
    destruct (built_block_bytes b Hb) as (_&Eb&_).
    assert (B0 : bk_start b = 0) by (rewrite Eb; reflexivity).
    unfold offset_by in S1. cbn [bk_start] in S1. lia. }
  rewrite len_app in L2. apply Hg, len_0. lia.
Qed.
