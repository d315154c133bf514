(** DebugFacts.v - exactly when the overflow checks and assertions of a debug
    build turn an error into a panic *)
From Verif Require Import Base Utils Algorithms Common SchemeV2 SourceStamp Utf8 ElfInfo SigningBlock.
From Verif Require Import BaseFacts ParseFacts Wire CodecFacts BlockFacts Built BuiltFacts SearchFacts
  InjFacts LimitFacts Spec PropBlockFacts Zip Digest Module Signable ZipSpec ZipFacts ModuleFacts.

From Coq Require Import Strings.String.
Open Scope N_scope.

(** ** C09 *)
Lemma c09_debug_exact l : Forall built_value l ->
  let n := len (flat_map value_to_u8 l) + 32 in
  (block_new_with_padding Debug l = Panic <->
   (forall v, In v l -> value_id v <> VERITY_PADDING_BLOCK_ID) /\ 0 < pad_bytes n < 12).
Proof.
  intros Hb n. unfold n. rewrite content_len by auto.
  change (pad_bytes (content_size l + 32)) with (gap (content_size l + 32)).
  rewrite padding_cases. set (g := gap _). cbn zeta.
  destruct (existsb _ l) eqn:Ex.
  - apply existsb_exists in Ex as (v&H1&H2). apply N.eqb_eq in H2. split; [ discriminate | intros (H&_); destruct (H v H1 H2) ].
  - assert (Hno : forall v, In v l -> value_id v <> VERITY_PADDING_BLOCK_ID).
    { intros v H1 H2. rewrite <- not_true_iff_false in Ex. apply Ex, existsb_exists.
      exists v. split; auto. apply N.eqb_eq; auto. }
    destruct ((0 <? g) && (g <? 12)) eqn:Eg.
    + split; [ intros _; split; [ auto | lia ] | auto ].
    + split; [ intros H; destruct (16384 <? content_size l + 32 + g); discriminate | lia ].
Qed.

(** ** [parse_full_block] *)
Lemma parse_full_panic data : 32 <= len data < U64 -> dropN (len data - 16) data = MAGIC ->
  un_le (takeN 8 (dropN (len data - 24) data)) <= MAX_SIGNING_BLOCK_SIZE ->
  let s := un_le (takeN 8 data) in let e := un_le (takeN 8 (dropN (len data - 24) data)) in
  (parse_full_block Debug data = Panic <-> s <> e) /\
  (parse_full_block Release data = Err ESizesDiffer <-> s <> e).
Proof.
  intros Hl Hm Hmax. cbv zeta.
  pose proof (parse_full_fine data (proj2 Hl)) as F. revert F.
  unfold parse_full_block, MAGIC_LEN, SIZE_UINT64.
  replace (len data - 16 - 8) with (len data - 24) by lia.
  replace (len data <? 8 + 8 + 16) with false by lia. rewrite Hm, beq_refl. cbn [negb].
  set (s := un_le (takeN 8 data)). set (e := un_le (takeN 8 (dropN (len data - 24) data))) in *.
  clearbody s e. unfold debug_assert. destruct (N.eqb_spec s e) as [E|E]; cbn [bind negb].
  - destruct (e <? 8 + 16); [ intros _; split; (split; [ discriminate | tauto ]) | ].
    unfold uadd, MAX_SIGNING_BLOCK_SIZE in *. replace (e + 8 <? U64) with true by (unfold U64; lia). cbn [bind].
    destruct (negb _); [ intros _; split; (split; [ discriminate | tauto ]) | ].
    destruct (extract_values _); cbn [map_err bind]; intros F; cbn in F; split; (split; [ try discriminate; tauto | tauto ]).
  - intros _. split; split; auto.
Qed.

Lemma block_at_panic file fl e : 24 <= e -> magic_ends file e -> e <= len file ->
  (block_at Debug file fl e = Panic <-> block_at Release file fl e = Err (EParsingFullBlock ESizesDiffer)).
Proof.
  intros H24 Hm He. unfold block_at. set (bs := un_le (takeN 8 (dropN (e - 24) file))).
  destruct (MAX_SIGNING_BLOCK_SIZE <? bs) eqn:E1; [ split; discriminate | ].
  destruct (fl <? bs) eqn:E2; [ split; discriminate | ].
  destruct (e <? bs + 8) eqn:E3; [ split; discriminate | ].
  set (d := takeN (bs + 8) (dropN (e - (bs + 8)) file)).
  assert (Hd : len d = bs + 8) by (unfold d; rewrite len_takeN, len_dropN; lia).
  destruct (N.lt_ge_cases (bs + 8) 32) as [Hs|Hs].
  { assert (X : forall p, parse_full_block p d = Err EFullTooShort).
    { intros p. unfold parse_full_block, SIZE_UINT64, MAGIC_LEN. rewrite Hd.
      replace (bs + 8 <? 8 + 8 + 16) with true by lia. auto. }
    rewrite !X. cbn. split; discriminate. }
  assert (Y : forall a, a + 8 <= bs + 8 -> takeN 8 (dropN a d) = takeN 8 (dropN (e - (bs + 8) + a) file)).
  { intros a Ha. unfold d. replace (bs + 8) with (a + (bs + 8 - a)) at 1 by lia.
    rewrite <- takeN_dropN_comm, takeN_takeN, dropN_dropN. f_equal; lia. }
  assert (M : dropN (len d - 16) d = MAGIC).
  { destruct Hm as (_&Hm). apply get_range_spec in Hm as (_&_&Hm). rewrite Hm, Hd.
    unfold d. replace (bs + 8) with (bs + 8 - 16 + 16) at 2 by lia.
    rewrite <- takeN_dropN_comm, dropN_dropN. f_equal; [ lia | f_equal; lia ]. }
  destruct (parse_full_panic d) as (P1&P2); [ unfold U64, MAX_SIGNING_BLOCK_SIZE in *; lia | auto | | ].
  { rewrite Y by lia. rewrite Hd. replace (e - (bs + 8) + (bs + 8 - 24)) with (e - 24) by lia. fold bs. lia. }
  split; intros H.
  - destruct (parse_full_block Debug d) eqn:E; cbn [map_err bind] in H; try discriminate.
    rewrite (proj2 P2); [ reflexivity | apply P1; auto ].
  - destruct (parse_full_block Release d) as [|x|] eqn:E; cbn [map_err bind] in H; try discriminate.
    injection H as ->. rewrite (proj2 P1); [ reflexivity | apply P2; auto ].
Qed.

Lemma c10_reader_exact file eo :
  from_reader Debug file (len file) eo = Panic <->
  from_reader Release file (len file) eo = Err (EParsingFullBlock ESizesDiffer).
Proof.
  destruct (N.ltb_spec (len file - eo) 24) as [H|H].
  - rewrite !from_reader_small by auto. split; discriminate.
  - destruct (magic_cases file (len file - eo)) as [(e&He)|Hn].
    + rewrite !(from_reader_found _ file eo e) by auto. destruct He as (A&B&M&_).
      apply block_at_panic; auto; lia.
    + rewrite !from_reader_none by auto. split; discriminate.
Qed.

(** ** [from_u8] *)
Lemma from_u8_at_panic data x y : len data < U64 -> data = x ++ MAGIC ++ y ->
  (from_u8_at Debug data (len x) = Panic <->
   len x < 8 \/
   let size := un_le (dropN (len x - 8) x) in
   size <= 16 * 1024 /\
   (size < 16 \/
    24 <= size /\ size <= len x + 8 /\ un_le (takeN 8 (dropN (len x + 8 - size) x)) <> size)).
Proof.
  intros Hl Ed. assert (HL : len data = len x + 16 + len y) by (rewrite Ed, !len_app; change (len MAGIC) with 16; lia).
  unfold from_u8_at, SIZE_UINT64, MAGIC_LEN, MAX_SIGNING_BLOCK_SIZE, usub, uadd.
  destruct (N.leb_spec 8 (len x)) as [H8|H8]; cbn [bind]; [ | split; auto ].
  rewrite (get_range_app data (takeN (len x - 8) x) (dropN (len x - 8) x) (MAGIC ++ y));
    [ | rewrite app_assoc, take_drop; auto | rewrite len_takeN; lia | rewrite len_takeN, len_dropN; lia ].
  cbn [of_option bind]. set (size := un_le (dropN (len x - 8) x)).
  assert (W : forall k, size = k -> un_le (dropN (len x - 8) x) = k) by auto.
  destruct (N.ltb_spec (16 * 1024) size) as [Hm|Hm].
  { split; [ discriminate | ]. intros [?|(?&_)]; lia. }
  destruct (N.leb_spec 16 size) as [H16|H16]; cbn [bind].
  2: { split; [ intros _; right; cbv zeta; fold size; split; auto | auto ]. }
  replace (size - 16 + 8 <? U64) with true by (unfold U64; lia). cbn [bind].
  replace (size - 16 + 8) with (size - 8) by lia.
  destruct (N.ltb_spec (len x) (size - 8)) as [Hb|Hb].
  { split; [ discriminate | ]. intros [?|(?&[?|(?&?&_)])]; lia. }
  destruct (get_range data (len x - (size - 8)) (len x + 16)) as [d|] eqn:G; cbn [of_option bind].
  2: { rewrite get_range_Some in G by lia. discriminate. }
  apply get_range_spec in G as (_&_&G).
  assert (Ex : d = dropN (len x + 8 - size) x ++ MAGIC).
  { rewrite G, Ed. replace (len x + 16 - (len x - (size - 8))) with (size + 8) by lia.
    replace (len x - (size - 8)) with (len x + 8 - size) by lia.
    rewrite <- (take_drop (len x + 8 - size) x) at 2. rewrite <- app_assoc.
    rewrite dropN_app_eq by (rewrite len_takeN; lia). rewrite app_assoc. apply takeN_app_eq.
    rewrite len_app, len_dropN. change (len MAGIC) with 16. lia. }
  assert (Hd : len d = size + 8) by (rewrite Ex, len_app, len_dropN; change (len MAGIC) with 16; lia).
  destruct (N.lt_ge_cases size 24) as [H24|H24].
  { unfold parse_full_block, SIZE_UINT64, MAGIC_LEN. rewrite Hd. replace (size + 8 <? 8 + 8 + 16) with true by lia.
    split; [ discriminate | ]. intros [?|(?&[?|(?&?&_)])]; lia. }
  assert (Ee : takeN 8 (dropN (len d - 24) d) = dropN (len x - 8) x).
  { rewrite Hd, Ex. rewrite <- (take_drop (size - 16) (dropN (len x + 8 - size) x)), <- app_assoc.
    rewrite dropN_app_eq by (rewrite len_takeN, len_dropN; lia). rewrite dropN_dropN.
    rewrite takeN_app_eq by (rewrite len_dropN; lia). f_equal. lia. }
  assert (Es : takeN 8 d = takeN 8 (dropN (len x + 8 - size) x)).
  { rewrite Ex. rewrite <- (take_drop 8 (dropN (len x + 8 - size) x)) at 1. rewrite <- app_assoc.
    apply takeN_app_eq. rewrite len_takeN, len_dropN. lia. }
  destruct (parse_full_panic d) as (P1&_).
  - unfold U64. lia.
  - rewrite Hd, Ex. apply dropN_app_eq. rewrite len_dropN. lia.
  - rewrite Ee. fold size. unfold MAX_SIGNING_BLOCK_SIZE. lia.
  - rewrite P1, Ee, Es. fold size. split.
    + intros Hn. right. cbv zeta. split; [ auto | right; split; [ auto | split; [ lia | auto ] ] ].
    + intros [?|(?&[?|(_&_&?)])]; try lia.
Qed.

Lemma c10_u8_exact data : len data < U64 ->
  (from_u8 Debug data = Panic <->
   32 <= len data /\ exists x y, data = x ++ MAGIC ++ y /\ 0 < len x /\
   (forall x' y', data = x' ++ MAGIC ++ y' -> len x' <= len x) /\
   (len x < 8 \/
    let size := un_le (dropN (len x - 8) x) in
    size <= 16 * 1024 /\
    (size < 16 \/
     24 <= size /\ size <= len x + 8 /\ un_le (takeN 8 (dropN (len x + 8 - size) x)) <> size))).
Proof.
  intros Hl. unfold from_u8, SIZE_UINT64, MAGIC_LEN.
  destruct (N.ltb_spec (len data) (8 + 8 + 16)) as [E|E].
  { split; [ discriminate | intros (?&_); lia ]. }
  destruct (u8_cases data (N.to_nat (len data - 16))) as [(s&H1&H2&H3&H4)|Hn].
  - rewrite (u8_found _ data _ s); auto; try lia.
    pose proof H3 as M. rewrite magic_ends_split in M. destruct M as (x&y&Ex&Es).
    assert (s = len x) as -> by lia.
    assert (L : forall x' y', data = x' ++ MAGIC ++ y' -> len x' <= len x).
    { intros x' y' E'. destruct (N.le_gt_cases (len x') (len x)) as [|G]; [ auto | exfalso ].
      apply (H4 (len x')); [ lia | | ].
      - rewrite E', !len_app. change (len MAGIC) with 16. lia.
      - apply magic_ends_split. eauto. }
    rewrite (from_u8_at_panic data x y) by auto. split.
    + intros H. split; [ auto | ]. exists x, y. split; [ auto | split; [ lia | auto ] ].
    + intros (_&x2&y2&E2&P2&L2&H).
      assert (len x2 = len x) as Eq by (specialize (L _ _ E2); specialize (L2 _ _ Ex); lia).
      assert (x2 = x) as ->; [ | exact H ].
      rewrite E2 in Ex. apply (f_equal (takeN (len x2))) in Ex. rewrite takeN_app in Ex.
      rewrite Eq, takeN_app in Ex. auto.
  - rewrite u8_none; auto; try lia. split; [ discriminate | ].
    intros (_&x&y&Ex&P&_&_). exfalso. apply (Hn (len x)); [ lia | | ].
    + rewrite Ex, !len_app. change (len MAGIC) with 16. lia.
    + apply magic_ends_split. eauto.
Qed.

(** ** C33 *)
Lemma c33_debug_exact C sched f a : len f < 2 ^ 63 ->
  let panics := exists e, find_eocd f (len f) = Ok e /\
    match m_get_signing_block Debug (module_new f) f with
    | Ok b => eo_off e < bk_end b
    | Err x => maybe_missing_signature x = true /\ eo_off e < eo_cd_offset e
    | Panic => True
    end in
  (m_digest Debug C sched (module_new f) f a = Panic <-> panics) /\
  (m_digest_regions Debug (module_new f) f = Panic <-> panics).
Proof.
  intros Hl. cbv zeta. change (2 ^ 63) with I64 in Hl.
  unfold m_digest, m_digest_regions, m_get_offsets, m_find_eocd. cbn [module_new m_len m_raw].
  change (mkModule false (len f) None) with (module_new f).
  destruct (find_eocd f (len f)) as [e|x|] eqn:He; cbn [bind].
  2: { split; (split; [ discriminate | intros (e&?&_); discriminate ]). }
  2: { destruct (find_eocd_no_panic f He). }
  destruct (find_eocd_inv f e He) as (Ho&_).
  assert (Hle : eo_off e + 22 <= len f) by (destruct Ho as ((x1&x2&x3&x4&Ef&E1&E2&_)&_); rewrite Ef, !len_app, len_le; change (len EOCD_SIG) with 4; lia). set (o := eo_off e) in *.
  assert (K : forall sc scd,
    (digest_module Debug C sched f (offsets_new sc scd o (len f)) a = Panic <-> o < scd) /\
    ((do n1 <- usub Debug (fo_stop_content (offsets_new sc scd o (len f))) (fo_start_content (offsets_new sc scd o (len f)));
      do n2 <- usub Debug (fo_stop_cd (offsets_new sc scd o (len f))) (fo_start_cd (offsets_new sc scd o (len f)));
      do n3 <- usub Debug (fo_stop_eocd (offsets_new sc scd o (len f))) (fo_start_eocd (offsets_new sc scd o (len f)));
      Ok [mkRegion (bstr "zip_entries") (fo_start_content (offsets_new sc scd o (len f))) n1;
          mkRegion (bstr "central_directory") (fo_start_cd (offsets_new sc scd o (len f))) n2;
          mkRegion (bstr "eocd") (fo_start_eocd (offsets_new sc scd o (len f))) n3]) = Panic <-> o < scd)).
  { intros sc scd. unfold digest_module, offsets_new, digest_region, digest_eocd.
    cbn [fo_start_content fo_stop_content fo_start_cd fo_stop_cd fo_start_eocd fo_stop_eocd].
    rewrite (usub_ok Debug sc 0) by lia. rewrite (usub_ok Debug (len f) o) by lia. cbn [bind].
    unfold seek. replace (0 <? I64) with true by reflexivity. cbn [bind].
    destruct (N.lt_ge_cases o scd) as [H|H].
    - unfold usub. replace (scd <=? o) with false by lia. cbn [bind]. split; tauto.
    - rewrite usub_ok by lia. cbn [bind].
      replace (scd <? I64) with true by lia. replace (o <? I64) with true by lia. cbn [bind].
      replace (I64 <=? len f - o) with false by lia.
      split; [ | split; [ discriminate | lia ] ].
      destruct (len (dropN o f) <? 16); [ split; [ discriminate | lia ] | ].
      destruct (len (dropN o f) <? 20); split; (discriminate || lia). }
  destruct (m_get_signing_block Debug (module_new f) f) as [b|x|] eqn:Eb; cbn [bind].
  - destruct (K (bk_start b) (bk_end b)) as (K1&K2). rewrite K1, K2.
    split; (split; [ intros H; eexists; split; [ reflexivity | exact H ] | intros (e'&[= <-]&H); exact H ]).
  - destruct (maybe_missing_signature x); cbn [bind].
    + unfold offsets_without_signature. destruct (K (eo_cd_offset e) (eo_cd_offset e)) as (K1&K2).
      rewrite K1, K2.
      split; (split; [ intros H; eexists; split; [ reflexivity | split; [ auto | exact H ] ] | intros (e'&[= <-]&_&H); exact H ]).
    + split; (split; [ discriminate | intros (e'&_&H&_); discriminate ]).
  - split; (split; [ intros _; eexists; split; [ reflexivity | exact I ] | auto ]).
Qed.

Lemma c10_u8_same data : len data < U64 -> from_u8 Debug data = Panic \/ from_u8 Debug data = from_u8 Release data.
Proof. intros H. destruct (from_u8_agree data H) as [->|(->&_)]; auto. Qed.
Lemma c10_reader_same file eo : from_reader Debug file (len file) eo = Panic \/
  from_reader Debug file (len file) eo = from_reader Release file (len file) eo.
Proof. destruct (from_reader_agree file eo) as [->|(->&_)]; auto. Qed.
Lemma c10_u8_both data : len data < U64 ->
  (from_u8 Debug data = Panic \/ from_u8 Debug data = from_u8 Release data) /\
  (from_u8 Debug data = Panic <->
   32 <= len data /\ exists x y, data = x ++ MAGIC ++ y /\ 0 < len x /\
   (forall x' y', data = x' ++ MAGIC ++ y' -> len x' <= len x) /\
   (len x < 8 \/
    let size := un_le (dropN (len x - 8) x) in
    size <= 16 * 1024 /\
    (size < 16 \/
     24 <= size /\ size <= len x + 8 /\ un_le (takeN 8 (dropN (len x + 8 - size) x)) <> size))).
Proof. intros H. split; [ apply c10_u8_same; auto | apply c10_u8_exact; auto ]. Qed.
Lemma c10_reader_both file eo :
  (from_reader Debug file (len file) eo = Panic \/
   from_reader Debug file (len file) eo = from_reader Release file (len file) eo) /\
  (from_reader Debug file (len file) eo = Panic <->
   from_reader Release file (len file) eo = Err (EParsingFullBlock ESizesDiffer)).
Proof. split; [ apply c10_reader_same | apply c10_reader_exact ]. Qed.
