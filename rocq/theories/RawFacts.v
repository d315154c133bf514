(** RawFacts.v - [new_raw] modules, trailing bytes, offset wrap-around *)
From Verif Require Import Base BaseFacts Utils ParseFacts Algorithms Common SchemeV2 SourceStamp
  Utf8 ElfInfo SigningBlock Wire Built CodecFacts BlockFacts BuiltFacts SearchFacts Spec LimitFacts
  PropBlockFacts Zip Digest Module Signable ZipSpec RegionSpec ZipFacts DigestFacts ModuleFacts ModuleProps.

Lemma m_digest_raw p C sched z a : zip_ok z [] -> zip_small z [] ->
  m_digest p C sched (module_new_raw (plain z)) (plain z) a =
  Ok (tree_digest (hash C a) (zip_chunks sched z)).
Proof.
  intros Hz Hs. unfold m_digest, m_get_offsets, m_find_eocd, m_get_signing_block, module_new_raw.
  cbn [m_raw m_len m_sig]. rewrite find_eocd_plain by auto. cbn [bind maybe_missing_signature].
  apply (digest_zip p C sched z [] a); [ apply Hz | apply Hs | ].
  pose proof (@len_nil byte) as En. fold (plain z).
  unfold offsets_without_signature, offsets_new, zip_eocd; cbn [eo_cd_offset eo_off]. f_equal; lia.
Qed.

Lemma m_write_raw p z b : zip_ok z [] -> zip_small z [] -> built_block b ->
  len (z_entries z) + len (block_to_u8 b) < U32 ->
  m_write_with_signature p (mkModule true (len (plain z)) (Some (offset_by b (len (z_entries z))))) (plain z)
  = (with_block z (block_to_u8 b), Ok tt).
Proof.
  intros Hz Hs Hb H32. destruct (zip_ok_plain z Hz) as (Hh&_).
  destruct (built_block_bytes b Hb) as (H1&H2&H3).
  pose proof (block_bytes_len _ _ H1) as Hl.
  pose proof (len_with_block z [] Hh) as HL. rewrite len_nil in HL. fold (plain z) in HL.
  assert (Hfull : get_full_size (offset_by b (len (z_entries z))) = len (block_to_u8 b)) by (rewrite <- H3; auto).
  assert (Hbs : bk_start b = 0).
  { rewrite H2. unfold parsed_block. auto. }
  assert (Hbe : bk_end b = len (block_to_u8 b)).
  { set (raw := block_to_u8 b) in *. clearbody raw. rewrite H2. unfold parsed_block. auto. }
  unfold m_write_with_signature, m_get_offsets, m_find_eocd, m_get_signing_block.
  cbn [m_raw m_len m_sig]. rewrite find_eocd_plain by auto. cbn [bind].
  rewrite Hfull. rewrite N.mod_small by lia.
  unfold zip_eocd at 1. cbn [eo_cd_offset].
  replace (U32 <=? len (z_entries z) + len (block_to_u8 b)) with false by lia.
  rewrite with_cd_offset_bytes by auto. unfold offsets_new.
  cbn [fo_stop_content fo_start_cd fo_stop_eocd offset_by bk_start bk_end]. rewrite Hbs, Hbe.
  fold (offset_by b (len (z_entries z))). rewrite ?Hfull.
  rewrite len_end_record by auto. rewrite usub_ok by lia. cbn [bind]. unfold seek.
  replace (len (block_to_u8 b) + len (z_entries z) - len (block_to_u8 b)) with (len (z_entries z)) by lia.
  unfold zip_small in Hs. fold (plain z) in Hs. change (2 ^ 63) with I64 in Hs.
  replace (len (z_entries z) <? I64) with true by lia. cbn [bind].
  rewrite usub_ok by lia. cbn [bind]. rewrite usub_ok by lia. cbn [bind].
  unfold taken. rewrite dropN_0, N.add_0_l.
  assert (E1 : takeN (len (z_entries z)) (plain z) = z_entries z) by (rewrite plain_eq; apply takeN_app).
  rewrite E1.
  assert (E2 : dropN (len (z_entries z)) (plain z) = z_cd z ++ end_record z (len (z_entries z)))
    by (rewrite plain_eq; apply dropN_app).
  rewrite E2. rewrite takeN_app_eq by lia.
  unfold zip_eocd. cbn [eo_cd_offset]. unfold with_block. rewrite <- !app_assoc.
  unfold block_to_u8 at 2, content_to_u8. unfold block_to_u8 at 1, content_to_u8. cbn [bk_size_start bk_content bk_size_end bk_magic].
  reflexivity.
Qed.

(** The block [sign_v2] builds. *)
Definition v2_block_of (a : algorithms) (d cert sg pk : bytes) : value :=
  V2Block (v2_new (signers_new [signer_new
    (sd_new (digests_new [digest_new a d]) (certs_new [cert_new cert]) (attrs_new []))
    (sigs_new [sig_new a sg]) (pub_new pk)])).

Lemma v2_block_built a d cert sg pk : canonical a -> built_value (v2_block_of a d cert sg pk).
Proof.
  intros Ha. eexists. split; [ | reflexivity ].
  exists [signer_new
    (sd_new (digests_new [digest_new a d]) (certs_new [cert_new cert]) (attrs_new []))
    (sigs_new [sig_new a sg]) (pub_new pk)]. split; [ | auto ].
  constructor; [ | auto ]. do 3 eexists. split; [ | split; [ | split; [ | reflexivity ] ] ].
  - do 3 eexists. split; [ | split; [ | split; [ | reflexivity ] ] ].
    + eexists. split; [ | reflexivity ]. repeat constructor. do 2 eexists. eauto.
    + eexists. split; [ | reflexivity ]. repeat constructor. eexists; eauto.
    + exists []. auto.
  - eexists. split; [ | reflexivity ]. repeat constructor. do 2 eexists. eauto.
  - eexists. reflexivity.
Qed.

Lemma sign_v2_inv p C sched m f a cert key m1 : m_sign_v2 p C sched m f a cert key = Ok m1 ->
  exists e d sg pk b pad, m_find_eocd m f = Ok e /\ m_digest p C sched m f a = Ok d /\
    public_key_der C key = Ok pk /\
    algo_sign C a key (dropN 4 (sd_to_u8 (sd_new (digests_new [digest_new a d]) (certs_new [cert_new cert]) (attrs_new [])))) = Ok sg /\
    built_block b /\ bk_content b = v2_block_of a d cert sg pk :: pad /\
    m1 = mkModule (m_raw m) (m_len m) (Some (offset_by b (eo_cd_offset e))).
Proof.
  intros H. unfold m_sign_v2 in H.
  apply bind_Ok in H as (pk&Hpk&H). apply bind_Ok in H as (d&Hd&H). apply bind_Ok in H as (sg&Hsg&H).
  apply bind_Ok in H as (b&Hb&H). apply bind_Ok in H as (e&He&H). injection H as <-.
  assert (Ha : canonical a).
  { unfold algo_sign in Hsg. destruct a; [ exact I | exact I | discriminate ]. }
  assert (HF : Forall built_value [v2_block_of a d cert sg pk]) by (constructor; [ apply v2_block_built; auto | auto ]).
  destruct (padding_ok p _ b HF Hb) as (pad&Eb&_).
  exists e, d, sg, pk, b, pad. do 4 (split; [ auto | ]).
  split; [ | split; [ | auto ] ].
  - eexists. split; [ exact HF | ]. right. eauto.
  - rewrite Eb. reflexivity.
Qed.

(** ** Trailing bytes *)
Lemma find_eocd_tail z t : zip_ok z [] -> last_record (plain z ++ t) (len (z_entries z) + len (z_cd z)) ->
  find_eocd (plain z ++ t) (len (plain z ++ t)) =
  Ok (zip_eocd z (len (z_entries z) + len (z_cd z)) (len (z_entries z))).
Proof.
  intros Hz Hr. destruct (zip_ok_plain z Hz) as (Hh&Hc&H32&_). apply find_eocd_iff.
  split; [ exact Hr | ]. split; [ apply zip_eocd_fields; auto | ].
  exists (z_entries z ++ z_cd z), t. rewrite zip_eocd_bytes by auto. rewrite plain_eq, len_app, <- !app_assoc. auto.
Qed.

Lemma get_sb_tail p z t : zip_ok z [] -> last_record (plain z ++ t) (len (z_entries z) + len (z_cd z)) ->
  unsigned z ->
  m_get_signing_block p (module_new (plain z ++ t)) (plain z ++ t) = Err EReaderMagicNotFound.
Proof.
  intros Hz Hr [H1 H2]. rewrite (get_sb_eq p _ _ (find_eocd_tail z t Hz Hr)).
  cbn [zip_eocd eo_cd_offset].
  assert (HL : len (plain z ++ t) = len (z_entries z) + len (z_cd z ++ end_record z (len (z_entries z)) ++ t)).
  { rewrite plain_eq, !len_app. lia. }
  apply from_reader_none; replace (len (plain z ++ t) - (len (plain z ++ t) - len (z_entries z)))
    with (len (z_entries z)) by lia; auto.
  rewrite plain_eq, <- !app_assoc. apply no_magic_iff. auto.
Qed.

Lemma s_write_tail p z t b : zip_ok z [] -> last_record (plain z ++ t) (len (z_entries z) + len (z_cd z)) ->
  unsigned z ->
  s_write_with_signature p (module_new (plain z ++ t)) (plain z ++ t) b = (with_block z (block_to_u8 b), Ok tt).
Proof.
  intros Hz Hr Hu. destruct (zip_ok_plain z Hz) as (Hh&_). unfold s_write_with_signature, s_source.
  rewrite get_sb_tail by auto. cbn [maybe_missing_signature]. rewrite find_eocd_tail by auto. cbn [bind].
  assert (Ho : len (z_entries z) + len (z_cd z) <= len (plain z ++ t)) by (rewrite plain_eq, !len_app; lia).
  destruct (s_write_raw_error p (plain z ++ t) (zip_eocd z (len (z_entries z) + len (z_cd z)) (len (z_entries z))) (block_to_u8 b) Ho)
    as [[_ E2]|(h&c&t'&E1&E2&E3&E)].
  - exfalso. unfold s_write_raw in E2. cbn [zip_eocd eo_cd_offset eo_off] in E2.
    replace (len (z_entries z) + len (z_cd z) <? len (z_entries z)) with false in E2 by lia.
    rewrite usub_ok in E2 by auto. rewrite !get_range_Some in E2 by lia.
    destruct (debug_assert _ _); discriminate.
  - rewrite E. f_equal. rewrite with_cd_offset_bytes by auto. rewrite end_record_mod.
    cbn [zip_eocd eo_cd_offset eo_off] in *. rewrite len_app in E3.
    rewrite plain_eq, <- !app_assoc in E1. apply app_inj_len in E1 as [<- E1]; [ | auto ].
    apply app_inj_len in E1 as [<- _]; [ | lia ]. reflexivity.
Qed.

(** The digest that was signed is not the digest of what is written. *)
Lemma c24_digest p q C s1 s2 z t b a d1 d2 n e1 e2 : fills s1 -> fills s2 ->
  0 < n -> (forall x, len (hash C a x) = n) ->
  zip_ok z [] -> last_record (plain z ++ t) (len (z_entries z) + len (z_cd z)) -> unsigned z ->
  built_block b -> zip_ok z (block_to_u8 b) -> zip_small z (block_to_u8 b) -> len (plain z ++ t) < I64 ->
  t <> [] ->
  m_digest p C s1 (module_new (plain z ++ t)) (plain z ++ t) a = Ok d1 ->
  m_digest q C s2 (module_new (with_block z (block_to_u8 b))) (with_block z (block_to_u8 b)) a = Ok d2 ->
  find_eocd (plain z ++ t) (len (plain z ++ t)) = Ok e1 ->
  find_eocd (with_block z (block_to_u8 b)) (len (with_block z (block_to_u8 b))) = Ok e2 ->
  d1 = d2 -> module_clash p q (hash C a) (plain z ++ t) e1 (with_block z (block_to_u8 b)) e2.
Proof.
  intros F1 F2 Hn Hlen Hz Hr Hu Hb Hzb Hs Hl Ht D1 D2 He1 He2 <-.
  rewrite (find_eocd_tail z t Hz Hr) in He1. injection He1 as <-.
  rewrite (find_eocd_with_block z (block_to_u8 b) Hzb) in He2. injection He2 as <-.
  destruct (zip_ok_plain z Hz) as (Hh&_).
  destruct (c31 p q C s1 s2 (plain z ++ t) (with_block z (block_to_u8 b))
    _ _ a d1 n F1 F2 Hn Hlen Hl Hs (find_eocd_tail z t Hz Hr) ltac:(right; cbn [zip_eocd eo_cd_offset eo_off]; lia)
    (find_eocd_with_block z (block_to_u8 b) Hzb) ltac:(right; cbn [zip_eocd eo_cd_offset eo_off]; lia) D1 D2)
    as [Hc|(x&m1&m2&y&h&c1&c2&t'&(E1&O1&Lh&L1&_)&(E2&O2&_&L2&_))]; [ auto | exfalso ].
  cbn [zip_eocd eo_off] in O1, O2.
  apply (f_equal len) in E1, E2. rewrite !len_app in E1. rewrite !len_app in E2. rewrite !len_app in O1. rewrite !len_app in O2.
  rewrite (len_with_block z (block_to_u8 b) Hh) in E2.
  pose proof (len_with_block z [] Hh) as HL. rewrite len_nil in HL. fold (plain z) in HL.
  apply Ht, len_0. lia.
Qed.

(** ** The directory offset wraps around at 4 GiB *)
Lemma only_record_no_comment z off : len (z_head z) = 12 -> z_comment z = [] -> only_record (end_record z off).
Proof.
  intros Hh Hc o Ho Hr. apply record_at_room in Hr. rewrite len_end_record, Hc, len_nil in Hr by auto. lia.
Qed.
Lemma in_zeros x n : In x (zeros n) -> x = x00.
Proof. apply repeat_spec. Qed.
Lemma zeros_no_magic n : no_block_magic (zeros n).
Proof.
  intros a b E. exfalso.
  assert (H : In x4b (zeros n) \/ exists c, In c (zeros n) /\ c <> x00).
  { right. exists (hd x00 MAGIC). split; [ | vm_compute; discriminate ].
    rewrite E. apply in_or_app. right. apply in_or_app. left. vm_compute. auto. }
  destruct H as [H|(c&H&Hc)]; apply in_zeros in H; [ discriminate | congruence ].
Qed.

Definition big_zip (n : N) : zip := mkZip (zeros n) [] (zeros 12) [].
Lemma big_zip_ok n : n < U32 -> zip_ok (big_zip n) [].
Proof.
  intros Hn. pose proof (@len_nil byte) as En. unfold zip_ok.
  split; [ apply len_zeros | ]. split; [ reflexivity | ].
  split; [ cbn [big_zip z_entries]; rewrite len_zeros, En; lia | ].
  apply only_record_no_comment; [ apply len_zeros | reflexivity ].
Qed.
Lemma big_zip_unsigned n : 24 <= n -> unsigned (big_zip n).
Proof.
  intros Hn. split; [ cbn [big_zip z_entries]; rewrite len_zeros; auto | ].
  cbn [big_zip z_entries]. apply zeros_no_magic.
Qed.

Lemma c26_wrap p n b : n < U32 -> 24 <= n -> exists out e,
  s_write_with_signature p (module_new (plain (big_zip n))) (plain (big_zip n)) b = (out, Ok tt) /\
  find_eocd out (len out) = Ok e /\
  eo_cd_offset e = (n + len (block_to_u8 b)) mod U32.
Proof.
  intros Hn Hm. pose proof (big_zip_ok n Hn) as Hz. pose proof (big_zip_unsigned n Hm) as Hu.
  exists (with_block (big_zip n) (block_to_u8 b)). eexists.
  split; [ apply s_write_unsigned; auto | ].
  rewrite with_block_split, <- end_record_mod. split.
  - apply find_eocd_zip; [ apply Hz | apply Hz | apply N.mod_lt; discriminate | ].
    apply only_record_no_comment; [ apply Hz | reflexivity ].
  - cbn [zip_eocd eo_cd_offset big_zip z_entries]. rewrite len_zeros. reflexivity.
Qed.

(** ** The digest depends on the read schedule *)
Definition one_byte_reads : nat -> nat -> N := fun _ _ => 1.
Lemma read_chunks_head s d : 0 < len d ->
  exists cs, read_chunks s d = takeN (N.max 1 (N.min (s 0%nat) CHUNK_SIZE)) d :: cs.
Proof.
  intros H. destruct d as [|x d]; [ cbn in H; lia | ]. unfold read_chunks. cbn [length chunks].
  eexists. reflexivity.
Qed.

Lemma chunk_lens s z : len (z_head z) = 12 -> len (z_comment z) < U16 ->
  Forall (fun c => len c < U32) (zip_chunks s z).
Proof.
  intros Hh Hc. unfold zip_chunks.
  assert (K : forall s d, Forall (fun c => len c < U32) (read_chunks s d)).
  { intros s' d. unfold read_chunks. generalize 0%nat. generalize (length d). intros n.
    revert d. induction n as [|n IH]; intros [|x d] k; cbn [chunks]; auto.
    constructor; [ | apply IH ]. rewrite len_takeN. unfold CHUNK_SIZE, U32. lia. }
  rewrite !Forall_app. auto.
Qed.

Lemma read_one_byte i d : read_chunks (one_byte_reads i) d = map (fun x => [x]) d.
Proof.
  unfold read_chunks. generalize 0%nat. induction d as [|x d IH]; intros k; [ reflexivity | ].
  cbn [length chunks map]. cbv zeta. change (N.max 1 (N.min (one_byte_reads i k) CHUNK_SIZE)) with 1.
  rewrite (takeN_app_eq 1 [x] d eq_refl : takeN 1 (x :: d) = [x]).
  rewrite (dropN_app_eq 1 [x] d eq_refl : dropN 1 (x :: d) = d). f_equal. apply IH.
Qed.
Lemma c30_schedule p q C s2 z a d1 d2 n : fills s2 -> 0 < n -> (forall x, len (hash C a x) = n) ->
  zip_ok z [] -> zip_small z [] -> unsigned z ->
  m_digest p C one_byte_reads (module_new (plain z)) (plain z) a = Ok d1 ->
  m_digest q C s2 (module_new (plain z)) (plain z) a = Ok d2 ->
  d1 = d2 -> exists c1 c2 r, splits (z_entries z) c1 /\ splits (z_cd z) c2 /\
    splits (end_record z (len (z_entries z))) r /\
    clash (hash C a) (tree_messages (hash C a) (map (fun x => [x]) (z_entries z ++ z_cd z) ++ r))
                     (tree_messages (hash C a) (c1 ++ c2 ++ r)).
Proof.
  intros Hf Hn Hlen Hz Hs Hu D1 D2 <-.
  rewrite m_digest_plain in D1 by auto. rewrite m_digest_plain in D2 by auto.
  injection D1 as D1. injection D2 as D2. rewrite <- D1 in D2. symmetry in D2.
  destruct (zip_ok_plain z Hz) as (Hh&Hc&_).
  apply tree_digest_inj with (n := n) in D2 as [D2|D2]; auto using chunk_lens.
  { unfold zip_chunks in D2. rewrite !read_one_byte in D2. rewrite app_assoc, <- map_app in D2.
    do 3 eexists. split; [ | split; [ | split; [ | exact D2 ] ] ]; apply read_chunks_splits; auto using full_reads_full. }
  exfalso. destruct Hu as [Hu _].
  destruct (read_chunks_head (one_byte_reads 0%nat) (z_entries z) ltac:(lia)) as (c1&E1).
  destruct (read_chunks_head (s2 0%nat) (z_entries z) ltac:(lia)) as (c2&E2).
  unfold zip_chunks in D2. rewrite E1, E2 in D2. injection D2 as D2 _.
  apply (f_equal len) in D2. rewrite !len_takeN in D2. specialize (Hf 0%nat 0%nat).
  unfold one_byte_reads, CHUNK_SIZE in D2. lia.
Qed.

(** All buffer-filling schedules agree. *)
Lemma c30_fills p C s1 s2 f e a d1 d2 : fills s1 -> fills s2 -> len f < I64 -> find_eocd f (len f) = Ok e ->
  eo_cd_offset e <= eo_off e -> m_digest p C s1 (module_new f) f a = Ok d1 ->
  m_digest p C s2 (module_new f) f a = Ok d2 -> d1 = d2.
Proof.
  intros F1 F2 Hl He Hc D1 D2. unfold m_digest in *.
  apply bind_Ok in D1 as (o&Ho&D1). rewrite Ho in D2. cbn [bind] in D2.
  assert (Hu : len f < U64) by (unfold I64, U64 in *; lia).
  destruct (regions p f e o Hu He Hc Ho) as (x&m&y&t&Hf&Eo&Ee&_&Ht&_).
  rewrite Ee in Eo. rewrite Eo in D1, D2. rewrite (digest_regions_ok p C s1 f a x m y t Hl Hf (proj1 Ht)) in D1.
  rewrite (digest_regions_ok p C s2 f a x m y t Hl Hf (proj1 Ht)) in D2.
  injection D1 as <-. injection D2 as <-.
  assert (K : forall d i, read_chunks (s1 i) d = read_chunks (s2 i) d).
  { intros d i. eapply splits_fun; apply read_chunks_splits; intros k; [ apply F1 | apply F2 ]. }
  rewrite !K. reflexivity.
Qed.

(** Decision procedure for concrete archives. *)
Lemma only_record_check r : 
  forallb (fun o => negb (record_atb r (N.of_nat o))) (seq 1 (length r)) = true -> only_record r.
Proof.
  intros H o Ho Hr. rewrite forallb_forall in H. pose proof (record_at_room _ _ Hr).
  assert (K : In (N.to_nat o) (seq 1 (length r))) by (apply in_seq; rewrite length_len; lia).
  apply H in K. rewrite N2Nat.id in K. apply record_atb_iff in Hr. rewrite Hr in K. discriminate.
Qed.

(** ** Combined statements for PropModule.v *)
Lemma c27 p q C sched z a cert key m1 : zip_ok z [] -> zip_small z [] ->
  m_sign_v2 p C sched (module_new_raw (plain z)) (plain z) a cert key = Ok m1 ->
  exists d sg pk b pad,
    m_digest p C sched (module_new_raw (plain z)) (plain z) a = Ok d /\
    public_key_der C key = Ok pk /\
    algo_sign C a key (dropN 4 (sd_to_u8 (sd_new (digests_new [digest_new a d])
                                            (certs_new [cert_new cert]) (attrs_new [])))) = Ok sg /\
    built_block b /\
    bk_content b = V2Block (v2_new (signers_new [signer_new
      (sd_new (digests_new [digest_new a d]) (certs_new [cert_new cert]) (attrs_new []))
      (sigs_new [sig_new a sg]) (pub_new pk)])) :: pad /\
    (U32 <= len (z_entries z) + len (block_to_u8 b) ->
       m_write_with_signature q m1 (plain z) = ([], Err EOffsetOverflow)) /\
    (len (z_entries z) + len (block_to_u8 b) < U32 ->
       m_write_with_signature q m1 (plain z) = (with_block z (block_to_u8 b), Ok tt)) /\
    (zip_ok z (block_to_u8 b) -> zip_small z (block_to_u8 b) ->
       let out := with_block z (block_to_u8 b) in
       m_get_signing_block q (module_new out) out = Ok (offset_by b (len (z_entries z))) /\
       m_digest q C sched (module_new out) out a = Ok d).
Proof.
  intros Hz Hs H. apply sign_v2_inv in H as (e&d&sg&pk&b&pad&He&Hd&Hpk&Hsg&Hb&Hc&Hm).
  exists d, sg, pk, b, pad. do 5 (split; [ assumption | ]).
  unfold m_find_eocd, module_new_raw in He. cbn [m_len] in He. rewrite find_eocd_plain in He by auto.
  injection He as <-. subst m1. cbn [module_new_raw m_raw m_len zip_eocd eo_cd_offset].
  split; [ | split ].
  - intros Ho. destruct (built_block_bytes b Hb) as (H1&H2&H3).
    pose proof (block_bytes_len _ _ H1) as Hl.
    unfold m_write_with_signature, m_get_offsets, m_find_eocd, m_get_signing_block.
    cbn [m_raw m_len m_sig]. rewrite find_eocd_plain by auto. cbn [bind].
    assert (Hfull : get_full_size (offset_by b (len (z_entries z))) = len (block_to_u8 b)) by (rewrite <- H3; auto).
    rewrite Hfull, N.mod_small by (unfold U32; lia). cbn [zip_eocd eo_cd_offset].
    replace (U32 <=? len (z_entries z) + len (block_to_u8 b)) with true by lia. auto.
  - intros H32. apply m_write_raw; auto.
  - intros Hzb Hsb. cbv zeta. split; [ apply c20; auto | ].
    destruct (built_block_bytes b Hb) as (H1&_).
    rewrite (m_digest_signed q C sched z _ _ a Hzb Hsb H1).
    rewrite m_digest_raw in Hd by auto. auto.
Qed.

Lemma c20_write p q z b out : built_block b -> zip_ok z [] -> unsigned z ->
  zip_ok z (block_to_u8 b) -> zip_small z (block_to_u8 b) ->
  s_write_with_signature p (module_new (plain z)) (plain z) b = (out, Ok tt) ->
  m_get_signing_block q (module_new out) out = Ok (offset_by b (len (z_entries z))).
Proof.
  intros Hb Hz Hu Hzb Hsb H. rewrite s_write_unsigned in H by auto. injection H as <-. apply c20; auto.
Qed.
Lemma c21_write p q r C sched z b a out : built_block b -> zip_ok z [] -> unsigned z ->
  zip_ok z (block_to_u8 b) -> zip_small z (block_to_u8 b) ->
  s_write_with_signature p (module_new (plain z)) (plain z) b = (out, Ok tt) ->
  exists d, m_digest q C sched (module_new (plain z)) (plain z) a = Ok d /\
            m_digest r C sched (module_new out) out a = Ok d.
Proof.
  intros Hb Hz Hu Hzb Hsb H. rewrite s_write_unsigned in H by auto. injection H as <-. apply c21; auto.
Qed.
Lemma c22_write p q z b out : built_block b -> zip_ok z [] -> unsigned z ->
  zip_ok z (block_to_u8 b) -> zip_small z (block_to_u8 b) ->
  s_write_with_signature p (module_new (plain z)) (plain z) b = (out, Ok tt) ->
  m_get_raw_module q (module_new out) out = Ok (plain z).
Proof.
  intros Hb Hz Hu Hzb Hsb H. rewrite s_write_unsigned in H by auto. injection H as <-.
  destruct (built_block_bytes b Hb) as (H1&_). eapply raw_of_signed; eauto.
Qed.
(** A signed archive, whoever made it. *)
Lemma c22_any p q z raw b : zip_ok z raw -> zip_small z raw ->
  m_get_signing_block p (module_new (with_block z raw)) (with_block z raw) = Ok b ->
  bk_start b = len (z_entries z) -> bk_end b = len (z_entries z) + len raw ->
  m_get_raw_module q (module_new (with_block z raw)) (with_block z raw) = Ok (plain z).
Proof.
  intros Hz Hs H1 H2 H3. eapply raw_of_signed; eauto. eapply found_bytes; eauto.
Qed.
Lemma c23_write p q r z b1 b2 out : built_block b1 -> zip_ok z [] -> unsigned z ->
  zip_ok z (block_to_u8 b1) -> zip_small z (block_to_u8 b1) ->
  s_write_with_signature p (module_new (plain z)) (plain z) b1 = (out, Ok tt) ->
  s_write_with_signature q (module_new out) out b2 = s_write_with_signature r (module_new (plain z)) (plain z) b2.
Proof.
  intros Hb Hz Hu Hzb Hsb H. rewrite s_write_unsigned in H by auto. injection H as <-.
  destruct (built_block_bytes b1 Hb) as (H1&_).
  rewrite (s_write_signed q z _ _ b2 Hz Hzb Hsb H1). rewrite s_write_unsigned; auto.
Qed.
(** Any number of re-signings. *)
Lemma c23_history p z bs out : Forall built_block bs -> bs <> [] ->
  zip_ok z [] -> unsigned z ->
  Forall (fun b => zip_ok z (block_to_u8 b) /\ zip_small z (block_to_u8 b)) bs ->
  fold_left (fun (f : bytes) b => fst (s_write_with_signature p (module_new f) f b)) bs (plain z) = out ->
  out = with_block z (block_to_u8 (last bs (mkBlock 0 0 0 0 [] 0 []))).
Proof.
  intros HF Hne Hz Hu HZ H.
  assert (K : forall bs f, Forall built_block bs -> Forall (fun b => zip_ok z (block_to_u8 b) /\ zip_small z (block_to_u8 b)) bs ->
    (f = plain z \/ exists b0, built_block b0 /\ zip_ok z (block_to_u8 b0) /\ zip_small z (block_to_u8 b0) /\ f = with_block z (block_to_u8 b0)) ->
    bs <> [] ->
    fold_left (fun (f : bytes) b => fst (s_write_with_signature p (module_new f) f b)) bs f
    = with_block z (block_to_u8 (last bs (mkBlock 0 0 0 0 [] 0 [])))).
  { clear - Hz Hu. induction bs as [|b bs IH]; intros f HF HZ Hf Hne; [ congruence | ].
    apply Forall_cons_iff in HF as [Hb HF]. apply Forall_cons_iff in HZ as [[Hzb Hsb] HZ].
    cbn [fold_left].
    assert (Ew : fst (s_write_with_signature p (module_new f) f b) = with_block z (block_to_u8 b)).
    { destruct Hf as [->|(b0&B1&B2&B3&->)].
      - rewrite s_write_unsigned by auto. auto.
      - destruct (built_block_bytes b0 B1) as (H1&_). rewrite (s_write_signed p z _ _ b Hz B2 B3 H1). auto. }
    rewrite Ew. destruct bs as [|b' bs]; [ auto | ].
    rewrite IH; [ auto | assumption | assumption | right; exists b; auto | discriminate ]. }
  rewrite <- H. apply K; auto.
Qed.

Lemma c25_spec p f b e : len f < U64 -> find_eocd f (len f) = Ok e ->
  (forall b0, m_get_signing_block p (module_new f) f <> Ok b0) ->
  ~ (24 <= len (takeN (eo_cd_offset e) f) /\ no_block_magic (takeN (eo_cd_offset e) f)) ->
  exists r, s_write_with_signature p (module_new f) f b = ([], r) /\ r <> Ok tt.
Proof.
  intros Hf He Hn Hm. destruct (s_write_with_signature p (module_new f) f b) as [w r] eqn:E.
  destruct (c25 p f b w r E Hf) as [H1 H2].
  destruct H1 as [->|[-> Hr]]; [ exfalso | eauto ].
  destruct (H2 eq_refl) as [(b0&H)|(e'&He'&H3&H4)]; [ eapply Hn; eauto | ].
  rewrite He in He'. injection He' as <-. apply Hm. rewrite len_takeN. split; [ auto | ].
  rewrite <- (take_drop (eo_cd_offset e) f) in H4 at 1.
  apply (proj1 (no_magic_iff (takeN (eo_cd_offset e) f) (dropN (eo_cd_offset e) f))).
  rewrite len_takeN. auto.
Qed.

Lemma find_eocd_exists file :
  (exists e, find_eocd file (len file) = Ok e) <-> exists o, record_at file o /\ len file <= o + 65557.
Proof.
  split.
  - intros (e&H). apply find_eocd_inv in H as [(H1&H2&_) _]. eauto.
  - intros (o&Ho&Hl). destruct (record_cases file) as [(o'&Ho')|Hn].
    + rewrite (find_eocd_found _ _ Ho'). eauto.
    + exfalso. eapply Hn; eauto.
Qed.

Lemma c17_written p z b : built_block b -> zip_ok z (block_to_u8 b) -> zip_small z (block_to_u8 b) ->
  exists b', m_get_signing_block p (module_new (with_block z (block_to_u8 b))) (with_block z (block_to_u8 b)) = Ok b' /\
  exists e, find_eocd (with_block z (block_to_u8 b)) (len (with_block z (block_to_u8 b))) = Ok e /\
  bk_end b' = eo_cd_offset e.
Proof.
  intros Hb Hz Hs. rewrite c20 by auto. eexists. split; [ reflexivity | ].
  eexists. split; [ apply find_eocd_with_block; auto | ]. cbn [offset_by bk_end zip_eocd eo_cd_offset].
  destruct (built_block_bytes b Hb) as (H1&H2&H3).
  assert (Hbe : bk_end b = len (block_to_u8 b)).
  { set (raw := block_to_u8 b) in *. clearbody raw. rewrite H2. unfold parsed_block. auto. }
  lia.
Qed.

Lemma c25_atomic p f b w r : len f < U64 ->
  s_write_with_signature p (module_new f) f b = (w, r) -> r = Ok tt \/ (w = [] /\ r <> Ok tt).
Proof. intros Hf H. apply (c25 p f b w r H Hf). Qed.

Lemma c26_offset p z b out : zip_ok z [] -> unsigned z -> zip_ok z (block_to_u8 b) ->
  s_write_with_signature p (module_new (plain z)) (plain z) b = (out, Ok tt) ->
  exists e, find_eocd out (len out) = Ok e /\
    dropN (eo_cd_offset e) out = z_cd z ++ end_record z (eo_cd_offset e).
Proof.
  intros Hz Hu Hzb H. rewrite s_write_unsigned in H by auto. injection H as <-.
  eexists. split; [ apply find_eocd_with_block; auto | ]. cbn [zip_eocd eo_cd_offset].
  unfold with_block. rewrite app_assoc. apply dropN_app_eq. rewrite len_app. auto.
Qed.

Lemma c26_refuted p n b : n < U32 -> 24 <= n -> built_block b -> U32 <= n + len (block_to_u8 b) ->
  exists out e, s_write_with_signature p (module_new (plain (big_zip n))) (plain (big_zip n)) b = (out, Ok tt) /\
  find_eocd out (len out) = Ok e /\ eo_cd_offset e < n /\
  eo_cd_offset e = (n + len (block_to_u8 b)) mod U32.
Proof.
  intros H1 H2 Hb H3. destruct (c26_wrap p n b H1 H2) as (out&e&A&B&E).
  exists out, e. split; [ auto | ]. split; [ auto | ]. split; [ | auto ].
  destruct (built_block_bytes b Hb) as (B1&_). pose proof (block_bytes_len _ _ B1) as Hl.
  rewrite E. replace (n + len (block_to_u8 b)) with (n + len (block_to_u8 b) - U32 + 1 * U32) by lia.
  rewrite N.mod_add by discriminate. rewrite N.mod_small; unfold U32 in *; lia.
Qed.

Lemma c33_debug p C sched f e a : len f < I64 ->
  find_eocd f (len f) = Ok e -> eo_cd_offset e <= eo_off e ->
  m_get_signing_block p (module_new f) f <> Panic ->
  m_digest p C sched (module_new f) f a <> Panic.
Proof.
  intros Hl He Hc Hn. assert (Hu : len f < U64) by (unfold I64, U64 in *; lia).
  unfold m_digest. destruct (m_get_offsets p (module_new f) f) as [o|x|] eqn:Eo; [ | discriminate | exfalso ].
  - destruct (regions p f e o Hu He Hc Eo) as (x&m&y&t&Hf&E&Ee&_&Ht&_). cbn [bind].
    rewrite Ee in E. rewrite E. rewrite (digest_regions_ok p C sched f a x m y t Hl Hf (proj1 Ht)). discriminate.
  - unfold m_get_offsets, m_find_eocd in Eo. cbn [module_new m_len] in Eo.
    change (mkModule false (len f) None) with (module_new f) in Eo. rewrite He in Eo. cbn [bind] in Eo.
    destruct (m_get_signing_block p (module_new f) f) as [b|x|]; [ discriminate | | congruence ].
    destruct (maybe_missing_signature x); discriminate.
Qed.

(** ** A gap between the block and the central directory *)
Lemma gap_block p z b gap : built_block b ->
  zip_ok z (block_to_u8 b ++ gap) -> zip_small z (block_to_u8 b ++ gap) ->
  (forall x y, block_to_u8 b ++ gap = x ++ MAGIC ++ y -> len (x ++ MAGIC) <= len (block_to_u8 b)) ->
  len gap <= 1024 * 1024 ->
  m_get_signing_block p (module_new (with_block z (block_to_u8 b ++ gap))) (with_block z (block_to_u8 b ++ gap))
  = Ok (offset_by b (len (z_entries z))).
Proof.
  intros Hb Hz Hs Hg Hgl. rewrite get_sb_with_block by auto.
  destruct (built_block_bytes b Hb) as ((HW&Hmax)&Eb&_).
  replace (offset_by b (len (z_entries z))) with
    (offset_by (parsed_block (block_to_u8 b) (bk_content b)) (len (z_entries z))) by (rewrite <- Eb; auto).
  set (raw := block_to_u8 b) in *. set (l := bk_content b) in *. clearbody raw l. clear Eb Hb b.
  destruct (W_block_magic l raw HW) as (pre&Epre&Hpre).
  assert (Hraw : 32 <= len raw) by (rewrite Epre, len_app; change (len MAGIC) with 16; lia).
  pose proof (len_with_block z (raw ++ gap) (proj1 Hz)) as HL. rewrite len_app in HL.
  set (f := with_block z (raw ++ gap)) in *.
  assert (Hf : f = z_entries z ++ (raw ++ gap) ++ (z_cd z ++ end_record z (len (z_entries z) + len (raw ++ gap)))) by reflexivity.
  set (rest := z_cd z ++ end_record z (len (z_entries z) + len (raw ++ gap))) in Hf. clearbody rest.
  assert (Hlim : len f - (len f - (len (z_entries z) + len (raw ++ gap))) = len (z_entries z) + len raw + len gap)
    by (rewrite len_app; lia).
  unfold zip_small in Hs. change (with_block z (raw ++ gap)) with f in Hs.
  rewrite (from_reader_found p f _ (len (z_entries z) + len raw)).
  - rewrite (block_at_parses p f (len f) (len (z_entries z)) _ raw l).
    + unfold with_offsets, offset_by, parsed_block. cbn. do 2 f_equal; lia.
    + unfold U64. lia.
    + apply (get_range_app _ (z_entries z) raw (gap ++ rest)); auto. rewrite Hf, <- !app_assoc. auto.
    + auto.
    + auto.
    + lia.
  - rewrite Hlim. lia.
  - rewrite Hlim. split; [ unfold window_start, MAX_WINDOW_SIZE; lia | ]. split; [ lia | ]. split.
    + rewrite magic_ends_split. exists (z_entries z ++ pre), (gap ++ rest).
      split; [ rewrite Hf, Epre, <- !app_assoc; auto | rewrite Epre, !len_app; change (len MAGIC) with 16; lia ].
    + intros e' H1 H2 Hm. rewrite magic_ends_split in Hm. destruct Hm as (x&y&E&->).
      assert (Ex : x = z_entries z ++ dropN (len (z_entries z)) x).
      { rewrite <- (take_drop (len (z_entries z)) x) at 1. f_equal.
        rewrite Hf in E. apply (f_equal (takeN (len (z_entries z)))) in E.
        rewrite takeN_app in E. rewrite takeN_app_l in E by lia. auto. }
      set (x' := dropN (len (z_entries z)) x) in *. clearbody x'. subst x.
      rewrite len_app in H1, H2. rewrite Hf in E. rewrite <- (app_assoc (z_entries z)) in E. apply app_inv_head in E.
      assert (Ey : y = takeN (len raw + len gap - len x' - 16) y ++ rest).
      { rewrite <- (take_drop (len raw + len gap - len x' - 16) y) at 1. f_equal.
        apply (f_equal (dropN (len (raw ++ gap)))) in E. rewrite dropN_app in E. rewrite E.
        rewrite app_assoc. rewrite dropN_app_r by (rewrite !len_app; change (len MAGIC) with 16; lia).
        f_equal. rewrite !len_app. change (len MAGIC) with 16. lia. }
      rewrite Ey in E. rewrite !app_assoc in E. apply app_inv_tail in E. rewrite <- !app_assoc in E.
      apply Hg in E. rewrite len_app in E. change (len MAGIC) with 16 in E. lia.
Qed.
