(** PropBlockFacts.v - lemmas in the exact shape of the property theorems
    C01-C14 (PropBlock.v), and the concrete values used by the examples. *)
From Verif Require Import Base Utils Algorithms Common SchemeV2 SourceStamp Utf8 ElfInfo SigningBlock.
From Verif Require Import BaseFacts ParseFacts Wire CodecFacts BlockFacts Built BuiltFacts SearchFacts
  InjFacts LimitFacts Spec.

(** ** C01 *)
Lemma reader_pre (pre d post : bytes) : len (pre ++ d ++ post) < U64 ->
  rwf (mkReader (pre ++ d ++ post) (len pre)) /\ rem (mkReader (pre ++ d ++ post) (len pre)) = d ++ post.
Proof.
  intros H. split.
  - split; unfold rlen; cbn [rpos rdata]; auto. rewrite len_app. lia.
  - unfold rem; cbn [rpos rdata]. apply dropN_app.
Qed.

Lemma c01_slice pre d post : len (pre ++ d ++ post) < U64 ->
  get_to (mkReader (pre ++ d ++ post) (len pre)) (len d) =
    Ok (d, mkReader (pre ++ d ++ post) (len pre + len d)).
Proof. intros H. destruct (reader_pre _ _ _ H). exact (get_to_ok (mkReader (pre ++ d ++ post) (len pre)) d post H0 H1). Qed.

Lemma c01_slice_err pre post n : len (pre ++ post) < U64 -> len post < n ->
  exists e, get_to (mkReader (pre ++ post) (len pre)) n = Err e.
Proof.
  intros H Hn. destruct (reader_pre pre post []) as [H1 _]; rewrite ?app_nil_r in *; auto.
  apply get_to_fail; auto. unfold rlen; cbn [rpos rdata]. rewrite len_app. lia.
Qed.

Lemma c01_sub pre d post : len (pre ++ d ++ post) < U64 ->
  as_slice (mkReader (pre ++ d ++ post) (len pre)) (len d) =
    Ok (mkReader d 0, mkReader (pre ++ d ++ post) (len pre + len d)).
Proof. intros H. destruct (reader_pre _ _ _ H). exact (as_slice_ok (mkReader (pre ++ d ++ post) (len pre)) d post H0 H1). Qed.

Lemma c01_sub_err pre post n : len (pre ++ post) < U64 -> len post < n ->
  exists e, as_slice (mkReader (pre ++ post) (len pre)) n = Err e.
Proof.
  intros H Hn. destruct (c01_slice_err pre post n H Hn) as (e&He).
  exists e. unfold as_slice. rewrite He. auto.
Qed.

Lemma read_le_bytes k pre d post : length d = k ->
  read_le k (mkReader (pre ++ d ++ post) (len pre)) =
    Ok (un_le d, mkReader (pre ++ d ++ post) (len pre + N.of_nat k)).
Proof.
  intros Hk. unfold read_le; cbn [rdata rpos].
  rewrite (get_range_app _ pre d post); auto. unfold len. lia.
Qed.
Lemma read_le_short k pre post : (length post < k)%nat ->
  read_le k (mkReader (pre ++ post) (len pre)) = Err EOutOfBounds.
Proof.
  intros Hk. unfold read_le; cbn [rdata rpos].
  destruct (get_range _ _ _) eqn:G; auto. apply get_range_spec in G as (_&G&_).
  rewrite len_app in G. unfold len in *. lia.
Qed.

Lemma c01_u16 pre b0 b1 post :
  read_u16 (mkReader (pre ++ [b0; b1] ++ post) (len pre)) =
    Ok (to_N b0 + 256 * to_N b1, mkReader (pre ++ [b0; b1] ++ post) (len pre + 2)).
Proof. unfold read_u16. rewrite read_le_bytes by auto. cbn [un_le]. repeat f_equal. lia. Qed.
Lemma c01_u32 pre b0 b1 b2 b3 post :
  read_u32 (mkReader (pre ++ [b0; b1; b2; b3] ++ post) (len pre)) =
    Ok (to_N b0 + 256 * to_N b1 + 65536 * to_N b2 + 16777216 * to_N b3,
        mkReader (pre ++ [b0; b1; b2; b3] ++ post) (len pre + 4)).
Proof. unfold read_u32. rewrite read_le_bytes by auto. cbn [un_le]. f_equal. f_equal. lia. Qed.
Lemma c01_u64 pre b0 b1 b2 b3 b4 b5 b6 b7 post :
  read_u64 (mkReader (pre ++ [b0; b1; b2; b3; b4; b5; b6; b7] ++ post) (len pre)) =
    Ok (to_N b0 + 2^8 * to_N b1 + 2^16 * to_N b2 + 2^24 * to_N b3 +
        2^32 * to_N b4 + 2^40 * to_N b5 + 2^48 * to_N b6 + 2^56 * to_N b7,
        mkReader (pre ++ [b0; b1; b2; b3; b4; b5; b6; b7] ++ post) (len pre + 8)).
Proof. unfold read_u64. rewrite read_le_bytes by auto. cbn [un_le]. f_equal. f_equal. lia. Qed.

(** ** C02 *)
Lemma c02_roundtrip u : u32_of_algo (algo_of_u32 u) = u.
Proof. apply u32_of_algo_of_u32. Qed.
Lemma c02_inj u v : algo_of_u32 u = algo_of_u32 v -> u = v.
Proof. intros H. rewrite <- (c02_roundtrip u), <- (c02_roundtrip v), H. auto. Qed.
Lemma c02_known u : (forall w, algo_of_u32 u <> Unknown w) <-> u = 0x0201 \/ u = 0x0202.
Proof.
  unfold algo_of_u32, SIGNATURE_ECDSA_256, SIGNATURE_ECDSA_512.
  destruct (N.eqb_spec u 0x0201); [ split; [ auto | discriminate ] | ].
  destruct (N.eqb_spec u 0x0202); [ split; [ auto | discriminate ] | ].
  split; [ intros H; destruct (H u); auto | tauto ].
Qed.
Lemma c02_eq u v : u32_eq_algo u (algo_of_u32 v) = true <-> algo_of_u32 u = algo_of_u32 v.
Proof.
  transitivity (u = v).
  - unfold u32_eq_algo, algo_of_u32. destruct (N.eqb_spec v SIGNATURE_ECDSA_256) as [->|];
      [ apply N.eqb_eq | ].
    destruct (N.eqb_spec v SIGNATURE_ECDSA_512) as [->|]; apply N.eqb_eq.
  - split; [ congruence | apply c02_inj ].
Qed.
Lemma c02_derived a b : algo_eqb a b = true <-> a = b.
Proof.
  destruct a, b; cbn; split; intros H; try discriminate; auto.
  - apply N.eqb_eq in H. congruence.
  - injection H as ->. apply N.eqb_refl.
Qed.

(** ** C03 *)

Lemma sized_declares size c : len (sized size c) = size + 4 -> declares 4 size (sized size c).
Proof.
  intros H. unfold sized in *. exists (c ++ padding size c). split; auto.
  rewrite len_app, len_le in H. lia.
Qed.

Lemma c03_sizes :
  (forall x, built_digest x -> declares 4 (dg_size x) (digest_to_u8 x)) /\
  (forall x, built_digests x -> declares 4 (dgs_size x) (digests_to_u8 x)) /\
  (forall x, built_cert x -> declares 4 (ct_size x) (cert_to_u8 x)) /\
  (forall x, built_certs x -> declares 4 (cts_size x) (certs_to_u8 x)) /\
  (forall x, built_sig x -> declares 4 (sg_size x) (sig_to_u8 x)) /\
  (forall x, built_sigs x -> declares 4 (sgs_size x) (sigs_to_u8 x)) /\
  (forall x, built_attr x -> declares 4 (at_size x) (attr_to_u8 x)) /\
  (forall x, built_attrs x -> declares 4 (ats_size x) (attrs_to_u8 x)) /\
  (forall x, built_pub x -> declares 4 (pk_size x) (pub_to_u8 x)) /\
  (forall x, built_sd x -> declares 4 (sd_size x) (sd_to_u8 x)) /\
  (forall x, built_signer x -> declares 4 (sn_size x) (signer_to_u8 x)) /\
  (forall x, built_signers x -> declares 4 (sns_size x) (signers_to_u8 x)) /\
  (forall x, built_std x -> declares 4 (std_size x) (std_to_u8 x)) /\
  (forall x, built_sb x -> declares 4 (sb_size x) (sb_to_u8 x)) /\
  (forall x, built_value x -> declares 8 (value_inner_size x) (value_to_u8 x)).
Proof.
  split; [ intros; apply sized_declares, built_digest_len; auto | ].
  split; [ intros; apply sized_declares, built_digests_len; auto | ].
  split; [ intros; apply sized_declares, built_cert_len; auto | ].
  split; [ intros; apply sized_declares, built_certs_len; auto | ].
  split; [ intros; apply sized_declares, built_sig_len; auto | ].
  split; [ intros; apply sized_declares, built_sigs_len; auto | ].
  split; [ intros; apply sized_declares, built_attr_len; auto | ].
  split; [ intros; apply sized_declares, built_attrs_len; auto | ].
  split; [ intros; apply sized_declares, built_pub_len; auto | ].
  split; [ intros; apply sized_declares, built_sd_len; auto | ].
  split; [ intros; apply sized_declares, built_signer_len; auto | ].
  split; [ intros; apply sized_declares, built_signers_len; auto | ].
  split; [ | split ].
  - intros x Hx. pose proof (built_std_len x Hx) as H. unfold std_to_u8 in *.
    rewrite len_app, len_le in H.
    exists (digests_to_u8 (st_digests x) ++ certs_to_u8 (st_certs x) ++ attrs_to_u8 (st_attrs x)).
    split; [ f_equal; f_equal; lia | lia ].
  - intros x Hx. pose proof (built_sb_len x Hx) as H. unfold sb_to_u8 in *.
    rewrite len_app, len_le in H.
    eexists. split; [ reflexivity | ]. lia.
  - intros x Hx. rewrite (built_value_u8 x Hx), (built_value_inner x Hx). unfold pair.
    eexists. split; [ reflexivity | ]. rewrite len_app, len_le. lia.
Qed.

(** ** C04-C06 *)

Lemma accepts_reads {A} p (R : A -> bytes -> Prop) x u8 :
  recognises p R -> R x u8 -> reads_back p u8 x.
Proof.
  intros [Ha _] HR pre post Hl. destruct (reader_pre _ _ _ Hl) as [H1 H2].
  rewrite (Ha x u8 _ post HR H1 H2). reflexivity.
Qed.

Lemma c04_block s : built_signers s -> v2_size (v2_new s) <= MAX_PAIR_SIZE ->
  reads_back value_parse (v2_to_u8 (v2_new s)) (V2Block (v2_new s)).
Proof.
  intros Hb Hs. apply (accepts_reads value_parse W_value); [ apply value_recognises | ].
  apply (built_value_W (V2Block (v2_new s))); auto. cbn. eauto.
Qed.

Lemma c04_signers s : built_signers s -> sns_size s < U32 ->
  reads_back signers_parse (signers_to_u8 s) s.
Proof.
  intros Hb Hs. apply (accepts_reads signers_parse W_signers); [ apply signers_recognises | ].
  apply built_signers_W; auto.
Qed.

Lemma c05_block b : built_sb b -> ss_size (ss_new b) <= MAX_PAIR_SIZE ->
  reads_back value_parse (ss_to_u8 (ss_new b)) (StampBlk (ss_new b)).
Proof.
  intros Hb Hs. apply (accepts_reads value_parse W_value); [ apply value_recognises | ].
  apply (built_value_W (StampBlk (ss_new b))); auto. cbn. eauto.
Qed.

Lemma c05_stamp b : built_sb b -> sb_size b < U32 -> reads_back sb_parse (sb_to_u8 b) b.
Proof.
  intros Hb Hs. apply (accepts_reads sb_parse W_sb); [ apply sb_recognises | ].
  apply built_sb_W; auto.
Qed.

Lemma c06_block i : built_info i -> ei_size i <= MAX_PAIR_SIZE ->
  reads_back value_parse (info_to_u8 i) (ElfBlock i).
Proof.
  intros Hb Hs. apply (accepts_reads value_parse W_value); [ apply value_recognises | ].
  apply (built_value_W (ElfBlock i)); auto.
Qed.

Lemma c06_info i : built_info i ->
  reads_back (info_parse (ei_size i) (ei_id i)) (dropN 12 (info_to_u8 i)) i.
Proof.
  intros Hb. apply (accepts_reads _ (W_elf (ei_size i) (ei_id i))); [ apply info_recognises | ].
  split; auto. unfold info_to_u8.
  replace (dropN 12 _) with (le 4 (ei_count i) ++ flat_map entry_to_u8 (ei_sections i)).
  - apply built_info_W; auto.
  - rewrite app_assoc. symmetry. apply dropN_app_eq. rewrite len_app, !len_le. auto.
Qed.

Definition one_empty_name (m : res (elf_info * reader)) : bool :=
  match m with
  | Ok (i, _) => match map en_name (ei_sections i) with [[]] => true | _ => false end
  | _ => false
  end.
Lemma one_empty_name_ok m : one_empty_name m = true ->
  exists i r, m = Ok (i, r) /\ map en_name (ei_sections i) = [[]].
Proof.
  destruct m as [[i r]| |]; cbn; try discriminate. intros H. exists i, r. split; auto.
  destruct (map en_name (ei_sections i)) as [|[] []]; try discriminate. auto.
Qed.
Lemma c06_long_name : let i := info_from_tuples [(repeat 97 (N.to_nat 65536), 0, 0)] in
  exists i' r', info_parse (ei_size i) (ei_id i) (new_reader (dropN 12 (info_to_u8 i))) = Ok (i', r') /\
    map en_name (ei_sections i') = [[]].
Proof. apply one_empty_name_ok. vm_compute. reflexivity. Qed.

(** ** C07 *)
Lemma c07_new p l b pre : Forall built_value l -> block_new l = Ok b ->
  len (pre ++ block_to_u8 b) < U64 -> from_u8 p (pre ++ block_to_u8 b) = Ok b.
Proof. intros Hb Hn Hl. apply block_new_spec in Hn as [Hs ->]. apply fresh_roundtrip; auto. Qed.

Lemma c07_padded p q l b pre : Forall built_value l -> block_new_with_padding q l = Ok b ->
  len (pre ++ block_to_u8 b) < U64 -> from_u8 p (pre ++ block_to_u8 b) = Ok b.
Proof.
  intros Hb Hn Hl. apply padding_ok in Hn as (pad&->&HB&_&Hlen&_); auto.
  rewrite fresh_block_len in Hlen by auto.
  apply fresh_roundtrip; auto. unfold MAX_SIGNING_BLOCK_SIZE. lia.
Qed.

(** ** C08 *)
Lemma c08_fields l b : Forall built_value l -> block_new l = Ok b ->
  bk_content b = l /\ bk_start b = 0 /\ bk_end b = len (block_to_u8 b) /\
  bk_size_start b = len (block_to_u8 b) - 8 /\ bk_size_end b = bk_size_start b /\
  bk_content_size b = len (flat_map value_to_u8 l) /\
  block_to_u8 b = le 8 (bk_size_start b) ++ flat_map value_to_u8 l ++ le 8 (bk_size_end b) ++ MAGIC /\
  get_full_size b = len (block_to_u8 b).
Proof.
  intros Hb H. apply block_new_spec in H as [Hs ->].
  rewrite content_len by auto. pose proof (fresh_block_len l Hb) as HL. rewrite HL.
  unfold get_full_size, fresh_block, block_to_u8, content_to_u8, SIZE_UINT64, MAGIC_LEN;
    cbn [bk_start bk_end bk_size_start bk_content_size bk_content bk_size_end bk_magic].
  repeat split; lia.
Qed.

Lemma c08_limit l : Forall built_value l ->
  ((exists b, block_new l = Ok b) <-> len (flat_map value_to_u8 l) + 24 <= 16 * 1024).
Proof. intros H. rewrite block_new_iff, content_len by auto. reflexivity. Qed.

Lemma c08_parser_limit p l : Forall built_value l -> len (flat_map value_to_u8 l) + 32 < U64 ->
  ((exists b, block_new l = Ok b) <->
   (exists b, from_u8 p (le 8 (len (flat_map value_to_u8 l) + 24) ++ flat_map value_to_u8 l ++
                         le 8 (len (flat_map value_to_u8 l) + 24) ++ MAGIC) = Ok b)).
Proof.
  intros H Hl. rewrite content_len in Hl by auto. rewrite (block_new_symmetric p l H Hl).
  rewrite fresh_block_u8 by auto. reflexivity.
Qed.

(** ** C09 *)

Lemma c09_error_iff l : Forall built_value l ->
  let n := len (flat_map value_to_u8 l) + 32 in
  ((exists e, block_new_with_padding Release l = Err e) <->
   (exists v, In v l /\ value_id v = VERITY_PADDING_BLOCK_ID) \/
   0 < pad_bytes n < 12 \/ 16 * 1024 < n + pad_bytes n).
Proof.
  intros Hb n. rewrite padding_cases. subst n. rewrite content_len by auto.
  change (pad_bytes (content_size l + 32)) with (gap (content_size l + 32)).
  set (g := gap _). cbn zeta.
  destruct (existsb _ l) eqn:Ex.
  - split; [ intros _; left | eauto ]. apply existsb_exists in Ex as (v&H1&H2).
    apply N.eqb_eq in H2. eauto.
  - assert (Hno : ~ exists v, In v l /\ value_id v = VERITY_PADDING_BLOCK_ID).
    { intros (v&H1&H2). rewrite <- not_true_iff_false in Ex. apply Ex, existsb_exists.
      exists v. split; auto. apply N.eqb_eq; auto. }
    destruct ((0 <? g) && (g <? 12)) eqn:Eg.
    + split; [ intros _; right; left; lia | eauto ].
    + destruct (16384 <? content_size l + 32 + g) eqn:Es.
      * split; [ intros _; right; right; lia | eauto ].
      * split; [ intros (e&H); discriminate | intros [H|[H|H]]; [ tauto | lia | lia ] ].
Qed.

Lemma c09_shape p l b : Forall built_value l -> block_new_with_padding p l = Ok b ->
  len (block_to_u8 b) mod 4096 = 0 /\ len (block_to_u8 b) <= 16 * 1024 /\
  get_full_size b = len (block_to_u8 b) /\
  (bk_content b = l \/
   exists k, bk_content b = l ++ [BaseBlock (raw_new VERITY_PADDING_BLOCK_ID (zeros k))]) /\
  (exists b', block_new (bk_content b) = Ok b' /\ b = b').
Proof.
  intros Hb H. apply padding_ok in H as (pad&->&HB&Hm&Hl&Hp&_); auto.
  split; [ auto | ]. split; [ auto | ].
  rewrite fresh_block_len in Hl by auto.
  assert (Hn : block_new (l ++ pad) = Ok (fresh_block (l ++ pad))).
  { apply block_new_spec. unfold MAX_SIGNING_BLOCK_SIZE. split; auto. lia. }
  split; [ eapply c08_fields; eauto | ].
  change (bk_content (fresh_block (l ++ pad))) with (l ++ pad).
  split; [ | eauto ].
  destruct Hp as [->|(k&->)]; [ left; apply app_nil_r | right; eauto ].
Qed.

Lemma c09_profiles l b : block_new_with_padding Debug l = Ok b <-> block_new_with_padding Release l = Ok b.
Proof.
  rewrite !padding_cases. destruct (existsb _ l); [ reflexivity | ]. cbn zeta.
  destruct (_ && _); [ split; discriminate | reflexivity ].
Qed.

(** ** C10 *)
Lemma c10_u8 data : len data < U64 ->
  from_u8 Release data <> Panic /\ (forall e, from_u8 Release data = Err e -> is_fuel e = false).
Proof.
  intros H. pose proof (from_u8_fine data H) as F. destruct (from_u8 Release data); cbn in F.
  - split; [ discriminate | intros; discriminate ].
  - split; [ discriminate | intros e' [= <-]; auto ].
  - tauto.
Qed.
Lemma c10_reader file eo : len file < U64 ->
  from_reader Release file (len file) eo <> Panic /\
  (forall e, from_reader Release file (len file) eo = Err e -> is_fuel e = false).
Proof.
  intros H. pose proof (from_reader_fine file eo H) as F. destruct (from_reader _ _ _ _); cbn in F.
  - split; [ discriminate | intros; discriminate ].
  - split; [ discriminate | intros e' [= <-]; auto ].
  - tauto.
Qed.
Lemma c10_debug_u8 data b : len data < U64 -> from_u8 Debug data = Ok b <-> from_u8 Release data = Ok b.
Proof.
  intros H. destruct (from_u8_agree data H) as [->|(->&e&->)]; [ reflexivity | split; discriminate ].
Qed.
Lemma c10_debug_reader file eo b :
  from_reader Debug file (len file) eo = Ok b <-> from_reader Release file (len file) eo = Ok b.
Proof.
  destruct (from_reader_agree file eo) as [->|(->&e&->)]; [ reflexivity | split; discriminate ].
Qed.

(** ** C13 *)
Lemma c13_v2 r1 s1 r1' r2 s2 r2' :
  rwf r1 -> rwf r2 -> sd_parse r1 = Ok (s1, r1') -> sd_parse r2 = Ok (s2, r2') ->
  dropN 4 (sd_to_u8 s1) = dropN 4 (sd_to_u8 s2) ->
  sd_digests s1 = sd_digests s2 /\ sd_certs s1 = sd_certs s2 /\ sd_attrs s1 = sd_attrs s2.
Proof.
  intros W1 W2 H1 H2 He. destruct sd_recognises as [_ Ho].
  apply Ho in H1 as (x1&Hx1&_); auto. apply Ho in H2 as (x2&Hx2&_); auto.
  eapply sd_signed_inj; eauto.
Qed.
Lemma c13_stamp r1 s1 r1' r2 s2 r2' :
  rwf r1 -> rwf r2 -> std_parse r1 = Ok (s1, r1') -> std_parse r2 = Ok (s2, r2') ->
  dropN 4 (std_to_u8 s1) = dropN 4 (std_to_u8 s2) -> s1 = s2.
Proof.
  intros W1 W2 H1 H2 He. destruct std_recognises as [_ Ho].
  apply Ho in H1 as (x1&Hx1&_); auto. apply Ho in H2 as (x2&Hx2&_); auto.
  eapply std_signed_inj; eauto.
Qed.

(** ** C14 *)
Lemma c14_library p l b b' : Forall built_value l -> block_new l = Ok b ->
  from_u8 p (block_to_u8 b) = Ok b' -> block_to_u8 b' = block_to_u8 b.
Proof.
  intros Hb Hn H. apply block_new_spec in Hn as [Hs ->].
  eapply fresh_reproduced; eauto. rewrite fresh_block_len by auto.
  unfold MAX_SIGNING_BLOCK_SIZE, U64 in *. lia.
Qed.
Lemma c14_raw p data b : len data < U64 -> from_u8 p data = Ok b ->
  Forall (fun v => match v with BaseBlock _ => True | _ => False end) (bk_content b) ->
  exists pre post, data = pre ++ block_to_u8 b ++ post.
Proof.
  intros Hl H Hb. apply from_u8_inv in H as (pre&raw&post&->&HW&E&Hlen); auto.
  exists pre, post. f_equal. f_equal. rewrite E. rewrite parsed_reproduced; auto.
  rewrite !len_app in Hl. lia.
Qed.

(** ** Concrete values for the examples *)
From Coq Require Import Strings.String.
Open Scope N_scope.
Definition ex_digests := digests_new [digest_new ECDSA_SHA2_256 (repeat x01 32); digest_new ECDSA_SHA2_512 (repeat x02 64)].
Definition ex_certs := certs_new [cert_new (bstr "leaf certificate"); cert_new (bstr "root")].
Definition ex_attrs := attrs_new [mkAttr 12 STAMP_TIME_ATTR_ID (le 8 1700000000)].
Definition ex_sigs := sigs_new [sig_new ECDSA_SHA2_256 (repeat x07 70); sig_new (Unknown 7) []].
Definition ex_pub := pub_new (repeat x04 65).
Definition ex_sd := sd_new ex_digests ex_certs ex_attrs.
Definition ex_signer := signer_new ex_sd ex_sigs ex_pub.
Definition ex_signers := signers_new [ex_signer; ex_signer].
Definition ex_std := std_new ex_digests ex_certs ex_attrs.
Definition ex_sb := sb_new ex_std ex_sigs ex_pub.
Definition ex_info := info_from_tuples [([46; 233; 8364], 64, 128); ([46; 100], 192, U64 - 1)].
Definition ex_raw := raw_new 0xdeadbeef (bstr "KSU Sig Block 42").
Definition ex_values := [V2Block (v2_new ex_signers); StampBlk (ss_new ex_sb); ElfBlock ex_info; BaseBlock ex_raw].

Lemma ex_digests_built : built_digests ex_digests.
Proof. eexists. split; [ | reflexivity ]. repeat constructor; do 2 eexists; (split; [ | reflexivity ]); exact I. Qed.
Lemma ex_certs_built : built_certs ex_certs.
Proof. eexists. split; [ | reflexivity ]. repeat constructor; eexists; reflexivity. Qed.
Lemma ex_attrs_built : built_attrs ex_attrs.
Proof.
  eexists. split; [ | reflexivity ]. repeat constructor. exists STAMP_TIME_ATTR_ID, (le 8 1700000000).
  split; [ reflexivity | reflexivity ].
Qed.
Lemma ex_sigs_built : built_sigs ex_sigs.
Proof.
  eexists. split; [ | reflexivity ]. repeat constructor; do 2 eexists; (split; [ | reflexivity ]).
  - exact I.
  - repeat split; discriminate.
Qed.
Lemma ex_pub_built : built_pub ex_pub. Proof. eexists; reflexivity. Qed.
Lemma ex_signer_built : built_signer ex_signer.
Proof.
  exists ex_sd, ex_sigs, ex_pub. split; [ | split; [ apply ex_sigs_built | split; [ apply ex_pub_built | reflexivity ] ] ].
  exists ex_digests, ex_certs, ex_attrs.
  split; [ apply ex_digests_built | split; [ apply ex_certs_built | split; [ apply ex_attrs_built | reflexivity ] ] ].
Qed.
Lemma ex_signers_built : built_signers ex_signers.
Proof. eexists. split; [ | reflexivity ]. repeat constructor; apply ex_signer_built. Qed.
Lemma ex_sb_built : built_sb ex_sb.
Proof.
  exists ex_std, ex_sigs, ex_pub. split; [ | split; [ apply ex_sigs_built | split; [ apply ex_pub_built | reflexivity ] ] ].
  exists ex_digests, ex_certs, ex_attrs.
  split; [ apply ex_digests_built | split; [ apply ex_certs_built | split; [ apply ex_attrs_built | reflexivity ] ] ].
Qed.
Lemma ex_info_built : built_info ex_info.
Proof.
  exists [entry_new [46; 233; 8364] 64 128; entry_new [46; 100] 192 (U64 - 1)].
  split; [ | split; [ reflexivity | reflexivity ] ].
  repeat constructor; do 3 eexists; (split; [ | split; [ | split; [ | reflexivity ] ] ]); try reflexivity;
    (split; [ repeat constructor | reflexivity ]).
Qed.
Lemma ex_values_built : Forall built_value ex_values.
Proof.
  repeat constructor; cbn [built_value].
  - exists ex_signers. split; [ apply ex_signers_built | reflexivity ].
  - exists ex_sb. split; [ apply ex_sb_built | reflexivity ].
  - apply ex_info_built.
  - exists 0xdeadbeef, (bstr "KSU Sig Block 42"). repeat split; discriminate.
Qed.
