(** LimitFacts.v - size limits, padding, Debug/Release agreement. *)
From Verif Require Import Base Utils Algorithms Common SchemeV2 SourceStamp Utf8 ElfInfo SigningBlock.
From Verif Require Import BaseFacts ParseFacts Wire CodecFacts BlockFacts Built BuiltFacts SearchFacts Spec.

(** ** Debug / Release agreement *)
Lemma agree_refl {A} (m : res A) : agree m m. Proof. left; auto. Qed.

Lemma agree_map {A B} f (g : A -> B) (m m' : res A) : agree m m' ->
  agree (do x <- map_err f m; Ok (g x)) (do x <- map_err f m'; Ok (g x)).
Proof. intros [->|(->&e&->)]; [ left; auto | right; cbn; eauto ]. Qed.

Lemma block_at_agree file fl e : agree (block_at Debug file fl e) (block_at Release file fl e).
Proof.
  unfold block_at. destruct (_ <? _); [ left; auto | ]. destruct (_ <? _); [ left; auto | ].
  destruct (_ <? _); [ left; auto | ].
  apply (agree_map EParsingFullBlock (fun sig => with_offsets sig _ _)). apply parse_full_agree.
Qed.

Lemma from_reader_agree file eo :
  agree (from_reader Debug file (len file) eo) (from_reader Release file (len file) eo).
Proof.
  destruct (N.ltb_spec (len file - eo) 24) as [H|H].
  - rewrite !from_reader_small by auto. apply agree_refl.
  - destruct (magic_cases file (len file - eo)) as [(e&He)|Hn].
    + rewrite !(from_reader_found _ file eo e) by auto. apply block_at_agree.
    + rewrite !from_reader_none by auto. apply agree_refl.
Qed.

Lemma from_u8_at_agree data s : len data < U64 -> s + 16 <= len data ->
  agree (from_u8_at Debug data s) (from_u8_at Release data s).
Proof.
  intros Hl Hs. unfold from_u8_at, SIZE_UINT64, MAGIC_LEN, usub, uadd.
  destruct (8 <=? s) eqn:E8; cbn [bind].
  2: { right. split; auto.
       destruct (get_range data (s + U64 - 8) s) eqn:G; cbn [of_option bind]; [ | eauto ].
       apply get_range_spec in G. unfold U64 in *. lia. }
  destruct (get_range data (s - 8) s) as [x|]; cbn [of_option bind]; [ | left; auto ].
  set (size := un_le x). clearbody size.
  destruct (MAX_SIGNING_BLOCK_SIZE <? size) eqn:Em; [ left; auto | ].
  destruct (16 <=? size) eqn:E16; cbn [bind].
  - unfold MAX_SIGNING_BLOCK_SIZE in *. replace (size - 16 + 8 <? U64) with true by (unfold U64; lia).
    cbn [bind]. destruct (s <? _); [ left; auto | ].
    destruct (get_range data _ _); cbn [of_option bind]; [ apply parse_full_agree | left; auto ].
  - right. split; auto.
    replace (size + U64 - 16 + 8 <? U64) with (size <? 8) by (unfold U64; lia).
    destruct (size <? 8) eqn:E; cbn [bind].
    + replace (s <? size + U64 - 16 + 8) with true by (unfold U64 in *; lia). eauto.
    + replace ((size + U64 - 16 + 8) mod U64) with (size - 8) by (unfold U64; lia).
      destruct (s <? size - 8); [ eauto | ].
      destruct (get_range data (s - (size - 8)) (s + 16)) as [f|] eqn:G; cbn [of_option bind]; [ | eauto ].
      apply get_range_len in G. unfold parse_full_block, SIZE_UINT64, MAGIC_LEN.
      replace (len f <? 8 + 8 + 16) with true by lia. eauto.
Qed.

Lemma from_u8_agree data : len data < U64 -> agree (from_u8 Debug data) (from_u8 Release data).
Proof.
  intros Hl. unfold from_u8, SIZE_UINT64, MAGIC_LEN.
  destruct (len data <? 8 + 8 + 16) eqn:E; [ left; auto | ].
  destruct (u8_cases data (N.to_nat (len data - 16))) as [(s&H1&H2&H3&H4)|Hn].
  - rewrite !(u8_found _ data _ s); auto; try lia. apply from_u8_at_agree; auto. lia.
  - rewrite !u8_none; auto; try lia. left; auto.
Qed.

(** ** C08 *)
Lemma from_u8_at_layout p pairs :
  MAX_SIGNING_BLOCK_SIZE < len pairs + 24 -> len pairs + 32 < U64 ->
  from_u8 p (block_layout pairs) = Err EBlockTooBig.
Proof.
  intros Hb Hl.
  assert (HL := len_block_layout pairs).
  unfold from_u8, SIZE_UINT64, MAGIC_LEN.
  replace (len (block_layout pairs) <? 8 + 8 + 16) with false by lia.
  rewrite (u8_found p _ _ (len pairs + 16)).
  - unfold from_u8_at, SIZE_UINT64, MAGIC_LEN. rewrite usub_ok by lia. cbn [bind].
    replace (len pairs + 16 - 8) with (len pairs + 8) by lia.
    rewrite (get_range_app (block_layout pairs) (le 8 (len pairs + 24) ++ pairs) (le 8 (len pairs + 24)) MAGIC).
    + cbn [of_option bind]. rewrite un_le8 by lia.
      replace (MAX_SIGNING_BLOCK_SIZE <? len pairs + 24) with true by lia. auto.
    + unfold block_layout. rewrite <- app_assoc. auto.
    + rewrite len_app, len_le. lia.
    + rewrite len_app, !len_le. lia.
  - lia.
  - lia.
  - lia.
  - split; [ lia | ].
    apply (get_range_app _ (le 8 (len pairs + 24) ++ pairs ++ le 8 (len pairs + 24)) MAGIC []).
    + unfold block_layout. rewrite !app_nil_r, <- !app_assoc. auto.
    + rewrite !len_app, !len_le. lia.
    + rewrite !len_app, !len_le, len_MAGIC. lia.
  - intros q H1 H2 [H3 H4]. apply get_range_spec in H4. lia.
Qed.

Lemma block_new_spec l b : block_new l = Ok b <->
  content_size l + 24 <= MAX_SIGNING_BLOCK_SIZE /\ b = fresh_block l.
Proof.
  unfold block_new, SIZE_UINT64, MAGIC_LEN.
  destruct (MAX_SIGNING_BLOCK_SIZE <? content_size l + 8 + 16) eqn:E; split; intros H.
  - discriminate.
  - lia.
  - injection H as <-. split; auto. lia.
  - f_equal. symmetry. apply H.
Qed.

Lemma fresh_roundtrip p pre l : Forall built_value l -> content_size l + 24 <= MAX_SIGNING_BLOCK_SIZE ->
  len (pre ++ block_to_u8 (fresh_block l)) < U64 ->
  from_u8 p (pre ++ block_to_u8 (fresh_block l)) = Ok (fresh_block l).
Proof.
  intros Hb Hs Hl. rewrite (from_u8_ok p pre _ l); auto.
  - f_equal. symmetry. apply fresh_block_parsed; auto.
  - apply fresh_block_W; auto. unfold MAX_PAIR_SIZE, MAX_SIGNING_BLOCK_SIZE in *. lia.
  - rewrite fresh_block_len by auto. lia.
Qed.

Lemma block_new_iff l : Forall built_value l ->
  ((exists b, block_new l = Ok b) <-> content_size l + 24 <= MAX_SIGNING_BLOCK_SIZE).
Proof.
  intros Hb. split.
  - intros (b&H). apply block_new_spec in H. tauto.
  - intros H. exists (fresh_block l). apply block_new_spec. auto.
Qed.

Lemma block_new_symmetric p l : Forall built_value l -> content_size l + 32 < U64 ->
  ((exists b, block_new l = Ok b) <-> (exists b, from_u8 p (block_to_u8 (fresh_block l)) = Ok b)).
Proof.
  intros Hb Hl. rewrite block_new_iff by auto. split.
  - intros H. exists (fresh_block l). apply (fresh_roundtrip p [] l); auto.
    cbn [app]. rewrite fresh_block_len by auto. auto.
  - intros (b&H). rewrite fresh_block_u8 in H by auto.
    destruct (N.le_gt_cases (content_size l + 24) MAX_SIGNING_BLOCK_SIZE); auto.
    rewrite from_u8_at_layout in H; [ discriminate | rewrite content_len; auto | rewrite content_len; auto ].
Qed.

(** ** C09 *)
Definition gap (n : N) : N := (4096 - n mod 4096) mod 4096.

Definition pad_value (g : N) : list value :=
  if g =? 0 then [] else [BaseBlock (raw_new VERITY_PADDING_BLOCK_ID (zeros (g - 12)))].

Lemma content_size_app a b : content_size (a ++ b) = content_size a + content_size b.
Proof. rewrite !content_size_sum. apply sumN_app. Qed.

Lemma pad_value_size g : g = 0 \/ 12 <= g -> content_size (pad_value g) = g.
Proof.
  intros H. unfold pad_value. destruct (N.eqb_spec g 0) as [->|Hn]; auto.
  rewrite content_size_sum. unfold sumN; cbn [fold_right]. unfold value_size, value_inner_size, raw_new.
  cbn [rw_size]. rewrite len_zeros. lia.
Qed.

Lemma padding_cases p l :
  block_new_with_padding p l =
  (if existsb (fun c => value_id c =? VERITY_PADDING_BLOCK_ID) l then Err EPaddingExists
   else let g := gap (content_size l + 32) in
        if (0 <? g) && (g <? 12) then match p with Debug => Panic | Release => Err EPaddingGap end
        else if 16384 <? content_size l + 32 + g then Err EGeneratedTooLarge
        else Ok (fresh_block (l ++ pad_value g))).
Proof.
  unfold block_new_with_padding, SIZE_UINT64, MAGIC_LEN.
  destruct (existsb _ l); auto. cbn zeta.
  replace (8 + content_size l + 8 + 16) with (content_size l + 32) by lia.
  set (n := content_size l + 32). set (v := n mod 4096).
  assert (Hv : v < 4096) by (apply N.mod_lt; lia).
  assert (Hg : gap n = if v =? 0 then 0 else 4096 - v).
  { unfold gap. fold v. destruct (N.eqb_spec v 0) as [->|Hn]; auto. apply N.mod_small. lia. }
  rewrite Hg.
  destruct (N.eqb_spec v 0) as [E|E].
  - cbn [bind andb N.ltb N.compare]. change (pad_value 0) with (@nil value). rewrite app_nil_r, N.add_0_r.
    unfold MAX_SIGNING_BLOCK_SIZE.
    replace (16 * 1024 <? content_size l + 8 + 16) with (16384 <? n).
    2: { unfold v in E. subst n. clear - E. set (k := content_size l) in *.
         destruct (16384 <? k + 32) eqn:E1, (16 * 1024 <? k + 8 + 16) eqn:E2; auto; lia. }
    destruct (16384 <? n); auto.
    replace (8 + (content_size l + 8 + 16)) with n by (subst n; lia). fold v. rewrite E.
    destruct p; reflexivity.
  - replace (0 <? 4096 - v) with true by lia. cbn [andb].
    destruct (N.leb_spec (v + 4 + 8) 4096) as [H|H].
    + replace (4096 - v <? 12) with false by lia. cbn [bind].
      replace (4096 - (v + 4 + 8)) with (4096 - v - 12) by lia.
      change [BaseBlock (raw_new VERITY_PADDING_BLOCK_ID (zeros (4096 - v - 12)))] with
        (match 0 with 0 => [BaseBlock (raw_new VERITY_PADDING_BLOCK_ID (zeros (4096 - v - 12)))] | _ => [] end).
      replace (match 0 with 0 => [BaseBlock (raw_new VERITY_PADDING_BLOCK_ID (zeros (4096 - v - 12)))] | _ => [] end)
        with (pad_value (4096 - v)) by (unfold pad_value; replace (4096 - v =? 0) with false by lia; auto).
      rewrite content_size_app, pad_value_size by lia.
      unfold MAX_SIGNING_BLOCK_SIZE.
      assert (Hd : n = 4096 * (n / 4096) + v) by (apply N.div_mod; lia).
      replace (16 * 1024 <? content_size l + (4096 - v) + 8 + 16) with (16384 <? n + (4096 - v)).
      2: { subst n. set (k := content_size l) in *. set (q := (k + 32) / 4096) in *. clearbody q v. clear Hg.
           destruct (16384 <? k + 32 + (4096 - v)) eqn:E1, (16 * 1024 <? k + (4096 - v) + 8 + 16) eqn:E2; auto; lia. }
      destruct (16384 <? n + (4096 - v)); auto.
      replace ((8 + (content_size l + (4096 - v) + 8 + 16)) mod 4096) with 0.
      * destruct p; reflexivity.
      * replace (8 + (content_size l + (4096 - v) + 8 + 16)) with (n + (4096 - v)) by (subst n; lia).
        rewrite Hd. replace (4096 * (n / 4096) + v + (4096 - v)) with ((n / 4096 + 1) * 4096) by lia.
        rewrite N.mod_mul; lia.
    + replace (4096 - v <? 12) with true by lia.
      unfold usub. replace (v <=? 4096) with true by lia. cbn [bind].
      destruct (4 <=? 4096 - v) eqn:E4; cbn [bind].
      * replace (8 <=? 4096 - v - 4) with false by lia. destruct p; reflexivity.
      * destruct p; auto. cbn [bind].
        replace (8 <=? 4096 - v + U64 - 4) with true by (unfold U64; lia). auto.
Qed.

Lemma gap_spec n : gap n < 4096 /\ (n + gap n) mod 4096 = 0.
Proof.
  unfold gap. split; [ apply N.mod_lt; lia | ].
  destruct (N.eqb_spec (n mod 4096) 0) as [E|E].
  - rewrite E. change ((4096 - 0) mod 4096) with 0. rewrite N.add_0_r. auto.
  - assert (n mod 4096 < 4096) by (apply N.mod_lt; lia).
    rewrite (N.mod_small (4096 - _)) by lia.
    rewrite (N.div_mod n 4096) at 1 by lia.
    replace (4096 * (n / 4096) + n mod 4096 + (4096 - n mod 4096)) with ((n / 4096 + 1) * 4096) by lia.
    apply N.mod_mul; lia.
Qed.

Lemma pad_value_built g : Forall built_value (pad_value g).
Proof.
  unfold pad_value. destruct (_ =? _); [ auto | ]. constructor; auto.
  exists VERITY_PADDING_BLOCK_ID, (zeros (g - 12)). repeat split; discriminate.
Qed.

Lemma padding_ok p l b : Forall built_value l -> block_new_with_padding p l = Ok b ->
  exists pad, b = fresh_block (l ++ pad) /\ Forall built_value (l ++ pad) /\
    len (block_to_u8 b) mod 4096 = 0 /\ len (block_to_u8 b) <= 16384 /\
    (pad = [] \/ exists k, pad = [BaseBlock (raw_new VERITY_PADDING_BLOCK_ID (zeros k))]) /\
    Forall (fun v => value_id v <> VERITY_PADDING_BLOCK_ID) l.
Proof.
  intros Hb. rewrite padding_cases.
  destruct (existsb _ l) eqn:Ex; [ discriminate | ]. cbn zeta.
  set (g := gap (content_size l + 32)).
  destruct ((0 <? g) && (g <? 12)) eqn:Eg; [ destruct p; discriminate | ].
  destruct (16384 <? _) eqn:Es; [ discriminate | ]. intros [= <-].
  exists (pad_value g).
  assert (HB : Forall built_value (l ++ pad_value g)).
  { apply Forall_app. split; auto. apply pad_value_built. }
  assert (Hlen : len (block_to_u8 (fresh_block (l ++ pad_value g))) = content_size l + 32 + g).
  { rewrite fresh_block_len by auto. rewrite content_size_app, pad_value_size by lia. lia. }
  split; [ auto | ]. split; [ auto | ]. rewrite Hlen.
  split; [ apply gap_spec | ]. split; [ lia | ]. split.
  - unfold pad_value. destruct (g =? 0); eauto.
  - apply Forall_forall. intros v Hv Hid. rewrite <- not_true_iff_false in Ex. apply Ex.
    apply existsb_exists. exists v. split; auto. apply N.eqb_eq; auto.
Qed.

(** ** C11 *)
Lemma W_value_len v raw : W_value v raw -> len raw = value_size v.
Proof. intros (body&->&H&_). rewrite len_pair. unfold value_size. lia. Qed.

Lemma W_values_len l raw : W_values l raw -> len raw = content_size l.
Proof.
  intros (raws&H&->). rewrite len_concat, content_size_sum. unfold sumN.
  induction H as [|v r l raws Hv H IH]; auto. cbn [fold_right]. rewrite IH, (W_value_len _ _ Hv). auto.
Qed.

Lemma W_values_limit l raw : W_values l raw -> Forall (fun v => 4 <= value_inner_size v <= MAX_PAIR_SIZE) l.
Proof.
  intros (raws&H&->). induction H as [|v r l raws Hv H IH]; auto.
  constructor; auto. destruct Hv as (body&_&->&?&_). lia.
Qed.


Lemma content_size_fold l : content_size l = fold_right (fun v acc => 8 + value_inner_size v + acc) 0 l.
Proof.
  rewrite content_size_sum. unfold sumN. induction l as [|v l IH]; auto. cbn [fold_right].
  rewrite IH. unfold value_size. lia.
Qed.

Lemma W_block_len l raw : W_block l raw -> len raw = content_size l + 32.
Proof. intros (pairs&H&->). rewrite len_block_layout, (W_values_len _ _ H). auto. Qed.

Lemma parsed_accounted raw l s e : W_block l raw -> len raw <= MAX_SIGNING_BLOCK_SIZE + 8 ->
  e = s + len raw -> accounted (with_offsets (parsed_block raw l) s e).
Proof.
  intros H Hl ->. pose proof (W_block_len _ _ H) as Hlen. destruct H as (pairs&Hp&_).
  unfold accounted, with_offsets, parsed_block;
    cbn [bk_start bk_end bk_size_start bk_content_size bk_content bk_size_end bk_magic].
  rewrite <- content_size_fold.
  pose proof (W_values_limit _ _ Hp).
  repeat split; auto; lia.
Qed.

Lemma from_reader_accounted p file eo b :
  len file < U64 -> from_reader p file (len file) eo = Ok b ->
  accounted b /\ bk_end b <= len file - eo.
Proof.
  intros Hf H. destruct (N.ltb_spec (len file - eo) 24) as [Hs|Hs].
  { rewrite from_reader_small in H by auto. discriminate. }
  destruct (magic_cases file (len file - eo)) as [(e&He)|Hn].
  - rewrite (from_reader_found _ file eo e) in H by auto. destruct He as (H1&H2&H3&H4).
    apply block_at_ok in H as (raw&G&HW&Hend&Hb&Hlen); auto; [ | lia ].
    split; [ | lia ]. rewrite Hb. apply parsed_accounted; auto.
    pose proof (get_range_len _ _ _ _ G). apply get_range_spec in G. lia.
  - rewrite from_reader_none in H by auto. discriminate.
Qed.

Lemma from_u8_accounted p data b :
  len data < U64 -> from_u8 p data = Ok b -> accounted b.
Proof.
  intros Hf H. apply from_u8_inv in H as (pre&raw&post&->&HW&->&Hlen); auto.
  set (l := bk_content b) in *. clearbody l.
  exact (parsed_accounted raw l 0 (len raw) HW Hlen eq_refl).
Qed.

(** ** C12 *)
Lemma info_reserved_le size id r i r' : rwf r -> info_parse size id r = Ok (i, r') ->
  18 * ei_count i <= rlen r - rpos r.
Proof.
  intros Hw H. destruct (info_recognises size id) as [_ Ho].
  apply Ho in H as (raw&((raws&Hr&Hraw&Hc&_)&_)&->&Hrem&_); auto.
  apply (f_equal len) in Hrem. rewrite len_rem, len_app, Hraw, len_app, len_le, len_concat in Hrem.
  rewrite Hc.
  assert (18 * len (ei_sections i) <= sumN len raws); [ | lia ].
  unfold sumN. clear - Hr. induction Hr as [|e x l raws He Hr IH]; cbn [fold_right]; [ cbn; lia | ].
  rewrite len_cons. destruct He as (->&_&_). rewrite !len_app, !len_le. lia.
Qed.

(** ** C14: what is reproduced *)
Lemma fresh_reproduced p l b : Forall built_value l ->
  len (block_to_u8 (fresh_block l)) < U64 ->
  from_u8 p (block_to_u8 (fresh_block l)) = Ok b -> block_to_u8 b = block_to_u8 (fresh_block l).
Proof.
  intros Hb Hl H.
  assert (E : exists b, from_u8 p (block_to_u8 (fresh_block l)) = Ok b) by eauto.
  rewrite fresh_block_len in Hl by auto.
  apply block_new_symmetric in E; auto. apply block_new_iff in E; auto.
  pose proof (fresh_roundtrip p [] l Hb E) as R. cbn [app] in R. rewrite R in H.
  - injection H as <-. auto.
  - rewrite fresh_block_len; auto.
Qed.

Definition is_base (v : value) : Prop := match v with BaseBlock _ => True | _ => False end.

Lemma base_reproduced v raw : is_base v -> W_value v raw -> value_to_u8 v = raw.
Proof.
  destruct v; cbn; try tauto. intros _ (body&->&Hi&_&Hr&_). cbn in *.
  unfold raw_to_u8, pair. rewrite Hi, Hr. auto.
Qed.

Lemma parsed_reproduced raw l : W_block l raw -> Forall is_base l ->
  len raw < U64 -> block_to_u8 (parsed_block raw l) = raw.
Proof.
  intros HW Hb Hl. pose proof (W_block_len _ _ HW) as HL. destruct HW as (pairs&(raws&Hr&->)&->).
  unfold block_to_u8, content_to_u8, parsed_block; cbn [bk_size_start bk_content bk_size_end bk_magic].
  rewrite len_block_layout. unfold block_layout.
  replace (len (concat raws) + 32 - 8) with (len (concat raws) + 24) by lia.
  f_equal. f_equal.
  clear - Hr Hb. induction Hr as [|v x l raws Hv H IH]; auto. cbn [flat_map concat].
  inversion Hb; subst. rewrite (base_reproduced v x), IH; auto.
Qed.
