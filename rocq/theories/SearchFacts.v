(** SearchFacts.v - what [from_reader] and [from_u8] find *)
From Verif Require Import Base BaseFacts Utils ParseFacts Algorithms Common SchemeV2 SourceStamp
  Utf8 ElfInfo SigningBlock Wire Built CodecFacts BlockFacts BuiltFacts.

(** The magic occupies the 16 bytes of [file] that end at offset [e]. *)
Definition magic_ends (file : bytes) (e : N) : Prop :=
  16 <= e /\ get_range file (e - 16) e = Some MAGIC.

Lemma get_range_window {A} (l : list A) ws wl a b :
  ws + wl <= len l -> b <= wl ->
  get_range (takeN wl (dropN ws l)) a b = get_range l (ws + a) (ws + b).
Proof.
  intros H1 H2. unfold get_range. rewrite len_takeN, len_dropN.
  replace ((ws + a <=? ws + b) && (ws + b <=? len l)) with ((a <=? b) && (b <=? N.min wl (len l - ws))) by lia.
  destruct ((a <=? b) && _) eqn:E; auto. f_equal.
  replace (ws + b - (ws + a)) with (b - a) by lia.
  replace wl with (a + (wl - a)) by lia.
  rewrite <- takeN_dropN_comm, takeN_takeN. rewrite dropN_dropN. f_equal. lia.
Qed.

(** The block that ends at offset [e] of the file, read through its last size field. *)
Definition block_at (p : profile) (file : bytes) (file_len e : N) : res signing_block :=
  let bs := un_le (takeN 8 (dropN (e - 24) file)) in
  if MAX_SIGNING_BLOCK_SIZE <? bs then Err EBlockTooBig
  else if file_len <? bs then Err EBlockExceedsFile
  else if e <? bs + 8 then Err EBlockLargerThanData
  else
    do sig <- map_err EParsingFullBlock (parse_full_block p (takeN (bs + 8) (dropN (e - (bs + 8)) file)));
    Ok (with_offsets sig (e - (bs + 8)) e).

(** Both branches of [from_reader_at] (window or file) read the same bytes. *)
Lemma from_reader_at_eq p file fl ws wl pos :
  ws + wl <= len file -> 8 <= pos -> pos + 16 <= wl ->
  from_reader_at p file fl ws (takeN wl (dropN ws file)) pos = Some (block_at p file fl (ws + pos + 16)).
Proof.
  intros H1 H2 H3. unfold from_reader_at, block_at, SIZE_UINT64, MAGIC_LEN.
  replace (pos <? 8) with false by lia. f_equal. cbv zeta.
  assert (E : takeN 8 (dropN (pos - 8) (takeN wl (dropN ws file))) = takeN 8 (dropN (ws + pos + 16 - 24) file)).
  { replace wl with (pos - 8 + (wl - (pos - 8))) by lia.
    rewrite <- takeN_dropN_comm, takeN_takeN, dropN_dropN. f_equal; [ lia | f_equal; lia ]. }
  rewrite E. set (bs := un_le _).
  destruct (MAX_SIGNING_BLOCK_SIZE <? bs) eqn:E1; auto. destruct (fl <? bs) eqn:E2; auto.
  destruct (pos + 16 <? bs + 8) eqn:E3.
  - replace (ws + (pos + 16)) with (ws + pos + 16) by lia.
    destruct (ws + pos + 16 <? bs + 8) eqn:E4; auto.
    unfold read_exact_at. rewrite get_range_Some by lia. cbn [bind].
    replace (ws + pos + 16 - (bs + 8) + (bs + 8) - (ws + pos + 16 - (bs + 8))) with (bs + 8) by lia.
    auto.
  - replace (ws + pos + 16 <? bs + 8) with false by lia.
    rewrite get_range_window by lia. rewrite get_range_Some by lia. cbn [of_option bind].
    replace (ws + (pos + 16) - (ws + (pos + 16 - (bs + 8)))) with (bs + 8) by lia.
    replace (ws + (pos + 16 - (bs + 8))) with (ws + pos + 16 - (bs + 8)) by lia.
    replace (ws + (pos + 16)) with (ws + pos + 16) by lia. auto.
Qed.

(** The search in the window from position [k-1] down. *)
Lemma search_found p file fl ws wl k pos :
  ws + wl <= len file -> (k <= N.to_nat wl - 15)%nat ->
  8 <= pos -> (N.to_nat pos < k)%nat -> magic_ends file (ws + pos + 16) ->
  (forall q, pos < q -> (N.to_nat q < k)%nat -> ~ magic_ends file (ws + q + 16)) ->
  from_reader_search p file fl ws (takeN wl (dropN ws file)) k = block_at p file fl (ws + pos + 16).
Proof.
  intros H1 Hk H8 Hp Hm. induction k as [|k IH]; [ lia | ]. intros Hno.
  cbn [from_reader_search]. unfold MAGIC_LEN. rewrite get_range_window by lia.
  destruct (N.eq_dec (N.of_nat k) pos) as [E|E].
  - rewrite E. destruct Hm as [_ Hm]. replace (ws + pos + 16 - 16) with (ws + pos) in Hm by lia.
    replace (ws + (pos + 16)) with (ws + pos + 16) by lia. rewrite Hm, beq_refl.
    rewrite from_reader_at_eq by lia. auto.
  - assert (IH' : from_reader_search p file fl ws (takeN wl (dropN ws file)) k = block_at p file fl (ws + pos + 16)).
    { apply IH; try lia. intros q Hq1 Hq2. apply Hno; lia. }
    destruct (get_range file (ws + N.of_nat k) (ws + (N.of_nat k + 16))) as [m|] eqn:Eg; [ | exact IH' ].
    destruct (beq m MAGIC) eqn:Eb; [ | exact IH' ].
    apply beq_eq in Eb. subst m. exfalso. apply (Hno (N.of_nat k)); try lia.
    split; [ lia | ]. replace (ws + N.of_nat k + 16 - 16) with (ws + N.of_nat k) by lia.
    replace (ws + N.of_nat k + 16) with (ws + (N.of_nat k + 16)) by lia. auto.
Qed.
Lemma search_none p file fl ws wl k :
  ws + wl <= len file -> (k <= N.to_nat wl - 15)%nat ->
  (forall q, 8 <= q -> (N.to_nat q < k)%nat -> ~ magic_ends file (ws + q + 16)) ->
  from_reader_search p file fl ws (takeN wl (dropN ws file)) k = Err EReaderMagicNotFound.
Proof.
  intros H1 Hk. induction k as [|k IH]; intros Hno; [ reflexivity | ].
  cbn [from_reader_search]. unfold MAGIC_LEN. rewrite get_range_window by lia.
  assert (IH' : from_reader_search p file fl ws (takeN wl (dropN ws file)) k = Err EReaderMagicNotFound).
  { apply IH; try lia. intros q Hq1 Hq2. apply Hno; lia. }
  destruct (get_range file (ws + N.of_nat k) (ws + (N.of_nat k + 16))) as [m|] eqn:Eg; [ | exact IH' ].
  destruct (beq m MAGIC) eqn:Eb; [ | exact IH' ].
  apply beq_eq in Eb. subst m.
  destruct (N.le_gt_cases 8 (N.of_nat k)) as [H8|H8].
  - exfalso. apply (Hno (N.of_nat k)); try lia.
    split; [ lia | ]. replace (ws + N.of_nat k + 16 - 16) with (ws + N.of_nat k) by lia.
    replace (ws + N.of_nat k + 16) with (ws + (N.of_nat k + 16)) by lia. auto.
  - unfold from_reader_at, SIZE_UINT64. replace (N.of_nat k <? 8) with true by lia. auto.
Qed.

(** Where the search window starts, for a search that ends at [lim]. *)
Definition window_start (lim : N) : N := lim - N.min lim MAX_WINDOW_SIZE.

(** [e] is the end of the last magic the search can use: inside
    [window_start lim + 24, lim]. *)
Definition last_magic (file : bytes) (lim e : N) : Prop :=
  window_start lim + 24 <= e /\ e <= lim /\ magic_ends file e /\
  forall e', e < e' -> e' <= lim -> ~ magic_ends file e'.
Definition no_magic (file : bytes) (lim : N) : Prop :=
  forall e, window_start lim + 24 <= e -> e <= lim -> ~ magic_ends file e.

Lemma magic_ends_dec file e : magic_ends file e \/ ~ magic_ends file e.
Proof.
  unfold magic_ends. destruct (N.le_gt_cases 16 e); [ | right; lia ].
  destruct (get_range file (e - 16) e) as [m|] eqn:E; [ | right; intros [_ H2]; discriminate ].
  destruct (beq m MAGIC) eqn:B.
  - apply beq_eq in B. subst. left. auto.
  - apply beq_neq in B. right. intros [_ H2]. congruence.
Qed.
Lemma magic_cases_aux file lo lim k : N.of_nat k <= lim ->
  (forall e', lim - N.of_nat k < e' -> e' <= lim -> ~ magic_ends file e') \/
  (exists e, lo <= e /\ e <= lim /\ magic_ends file e /\ forall e', e < e' -> e' <= lim -> ~ magic_ends file e') \/
  (exists e, e < lo /\ e <= lim /\ magic_ends file e /\ forall e', e < e' -> e' <= lim -> ~ magic_ends file e').
Proof.
  induction k as [|k IH]; intros Hk.
  - left. intros. lia.
  - destruct IH as [IH|IH]; [ lia | | auto ].
    destruct (magic_ends_dec file (lim - N.of_nat k)) as [Hm|Hm].
    + right. destruct (N.le_gt_cases lo (lim - N.of_nat k)) as [H|H]; [ left | right ];
        exists (lim - N.of_nat k); split; auto; split; auto; try lia.
    + left. intros e' H1 H2. destruct (N.eq_dec e' (lim - N.of_nat k)) as [->|]; auto. apply IH; lia.
Qed.
Lemma magic_cases file lim : (exists e, last_magic file lim e) \/ no_magic file lim.
Proof.
  destruct (magic_cases_aux file (window_start lim + 24) lim (N.to_nat lim)) as [H|[H|H]]; [ lia | | | ].
  - right. intros e H1 H2. apply H; lia.
  - left. destruct H as (e&?&?&?&?). exists e. split; auto.
  - right. destruct H as (e&H1&H2&H3&H4). intros e' H5 H6. apply H4; lia.
Qed.

Lemma from_reader_small p file eo :
  len file - eo < 24 -> from_reader p file (len file) eo = Err EFileTooSmall.
Proof.
  intros H. unfold from_reader. unfold MAGIC_LEN, SIZE_UINT64, MAX_WINDOW_SIZE.
  replace (N.min (len file - eo) (16 * 1024 * 1024) <? 16 + 8) with true by lia. auto.
Qed.

Lemma from_reader_body p file eo lim : lim = len file - eo -> 24 <= lim ->
  from_reader p file (len file) eo =
  from_reader_search p file (len file) (window_start lim)
    (takeN (N.min lim MAX_WINDOW_SIZE) (dropN (window_start lim) file))
    (S (N.to_nat (N.min lim MAX_WINDOW_SIZE - 16))).
Proof.
  intros El H. unfold from_reader. rewrite <- El. unfold MAGIC_LEN, SIZE_UINT64.
  assert (Hl : lim <= len file) by lia. clear El.
  replace (N.min lim MAX_WINDOW_SIZE <? 16 + 8) with false by (unfold MAX_WINDOW_SIZE; lia).
  unfold read_exact_at, window_start.
  rewrite get_range_Some by lia. cbn [bind].
  replace (lim - N.min lim MAX_WINDOW_SIZE + N.min lim MAX_WINDOW_SIZE - (lim - N.min lim MAX_WINDOW_SIZE))
    with (N.min lim MAX_WINDOW_SIZE) by lia. auto.
Qed.

Lemma from_reader_found p file eo e : 24 <= len file - eo -> last_magic file (len file - eo) e ->
  from_reader p file (len file) eo = block_at p file (len file) e.
Proof.
  intros H (H1&H2&H3&H4). rewrite (from_reader_body p file eo _ eq_refl) by auto.
  assert (Hl : len file - eo <= len file) by lia. set (lim := len file - eo) in *. clearbody lim.
  assert (Hm : 24 <= MAX_WINDOW_SIZE) by (unfold MAX_WINDOW_SIZE; lia).
  unfold window_start in *. set (wl := N.min lim MAX_WINDOW_SIZE) in *.
  rewrite (search_found p file (len file) (lim - wl) wl _ (e - 16 - (lim - wl))); try lia.
  - f_equal. lia.
  - replace (lim - wl + (e - 16 - (lim - wl)) + 16) with e by lia. auto.
  - intros q Hq1 Hq2. apply H4; lia.
Qed.
Lemma from_reader_none p file eo : 24 <= len file - eo -> no_magic file (len file - eo) ->
  from_reader p file (len file) eo = Err EReaderMagicNotFound.
Proof.
  intros H H1. rewrite (from_reader_body p file eo _ eq_refl) by auto.
  assert (Hl : len file - eo <= len file) by lia. set (lim := len file - eo) in *. clearbody lim.
  assert (Hm : 24 <= MAX_WINDOW_SIZE) by (unfold MAX_WINDOW_SIZE; lia).
  unfold no_magic, window_start in *. set (wl := N.min lim MAX_WINDOW_SIZE) in *.
  apply search_none; try lia.
  intros q Hq1 Hq2. apply H1; lia.
Qed.

Lemma block_at_ok p file fl e b :
  len file < U64 -> e <= len file -> block_at p file fl e = Ok b ->
  exists raw, get_range file (bk_start b) (bk_end b) = Some raw /\
    W_block (bk_content b) raw /\ bk_end b = e /\
    b = with_offsets (parsed_block raw (bk_content b)) (bk_start b) (bk_end b) /\
    len raw <= MAX_SIGNING_BLOCK_SIZE + 8.
Proof.
  intros Hf He H. unfold block_at in H. set (bs := un_le _) in *.
  destruct (MAX_SIGNING_BLOCK_SIZE <? bs) eqn:E1; [ discriminate | ].
  destruct (fl <? bs) eqn:E2; [ discriminate | ]. destruct (e <? bs + 8) eqn:E3; [ discriminate | ].
  apply bind_Ok in H as (b0&H0&H). apply map_err_Ok in H0. injection H as <-.
  apply parse_full_inv in H0; [ | rewrite len_takeN, len_dropN; lia ].
  cbn [with_offsets bk_start bk_end bk_content]. destruct H0 as [HW ->]. cbn [bk_content parsed_block].
  eexists. rewrite get_range_Some by lia. split; [ reflexivity | ].
  replace (e - (e - (bs + 8))) with (bs + 8) by lia. split; [ exact HW | ].
  split; [ auto | ]. split; [ | rewrite len_takeN, len_dropN; lia ].
  reflexivity.
Qed.

Lemma block_at_parses p file fl s e raw l :
  len file < U64 -> get_range file s e = Some raw -> W_block l raw ->
  len raw <= MAX_SIGNING_BLOCK_SIZE + 8 -> len raw <= fl + 8 ->
  block_at p file fl e = Ok (with_offsets (parsed_block raw l) s e).
Proof.
  intros Hf Hg HW Hs Hfl. pose proof (get_range_len _ _ _ _ Hg) as Hlen.
  destruct HW as (pairs&HV&->). rewrite len_block_layout in *.
  apply get_range_spec in Hg as (G1&G2&G3).
  assert (E : takeN 8 (dropN (e - 24) file) = le 8 (len pairs + 24)).
  { replace (e - 24) with (s + (len pairs + 8)) by lia. rewrite <- dropN_dropN.
    assert (Ed : dropN s file = block_layout pairs ++ dropN e file).
    { rewrite <- (take_drop (e - s) (dropN s file)) at 1. rewrite <- G3, dropN_dropN. do 2 f_equal. lia. }
    rewrite Ed. unfold block_layout. rewrite <- !app_assoc.
    rewrite dropN_app_r by (rewrite len_le; lia). rewrite len_le.
    rewrite dropN_app_eq by lia. apply takeN_app_eq. rewrite len_le. auto. }
  unfold block_at. rewrite E. rewrite un_le8 by (unfold MAX_SIGNING_BLOCK_SIZE, U64 in *; lia).
  replace (MAX_SIGNING_BLOCK_SIZE <? len pairs + 24) with false by lia.
  replace (fl <? len pairs + 24) with false by lia.
  replace (e <? len pairs + 24 + 8) with false by lia.
  replace (e - (len pairs + 24 + 8)) with s by lia.
  replace (len pairs + 24 + 8) with (e - s) by lia. rewrite <- G3.
  rewrite (parse_full_ok p _ l).
  - reflexivity.
  - rewrite len_block_layout. unfold MAX_SIGNING_BLOCK_SIZE, U64 in *; lia.
  - exists pairs. auto.
Qed.

Lemma block_at_fine file fl e : len file < U64 -> fine (block_at Release file fl e).
Proof.
  intros Hf. unfold block_at. destruct (_ <? _); [ reflexivity | ]. destruct (_ <? _); [ reflexivity | ].
  destruct (_ <? _); [ reflexivity | ]. apply fine_bind; [ | intros; exact I ].
  apply fine_map_err; auto. apply parse_full_fine. rewrite len_takeN, len_dropN. lia.
Qed.
Lemma from_reader_fine file eo : len file < U64 -> fine (from_reader Release file (len file) eo).
Proof.
  intros Hf. destruct (N.lt_ge_cases (len file - eo) 24) as [H|H].
  - rewrite from_reader_small; auto. reflexivity.
  - destruct (magic_cases file (len file - eo)) as [[e He]|Hn].
    + rewrite (from_reader_found _ _ _ e) by auto. apply block_at_fine. auto.
    + rewrite from_reader_none by auto. reflexivity.
Qed.

(** A W_block ends with the magic. *)
Lemma W_block_magic l raw : W_block l raw -> exists pre, raw = pre ++ MAGIC /\ 16 <= len pre.
Proof.
  intros (pairs&_&->). unfold block_layout. exists (le 8 (len pairs + 24) ++ pairs ++ le 8 (len pairs + 24)).
  rewrite <- !app_assoc. split; auto. rewrite !len_app, !len_le. lia.
Qed.

(** ** [from_u8] *)
Lemma get_range_ends data e : 16 <= e -> get_range data (e - 16) e = Some MAGIC -> magic_ends data e.
Proof. split; auto. Qed.

Lemma u8_found p data k s :
  (k <= N.to_nat (len data) - 16)%nat -> 1 <= s -> (N.to_nat s <= k)%nat -> magic_ends data (s + 16) ->
  (forall q, s < q -> (N.to_nat q <= k)%nat -> ~ magic_ends data (q + 16)) ->
  from_u8_search p data k = from_u8_at p data s.
Proof.
  intros Hk H1 Hs Hm. induction k as [|k IH]; [ lia | ]. intros Hno.
  cbn [from_u8_search]. unfold MAGIC_LEN.
  destruct (N.eq_dec (N.of_nat (S k)) s) as [E|E].
  - rewrite E. destruct Hm as [_ Hm]. replace (s + 16 - 16) with s in Hm by lia.
    rewrite Hm, beq_refl. auto.
  - assert (IH' : from_u8_search p data k = from_u8_at p data s).
    { apply IH; try lia. intros q Hq1 Hq2. apply Hno; lia. }
    rewrite get_range_Some by lia.
    destruct (beq _ MAGIC) eqn:Eb; [ | exact IH' ].
    apply beq_eq in Eb. exfalso. apply (Hno (N.of_nat (S k))); try lia.
    split; [ lia | ]. rewrite get_range_Some by lia. rewrite <- Eb. do 2 f_equal; try lia. f_equal. lia.
Qed.
Lemma u8_none p data k :
  (k <= N.to_nat (len data) - 16)%nat ->
  (forall q, 1 <= q -> (N.to_nat q <= k)%nat -> ~ magic_ends data (q + 16)) ->
  from_u8_search p data k = Err EU8MagicNotFound.
Proof.
  intros Hk. induction k as [|k IH]; intros Hno; [ reflexivity | ].
  cbn [from_u8_search]. unfold MAGIC_LEN.
  rewrite get_range_Some by lia.
  destruct (beq _ MAGIC) eqn:Eb.
  - apply beq_eq in Eb. exfalso. apply (Hno (N.of_nat (S k))); try lia.
    split; [ lia | ]. rewrite get_range_Some by lia. rewrite <- Eb. do 2 f_equal; try lia. f_equal. lia.
  - apply IH; try lia. intros q Hq1 Hq2. apply Hno; lia.
Qed.

(** Block bytes at the end of [data]: found and parsed. *)
Lemma from_u8_ok p pre raw l :
  len (pre ++ raw) < U64 -> W_block l raw -> len raw <= MAX_SIGNING_BLOCK_SIZE + 8 ->
  from_u8 p (pre ++ raw) = Ok (parsed_block raw l).
Proof.
  intros Hf HW Hs. rewrite len_app in Hf.
  assert (Hl : 32 <= len raw) by (destruct HW as (pairs&_&->); rewrite len_block_layout; lia).
  destruct HW as (pairs&HV&Er). pose proof Er as Er'. rewrite Er in Hl, Hs. rewrite len_block_layout in Hl, Hs.
  assert (Elr : len raw = len pairs + 32) by (rewrite Er; apply len_block_layout).
  unfold from_u8, SIZE_UINT64, MAGIC_LEN. rewrite len_app.
  replace (len pre + len raw <? 8 + 8 + 16) with false by lia.
  assert (Hm : magic_ends (pre ++ raw) (len pre + len raw - 16 + 16)).
  { split; [ lia | ]. rewrite Er. unfold block_layout.
    apply (get_range_app _ (pre ++ le 8 (len pairs + 24) ++ pairs ++ le 8 (len pairs + 24)) MAGIC []).
    - rewrite app_nil_r, <- !app_assoc. auto.
    - rewrite !len_app, !len_le, len_MAGIC. lia.
    - rewrite !len_app, !len_le, len_MAGIC. lia. }
  rewrite (u8_found p _ _ (len pre + len raw - 16)); rewrite ?len_app; try lia; auto.
  unfold from_u8_at, MAGIC_LEN, SIZE_UINT64. rewrite usub_ok by lia. cbn [bind].
  assert (E8 : get_range (pre ++ raw) (len pre + len raw - 16 - 8) (len pre + len raw - 16) = Some (le 8 (len pairs + 24))).
  { rewrite Er. unfold block_layout. 
    apply (get_range_app _ (pre ++ le 8 (len pairs + 24) ++ pairs) _ MAGIC).
    - rewrite <- !app_assoc. auto.
    - rewrite !len_app, !len_le, len_MAGIC. lia.
    - rewrite !len_app, !len_le, len_MAGIC. lia. }
  rewrite E8. cbn [of_option bind]. rewrite un_le8 by lia.
  replace (MAX_SIGNING_BLOCK_SIZE <? len pairs + 24) with false by lia.
  rewrite usub_ok by lia. cbn [bind]. rewrite uadd_ok by lia. cbn [bind].
  replace (len pre + len raw - 16 <? len pairs + 24 - 16 + 8) with false by lia.
  replace (len pre + len raw - 16 - (len pairs + 24 - 16 + 8)) with (len pre) by lia.
  replace (len pre + len raw - 16 + 16) with (len pre + len raw) by lia.
  rewrite (get_range_app _ pre raw []); rewrite ?app_nil_r; auto.
  cbn [of_option bind]. apply parse_full_ok; [ lia | ]. exists pairs. auto.
Qed.

(** The range of [data] a successful [from_u8] used. *)
Lemma from_u8_at_inv p data s b :
  len data < U64 -> s + 16 <= len data -> from_u8_at p data s = Ok b ->
  exists from raw, get_range data from (s + 16) = Some raw /\ W_block (bk_content b) raw /\
    b = parsed_block raw (bk_content b) /\ len raw <= MAX_SIGNING_BLOCK_SIZE + 8.
Proof.
  intros Hf Hs H. unfold from_u8_at, MAGIC_LEN, SIZE_UINT64 in H.
  apply bind_Ok in H as (sf&H1&H). apply bind_Ok in H as (sp&H2&H). apply of_option_Ok in H2.
  assert (Esf : sf = s - 8 /\ 8 <= s).
  { unfold usub in H1. destruct (8 <=? s) eqn:E; [ injection H1 as <-; split; lia | ].
    destruct p; [ discriminate | ]. injection H1 as <-. apply get_range_spec in H2.
    unfold U64 in *. lia. }
  destruct Esf as [-> H8]. clear H1.
  destruct (MAX_SIGNING_BLOCK_SIZE <? un_le sp) eqn:E1; [ discriminate | ].
  apply bind_Ok in H as (a&H3&H). apply bind_Ok in H as (back&H4&H).
  destruct (s <? back) eqn:E2; [ discriminate | ].
  apply bind_Ok in H as (full&H5&H). apply of_option_Ok in H5.
  pose proof (get_range_len _ _ _ _ H5) as Hlf.
  pose proof (proj1 (get_range_spec _ _ _ _) H5) as (G1&G2&G3).
  apply parse_full_inv in H; [ | lia ]. destruct H as [HW Hb].
  exists (s - back), full. split; [ auto | ]. split; [ auto | ]. split; [ auto | ].
  destruct HW as (pairs&_&Ep). rewrite Ep in Hlf |- *. rewrite len_block_layout in *.
  assert (Esp : sp = le 8 (len pairs + 24)).
  { apply get_range_spec in H2 as (F1&F2&F3). rewrite F3.
    replace (s - 8) with (s - back + (len pairs + 8)) by lia. rewrite <- dropN_dropN.
    assert (Ed : dropN (s - back) data = block_layout pairs ++ dropN (s + 16) data).
    { rewrite <- (take_drop (s + 16 - (s - back)) (dropN (s - back) data)) at 1.
      rewrite <- G3, Ep, dropN_dropN. do 2 f_equal. lia. }
    rewrite Ed. unfold block_layout. rewrite <- !app_assoc.
    rewrite dropN_app_r by (rewrite len_le; lia). rewrite len_le.
    rewrite dropN_app_eq by lia. replace (s - (s - back + (len pairs + 8))) with 8 by lia.
    apply takeN_app_eq. rewrite len_le. auto. }
  rewrite Esp, un_le8 in E1 by (unfold U64 in *; lia). lia.
Qed.

Lemma u8_cases data k :
  (exists s, 1 <= s /\ (N.to_nat s <= k)%nat /\ magic_ends data (s + 16) /\
     forall q, s < q -> (N.to_nat q <= k)%nat -> ~ magic_ends data (q + 16)) \/
  (forall q, 1 <= q -> (N.to_nat q <= k)%nat -> ~ magic_ends data (q + 16)).
Proof.
  induction k as [|k IH].
  - right. intros. lia.
  - destruct (magic_ends_dec data (N.of_nat (S k) + 16)) as [Hm|Hm].
    + left. exists (N.of_nat (S k)). split; [ lia | ]. split; [ lia | ]. split; [ auto | ]. intros. lia.
    + destruct IH as [(s&H1&H2&H3&H4)|IH].
      * left. exists s. split; [ lia | ]. split; [ lia | ]. split; [ auto | ].
        intros q Hq1 Hq2. destruct (N.eq_dec q (N.of_nat (S k))) as [->|]; auto. apply H4; lia.
      * right. intros q Hq1 Hq2. destruct (N.eq_dec q (N.of_nat (S k))) as [->|]; auto. apply IH; lia.
Qed.

Lemma from_u8_inv p data b :
  len data < U64 -> from_u8 p data = Ok b ->
  exists pre raw post, data = pre ++ raw ++ post /\ W_block (bk_content b) raw /\
    b = parsed_block raw (bk_content b) /\ len raw <= MAX_SIGNING_BLOCK_SIZE + 8.
Proof.
  intros Hf H. unfold from_u8, SIZE_UINT64, MAGIC_LEN in H.
  destruct (len data <? 8 + 8 + 16) eqn:E; [ discriminate | ].
  destruct (u8_cases data (N.to_nat (len data - 16))) as [(s&H1&H2&H3&H4)|Hn].
  - rewrite (u8_found p data _ s) in H; auto; [ | lia ].
    apply from_u8_at_inv in H as (fr&raw&Hg&HW&Hb&Hl); [ | auto | lia ].
    apply get_range_split in Hg. exists (takeN fr data), raw, (dropN (s + 16) data). auto.
  - rewrite u8_none in H; auto; [ discriminate | lia ].
Qed.

Lemma from_u8_at_fine data s : len data < U64 -> fine (from_u8_at Release data s).
Proof.
  intros Hf. unfold from_u8_at. apply fine_bind; [ apply fine_usub_release | intros sf _ ].
  apply fine_bind; [ apply fine_of_option; auto | intros sp _ ].
  destruct (_ <? _); [ reflexivity | ].
  apply fine_bind; [ apply fine_usub_release | intros a _ ].
  apply fine_bind; [ apply fine_uadd_release | intros back _ ].
  destruct (_ <? _); [ reflexivity | ].
  apply fine_bind; [ apply fine_of_option; auto | intros full Hfull ]. apply of_option_Ok in Hfull.
  apply parse_full_fine. apply get_range_len in Hfull as Hl. apply get_range_spec in Hfull. lia.
Qed.
Lemma from_u8_fine data : len data < U64 -> fine (from_u8 Release data).
Proof.
  intros Hf. unfold from_u8, SIZE_UINT64, MAGIC_LEN.
  destruct (len data <? 8 + 8 + 16) eqn:E; [ reflexivity | ].
  destruct (u8_cases data (N.to_nat (len data - 16))) as [(s&H1&H2&H3&H4)|Hn].
  - rewrite (u8_found Release data _ s); auto; [ apply from_u8_at_fine; auto | lia ].
  - rewrite u8_none; auto; [ reflexivity | lia ].
Qed.

(** ** Debug and Release builds agree, except that Debug may panic where
    Release returns an error. *)
Definition agree {A} (d r : res A) : Prop := d = r \/ (d = Panic /\ exists e, r = Err e).

Lemma parse_full_agree data : agree (parse_full_block Debug data) (parse_full_block Release data).
Proof.
  unfold parse_full_block. set (x := un_le (takeN 8 data)). set (y := un_le (takeN 8 (dropN _ data))).
  destruct (len data <? _) eqn:E0; [ left; auto | ]. destruct (negb _); [ left; auto | ].
  unfold debug_assert. cbn [bind]. destruct (x =? y) eqn:E; cbn [bind negb].
  - destruct (y <? _); [ left; auto | ]. unfold uadd. destruct (y + SIZE_UINT64 <? U64) eqn:E2; cbn [bind].
    + left; auto.
    + right. split; auto. unfold SIZE_UINT64 in *.
      destruct (len data =? (y + 8) mod U64) eqn:E3; cbn [negb]; [ | eauto ].
      assert (y < U64); [ | unfold U64 in *; lia ].
      pose proof (un_le_bound (takeN 8 (dropN (len data - MAGIC_LEN - 8) data))) as Hb.
      fold y in Hb. rewrite len_takeN, len_dropN in Hb. unfold MAGIC_LEN in *.
      replace (N.min 8 (len data - (len data - 16 - 8))) with 8 in Hb by lia. exact Hb.
  - right. split; eauto.
Qed.
