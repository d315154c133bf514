(** NoElfFacts.v - builds with and without ELF support. *)
From Verif Require Import Base BaseFacts Utils ParseFacts CodecFacts Algorithms Common SchemeV2 SourceStamp ElfInfo Wire SigningBlock BlockFacts Zip ZipFacts Digest Module ModuleProps Signable
  Signer Verifier ModuleVerify NoElf NoElfSpec.
From Verif Require Cli.
From Coq Require Import Lia.
Open Scope N_scope.
Open Scope list_scope.

(** ** The functions of NoElf.v are those of the other files *)
Lemma search_default p f n s w k : from_reader_search_w value_parse p f n s w k = from_reader_search p f n s w k.
Proof. induction k as [|k IH]; [reflexivity|]. cbn [from_reader_search_w from_reader_search]. now rewrite IH. Qed.
Lemma reader_default p f n e : from_reader_w value_parse p f n e = from_reader p f n e.
Proof. unfold from_reader_w, from_reader. destruct (_ <? _); [reflexivity|]. destruct (read_exact_at _ _ _); [|reflexivity..]. apply search_default. Qed.
Lemma u8_default p d : from_u8_w value_parse p d = from_u8 p d.
Proof.
  unfold from_u8_w, from_u8. destruct (_ <? _); [reflexivity|]. generalize (N.to_nat (len d - MAGIC_LEN)) as k.
  induction k as [|k IH]; [reflexivity|]. cbn [from_u8_search_w from_u8_search]. now rewrite IH.
Qed.
Lemma sb_default p m f : m_get_signing_block_w value_parse p m f = m_get_signing_block p m f.
Proof.
  unfold m_get_signing_block_w, m_get_signing_block. destruct (m_sig m); [reflexivity|]. destruct (m_raw m); [reflexivity|].
  destruct (m_find_eocd m f); [|reflexivity..]. apply reader_default.
Qed.
Lemma offsets_default p m f : m_get_offsets_w value_parse p m f = m_get_offsets p m f.
Proof. unfold m_get_offsets_w, m_get_offsets. now rewrite sb_default. Qed.
Lemma digest_default p C sched m f a : m_digest_w value_parse p C sched m f a = m_digest p C sched m f a.
Proof. unfold m_digest_w, m_digest. now rewrite offsets_default. Qed.
Lemma raw_default p m f : m_get_raw_module_w value_parse p m f = m_get_raw_module p m f.
Proof. unfold m_get_raw_module_w, m_get_raw_module. now rewrite sb_default. Qed.
Lemma source_default p m f : s_source_w value_parse p m f = s_source p m f.
Proof. unfold s_source_w, s_source. now rewrite sb_default, raw_default. Qed.
Lemma write_default p m f b : s_write_with_signature_w value_parse p m f b = s_write_with_signature p m f b.
Proof. unfold s_write_with_signature_w, s_write_with_signature. now rewrite source_default. Qed.
Lemma fill_default p C ds m f l : forall ctx, fill_context_w value_parse p C ds m f l ctx = fill_context p C ds m f l ctx.
Proof.
  induction l as [|a l IH]; intros ctx; [reflexivity|]. cbn [fill_context_w fill_context]. rewrite digest_default.
  destruct (get_digest ctx (u32_of_algo a)); [apply IH|]. destruct (m_digest p C (ds a) m f a); [apply IH|apply IH|reflexivity].
Qed.
Lemma verify_default p C K now ds m f roots : m_verify_with_roots_w value_parse p C K now ds m f roots = m_verify_with_roots p C K now ds m f roots.
Proof.
  unfold m_verify_with_roots_w, m_verify_with_roots. rewrite sb_default. destruct (m_get_signing_block p m f); [|reflexivity..]. now rewrite fill_default.
Qed.

(** ** Alike results *)
(** [x] with, [y] without ELF support. *)
Definition alike {A} (same : A -> A -> Prop) (bad : A -> Prop) (x y : res A) : Prop :=
  match x, y with
  | Ok a, Ok b => same a b
  | Err e, Ok b => bad b /\ maybe_missing_signature e = false
  | Err e, Err e' => e = e' \/ maybe_missing_signature e = false /\ maybe_missing_signature e' = false
  | Panic, Panic => True
  | _, _ => False
  end.
Lemma alike_bind {A B} (sa : A -> A -> Prop) (ba : A -> Prop) (sb : B -> B -> Prop) (bb : B -> Prop) x y (k k' : A -> res B) :
  alike sa ba x y -> (forall a b, sa a b -> alike sb bb (k a) (k' b)) ->
  (forall e b, ba b -> maybe_missing_signature e = false -> alike sb bb (Err e) (k' b)) -> alike sb bb (bind x k) (bind y k').
Proof.
  destruct x as [a|e|], y as [b|e'|]; cbn [alike bind]; intros H K L; try contradiction; auto. destruct H. now apply L.
Qed.
Lemma alike_pure {A} (same : A -> A -> Prop) bad (x : res A) : (forall a, same a a) -> alike same bad x x.
Proof. intros H. destruct x; cbn [alike]; auto. Qed.
Lemma alike_step {A B} (sb : B -> B -> Prop) (bb : B -> Prop) (x : res A) (k k' : A -> res B) :
  (forall a, x = Ok a -> alike sb bb (k a) (k' a)) -> alike sb bb (bind x k) (bind x k').
Proof. intros H. destruct x; cbn [bind alike]; auto. Qed.
Lemma alike_map {A} (sa : A -> A -> Prop) ba f (x y : res A) : (forall e, maybe_missing_signature (f e) = maybe_missing_signature e) ->
  alike sa ba x y -> alike sa ba (map_err f x) (map_err f y).
Proof.
  intros F. destruct x as [a|e|], y as [b|e'|]; cbn [alike map_err]; auto.
  - now rewrite F.
  - intros [->|[H1 H2]]; [now left|right]. now rewrite !F.
Qed.

(** ** Values *)
Lemma lists_parse size id d : len d < U64 -> match info_parse size id (new_reader d) with
  | Ok (i, _) => ei_size i = size /\ ei_id i = id /\ lists d i
  | Err e => maybe_missing_signature e = false /\ forall i, ~ lists d i
  | Panic => False
  end.
Proof.
  intros Hl. pose proof (rwf_new d Hl) as Hw. pose proof (info_pfine size id (new_reader d) Hw) as F.
  destruct (info_parse size id (new_reader d)) as [[i r]|e|] eqn:E; cbn [pfine] in F; [| |contradiction].
  - destruct (proj2 (info_recognises size id) _ _ _ Hw E) as (raw & (W & S1 & S2) & _ & R & _).
    split; [exact S1|]. split; [exact S2|]. exists raw, (rem r). split; [|exact W]. rewrite <- R. unfold rem. cbn [new_reader rpos rdata]. now rewrite dropN_0.
  - split; [now apply leaf_not_missing|]. intros i (used & more & -> & W).
    pose proof (proj1 (info_recognises size id) (mkInfo size id (ei_count i) (ei_sections i)) used (new_reader (used ++ more)) more (conj W (conj eq_refl eq_refl)) Hw) as A.
    rewrite A in E; [discriminate|]. unfold rem. cbn [new_reader rpos rdata]. now rewrite dropN_0.
Qed.

Definition sv (x y : value * reader) : Prop := same_value (fst x) (fst y) /\ snd x = snd y.
Definition bv (y : value * reader) : Prop := no_list (fst y).
Lemma slice_len r n d r' : len (rdata r) < U64 -> as_slice r n = Ok (d, r') -> len (rdata d) < U64 /\ d = new_reader (rdata d) /\ rdata r' = rdata r /\ rpos r <= rpos r' <= len (rdata r).
Proof.
  intros Hw H. unfold as_slice, get_to in H. destruct (U64 <=? _); [discriminate|]. destruct (get_range _ _ _) as [x|] eqn:G; [|discriminate].
  cbn [bind] in H. injection H as <- <-. cbn [new_reader rdata rpos]. apply get_range_spec in G as (_ & G & ->). rewrite len_takeN, len_dropN.
  split; [lia|]. split; [reflexivity|]. split; [reflexivity|lia].
Qed.
Lemma read_le_data k r n r' : read_le k r = Ok (n, r') -> rdata r' = rdata r /\ rpos r' = rpos r + N.of_nat k.
Proof. unfold read_le. destruct (get_range _ _ _); [|discriminate]. intros [= _ <-]. split; reflexivity. Qed.
Lemma read_size_data r n r' : read_size_u64 r = Ok (n, r') -> rdata r' = rdata r /\ rpos r' = rpos r + N.of_nat 8.
Proof. exact (read_le_data 8 r n r'). Qed.
Lemma value_alike r : len (rdata r) < U64 -> alike sv bv (value_parse r) (value_parse_n r) /\
  (forall v r', value_parse_n r = Ok (v, r') -> rdata r' = rdata r /\ rpos r < rpos r' <= len (rdata r)).
Proof.
  intros Hw. unfold value_parse, value_parse_n. split.
  - apply alike_step. intros [size r1] H1. destruct (_ <? _); [cbn [alike]; auto|].
    apply alike_step. intros [id r2] H2. destruct (size <? 4); [cbn [alike]; auto|].
    apply alike_step. intros [sub r3] H3.
    destruct (id =? SIGNATURE_SCHEME_V2_BLOCK_ID); [apply alike_step; intros [v ?] _; split; reflexivity|].
    destruct (id =? SOURCE_STAMP_BLOCK_ID); [apply alike_step; intros [v ?] _; split; reflexivity|].
    destruct (N.eqb_spec id ELF_SECTION_INFO_BLOCK_ID) as [->|NE]; [|split; [split; [reflexivity|exact NE]|reflexivity]].
    apply read_size_data in H1 as [H1 _]. apply read_le_data in H2 as [H2 _]. apply slice_len in H3 as (L & E & _); [|rewrite H2, H1; exact Hw].
    pose proof (lists_parse size ELF_SECTION_INFO_BLOCK_ID (rdata sub) L) as P. rewrite <- E in P.
    destruct (info_parse size ELF_SECTION_INFO_BLOCK_ID sub) as [[i ?]|e|]; cbn [bind alike]; [| |contradiction].
    + destruct P as (P1 & P2 & P3). split; [|reflexivity]. cbn [fst same_value]. exists (rdata sub). subst size. auto.
    + destruct P as (P1 & P2). split; [|exact P1]. exists (mkRaw size ELF_SECTION_INFO_BLOCK_ID (rdata sub)). auto.
  - intros v r' H. apply bind_Ok in H as ([size r1] & H1 & H). destruct (_ <? _); [discriminate|].
    apply bind_Ok in H as ([id r2] & H2 & H). destruct (size <? 4); [discriminate|]. apply bind_Ok in H as ([sub r3] & H3 & H).
    apply read_size_data in H1 as [H1 P1]. apply read_le_data in H2 as [H2 P2]. apply slice_len in H3 as (_ & _ & H3 & P3); [|rewrite H2, H1; exact Hw].
    rewrite H1 in H2. rewrite H2 in H3, P3. assert (H4 : rdata r3 = rdata r /\ rpos r < rpos r3 <= len (rdata r)) by (split; [exact H3|lia]).
    destruct (id =? SIGNATURE_SCHEME_V2_BLOCK_ID); [apply bind_Ok in H as ([? ?] & _ & [= <- <-]); exact H4|].
    destruct (id =? SOURCE_STAMP_BLOCK_ID); [apply bind_Ok in H as ([? ?] & _ & [= <- <-]); exact H4|].
    injection H as <- <-. exact H4.
Qed.

Definition sl (x y : list value * reader) : Prop := Forall2 same_value (fst x) (fst y) /\ snd x = snd y.
Definition bl (y : list value * reader) : Prop := Exists no_list (fst y).
Lemma value_n_pfine r : rwf r -> pfine (value_parse_n r).
Proof.
  intros. unfold value_parse_n. unread. repeat pfine_step.
  - apply pfine_bind; [ | intros [? ?] _; exact I ]. unfold v2_parse.
    apply pfine_bind; [ apply signers_pfine; auto | intros [? ?] _; exact I ].
  - apply pfine_bind; [ | intros [? ?] _; exact I ]. unfold ss_parse.
    apply pfine_bind; [ apply sb_pfine; auto | intros [? ?] _; exact I ].
Qed.
(** The loop ends, and its errors do not mean "no signature". *)
Lemma while_n_fine fuel max r : max <= len (rdata r) -> rwf r -> max - rpos r < N.of_nat fuel -> pfine (parse_while fuel value_parse_n max r).
Proof.
  revert r. induction fuel as [|k IH]; intros r Hm Hw Hf; cbn [parse_while]; destruct (N.ltb_spec (rpos r) max) as [L|L]; try exact I; [lia|].
  destruct (value_alike r) as [_ D]; [apply Hw|]. pose proof (value_n_pfine r Hw) as F.
  destruct (value_parse_n r) as [[v r1]|x|] eqn:E; cbn [bind pfine] in *; [|exact F|exact F].
  specialize (D _ _ eq_refl) as [D1 D2].
  assert (W1 : rwf r1) by (destruct Hw; split; unfold rlen in *; rewrite D1; lia).
  specialize (IH r1 ltac:(rewrite D1; exact Hm) W1 ltac:(lia)).
  destruct (parse_while k value_parse_n max r1) as [[l r2]|x|]; exact IH.
Qed.
Lemma while_alike fuel max r : max <= len (rdata r) -> rwf r -> max - rpos r < N.of_nat fuel ->
  alike sl bl (parse_while fuel value_parse max r) (parse_while fuel value_parse_n max r).
Proof.
  revert r. induction fuel as [|k IH]; intros r Hm Hw Hf; cbn [parse_while]; destruct (N.ltb_spec (rpos r) max) as [L|L]; try (split; [constructor|reflexivity]); [lia|].
  destruct (value_alike r) as [A D]; [apply Hw|].
  assert (G : forall v r1, value_parse_n r = Ok (v, r1) -> max <= len (rdata r1) /\ rwf r1 /\ max - rpos r1 < N.of_nat k).
  { intros v r1 E. specialize (D _ _ E) as [D1 D2]. rewrite D1. split; [exact Hm|]. split; [|lia].
    destruct Hw. split; unfold rlen in *; rewrite D1; lia. }
  destruct (value_parse_n r) as [[w r1]|e'|] eqn:E, (value_parse r) as [[v r0]|e|]; cbn [alike] in A; try contradiction; cbn [bind].
  - destruct A as [A1 A2]. cbn [fst snd] in A1, A2. subst r0. destruct (G _ _ eq_refl) as (G1 & G2 & G3).
    apply (alike_bind sl bl); [now apply IH| |].
    + intros [l1 x1] [l2 x2] [H1 H2]. cbn [fst snd] in *. split; [constructor; assumption|exact H2].
    + intros e [l2 x2] H1 H2. cbn [alike bl fst] in *. split; [now right|exact H2].
  - destruct A as [A1 A2]. cbn [fst bv] in A1. destruct (G _ _ eq_refl) as (G1 & G2 & G3).
    pose proof (while_n_fine k max r1 G1 G2 G3) as F.
    destruct (parse_while k value_parse_n max r1) as [[l2 x2]|e'|]; cbn [bind alike pfine] in *; [| |contradiction].
    + split; [left; exact A1|exact A2].
    + right. split; [exact A2|]. now apply leaf_not_missing.
  - exact A.
  - exact I.
Qed.
Lemma extract_alike d : len d < U64 ->
  alike (Forall2 same_value) (Exists no_list) (extract_values_w value_parse (new_reader d)) (extract_values_w value_parse_n (new_reader d)).
Proof.
  intros Hl. unfold extract_values_w. apply (alike_bind sl bl).
  - apply while_alike; [apply N.le_refl|now apply rwf_new|]. unfold loop_fuel, rlen, len. cbn [new_reader rdata rpos]. lia.
  - intros [l x] [l' x'] [H _]. exact H.
  - intros e [l' x'] H1 H2. now split.
Qed.

Definition bad_block (c : signing_block) : Prop := Exists no_list (bk_content c).
Lemma full_alike p d : len d < U64 -> alike same_block bad_block (parse_full_block_w value_parse p d) (parse_full_block_w value_parse_n p d).
Proof.
  intros Hl. unfold parse_full_block_w. cbv zeta. destruct (_ <? _); [now left|]. destruct (negb _); [now left|].
  apply alike_step. intros ? _. destruct (negb _); [now left|]. destruct (_ <? _); [now left|].
  apply alike_step. intros ? _. destruct (negb _); [now left|].
  apply (alike_bind (Forall2 same_value) (Exists no_list)).
  - apply alike_map; [reflexivity|]. apply extract_alike. rewrite len_takeN, len_dropN. lia.
  - intros l l' H. cbn [alike]. repeat split. exact H.
  - intros e l' H1 H2. now split.
Qed.
Lemma offsets_alike p d s e : len d < U64 -> alike same_block bad_block
  (do sig <- map_err EParsingFullBlock (parse_full_block_w value_parse p d); Ok (with_offsets sig s e))
  (do sig <- map_err EParsingFullBlock (parse_full_block_w value_parse_n p d); Ok (with_offsets sig s e)).
Proof.
  intros Hl. apply (alike_bind same_block bad_block); [apply alike_map; [reflexivity|now apply full_alike]| |].
  - intros a b (H1 & H2 & H3 & H4 & H5 & H6 & H7). cbn [alike with_offsets]. repeat split; assumption.
  - intros x b H1 H2. now split.
Qed.
Lemma range_small {A} (f d : list A) a b : len f < U64 -> get_range f a b = Some d -> len d < U64.
Proof. intros Hl H. apply get_range_spec in H as (_ & H & ->). rewrite len_takeN, len_dropN. lia. Qed.
Lemma reader_alike p f n eo : len f < U64 -> alike same_block bad_block (from_reader p f n eo) (from_reader_w value_parse_n p f n eo).
Proof.
  intros Hl. rewrite <- reader_default. unfold from_reader_w. cbv zeta. destruct (_ <? _); [now left|].
  apply alike_step. intros w Hw. unfold read_exact_at in Hw. destruct (get_range f _ _) as [w'|] eqn:G; [|discriminate]. injection Hw as <-.
  pose proof (range_small _ _ _ _ Hl G) as Hw.
  generalize (N.min (n - eo) MAX_WINDOW_SIZE) as z. intros z. generalize (S (N.to_nat (z - MAGIC_LEN))) as k. generalize (n - eo - z) as s. clear G. intros s.
  induction k as [|k IH]; [now left|]. cbn [from_reader_search_w].
  destruct (get_range w' _ _) as [m|]; [|exact IH]. destruct (beq m MAGIC); [|exact IH].
  unfold from_reader_at_w. destruct (_ <? SIZE_UINT64); [exact IH|]. cbv zeta.
  destruct (_ <? _); [now left|]. destruct (_ <? _); [now left|]. destruct (_ <? _).
  - destruct (_ <? _); [now left|]. apply alike_step. intros full H. unfold read_exact_at in H. destruct (get_range f _ _) eqn:G; [|discriminate].
    injection H as <-. apply offsets_alike. exact (range_small _ _ _ _ Hl G).
  - apply alike_step. intros full H. destruct (get_range w' _ _) eqn:G in H; [|discriminate]. injection H as <-. apply offsets_alike. exact (range_small _ _ _ _ Hw G).
Qed.
Lemma u8_alike p d : len d < U64 -> alike same_block bad_block (from_u8 p d) (from_u8_w value_parse_n p d).
Proof.
  intros Hl. rewrite <- u8_default. unfold from_u8_w. destruct (_ <? _); [now left|]. generalize (N.to_nat (len d - MAGIC_LEN)) as k.
  induction k as [|k IH]; [now left|]. cbn [from_u8_search_w]. destruct (get_range d _ _); [|now left]. destruct (beq _ _); [|exact IH].
  unfold from_u8_at_w. cbv zeta. apply alike_step. intros ? _. apply alike_step. intros ? _. destruct (_ <? _); [now left|].
  apply alike_step. intros ? _. apply alike_step. intros ? _. destruct (_ <? _); [now left|]. apply alike_step. intros full H.
  destruct (get_range d _ _) eqn:G in H; [|discriminate]. injection H as <-. apply full_alike. exact (range_small _ _ _ _ Hl G).
Qed.
Lemma sb_alike p f : len f < U64 -> alike same_block bad_block (m_get_signing_block p (module_new f) f) (m_get_signing_block_w value_parse_n p (module_new f) f).
Proof.
  intros Hl. unfold m_get_signing_block, m_get_signing_block_w. cbn [module_new m_sig m_raw]. apply alike_step. intros e _. now apply reader_alike.
Qed.

Lemma same_listed v w : same_value v w -> ~ no_list w.
Proof.
  intros H (r & -> & I & L). destruct v as [r0|x|x|i]; cbn [same_value] in H; try discriminate.
  - destruct H as ([= ->] & H). contradiction.
  - destruct H as (d & [= ->] & _ & H). cbn [rw_data] in L. exact (L i H).
Qed.
Lemma same_good b c : same_block b c -> ~ bad_block c.
Proof.
  intros (_ & _ & _ & _ & _ & _ & H) B. unfold bad_block in B. revert B. induction H as [|v w l l' V H IH]; intros B; [inversion B|].
  inversion B as [? ? B'|? ? B']; subst; [exact (same_listed _ _ V B')|exact (IH B')].
Qed.
(** The relation in words. *)
Lemma alike_words (x y : res signing_block) : alike same_block bad_block x y ->
  (forall b, x = Ok b -> exists c, y = Ok c /\ same_block b c) /\
  (forall c, y = Ok c -> (exists b, x = Ok b) <-> ~ Exists no_list (bk_content c)) /\
  ((exists e, y = Err e) -> exists e, x = Err e) /\ (y = Panic <-> x = Panic).
Proof.
  intros A. destruct x as [b|e|], y as [c|e'|]; cbn [alike] in A; try contradiction.
  - split; [intros b' [= <-]; eauto|]. split; [|split; [intros (? & ?); discriminate|split; discriminate]].
    intros c' [= <-]. split; [intros _; exact (same_good _ _ A)|eauto].
  - split; [discriminate|]. split; [|split; [eauto|split; discriminate]].
    intros c' [= <-]. destruct A as [A _]. split; [intros (? & ?); discriminate|intros H; contradiction].
  - split; [discriminate|]. split; [discriminate|]. split; [eauto|split; discriminate].
  - split; [discriminate|]. split; [discriminate|]. split; [intros (? & ?); discriminate|split; reflexivity].
Qed.

(** ** Modules *)
Lemma same_algos l l' : Forall2 same_value l l' -> digest_algos l' = digest_algos l.
Proof.
  induction 1 as [|v w l l' V H IH]; [reflexivity|]. unfold digest_algos in *. cbn [flat_map]. rewrite IH. f_equal.
  destruct v; cbn [same_value] in V; [destruct V as [-> _]|subst|subst|destruct V as (d & -> & _)]; reflexivity.
Qed.
Lemma same_v2 C K now roots ctx l l' : Forall2 same_value l l' -> v2_results C K now roots ctx l' = v2_results C K now roots ctx l.
Proof.
  induction 1 as [|v w l l' V H IH]; [reflexivity|]. unfold v2_results in *. cbn [flat_map]. rewrite IH. f_equal.
  destruct v; cbn [same_value] in V; [destruct V as [-> _]|subst|subst|destruct V as (d & -> & _)]; reflexivity.
Qed.
Lemma same_stamp C K now roots ctx l l' : Forall2 same_value l l' -> stamp_results C K now roots ctx l' = stamp_results C K now roots ctx l.
Proof.
  induction 1 as [|v w l l' V H IH]; [reflexivity|].
  destruct v; cbn [same_value] in V; [destruct V as [-> _]|subst w|subst w|destruct V as (d & -> & _)]; cbn [stamp_results]; try exact IH.
  now rewrite IH.
Qed.
Lemma same_all C K now roots b c ctx : same_block b c -> verify_all_with_digest C K now roots c ctx = verify_all_with_digest C K now roots b ctx.
Proof.
  intros (_ & _ & _ & _ & _ & _ & H). unfold verify_all_with_digest, verify_v2_with_digest, verify_source_stamp_with_digest.
  now rewrite (same_v2 _ _ _ _ _ _ _ H), (same_stamp _ _ _ _ _ _ _ H).
Qed.

(** [agreed]: the build with ELF support does not fail on its own. *)
Definition agreed (p : profile) (f : bytes) : Prop :=
  forall e, m_get_signing_block p (module_new f) f = Err e -> m_get_signing_block_w value_parse_n p (module_new f) f = Err e.
Lemma offsets_same p f : len f < U64 -> agreed p f -> m_get_offsets_w value_parse_n p (module_new f) f = m_get_offsets p (module_new f) f.
Proof.
  intros Hl H. unfold m_get_offsets_w, m_get_offsets. destruct (m_find_eocd (module_new f) f); [|reflexivity..]. cbn [bind].
  pose proof (sb_alike p f Hl) as A. unfold agreed in H.
  destruct (m_get_signing_block p (module_new f) f) as [b|e|]; [|rewrite (H e eq_refl); reflexivity|].
  - destruct (m_get_signing_block_w value_parse_n p (module_new f) f) as [c|e|]; cbn [alike] in A; try contradiction.
    destruct A as (-> & -> & _). reflexivity.
  - destruct (m_get_signing_block_w value_parse_n p (module_new f) f) as [c|e|]; cbn [alike] in A; try contradiction. reflexivity.
Qed.
Lemma digest_same p C sched f a : len f < U64 -> agreed p f -> m_digest_w value_parse_n p C sched (module_new f) f a = m_digest p C sched (module_new f) f a.
Proof. intros Hl H. unfold m_digest_w, m_digest. now rewrite offsets_same. Qed.
Lemma raw_same p f : len f < U64 -> agreed p f -> m_get_raw_module_w value_parse_n p (module_new f) f = m_get_raw_module p (module_new f) f.
Proof.
  intros Hl H. unfold m_get_raw_module_w, m_get_raw_module. cbn [module_new m_raw]. change (mkModule false (len f) None) with (module_new f).
  pose proof (sb_alike p f Hl) as A. unfold agreed in H.
  destruct (m_get_signing_block p (module_new f) f) as [b|e|]; [|rewrite (H e eq_refl); reflexivity|].
  - destruct (m_get_signing_block_w value_parse_n p (module_new f) f) as [c|e|]; cbn [alike] in A; try contradiction.
    destruct A as (E1 & E2 & _). cbn [bind]. rewrite E1, E2. reflexivity.
  - destruct (m_get_signing_block_w value_parse_n p (module_new f) f) as [c|e|]; cbn [alike] in A; try contradiction. reflexivity.
Qed.
Lemma write_same p f blk : len f < U64 -> agreed p f ->
  s_write_with_signature_w value_parse_n p (module_new f) f blk = s_write_with_signature p (module_new f) f blk.
Proof.
  intros Hl H. unfold s_write_with_signature_w, s_write_with_signature. replace (s_source_w value_parse_n p (module_new f) f) with (s_source p (module_new f) f); [reflexivity|].
  unfold s_source_w, s_source. rewrite (raw_same p f Hl H). pose proof (sb_alike p f Hl) as A. unfold agreed in H.
  destruct (m_get_signing_block p (module_new f) f) as [b|e|]; [|rewrite (H e eq_refl); reflexivity|].
  - destruct (m_get_signing_block_w value_parse_n p (module_new f) f) as [c|e|]; cbn [alike] in A; try contradiction. reflexivity.
  - destruct (m_get_signing_block_w value_parse_n p (module_new f) f) as [c|e|]; cbn [alike] in A; try contradiction. reflexivity.
Qed.
Lemma fill_same p C ds f l : len f < U64 -> agreed p f -> forall ctx,
  fill_context_w value_parse_n p C ds (module_new f) f l ctx = fill_context p C ds (module_new f) f l ctx.
Proof.
  intros Hl H. induction l as [|a l IH]; intros ctx; [reflexivity|]. cbn [fill_context_w fill_context]. rewrite digest_same by assumption.
  destruct (get_digest ctx (u32_of_algo a)); [apply IH|]. destruct (m_digest p C (ds a) (module_new f) f a); [apply IH|apply IH|reflexivity].
Qed.
Lemma verify_same p C K now ds f roots : len f < U64 -> agreed p f ->
  m_verify_with_roots_w value_parse_n p C K now ds (module_new f) f roots = m_verify_with_roots p C K now ds (module_new f) f roots.
Proof.
  intros Hl H. unfold m_verify_with_roots_w, m_verify_with_roots. pose proof (sb_alike p f Hl) as A. pose proof H as H'. unfold agreed in H'.
  destruct (m_get_signing_block p (module_new f) f) as [b|e|]; [|rewrite (H' e eq_refl); reflexivity|].
  - destruct (m_get_signing_block_w value_parse_n p (module_new f) f) as [c|e|]; cbn [alike] in A; try contradiction.
    rewrite (same_algos _ _ (proj2 (proj2 (proj2 (proj2 (proj2 (proj2 A))))))). rewrite fill_same by assumption.
    destruct (fill_context p C ds (module_new f) f (digest_algos (bk_content b)) ctx_new); [|reflexivity..]. cbn [bind]. now rewrite (same_all _ _ _ _ _ _ _ A).
  - destruct (m_get_signing_block_w value_parse_n p (module_new f) f) as [c|e|]; cbn [alike] in A; try contradiction. reflexivity.
Qed.
(** Where they disagree, the build with ELF support does nothing. *)
Lemma refuses p f e : len f < U64 -> m_get_signing_block p (module_new f) f = Err e -> m_get_signing_block_w value_parse_n p (module_new f) f <> Err e ->
  (forall C sched a, m_digest p C sched (module_new f) f a = Err (EBlockCorrupted e)) /\
  (forall blk, s_write_with_signature p (module_new f) f blk = ([], Err (ECannotSignCorrupted e))) /\
  (forall C K now ds roots, m_verify_with_roots p C K now ds (module_new f) f roots = Ok (mkAll (VErr (VInvalidSignature e)) (VErr VNoSignature))).
Proof.
  intros Hl E N. pose proof (sb_alike p f Hl) as A. rewrite E in A.
  assert (M : maybe_missing_signature e = false).
  { destruct (m_get_signing_block_w value_parse_n p (module_new f) f) as [c|e'|]; cbn [alike] in A; [apply A| |contradiction].
    destruct A as [->|[A _]]; [congruence|exact A]. }
  assert (F : exists r, m_find_eocd (module_new f) f = Ok r).
  { destruct (m_find_eocd (module_new f) f) as [r|x|] eqn:Q; [eauto| |].
    - exfalso. apply N. unfold m_get_signing_block, m_get_signing_block_w in *. cbn [module_new m_sig m_raw] in *.
      change (mkModule false (len f) None) with (module_new f) in *. rewrite Q in *. exact E.
    - now apply find_eocd_no_panic in Q. }
  destruct F as (r & F). split; [|split].
  - intros C sched a. unfold m_digest, m_get_offsets. rewrite F. cbn [bind]. rewrite E, M. reflexivity.
  - intros blk. unfold s_write_with_signature, s_source. now rewrite E, M.
  - intros. unfold m_verify_with_roots. now rewrite E.
Qed.
(** ** Opening *)
Lemma open_same rest f : (forall t, f <> ELFMAG ++ t) -> Cli.signable_open rest (Some f) = do m <- open_n f; Ok (Cli.SModule m).
Proof.
  intros H. unfold Cli.signable_open, open_n, detect_file_format. cbn [of_option bind].
  destruct (read_exact_at f 0 4) as [mg|e|] eqn:R; [|reflexivity..]. cbn [bind].
  unfold read_exact_at in R. destruct (get_range f 0 (0 + 4)) as [d|] eqn:G; [|discriminate]. injection R as ->.
  destruct (beq mg ELFMAG) eqn:B.
  { exfalso. apply beq_eq in B. subst mg. apply get_range_spec in G as (_ & _ & G). apply (H (dropN 4 f)).
    rewrite G, dropN_0. symmetry. apply (take_drop 4). }
  clear B. destruct (beq (takeN 2 mg) _); [reflexivity|]. destruct (find_eocd f (len f)); reflexivity.
Qed.
Lemma open_elf t : let f := ELFMAG ++ t in
  (open_n f = Ok (module_new f) <-> exists e, find_eocd f (len f) = Ok e) /\ (forall m, open_n f = Ok m -> m = module_new f).
Proof.
  cbv zeta. set (f := ELFMAG ++ t). unfold open_n.
  assert (R : read_exact_at f 0 4 = Ok ELFMAG).
  { unfold read_exact_at. rewrite (get_range_app f [] ELFMAG t 0 (0 + 4)); reflexivity. }
  rewrite R. cbn [bind]. change (beq (takeN 2 ELFMAG) _) with false. cbn iota.
  destruct (find_eocd f (len f)) as [e|e|] eqn:E.
  - split; [split; eauto|]. now intros m [= <-].
  - split; [|discriminate]. split; [discriminate|intros (? & ?); discriminate].
  - now apply find_eocd_no_panic in E.
Qed.
