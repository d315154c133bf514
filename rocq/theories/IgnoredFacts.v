(** IgnoredFacts.v - lemmas about what verification does not look at (C71) and
    about the signature flags (C45). *)
From Verif Require Import Base Utils Algorithms Common SchemeV2 SourceStamp SigningBlock BaseFacts
  Zip Digest Module Signer ZipFacts Verifier ModuleVerify Wire ZipSpec RegionSpec SignSpec VerifySpec IgnoredSpec
  VerifyFacts VerifyProps Built BuiltFacts CodecFacts BlockFacts SignFacts ModuleFacts LimitFacts EndToEnd ParseFacts.
From Coq Require Import Bool Lia.
Open Scope N_scope.

(** * The loops read only the signatures' algorithm and bytes, and the digests
    of the algorithms that have an entry. *)
Definition agree (c1 c2 : context) (digs : list digest) : Prop :=
  forall e, In e digs -> get_digest c1 (u32_of_algo (dg_algo e)) = get_digest c2 (u32_of_algo (dg_algo e)).

Lemma find_digest_in l a e : find_digest l a = Some e -> In e l /\ dg_algo e = a.
Proof.
  intros H. unfold find_digest in H. apply find_some in H as [H1 H2]. apply algo_eqb_iff in H2. auto.
Qed.

Lemma agree_verify c1 c2 digs a e : agree c1 c2 digs -> find_digest digs a = Some e ->
  verify_digest c1 (u32_of_algo a) (dg_digest e) = verify_digest c2 (u32_of_algo a) (dg_digest e).
Proof.
  intros H E. apply find_digest_in in E as [E1 <-]. unfold verify_digest. now rewrite (H _ E1).
Qed.

Lemma v2_loop_agree C c1 c2 digs key raw : agree c1 c2 digs -> forall l1 l2 er dv w,
  map sig_seen l1 = map sig_seen l2 ->
  v2_sig_loop C (Some c1) digs key raw l1 er dv w = v2_sig_loop C (Some c2) digs key raw l2 er dv w.
Proof.
  intros A. induction l1 as [|g l1 IH]; intros [|h l2] er dv w H; try discriminate; [reflexivity|].
  cbn [map] in H. injection H as Ha Hd Hr. cbn [v2_sig_loop]. rewrite Ha, Hd.
  destruct (find_digest digs (sg_algo h)) as [e|] eqn:E; [|reflexivity].
  destruct (algo_verify _ _ _ _ _); try reflexivity.
  rewrite (agree_verify _ _ _ _ _ A E). destruct (negb _); apply IH; assumption.
Qed.

Lemma stamp_loop_agree C c1 c2 digs key raw : agree c1 c2 digs -> forall l1 l2 er dv w,
  map sig_seen l1 = map sig_seen l2 ->
  stamp_sig_loop C (Some c1) digs key raw l1 er dv w = stamp_sig_loop C (Some c2) digs key raw l2 er dv w.
Proof.
  intros A. induction l1 as [|g l1 IH]; intros [|h l2] er dv w H; try discriminate; [reflexivity|].
  cbn [map] in H. injection H as Ha Hd Hr. cbn [stamp_sig_loop]. rewrite Ha, Hd.
  destruct (algo_verify _ _ _ _ _); try reflexivity.
  destruct (find_digest digs (sg_algo h)) as [e|] eqn:E; [|apply IH; assumption].
  rewrite (agree_verify _ _ _ _ _ A E). destruct (negb _); apply IH; assumption.
Qed.

Lemma v2_signer_agree C K now roots c1 c2 i s1 s2 :
  agree c1 c2 (dgs_data (sd_digests (sn_data s1))) -> v2_seen s1 = v2_seen s2 ->
  verify_v2_signer C K now roots (Some c1) i s1 = verify_v2_signer C K now roots (Some c2) i s2.
Proof.
  intros A H. unfold v2_seen in H. injection H as Hd Hs Hk. unfold verify_v2_signer.
  rewrite <- Hd, <- Hk. destruct (get_from_4 _) as [raw|]; [|reflexivity].
  now rewrite (v2_loop_agree C c1 c2 _ (pk_data (sn_key s1)) raw A _ _ _ _ _ Hs).
Qed.

Lemma stamp_agree C K now roots c1 c2 raw s1 s2 :
  agree c1 c2 (dgs_data (st_digests (sb_data s1))) -> stamp_seen s1 = stamp_seen s2 ->
  verify_stamp C K now roots (Some c1) raw s1 = verify_stamp C K now roots (Some c2) raw s2.
Proof.
  intros A H. unfold stamp_seen in H. injection H as Hd Hs Hk. unfold verify_stamp.
  rewrite <- Hd, <- Hk.
  now rewrite (stamp_loop_agree C c1 c2 _ (pk_data (sb_key s1)) raw A _ _ _ _ _ Hs).
Qed.

Definition v2_digest_entries (content : list value) : list digest :=
  flat_map (fun v => match v with
    | V2Block x => flat_map (fun s => dgs_data (sd_digests (sn_data s))) (sns_data (v2_signers x))
    | _ => [] end) content.
Definition first_stamp_entries (content : list value) : list digest :=
  match first_stamp content with Some s => dgs_data (st_digests (sb_data s)) | None => [] end.

Lemma agree_app c1 c2 a b : agree c1 c2 (a ++ b) <-> agree c1 c2 a /\ agree c1 c2 b.
Proof.
  unfold agree. split.
  - intros H. split; intros e I; apply H, in_or_app; auto.
  - intros [H1 H2] e I. apply in_app_or in I as [I|I]; auto.
Qed.

Lemma v2_signers_agree C K now roots c1 c2 : forall l1 l2 i,
  agree c1 c2 (flat_map (fun s => dgs_data (sd_digests (sn_data s))) l1) -> map v2_seen l1 = map v2_seen l2 ->
  verify_v2_signers C K now roots (Some c1) i l1 = verify_v2_signers C K now roots (Some c2) i l2.
Proof.
  induction l1 as [|s l1 IH]; intros [|t l2] i A H; try discriminate; [reflexivity|].
  cbn [map flat_map] in H, A. injection H as H1 H2 H3 Hr. apply agree_app in A as [A1 A2].
  cbn [verify_v2_signers]. f_equal; [|apply IH; auto].
  apply v2_signer_agree; auto. unfold v2_seen. congruence.
Qed.

Lemma v2_values_shape : forall l, exists gs,
  v2_part l = map (map v2_seen) gs /\
  v2_digest_entries l = flat_map (flat_map (fun s => dgs_data (sd_digests (sn_data s)))) gs /\
  forall C K now roots ctx, v2_results C K now roots ctx l = flat_map (verify_v2_signers C K now roots ctx 0) gs.
Proof.
  induction l as [|v l (gs&E1&E2&E3)]; [exists []; auto|].
  destruct v; try (exists gs; cbn; auto; fail).
  exists (sns_data (v2_signers v) :: gs). cbn. rewrite <- E1, <- E2.
  split; [reflexivity|split; [reflexivity|]]. intros. unfold v2_results in E3. cbn. now rewrite <- E3.
Qed.

Lemma v2_results_agree C K now roots c1 c2 l1 l2 :
  agree c1 c2 (v2_digest_entries l1) -> v2_part l1 = v2_part l2 ->
  v2_results C K now roots (Some c1) l1 = v2_results C K now roots (Some c2) l2.
Proof.
  destruct (v2_values_shape l1) as (g1&E1&D1&R1), (v2_values_shape l2) as (g2&E2&D2&R2).
  rewrite E1, D1, E2, R1, R2. clear. revert g2.
  induction g1 as [|x g1 IH]; intros [|y g2] A H; try discriminate; [reflexivity|].
  cbn [flat_map map] in *. assert (H1 : map v2_seen x = map v2_seen y) by congruence.
  assert (H2 : map (map v2_seen) g1 = map (map v2_seen) g2) by congruence.
  apply agree_app in A as [A1 A2]. f_equal; [apply v2_signers_agree; auto|apply IH; auto].
Qed.

Lemma stamp_results_first C K now roots ctx : forall l, stamp_results C K now roots ctx l =
  match first_stamp l with
  | None => []
  | Some s => [verify_stamp C K now roots ctx (stamp_message s) s]
  end.
Proof.
  induction l as [|v l IH]; [reflexivity|]. destruct v; cbn [stamp_results first_stamp]; auto.
  now rewrite stamp_raw.
Qed.

Lemma stamp_results_agree C K now roots c1 c2 l1 l2 :
  agree c1 c2 (first_stamp_entries l1) -> stamp_part l1 = stamp_part l2 ->
  stamp_results C K now roots (Some c1) l1 = stamp_results C K now roots (Some c2) l2.
Proof.
  rewrite !stamp_results_first. unfold first_stamp_entries, stamp_part.
  destruct (first_stamp l1) as [s1|], (first_stamp l2) as [s2|]; cbn [option_map]; intros A H; try discriminate; [|reflexivity].
  f_equal. assert (E : stamp_seen s1 = stamp_seen s2) by congruence.
  assert (M : stamp_message s1 = stamp_message s2) by (unfold stamp_seen, stamp_message in *; congruence).
  rewrite M. now apply stamp_agree.
Qed.

Lemma v2_entries_algos l : incl (map dg_algo (v2_digest_entries l)) (digest_algos l).
Proof.
  intros a H. unfold v2_digest_entries, digest_algos in *. apply in_map_iff in H as (e&<-&H).
  apply in_flat_map in H as (v&Hv&H). apply in_flat_map. exists v. split; [exact Hv|].
  destruct v as [|x| |]; try (now destruct H). apply in_flat_map in H as (s&Hs&H).
  apply in_flat_map. exists s. split; [exact Hs|]. now apply in_map.
Qed.
Lemma first_stamp_in l s : first_stamp l = Some s -> exists x, In (StampBlk x) l /\ ss_block x = s.
Proof.
  induction l as [|v l IH]; [discriminate|]. destruct v as [r|x|x|i]; cbn [first_stamp]; intros H;
    try (destruct (IH H) as (y&I&E); exists y; split; [now right|exact E]).
  injection H as <-. exists x. split; [now left|reflexivity].
Qed.
Lemma stamp_entries_algos l : incl (map dg_algo (first_stamp_entries l)) (digest_algos l).
Proof.
  intros a H. unfold first_stamp_entries, digest_algos in *.
  destruct (first_stamp l) as [s|] eqn:E; [|destruct H]. apply first_stamp_in in E as (x&I&<-).
  apply in_flat_map. exists (StampBlk x). auto.
Qed.

(** The digests read are the same in both views. *)
Lemma v2_entries_seen l1 l2 : v2_part l1 = v2_part l2 -> v2_digest_entries l1 = v2_digest_entries l2.
Proof.
  destruct (v2_values_shape l1) as (g1&E1&D1&_), (v2_values_shape l2) as (g2&E2&D2&_).
  rewrite E1, D1, E2, D2. clear. revert g2.
  induction g1 as [|x g1 IH]; intros [|y g2] H; try discriminate; [reflexivity|].
  cbn [flat_map map] in *. assert (H1 : map v2_seen x = map v2_seen y) by congruence.
  assert (H2 : map (map v2_seen) g1 = map (map v2_seen) g2) by congruence. f_equal; [|auto]. clear -H1. revert y H1.
  induction x as [|s x IH]; intros [|t y] H; try discriminate; [reflexivity|].
  cbn [map flat_map] in *. injection H as H1 H2 H3 H4. rewrite H1. f_equal. auto.
Qed.
Lemma stamp_entries_seen l1 l2 : stamp_part l1 = stamp_part l2 -> first_stamp_entries l1 = first_stamp_entries l2.
Proof.
  unfold stamp_part, first_stamp_entries. destruct (first_stamp l1), (first_stamp l2); cbn; intros H; try discriminate; [|reflexivity].
  unfold stamp_seen in H. congruence.
Qed.

Lemma verify_signed_shape p C K now ds z raw l roots : zip_ok z raw -> zip_small z raw -> block_bytes l raw ->
  exists ctx, (forall a, In a (digest_algos l) ->
      get_digest ctx (u32_of_algo a) = Some (tree_digest (hash C a) (zip_chunks (ds a) z))) /\
    m_verify_with_roots p C K now ds (module_new (with_block z raw)) (with_block z raw) roots =
    Ok (mkAll (verdict (v2_results C K now roots (Some ctx) l)) (verdict (stamp_results C K now roots (Some ctx) l))).
Proof.
  intros Hz Hs Hb. unfold m_verify_with_roots. rewrite (get_sb_signed p z raw l) by auto.
  change (bk_content (with_offsets (parsed_block raw l) _ _)) with l.
  destruct (fill_context_ok p C ds (module_new (with_block z raw)) (with_block z raw) (digest_algos l) ctx_new) as (ctx&E).
  { intros a. rewrite (m_digest_signed p C (ds a) z raw l a) by auto. eauto. }
  rewrite E. cbn [bind]. exists ctx. split; [|reflexivity]. intros a Ia.
  destruct Hb as ((pairs&W&Er)&Hm).
  apply (fill_context_iff _ _ _ _ _ _ _ (values_canonical _ _ W) E a _ Ia).
  apply (m_digest_signed p C (ds a) z raw l a); auto. split; [exists pairs; auto|auto].
Qed.

Theorem ignored : forall p C K now ds z raw1 raw2 l1 l2 roots,
  zip_ok z raw1 -> zip_small z raw1 -> zip_ok z raw2 -> zip_small z raw2 ->
  W_block l1 raw1 -> len raw1 <= MAX_SIGNING_BLOCK_SIZE + 8 ->
  W_block l2 raw2 -> len raw2 <= MAX_SIGNING_BLOCK_SIZE + 8 ->
  v2_part l1 = v2_part l2 -> stamp_part l1 = stamp_part l2 ->
  exists r,
    m_verify_with_roots p C K now ds (module_new (with_block z raw1)) (with_block z raw1) roots = Ok r /\
    m_verify_with_roots p C K now ds (module_new (with_block z raw2)) (with_block z raw2) roots = Ok r.
Proof.
  intros p C K now ds z raw1 raw2 l1 l2 roots Z1 S1 Z2 S2 W1 M1 W2 M2 V T.
  destruct (verify_signed_shape p C K now ds z raw1 l1 roots Z1 S1 (conj W1 M1)) as (c1&A1&E1).
  destruct (verify_signed_shape p C K now ds z raw2 l2 roots Z2 S2 (conj W2 M2)) as (c2&A2&E2).
  eexists. split; [exact E1|]. rewrite E2. do 2 f_equal; f_equal; symmetry.
  - apply v2_results_agree; auto. intros e I.
    rewrite A1, A2; [reflexivity| |]; apply v2_entries_algos, in_map; [rewrite <- (v2_entries_seen _ _ V)|]; exact I.
  - apply stamp_results_agree; auto. intros e I.
    rewrite A1, A2; [reflexivity| |]; apply stamp_entries_algos, in_map; [rewrite <- (stamp_entries_seen _ _ T)|]; exact I.
Qed.

(** Other values do not matter. *)
Lemma v2_part_values l : v2_part l = v2_part (signature_values l).
Proof. induction l as [|v l IH]; [reflexivity|]. destruct v; cbn; auto. unfold v2_part in IH. now rewrite IH. Qed.
Lemma stamp_part_values l : stamp_part l = stamp_part (signature_values l).
Proof. unfold stamp_part. f_equal. induction l as [|v l IH]; [reflexivity|]. destruct v; cbn; auto. Qed.

(** * Two explicit instances: the end of the V2 signed data, the end of the stamp's *)
Lemma lp_W_pub x : len x < U32 -> W_pub (pub_new x) (lp x).
Proof. intros H. rewrite <- pub_layout. apply pub_new_W. auto. Qed.
Lemma one_sig_W a sig : canonical a -> len (sig_layout a sig) < U32 ->
  W_sigs (sigs_new [sig_new a sig]) (sig_layout a sig).
Proof.
  intros Ha H. rewrite <- sigs_layout_eq in *. apply built_sigs_W.
  - eexists. split; [|reflexivity]. constructor; [|constructor]. do 2 eexists. eauto.
  - unfold sigs_to_u8 in H. rewrite len_sized in H; [lia|]. cbn [sigs_new sgs_size sgs_data fold_left flat_map].
    rewrite app_nil_r, sig_new_len. lia.
Qed.
Lemma pairs_W l : Forall (fun p : algorithms * bytes => canonical (fst p)) l -> len (digests_layout l) < U32 ->
  W_digests (digests_of_pairs l) (digests_layout l).
Proof.
  intros HF H. rewrite <- dgs_size_layout in H. rewrite <- digests_layout_eq. apply built_digests_W; [|lia].
  eexists. split; [|reflexivity]. apply Forall_map. eapply Forall_impl; [|exact HF].
  intros [a d] X. do 2 eexists. split; [exact X|reflexivity].
Qed.
Lemma certs_W l : len (certs_layout l) < U32 -> W_certs (certs_new (map cert_new l)) (certs_layout l).
Proof.
  intros H. rewrite <- cts_size_layout in H. rewrite <- certs_layout_eq. apply built_certs_W; [|lia].
  eexists. split; [|reflexivity]. apply Forall_map, Forall_forall. intros x _. eexists; reflexivity.
Qed.
Definition lit (p : N * bytes) : attribute := mkAttr (4 + len (snd p)) (fst p) (snd p).
Lemma attrs_W (l : list (N * bytes)) : Forall (fun p => fst p < U32) l -> len (attrs_layout l) < U32 ->
  W_attrs (attrs_new (map lit l)) (attrs_layout l).
Proof.
  intros HF H. rewrite <- ats_size_layout in H. rewrite <- attrs_layout_eq. apply built_attrs_W; [|unfold lit; lia].
  eexists. split; [|reflexivity]. apply Forall_map. eapply Forall_impl; [|exact HF].
  intros [i d] X. do 2 eexists. split; [exact X|reflexivity].
Qed.

Lemma v2_tail_W cfg l sig pub j :
  Forall (fun p : algorithms * bytes => canonical (fst p)) l -> canonical (sc_algo cfg) -> len j = 4 ->
  let signed := digests_layout l ++ certs_layout (sc_cert cfg :: sc_chain cfg) ++ attrs_layout [] ++ j in
  let v := V2Block (v2_new (signers_new [v2_one cfg (digests_of_pairs l) sig pub])) in
  value_inner_size v <= MAX_PAIR_SIZE -> W_value v (v2_pair signed (sc_algo cfg) sig pub).
Proof.
  intros HF Ha Hj signed v Hm.
  set (signed0 := v2_signed_layout l (sc_cert cfg :: sc_chain cfg)).
  assert (L : len signed = len signed0).
  { unfold signed, signed0, v2_signed_layout. rewrite !len_app, Hj. reflexivity. }
  pose proof (signed_part cfg l sig pub) as Hs. fold signed0 in Hs.
  assert (Hs' : sn_size (v2_one cfg (digests_of_pairs l) sig pub) = len (lp signed ++ sig_layout (sc_algo cfg) sig ++ lp pub)).
  { rewrite Hs. rewrite !len_app, !len_lp, L. reflexivity. }
  destruct (v2_value_layout cfg l sig pub) as (_&E2). fold v in E2. fold signed0 in E2.
  unfold v2_pair in E2. rewrite len_pair in E2. unfold value_size in E2. rewrite !len_lp, !len_app, !len_lp in E2.
  assert (Lt : len (lp signed ++ sig_layout (sc_algo cfg) sig ++ lp pub) + 20 < U32).
  { rewrite !len_app, !len_lp, L. unfold MAX_PAIR_SIZE, U32 in *. lia. }
  unfold v2_pair. set (inner := lp signed ++ sig_layout (sc_algo cfg) sig ++ lp pub) in *.
  assert (Li : len inner = 4 + len signed0 + len (sig_layout (sc_algo cfg) sig) + (4 + len pub)).
  { unfold inner. rewrite !len_app, !len_lp, L. lia. }
  exists (lp (lp inner)). rewrite !len_lp. split; [reflexivity|]. split; [lia|]. split; [lia|].
  split; [reflexivity|]. exists (lp (lp inner)), []. split; [|now rewrite app_nil_r].
  exists [lp inner]. cbn [v2_new v2_signers signers_new sns_data sns_size concat]. rewrite app_nil_r.
  assert (Hsz : fold_left (fun (s : N) (v0 : signer) => s + sn_size v0 + 4) [v2_one cfg (digests_of_pairs l) sig pub] 0 = len (lp inner)).
  { cbn [fold_left]. rewrite Hs', len_lp. lia. }
  split; [|rewrite Hsz; split; [reflexivity|split; [reflexivity|rewrite len_lp; lia]]].
  constructor; [|constructor].
  exists (lp signed), (sig_layout (sc_algo cfg) sig), (lp pub).
  assert (Lsd : len signed < U32) by (rewrite L; unfold inner in Lt; rewrite !len_app, !len_lp, L in Lt; lia).
  unfold v2_one. cbn [signer_new sn_data sn_sigs sn_key sn_size].
  split; [|split; [|split; [|split]]].
  - exists (digests_layout l), (certs_layout (sc_cert cfg :: sc_chain cfg)), (attrs_layout []), j.
    cbn [sd_new sd_digests sd_certs sd_attrs sd_size].
    pose proof (dgs_size_layout l) as S1. pose proof (cts_size_layout (sc_cert cfg :: sc_chain cfg)) as S2.
    assert (Lsd' := Lsd). unfold signed in Lsd'. rewrite !len_app in Lsd'.
    split; [apply pairs_W; auto; lia|]. split; [apply (certs_W (sc_cert cfg :: sc_chain cfg)); lia|].
    split; [apply (attrs_W []); [constructor|reflexivity]|].
    cbn [map] in S2.
    assert (E : 4 + dgs_size (digests_of_pairs l) + 4 + cts_size (certs_new (cert_new (sc_cert cfg) :: map cert_new (sc_chain cfg))) + 4 + ats_size (attrs_new []) + 4 = len signed).
    { unfold signed. rewrite !len_app, Hj. change (len (attrs_layout [])) with 4. change (ats_size (attrs_new [])) with 0. lia. }
    rewrite E. split; [reflexivity|split; [reflexivity|exact Lsd]].
  - apply one_sig_W; auto. lia.
  - apply lp_W_pub. lia.
  - unfold lp at 1. f_equal. f_equal. rewrite <- Hs'. reflexivity.
  - unfold v2_one in Hs'. cbn [signer_new sn_size] in Hs'. rewrite Hs'. lia.
Qed.

(** The same stamp, with its size fields enlarged for [n] ignored bytes. *)
Definition stamp_grown (n : N) (b : stamp_block) : value :=
  StampBlk (mkStamp (4 + 4 + (sb_size b + n)) SOURCE_STAMP_BLOCK_ID
    (mkSB (sb_size b + n) (sb_data b) (sb_sigs b) (sb_key b))).

Lemma stamp_tail_W cfg l sig pub now ts attrs j :
  Forall (fun p : algorithms * bytes => canonical (fst p)) l -> canonical (sc_algo cfg) ->
  stamp_attrs now ts = Ok attrs ->
  let signed := stamp_signed_layout l (sc_cert cfg) (attr_pairs now ts) ++ j in
  let body := stamp_pair signed (sc_algo cfg) sig pub in
  let s := stamp_one cfg attrs (digests_of_pairs l) sig pub in
  len body <= MAX_PAIR_SIZE -> W_value (stamp_grown (len j) s) body.
Proof.
  intros HF Ha Hat signed body s Hm.
  destruct (stamp_value_layout cfg l sig pub now ts attrs Hat) as (_&E2). fold s in E2.
  set (msg := stamp_signed_layout l (sc_cert cfg) (attr_pairs now ts)) in *.
  assert (L : len signed = len msg + len j) by (unfold signed; now rewrite len_app).
  unfold stamp_pair in E2. rewrite len_pair in E2. unfold value_size in E2. cbn [value_inner_size ss_new ss_size] in E2.
  rewrite !len_lp, !len_app, !len_lp in E2.
  unfold body, stamp_pair in *. set (inner := lp signed ++ sig_layout (sc_algo cfg) sig ++ lp pub) in *.
  assert (Li : len inner = 4 + len signed + len (sig_layout (sc_algo cfg) sig) + (4 + len pub)).
  { unfold inner. rewrite !len_app, !len_lp. lia. }
  rewrite len_pair, len_lp in Hm.
  assert (Es : sb_size s + len j = len inner) by lia.
  assert (Lt : len inner + 20 < U32) by (unfold MAX_PAIR_SIZE, U32 in *; lia).
  unfold stamp_grown. rewrite Es.
  exists (lp inner). rewrite len_lp. cbn [value_id value_inner_size ss_id ss_size ss_block].
  split; [reflexivity|]. split; [lia|]. split; [lia|]. split; [reflexivity|].
  exists (lp inner), []. split; [|now rewrite app_nil_r].
  exists (lp signed), (sig_layout (sc_algo cfg) sig), (lp pub), []. cbn [sb_size sb_data sb_sigs sb_key].
  rewrite !app_nil_r. fold inner.
  split; [|split; [apply one_sig_W; auto; lia|split; [apply lp_W_pub; lia|split; [reflexivity|split; [reflexivity|lia]]]]].
  assert (Ls : len signed < U32) by lia.
  apply stamp_attrs_pairs in Hat. unfold s, stamp_one. cbn [sb_new sb_data std_new].
  assert (Ls' := Ls). unfold signed, msg, stamp_signed_layout in Ls'. rewrite !len_app in Ls'.
  set (al := match attr_pairs now ts with Some t => [(STAMP_TIME_ATTR_ID, le 8 t)] | None => [] end) in *.
  assert (Hal : Forall (fun p : N * bytes => fst p < U32) al).
  { unfold al. destruct (attr_pairs now ts); constructor; [reflexivity|constructor]. }
  exists (digests_layout l), (certs_layout [sc_cert cfg]), (attrs_layout al), j.
  cbn [st_digests st_certs st_attrs].
  split; [apply pairs_W; auto; lia|]. split; [apply (certs_W [sc_cert cfg]); lia|].
  split; [subst attrs; apply (attrs_W al); auto; lia|].
  assert (E : digests_layout l ++ certs_layout [sc_cert cfg] ++ attrs_layout al ++ j = signed).
  { unfold signed, msg, stamp_signed_layout. fold al. now rewrite <- !app_assoc. }
  rewrite E. auto.
Qed.

Lemma W_values_app l1 r1 l2 r2 : W_values l1 r1 -> W_values l2 r2 -> W_values (l1 ++ l2) (r1 ++ r2).
Proof.
  intros (a&F1&->) (b&F2&->). exists (a ++ b). split; [now apply Forall2_app|now rewrite concat_app].
Qed.
Lemma W_values_one v r : W_value v r -> W_values [v] r.
Proof. intros H. exists [r]. split; [constructor; auto; constructor|]. cbn [concat]. now rewrite app_nil_r. Qed.

(** The parts of a block made by the module signer. *)
Lemma signed_parts : forall p C clk m l b, crypto_ok C -> Forall (fun p => canonical (fst p)) l ->
  ms_sign p C clk m (digests_of_pairs l) = Ok b -> exists v s pad,
  bk_content b = v ++ s ++ pad /\ W_block (bk_content b) (block_to_u8 b) /\
  len (block_to_u8 b) <= MAX_SIGNING_BLOCK_SIZE + 8 /\
  block_to_u8 b = block_layout (flat_map value_to_u8 v ++ flat_map value_to_u8 s ++ flat_map value_to_u8 pad) /\
  W_values v (flat_map value_to_u8 v) /\ W_values s (flat_map value_to_u8 s) /\ W_values pad (flat_map value_to_u8 pad) /\
  match ms_v2 m with
  | None => v = []
  | Some c => exists sig pub, canonical (sc_algo c) /\
      v = [V2Block (v2_new (signers_new [v2_one c (digests_of_pairs l) sig pub]))]
  end /\
  match ms_stamp m with
  | None => s = []
  | Some c => exists attrs sig pub, canonical (sc_algo c) /\ stamp_attrs clk (ms_timestamp m) = Ok attrs /\
      s = [StampBlk (ss_new (stamp_one c attrs (digests_of_pairs l) sig pub))]
  end /\ stamp_part pad = None /\ v2_part pad = [].
Proof.
  intros p C clk m l b HC HF H. pose proof (ms_sign_built _ _ _ _ _ _ HC HF H) as Hb.
  destruct (built_block_bytes b Hb) as ((HW&HM)&_&_).
  pose proof (built_block_fresh b Hb) as (l0&HB&Eb&Hs).
  apply ms_sign_inv in H; auto. destruct H as (v&s&pad&Hc&Hv&Hst&Hp&Hf&_).
  assert (El : l0 = v ++ s ++ pad) by (subst b; exact Hc). subst l0.
  exists v, s, pad. split; [exact Hc|]. split; [exact HW|]. split; [exact HM|].
  split; [rewrite Eb, fresh_block_u8 by auto; now rewrite !flat_map_app|].
  apply Forall_app in HB as (B1&B). apply Forall_app in B as (B2&B3).
  assert (Hcs : content_size v <= MAX_PAIR_SIZE /\ content_size s <= MAX_PAIR_SIZE /\ content_size pad <= MAX_PAIR_SIZE).
  { rewrite Eb in HM. rewrite fresh_block_len in HM by (rewrite !Forall_app; auto).
    rewrite content_size_sum, !sumN_app, <- !content_size_sum in HM. unfold MAX_SIGNING_BLOCK_SIZE, MAX_PAIR_SIZE in *. lia. }
  destruct Hcs as (C1&C2&C3).
  split; [now apply built_values_W|]. split; [now apply built_values_W|]. split; [now apply built_values_W|].
  split; [|split].
  - destruct (ms_v2 m) as [c|]; [|exact Hv]. destruct Hv as (x&Hx&->).
    apply v2_sign_inv in Hx. destruct Hx as (sig&pub&->&Hsg&_). exists sig, pub. split; [|reflexivity].
    unfold algo_sign in Hsg. destruct (sc_algo c); [exact I|exact I|discriminate].
  - destruct (ms_stamp m) as [c|]; [|exact Hst]. destruct Hst as (x&Hx&->).
    apply stamp_sign_inv in Hx. destruct Hx as (attrs&sig&pub&Hat&->&Hsg&_). exists attrs, sig, pub. split; [|auto].
    unfold algo_sign in Hsg. destruct (sc_algo c); [exact I|exact I|discriminate].
  - destruct Hp as [->|(n&_&->)]; split; reflexivity.
Qed.

Lemma zip_same_len z a b : len a = len b -> zip_ok z a -> zip_small z a -> zip_ok z b /\ zip_small z b.
Proof.
  intros E (H1&H2&H3&H4) S. split; [unfold zip_ok; rewrite <- E; auto|].
  unfold zip_small in *. rewrite len_with_block in * by exact H1. now rewrite <- E.
Qed.


Theorem v2_tail_ignored : forall p q C K clk now ds z m l b c j roots,
  crypto_ok C -> Forall (fun p : algorithms * bytes => canonical (fst p)) l ->
  ms_sign p C clk m (digests_of_pairs l) = Ok b -> ms_v2 m = Some c -> len j = 4 ->
  zip_ok z (block_to_u8 b) -> zip_small z (block_to_u8 b) ->
  exists sig pub rest,
    let d := digests_layout l ++ certs_layout (sc_cert c :: sc_chain c) ++ attrs_layout [] in
    let changed := block_layout (v2_pair (d ++ j) (sc_algo c) sig pub ++ rest) in
    block_to_u8 b = block_layout (v2_pair (d ++ [x00; x00; x00; x00]) (sc_algo c) sig pub ++ rest) /\
    exists r,
      m_verify_with_roots q C K now ds (module_new (with_block z (block_to_u8 b))) (with_block z (block_to_u8 b)) roots = Ok r /\
      m_verify_with_roots q C K now ds (module_new (with_block z changed)) (with_block z changed) roots = Ok r.
Proof.
  intros p q C K clk now ds z m l b c j roots HC HF H Em Hj Z1 S1.
  destruct (signed_parts _ _ _ _ _ _ HC HF H) as (v&s&pad&Hc&HW&HM&HU&W1&W2&W3&Hv&_&_&_).
  rewrite Em in Hv. destruct Hv as (sig&pub&Ha&Ev).
  destruct (v2_value_layout c l sig pub) as (E1&_).
  exists sig, pub, (flat_map value_to_u8 s ++ flat_map value_to_u8 pad). cbv zeta.
  set (d := digests_layout l ++ certs_layout (sc_cert c :: sc_chain c) ++ attrs_layout []).
  assert (Ed : d ++ [x00; x00; x00; x00] = v2_signed_layout l (sc_cert c :: sc_chain c)).
  { unfold d, v2_signed_layout. now rewrite <- !app_assoc. }
  assert (EU : block_to_u8 b = block_layout (v2_pair (d ++ [x00; x00; x00; x00]) (sc_algo c) sig pub ++
     flat_map value_to_u8 s ++ flat_map value_to_u8 pad)).
  { rewrite HU, Ev. cbn [flat_map]. rewrite app_nil_r, E1, Ed. reflexivity. }
  split; [exact EU|].
  set (changed := block_layout _).
  assert (EL : len (block_to_u8 b) = len changed).
  { rewrite EU. unfold changed. rewrite !len_block_layout, !len_app. unfold v2_pair. rewrite !len_pair, !len_lp, !len_app, !len_lp, !len_app, Hj. reflexivity. }
  destruct (zip_same_len z _ _ EL Z1 S1) as (Z2&S2).
  apply (ignored q C K now ds z (block_to_u8 b) changed (bk_content b) (bk_content b)); auto; [|lia].
  exists (v2_pair (d ++ j) (sc_algo c) sig pub ++ flat_map value_to_u8 s ++ flat_map value_to_u8 pad).
  split; [|reflexivity]. rewrite Hc. apply W_values_app; [|now apply W_values_app].
  rewrite Ev. apply W_values_one. unfold d. rewrite <- !app_assoc. apply v2_tail_W; auto.
  rewrite Ev in W1. apply W_values_limit in W1. inversion W1; subst. lia.
Qed.

Theorem stamp_tail_ignored : forall p q C K clk now ds z m l b c j roots,
  crypto_ok C -> Forall (fun p : algorithms * bytes => canonical (fst p)) l ->
  ms_sign p C clk m (digests_of_pairs l) = Ok b -> ms_stamp m = Some c ->
  zip_ok z (block_to_u8 b) -> zip_small z (block_to_u8 b) ->
  exists sig pub first rest,
    let d := stamp_signed_layout l (sc_cert c) (if ms_timestamp m then clk else None) in
    let changed := block_layout (first ++ stamp_pair (d ++ j) (sc_algo c) sig pub ++ rest) in
    block_to_u8 b = block_layout (first ++ stamp_pair d (sc_algo c) sig pub ++ rest) /\
    (len (block_to_u8 b) + len j <= MAX_SIGNING_BLOCK_SIZE + 8 -> zip_ok z changed -> zip_small z changed ->
    exists r,
      m_verify_with_roots q C K now ds (module_new (with_block z (block_to_u8 b))) (with_block z (block_to_u8 b)) roots = Ok r /\
      m_verify_with_roots q C K now ds (module_new (with_block z changed)) (with_block z changed) roots = Ok r).
Proof.
  intros p q C K clk now ds z m l b c j roots HC HF H Em Z1 S1.
  destruct (signed_parts _ _ _ _ _ _ HC HF H) as (v&s&pad&Hc&HW&HM&HU&W1&W2&W3&Hv&Hs&P1&P2).
  rewrite Em in Hs. destruct Hs as (attrs&sig&pub&Ha&Hat&Ev).
  destruct (stamp_value_layout c l sig pub clk (ms_timestamp m) attrs Hat) as (E1&_).
  exists sig, pub, (flat_map value_to_u8 v), (flat_map value_to_u8 pad). cbv zeta.
  change (if ms_timestamp m then clk else None) with (attr_pairs clk (ms_timestamp m)).
  set (d := stamp_signed_layout l (sc_cert c) (attr_pairs clk (ms_timestamp m))) in *.
  assert (EU : block_to_u8 b = block_layout (flat_map value_to_u8 v ++ stamp_pair d (sc_algo c) sig pub ++ flat_map value_to_u8 pad)).
  { rewrite HU, Ev. cbn [flat_map]. rewrite app_nil_r, E1. reflexivity. }
  split; [exact EU|]. intros HL Z2 S2.
  set (changed := block_layout (flat_map value_to_u8 v ++ stamp_pair (d ++ j) (sc_algo c) sig pub ++ flat_map value_to_u8 pad)) in *.
  assert (EL : len changed = len (block_to_u8 b) + len j).
  { rewrite EU. unfold changed. rewrite !len_block_layout, !len_app. unfold stamp_pair.
    rewrite !len_pair, !len_lp, !len_app, !len_lp, ?len_app. lia. }
  set (st := stamp_one c attrs (digests_of_pairs l) sig pub) in *.
  apply (ignored q C K now ds z (block_to_u8 b) changed (bk_content b) (v ++ [stamp_grown (len j) st] ++ pad)); auto.
  - exists (flat_map value_to_u8 v ++ stamp_pair (d ++ j) (sc_algo c) sig pub ++ flat_map value_to_u8 pad).
    split; [|reflexivity]. apply W_values_app; [exact W1|]. apply W_values_app; [|exact W3].
    apply W_values_one. apply stamp_tail_W; auto. fold d.
    assert (len (stamp_pair (d ++ j) (sc_algo c) sig pub) + 32 <= len changed).
    { unfold changed. rewrite len_block_layout, !len_app. lia. }
    unfold MAX_SIGNING_BLOCK_SIZE, MAX_PAIR_SIZE in *. lia.
  - lia.
  - rewrite Hc, Ev. unfold v2_part. rewrite !flat_map_app. reflexivity.
  - rewrite Hc, Ev. assert (Hf : first_stamp v = None).
    { destruct (ms_v2 m); [destruct Hv as (?&?&_&->)|rewrite Hv]; reflexivity. }
    assert (X : forall x y, first_stamp (v ++ StampBlk x :: y) = Some (ss_block x)).
    { intros x y. clear -Hf. induction v as [|a v IH]; [reflexivity|]. destruct a; cbn in *; auto. discriminate. }
    unfold stamp_part. cbn [app]. unfold stamp_grown. rewrite !X. reflexivity.
Qed.
