(** DigestRaceFacts.v - digests of a file that changes while it is read. *)
From Verif Require Import Base BaseFacts Algorithms SigningBlock Zip Digest DigestFacts Module ZipSpec ModuleFacts DigestRace DigestRaceSpec.
From Coq Require Import Lia.
Open Scope N_scope.
Open Scope list_scope.

(** ** Places *)
Lemma nth_skip {A} : forall k (l : list A) i, nth_error (skipn k l) i = nth_error l (k + i).
Proof. induction k as [|k IH]; intros [|x l] i; cbn [skipn Nat.add nth_error]; auto. now destruct i. Qed.
Lemma nth_first {A} : forall n (l : list A) i b, nth_error (firstn n l) i = Some b -> nth_error l i = Some b /\ (i < n)%nat.
Proof.
  induction n as [|n IH]; intros [|x l] [|i] b; cbn [firstn nth_error]; try discriminate.
  - intros H. split; [exact H|lia].
  - intros H. apply IH in H as [A1 A2]. split; [exact A1|lia].
Qed.
Lemma nth_take {A} n (l : list A) i b : nth_error (takeN n l) i = Some b -> nth_error l i = Some b /\ (i < N.to_nat n)%nat.
Proof. rewrite takeN_firstn. apply nth_first. Qed.
Lemma nth_drop {A} n (l : list A) i : nth_error (dropN n l) i = nth_error l (N.to_nat n + i).
Proof. rewrite dropN_skipn. apply nth_skip. Qed.
Lemma nth_appl {A} (a b : list A) i x : nth_error (a ++ b) i = Some x ->
  nth_error a i = Some x \/ (length a <= i)%nat /\ nth_error b (i - length a) = Some x.
Proof.
  intros H. destruct (Nat.lt_ge_cases i (length a)) as [L|L].
  - left. now rewrite nth_error_app1 in H.
  - right. split; [exact L|]. now rewrite nth_error_app2 in H.
Qed.
Lemma len_length {A} (l : list A) : N.to_nat (len l) = length l.
Proof. unfold len. lia. Qed.
Lemma nil_len {A} (l : list A) : len l = 0 -> l = [].
Proof. destruct l; [reflexivity|rewrite len_cons; lia]. Qed.

(** ** What is read *)
Definition seen (V : nat -> bytes) (pos : N) (x : bytes) : Prop :=
  forall i b, nth_error x i = Some b -> exists k, nth_error (V k) (N.to_nat pos + i) = Some b.
Lemma seen_cons V k pos c n x : c = takeN n (dropN pos (V k)) -> seen V (pos + len c) x -> seen V pos (c ++ x).
Proof.
  intros E H i b X. apply nth_appl in X as [X|[G X]].
  - rewrite E in X. apply nth_take in X as [X _]. rewrite nth_drop in X. eauto.
  - apply H in X as (k' & X). exists k'. rewrite <- X. f_equal. pose proof (len_length c). lia.
Qed.
Lemma seen_nil V pos : seen V pos [].
Proof. intros [|i] b [=]. Qed.

Lemma region_read L V sched : (forall k, len (V k) = L) -> forall fuel k pos left, (N.to_nat left <= fuel)%nat ->
  let x := concat (chunks_r V sched k fuel pos left) in
  len x = N.min left (L - pos) /\ seen V pos x /\ forall f, (length x <= f)%nat -> chunks sched k f x = chunks_r V sched k fuel pos left.
Proof.
  intros HL. induction fuel as [|fuel IH]; intros k pos left F; cbn [chunks_r].
  - cbn [concat]. rewrite len_nil. split; [lia|]. split; [apply seen_nil|]. intros [|f] _; reflexivity.
  - destruct (takeN left (dropN pos (V k))) as [|a0 av] eqn:E.
    + cbn [concat]. rewrite len_nil. assert (Z : len (takeN left (dropN pos (V k))) = 0) by now rewrite E.
      rewrite len_takeN, len_dropN, HL in Z. split; [lia|]. split; [apply seen_nil|]. intros [|f] _; reflexivity.
    + rewrite <- E. assert (Z : 0 < len (takeN left (dropN pos (V k)))) by (rewrite E, len_cons; lia). clear E a0 av.
      set (n := N.max 1 (N.min (sched k) CHUNK_SIZE)). set (av := takeN left (dropN pos (V k))) in *. set (c := takeN n av).
      assert (Lav : len av = N.min left (L - pos)) by (unfold av; now rewrite len_takeN, len_dropN, HL).
      assert (Lc : len c = N.min n (len av)) by apply len_takeN.
      assert (Hn : 1 <= n) by (unfold n; lia).
      specialize (IH (S k) (pos + len c) (left - len c) ltac:(lia)). cbv zeta in IH |- *. cbn [concat].
      set (rest := chunks_r V sched (S k) fuel (pos + len c) (left - len c)) in *. destruct IH as (I1 & I2 & I3).
      split; [rewrite len_app, I1; lia|]. split.
      * apply (seen_cons V k pos c (N.min n left)); [|exact I2]. unfold c, av. now rewrite takeN_takeN.
      * intros [|f] Hf.
        -- assert (Y : len (c ++ concat rest) = 0) by (unfold len; lia). rewrite len_app in Y. lia.
        -- assert (D : takeN n (c ++ concat rest) = c /\ dropN n (c ++ concat rest) = concat rest).
           { destruct (N.le_gt_cases n (len av)) as [Q|Q].
             - assert (len c = n) by lia. split; [now apply takeN_app_eq|now apply dropN_app_eq].
             - assert (X : concat rest = []) by (apply nil_len; lia). rewrite X, app_nil_r. split; [apply takeN_all; lia|apply dropN_all; lia]. }
           destruct D as [D1 D2]. destruct (c ++ concat rest) as [|y ys] eqn:Y.
           { assert (Y' : len (c ++ concat rest) = 0) by now rewrite Y. rewrite len_app in Y'. lia. }
           cbn [chunks]. fold n. rewrite D1, D2. f_equal. apply I3.
           assert (length (c ++ concat rest) = length (y :: ys)) by now rewrite Y. rewrite app_length in H. pose proof (len_length c). lia.
Qed.
Lemma end_read L V sched : (forall k, len (V k) = L) -> forall fuel k pos x,
  read_end V sched k fuel pos = Some x -> len x = L - pos /\ seen V pos x.
Proof.
  intros HL. induction fuel as [|fuel IH]; intros k pos x; cbn [read_end]; [discriminate|].
  destruct (dropN pos (V k)) as [|a0 av] eqn:E.
  - intros [= <-]. assert (Z : len (dropN pos (V k)) = 0) by now rewrite E. rewrite len_dropN, HL in Z. rewrite len_nil. split; [lia|apply seen_nil].
  - rewrite <- E. set (c := takeN (N.max 1 (sched k)) (dropN pos (V k))).
    assert (Lc : len c = N.min (N.max 1 (sched k)) (L - pos)) by (unfold c; now rewrite len_takeN, len_dropN, HL).
    destruct (read_end V sched (S k) fuel (pos + len c)) as [r|] eqn:R; [|discriminate]. intros [= <-]. apply IH in R as [R1 R2].
    split; [rewrite len_app; lia|]. eapply seen_cons; [reflexivity|exact R2].
Qed.
Lemma end_finishes L V sched : (forall k, len (V k) = L) -> forall fuel k pos, (N.to_nat (L - pos) < fuel)%nat ->
  exists x, read_end V sched k fuel pos = Some x.
Proof.
  intros HL. induction fuel as [|fuel IH]; intros k pos F; [lia|]. cbn [read_end].
  destruct (dropN pos (V k)) as [|a0 av] eqn:E; [eauto|]. rewrite <- E.
  assert (Z : 0 < len (dropN pos (V k))) by (rewrite E, len_cons; lia). rewrite len_dropN, HL in Z.
  set (c := takeN (N.max 1 (sched k)) (dropN pos (V k))).
  assert (Lc : len c = N.min (N.max 1 (sched k)) (L - pos)) by (unfold c; now rewrite len_takeN, len_dropN, HL).
  destruct (IH (S k) (pos + len c) ltac:(lia)) as (x & ->). eauto.
Qed.

(** ** Writing what was read over a file *)
Definition overlay (g : bytes) (pos : N) (x : bytes) : bytes := takeN pos g ++ x ++ dropN (pos + len x) g.
Definition fits (L pos : N) (x : bytes) : Prop := len x = 0 \/ pos + len x <= L.
Lemma overlay_len g pos x : fits (len g) pos x -> len (overlay g pos x) = len g.
Proof. intros F. unfold overlay, fits in *. rewrite !len_app, len_takeN, len_dropN. lia. Qed.
Lemma overlay_nil g pos x : len x = 0 -> overlay g pos x = g.
Proof. intros Z. apply nil_len in Z. subst x. unfold overlay. rewrite len_nil, N.add_0_r. cbn [app]. apply take_drop. Qed.
Lemma overlay_same g pos x size : len x = N.min size (len g - pos) -> taken (overlay g pos x) pos size = x.
Proof.
  intros H. unfold taken. destruct (N.le_gt_cases (len g) pos) as [G|G].
  - rewrite overlay_nil by lia. rewrite dropN_all by lia. rewrite takeN_nil. symmetry. apply nil_len. lia.
  - unfold overlay. rewrite dropN_app_r by (rewrite len_takeN; lia). rewrite len_takeN.
    replace (pos - N.min pos (len g)) with 0 by lia. rewrite dropN_0. destruct (N.le_gt_cases size (len g - pos)) as [S|S].
    + apply takeN_app_eq. lia.
    + rewrite (dropN_all (pos + len x)) by lia. rewrite app_nil_r. apply takeN_all. lia.
Qed.
Lemma overlay_end g pos x : len x = len g - pos -> dropN pos (overlay g pos x) = x.
Proof.
  intros H. rewrite <- (overlay_same g pos x (len x)) at 2 by lia. unfold taken. symmetry. apply takeN_all.
  rewrite len_dropN, overlay_len; [lia|]. unfold fits. lia.
Qed.
Lemma overlay_before g pos x s n : fits (len g) pos x -> s + n <= pos -> taken (overlay g pos x) s n = taken g s n.
Proof.
  intros F H. destruct (N.eq_dec (len x) 0) as [Z|Z]; [now rewrite overlay_nil|]. unfold fits in F. unfold taken, overlay.
  rewrite dropN_app_l by (rewrite len_takeN; lia). rewrite takeN_app_l by (rewrite len_dropN, len_takeN; lia).
  rewrite (takeN_dropN_comm n s (takeN pos g)), takeN_takeN. replace (N.min (s + n) pos) with (s + n) by lia. symmetry. apply takeN_dropN_comm.
Qed.
Lemma overlay_mix V g pos x r : mixture_of V g -> seen (V r) pos x -> fits (len g) pos x -> mixture_of V (overlay g pos x).
Proof.
  intros M S F. destruct (N.eq_dec (len x) 0) as [Z|Z]; [now rewrite overlay_nil|]. unfold fits in F. intros i b H. unfold overlay in H.
  assert (Lt : length (takeN pos g) = N.to_nat pos) by (rewrite <- len_length, len_takeN; lia).
  apply nth_appl in H as [H|[G H]].
  - apply nth_take in H as [H _]. now apply M.
  - apply nth_appl in H as [H|[G2 H]].
    + apply S in H as (k & H). exists r, k. rewrite <- H. f_equal. lia.
    + rewrite nth_drop in H. apply M. rewrite <- H. f_equal. pose proof (len_length x). lia.
Qed.

(** ** The digest *)
Lemma usub_le p a b : b <= a -> usub p a b = Ok (a - b).
Proof. apply usub_ok. Qed.
Lemma mixture p C sched V fuel o a L d : in_place V L -> in_order o -> digest_module_r p C sched V fuel o a = Some (Ok d) ->
  exists g, len g = L /\ mixture_of V g /\ digest_module p C sched g o a = Ok d.
Proof.
  intros HL (O1 & O2 & O3 & O4). unfold digest_module_r, digest_region_r, digest_eocd_r. rewrite (usub_le p _ _ O1), (usub_le p _ _ O3). cbn [bind].
  destruct (seek (fo_start_content o)) as [[]|?|] eqn:S1; cbn [bind]; try discriminate.
  destruct (seek (fo_start_cd o)) as [[]|?|] eqn:S2; cbn [bind]; try discriminate.
  destruct (usub p (fo_stop_eocd o) (fo_start_eocd o)) as [n3|?|] eqn:U3; cbn [bind]; try discriminate.
  destruct (seek (fo_start_eocd o)) as [[]|?|] eqn:S3; cbn [bind]; try discriminate.
  destruct (I64 <=? n3) eqn:B; [discriminate|].
  destruct (region_read L (V 0%nat) (sched 0%nat) (HL 0%nat) (N.to_nat (fo_stop_content o - fo_start_content o)) 0 (fo_start_content o) _ (Nat.le_refl _)) as (A1 & A2 & A3).
  destruct (region_read L (V 1%nat) (sched 1%nat) (HL 1%nat) (N.to_nat (fo_stop_cd o - fo_start_cd o)) 0 (fo_start_cd o) _ (Nat.le_refl _)) as (B1 & B2 & B3).
  set (x1 := concat (chunks_r (V 0%nat) _ _ _ _ _)) in *. set (x2 := concat (chunks_r (V 1%nat) _ _ _ _ _)) in *.
  rewrite <- (A3 _ (Nat.le_refl _)), <- (B3 _ (Nat.le_refl _)). clear A3 B3. clearbody x1 x2.
  destruct (read_end (V 2%nat) (sched 2%nat) 0 fuel (fo_start_eocd o)) as [x3|] eqn:R; [|discriminate].
  apply (end_read L _ _ (HL 2%nat)) in R as [C1 C2]. intros X.
  set (g0 := V 0%nat 0%nat). assert (L0 : len g0 = L) by apply HL. assert (M0 : mixture_of V g0) by (intros i b H; eauto). clearbody g0.
  set (g1 := overlay g0 (fo_start_content o) x1). assert (F1 : fits (len g0) (fo_start_content o) x1) by (unfold fits; lia).
  assert (L1 : len g1 = L) by (unfold g1; now rewrite overlay_len). assert (M1 : mixture_of V g1) by (now apply (overlay_mix V _ _ _ 0)).
  set (g2 := overlay g1 (fo_start_cd o) x2). assert (F2 : fits (len g1) (fo_start_cd o) x2) by (unfold fits; lia).
  assert (L2 : len g2 = L) by (unfold g2; now rewrite overlay_len). assert (M2 : mixture_of V g2) by (now apply (overlay_mix V _ _ _ 1)).
  set (g3 := overlay g2 (fo_start_eocd o) x3). assert (F3 : fits (len g2) (fo_start_eocd o) x3) by (unfold fits; lia).
  assert (L3 : len g3 = L) by (unfold g3; now rewrite overlay_len). assert (M3 : mixture_of V g3) by (now apply (overlay_mix V _ _ _ 2)).
  exists g3. split; [exact L3|]. split; [exact M3|]. unfold digest_module, digest_region, digest_eocd.
  rewrite (usub_le p _ _ O1), (usub_le p _ _ O3), U3, S1, S2, S3. cbn [bind]. rewrite B.
  assert (T1 : taken g3 (fo_start_content o) (fo_stop_content o - fo_start_content o) = x1).
  { unfold g3. rewrite overlay_before by (auto; lia). unfold g2. rewrite overlay_before by (auto; lia). apply overlay_same. lia. }
  assert (T2 : taken g3 (fo_start_cd o) (fo_stop_cd o - fo_start_cd o) = x2).
  { unfold g3. rewrite overlay_before by (auto; lia). apply overlay_same. lia. }
  assert (T3 : dropN (fo_start_eocd o) g3 = x3) by (apply overlay_end; lia).
  rewrite T1, T2, T3. cbv zeta. unfold read_chunks.
  destruct (len x3 <? 16); [discriminate|]. destruct (len x3 <? 20); [discriminate|]. cbn [bind]. now injection X as <-.
Qed.

(** ** Changes elsewhere *)
Lemma list_ext {A} : forall l m : list A, (forall i, nth_error l i = nth_error m i) -> l = m.
Proof.
  induction l as [|x l IH]; intros [|y m] H; [reflexivity|specialize (H 0%nat); discriminate..|].
  pose proof (H 0%nat) as E. injection E as <-. f_equal. apply IH. intros i. exact (H (S i)).
Qed.
Lemma nth_first_lt {A} : forall n (l : list A) i, (i < n)%nat -> nth_error (firstn n l) i = nth_error l i.
Proof. induction n as [|n IH]; intros [|x l] [|i] H; cbn [firstn nth_error]; auto; try lia. apply IH. lia. Qed.
Lemma agree_taken (f g : bytes) s n : (forall i, s <= N.of_nat i < s + n -> nth_error f i = nth_error g i) -> takeN n (dropN s f) = takeN n (dropN s g).
Proof.
  intros H. apply list_ext. intros i. destruct (Nat.lt_ge_cases i (N.to_nat n)) as [Q|Q].
  - rewrite !takeN_firstn, !nth_first_lt by exact Q. rewrite !nth_drop. apply H. lia.
  - rewrite !(proj2 (nth_error_None _ _)); [reflexivity| |]; rewrite <- len_length, len_takeN; lia.
Qed.
Lemma agree_dropped (f g : bytes) s : (forall i, s <= N.of_nat i -> nth_error f i = nth_error g i) -> dropN s f = dropN s g.
Proof. intros H. apply list_ext. intros i. rewrite !nth_drop. apply H. lia. Qed.

Lemma chunks_step sched k fu (data : bytes) : 0 < len data ->
  chunks sched k (S fu) data = takeN (N.max 1 (N.min (sched k) CHUNK_SIZE)) data :: chunks sched (S k) fu (dropN (N.max 1 (N.min (sched k) CHUNK_SIZE)) data).
Proof. destruct data; [cbn; lia|reflexivity]. Qed.
Lemma region_stable V sched f : forall fuel k pos left fu,
  (forall k i, pos <= N.of_nat i < pos + left -> nth_error (V k) i = nth_error f i) -> (N.to_nat left <= fuel)%nat ->
  (length (takeN left (dropN pos f)) <= fu)%nat ->
  chunks_r V sched k fuel pos left = chunks sched k fu (takeN left (dropN pos f)).
Proof.
  induction fuel as [|fuel IH]; intros k pos left fu A F G; cbn [chunks_r].
  - replace left with 0 by lia. rewrite takeN_0. now destruct fu.
  - rewrite (agree_taken _ _ _ _ (A k)). set (data := takeN left (dropN pos f)) in *.
    assert (Ld : len data = N.min left (len f - pos)) by (unfold data; now rewrite len_takeN, len_dropN).
    destruct data as [|a0 av] eqn:E; [now destruct fu|]. rewrite <- E in *.
    assert (Z : 0 < len data) by (rewrite E, len_cons; lia). destruct fu as [|fu]; [rewrite E in G; cbn [length] in G; lia|].
    cbv zeta. set (n := N.max 1 (N.min (sched k) CHUNK_SIZE)).
    assert (Hn : 1 <= n) by (unfold n; lia). assert (Lc : len (takeN n data) = N.min n (len data)) by apply len_takeN.
    assert (R : takeN (left - len (takeN n data)) (dropN (pos + len (takeN n data)) f) = dropN n data).
    { destruct (N.le_gt_cases n (len data)) as [Q|Q].
      - rewrite Lc. replace (N.min n (len data)) with n by lia. unfold data. rewrite <- dropN_dropN, takeN_dropN_comm. f_equal. f_equal. lia.
      - rewrite (dropN_all n) by lia. apply nil_len. rewrite len_takeN, len_dropN. lia. }
    rewrite (IH (S k) _ _ fu); [|intros k' i Hi; apply A; lia|lia|].
    + rewrite R. symmetry. apply chunks_step. lia.
    + rewrite R. pose proof (len_length data). pose proof (len_length (dropN n data)). rewrite len_dropN in *. lia.
Qed.
Lemma end_stable V sched f : forall fuel k pos, (forall k i, pos <= N.of_nat i -> nth_error (V k) i = nth_error f i) ->
  (N.to_nat (len f - pos) < fuel)%nat -> read_end V sched k fuel pos = Some (dropN pos f).
Proof.
  induction fuel as [|fuel IH]; intros k pos A F; [lia|]. cbn [read_end]. rewrite (agree_dropped _ _ _ (A k)).
  pose proof (len_dropN pos f) as Ld. destruct (dropN pos f) as [|a0 av] eqn:E; [reflexivity|]. rewrite <- E in *.
  assert (Z : 0 < len (dropN pos f)) by (rewrite E, len_cons; lia).
  cbv zeta. set (c := takeN (N.max 1 (sched k)) (dropN pos f)). assert (Lc : len c = N.min (N.max 1 (sched k)) (len f - pos)) by (unfold c; now rewrite len_takeN, Ld).
  rewrite IH; [|intros k' i Hi; apply A; lia|lia]. f_equal. transitivity (c ++ dropN (N.max 1 (sched k)) (dropN pos f)); [f_equal|apply take_drop].
  rewrite dropN_dropN, Lc. destruct (N.le_gt_cases (N.max 1 (sched k)) (len f - pos)) as [Q|Q]; [f_equal; lia|]. rewrite !dropN_all by lia. reflexivity.
Qed.
Lemma stable p C sched V fuel o a f : fo_start_content o <= fo_stop_content o -> fo_start_cd o <= fo_stop_cd o ->
  (forall r k i, digested o i -> nth_error (V r k) i = nth_error f i) -> (length f < fuel)%nat ->
  digest_module_r p C sched V fuel o a = Some (digest_module p C sched f o a).
Proof.
  intros O1 O3 A F. unfold digest_module_r, digest_module, digest_region_r, digest_region, digest_eocd_r, digest_eocd, read_chunks, taken.
  rewrite !(usub_le p _ _ O1), !(usub_le p _ _ O3). cbn [bind].
  assert (A0 : forall k i, fo_start_content o <= N.of_nat i < fo_start_content o + (fo_stop_content o - fo_start_content o) -> nth_error (V 0%nat k) i = nth_error f i)
    by (intros k i H; apply A; left; lia).
  assert (A1 : forall k i, fo_start_cd o <= N.of_nat i < fo_start_cd o + (fo_stop_cd o - fo_start_cd o) -> nth_error (V 1%nat k) i = nth_error f i)
    by (intros k i H; apply A; right; left; lia).
  rewrite (region_stable _ (sched 0%nat) f _ _ _ _ _ A0 (Nat.le_refl _) (Nat.le_refl _)), (region_stable _ (sched 1%nat) f _ _ _ _ _ A1 (Nat.le_refl _) (Nat.le_refl _)).
  destruct (seek (fo_start_content o)) as [[]|?|]; cbn [bind]; [|reflexivity..].
  destruct (seek (fo_start_cd o)) as [[]|?|]; cbn [bind]; [|reflexivity..].
  destruct (usub p (fo_stop_eocd o) (fo_start_eocd o)) as [n3|?|]; cbn [bind]; [|reflexivity..].
  destruct (seek (fo_start_eocd o)) as [[]|?|]; cbn [bind]; [|reflexivity..].
  destruct (I64 <=? n3); [reflexivity|].
  rewrite (end_stable (V 2%nat) (sched 2%nat) f); [|intros k i H; apply A; right; right; exact H|pose proof (len_length f); lia].
  cbv zeta. destruct (len _ <? 16); [reflexivity|]. now destruct (len _ <? 20).
Qed.
Lemma finishes p C sched V fuel o a L : in_place V L -> (N.to_nat L < fuel)%nat -> digest_module_r p C sched V fuel o a <> None.
Proof.
  intros HL F. unfold digest_module_r. match goal with |- context [match ?m with Ok _ => _ | Err _ => _ | Panic => _ end] => destruct m as [[[d1 d2] n3]|?|] end; try discriminate.
  unfold digest_eocd_r. destruct (seek _); [|discriminate..]. destruct (I64 <=? n3); [discriminate|].
  destruct (end_finishes L (V 2%nat) (sched 2%nat) (HL 2%nat) fuel 0 (fo_start_eocd o) ltac:(lia)) as (x & ->).
  destruct (len x <? 16); [discriminate|]. destruct (len x <? 20); discriminate.
Qed.

(** ** Signed archives *)
Lemma nth_after (a b c d : bytes) i : length b = length c -> (i < length a \/ length a + length b <= i)%nat ->
  nth_error (a ++ b ++ d) i = nth_error (a ++ c ++ d) i.
Proof.
  intros E [H|H]; [now rewrite !nth_error_app1|]. rewrite !(nth_error_app2 a) by lia. rewrite !nth_error_app2 by lia. f_equal. lia.
Qed.
Lemma block_differs z raw v i : block_may_differ z raw v ->
  (N.of_nat i < len (z_entries z) \/ len (z_entries z) + len raw <= N.of_nat i) -> nth_error v i = nth_error (with_block z raw) i.
Proof.
  intros (raw' & E & ->) H. unfold with_block. rewrite E. pose proof (len_length (z_entries z)). pose proof (len_length raw). pose proof (len_length raw').
  apply nth_after; lia.
Qed.
Lemma signed_stable p C sched V fuel z raw l a : zip_ok z raw -> zip_small z raw -> block_bytes l raw ->
  (forall r k, block_may_differ z raw (V r k)) -> (length (with_block z raw) < fuel)%nat ->
  m_digest_r p C sched V fuel (module_new (with_block z raw)) (with_block z raw) a =
  Some (m_digest p C sched (module_new (with_block z raw)) (with_block z raw) a).
Proof.
  intros Hz Hs Hb A F. unfold m_digest_r, m_digest. rewrite (offsets_signed p z raw l) by auto. cbn [bind].
  apply stable; cbn [fo_start_content fo_stop_content fo_start_cd fo_stop_cd]; [lia|lia| |exact F].
  intros r k i D. apply block_differs; [apply A|]. unfold digested in D. cbn [fo_start_content fo_stop_content fo_start_cd fo_stop_cd fo_start_eocd] in D. lia.
Qed.
Lemma signed_mixture p C sched V fuel z raw l a d : zip_ok z raw -> zip_small z raw -> block_bytes l raw ->
  in_place V (len (with_block z raw)) -> m_digest_r p C sched V fuel (module_new (with_block z raw)) (with_block z raw) a = Some (Ok d) ->
  exists o g, m_get_offsets p (module_new (with_block z raw)) (with_block z raw) = Ok o /\
    len g = len (with_block z raw) /\ mixture_of V g /\ digest_module p C sched g o a = Ok d.
Proof.
  intros Hz Hs Hb HL. unfold m_digest_r. rewrite (offsets_signed p z raw l) by auto. intros H.
  apply (mixture p C sched V fuel _ a _ d HL) in H as (g & G); [eauto|]. unfold in_order. cbn. lia.
Qed.
(** A signature that is not there yet. *)
Lemma plain_mixture p C sched V fuel z a d : zip_ok z [] -> unsigned z ->
  in_place V (len (plain z)) -> m_digest_r p C sched V fuel (module_new (plain z)) (plain z) a = Some (Ok d) ->
  exists o g, m_get_offsets p (module_new (plain z)) (plain z) = Ok o /\
    len g = len (plain z) /\ mixture_of V g /\ digest_module p C sched g o a = Ok d.
Proof.
  intros Hz Hs HL. unfold m_digest_r. rewrite (offsets_plain p z) by auto. intros H.
  apply (mixture p C sched V fuel _ a _ d HL) in H as (g & G); [eauto|]. unfold in_order. cbn. lia.
Qed.
