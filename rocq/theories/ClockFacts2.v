(** ClockFacts2.v - exactly when verification with a running clock accepts. *)
From Verif Require Import Base BaseFacts Utils Algorithms Common SchemeV2 SourceStamp ElfInfo SigningBlock Zip Digest Module Signable Signer Verifier ModuleVerify
  VerifySpec VerifyFacts VerifyProps Keystore Elf Cli CliSpec CliProps Clock ClockSpec ClockFacts.
From Coq Require Import Lia.
Open Scope N_scope.
Open Scope list_scope.

Lemma check_flags C K clk l ctx ss : forall n,
  Forall (fun r => flags r = true) (check_all C K clk (configured K l) (Some ctx) n ss) <->
  forall i s, nth_error (map snd ss) i = Some s -> v2_signer_good C K (clk (n + i)%nat) l (computed ctx) s.
Proof.
  induction ss as [|[j s] ss IH]; intros n; cbn [check_all map snd].
  - split; [|constructor]. intros _ [|k] ? [=].
  - rewrite Forall_cons_iff, v2_signer_flags, (IH (S n)). split.
    + intros [A B] [|k] x; cbn [nth_error].
      * intros [= <-]. now rewrite Nat.add_0_r.
      * intros X. replace (n + S k)%nat with (S n + k)%nat by lia. now apply B.
    + intros H. split.
      * specialize (H 0%nat s eq_refl). now rewrite Nat.add_0_r in H.
      * intros k x X. replace (S n + k)%nat with (n + S k)%nat by lia. now apply H.
Qed.
Lemma all_valid_t C K clk t l b ctx :
  is_valid (verify_all_t C K clk t (configured K l) b (Some ctx)) = true <-> accepts_at C K clk t l (computed ctx) b.
Proof.
  unfold is_valid, verify_all_t, verify_v2_t, verify_source_stamp_with_digest, accepts_at. cbn [va_v2 va_stamp].
  rewrite Bool.andb_true_iff, !verdict_vres_ok, results_check, check_flags, labelled_signers, stamp_results_eq. cbn [Nat.add].
  destruct (stamps_of b) as [|s ss].
  - intuition.
  - rewrite <- stamp_flags. split; intros (A & B); split; auto. now inversion B.
Qed.
Lemma accepts_known C K clk t l (D1 D2 : algorithms -> bytes -> Prop) b : (forall a d, known a -> (D1 a d <-> D2 a d)) ->
  (accepts_at C K clk t l D1 b <-> accepts_at C K clk t l D2 b).
Proof.
  intros H. unfold accepts_at. split; intros [A B]; (split; [intros i s N; specialize (A i s N); revert A; apply v2_good_known; intros; now apply H|]);
    (destruct (stamps_of b); [exact I|]); revert B; apply stamp_good_known; intros; now apply H.
Qed.
Lemma present_same x y : same_but_trust x y -> present x = present y.
Proof. destruct x, y; cbn [same_but_trust present]; try contradiction; [reflexivity|now intros <-]. Qed.
Lemma present_t C K clk roots b ctx : present (verify_v2_t C K clk roots b ctx) = true <-> v2_signers_of b <> [].
Proof.
  rewrite (present_same _ _ (v2_same C K clk (fun _ => None) roots roots b ctx)), v2_frozen.
  exact (has_v2_iff C K None roots b ctx).
Qed.

Lemma cli_exact p C K builtin clk t ds s file root :
  cli_verify_t p C K builtin clk t ds s file root = Ok tt <->
  exists f b roots, fs_read s file = Some f /\ m_get_signing_block p (module_new f) f = Ok b /\ roots_given K builtin s root roots /\
    v2_signers_of b <> [] /\ accepts_at C K clk t roots (fun a d => m_digest p C (ds a) (module_new f) f a = Ok d) b.
Proof.
  unfold cli_verify_t.
  destruct (fs_read s file) as [f|]; cbn [of_option bind].
  2: { split; [discriminate|]. intros (f & b & roots & ? & _). discriminate. }
  destruct (m_get_signing_block p (module_new f) f) as [b|e|] eqn:EB; cbn [map_err bind].
  2, 3: split; [discriminate|intros (f' & b & roots & [= <-] & E & _); congruence].
  destruct (cli_roots K builtin s root) as [tr|e|] eqn:ER; cbn [bind].
  2, 3: split; [discriminate|intros (f' & b' & rr & _ & _ & R & _)];
    assert (Y : cli_roots K builtin s root = Ok (configured K rr)) by (apply cli_roots_iff; eauto); congruence.
  apply cli_roots_iff in ER. destruct ER as (roots & RG & ->).
  set (D := fun a d => m_digest p C (ds a) (module_new f) f a = Ok d).
  assert (RU : forall roots', roots_given K builtin s root roots' -> roots' = roots).
  { intros roots' R'. unfold roots_given in *. destruct root as [q|].
    - destruct RG as (p1 & c1 & A1 & A2 & ->), R' as (p2 & c2 & B1 & B2 & ->). congruence.
    - destruct (pem_parse K builtin) as [(tag & c)|]; [destruct (beq tag CERTIFICATE_TAG)|]; congruence. }
  assert (Goal2 : forall ctx, (forall a d, known a -> (computed ctx a d <-> D a d)) ->
    (cli_conclusion (verify_v2_t C K clk (configured K roots) b (Some ctx))
       (verify_source_stamp_with_digest C K t (configured K roots) b (Some ctx)) = Ok tt <->
     v2_signers_of b <> [] /\ accepts_at C K clk t roots D b)).
  { intros ctx HD. rewrite conclusion_iff, present_t. pose proof (all_valid_t C K clk t roots b ctx) as V. unfold is_valid, verify_all_t in V.
    cbn [va_v2 va_stamp] in V. rewrite Bool.andb_true_iff in V. rewrite V. now rewrite (accepts_known C K clk t roots _ _ b HD). }
  assert (Ex : forall P : Prop, (v2_signers_of b <> [] /\ accepts_at C K clk t roots D b <-> P) ->
    ((exists f' b' roots', Some f = Some f' /\ m_get_signing_block p (module_new f') f' = Ok b' /\ roots_given K builtin s root roots' /\
       v2_signers_of b' <> [] /\ accepts_at C K clk t roots' (fun a d => m_digest p C (ds a) (module_new f') f' a = Ok d) b') <-> P)).
  { intros P HP. rewrite <- HP. split.
    - intros (f' & b' & roots' & [= <-] & Hb & R & X). rewrite EB in Hb. injection Hb as <-. rewrite (RU _ R) in X. exact X.
    - intros X. exists f, b, roots. auto. }
  assert (Bad : (forall a d, ~ D a d) -> (v2_signers_of b <> [] /\ accepts_at C K clk t roots D b <-> False)).
  { intros NoD. split; [|contradiction]. intros (N1 & F & _). destruct (v2_signers_of b) as [|x l]; [contradiction|].
    destruct (F 0%nat x eq_refl) as (G1 & G2 & _). destruct (sgs_data (sn_sigs x)) as [|g gs]; [contradiction|].
    apply Forall_cons_iff in G2. destruct G2 as ((_ & d & _ & X) & _). exact (NoD _ d X). }
  unfold cli_add_digest.
  destruct (m_digest p C (ds ECDSA_SHA2_256) (module_new f) f ECDSA_SHA2_256) as [d1|e1|] eqn:D1; cbn [bind].
  - destruct (digest_status p C C (ds ECDSA_SHA2_256) (ds ECDSA_SHA2_512) (module_new f) f ECDSA_SHA2_256 ECDSA_SHA2_512 d1 D1) as (d2 & D2).
    rewrite D2. cbn [bind add_digest ctx_new]. symmetry. apply Ex. symmetry. apply Goal2.
    intros a d [->| ->]; unfold computed, D; cbn -[N.eqb].
    + change (u32_of_algo ECDSA_SHA2_512 =? u32_of_algo ECDSA_SHA2_256) with false.
      rewrite N.eqb_refl. cbv iota. rewrite D1. split; intros [= <-]; reflexivity.
    + rewrite N.eqb_refl. cbv iota. rewrite D2. split; intros [= <-]; reflexivity.
  - assert (NoD : forall a d, ~ D a d).
    { intros a d Hd. destruct (digest_status p C C (ds a) (ds ECDSA_SHA2_256) (module_new f) f a ECDSA_SHA2_256 d Hd) as (x & Hx). congruence. }
    rewrite (Ex False (Bad NoD)).
    destruct (m_digest p C (ds ECDSA_SHA2_512) (module_new f) f ECDSA_SHA2_512) as [d2|e2|] eqn:D2; cbn [bind ctx_new].
    + exfalso. now apply (NoD ECDSA_SHA2_512 d2).
    + split; [discriminate|contradiction].
    + split; [discriminate|contradiction].
  - assert (NoD : forall a d, ~ D a d).
    { intros a d Hd. destruct (digest_status p C C (ds a) (ds ECDSA_SHA2_256) (module_new f) f a ECDSA_SHA2_256 d Hd) as (x & Hx). congruence. }
    rewrite (Ex False (Bad NoD)). split; [discriminate|contradiction].
Qed.

Lemma module_exact p C K clk t ds f roots r : len f < U64 ->
  m_verify_with_roots_t p C K clk t ds (module_new f) f (configured K roots) = Ok r ->
  (is_valid r = true <-> exists b, m_get_signing_block p (module_new f) f = Ok b /\
     accepts_at C K clk t roots (fun a d => m_digest p C (ds a) (module_new f) f a = Ok d) b).
Proof.
  intros Hf H. unfold m_verify_with_roots_t in H.
  destruct (m_get_signing_block p (module_new f) f) as [b|e|] eqn:Eb.
  - destruct (fill_context _ _ _ _ _ _ _) as [ctx| |] eqn:Ec; try discriminate. cbn [bind] in H.
    injection H as <-. rewrite all_valid_t.
    assert (X := fill_context_iff _ _ _ _ _ _ _ (block_canonical _ _ _ Hf Eb) Ec).
    assert (E : accepts_at C K clk t roots (computed ctx) b <->
      accepts_at C K clk t roots (fun a d => m_digest p C (ds a) (module_new f) f a = Ok d) b).
    { unfold accepts_at. split; intros [Y Z]; split.
      - intros i s N. specialize (Y i s N). apply nth_error_In in N. eapply v2_good_ext; [|exact Y]. intros a d Ia. symmetry. apply X. eapply v2_algos_in; eauto.
      - destruct (stamps_of b) as [|s l] eqn:Es; [exact I|]. eapply stamp_good_ext; [|exact Z]. intros a d Ia. symmetry. apply X. eapply stamp_algos_in; eauto. rewrite Es. now left.
      - intros i s N. specialize (Y i s N). apply nth_error_In in N. eapply v2_good_ext; [|exact Y]. intros a d Ia. apply X. eapply v2_algos_in; eauto.
      - destruct (stamps_of b) as [|s l] eqn:Es; [exact I|]. eapply stamp_good_ext; [|exact Z]. intros a d Ia. apply X. eapply stamp_algos_in; eauto. rewrite Es. now left. }
    rewrite E. split.
    + intros Y. exists b. auto.
    + intros (b' & [= <-] & Y). exact Y.
  - injection H as <-. cbn. split; [discriminate|]. intros (b & X & _). discriminate.
  - discriminate.
Qed.
