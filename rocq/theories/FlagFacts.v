(** FlagFacts.v - what exactly the flags of a successful verification say (C45). *)
From Verif Require Import Base Utils Algorithms Common SchemeV2 SourceStamp SigningBlock BaseFacts
  Signer Verifier VerifySpec VerifyFacts VerifyProps.
From Coq Require Import Bool Lia.
Open Scope N_scope.

Lemma v2_loop_flags : forall C ctx digs key raw l dv w sv dv' w',
  v2_sig_loop C ctx digs key raw l None dv w = (sv, None, dv', w') ->
  (sv = true <-> Forall (fun g => accepted C (sg_algo g) key raw (sg_data g) /\ ~ no_digest digs (sg_algo g)) l) /\
  (ctx <> None -> (dv' = true <-> dv = true \/ exists g r, l = g :: r /\ ~ no_digest digs (sg_algo g))).
Proof.
  intros C ctx digs key raw l. induction l as [|g l IH]; intros dv w sv dv' w' H; cbn in H.
  - injection H as <- <- <-. split; [split; auto|]. intros _. split; [auto|]. intros [?|(g&r&[=]&_)]; auto.
  - destruct (find_digest digs (sg_algo g)) as [dg|] eqn:Efd.
    2:{ injection H as <- <- <-. apply find_digest_none in Efd. split.
        - split; [discriminate|]. intros F. inversion F as [|? ? (_&X) _]; subst. contradiction.
        - intros _. split; [auto|]. intros [?|(x&r&E&X)]; [auto|]. injection E as <- <-. contradiction. }
    assert (Hn : ~ no_digest digs (sg_algo g)) by (intros X; apply find_digest_none in X; congruence).
    destruct (algo_verify_cases C (sg_algo g) key raw (sg_data g)) as [Ev|[e Ev]]; rewrite Ev in H; [|discriminate].
    apply algo_verify_iff in Ev.
    assert (S : forall dv w, v2_sig_loop C ctx digs key raw l None dv w = (sv, None, dv', w') ->
      (sv = true <-> Forall (fun g => accepted C (sg_algo g) key raw (sg_data g) /\ ~ no_digest digs (sg_algo g)) (g :: l))).
    { intros dv0 w0 X. destruct (IH _ _ _ _ _ X) as (I1&_). rewrite I1. split; [auto|]. intros F. now inversion F. }
    destruct ctx as [c|].
    + destruct (negb _).
      { exfalso. eapply v2_loop_error_kept in H. contradiction. }
      split; [eapply S; exact H|]. intros Hc. destruct (IH _ _ _ _ _ H) as (_&I2). rewrite (I2 Hc).
      split; [intros _; right; eauto|auto].
    + split; [eapply S; exact H|]. congruence.
Qed.

Lemma stamp_loop_flags : forall C ctx digs key raw l er0 dv df sv dv' df',
  stamp_sig_loop C ctx digs key raw l er0 dv df = (sv, None, dv', df') -> dv = df ->
  sv = true /\ Forall (fun g => accepted C (sg_algo g) key raw (sg_data g)) l /\ dv' = df' /\
  (ctx <> None -> (df' = true <-> df = true \/ Exists (fun g => ~ no_digest digs (sg_algo g)) l)).
Proof.
  intros C ctx digs key raw l. induction l as [|g l IH]; intros er0 dv df sv dv' df' H E; cbn in H.
  - injection H as <- _ <- <-. repeat split; auto. intros [?|X]; [auto|inversion X].
  - destruct (algo_verify_cases C (sg_algo g) key raw (sg_data g)) as [Ev|[e Ev]]; rewrite Ev in H; [|discriminate].
    apply algo_verify_iff in Ev.
    destruct (find_digest digs (sg_algo g)) as [dg|] eqn:Efd.
    + assert (Hn : ~ no_digest digs (sg_algo g)) by (intros X; apply find_digest_none in X; congruence).
      destruct ctx as [c|].
      * destruct (negb _).
        { exfalso. eapply stamp_loop_error_kept in H. contradiction. }
        destruct (IH _ _ _ _ _ _ H eq_refl) as (A&B&D&F). split; [auto|]. split; [auto|]. split; [auto|].
        intros Hc. rewrite (F Hc). split; [intros _; right; now constructor|auto].
      * destruct (IH _ _ _ _ _ _ H E) as (A&B&D&F). repeat split; auto; congruence.
    + apply find_digest_none in Efd. assert (H' : stamp_sig_loop C ctx digs key raw l er0 dv df = (sv, None, dv', df')) by (destruct ctx; exact H).
      destruct (IH _ _ _ _ _ _ H' E) as (A&B&D&F). split; [auto|]. split; [auto|]. split; [auto|].
      intros Hc. rewrite (F Hc). split; intros [?|X]; auto. inversion X; subst; [contradiction|auto].
Qed.

Definition v2_flags_exact (C : crypto) (ctx : option context) (s : signer) (r : signer_result) : Prop :=
  let digs := dgs_data (sd_digests (sn_data s)) in
  (sr_signature_valid r = true <->
     Forall (fun g => accepted C (sg_algo g) (pk_data (sn_key s)) (v2_message s) (sg_data g) /\
                      ~ no_digest digs (sg_algo g)) (sgs_data (sn_sigs s))) /\
  (sr_digest_valid r = true <->
     ctx <> None /\ exists g rest, sgs_data (sn_sigs s) = g :: rest /\ ~ no_digest digs (sg_algo g)).

Lemma v2_flags : forall C K now roots ctx i s,
  sr_error (verify_v2_signer C K now roots ctx i s) = None ->
  v2_flags_exact C ctx s (verify_v2_signer C K now roots ctx i s).
Proof.
  intros C K now roots ctx i s H. unfold v2_flags_exact, verify_v2_signer in *. rewrite v2_raw in *.
  destruct (v2_sig_loop _ _ _ _ _ _ _ _ _) as [[[sv er] dv] w] eqn:El.
  assert (Her : er = None).
  { destruct (cts_data _) as [|c cs]; [exact H|]; destruct (negb _); [discriminate|];
    destruct (verify_chain _ _ _ _ _) as [[cv t] e]; exact H. }
  subst er.
  assert (D : dv = true <-> ctx <> None /\ exists g rest, sgs_data (sn_sigs s) = g :: rest /\
     ~ no_digest (dgs_data (sd_digests (sn_data s))) (sg_algo g)).
  { destruct ctx as [c|].
    - apply v2_loop_flags in El as (_&B). rewrite B by discriminate.
      split; [intros [?|?]; [discriminate|split; [discriminate|auto]]|]. intros (_&?). auto.
    - apply v2_loop_none in El; [|reflexivity]. subst dv. split; [discriminate|intros (X&_); congruence]. }
  apply v2_loop_flags in El as (A&_).
  rewrite <- A, <- D. destruct (cts_data _) as [|c cs]; [cbn; rewrite andb_true_r; tauto|].
  destruct (negb _); [discriminate|].
  destruct (verify_chain _ _ _ _ _) as [[cv t] e]. cbn. rewrite andb_true_r. tauto.
Qed.

Theorem v2_flags_ok : forall C K now roots b ctx r,
  verify_v2_with_digest C K now roots b ctx = VOk r ->
  Forall2 (fun s r => let digs := dgs_data (sd_digests (sn_data s)) in
    (sr_signature_valid r = true <->
       Forall (fun g => accepted C (sg_algo g) (pk_data (sn_key s)) (v2_message s) (sg_data g) /\
                        ~ no_digest digs (sg_algo g)) (sgs_data (sn_sigs s))) /\
    (sr_digest_valid r = true <->
       ctx <> None /\ exists g rest, sgs_data (sn_sigs s) = g :: rest /\ ~ no_digest digs (sg_algo g)))
    (v2_signers_of b) (vr_signers r).
Proof.
  intros C K now roots b ctx r H. apply verify_ok_results in H as (F&_). eapply Forall2_impl; [|exact F].
  intros s x ((i&->)&E). apply v2_flags. exact E.
Qed.

Theorem stamp_flags_ok : forall C K now roots b ctx r,
  verify_source_stamp_with_digest C K now roots b ctx = VOk r -> exists s rest,
  stamps_of b = s :: rest /\ vr_signature_valid r = true /\
  Forall (fun g => accepted C (sg_algo g) (pk_data (sb_key s)) (stamp_message s) (sg_data g))
    (sgs_data (sb_sigs s)) /\
  (vr_digest_valid r = true <->
     ctx <> None /\ Exists (fun g => ~ no_digest (dgs_data (st_digests (sb_data s))) (sg_algo g)) (sgs_data (sb_sigs s))).
Proof.
  intros C K now roots b ctx r H. apply stamp_ok_result in H as (s&rest&sr&E&->&He&_&->).
  exists s, rest. split; [exact E|]. cbn [from_signers vr_signature_valid vr_digest_valid forallb]. rewrite !andb_true_r.
  unfold verify_stamp in *.
  destruct (stamp_sig_loop _ _ _ _ _ _ _ _ _) as [[[sv er] dv] df] eqn:El.
  assert (Her : er = None).
  { destruct (if is_none ctx then _ else _) as [d w].
    destruct (cts_data _) as [|c cs]; [exact He|]; destruct (negb _); [discriminate|];
    destruct (verify_chain _ _ _ _ _) as [[cv t] e]; exact He. }
  subst er. apply stamp_loop_flags in El as (->&A&->&F); [|reflexivity].
  destruct (if is_none ctx then _ else _) as [d w] eqn:Ed.
  assert (D : d = true <-> ctx <> None /\ Exists (fun g => ~ no_digest (dgs_data (st_digests (sb_data s))) (sg_algo g)) (sgs_data (sb_sigs s))).
  { destruct ctx as [c|]; cbn [is_none] in Ed.
    - specialize (F ltac:(discriminate)). assert (Edf : d = df).
      { cbn [is_none] in Ed. rewrite andb_true_r in Ed. destruct df; cbn [negb] in Ed; congruence. }
      rewrite Edf, F. split; [intros [?|?]; [discriminate|split; [discriminate|auto]]|]. intros (_&?). auto.
    - assert (d = false) by congruence. subst d. split; [discriminate|intros (X&_); congruence]. }
  destruct (cts_data _) as [|c cs]; [cbn; tauto|]. destruct (negb (verify_pubkey_binding _ _ _)); [discriminate He|].
  destruct (verify_chain _ _ _ _ _) as [[cv t] e]. cbn. tauto.
Qed.
