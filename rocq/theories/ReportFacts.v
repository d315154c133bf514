(** ReportFacts.v - proofs for C72: the verification report. *)
From Verif Require Import Base BaseFacts Utils Algorithms Common SchemeV2 SourceStamp SigningBlock
  Signer Verifier VerifySpec ReportSpec VerifyFacts VerifyProps FlagFacts.
From Coq Require Import Bool Lia.
Open Scope N_scope.

(** * The summary *)
Lemma number_combine {A} (l : list A) k : number (N.of_nat k) l = combine (map N.of_nat (seq k (List.length l))) l.
Proof.
  revert k. induction l as [|x l IH]; intros k; cbn [number List.length seq map combine]; [ reflexivity | ].
  f_equal. replace (N.of_nat k + 1) with (N.of_nat (S k)) by lia. apply IH.
Qed.
Lemma summary_of l : l <> [] -> summary (from_signers l).
Proof.
  intros Hn. pose proof (from_signers_flags l _ eq_refl Hn) as F.
  assert (E : vr_signers (from_signers l) = l) by (destruct l; reflexivity).
  unfold summary. rewrite E. split; [ exact Hn | ]. destruct F as (F1 & F2 & F3 & F4).
  split; [ exact F1 | ]. split; [ exact F2 | ]. split; [ exact F3 | ]. split; [ exact F4 | ].
  split; [ intros x r ->; auto | ]. destruct l as [|x l]; [ contradiction | ].
  cbn [from_signers vr_warnings]. rewrite <- (number_combine (x :: l) 1). reflexivity.
Qed.

(** * Certificates *)
Lemma chain_note K now l leaf inter cv t w :
  verify_chain K now (configured K l) leaf inter = (cv, t, w) ->
  (t = true /\ opt_list w = []) \/ (t = false /\ exists x, opt_list w = [x] /\ chain_problem K now l leaf inter x).
Proof.
  intros H. rewrite configured_eq in H. unfold verify_chain in H.
  destruct (roots_is_empty _) eqn:Ee.
  - injection H as <- <- <-. right. split; [ auto | ]. eexists. split; [ reflexivity | ].
    apply roots_empty_iff in Ee. exact Ee.
  - assert (Hne : l <> []) by (intros ->; discriminate).
    destruct (is_direct_root _ leaf); [ injection H as <- <- <-; auto | ].
    destruct (ee_parse K leaf) eqn:Ep; cbn [negb] in H.
    + cbn [tr_anchors] in H. fold (time_of now) in H.
      destruct (path K (anchors K l) leaf inter (time_of now)) eqn:Epath; injection H as <- <- <-; auto;
        right; (split; [ auto | ]); eexists; (split; [ reflexivity | ]); cbn; auto.
    + injection H as <- <- <-. right. split; [ auto | ]. eexists. split; [ reflexivity | ]. cbn. auto.
Qed.
Lemma chain_entry K now l leaf inter cv t w :
  verify_chain K now (configured K l) leaf inter = (cv, t, w) ->
  (t = true <-> trusted K now l leaf inter) /\
  (cv = true <-> trusted K now l leaf inter \/ (issuer_unknown K now l leaf inter /\ linked K (leaf :: inter))) /\
  ((trusted K now l leaf inter /\ opt_list w = []) \/
   (~ trusted K now l leaf inter /\ exists x, opt_list w = [x] /\ chain_problem K now l leaf inter x)).
Proof.
  intros H. pose proof (chain_valid_iff _ _ _ _ _ _ _ _ H) as (T & V). split; [ exact T | ]. split; [ exact V | ].
  destruct (chain_note _ _ _ _ _ _ _ _ H) as [(E & N) | (E & N)]; [ left | right ].
  - split; [ apply T; exact E | exact N ].
  - split; [ | exact N ]. intros X. apply T in X. congruence.
Qed.

Lemma foreign_iff K key c cs :
  foreign K key (c :: cs) <-> verify_pubkey_binding K key (ct_data c) = false.
Proof.
  unfold foreign. cbn [map]. split.
  - intros (leaf & rest & E & N). injection E as <- <-.
    destruct (verify_pubkey_binding _ _ _) eqn:B; [ | reflexivity ]. apply binding_iff in B. contradiction.
  - intros B. exists (ct_data c), (map ct_data cs). split; [ reflexivity | ]. intros X. apply binding_iff in X. congruence.
Qed.
Lemma foreign_nil K key : ~ foreign K key [].
Proof. intros (leaf & rest & E & _). discriminate. Qed.

(** * The signature loops *)
Lemma mismatching_iff c digs g dg : find_digest digs (sg_algo g) = Some dg ->
  (mismatching (Some c) digs g <-> verify_digest c (u32_of_algo (sg_algo g)) (dg_digest dg) = false).
Proof.
  intros F. unfold mismatching. split.
  - intros (c' & d & E & S & N). injection E as <-. apply stored_find_digest in S as (e & E & <-).
    rewrite F in E. injection E as <-. destruct (verify_digest _ _ _) eqn:V; [ | reflexivity ].
    apply verify_digest_iff in V. contradiction.
  - intros V. exists c, (dg_digest dg). split; [ reflexivity | ]. split; [ now apply find_digest_stored | ].
    intros X. apply verify_digest_iff in X. congruence.
Qed.
Lemma mismatching_none digs g : ~ mismatching None digs g.
Proof. intros (c & d & E & _). discriminate. Qed.

Lemma v2_loop_scan : forall C ctx digs key raw l er0 dv w sv er dv' w',
  v2_sig_loop C ctx digs key raw l er0 dv w = (sv, er, dv', w') ->
  exists good why, scan C key raw digs l good why /\
    (sv = true <-> why = AllDone) /\
    ((why = Refused /\ exists x, er = Some (SESignature x)) \/
     (why <> Refused /\ Exists (mismatching ctx digs) good /\ er = Some SEDigest) \/
     (why <> Refused /\ ~ Exists (mismatching ctx digs) good /\ er = er0)) /\
    w' = w ++ (match ctx with None => map (fun _ => WNoContext) good | Some _ => [] end) ++
         (match why with NoDigestFor a => [WNoDigest a] | _ => [] end).
Proof.
  intros C ctx digs key raw l. induction l as [|g l IH]; intros er0 dv w sv er dv' w' H; cbn [v2_sig_loop] in H.
  - injection H as <- <- _ <-. exists [], AllDone. split; [ exists []; auto | ].
    split; [ tauto | ]. split; [ right; right; split; [ discriminate | split; [ intros X; inversion X | reflexivity ] ] | ].
    destruct ctx; now rewrite app_nil_r.
  - destruct (find_digest digs (sg_algo g)) as [dg|] eqn:Efd.
    2:{ injection H as <- <- _ <-. apply find_digest_none in Efd. exists [], (NoDigestFor (sg_algo g)).
        split; [ exists (g :: l); split; [ auto | split; [ auto | exists g, l; auto ] ] | ].
        split; [ split; discriminate | ].
        split; [ right; right; split; [ discriminate | split; [ intros X; inversion X | reflexivity ] ] | ].
        destruct ctx; reflexivity. }
    assert (Hn : ~ no_digest digs (sg_algo g)) by (intros X; apply find_digest_none in X; congruence).
    destruct (algo_verify_cases C (sg_algo g) key raw (sg_data g)) as [Ev|[e Ev]]; rewrite Ev in H.
    2:{ injection H as <- <- _ <-. exists [], Refused.
        split. { exists (g :: l). split; [ auto | split; [ auto | ] ]. exists g, l. split; [ auto | split; [ auto | ] ].
                 intros X. apply algo_verify_iff in X. congruence. }
        split; [ split; discriminate | ]. split; [ left; eauto | ]. destruct ctx; now rewrite app_nil_r. }
    apply algo_verify_iff in Ev.
    assert (S : forall good why, scan C key raw digs l good why -> scan C key raw digs (g :: l) (g :: good) why).
    { intros good why (tail & -> & F & T). exists tail. split; [ reflexivity | ]. split; [ auto | exact T ]. }
    destruct ctx as [c|].
    + destruct (verify_digest c _ _) eqn:V; cbn [negb] in H.
      * destruct (IH _ _ _ _ _ _ _ H) as (good & why & Hs & Hv & He & Hw). exists (g :: good), why.
        split; [ auto | ]. split; [ exact Hv | ]. split; [ | exact Hw ].
        assert (Hg : ~ mismatching (Some c) digs g) by (rewrite (mismatching_iff _ _ _ _ Efd); congruence).
        destruct He as [He | [(A & B & D) | (A & B & D)]]; [ auto | right; left; auto | right; right ].
        split; [ auto | ]. split; [ | auto ]. intros X. inversion X; subst; contradiction.
      * destruct (IH _ _ _ _ _ _ _ H) as (good & why & Hs & Hv & He & Hw). exists (g :: good), why.
        split; [ auto | ]. split; [ exact Hv | ]. split; [ | exact Hw ].
        assert (Hg : mismatching (Some c) digs g) by (apply (mismatching_iff _ _ _ _ Efd); exact V).
        destruct He as [He | [(A & B & D) | (A & B & D)]]; [ auto | right; left; auto | right; left; auto ].
    + destruct (IH _ _ _ _ _ _ _ H) as (good & why & Hs & Hv & He & Hw). exists (g :: good), why.
      split; [ auto | ]. split; [ exact Hv | ]. split.
      * assert (Hg : ~ mismatching None digs g) by apply mismatching_none.
        destruct He as [He | [(A & B & D) | (A & B & D)]]; [ auto | right; left; auto | right; right ].
        split; [ auto | ]. split; [ | auto ]. intros X. inversion X; subst; contradiction.
      * rewrite Hw. cbn [map]. rewrite <- app_assoc. reflexivity.
Qed.

Lemma accepted_dec C a key d s : accepted C a key d s \/ ~ accepted C a key d s.
Proof.
  destruct (algo_verify_cases C a key d s) as [E|[e E]]; [ left | right ]; rewrite <- algo_verify_iff; [ exact E | congruence ].
Qed.

Lemma stamp_loop_scan : forall C ctx digs key raw l er0 dv df sv er dv' df',
  stamp_sig_loop C ctx digs key raw l er0 dv df = (sv, er, dv', df') ->
  let ok := fun g => accepted C (sg_algo g) key raw (sg_data g) in
  (Exists (fun g => ~ ok g) l /\ exists x, er = Some (SESignature x)) \/
  (Forall ok l /\ Exists (mismatching ctx digs) l /\ er = Some SEDigest) \/
  (Forall ok l /\ ~ Exists (mismatching ctx digs) l /\ er = er0).
Proof.
  intros C ctx digs key raw l. induction l as [|g l IH]; intros er0 dv df sv er dv' df' H ok; cbn [stamp_sig_loop] in H.
  - injection H as _ <- _ _. right. right. split; [ auto | split; [ intros X; inversion X | reflexivity ] ].
  - destruct (algo_verify_cases C (sg_algo g) key raw (sg_data g)) as [Ev|[e Ev]]; rewrite Ev in H.
    2:{ injection H as _ <- _ _. left. split; [ | eauto ]. left. intros X. apply algo_verify_iff in X. congruence. }
    apply algo_verify_iff in Ev.
    assert (K0 : forall e1, ((Exists (fun g => ~ ok g) l /\ exists x, er = Some (SESignature x)) \/
        (Forall ok l /\ Exists (mismatching ctx digs) l /\ er = Some SEDigest) \/
        (Forall ok l /\ ~ Exists (mismatching ctx digs) l /\ er = e1)) ->
       (mismatching ctx digs g /\ e1 = Some SEDigest \/ ~ mismatching ctx digs g /\ e1 = er0) ->
       (Exists (fun g => ~ ok g) (g :: l) /\ exists x, er = Some (SESignature x)) \/
       (Forall ok (g :: l) /\ Exists (mismatching ctx digs) (g :: l) /\ er = Some SEDigest) \/
       (Forall ok (g :: l) /\ ~ Exists (mismatching ctx digs) (g :: l) /\ er = er0)).
    { intros e1 [(A & B) | [(A & B & D) | (A & B & D)]] M; [ left; auto | right; left; auto | ].
      destruct M as [(M & ->) | (M & ->)]; [ right; left; auto | right; right ].
      split; [ auto | ]. split; [ | auto ]. intros X. inversion X; subst; contradiction. }
    destruct (find_digest digs (sg_algo g)) as [dg|] eqn:Efd.
    + destruct ctx as [c|].
      * destruct (verify_digest c _ _) eqn:V; cbn [negb] in H; apply IH in H;
          (eapply K0; [ exact H | ]); [ right | left ]; (split; [ | reflexivity ]);
          rewrite (mismatching_iff _ _ _ _ Efd); congruence.
      * apply IH in H. eapply K0; [ exact H | ]. right. split; [ apply mismatching_none | reflexivity ].
    + assert (H' : stamp_sig_loop C ctx digs key raw l er0 dv df = (sv, er, dv', df')) by (destruct ctx; exact H).
      apply IH in H'. eapply K0; [ exact H' | ]. right. split; [ | reflexivity ].
      intros (c & d & _ & S & _). apply stored_find_digest in S as (x & S & _). congruence.
Qed.

(** * One signer *)
Lemma scan_unique C key msg digs sigs g1 w1 g2 w2 :
  scan C key msg digs sigs g1 w1 -> scan C key msg digs sigs g2 w2 -> g1 = g2 /\ w1 = w2.
Proof.
  intros (t1 & E1 & F1 & T1) (t2 & E2 & F2 & T2). subst sigs. revert g2 E2 F2.
  induction g1 as [|x g1 IH]; intros g2 E2 F2.
  - destruct g2 as [|y g2].
    + cbn in E2. subst t2. split; [ reflexivity | ].
      destruct w1, w2; auto; repeat match goal with H : exists _, _ |- _ => destruct H | H : _ /\ _ |- _ => destruct H end; subst; try congruence;
        repeat match goal with H : _ :: _ = _ :: _ |- _ => injection H as ? ? end; subst; try contradiction; try congruence.
    + exfalso. inversion F2 as [|? ? (A & B) _]; subst. cbn in E2.
      destruct w1.
      * subst t1. discriminate.
      * destruct T1 as (g & t & -> & <- & N). injection E2 as <- _. contradiction.
      * destruct T1 as (g & t & -> & _ & N). injection E2 as <- _. contradiction.
  - destruct g2 as [|y g2].
    + exfalso. inversion F1 as [|? ? (A & B) _]; subst. cbn in E2.
      destruct w2.
      * subst t2. discriminate.
      * destruct T2 as (g & t & -> & <- & N). injection E2 as <- _. contradiction.
      * destruct T2 as (g & t & -> & _ & N). injection E2 as <- _. contradiction.
    + cbn in E2. injection E2 as <- E2. inversion F1; inversion F2; subst.
      destruct (IH ltac:(assumption) _ E2 ltac:(assumption)) as (-> & ->). auto.
Qed.

Lemma v2_failure_ok C K now roots ctx i s : v2_failure C K ctx s (sr_error (verify_v2_signer C K now roots ctx i s)).
Proof.
  unfold v2_failure, verify_v2_signer. rewrite v2_raw.
  destruct (v2_sig_loop _ _ _ _ _ _ _ _ _) as [[[sv er] dv] w] eqn:El.
  apply v2_loop_scan in El as (good & why & Hs & _ & He & _).
  destruct (cts_data _) as [|c cs].
  - right. split; [ apply foreign_nil | ]. cbn [sr_error]. eauto.
  - destruct (verify_pubkey_binding _ _ _) eqn:B; cbn [negb].
    + right. split; [ rewrite foreign_iff; congruence | ]. destruct (verify_chain _ _ _ _ _) as [[cv t] x].
      cbn [sr_error]. eauto.
    + left. split; [ now apply foreign_iff | reflexivity ].
Qed.

Lemma stamp_failure_ok C K now roots ctx s :
  stamp_failure C K ctx s (sr_error (verify_stamp C K now roots ctx (stamp_message s) s)).
Proof.
  unfold stamp_failure, verify_stamp.
  destruct (stamp_sig_loop _ _ _ _ _ _ _ _ _) as [[[sv er] dv] df] eqn:El. apply stamp_loop_scan in El.
  destruct (if is_none ctx then _ else _) as [dv' w].
  destruct (cts_data _) as [|c cs].
  - right. split; [ apply foreign_nil | ]. exact El.
  - destruct (verify_pubkey_binding _ _ _) eqn:B; cbn [negb].
    + right. split; [ rewrite foreign_iff; congruence | ]. destruct (verify_chain _ _ _ _ _) as [[cv t] x]. exact El.
    + left. split; [ now apply foreign_iff | reflexivity ].
Qed.

Lemma v2_entry_ok C K now roots ctx i s :
  sr_error (verify_v2_signer C K now (configured K roots) ctx i s) = None ->
  v2_entry C K now roots ctx i s (verify_v2_signer C K now (configured K roots) ctx i s).
Proof.
  intros H. pose proof (v2_flags _ _ _ _ _ _ _ H) as (_ & FD).
  unfold v2_entry. split.
  { unfold verify_v2_signer. rewrite v2_raw. destruct (v2_sig_loop _ _ _ _ _ _ _ _ _) as [[[? ?] ?] ?].
    destruct (cts_data _); [ reflexivity | ]. destruct (negb _); [ reflexivity | ].
    destruct (verify_chain _ _ _ _ _) as [[? ?] ?]. reflexivity. }
  split; [ exact H | ].
  assert (FD' : forall good why, scan C (pk_data (sn_key s)) (v2_message s) (dgs_data (sd_digests (sn_data s))) (sgs_data (sn_sigs s)) good why ->
    why <> Refused ->
    (sr_digest_valid (verify_v2_signer C K now (configured K roots) ctx i s) = true <-> ctx <> None /\ good <> [])).
  { intros good why (tail & E & F & T) W. rewrite FD, E. split.
    - intros (Hc & g & r & Eg & N). split; [ exact Hc | ]. intros ->. cbn in Eg. subst tail.
      destruct why; [ discriminate | | congruence ]. destruct T as (x & t & X & <- & Y). injection X as <- <-. contradiction.
    - intros (Hc & N). split; [ exact Hc | ]. destruct good as [|g good]; [ contradiction | ].
      exists g, (good ++ tail). split; [ reflexivity | ]. inversion F. tauto. }
  revert H FD'. clear FD. unfold verify_v2_signer. rewrite v2_raw.
  destruct (v2_sig_loop _ _ _ _ _ _ _ _ _) as [[[sv er] dv] w] eqn:El.
  apply v2_loop_scan in El as (good & why & Hs & Hv & He & Hw). cbn [app] in Hw.
  destruct (cts_data _) as [|c cs] eqn:Ec.
  - cbn [sr_error sr_digest_valid sr_signature_valid sr_warnings]. intros -> FD.
    exists good, why, []. split; [ exact Hs | ].
    assert (W : why <> Refused) by (destruct He as [(_ & x & X) | [(W & _) | (W & _)]]; [ discriminate | exact W | exact W ]).
    split; [ cbn [is_none]; rewrite andb_true_r; exact Hv | ]. split; [ exact (FD _ _ Hs W) | ].
    split; [ cbn; auto | ]. rewrite Hw, app_nil_r. reflexivity.
  - destruct (negb _); [ discriminate | ].
    destruct (verify_chain K now (configured K roots) (ct_data c) (map ct_data cs)) as [[cv t] x] eqn:Ech.
    cbn [sr_error sr_digest_valid sr_signature_valid sr_warnings]. intros -> FD.
    exists good, why, (opt_list x). split; [ exact Hs | ].
    assert (W : why <> Refused) by (destruct He as [(_ & y & X) | [(W & _) | (W & _)]]; [ discriminate | exact W | exact W ]).
    split; [ cbn [is_none]; rewrite andb_true_r; exact Hv | ]. split; [ exact (FD _ _ Hs W) | ].
    split; [ | rewrite Hw, <- app_assoc; reflexivity ].
    unfold certificate_entry. cbn [map sr_cert sr_chain sr_trusted sr_chain_valid].
    split; [ reflexivity | ]. split; [ reflexivity | ]. exact (chain_entry _ _ _ _ _ _ _ _ Ech).
Qed.

Lemma has_digest_dec digs (l : list signature) :
  Exists (fun g => ~ no_digest digs (sg_algo g)) l \/ ~ Exists (fun g => ~ no_digest digs (sg_algo g)) l.
Proof.
  induction l as [|g l [IH|IH]]; [ right; intros X; inversion X | left; auto | ].
  destruct (find_digest digs (sg_algo g)) eqn:E.
  - left. left. intros X. apply find_digest_none in X. congruence.
  - right. apply find_digest_none in E. intros X. inversion X; subst; contradiction.
Qed.

Lemma stamp_entry_ok C K now roots ctx s r : r = verify_stamp C K now (configured K roots) ctx (stamp_message s) s ->
  sr_error r = None -> stamp_entry C K now roots ctx s r.
Proof.
  intros -> H. unfold stamp_entry, verify_stamp in *.
  destruct (stamp_sig_loop _ _ _ _ _ _ _ _ _) as [[[sv er] dv] df] eqn:El.
  assert (R : er = None).
  { destruct (if is_none ctx then _ else _) as [dv' w]. destruct (cts_data _); [ exact H | ].
    destruct (negb _); [ discriminate | ]. destruct (verify_chain _ _ _ _ _) as [[? ?] ?]. exact H. }
  subst er. apply stamp_loop_flags in El as (-> & _ & -> & D); [ | reflexivity ].
  set (has := fun g => ~ no_digest (dgs_data (st_digests (sb_data s))) (sg_algo g)) in *.
  assert (Q : exists dv' about, (if is_none ctx then (false, [WStampNoContext])
       else if negb df && is_none (@None signer_error) then (false, [WStampNoDigest]) else (df, [])) = (dv', about) /\
     (dv' = true <-> ctx <> None /\ Exists has (sgs_data (sb_sigs s))) /\
     ((ctx = None /\ about = [WStampNoContext]) \/
      (ctx <> None /\ ~ Exists has (sgs_data (sb_sigs s)) /\ about = [WStampNoDigest]) \/
      (ctx <> None /\ Exists has (sgs_data (sb_sigs s)) /\ about = []))).
  { destruct ctx as [c|]; cbn [is_none].
    - assert (N : Some c <> None) by discriminate. specialize (D N).
      assert (D' : df = true <-> Exists has (sgs_data (sb_sigs s))).
      { rewrite D. split; [ intros [X|X]; [ discriminate | exact X ] | auto ]. }
      destruct df; cbn [negb andb].
      + do 2 eexists. split; [ reflexivity | ]. split; [ split; [ intros _; split; [ exact N | now apply D' ] | auto ] | ].
        right. right. split; [ exact N | split; [ now apply D' | reflexivity ] ].
      + do 2 eexists. split; [ reflexivity | ]. split; [ split; [ discriminate | intros (_ & X); apply D' in X; discriminate ] | ].
        right. left. split; [ exact N | ]. split; [ intros X; apply D' in X; discriminate | reflexivity ].
    - do 2 eexists. split; [ reflexivity | ]. split; [ split; [ discriminate | intros (X & _); congruence ] | auto ]. }
  destruct Q as (dv' & about & E & Q1 & Q2). rewrite E in H |- *.
  destruct (cts_data _) as [|c cs] eqn:Ec.
  - cbn [sr_index sr_error sr_signature_valid sr_digest_valid sr_warnings is_none andb].
    split; [ auto | ]. split; [ auto | ]. split; [ auto | ]. split; [ exact Q1 | ].
    exists about, []. split; [ exact Q2 | ]. split; [ cbn; auto | now rewrite app_nil_r ].
  - destruct (negb _); [ discriminate | ].
    destruct (verify_chain K now (configured K roots) (ct_data c) []) as [[cv t] x] eqn:Ech.
    cbn [sr_index sr_error sr_signature_valid sr_digest_valid sr_warnings is_none andb].
    split; [ auto | ]. split; [ auto | ]. split; [ auto | ]. split; [ exact Q1 | ].
    exists about, (opt_list x). split; [ exact Q2 | ]. split; [ | reflexivity ].
    unfold certificate_entry. cbn [map sr_cert sr_chain sr_trusted sr_chain_valid].
    split; [ reflexivity | ]. split; [ reflexivity | ]. exact (chain_entry _ _ _ _ _ _ _ _ Ech).
Qed.

(** * The whole report *)
Lemma signers_numbered C K now roots ctx l : forall k,
  verify_v2_signers C K now roots ctx (N.of_nat k) l =
  map (fun p => verify_v2_signer C K now roots ctx (fst p) (snd p)) (combine (map N.of_nat (seq k (List.length l))) l).
Proof.
  induction l as [|s l IH]; intros k; cbn [verify_v2_signers List.length seq map combine]; [ reflexivity | ].
  cbn [fst snd]. f_equal. replace (N.of_nat k + 1) with (N.of_nat (S k)) by lia. apply IH.
Qed.
Lemma results_numbered C K now roots ctx b :
  v2_results C K now roots ctx (bk_content b) =
  map (fun p => verify_v2_signer C K now roots ctx (fst p) (snd p)) (numbered_signers b).
Proof.
  unfold v2_results, numbered_signers. induction (bk_content b) as [|v l IH]; [ reflexivity | ].
  cbn [flat_map]. rewrite map_app, <- IH. f_equal. destruct v; try reflexivity.
  exact (signers_numbered C K now roots ctx _ 0).
Qed.

Lemma v2_report_ok C K now roots b ctx r :
  verify_v2_with_digest C K now (configured K roots) b ctx = VOk r ->
  Forall2 (fun p e => v2_entry C K now roots ctx (fst p) (snd p) e) (numbered_signers b) (vr_signers r) /\ summary r.
Proof.
  unfold verify_v2_with_digest. intros H. apply verdict_ok_iff in H as (Hn & Fe & ->).
  split; [ | exact (summary_of _ Hn) ].
  assert (E : forall l, vr_signers (from_signers l) = l) by (intros [|? ?]; reflexivity). rewrite E.
  rewrite results_numbered in *. clear Hn E.
  induction (numbered_signers b) as [|p l IH]; cbn [map] in *; [ constructor | ].
  inversion Fe; subst. constructor; [ | auto ]. apply v2_entry_ok. assumption.
Qed.

Lemma stamp_report_ok C K now roots b ctx r :
  verify_source_stamp_with_digest C K now (configured K roots) b ctx = VOk r ->
  exists s rest e, stamps_of b = s :: rest /\ vr_signers r = [e] /\ stamp_entry C K now roots ctx s e /\ summary r.
Proof.
  intros H. apply stamp_ok_result in H as (s & rest & e & E & -> & Herr & Hl & ->).
  exists s, rest. eexists. split; [ exact E | ]. split; [ exact Hl | ]. split; [ | apply summary_of; discriminate ].
  apply stamp_entry_ok; [ reflexivity | exact Herr ].
Qed.

Lemma v2_failures_ok C K now roots b ctx fs :
  verify_v2_with_digest C K now roots b ctx = VErr (VMultiSigner fs) ->
  exists each, Forall2 (v2_failure C K ctx) (v2_signers_of b) each /\
    fs = flat_map (fun o => match o with Some e => [e] | None => [] end) each /\ fs <> [].
Proof.
  unfold verify_v2_with_digest, verdict. intros H.
  pose proof (results_of_signers C K now roots ctx b) as F.
  destruct (v2_results C K now roots ctx (bk_content b)) as [|x l] eqn:E; [ discriminate | ].
  rewrite <- E in H, F. clear E x l. set (l := v2_results C K now roots ctx (bk_content b)) in *. clearbody l.
  exists (map sr_error l). split.
  { clear H. induction F as [|s e ls le (i & ->) F IH]; cbn [map]; constructor; [ apply v2_failure_ok | exact IH ]. }
  assert (Q : flat_map (fun o : option signer_error => match o with Some e => [e] | None => [] end) (map sr_error l) =
              flat_map (fun s => opt_list (sr_error s)) l).
  { clear. induction l as [|s l IH]; cbn [map flat_map]; [ reflexivity | ]. rewrite IH. destruct (sr_error s); reflexivity. }
  rewrite Q. destruct (flat_map _ l) as [|y ys]; [ discriminate | ]. injection H as <-. split; [ reflexivity | discriminate ].
Qed.

Lemma stamp_failures_ok C K now roots b ctx fs :
  verify_source_stamp_with_digest C K now roots b ctx = VErr (VMultiSigner fs) ->
  exists s rest e, stamps_of b = s :: rest /\ fs = [e] /\ stamp_failure C K ctx s (Some e).
Proof.
  unfold verify_source_stamp_with_digest. rewrite stamp_results_eq. destruct (stamps_of b) as [|s rest]; [ discriminate | ].
  unfold verdict. cbn [flat_map]. rewrite app_nil_r. intros H.
  pose proof (stamp_failure_ok C K now roots ctx s) as F.
  destruct (sr_error _) as [e|]; cbn [opt_list] in H; [ | discriminate ]. injection H as <-.
  exists s, rest, e. auto.
Qed.

Lemma no_signature_iff C K now roots b ctx :
  (verify_v2_with_digest C K now roots b ctx = VErr VNoSignature <-> v2_signers_of b = []) /\
  (verify_source_stamp_with_digest C K now roots b ctx = VErr VNoSignature <-> stamps_of b = []).
Proof.
  split.
  - rewrite <- (v2_results_nil C K now roots ctx b). unfold verify_v2_with_digest, verdict.
    destruct (v2_results _ _ _ _ _ _) as [|x l]; [ tauto | ].
    destruct (flat_map _ (x :: l)); split; discriminate.
  - unfold verify_source_stamp_with_digest. rewrite stamp_results_eq.
    destruct (stamps_of b) as [|s l]; [ cbn; tauto | ]. unfold verdict.
    destruct (flat_map _ _); split; discriminate.
Qed.
Lemma three_outcomes C K now roots b ctx :
  (forall e, verify_v2_with_digest C K now roots b ctx = VErr e -> e = VNoSignature \/ exists fs, e = VMultiSigner fs) /\
  (forall e, verify_source_stamp_with_digest C K now roots b ctx = VErr e -> e = VNoSignature \/ exists fs, e = VMultiSigner fs).
Proof.
  split; intros e; [ unfold verify_v2_with_digest | unfold verify_source_stamp_with_digest ]; unfold verdict;
    match goal with |- match ?l with [] => _ | _ :: _ => _ end = _ -> _ => destruct l as [|x l0] end;
    try (intros H; injection H as <-; auto);
    destruct (flat_map _ _); intros H; try discriminate; injection H as <-; eauto.
Qed.

(** * When there is a report *)
Lemma v2_failure_none C K ctx s e : v2_failure C K ctx s None -> v2_failure C K ctx s e -> e = None.
Proof.
  unfold v2_failure. intros [(_ & X) | (Nf & g1 & w1 & S1 & H1)] H2; [ discriminate | ].
  destruct H2 as [(F & _) | (_ & g2 & w2 & S2 & H2)]; [ contradiction | ].
  destruct (scan_unique _ _ _ _ _ _ _ _ _ S1 S2) as (<- & <-).
  destruct H1 as [(_ & x & X) | [(_ & _ & X) | (W & N & _)]]; try discriminate.
  destruct H2 as [(X & _) | [(_ & X & _) | (_ & _ & X)]]; [ contradiction | contradiction | exact X ].
Qed.
Lemma v2_ok_iff C K now roots b ctx :
  (exists r, verify_v2_with_digest C K now roots b ctx = VOk r) <->
  v2_signers_of b <> [] /\ Forall (fun s => v2_failure C K ctx s None) (v2_signers_of b).
Proof.
  pose proof (results_of_signers C K now roots ctx b) as F. split.
  - intros (r & H). unfold verify_v2_with_digest in H. apply verdict_ok_iff in H as (Hn & Fe & _).
    split; [ intros X; apply Hn; now apply v2_results_nil | ]. clear Hn r.
    induction F as [|s e ls le (i & ->) F IH]; [ constructor | ]. inversion Fe as [|? ? E Fe']; subst.
    constructor; [ rewrite <- E; apply v2_failure_ok | auto ].
  - intros (Hn & Fs). exists (from_signers (v2_results C K now roots ctx (bk_content b))).
    unfold verify_v2_with_digest. apply verdict_ok_iff. split; [ rewrite v2_results_nil; exact Hn | ].
    split; [ | reflexivity ]. clear Hn. induction F as [|s e ls le (i & ->) F IH]; [ constructor | ].
    inversion Fs as [|? ? A Fs']; subst. constructor; [ | auto ]. eapply v2_failure_none; [ exact A | apply v2_failure_ok ].
Qed.
Lemma stamp_failure_none C K ctx s e : stamp_failure C K ctx s None -> stamp_failure C K ctx s e -> e = None.
Proof.
  unfold stamp_failure. intros [(_ & X) | (Nf & H1)] H2; [ discriminate | ].
  destruct H2 as [(F & _) | (_ & H2)]; [ contradiction | ].
  destruct H1 as [(_ & x & X) | [(_ & _ & X) | (W & N & _)]]; try discriminate.
  destruct H2 as [(X & _) | [(_ & X & _) | (_ & _ & X)]]; [ | contradiction | exact X ].
  exfalso. rewrite Forall_forall in W. rewrite Exists_exists in X. destruct X as (g & I & X). exact (X (W g I)).
Qed.
Lemma stamp_ok_iff C K now roots b ctx :
  (exists r, verify_source_stamp_with_digest C K now roots b ctx = VOk r) <->
  exists s rest, stamps_of b = s :: rest /\ stamp_failure C K ctx s None.
Proof.
  split.
  - intros (r & H). apply stamp_ok_result in H as (s & rest & e & E & -> & Herr & _ & _).
    exists s, rest. split; [ exact E | ]. rewrite <- Herr. apply stamp_failure_ok.
  - intros (s & rest & E & F). unfold verify_source_stamp_with_digest. rewrite stamp_results_eq, E.
    pose proof (stamp_failure_none _ _ _ _ _ F (stamp_failure_ok C K now roots ctx s)) as X.
    eexists. apply verdict_ok_iff. split; [ discriminate | ]. split; [ | reflexivity ]. constructor; [ exact X | constructor ].
Qed.
