(** VerifyProps.v - proofs of the verification properties. *)
From Verif Require Import Base BaseFacts Utils ParseFacts Algorithms Common SchemeV2 SourceStamp
  Utf8 ElfInfo SigningBlock Wire Built BuiltFacts CodecFacts BlockFacts SearchFacts InjFacts Spec Zip Digest Module
  ZipSpec ZipFacts DigestFacts ModuleFacts ModuleProps Signer Verifier ModuleVerify VerifySpec VerifyFacts.
From Coq Require Import Bool Lia.
Open Scope N_scope.

(** * One result per signer *)
Lemma signers_results : forall C K now roots ctx l idx,
  Forall2 (fun s r => exists i, r = verify_v2_signer C K now roots ctx i s) l
    (verify_v2_signers C K now roots ctx idx l).
Proof.
  intros C K now roots ctx l. induction l as [|s l IH]; intros idx; cbn; constructor; eauto.
Qed.

Lemma results_of_signers : forall C K now roots ctx b,
  Forall2 (fun s r => exists i, r = verify_v2_signer C K now roots ctx i s) (v2_signers_of b)
    (v2_results C K now roots ctx (bk_content b)).
Proof.
  intros. unfold v2_signers_of, v2_results. induction (bk_content b) as [|v l IH]; cbn; [constructor|].
  destruct v; cbn; auto. apply Forall2_app; auto. apply signers_results.
Qed.

Lemma verify_ok_results : forall C K now roots b ctx r,
  verify_v2_with_digest C K now roots b ctx = VOk r ->
  Forall2 (fun s r => (exists i, r = verify_v2_signer C K now roots ctx i s) /\ sr_error r = None)
    (v2_signers_of b) (vr_signers r) /\ r = from_signers (vr_signers r) /\ v2_signers_of b <> [].
Proof.
  intros C K now roots b ctx r H. unfold verify_v2_with_digest in H.
  apply verdict_ok_iff in H. destruct H as (Hn & Fe & ->).
  pose proof (results_of_signers C K now roots ctx b) as F.
  pose proof (v2_results_nil C K now roots ctx b) as Z.
  set (l := v2_results C K now roots ctx (bk_content b)) in *.
  assert (E : vr_signers (from_signers l) = l) by (destruct l; reflexivity).
  rewrite E. split; [|split; [reflexivity|tauto]].
  clear E Hn Z. revert Fe. induction F; intros Fe; inversion Fe; subst; constructor; auto.
Qed.

Lemma stamp_ok_result : forall C K now roots b ctx r,
  verify_source_stamp_with_digest C K now roots b ctx = VOk r -> exists s rest sr,
  stamps_of b = s :: rest /\ sr = verify_stamp C K now roots ctx (stamp_message s) s /\
  sr_error sr = None /\ vr_signers r = [sr] /\ r = from_signers [sr].
Proof.
  intros C K now roots b ctx r H. unfold verify_source_stamp_with_digest in H.
  rewrite stamp_results_eq in H. destruct (stamps_of b) as [|s rest]; [discriminate|].
  apply verdict_ok_iff in H. destruct H as (_ & Fe & ->). inversion Fe; subst.
  exists s, rest. eexists. split; [reflexivity|]. split; [reflexivity|]. auto.
Qed.

Lemma from_signers_flags : forall l r, r = from_signers l -> l <> [] ->
  (vr_signature_valid r = true <-> Forall (fun s => sr_signature_valid s = true) l) /\
  (vr_digest_valid r = true <-> Forall (fun s => sr_digest_valid s = true) l) /\
  (vr_chain_valid r = true <-> Forall (fun s => sr_chain_valid s = true) l) /\
  (vr_trusted r = true <-> Forall (fun s => sr_trusted s = true) l).
Proof.
  intros l r -> Hn. destruct l as [|s l]; [contradiction|]. cbn [from_signers vr_signature_valid vr_digest_valid vr_chain_valid vr_trusted].
  rewrite !forallb_forall, !Forall_forall. tauto.
Qed.

(** * C42 *)
Lemma bad_signer_error : forall C K now roots ctx idx s,
  v2_signer_bad C K (computed ctx) s ->
  sr_error (verify_v2_signer C K now roots (Some ctx) idx s) <> None.
Proof.
  intros C K now roots ctx idx s H. unfold verify_v2_signer. rewrite v2_raw.
  destruct (v2_sig_loop _ _ _ _ _ _ _ _ _) as [[[sv er] dv] w] eqn:El.
  destruct H as [(before & g & after & E & F & B)|(leaf & rest & E & B)].
  - rewrite E in El. assert (Her := v2_loop_bad _ _ _ _ _ _ _ _ _ _ _ _ _ _ _ El F B).
    destruct (cts_data _); [exact Her|]. destruct (negb _); [discriminate|].
    destruct (verify_chain _ _ _ _ _) as [[cv t] e]. exact Her.
  - destruct (cts_data _) as [|c cs]; [discriminate|]. cbn [map] in E. injection E as Ec _.
    destruct (verify_pubkey_binding K (pk_data (sn_key s)) (ct_data c)) eqn:Eb; [|discriminate].
    apply binding_iff in Eb. rewrite Ec in Eb. contradiction.
Qed.

Lemma c42 : forall C K now roots b ctx,
  Exists (v2_signer_bad C K (computed ctx)) (v2_signers_of b) -> exists failures,
  verify_v2_with_digest C K now roots b (Some ctx) = VErr (VMultiSigner failures) /\ failures <> [].
Proof.
  intros C K now roots b ctx H. unfold verify_v2_with_digest. apply verdict_error_iff.
  pose proof (results_of_signers C K now roots (Some ctx) b) as F.
  induction F as [|s r l l' Hr F IH]; inversion H; subst.
  - left. destruct Hr as (i & ->). now apply bad_signer_error.
  - right. auto.
Qed.

(** * C43 *)
Lemma signer_no_context : forall C K now roots idx s,
  sr_digest_valid (verify_v2_signer C K now roots None idx s) = false.
Proof.
  intros C K now roots idx s. unfold verify_v2_signer. rewrite v2_raw.
  destruct (v2_sig_loop _ _ _ _ _ _ _ _ _) as [[[sv er] dv] w] eqn:El.
  apply v2_loop_none in El; auto. subst dv.
  destruct (cts_data _); [reflexivity|]. destruct (negb _); [reflexivity|].
  now destruct (verify_chain _ _ _ _ _) as [[cv t] e].
Qed.
Lemma stamp_no_context : forall C K now roots raw s,
  sr_digest_valid (verify_stamp C K now roots None raw s) = false.
Proof.
  intros C K now roots raw s. unfold verify_stamp.
  destruct (stamp_sig_loop _ _ _ _ _ _ _ _ _) as [[[sv er] dv] df] eqn:El. cbn [is_none].
  destruct (cts_data _); [reflexivity|]. destruct (negb _); [reflexivity|].
  now destruct (verify_chain _ _ _ _ _) as [[cv t] e].
Qed.

Lemma c43_v2 : forall C K now roots b r,
  verify_v2_with_digest C K now roots b None = VOk r ->
  vr_digest_valid r = false /\ Forall (fun s => sr_digest_valid s = false) (vr_signers r).
Proof.
  intros C K now roots b r H. apply verify_ok_results in H. destruct H as (F & E & Hn).
  assert (Hf : Forall (fun s => sr_digest_valid s = false) (vr_signers r)).
  { clear E Hn. induction F as [|s x l l' ((i & ->) & _) F IH]; constructor; auto. apply signer_no_context. }
  split; [|exact Hf]. assert (Hl : vr_signers r <> []). { intros X. rewrite X in F. inversion F. congruence. }
  destruct (vr_digest_valid r) eqn:Ed; [|reflexivity].
  apply (from_signers_flags _ _ E Hl) in Ed. destruct (vr_signers r); [contradiction|].
  inversion Ed; inversion Hf; congruence.
Qed.
Lemma c43_stamp : forall C K now roots b r,
  verify_source_stamp C K now roots b = VOk r ->
  vr_digest_valid r = false /\ Forall (fun s => sr_digest_valid s = false) (vr_signers r).
Proof.
  intros C K now roots b r H. apply stamp_ok_result in H. destruct H as (s & rest & sr & _ & -> & _ & E & ->).
  rewrite E. cbn. rewrite stamp_no_context. split; [reflexivity|]. constructor; [|constructor]. apply stamp_no_context.
Qed.
Lemma vres_ok_no_digest : forall r, (forall x, r = VOk x -> vr_digest_valid x = false) ->
  present r = true -> vres_ok r = false.
Proof.
  intros [r|e] H P; cbn.
  - rewrite (H r eq_refl), !andb_false_r. reflexivity.
  - destruct e; [discriminate|reflexivity|reflexivity].
Qed.
Lemma has_v2_iff : forall C K now roots b ctx,
  has_v2 (verify_all_with_digest C K now roots b ctx) = true <-> v2_signers_of b <> [].
Proof.
  intros. unfold has_v2, verify_all_with_digest, verify_v2_with_digest. cbn [va_v2].
  pose proof (v2_results_nil C K now roots ctx b) as Z. unfold verdict.
  destruct (v2_results _ _ _ _ _ _) as [|x l].
  - split; [discriminate|]. intros N. elim N. now apply Z.
  - split; [|destruct (flat_map _ _); reflexivity]. intros _ X. apply Z in X. discriminate.
Qed.
Lemma has_stamp_iff : forall C K now roots b ctx,
  has_source_stamp (verify_all_with_digest C K now roots b ctx) = true <-> stamps_of b <> [].
Proof.
  intros. unfold has_source_stamp, verify_all_with_digest, verify_source_stamp_with_digest. cbn [va_stamp].
  rewrite stamp_results_eq. destruct (stamps_of b) as [|s l]; [cbn; split; congruence|].
  split; [discriminate|]. intros _. unfold verdict. destruct (flat_map _ _); reflexivity.
Qed.
Lemma c43_all : forall C K now roots b,
  v2_signers_of b <> [] \/ stamps_of b <> [] ->
  is_valid (verify_all_with_digest C K now roots b None) = false.
Proof.
  intros C K now roots b [H|H].
  - apply (has_v2_iff C K now roots b None) in H. unfold has_v2, is_valid in *.
    rewrite vres_ok_no_digest; auto. intros x E. now apply c43_v2 in E.
  - apply (has_stamp_iff C K now roots b None) in H. unfold has_source_stamp, is_valid in *.
    rewrite (vres_ok_no_digest (va_stamp _)); auto using andb_false_r.
    intros x E. now apply c43_stamp in E.
Qed.

(** * C44 *)
Lemma c44_nothing : forall C K now roots b ctx, v2_signers_of b = [] -> stamps_of b = [] ->
  is_valid (verify_all_with_digest C K now roots b ctx) = true.
Proof.
  intros C K now roots b ctx V S. unfold is_valid, verify_all_with_digest, verify_v2_with_digest,
    verify_source_stamp_with_digest. cbn [va_v2 va_stamp].
  rewrite (proj2 (v2_results_nil C K now roots ctx b) V), stamp_results_eq, S. reflexivity.
Qed.

(** * C45, C46 *)
Lemma v2_loop_dv : forall C ctx digs key raw l er0 w sv er dv' w',
  v2_sig_loop C ctx digs key raw l er0 false w = (sv, er, dv', w') -> dv' = true -> l <> [].
Proof. intros. destruct l; [|discriminate]. cbn in H. injection H as <- <- <- <-. discriminate. Qed.
Lemma stamp_loop_dv : forall C ctx digs key raw l er0 sv er dv' df',
  stamp_sig_loop C ctx digs key raw l er0 false false = (sv, er, dv', df') -> dv' = true -> l <> [].
Proof. intros. destruct l; [|discriminate]. cbn in H. injection H as <- <- <- <-. discriminate. Qed.

(** What the flags of one V2 result say, whatever the roots and digests. *)
Definition v2_report_ok (C : crypto) (K : pki) (s : signer) (r : signer_result) : Prop :=
  (sr_signature_valid r = true ->
     Forall (fun g => accepted C (sg_algo g) (pk_data (sn_key s)) (v2_message s) (sg_data g))
       (sgs_data (sn_sigs s)) /\
     (sr_digest_valid r = true -> sgs_data (sn_sigs s) <> []) /\
     (forall cert, sr_cert r = Some cert -> spki_of K cert = Some (pk_data (sn_key s)))) /\
  sr_cert r = hd_error (map ct_data (cts_data (sd_certs (sn_data s)))).

Lemma v2_report : forall C K now roots ctx idx s,
  v2_report_ok C K s (verify_v2_signer C K now roots ctx idx s).
Proof.
  intros C K now roots ctx idx s. unfold v2_report_ok, verify_v2_signer. rewrite v2_raw.
  destruct (v2_sig_loop _ _ _ _ _ _ _ _ _) as [[[sv er] dv] w] eqn:El.
  pose proof (v2_loop_sigs _ _ _ _ _ _ _ _ _ _ _ _ _ El) as A.
  pose proof (v2_loop_dv _ _ _ _ _ _ _ _ _ _ _ _ El) as D.
  destruct (cts_data _) as [|c cs]; cbn [sr_signature_valid sr_digest_valid sr_cert map hd_error].
  - split; [|reflexivity]. rewrite andb_true_iff. intros (S & _). split; [auto|]. split; [auto|discriminate].
  - destruct (verify_pubkey_binding _ _ _) eqn:Eb; cbn [negb].
    + destruct (verify_chain _ _ _ _ _) as [[cv t] e].
      cbn [sr_signature_valid sr_digest_valid sr_cert].
      split; [|reflexivity]. rewrite andb_true_iff. intros (S & _). split; [auto|]. split; [auto|].
      intros cert [= <-]. now apply binding_iff.
    + cbn [sr_signature_valid sr_digest_valid sr_cert]. split; [discriminate|reflexivity].
Qed.

Definition stamp_report_ok (C : crypto) (K : pki) (b : stamp_block) (r : signer_result) : Prop :=
  (sr_signature_valid r = true ->
     Forall (fun g => accepted C (sg_algo g) (pk_data (sb_key b)) (stamp_message b) (sg_data g))
       (sgs_data (sb_sigs b)) /\
     (sr_digest_valid r = true -> sgs_data (sb_sigs b) <> []) /\
     (forall cert, sr_cert r = Some cert -> spki_of K cert = Some (pk_data (sb_key b)))) /\
  sr_cert r = hd_error (map ct_data (cts_data (st_certs (sb_data b)))).

Lemma stamp_report : forall C K now roots ctx b,
  stamp_report_ok C K b (verify_stamp C K now roots ctx (stamp_message b) b).
Proof.
  intros C K now roots ctx b. unfold stamp_report_ok, verify_stamp.
  destruct (stamp_sig_loop _ _ _ _ _ _ _ _ _) as [[[sv er] dv] df] eqn:El.
  pose proof (stamp_loop_sigs _ _ _ _ _ _ _ _ _ _ _ _ _ El) as A.
  pose proof (stamp_loop_dv _ _ _ _ _ _ _ _ _ _ _ El) as D.
  set (pr := if is_none ctx then _ else _). destruct pr as [dv2 w] eqn:Epr.
  assert (D2 : dv2 = true -> sgs_data (sb_sigs b) <> []).
  { unfold pr in Epr. destruct (is_none ctx); [injection Epr as <- <-; discriminate|].
    destruct (negb df && is_none er); injection Epr as <- <-; auto. discriminate. }
  clearbody pr. clear Epr.
  destruct (cts_data _) as [|c cs]; cbn [sr_signature_valid sr_digest_valid sr_cert map hd_error].
  - split; [|reflexivity]. rewrite andb_true_iff. intros (S & _). split; [auto|]. split; [auto|discriminate].
  - destruct (verify_pubkey_binding _ _ _) eqn:Eb; cbn [negb].
    + destruct (verify_chain _ _ _ _ _) as [[cv t] e].
      cbn [sr_signature_valid sr_digest_valid sr_cert].
      split; [|reflexivity]. rewrite andb_true_iff. intros (S & _). split; [auto|]. split; [auto|].
      intros cert [= <-]. now apply binding_iff.
    + cbn [sr_signature_valid sr_digest_valid sr_cert]. split; [discriminate|reflexivity].
Qed.

Lemma c46_v2 : forall C K now roots b ctx r,
  verify_v2_with_digest C K now roots b ctx = VOk r ->
  Forall2 (v2_report_ok C K) (v2_signers_of b) (vr_signers r).
Proof.
  intros C K now roots b ctx r H. apply verify_ok_results in H. destruct H as (F & _).
  induction F as [|s x l l' ((i & ->) & _) F IH]; constructor; auto. apply v2_report.
Qed.
Lemma c46_stamp : forall C K now roots b ctx r,
  verify_source_stamp_with_digest C K now roots b ctx = VOk r -> exists s rest,
  stamps_of b = s :: rest /\ Forall2 (stamp_report_ok C K) [s] (vr_signers r).
Proof.
  intros C K now roots b ctx r H. apply stamp_ok_result in H. destruct H as (s & rest & sr & E & -> & _ & -> & _).
  exists s, rest. split; [exact E|]. constructor; [|constructor]. apply stamp_report.
Qed.

(** * C47, C48 *)
Lemma chain_links_iff : forall K l c issuer subject, names_of K c = Some (issuer, subject) ->
  (chain_links K issuer l = true <-> linked K (c :: l)).
Proof.
  intros K l. induction l as [|d l IH]; intros c issuer subject Hc; cbn [chain_links].
  - split; [|reflexivity]. intros _ before x y after E. destruct before as [|? [|? ?]]; discriminate.
  - destruct (names_of K d) as [(di & ds)|] eqn:Hd.
    + destruct (beq issuer ds) eqn:Eb.
      * apply beq_eq in Eb. rewrite (IH d di ds Hd). split.
        -- intros L before x y after E. destruct before as [|b before].
           ++ injection E as <- <- <-. exists issuer, subject, di, ds. auto.
           ++ injection E as <- E. exact (L _ _ _ _ E).
        -- intros L before x y after E. apply (L (c :: before) x y after). now rewrite E.
      * split; [discriminate|]. intros L. destruct (L [] c d l eq_refl) as (a1 & a2 & a3 & a4 & E1 & E2 & E3).
        rewrite Hc in E1. rewrite Hd in E2. injection E1 as <- <-. injection E2 as <- <-. subst.
        rewrite beq_refl in Eb. discriminate.
    + split; [discriminate|]. intros L. destruct (L [] c d l eq_refl) as (a1 & a2 & a3 & a4 & E1 & E2 & E3).
      congruence.
Qed.
Lemma structure_iff : forall K ee inter, validate_chain_structure K ee inter = true <-> linked K (ee :: inter).
Proof.
  intros K ee inter. unfold validate_chain_structure. destruct inter as [|d l].
  - split; [|reflexivity]. intros _ before x y after E. destruct before as [|? [|? ?]]; discriminate.
  - destruct (names_of K ee) as [(i & s)|] eqn:E; [eapply chain_links_iff; eauto|].
    split; [discriminate|]. intros L. destruct (L [] ee d l eq_refl) as (a1 & a2 & a3 & a4 & E1 & _). congruence.
Qed.

Lemma in_dec_bytes : forall (x : bytes) l, In x l \/ ~ In x l.
Proof.
  intros x l. induction l as [|y l [IH|IH]]; cbn; auto.
  destruct (beq y x) eqn:E; [apply beq_eq in E; auto|]. right. intros [->|]; auto.
  rewrite beq_refl in E. discriminate.
Qed.

Lemma chain_valid_iff : forall K now l leaf inter cv t w,
  verify_chain K now (configured K l) leaf inter = (cv, t, w) ->
  (t = true <-> trusted K now l leaf inter) /\
  (cv = true <-> trusted K now l leaf inter \/
                 (issuer_unknown K now l leaf inter /\ linked K (leaf :: inter))).
Proof.
  intros K now l leaf inter cv t w H. split; [now apply chain_trusted in H|].
  rewrite configured_eq in H. unfold verify_chain in H. rewrite <- structure_iff.
  unfold trusted, issuer_unknown.
  destruct (roots_is_empty _) eqn:Ee.
  - injection H as <- <- <-. apply roots_empty_iff in Ee. cbn in Ee. subst l. cbn [In]. split.
    + intros ->. right. auto.
    + intros [[[]|([] & _)]|(_ & X)]; auto.
  - assert (Hne : l <> []). { intros ->. discriminate. }
    destruct (is_direct_root _ leaf) eqn:Ed.
    + injection H as <- <- <-. apply direct_root_iff in Ed. cbn in Ed. split; auto.
    + assert (Hni : ~ In leaf l). { intros X. assert (is_direct_root (mkRoots l (anchors K l)) leaf = true) by now apply direct_root_iff. congruence. }
      destruct (ee_parse K leaf) eqn:Ep; cbn [negb] in H.
      2:{ injection H as <- <- <-. split; [discriminate|].
          intros [[?|(_ & ? & _)]|([?|(_ & ? & _)] & _)]; try contradiction; discriminate. }
      cbn [tr_anchors] in H. fold (time_of now) in H.
      destruct (path K (anchors K l) leaf inter (time_of now)) eqn:Epath; injection H as <- <- <-.
      * split; [|reflexivity]. intros _. left. right. auto.
      * split; [discriminate|]. intros [[?|(_ & _ & ?)]|([?|(_ & _ & ?)] & _)]; try contradiction; discriminate.
      * split; [discriminate|]. intros [[?|(_ & _ & ?)]|([?|(_ & _ & ?)] & _)]; try contradiction; discriminate.
      * split.
        -- intros X. right. split; [right; auto|exact X].
        -- intros [[?|(_ & _ & ?)]|(_ & X)]; try contradiction; try discriminate. exact X.
      * split; [discriminate|]. intros [[?|(_ & _ & ?)]|([?|(_ & _ & ?)] & _)]; try contradiction; discriminate.
      * split; [discriminate|]. intros [[?|(_ & _ & ?)]|([?|(_ & _ & ?)] & _)]; try contradiction; discriminate.
Qed.

(** The flags of the reports. *)
Lemma v2_trust_report : forall C K now l ctx idx s r,
  r = verify_v2_signer C K now (configured K l) ctx idx s ->
  (sr_trusted r = true -> sr_chain_valid r = true /\ exists leaf rest,
     map ct_data (cts_data (sd_certs (sn_data s))) = leaf :: rest /\ trusted K now l leaf rest) /\
  (sr_chain_valid r = true -> exists leaf rest,
     map ct_data (cts_data (sd_certs (sn_data s))) = leaf :: rest /\
     (trusted K now l leaf rest \/ (issuer_unknown K now l leaf rest /\ linked K (leaf :: rest)))).
Proof.
  intros C K now l ctx idx s r ->. unfold verify_v2_signer. rewrite v2_raw.
  destruct (v2_sig_loop _ _ _ _ _ _ _ _ _) as [[[sv er] dv] w].
  destruct (cts_data _) as [|c cs]; [cbn; split; discriminate|]. destruct (negb _); [cbn; split; discriminate|].
  destruct (verify_chain _ _ _ _ _) as [[cv t] e] eqn:Ec. cbn [sr_trusted sr_chain_valid map].
  pose proof (chain_trusted _ _ _ _ _ _ _ _ Ec) as (T1 & T2). apply chain_valid_iff in Ec. destruct Ec as (E1 & E2).
  split; intros H.
  - split; [auto|]. exists (ct_data c), (map ct_data cs). split; [reflexivity|]. now apply E1.
  - exists (ct_data c), (map ct_data cs). split; [reflexivity|]. now apply E2.
Qed.
Lemma stamp_trust_report : forall C K now l ctx b r,
  r = verify_stamp C K now (configured K l) ctx (stamp_message b) b ->
  (sr_trusted r = true -> sr_chain_valid r = true /\ exists leaf rest,
     map ct_data (cts_data (st_certs (sb_data b))) = leaf :: rest /\ trusted K now l leaf []) /\
  (sr_chain_valid r = true -> exists leaf rest,
     map ct_data (cts_data (st_certs (sb_data b))) = leaf :: rest /\
     (trusted K now l leaf [] \/ issuer_unknown K now l leaf [])).
Proof.
  intros C K now l ctx b r ->. unfold verify_stamp.
  destruct (stamp_sig_loop _ _ _ _ _ _ _ _ _) as [[[sv er] dv] df].
  destruct (if is_none ctx then _ else _) as [dv2 w].
  destruct (cts_data _) as [|c cs]; [cbn; split; discriminate|]. destruct (negb _); [cbn; split; discriminate|].
  destruct (verify_chain _ _ _ _ _) as [[cv t] e] eqn:Ec. cbn [sr_trusted sr_chain_valid map].
  pose proof (chain_trusted _ _ _ _ _ _ _ _ Ec) as (T1 & T2). apply chain_valid_iff in Ec. destruct Ec as (E1 & E2).
  split; intros H.
  - split; [auto|]. exists (ct_data c), (map ct_data cs). split; [reflexivity|]. now apply E1.
  - exists (ct_data c), (map ct_data cs). split; [reflexivity|]. apply E2 in H. tauto.
Qed.
Lemma c47_v2 : forall C K now l b ctx r,
  verify_v2_with_digest C K now (configured K l) b ctx = VOk r ->
  Forall2 (fun s r =>
    (sr_trusted r = true -> sr_chain_valid r = true /\ exists leaf rest,
       map ct_data (cts_data (sd_certs (sn_data s))) = leaf :: rest /\ trusted K now l leaf rest) /\
    (sr_chain_valid r = true -> exists leaf rest,
       map ct_data (cts_data (sd_certs (sn_data s))) = leaf :: rest /\
       (trusted K now l leaf rest \/ (issuer_unknown K now l leaf rest /\ linked K (leaf :: rest)))))
    (v2_signers_of b) (vr_signers r) /\
  (vr_trusted r = true -> Forall (fun x => sr_trusted x = true) (vr_signers r) /\ vr_signers r <> []).
Proof.
  intros C K now l b ctx r H. apply verify_ok_results in H. destruct H as (F & E & Hn). split.
  - clear E Hn. induction F as [|s x l1 l2 ((i & Hx) & _) F IH]; constructor; auto. eapply v2_trust_report; eauto.
  - intros T. assert (Hl : vr_signers r <> []). { intros X. rewrite X in F. inversion F. congruence. }
    split; [|exact Hl]. now apply (from_signers_flags _ _ E Hl).
Qed.
Lemma c47_stamp : forall C K now l b ctx r,
  verify_source_stamp_with_digest C K now (configured K l) b ctx = VOk r -> vr_trusted r = true ->
  vr_chain_valid r = true /\ exists s rest leaf certs, stamps_of b = s :: rest /\
     map ct_data (cts_data (st_certs (sb_data s))) = leaf :: certs /\ trusted K now l leaf [].
Proof.
  intros C K now l b ctx r H T. apply stamp_ok_result in H. destruct H as (s & rest & sr & E & Es & _ & _ & ->).
  apply stamp_trust_report in Es. destruct Es as (H & _). cbn in T. rewrite andb_true_r in T.
  destruct (H T) as (Hc & leaf & certs & Ec & Ht). cbn. rewrite Hc. split; [reflexivity|].
  exists s, rest, leaf, certs. auto.
Qed.
Lemma no_roots_untrusted : forall K now leaf inter, ~ trusted K now [] leaf inter.
Proof. intros K now leaf inter [[]|([] & _)]; reflexivity. Qed.

Lemma pem_root : forall K l pem r, add_root_pem K (configured K l) pem = Some r ->
  exists cert, pem_parse K pem = Some (CERTIFICATE_TAG, cert) /\ r = configured K (l ++ [cert]).
Proof.
  intros K l pem r H. unfold add_root_pem in H. destruct (pem_parse K pem) as [(tag & c)|]; [|discriminate].
  destruct (beq tag CERTIFICATE_TAG) eqn:E; [|discriminate]. apply beq_eq in E. subst tag. injection H as <-.
  exists c. split; [reflexivity|]. unfold configured. now rewrite fold_left_app.
Qed.
Lemma builtin_roots : forall K builtin,
  roots_with_builtin K builtin = configured K
    (match pem_parse K builtin with
     | Some (tag, cert) => if beq tag CERTIFICATE_TAG then [cert] else []
     | None => []
     end).
Proof.
  intros K builtin. unfold roots_with_builtin, add_root_pem.
  destruct (pem_parse K builtin) as [(tag & c)|]; [|reflexivity]. destruct (beq tag CERTIFICATE_TAG); reflexivity.
Qed.

(** * Whole files *)
Lemma fill_context_get : forall p C ds m file l ctx ctx', fill_context p C ds m file l ctx = Ok ctx' ->
  forall id d, get_digest ctx' id = Some d ->
  get_digest ctx id = Some d \/
  exists a, In a l /\ u32_of_algo a = id /\ m_digest p C (ds a) m file a = Ok d.
Proof.
  intros p C ds m file l. induction l as [|a l IH]; intros ctx ctx' H id d G; cbn [fill_context] in H.
  - injection H as <-. auto.
  - destruct (get_digest ctx (u32_of_algo a)) eqn:E.
    + destruct (IH _ _ H _ _ G) as [?|(x & ? & ? & ?)]; auto. right. exists x. cbn. auto.
    + destruct (m_digest p C (ds a) m file a) as [dg| |] eqn:Ed; [| |discriminate].
      * destruct (IH _ _ H _ _ G) as [G'|(x & ? & ? & ?)].
        -- cbn in G'. destruct (u32_of_algo a =? id) eqn:Ei; [|auto].
           apply N.eqb_eq in Ei. injection G' as <-. right. exists a. cbn. auto.
        -- right. exists x. cbn. auto.
      * destruct (IH _ _ H _ _ G) as [?|(x & ? & ? & ?)]; auto. right. exists x. cbn. auto.
Qed.
Lemma fill_context_keeps : forall p C ds m file l ctx ctx', fill_context p C ds m file l ctx = Ok ctx' ->
  forall id d, get_digest ctx id = Some d -> get_digest ctx' id = Some d.
Proof.
  intros p C ds m file l. induction l as [|a l IH]; intros ctx ctx' H id d G; cbn [fill_context] in H.
  - now injection H as <-.
  - destruct (get_digest ctx (u32_of_algo a)) eqn:E; [eapply IH; eauto|].
    destruct (m_digest p C (ds a) m file a) as [dg| |] eqn:Ed; [| |discriminate]; [|eapply IH; eauto].
    eapply IH; eauto. cbn. destruct (u32_of_algo a =? id) eqn:Ei; [|auto]. apply N.eqb_eq in Ei. congruence.
Qed.
Lemma fill_context_all : forall p C ds m file l ctx ctx', fill_context p C ds m file l ctx = Ok ctx' ->
  forall a d, In a l -> m_digest p C (ds a) m file a = Ok d -> get_digest ctx' (u32_of_algo a) <> None.
Proof.
  intros p C ds m file l. induction l as [|x l IH]; intros ctx ctx' H a d I Hd; cbn [fill_context] in H; [destruct I|].
  destruct I as [->|I].
  - destruct (get_digest ctx (u32_of_algo a)) eqn:E.
    + rewrite (fill_context_keeps _ _ _ _ _ _ _ _ H _ _ E). discriminate.
    + rewrite Hd in H. erewrite (fill_context_keeps _ _ _ _ _ _ _ _ H).
      2:{ cbn. rewrite N.eqb_refl. reflexivity. } discriminate.
  - destruct (get_digest ctx (u32_of_algo x)); [eapply IH; eauto|].
    destruct (m_digest p C (ds x) m file x); try discriminate; eapply IH; eauto.
Qed.
Lemma fill_context_iff : forall p C ds m file l ctx, Forall canonical l ->
  fill_context p C ds m file l ctx_new = Ok ctx ->
  forall a d, In a l -> (computed ctx a d <-> m_digest p C (ds a) m file a = Ok d).
Proof.
  intros p C ds m file l ctx F H a d I. rewrite Forall_forall in F. unfold computed. split; intros G.
  - destruct (fill_context_get _ _ _ _ _ _ _ _ H _ _ G) as [?|(x & Ix & Ex & Dx)]; [discriminate|].
    apply u32_of_algo_inj in Ex; auto. now subst.
  - pose proof (fill_context_all _ _ _ _ _ _ _ _ H _ _ I G) as Hn.
    destruct (get_digest ctx (u32_of_algo a)) as [d'|] eqn:E; [|contradiction].
    destruct (fill_context_get _ _ _ _ _ _ _ _ H _ _ E) as [?|(x & Ix & Ex & Dx)]; [discriminate|].
    apply u32_of_algo_inj in Ex; auto. subst. congruence.
Qed.

(** Parsed blocks. *)
Lemma Forall2_left {A B} (R : A -> B -> Prop) (P : A -> Prop) l l' :
  Forall2 R l l' -> (forall x y, R x y -> P x) -> Forall P l.
Proof. intros H I. induction H; constructor; eauto. Qed.
Lemma digests_canonical : forall d raw, W_digests d raw -> Forall canonical (map dg_algo (dgs_data d)).
Proof.
  intros d raw (raws & W & _). apply Forall_map. eapply Forall2_left; [exact W|].
  intros x y (_ & _ & ? & _). auto.
Qed.
Lemma values_canonical : forall l raw, W_values l raw -> Forall canonical (digest_algos l).
Proof.
  intros l raw (raws & W & _). unfold digest_algos. induction W as [|v r l raws Hv W IH]; cbn [flat_map]; [constructor|].
  apply Forall_app. split; [|exact IH]. destruct Hv as (body & _ & _ & _ & H). destruct v; try constructor.
  - destruct H as (_ & x & junk & (rs & Ws & _) & _). apply Forall_flat_map.
    eapply Forall2_left; [exact Ws|]. cbv beta. intros s y (d & g & k & (dd & _ & _ & _ & Wd & _) & _).
    eapply digests_canonical; eauto.
  - destruct H as (_ & x & junk & (d & g & k & j & (dd & c & a & jj & Wd & _) & _) & _). eapply digests_canonical; eauto.
Qed.

Lemma block_canonical : forall p f b, len f < U64 -> m_get_signing_block p (module_new f) f = Ok b ->
  Forall canonical (digest_algos (bk_content b)).
Proof.
  intros p f b Hf H. apply get_sb_ok in H; auto. destruct H as (e & raw & _ & _ & _ & ((pairs & W & _) & _) & _).
  eapply values_canonical; eauto.
Qed.

Lemma stored_in : forall l a d, stored_digest l a d -> In a (map dg_algo l).
Proof.
  intros l a d (b & e & af & -> & A & _). rewrite map_app. apply in_or_app. right. left. exact A.
Qed.
Lemma v2_good_ext : forall C K now roots (D1 D2 : algorithms -> bytes -> Prop) s,
  (forall a d, In a (map dg_algo (dgs_data (sd_digests (sn_data s)))) -> (D1 a d <-> D2 a d)) ->
  (v2_signer_good C K now roots D1 s <-> v2_signer_good C K now roots D2 s).
Proof.
  intros C K now roots D1 D2 s H. unfold v2_signer_good.
  assert (E : forall g, (exists d, stored_digest (dgs_data (sd_digests (sn_data s))) (sg_algo g) d /\ D1 (sg_algo g) d) <->
    (exists d, stored_digest (dgs_data (sd_digests (sn_data s))) (sg_algo g) d /\ D2 (sg_algo g) d)).
  { intros g. split; intros (d & S & X); exists d; (split; [exact S|]); apply stored_in in S as I; now apply (H _ d I). }
  assert (F : forall (P Q : signature -> Prop) l, (forall g, P g <-> Q g) -> (Forall P l <-> Forall Q l)).
  { intros P Q l X. rewrite !Forall_forall. split; intros Y g I; apply X; auto. }
  erewrite F; [reflexivity|]. intros g. cbv beta. rewrite E. reflexivity.
Qed.
Lemma stamp_good_ext : forall C K now roots (D1 D2 : algorithms -> bytes -> Prop) s,
  (forall a d, In a (map dg_algo (dgs_data (st_digests (sb_data s)))) -> (D1 a d <-> D2 a d)) ->
  (stamp_good C K now roots D1 s <-> stamp_good C K now roots D2 s).
Proof.
  intros C K now roots D1 D2 s H. unfold stamp_good.
  assert (E : forall g, (forall d, stored_digest (dgs_data (st_digests (sb_data s))) (sg_algo g) d -> D1 (sg_algo g) d) <->
    (forall d, stored_digest (dgs_data (st_digests (sb_data s))) (sg_algo g) d -> D2 (sg_algo g) d)).
  { intros g. split; intros X d S; apply stored_in in S as I; apply (H _ d I); auto. }
  assert (F : forall (P Q : signature -> Prop) l, (forall g, P g <-> Q g) -> (Forall P l <-> Forall Q l)).
  { intros P Q l X. rewrite !Forall_forall. split; intros Y g I; apply X; auto. }
  cbv zeta. erewrite (F _ _ (sgs_data (sb_sigs s))); [reflexivity|]. intros g. cbv beta. rewrite E. reflexivity.
Qed.

Lemma v2_algos_in : forall b s a, In s (v2_signers_of b) ->
  In a (map dg_algo (dgs_data (sd_digests (sn_data s)))) -> In a (digest_algos (bk_content b)).
Proof.
  intros b s a Hs Ha. unfold v2_signers_of, digest_algos in *. apply in_flat_map in Hs. destruct Hs as (v & Hv & Hs).
  apply in_flat_map. exists v. split; [exact Hv|]. destruct v; try (now destruct Hs).
  apply in_flat_map. eauto.
Qed.
Lemma stamp_algos_in : forall b s a, In s (stamps_of b) ->
  In a (map dg_algo (dgs_data (st_digests (sb_data s)))) -> In a (digest_algos (bk_content b)).
Proof.
  intros b s a Hs Ha. unfold stamps_of, digest_algos in *. apply in_flat_map in Hs. destruct Hs as (v & Hv & Hs).
  apply in_flat_map. exists v. split; [exact Hv|]. destruct v; cbn in Hs; try contradiction.
  destruct Hs as [<-|[]]. exact Ha.
Qed.

(** The whole verification of a module file. *)
Lemma module_valid_iff : forall p C K now ds f roots r, len f < U64 ->
  m_verify_with_roots p C K now ds (module_new f) f (configured K roots) = Ok r ->
  (is_valid r = true <-> exists b, m_get_signing_block p (module_new f) f = Ok b /\
     let D := fun a d => m_digest p C (ds a) (module_new f) f a = Ok d in
     Forall (v2_signer_good C K now roots D) (v2_signers_of b) /\
     match stamps_of b with [] => True | s :: _ => stamp_good C K now roots D s end).
Proof.
  intros p C K now ds f roots r Hf H. unfold m_verify_with_roots in H.
  destruct (m_get_signing_block p (module_new f) f) as [b|e|] eqn:Eb.
  - destruct (fill_context _ _ _ _ _ _ _) as [ctx| |] eqn:Ec; try discriminate. cbn [bind] in H.
    injection H as <-. rewrite is_valid_iff.
    assert (X := fill_context_iff _ _ _ _ _ _ _ (block_canonical _ _ _ Hf Eb) Ec).
    assert (E : Forall (v2_signer_good C K now roots (computed ctx)) (v2_signers_of b) <->
      Forall (v2_signer_good C K now roots (fun a d => m_digest p C (ds a) (module_new f) f a = Ok d)) (v2_signers_of b)).
    { rewrite !Forall_forall. split; intros Y s Is; (eapply v2_good_ext; [|exact (Y s Is)]); intros a d Ia;
        [symmetry|]; apply X; eapply v2_algos_in; eauto. }
    rewrite E.
    assert (E2 : match stamps_of b with [] => True | s :: _ => stamp_good C K now roots (computed ctx) s end <->
      match stamps_of b with [] => True | s :: _ => stamp_good C K now roots
        (fun a d => m_digest p C (ds a) (module_new f) f a = Ok d) s end).
    { destruct (stamps_of b) as [|s l] eqn:Es; [tauto|]. apply stamp_good_ext. intros a d Ia. apply X.
      eapply stamp_algos_in; eauto. rewrite Es. now left. }
    rewrite E2. split.
    + intros Y. exists b. auto.
    + intros (b' & [= <-] & Y). exact Y.
  - injection H as <-. cbn. split; [discriminate|]. intros (b & X & _). discriminate.
  - discriminate.
Qed.

(** ** Adding a stamp: parsed and built blocks. *)
From Verif Require Import SignFacts.
Lemma parsed_id_ok : forall p f b, len f < U64 -> m_get_signing_block p (module_new f) f = Ok b ->
  Forall id_ok (bk_content b).
Proof.
  intros p f b Hf H. apply get_sb_ok in H; auto. destruct H as (e & raw & _ & _ & _ & ((pairs & (raws & W & _) & _) & _) & _).
  eapply Forall2_left; [exact W|]. intros v y (body & _ & _ & _ & X). destruct v; cbn; auto. now destruct X.
Qed.
Lemma built_id_ok : forall l, Forall built_value l -> Forall id_ok l.
Proof.
  intros l H. eapply Forall_impl; [|exact H]. intros v Hv. destruct v; cbn; auto.
  destruct Hv as (s & _ & ->). reflexivity.
Qed.

(** * Small consequences stated in PropVerify.v *)
From Verif Require Import SignSpec.
Lemma v2_contents : forall C cfg l v, v2_sign_pairs C cfg l = Ok v -> exists s sig pub,
  sns_data (v2_signers v) = [s] /\
  map (fun d => (dg_algo d, dg_digest d)) (dgs_data (sd_digests (sn_data s))) = l /\
  map ct_data (cts_data (sd_certs (sn_data s))) = sc_cert cfg :: sc_chain cfg /\
  ats_data (sd_attrs (sn_data s)) = [] /\
  map (fun g => (sg_algo g, sg_data g)) (sgs_data (sn_sigs s)) = [(sc_algo cfg, sig)] /\
  pk_data (sn_key s) = pub /\ public_key_der C (sc_key cfg) = Ok pub /\
  (crypto_ok C -> accepted C (sc_algo cfg) pub (v2_message s) sig).
Proof.
  intros C cfg l v H. apply v2_sign_inv in H. destruct H as (sig & pub & -> & Hs & Hp).
  exists (v2_one cfg (digests_of_pairs l) sig pub), sig, pub. split; [reflexivity|]. split.
  { cbn. rewrite map_map. rewrite <- (map_id l) at 2. apply map_ext. now intros []. }
  split; [cbn; f_equal; apply certs_data_map|]. split; [reflexivity|]. split; [reflexivity|]. split; [reflexivity|].
  split; [exact Hp|]. intros HC. eapply sign_accepted; eauto.
Qed.
Lemma stamp_contents : forall C now ts cfg l v, stamp_sign_pairs C now ts cfg l = Ok v -> exists sig pub,
  let b := ss_block v in
  map (fun d => (dg_algo d, dg_digest d)) (dgs_data (st_digests (sb_data b))) = l /\
  map ct_data (cts_data (st_certs (sb_data b))) = [sc_cert cfg] /\
  map (fun a => (at_id a, at_data a)) (ats_data (st_attrs (sb_data b))) =
    (match (if ts then now else None) with Some t => [(STAMP_TIME_ATTR_ID, le 8 t)] | None => [] end) /\
  map (fun g => (sg_algo g, sg_data g)) (sgs_data (sb_sigs b)) = [(sc_algo cfg, sig)] /\
  pk_data (sb_key b) = pub /\ public_key_der C (sc_key cfg) = Ok pub /\
  (crypto_ok C -> accepted C (sc_algo cfg) pub (stamp_message b) sig).
Proof.
  intros C now ts cfg l v H. apply stamp_sign_inv in H. destruct H as (attrs & sig & pub & Ha & -> & Hs & Hp).
  exists sig, pub. cbv zeta. split.
  { cbn. rewrite map_map. rewrite <- (map_id l) at 2. apply map_ext. now intros []. }
  split; [reflexivity|]. split.
  { change (ats_data (st_attrs (sb_data (ss_block (ss_new (stamp_one cfg attrs (digests_of_pairs l) sig pub)))))) with attrs.
    unfold stamp_attrs in Ha. destruct ts; [destruct now|]; cbn in Ha; try discriminate; injection Ha as <-; reflexivity. }
  split; [reflexivity|]. split; [reflexivity|].
  split; [exact Hp|]. intros HC. eapply sign_accepted; eauto.
Qed.
Lemma mismatch_fails : forall C cfg now ts d, ~ matches (sc_algo cfg) (sc_key cfg) ->
  v2_sign C cfg d = Err EKeyMismatch /\
  ((ts = true -> now <> None) -> stamp_sign C now ts cfg d = Err EKeyMismatch).
Proof.
  intros C cfg now ts d H. split.
  - unfold v2_sign. rewrite get_from_4_some by apply sd_to_u8_min. cbn [of_option bind].
    rewrite algo_sign_err by auto. reflexivity.
  - intros Ht. unfold stamp_sign.
    assert (exists attrs, stamp_attrs now ts = Ok attrs) as (attrs & ->).
    { unfold stamp_attrs. destruct ts; [|eauto]. destruct now; [cbn; eauto|]. now elim Ht. }
    cbn [bind]. rewrite get_from_4_some by apply std_to_u8_min. cbn [of_option bind].
    rewrite algo_sign_err by auto. reflexivity.
Qed.
Lemma unknown_not_valid : forall C K now roots b ctx r s,
  verify_v2_with_digest C K now roots b ctx = VOk r -> In s (v2_signers_of b) ->
  Exists (fun g => exists u, sg_algo g = Unknown u) (sgs_data (sn_sigs s)) -> vr_signature_valid r = false.
Proof.
  intros C K now roots b ctx r s H I X. destruct (vr_signature_valid r) eqn:Ev; [|reflexivity]. exfalso.
  pose proof (c46_v2 _ _ _ _ _ _ _ H) as F. apply verify_ok_results in H. destruct H as (F0 & E & Hn).
  assert (Hl : vr_signers r <> []). { intros Z. rewrite Z in F0. inversion F0. congruence. }
  apply (from_signers_flags _ _ E Hl) in Ev. clear E Hl Hn F0.
  revert Ev I. induction F as [|s' r' l l' R F IH]; intros Ev I; [destruct I|].
  apply Forall_cons_iff in Ev. destruct Ev as (E1 & E2). destruct I as [->|I]; [|auto].
  destruct R as (R & _). destruct (R E1) as (A & _). apply Exists_exists in X. destruct X as (g & Ig & u & Eu).
  rewrite Forall_forall in A. specialize (A g Ig). rewrite Eu in A. exact A.
Qed.
Lemma c42_flags : forall C K now roots b ctx r,
  verify_v2_with_digest C K now (configured K roots) b (Some ctx) = VOk r ->
  Exists (fun s => ~ v2_signer_good C K now roots (computed ctx) s) (v2_signers_of b) ->
  vr_signature_valid r && vr_digest_valid r && vr_chain_valid r && vr_trusted r = false.
Proof.
  intros C K now roots b ctx r H X. destruct (_ && _) eqn:E; [|reflexivity]. exfalso.
  assert (Y : vres_ok (verify_v2_with_digest C K now (configured K roots) b (Some ctx)) = true) by (rewrite H; exact E).
  unfold verify_v2_with_digest in Y. apply verdict_vres_ok in Y.
  apply (v2_results_forall _ _ _ _ _ _ (v2_signer_good C K now roots (computed ctx))) in Y.
  - apply Exists_exists in X. destruct X as (s & I & N). rewrite Forall_forall in Y. auto.
  - intros. apply v2_signer_flags.
Qed.
Lemma c44_some : forall C K now roots b ctx,
  let a := verify_all_with_digest C K now (configured K roots) b (Some ctx) in
  is_valid a = true -> has_v2 a = true \/ has_source_stamp a = true ->
  (exists s, In s (v2_signers_of b) /\ v2_signer_good C K now roots (computed ctx) s) \/
  (exists s, In s (stamps_of b) /\ stamp_good C K now roots (computed ctx) s).
Proof.
  intros C K now roots b ctx a V P. apply is_valid_iff in V. destruct V as (V & S).
  unfold a in P. rewrite has_v2_iff, has_stamp_iff in P. destruct P as [P|P].
  - left. destruct (v2_signers_of b) as [|s l]; [contradiction|]. apply Forall_cons_iff in V. exists s. cbn. tauto.
  - right. destruct (stamps_of b) as [|s l]; [contradiction|]. exists s. cbn. tauto.
Qed.
Lemma Forall2_impl {A B} (R S : A -> B -> Prop) l l' : (forall x y, R x y -> S x y) -> Forall2 R l l' -> Forall2 S l l'.
Proof. intros I H. induction H; constructor; auto. Qed.
Lemma c45_v2 : forall C K now roots b ctx r,
  verify_v2_with_digest C K now roots b ctx = VOk r ->
  Forall2 (fun s r => sr_signature_valid r = true ->
      Forall (fun g => accepted C (sg_algo g) (pk_data (sn_key s)) (v2_message s) (sg_data g))
        (sgs_data (sn_sigs s)) /\
      (sr_digest_valid r = true -> sgs_data (sn_sigs s) <> [])) (v2_signers_of b) (vr_signers r).
Proof.
  intros C K now roots b ctx r H. apply c46_v2 in H. eapply Forall2_impl; [|exact H].
  intros s x (R & _) V. destruct (R V) as (A & B & _). auto.
Qed.
Lemma c45_stamp : forall C K now roots b ctx r,
  verify_source_stamp_with_digest C K now roots b ctx = VOk r -> exists s rest,
  stamps_of b = s :: rest /\
  (vr_signature_valid r = true ->
      Forall (fun g => accepted C (sg_algo g) (pk_data (sb_key s)) (stamp_message s) (sg_data g))
        (sgs_data (sb_sigs s)) /\
      (vr_digest_valid r = true -> sgs_data (sb_sigs s) <> [])).
Proof.
  intros C K now roots b ctx r H. apply stamp_ok_result in H. destruct H as (s & rest & sr & E & -> & _ & _ & ->).
  exists s, rest. split; [exact E|]. cbn [from_signers vr_signature_valid vr_digest_valid forallb]. rewrite !andb_true_r.
  intros V. destruct (stamp_report C K now roots ctx s) as (R & _). destruct (R V) as (A & B & _). auto.
Qed.
Lemma c46_v2_binding : forall C K now roots b ctx r,
  verify_v2_with_digest C K now roots b ctx = VOk r ->
  Forall2 (fun s r =>
    sr_cert r = hd_error (map ct_data (cts_data (sd_certs (sn_data s)))) /\
    (sr_signature_valid r = true ->
     forall cert, sr_cert r = Some cert -> spki_of K cert = Some (pk_data (sn_key s))))
    (v2_signers_of b) (vr_signers r).
Proof.
  intros C K now roots b ctx r H. apply c46_v2 in H. eapply Forall2_impl; [|exact H].
  intros s x (R & E). split; [exact E|]. intros V. destruct (R V) as (_ & _ & B). exact B.
Qed.
Lemma c46_stamp_binding : forall C K now roots b ctx r,
  verify_source_stamp_with_digest C K now roots b ctx = VOk r -> exists s rest,
  stamps_of b = s :: rest /\
  vr_cert r = hd_error (map ct_data (cts_data (st_certs (sb_data s)))) /\
  (vr_signature_valid r = true -> forall cert, vr_cert r = Some cert -> spki_of K cert = Some (pk_data (sb_key s))).
Proof.
  intros C K now roots b ctx r H. apply stamp_ok_result in H. destruct H as (s & rest & sr & E & -> & _ & _ & ->).
  exists s, rest. split; [exact E|]. cbn [from_signers vr_signature_valid vr_cert forallb]. rewrite !andb_true_r.
  destruct (stamp_report C K now roots ctx s) as (R & Ec). split; [exact Ec|].
  intros V. destruct (R V) as (_ & _ & B). exact B.
Qed.
Lemma c48 : forall K now roots leaf inter, issuer_unknown K now roots leaf inter ->
  exists w, verify_chain K now (configured K roots) leaf inter =
    (validate_chain_structure K leaf inter, false, Some w) /\
  (validate_chain_structure K leaf inter = true <-> linked K (leaf :: inter)).
Proof.
  intros K now roots leaf inter H. rewrite configured_eq. unfold verify_chain.
  destruct H as [->|(Hni & Hp & Hpath)].
  - exists WNoRoots. split; [reflexivity|apply structure_iff].
  - destruct (roots_is_empty _) eqn:Ee; [exists WNoRoots; split; [reflexivity|apply structure_iff]|].
    destruct (is_direct_root _ leaf) eqn:Ed.
    { apply direct_root_iff in Ed. contradiction. }
    rewrite Hp. cbn [negb tr_anchors]. fold (time_of now). rewrite Hpath.
    exists WUnknownIssuer. split; [reflexivity|apply structure_iff].
Qed.
Lemma built_readable : forall q b pre, built_block b -> len (pre ++ block_to_u8 b) < U64 ->
  from_u8 q (pre ++ block_to_u8 b) = Ok b.
Proof.
  intros q b pre (l & HF & [H|(p & H)]) Hl; [eapply PropBlockFacts.c07_new; eauto|eapply PropBlockFacts.c07_padded; eauto].
Qed.
Lemma add_stamp_readable : forall p q C now m b l b' pre, crypto_ok C -> Forall (fun x => canonical (fst x)) l ->
  Forall built_value (bk_content b) ->
  ms_add_source_stamp p C now m b (digests_of_pairs l) = Ok b' ->
  len (pre ++ block_to_u8 b') < U64 -> from_u8 q (pre ++ block_to_u8 b') = Ok b'.
Proof. intros. apply built_readable; auto. eapply add_stamp_built; eauto. Qed.
Lemma ms_sign_readable : forall p q C now m l b pre, crypto_ok C -> Forall (fun x => canonical (fst x)) l ->
  ms_sign p C now m (digests_of_pairs l) = Ok b ->
  len (pre ++ block_to_u8 b) < U64 -> from_u8 q (pre ++ block_to_u8 b) = Ok b.
Proof. intros. apply built_readable; auto. eapply ms_sign_built; eauto. Qed.

Lemma add_stamp_other : forall p C now m b d b', crypto_ok C ->
  ms_add_source_stamp p C now m b d = Ok b' -> exists cfg s pad,
  ms_stamp m = Some cfg /\ stamp_sign C now (ms_timestamp m) cfg d = Ok s /\
  bk_content b' = filter other_value (bk_content b) ++ [StampBlk s] ++ pad /\
  (pad = [] \/ exists n, ms_padding m = true /\ pad = [BaseBlock (raw_new VERITY_PADDING_BLOCK_ID (zeros n))]).
Proof.
  exact add_stamp_spec.
Qed.
Lemma ms_sign_padded : forall p C now m l b, crypto_ok C -> Forall (fun x => canonical (fst x)) l ->
  ms_padding m = true -> ms_sign p C now m (digests_of_pairs l) = Ok b -> len (block_to_u8 b) mod 4096 = 0.
Proof.
  intros p C now m l b HC HF Hm H. pose proof H as H0. apply ms_sign_inv in H; auto.
  destruct H as (v & s & pad & Hc & Hv & Hs & Hp & Hf & _).
  unfold ms_finish in Hf. rewrite Hm in Hf.
  assert (F : Forall built_value (v ++ s)).
  { apply Forall_app. split.
    - destruct (ms_v2 m); [|subst; constructor]. destruct Hv as (x & Hx & ->).
      constructor; [|constructor]. eapply v2_sign_built; eauto.
    - destruct (ms_stamp m); [|subst; constructor]. destruct Hs as (x & Hx & ->).
      constructor; [|constructor]. eapply stamp_sign_built; eauto. }
  eapply PropBlockFacts.c09_shape in F; [|exact Hf]. tauto.
Qed.
Lemma c67 : forall C K now roots ctx cfg d v b pub,
  v2_sign C cfg d = Ok v -> In (V2Block v) (bk_content b) ->
  public_key_der C (sc_key cfg) = Ok pub -> spki_of K (sc_cert cfg) <> Some pub ->
  exists failures, verify_v2_with_digest C K now roots b (Some ctx) = VErr (VMultiSigner failures) /\ failures <> [].
Proof.
  intros C K now roots ctx cfg d v b pub HS HB HP HK. apply c42.
  apply v2_sign_inv in HS. destruct HS as (sig & pub' & -> & _ & Hp). rewrite HP in Hp. injection Hp as <-.
  apply Exists_exists. exists (v2_one cfg d sig pub). split.
  - unfold v2_signers_of. apply in_flat_map. eexists. split; [exact HB|]. now left.
  - right. exists (sc_cert cfg), (sc_chain cfg). split; [cbn; f_equal; apply certs_data_map|exact HK].
Qed.
