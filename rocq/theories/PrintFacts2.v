(** PrintFacts2.v - proofs about Print.v: what each line of the verify command means. *)
From Verif Require Import Base BaseFacts Utils Algorithms SigningBlock Module Signer Verifier ModuleVerify Cli Print PrintSpec PrintFacts
  Common SchemeV2 SourceStamp VerifySpec VerifyFacts ReportSpec ReportFacts CliSpec CliProps.
From Coq Require Import Lia.
Open Scope N_scope.

(** The lines before the section of the stamp. *)
Definition v2_part (verbose : bool) (v2 : vres) : list said * res unit :=
  wbind (out_v2_result v2) (fun r => out_v2 verbose r).
Definition end_kind (x : said) : bool :=
  match x with Out LBlank | Out LV2ButStamp | Out LV2Checks | Out LStampMay | Out LSuccess | Out LAllChecks => true | _ => false end.

Lemma end_kinds v2 b : Forall (fun x => end_kind x = true) (fst (out_end v2 b)).
Proof. unfold out_end. destruct v2 as [r|]; [destruct (all_valid r), b|]; repeat constructor. Qed.
Lemma v2_part_ok verbose v2 : snd (v2_part verbose v2) = Ok tt <-> reaches_stamp v2.
Proof.
  unfold reaches_stamp. destruct v2 as [r|[|e|l]]; cbn [v2_part out_v2_result wbind fst snd app].
  - unfold v2_part. cbn [out_v2_result wbind fst snd app]. unfold out_v2.
    assert (E : passes r <-> vr_signature_valid r = true /\ vr_digest_valid r = true /\ vr_chain_valid r = true /\ vr_trusted r = true).
    { split; [intros P; repeat split; [exact (P FSignature)|exact (P FDigest)|exact (P FChain)|exact (P FTrusted)]|].
      intros (A & B & D & E) []; assumption. }
    split.
    + intros H. right. exists r. split; [reflexivity|]. apply E.
      destruct (vr_signature_valid r), (vr_digest_valid r), (vr_chain_valid r), (vr_trusted r); try discriminate H; auto.
    + intros [H|(q & [= <-] & P)]; [discriminate|]. apply E in P. destruct P as (-> & -> & -> & ->). reflexivity.
  - cbn. tauto.
  - cbn. split; [discriminate|]. intros [H|(? & H & _)]; discriminate.
  - cbn. split; [discriminate|]. intros [H|(? & H & _)]; discriminate.
Qed.
Lemma tail_parts verbose v2 stamp :
  (reaches_stamp v2 /\ exists o b, fst (tail_out verbose v2 stamp) = fst (v2_part verbose v2) ++ fst (out_stamp stamp) ++ fst (out_end o b)) \/
  (~ reaches_stamp v2 /\ fst (tail_out verbose v2 stamp) = fst (v2_part verbose v2)).
Proof.
  unfold tail_out. pose proof (v2_part_ok verbose v2) as E. unfold v2_part in *. destruct (out_v2_result v2) as [l [r|e|]]; cbn [wbind fst snd] in *.
  - destruct (out_v2 verbose r) as [l' [[]|e|]]; cbn [wbind fst snd] in *.
    + left. split; [now apply E|]. eexists _, _. cbn [say wbind fst snd]. now rewrite <- app_assoc.
    + right. split; [|reflexivity]. intros R. apply E in R. discriminate.
    + right. split; [|reflexivity]. intros R. apply E in R. discriminate.
  - right. split; [|reflexivity]. intros R. apply E in R. discriminate.
  - right. split; [|reflexivity]. intros R. apply E in R. discriminate.
Qed.
(** What is printed before the section of the stamp is not of its kind, except the overall flags. *)
Lemma v2_part_shape verbose v2 x : In x (fst (v2_part verbose v2)) -> v2_kind x = true \/ (stamp_kind x = false /\ end_kind x = false /\ early x = false).
Proof.
  unfold v2_part. destruct v2 as [r|[|e|l]]; cbn [out_v2_result wbind fst snd app].
  - unfold out_v2. fold (v2_lines verbose r). pose proof (proj1 (Forall_forall _ _) (v2_kinds verbose r) x) as K.
    destruct (vr_signature_valid r); [destruct (negb _); [|destruct (negb _); [|destruct (negb _)]]|]; cbn [fst]; intros H; inapp; subst; auto.
    apply in_map_iff in H. destruct H as (w & <- & _). right. auto.
  - cbn. intros [<-|[<-|[]]]; auto.
  - cbn. intros [<-|[]]; auto.
  - intros [<-|H]; [auto|]. apply in_map_iff in H. destruct H as (w & <- & _). auto.
Qed.

Lemma stamp_line verbose p C K builtin now ds s file root x :
  stamp_kind x = true -> v2_kind x = false -> early x = false -> end_kind x = false ->
  (In x (fst (verify_prints verbose p C K builtin now ds s file root)) <->
   exists v2 stamp, results p C K builtin now ds s file root v2 stamp /\ reaches_stamp v2 /\ In x (fst (out_stamp stamp))).
Proof.
  intros S V E N. rewrite prints_in by exact E. split; intros (v2 & stamp & R & H); exists v2, stamp; (split; [exact R|]).
  - destruct (tail_parts verbose v2 stamp) as [(Q & o & b & T)|(Q & T)]; rewrite T in H.
    + split; [exact Q|]. apply in_app_or in H. destruct H as [H|H].
      * apply v2_part_shape in H. destruct H as [H|(H & _)]; congruence.
      * apply in_app_or in H. destruct H as [H|H]; [exact H|]. exfalso. revert H. apply (in_kind end_kind); [apply end_kinds|exact N].
    + exfalso. apply v2_part_shape in H. destruct H as [H|(H & _)]; congruence.
  - destruct H as (Q & H). destruct (tail_parts verbose v2 stamp) as [(_ & o & b & T)|(Q' & _)]; [|tauto]. rewrite T. apply in_or_app. right. apply in_or_app. now left.
Qed.
Lemma v2_line verbose p C K builtin now ds s file root x :
  stamp_kind x = false -> early x = false -> end_kind x = false ->
  (In x (fst (verify_prints verbose p C K builtin now ds s file root)) <->
   exists v2 stamp, results p C K builtin now ds s file root v2 stamp /\ In x (fst (v2_part verbose v2))).
Proof.
  intros S E N. rewrite prints_in by exact E. split; intros (v2 & stamp & R & H); exists v2, stamp; (split; [exact R|]).
  - destruct (tail_parts verbose v2 stamp) as [(Q & o & b & T)|(Q & T)]; rewrite T in H; [|exact H].
    apply in_app_or in H. destruct H as [H|H]; [exact H|]. exfalso. apply in_app_or in H. destruct H as [H|H].
    + revert H. now apply (in_kind stamp_kind); [apply stamp_kinds|].
    + revert H. now apply (in_kind end_kind); [apply end_kinds|].
  - destruct (tail_parts verbose v2 stamp) as [(_ & o & b & T)|(_ & T)]; rewrite T; [|exact H]. apply in_or_app. now left.
Qed.

(** * Lines about the module signature *)
Lemma failed_hd r f : hd_error (failed_checks r) = Some f <->
  reported f r = false /\ match f with
    | FSignature => True
    | FDigest => vr_signature_valid r = true
    | FChain => vr_signature_valid r = true /\ vr_digest_valid r = true
    | FTrusted => vr_signature_valid r = true /\ vr_digest_valid r = true /\ vr_chain_valid r = true
    end.
Proof.
  unfold failed_checks, checks. cbn [filter reported].
  destruct (vr_signature_valid r) eqn:A, (vr_digest_valid r) eqn:B, (vr_chain_valid r) eqn:D, (vr_trusted r) eqn:E, f;
    cbn [negb hd_error reported]; rewrite ?A, ?B, ?D, ?E; split; intros H; (discriminate H || tauto || reflexivity || (destruct H; discriminate) || (decompose [and] H; discriminate)).
Qed.
Ltac skip_v2 := match goal with H : In _ (v2_lines _ _) |- _ => exfalso; revert H; apply (in_kind v2_kind); [apply v2_kinds|reflexivity] end.
Lemma in_refusal verbose v2 f : In (Errs (refusal_line f)) (fst (v2_part verbose v2)) <-> exists r, v2 = VOk r /\ hd_error (failed_checks r) = Some f.
Proof.
  split.
  - unfold v2_part. destruct v2 as [r|[|e|l]]; cbn [out_v2_result wbind fst snd app].
    + intros H. exists r. split; [reflexivity|]. apply failed_hd. unfold out_v2 in H. fold (v2_lines verbose r) in H.
      destruct (vr_signature_valid r) eqn:A; cbn [fst] in H.
      2:{ destruct H as [H|H]; [destruct f; try discriminate H; cbn [reported]; auto|].
          exfalso. destruct (nonempty _); cbn [when] in H; [|destruct H]. destruct H as [H|H]; [destruct f; discriminate H|].
          apply in_map_iff in H. destruct H as (w & H & _). destruct f; discriminate H. }
      assert (Q : ~ In (Errs (refusal_line f)) (v2_lines verbose r)) by (apply (in_kind v2_kind); [apply v2_kinds|destruct f; reflexivity]).
      destruct (vr_digest_valid r) eqn:B; cbn [negb] in H.
      2:{ cbn [fst] in H. apply in_app_or in H. destruct H as [H|[H|[]]]; [tauto|]. destruct f; try discriminate H; cbn [reported]; auto. }
      destruct (vr_chain_valid r) eqn:D; cbn [negb] in H.
      2:{ cbn [fst] in H. apply in_app_or in H. destruct H as [H|[H|[]]]; [tauto|]. destruct f; try discriminate H; cbn [reported]; auto. }
      destruct (vr_trusted r) eqn:E; cbn [negb] in H.
      2:{ cbn [fst] in H. apply in_app_or in H. destruct H as [H|[H|[]]]; [tauto|]. destruct f; try discriminate H; cbn [reported]; auto. }
      tauto.
    + cbn. intros [H|[H|[]]]; discriminate.
    + cbn. intros [H|[]]; destruct f; discriminate.
    + intros [H|H]; [destruct f; discriminate|]. apply in_map_iff in H. destruct H as (? & H & _). destruct f; discriminate.
  - intros (r & -> & H). apply failed_hd in H. unfold v2_part. cbn [out_v2_result wbind fst snd app]. unfold out_v2. fold (v2_lines verbose r).
    destruct f; cbn [reported refusal_line] in *.
    + destruct H as (-> & _). now left.
    + destruct H as (-> & ->). cbn [negb fst]. apply in_or_app. right. now left.
    + destruct H as (-> & -> & ->). cbn [negb fst]. apply in_or_app. right. now left.
    + destruct H as (-> & -> & -> & ->). cbn [negb fst]. apply in_or_app. right. now left.
Qed.
Lemma prints_refusal verbose p C K builtin now ds s file root f :
  In (Errs (refusal_line f)) (fst (verify_prints verbose p C K builtin now ds s file root)) <->
  exists r stamp, results p C K builtin now ds s file root (VOk r) stamp /\ hd_error (failed_checks r) = Some f.
Proof.
  rewrite v2_line by (destruct f; reflexivity). split.
  - intros (v2 & stamp & R & H). apply in_refusal in H. destruct H as (r & -> & H). eauto.
  - intros (r & stamp & R & H). exists (VOk r), stamp. split; [exact R|]. apply in_refusal. eauto.
Qed.
(** A line of the section of the module signature. *)
Lemma in_v2_part verbose v2 x : v2_kind x = true -> on_stderr x = false ->
  (In x (fst (v2_part verbose v2)) <-> exists r, v2 = VOk r /\ vr_signature_valid r = true /\ In x (v2_lines verbose r)).
Proof.
  intros V O. unfold v2_part. destruct v2 as [r|[|e|l]]; cbn [out_v2_result wbind fst snd app].
  - unfold out_v2. fold (v2_lines verbose r). split.
    + intros H. exists r. split; [reflexivity|]. destruct (vr_signature_valid r) eqn:A.
      * split; [reflexivity|]. destruct (negb _); [|destruct (negb _); [|destruct (negb _)]]; cbn [fst] in H; try exact H;
          apply in_app_or in H; destruct H as [H|[H|[]]]; try exact H; subst x; discriminate.
      * exfalso. cbn [fst] in H. destruct H as [<-|H]; [discriminate|]. destruct (nonempty _); cbn [when] in H; [|destruct H].
        destruct H as [<-|H]; [discriminate|]. apply in_map_iff in H. destruct H as (? & <- & _). discriminate.
    + intros (q & [= <-] & A & H). rewrite A. destruct (negb _); [|destruct (negb _); [|destruct (negb _)]]; cbn [fst]; try exact H; apply in_or_app; now left.
  - cbn. split; [intros [<-|[<-|[]]]; discriminate|]. intros (? & H & _). discriminate.
  - cbn. split; [intros [<-|[]]; discriminate|]. intros (? & H & _). discriminate.
  - split; [|intros (? & H & _); discriminate]. intros [<-|H]; [discriminate|]. apply in_map_iff in H. destruct H as (? & <- & _). discriminate.
Qed.
Lemma prints_section verbose p C K builtin now ds s file root x :
  v2_kind x = true -> on_stderr x = false -> stamp_kind x = false -> early x = false -> end_kind x = false ->
  (In x (fst (verify_prints verbose p C K builtin now ds s file root)) <->
   exists r stamp, results p C K builtin now ds s file root (VOk r) stamp /\ vr_signature_valid r = true /\ In x (v2_lines verbose r)).
Proof.
  intros V O S E N. rewrite v2_line by assumption. split.
  - intros (v2 & stamp & R & H). apply (in_v2_part verbose v2 x V O) in H. destruct H as (r & -> & H). eauto.
  - intros (r & stamp & R & H). exists (VOk r), stamp. split; [exact R|]. apply (in_v2_part verbose (VOk r) x V O). eauto.
Qed.
Lemma in_lines_signer verbose r x : signer_kind x = true ->
  (In x (v2_lines verbose r) <-> exists g, In g (vr_signers r) /\ In x (out_signer verbose g)).
Proof.
  intros S. unfold v2_lines. split.
  - intros H. apply in_app_or in H. destruct H as [H|H]; [destruct H as [<-|[<-|[]]]; discriminate|].
    apply in_app_or in H. destruct H as [H|H]; [now apply in_flat_map in H|]. exfalso. apply in_app_or in H. destruct H as [H|H].
    + destruct H as [<-|[<-|[<-|[<-|[]]]]]; discriminate.
    + destruct (nonempty _); cbn [when] in H; [|destruct H]. destruct H as [<-|H]; [discriminate|]. apply in_map_iff in H. destruct H as (? & <- & _). discriminate.
  - intros H. apply in_or_app. right. apply in_or_app. left. now apply in_flat_map.
Qed.
Lemma in_signer_cert verbose g c : In (Out (LCertificate 4 c)) (out_signer verbose g) <-> sr_cert g = Some c.
Proof.
  unfold out_signer. split.
  - intros H. inapp. 1:{ destruct (sr_cert g); [destruct H as [[= ->]|[]]; reflexivity|destruct H]. }
    all: try (apply in_map_iff in H; destruct H as (? & H & _); discriminate); inapp.
    all: try (apply in_map_iff in H; destruct H as (? & H & _); discriminate); inapp.
  - intros ->. apply in_or_app. right. apply in_or_app. left. now left.
Qed.
Lemma in_signer_chain verbose g n : In (Out (LChain n)) (out_signer verbose g) <-> sr_chain g <> [] /\ n = len (sr_chain g).
Proof.
  unfold out_signer. split.
  - intros H. apply in_app_or in H. destruct H as [H|H]; [inapp|]. apply in_app_or in H. destruct H as [H|H].
    { destruct (sr_cert g); [destruct H as [H|[]]; discriminate|destruct H]. }
    apply in_app_or in H. destruct H as [H|H].
    + destruct (sr_chain g) as [|c l]; cbn [nonempty when] in H; [destruct H|]. split; [discriminate|].
      destruct H as [[= H]|H]; [auto|]. destruct verbose; cbn [when] in H; [|destruct H]. apply in_map_iff in H. destruct H as (? & H & _). discriminate.
    + destruct (_ && _); cbn [when] in H; [|destruct H]. destruct H as [H|H]; [discriminate|]. apply in_map_iff in H. destruct H as (? & H & _). discriminate.
  - intros (N & ->). apply in_or_app. right. apply in_or_app. right. apply in_or_app. left. destruct (sr_chain g); [tauto|]. now left.
Qed.
Lemma in_numbered {A} (l : list A) i k x : In (k, x) (numbered i l) <-> exists j, k = i + N.of_nat j /\ nth_error l j = Some x.
Proof.
  split.
  - intros H. apply In_nth_error in H. destruct H as (j & H). rewrite numbered_nth in H. exists j. destruct (nth_error l j); [|discriminate].
    injection H as <- ->. auto.
  - intros (j & -> & H). apply nth_error_In with j. rewrite numbered_nth, H. reflexivity.
Qed.
Lemma in_signer_chain_cert verbose g i c : In (Out (LChainCert i c)) (out_signer verbose g) <-> verbose = true /\ nth_error (sr_chain g) (N.to_nat i) = Some c.
Proof.
  unfold out_signer. split.
  - intros H. apply in_app_or in H. destruct H as [H|H]; [inapp|]. apply in_app_or in H. destruct H as [H|H].
    { destruct (sr_cert g); [destruct H as [H|[]]; discriminate|destruct H]. }
    apply in_app_or in H. destruct H as [H|H].
    + destruct (nonempty _); cbn [when] in H; [|destruct H]. destruct H as [H|H]; [discriminate|].
      destruct verbose; cbn [when] in H; [|destruct H]. split; [reflexivity|]. apply in_map_iff in H. destruct H as ((k & y) & [= -> ->] & H).
      apply in_numbered in H. destruct H as (j & -> & H). now rewrite N.add_0_l, Nat2N.id.
    + destruct (_ && _); cbn [when] in H; [|destruct H]. destruct H as [H|H]; [discriminate|]. apply in_map_iff in H. destruct H as (? & H & _). discriminate.
  - intros (-> & H). apply in_or_app. right. apply in_or_app. right. apply in_or_app. left.
    destruct (sr_chain g) as [|y l] eqn:E; [destruct (N.to_nat i); discriminate|]. cbn [nonempty when]. right. apply in_map_iff. exists (i, c). split; [reflexivity|].
    apply in_numbered. exists (N.to_nat i). rewrite N.add_0_l, N2Nat.id. auto.
Qed.
Lemma in_signer_warning verbose g o w : In (Out (LWarning 6 o w)) (out_signer verbose g) <-> verbose = true /\ o = None /\ In w (sr_warnings g).
Proof.
  unfold out_signer. split.
  - intros H. apply in_app_or in H. destruct H as [H|H]; [inapp|]. apply in_app_or in H. destruct H as [H|H].
    { destruct (sr_cert g); [destruct H as [H|[]]; discriminate|destruct H]. }
    apply in_app_or in H. destruct H as [H|H].
    + destruct (nonempty _); cbn [when] in H; [|destruct H]. destruct H as [H|H]; [discriminate|].
      destruct verbose; cbn [when] in H; [|destruct H]. apply in_map_iff in H. destruct H as (? & H & _). discriminate.
    + destruct (nonempty _), verbose; cbn [when andb] in H; try destruct H. { discriminate. } apply in_map_iff in H. destruct H as (? & [= <- <-] & H). auto.
  - intros (-> & -> & H). apply in_or_app. right. apply in_or_app. right. apply in_or_app. right.
    destruct (sr_warnings g) as [|y l]; [destruct H|]. cbn [nonempty andb when]. right. apply in_map_iff. exists w. auto.
Qed.
Lemma in_lines_warning verbose r o w : In (Out (LWarning 4 o w)) (v2_lines verbose r) <-> exists n, o = Some n /\ In (n, w) (vr_warnings r).
Proof.
  unfold v2_lines. split.
  - intros H. apply in_app_or in H. destruct H as [H|H]; [inapp|]. apply in_app_or in H. destruct H as [H|H].
    { exfalso. apply in_flat_map in H. destruct H as (g & _ & H). revert H. apply (in_kind signer_kind); [apply signer_kinds|reflexivity]. }
    apply in_app_or in H. destruct H as [H|H]; [inapp|].
    destruct (nonempty _); cbn [when] in H; [|destruct H]. destruct H as [H|H]; [discriminate|]. apply in_map_iff in H. destruct H as ((k & y) & [= <- <-] & H). eauto.
  - intros (n & -> & H). apply in_or_app. right. apply in_or_app. right. apply in_or_app. right.
    destruct (vr_warnings r) as [|y l]; [destruct H|]. cbn [nonempty when]. right. apply in_map_iff. exists (n, w). auto.
Qed.

Lemma prints_passed verbose p C K builtin now ds s file root :
  In (Out LV2Passed) (fst (verify_prints verbose p C K builtin now ds s file root)) <->
  exists r stamp, results p C K builtin now ds s file root (VOk r) stamp /\ vr_signature_valid r = true.
Proof.
  rewrite prints_section by reflexivity. split; intros (r & stamp & R & H); exists r, stamp; (split; [exact R|]); [tauto|]. split; [exact H|]. now left.
Qed.
Lemma prints_count verbose p C K builtin now ds s file root n :
  In (Out (LSignersVerified n)) (fst (verify_prints verbose p C K builtin now ds s file root)) <->
  exists r stamp, results p C K builtin now ds s file root (VOk r) stamp /\ vr_signature_valid r = true /\ n = len (vr_signers r).
Proof.
  rewrite prints_section by reflexivity. split; intros (r & stamp & R & A & H); exists r, stamp; (split; [exact R|]); (split; [exact A|]).
  - unfold v2_lines in H. apply in_app_or in H. destruct H as [H|H]; [destruct H as [H|[[= H]|[]]]; [discriminate|auto]|]. exfalso.
    apply in_app_or in H. destruct H as [H|H].
    { apply in_flat_map in H. destruct H as (g & _ & H). revert H. apply (in_kind signer_kind); [apply signer_kinds|reflexivity]. }
    apply in_app_or in H. destruct H as [H|H]; [inapp|]. destruct (nonempty _); cbn [when] in H; [|destruct H]. destruct H as [H|H]; [discriminate|].
    apply in_map_iff in H. destruct H as (? & H & _). discriminate.
  - subst n. right. now left.
Qed.
Lemma prints_of_signer verbose p C K builtin now ds s file root x (P : signer_result -> Prop) :
  signer_kind x = true -> stamp_kind x = false -> early x = false -> end_kind x = false -> on_stderr x = false ->
  (forall g, In x (out_signer verbose g) <-> P g) ->
  (In x (fst (verify_prints verbose p C K builtin now ds s file root)) <->
   exists r stamp g, results p C K builtin now ds s file root (VOk r) stamp /\ vr_signature_valid r = true /\ In g (vr_signers r) /\ P g).
Proof.
  intros S T E N O I. assert (V : v2_kind x = true) by (unfold v2_kind; now rewrite S). rewrite prints_section by assumption. split.
  - intros (r & stamp & R & A & H). apply (in_lines_signer verbose r x S) in H. destruct H as (g & G & H). exists r, stamp, g. rewrite <- I. auto.
  - intros (r & stamp & g & R & A & G & H). exists r, stamp. split; [exact R|]. split; [exact A|]. apply (in_lines_signer verbose r x S). exists g. rewrite I. auto.
Qed.
Lemma prints_certificate verbose p C K builtin now ds s file root c :
  In (Out (LCertificate 4 c)) (fst (verify_prints verbose p C K builtin now ds s file root)) <->
  exists r stamp g, results p C K builtin now ds s file root (VOk r) stamp /\ vr_signature_valid r = true /\ In g (vr_signers r) /\ sr_cert g = Some c.
Proof. apply prints_of_signer; try reflexivity. intros g. apply in_signer_cert. Qed.
Lemma prints_chain verbose p C K builtin now ds s file root n :
  In (Out (LChain n)) (fst (verify_prints verbose p C K builtin now ds s file root)) <->
  exists r stamp g, results p C K builtin now ds s file root (VOk r) stamp /\ vr_signature_valid r = true /\ In g (vr_signers r) /\
    sr_chain g <> [] /\ n = len (sr_chain g).
Proof. apply prints_of_signer; try reflexivity. intros g. apply in_signer_chain. Qed.
Lemma prints_chain_cert verbose p C K builtin now ds s file root i c :
  In (Out (LChainCert i c)) (fst (verify_prints verbose p C K builtin now ds s file root)) <->
  exists r stamp g, results p C K builtin now ds s file root (VOk r) stamp /\ vr_signature_valid r = true /\ In g (vr_signers r) /\
    verbose = true /\ nth_error (sr_chain g) (N.to_nat i) = Some c.
Proof. apply prints_of_signer; try reflexivity. intros g. apply in_signer_chain_cert. Qed.
Lemma prints_signer_warning verbose p C K builtin now ds s file root o w :
  In (Out (LWarning 6 o w)) (fst (verify_prints verbose p C K builtin now ds s file root)) <->
  exists r stamp g, results p C K builtin now ds s file root (VOk r) stamp /\ vr_signature_valid r = true /\ In g (vr_signers r) /\
    verbose = true /\ o = None /\ In w (sr_warnings g).
Proof. apply prints_of_signer; try reflexivity. intros g. apply in_signer_warning. Qed.
Lemma prints_warning verbose p C K builtin now ds s file root o w :
  In (Out (LWarning 4 o w)) (fst (verify_prints verbose p C K builtin now ds s file root)) <->
  exists r stamp n, results p C K builtin now ds s file root (VOk r) stamp /\ vr_signature_valid r = true /\ o = Some n /\ In (n, w) (vr_warnings r).
Proof.
  rewrite prints_section by reflexivity. split.
  - intros (r & stamp & R & A & H). apply in_lines_warning in H. destruct H as (n & H). exists r, stamp, n. tauto.
  - intros (r & stamp & n & R & A & H). exists r, stamp. split; [exact R|]. split; [exact A|]. apply in_lines_warning. eauto.
Qed.
Lemma prints_error verbose p C K builtin now ds s file root o w :
  In (Errs (LWarning 4 o w)) (fst (verify_prints verbose p C K builtin now ds s file root)) <->
  exists r stamp n, results p C K builtin now ds s file root (VOk r) stamp /\ vr_signature_valid r = false /\ o = Some n /\ In (n, w) (vr_warnings r).
Proof.
  rewrite v2_line by reflexivity. split.
  - intros (v2 & stamp & R & H). unfold v2_part in H. destruct v2 as [r|[|e|l]]; cbn [out_v2_result wbind fst snd app] in H.
    + exists r, stamp. unfold out_v2 in H. fold (v2_lines verbose r) in H. destruct (vr_signature_valid r) eqn:A.
      * exfalso. assert (Q : ~ In (Errs (LWarning 4 o w)) (v2_lines verbose r)) by (apply (in_kind v2_kind); [apply v2_kinds|reflexivity]).
        destruct (negb _); [|destruct (negb _); [|destruct (negb _)]]; cbn [fst] in H; try tauto; apply in_app_or in H; destruct H as [H|[H|[]]]; (tauto || discriminate).
      * cbn [fst] in H. destruct H as [H|H]; [discriminate|]. destruct (nonempty _); cbn [when] in H; [|destruct H]. destruct H as [H|H]; [discriminate|].
        apply in_map_iff in H. destruct H as ((n & y) & [= <- <-] & H). exists n. auto.
    + cbn in H. destruct H as [H|[H|[]]]; discriminate.
    + cbn in H. destruct H as [H|[]]; discriminate.
    + destruct H as [H|H]; [discriminate|]. apply in_map_iff in H. destruct H as (? & H & _). discriminate.
  - intros (r & stamp & n & R & A & -> & H). exists (VOk r), stamp. split; [exact R|]. unfold v2_part. cbn [out_v2_result wbind fst snd app]. unfold out_v2.
    rewrite A. cbn [fst]. right. destruct (vr_warnings r) as [|y l]; [destruct H|]. cbn [nonempty when]. right. apply in_map_iff. exists (n, w). auto.
Qed.
Lemma prints_v2_failed verbose p C K builtin now ds s file root :
  In (Errs LV2Failed) (fst (verify_prints verbose p C K builtin now ds s file root)) <->
  exists errors stamp, results p C K builtin now ds s file root (VErr (VMultiSigner errors)) stamp.
Proof.
  rewrite v2_line by reflexivity. split.
  - intros (v2 & stamp & R & H). destruct v2 as [r|[|e|l]]; [exfalso|exfalso|exfalso|eauto].
    + unfold v2_part in H. cbn [out_v2_result wbind fst snd app] in H. unfold out_v2 in H. fold (v2_lines verbose r) in H.
      assert (Q : ~ In (Errs LV2Failed) (v2_lines verbose r)) by (apply (in_kind v2_kind); [apply v2_kinds|reflexivity]).
      destruct (vr_signature_valid r); [destruct (negb _); [|destruct (negb _); [|destruct (negb _)]]|]; cbn [fst] in H; try tauto;
        try (apply in_app_or in H; destruct H as [H|[H|[]]]; (tauto || discriminate)).
      destruct H as [H|H]; [discriminate|]. destruct (nonempty _); cbn [when] in H; [|destruct H]. destruct H as [H|H]; [discriminate|].
      apply in_map_iff in H. destruct H as (? & H & _). discriminate.
    + cbn in H. destruct H as [H|[H|[]]]; discriminate.
    + cbn in H. destruct H as [H|[]]; discriminate.
  - intros (errors & stamp & R). exists (VErr (VMultiSigner errors)), stamp. split; [exact R|]. now left.
Qed.

(** * Lines about the source stamp *)
Ltac instamp H := unfold out_stamp in H; match type of H with In _ (fst (match ?s with _ => _ end)) => destruct s as [r|[|e|l]] end; cbn [fst] in H.
Lemma stamp_cases x stamp : In x (fst (out_stamp stamp)) <->
  match stamp with
  | VOk r => (passes r /\ (x = Out LStampPassed \/ (exists f, x = Out (LField 2 f true)) \/ exists c, vr_cert r = Some c /\ x = Out (LCertificate 2 c))) \/
             (~ passes r /\ (x = Errs (LStampFailed (failed_checks r)) \/ (exists f, x = Errs (LField 2 f (reported f r))) \/
                (vr_digest_valid r = false /\ x = Errs LStampTampered) \/ (vr_trusted r = false /\ x = Errs LStampUntrusted) \/
                exists n w, In (n, w) (vr_warnings r) /\ x = Errs (LWarning 2 (Some n) w)))
  | VErr VNoSignature => x = Out LStampNotFound
  | VErr (VMultiSigner l) => x = Errs LStampErrors \/ (exists e, In e l /\ x = Errs (LStampError e)) \/ x = Errs LStampWarning
  | VErr e => x = Errs (LStampErrorWith e) \/ x = Errs LStampWarning
  end.
Proof.
  unfold out_stamp. destruct stamp as [r|[|e|l]].
  - assert (FC : reasons r = failed_checks r).
    { unfold reasons, failed_checks, checks. cbn [filter reported]. destruct (vr_signature_valid r), (vr_digest_valid r), (vr_chain_valid r), (vr_trusted r); reflexivity. }
    destruct (all_valid r) eqn:V; cbn [fst].
    + apply all_valid_iff in V. rewrite (V FSignature : vr_signature_valid r = true), (V FDigest : vr_digest_valid r = true),
        (V FChain : vr_chain_valid r = true), (V FTrusted : vr_trusted r = true). split.
      * intros H. left. split; [exact V|]. apply in_app_or in H. destruct H as [H|H].
        { destruct H as [<-|[<-|[<-|[<-|[<-|[]]]]]]; eauto. }
        { destruct (vr_cert r) as [c|]; [destruct H as [<-|[]]; eauto|destruct H]. }
      * intros [(_ & H)|(H & _)]; [|tauto]. destruct H as [->|[(f & ->)|(c & -> & ->)]]; apply in_or_app; [left; now left|left|right; now left].
        destruct f; cbn [In]; auto 8.
    + assert (NP : ~ passes r) by (intros P; apply all_valid_iff in P; congruence). rewrite FC. split.
      * intros H. right. split; [exact NP|]. apply in_app_or in H. destruct H as [H|H].
        { destruct H as [<-|[<-|[<-|[<-|[<-|[]]]]]]; [now left|..]; right; left; [exists FSignature|exists FDigest|exists FChain|exists FTrusted]; reflexivity. }
        right. right. apply in_app_or in H. destruct H as [H|H].
        { destruct (vr_digest_valid r); cbn [negb when] in H; [destruct H|]. destruct H as [<-|[]]. auto. }
        right. apply in_app_or in H. destruct H as [H|H].
        { destruct (vr_trusted r); cbn [negb when] in H; [destruct H|]. destruct H as [<-|[]]. auto. }
        right. apply in_map_iff in H. destruct H as ((n & w) & <- & H). eauto.
      * intros [(H & _)|(_ & H)]; [tauto|]. destruct H as [->|[(f & ->)|[(D & ->)|[(T & ->)|(n & w & W & ->)]]]].
        { apply in_or_app. left. now left. }
        { apply in_or_app. left. destruct f; cbn [In reported]; auto 8. }
        { apply in_or_app. right. rewrite D. now left. }
        { apply in_or_app. right. apply in_or_app. right. rewrite T. now left. }
        { apply in_or_app. right. apply in_or_app. right. apply in_or_app. right. apply in_map_iff. exists (n, w). auto. }
  - cbn. split; [intros [<-|[]]; reflexivity|]. intros ->. auto.
  - cbn. split; [intros [<-|[<-|[]]]; auto|]. intros [->| ->]; auto.
  - cbn [fst]. split.
    + intros [<-|H]; [auto|]. apply in_app_or in H. destruct H as [H|[<-|[]]]; [|auto]. apply in_map_iff in H. destruct H as (e & <- & H). eauto.
    + intros [->|[(e & H & ->)| ->]]; [now left|right; apply in_or_app; left|right; apply in_or_app; right; now left]. apply in_map_iff. eauto.
Qed.
Ltac stampline := rewrite stamp_line by reflexivity; split;
  [let v2 := fresh "v2" in let stamp := fresh "stamp" in intros (v2 & stamp & R & Q & H); apply stamp_cases in H;
   destruct stamp as [r|[|e'|l']]; [destruct H as [(P & [H|[(f' & H)|(c' & H' & H)]])|(P & [H|[(f' & H)|[(D & H)|[(T & H)|(n' & w' & W & H)]]]])]
   |idtac|destruct H as [H|H]|destruct H as [H|[(e' & I & H)|H]]]; try discriminate H; try (injection H as H; subst)|].
Lemma prints_stamp_reasons verbose p C K builtin now ds s file root l :
  In (Errs (LStampFailed l)) (fst (verify_prints verbose p C K builtin now ds s file root)) <->
  exists v2 r, results p C K builtin now ds s file root v2 (VOk r) /\ reaches_stamp v2 /\ ~ passes r /\ l = failed_checks r.
Proof.
  stampline; [eauto 8|]. intros (v2 & r & R & Q & P & ->). exists v2, (VOk r). split; [exact R|]. split; [exact Q|]. apply stamp_cases. auto 8.
Qed.
Lemma prints_stamp_flags verbose p C K builtin now ds s file root f v :
  In (Errs (LField 2 f v)) (fst (verify_prints verbose p C K builtin now ds s file root)) <->
  exists v2 r, results p C K builtin now ds s file root v2 (VOk r) /\ reaches_stamp v2 /\ ~ passes r /\ reported f r = v.
Proof.
  stampline; [eauto 8|]. intros (v2 & r & R & Q & P & <-). exists v2, (VOk r). split; [exact R|]. split; [exact Q|]. apply stamp_cases. right. split; [exact P|]. eauto.
Qed.
Lemma prints_stamp_tampered verbose p C K builtin now ds s file root :
  In (Errs LStampTampered) (fst (verify_prints verbose p C K builtin now ds s file root)) <->
  exists v2 r, results p C K builtin now ds s file root v2 (VOk r) /\ reaches_stamp v2 /\ vr_digest_valid r = false.
Proof.
  stampline; [eauto 8|]. intros (v2 & r & R & Q & D). exists v2, (VOk r). split; [exact R|]. split; [exact Q|]. apply stamp_cases. right.
  split; [intros P; specialize (P FDigest); cbn [reported] in P; congruence|]. auto 8.
Qed.
Lemma prints_stamp_untrusted verbose p C K builtin now ds s file root :
  In (Errs LStampUntrusted) (fst (verify_prints verbose p C K builtin now ds s file root)) <->
  exists v2 r, results p C K builtin now ds s file root v2 (VOk r) /\ reaches_stamp v2 /\ vr_trusted r = false.
Proof.
  stampline; [eauto 8|]. intros (v2 & r & R & Q & D). exists v2, (VOk r). split; [exact R|]. split; [exact Q|]. apply stamp_cases. right.
  split; [intros P; specialize (P FTrusted); cbn [reported] in P; congruence|]. auto 8.
Qed.
Lemma prints_stamp_notes verbose p C K builtin now ds s file root n w :
  In (Errs (LWarning 2 (Some n) w)) (fst (verify_prints verbose p C K builtin now ds s file root)) <->
  exists v2 r, results p C K builtin now ds s file root v2 (VOk r) /\ reaches_stamp v2 /\ ~ passes r /\ In (n, w) (vr_warnings r).
Proof.
  stampline; [eauto 8|]. intros (v2 & r & R & Q & P & W). exists v2, (VOk r). split; [exact R|]. split; [exact Q|]. apply stamp_cases. right.
  split; [exact P|]. eauto 9.
Qed.
Lemma prints_stamp_certificate verbose p C K builtin now ds s file root c :
  In (Out (LCertificate 2 c)) (fst (verify_prints verbose p C K builtin now ds s file root)) <->
  exists v2 r, results p C K builtin now ds s file root v2 (VOk r) /\ reaches_stamp v2 /\ passes r /\ vr_cert r = Some c.
Proof.
  stampline; [eauto 8|]. intros (v2 & r & R & Q & P & W). exists v2, (VOk r). split; [exact R|]. split; [exact Q|]. apply stamp_cases. left.
  split; [exact P|]. eauto 9.
Qed.
Lemma prints_stamp_none verbose p C K builtin now ds s file root :
  In (Out LStampNotFound) (fst (verify_prints verbose p C K builtin now ds s file root)) <->
  exists v2, results p C K builtin now ds s file root v2 (VErr VNoSignature) /\ reaches_stamp v2.
Proof.
  stampline; [eauto 8|]. intros (v2 & R & Q). exists v2, (VErr VNoSignature). split; [exact R|]. split; [exact Q|]. now apply stamp_cases.
Qed.
Lemma prints_stamp_error verbose p C K builtin now ds s file root e :
  In (Errs (LStampError e)) (fst (verify_prints verbose p C K builtin now ds s file root)) <->
  exists v2 l, results p C K builtin now ds s file root v2 (VErr (VMultiSigner l)) /\ reaches_stamp v2 /\ In e l.
Proof.
  stampline; [eauto 8|]. intros (v2 & l & R & Q & I). exists v2, (VErr (VMultiSigner l)). split; [exact R|]. split; [exact Q|]. apply stamp_cases. eauto.
Qed.
Lemma prints_stamp_warning verbose p C K builtin now ds s file root :
  In (Errs LStampWarning) (fst (verify_prints verbose p C K builtin now ds s file root)) <->
  exists v2 e, results p C K builtin now ds s file root v2 (VErr e) /\ reaches_stamp v2 /\ e <> VNoSignature.
Proof.
  stampline; [eexists _, _; split; [exact R|]; split; [exact Q|discriminate]..|].
  intros (v2 & e & R & Q & I). exists v2, (VErr e). split; [exact R|]. split; [exact Q|]. apply stamp_cases. destruct e; auto. congruence.
Qed.

(** * What the messages come from *)
Lemma prints_never verbose p C K builtin now ds s file root e :
  ~ In (Errs (LV2FailedWith e)) (fst (verify_prints verbose p C K builtin now ds s file root)) /\
  ~ In (Errs (LStampErrorWith e)) (fst (verify_prints verbose p C K builtin now ds s file root)).
Proof.
  split.
  - rewrite v2_line by reflexivity. intros (v2 & stamp & (f & b & roots & o1 & o2 & _ & _ & _ & _ & _ & _ & E & _) & H).
    destruct v2 as [r|e']. 
    + apply v2_part_shape in H as H'. unfold v2_part in H. cbn [out_v2_result wbind fst snd app] in H. unfold out_v2 in H. fold (v2_lines verbose r) in H.
      assert (Q : ~ In (Errs (LV2FailedWith e)) (v2_lines verbose r)) by (apply (in_kind v2_kind); [apply v2_kinds|reflexivity]).
      destruct (vr_signature_valid r); [destruct (negb _); [|destruct (negb _); [|destruct (negb _)]]|]; cbn [fst] in H; try tauto;
        try (apply in_app_or in H; destruct H as [H|[H|[]]]; (tauto || discriminate)).
      destruct H as [H|H]; [discriminate|]. destruct (nonempty _); cbn [when] in H; [|destruct H]. destruct H as [H|H]; [discriminate|].
      apply in_map_iff in H. destruct H as (? & H & _). discriminate.
    + symmetry in E. apply three_outcomes in E. destruct E as [->|(l & ->)].
      * cbn in H. destruct H as [H|[H|[]]]; discriminate.
      * destruct H as [H|H]; [discriminate|]. apply in_map_iff in H. destruct H as (? & H & _). discriminate.
  - rewrite stamp_line by reflexivity. intros (v2 & stamp & (f & b & roots & o1 & o2 & _ & _ & _ & _ & _ & _ & _ & E) & _ & H).
    apply stamp_cases in H. destruct stamp as [r|e'].
    + destruct H as [(P & [H|[(f' & H)|(c' & H' & H)]])|(P & [H|[(f' & H)|[(D & H)|[(T & H)|(n' & w' & W & H)]]]])]; discriminate.
    + symmetry in E. apply three_outcomes in E. destruct E as [->|(l & ->)]; [discriminate|]. destruct H as [H|[(? & _ & H)|H]]; discriminate.
Qed.
Lemma prints_mismatch_means verbose p C K builtin now ds s file root :
  In (Errs LDigestMismatch) (fst (verify_prints verbose p C K builtin now ds s file root)) ->
  exists f b, fs_read s file = Some f /\ m_get_signing_block p (module_new f) f = Ok b /\
    Exists (fun g => sgs_data (sn_sigs g) = []) (v2_signers_of b).
Proof.
  intros H. apply (prints_refusal verbose p C K builtin now ds s file root FDigest) in H. destruct H as (r & stamp & R & H).
  apply failed_hd in H. destruct H as (D & A). cbn [reported] in D.
  destruct R as (f & b & roots & o1 & o2 & E1 & E2 & E3 & _ & _ & _ & E & _). exists f, b. split; [exact E1|]. split; [exact E2|].
  apply cli_roots_iff in E3. destruct E3 as (rs & _ & ->). symmetry in E. apply v2_report_ok in E. destruct E as (F & S).
  destruct S as (_ & SA & SD & _). apply SA in A.
  assert (X : Exists (fun e => sr_digest_valid e = false) (vr_signers r)).
  { apply Exists_exists. destruct (forallb sr_digest_valid (vr_signers r)) eqn:B.
    - exfalso. assert (vr_digest_valid r = true); [|congruence]. apply SD. apply Forall_forall. intros x I. now apply (proj1 (forallb_forall _ _) B).
    - clear - B. induction (vr_signers r) as [|x l IH]; [discriminate|]. cbn [forallb] in B. destruct (sr_digest_valid x) eqn:V.
      + destruct (IH B) as (y & I & Y). exists y. split; [now right|exact Y].
      + exists x. split; [now left|exact V]. }
  assert (Y : Exists (fun q => sgs_data (sn_sigs (snd q)) = []) (numbered_signers b)).
  { clear SA SD. induction F as [|q e l l' V F IH]; [inversion X|]. inversion A as [|? ? A1 A2]; subst. inversion X as [? ? X1|? ? X1]; subst.
    - left. destruct V as (_ & _ & good & why & note & Sc & VS & VD & _). apply VS in A1. subst why.
      destruct Sc as (tl & -> & _ & ->). destruct good as [|g good]; [reflexivity|]. exfalso.
      assert (sr_digest_valid e = true); [|congruence]. apply VD. split; discriminate.
    - right. apply IH; assumption. }
  clear - Y. unfold v2_signers_of. unfold numbered_signers in Y. apply Exists_exists in Y. destruct Y as (q & I & Q).
  apply in_flat_map in I. destruct I as (v & I & J). apply Exists_exists. exists (snd q). split; [|exact Q].
  apply in_flat_map. exists v. split; [exact I|]. destruct v; try destruct J. destruct q as (k & g). now apply in_combine_r in J.
Qed.
Lemma prints_tampered_means verbose p C K builtin now ds s file root :
  In (Errs LStampTampered) (fst (verify_prints verbose p C K builtin now ds s file root)) ->
  exists f b t rest, fs_read s file = Some f /\ m_get_signing_block p (module_new f) f = Ok b /\ stamps_of b = t :: rest /\
    Forall (fun g => no_digest (dgs_data (st_digests (sb_data t))) (sg_algo g)) (sgs_data (sb_sigs t)).
Proof.
  intros H. apply prints_stamp_tampered in H. destruct H as (v2 & r & R & _ & D).
  destruct R as (f & b & roots & o1 & o2 & E1 & E2 & E3 & _ & _ & _ & _ & E).
  apply cli_roots_iff in E3. destruct E3 as (rs & _ & ->). symmetry in E. apply stamp_report_ok in E. destruct E as (t & rest & e & T & L & V & S).
  exists f, b, t, rest. split; [exact E1|]. split; [exact E2|]. split; [exact T|].
  destruct S as (_ & _ & SD & _). rewrite L in SD.
  destruct V as (_ & _ & _ & VD & _). destruct (has_digest_dec (dgs_data (st_digests (sb_data t))) (sgs_data (sb_sigs t))) as [X|X].
  - exfalso. assert (vr_digest_valid r = true); [|congruence]. apply SD. constructor; [|constructor]. apply VD. split; [discriminate|exact X].
  - apply Forall_forall. intros g I. destruct (find_digest (dgs_data (st_digests (sb_data t))) (sg_algo g)) eqn:F; [|now apply find_digest_none in F].
    exfalso. apply X. apply Exists_exists. exists g. split; [exact I|]. intros Q. apply find_digest_none in Q. congruence.
Qed.
Lemma prints_stamp_signature p C K builtin now ds s file root v2 r :
  results p C K builtin now ds s file root v2 (VOk r) -> vr_signature_valid r = true.
Proof.
  intros (f & b & roots & o1 & o2 & E1 & E2 & E3 & _ & _ & _ & _ & E).
  apply cli_roots_iff in E3. destruct E3 as (rs & _ & ->). symmetry in E. apply stamp_report_ok in E. destruct E as (t & rest & e & T & L & V & S).
  destruct S as (_ & SA & _). rewrite L in SA. apply SA. constructor; [|constructor]. apply V.
Qed.

(** * The lines before the verifier *)
Lemma in_wbind {A B} (m : list said * res A) (k : A -> list said * res B) x :
  In x (fst (wbind m k)) <-> In x (fst m) \/ exists a, snd m = Ok a /\ In x (fst (k a)).
Proof.
  destruct m as [l [a|e|]]; cbn [wbind fst snd].
  - rewrite in_app_iff. split; [intros [H|H]; eauto|]. intros [H|(b & [= <-] & H)]; auto.
  - split; [auto|]. intros [H|(b & H & _)]; [auto|discriminate].
  - split; [auto|]. intros [H|(b & H & _)]; [auto|discriminate].
Qed.
Lemma tail_no_early verbose v2 stamp x : early x = true -> x <> Out LBlank -> ~ In x (fst (tail_out verbose v2 stamp)).
Proof.
  intros E N H. destruct (tail_parts verbose v2 stamp) as [(_ & o & b & T)|(_ & T)]; rewrite T in H.
  - apply in_app_or in H. destruct H as [H|H].
    + apply v2_part_shape in H. destruct H as [H|(_ & _ & H)]; [|congruence]. destruct x as [[]|[]]; discriminate.
    + apply in_app_or in H. destruct H as [H|H].
      * apply (proj1 (Forall_forall _ _) (stamp_kinds stamp)) in H. destruct x as [[]|[]]; discriminate.
      * apply (proj1 (Forall_forall _ _) (end_kinds o b)) in H. destruct x as [[]|[]]; try discriminate. now apply N.
  - apply v2_part_shape in H. destruct H as [H|(_ & _ & H)]; [|congruence]. destruct x as [[]|[]]; discriminate.
Qed.
Definition dig (verbose : bool) (a : algorithms) (o : option bytes) : list said :=
  when verbose [Out (match o with Some _ => LComputed a | None => LNotComputed a end)].
Lemma out_digest_cases verbose p C ds f a ctx :
  (exists o, digest_known p C ds f a o /\ out_digest verbose p C ds (module_new f) f a ctx = (dig verbose a o, Ok (entry_of a o ++ ctx))) \/
  ((forall o, ~ digest_known p C ds f a o) /\ out_digest verbose p C ds (module_new f) f a ctx = ([], Panic)).
Proof.
  unfold out_digest, dig. destruct (m_digest p C (ds a) (module_new f) f a) as [d|e|] eqn:E.
  - left. exists (Some d). auto.
  - left. exists None. split; [cbn; eauto|auto].
  - right. split; [|reflexivity]. intros [d|]; cbn [digest_known]; [congruence|]. intros (e & X). congruence.
Qed.
Lemma known_fun p C ds f a o o' : digest_known p C ds f a o -> digest_known p C ds f a o' -> o' = o.
Proof. destruct o, o'; cbn [digest_known]; try congruence; try (intros (? & ?) ?; congruence); intros ? (? & ?); congruence. Qed.
Lemma out_digest_known verbose p C ds f a ctx o : digest_known p C ds f a o ->
  out_digest verbose p C ds (module_new f) f a ctx = (dig verbose a o, Ok (entry_of a o ++ ctx)).
Proof.
  intros D. destruct (out_digest_cases verbose p C ds f a ctx) as [(o' & D' & ->)|(N & _)]; [|now apply N in D]. now rewrite (known_fun _ _ _ _ _ _ _ D D').
Qed.
Lemma in_prints_early verbose p C K builtin now ds s file root x : early x = true -> x <> Out LBlank ->
  (In x (fst (verify_prints verbose p C K builtin now ds s file root)) <->
   x = Out LVerifying \/ x = Out (LFile file) \/
   exists f, fs_read s file = Some f /\ exists b, m_get_signing_block p (module_new f) f = Ok b /\
     (x = Out LBlockFound \/
      exists roots, cli_roots K builtin s root = Ok roots /\
        ((exists r, root = Some r /\ x = Out (LCustomRoot r)) \/
         exists o256, digest_known p C ds f ECDSA_SHA2_256 o256 /\
           (In x (dig verbose ECDSA_SHA2_256 o256) \/
            exists o512, digest_known p C ds f ECDSA_SHA2_512 o512 /\
              (In x (dig verbose ECDSA_SHA2_512 o512) \/
               (o256 = None /\ o512 = None /\ x = Errs LNoDigests) \/
               (~ (o256 = None /\ o512 = None) /\ x = Out LDigestsComputed)))))).
Proof.
  intros E N. unfold verify_prints. split.
  - intros H. apply in_wbind in H. destruct H as [H|(u & _ & H)]; [destruct H as [<-|[<-|[<-|[]]]]; auto; now destruct N|].
    right. right. apply in_wbind in H. destruct H as [[]|(f & Ef & H)]. exists f. cbn [snd] in Ef.
    split; [destruct (fs_read s file); [now injection Ef as ->|discriminate]|]. cbv zeta in H.
    apply in_wbind in H. destruct H as [[]|(b & Eb & H)]. exists b. cbn [snd] in Eb.
    split; [destruct (m_get_signing_block p (module_new f) f); cbn [map_err] in Eb; congruence|].
    apply in_wbind in H. destruct H as [[<-|[]]|(u' & _ & H)]; [auto|]. right.
    apply in_wbind in H. destruct H as [[]|(roots & Er & H)]. exists roots. split; [exact Er|].
    apply in_wbind in H. destruct H as [H|(u'' & _ & H)]; [left; destruct root as [r|]; [destruct H as [<-|[]]; eauto|destruct H]|]. right.
    destruct (out_digest_cases verbose p C ds f ECDSA_SHA2_256 ctx_new) as [(o1 & D1 & X1)|(_ & X1)]; rewrite X1 in H; [|destruct H].
    exists o1. split; [exact D1|]. apply in_wbind in H. destruct H as [H|(c1 & C1 & H)]; [auto|]. right. injection C1 as <-.
    destruct (out_digest_cases verbose p C ds f ECDSA_SHA2_512 (entry_of ECDSA_SHA2_256 o1 ++ ctx_new)) as [(o2 & D2 & X2)|(_ & X2)]; rewrite X2 in H; [|destruct H].
    exists o2. split; [exact D2|]. apply in_wbind in H. destruct H as [H|(c2 & C2 & H)]; [auto|]. right. injection C2 as <-.
    destruct (entry_of ECDSA_SHA2_512 o2 ++ entry_of ECDSA_SHA2_256 o1 ++ ctx_new) as [|c0 c] eqn:Z.
    + left. destruct H as [<-|[]]. destruct o2; [discriminate|]. destruct o1; [discriminate|]. auto.
    + right. split; [intros (-> & ->); discriminate|]. apply in_wbind in H. destruct H as [[<-|[]]|(u3 & _ & H)]; [auto|].
      exfalso. revert H. now apply (tail_no_early verbose _ _ x E N).
  - intros [->|[->|(f & Ef & b & Eb & H)]]; apply in_wbind; [left; now left|left; right; now left|right].
    exists tt. split; [reflexivity|]. apply in_wbind. right. exists f. split; [cbn [snd]; now rewrite Ef|]. cbv zeta.
    apply in_wbind. right. exists b. split; [cbn [snd]; now rewrite Eb|]. apply in_wbind. destruct H as [->|(roots & Er & H)]; [left; now left|right].
    exists tt. split; [reflexivity|]. apply in_wbind. right. exists roots. split; [exact Er|]. apply in_wbind.
    destruct H as [(r & -> & ->)|(o1 & D1 & H)]; [left; now left|right]. exists tt. split; [reflexivity|].
    apply in_wbind. rewrite (out_digest_known verbose _ _ _ _ _ ctx_new _ D1). destruct H as [H|(o2 & D2 & H)]; [left; exact H|right].
    eexists. split; [reflexivity|]. apply in_wbind. rewrite (out_digest_known verbose _ _ _ _ _ (entry_of ECDSA_SHA2_256 o1 ++ ctx_new) _ D2).
    destruct H as [H|H]; [left; exact H|right]. eexists. split; [reflexivity|].
    destruct H as [(-> & -> & ->)|(Z & ->)]; [now left|].
    destruct o2; [now left|]. destruct o1; [now left|]. now destruct Z.
Qed.
Ltac early_line := rewrite in_prints_early by (reflexivity || discriminate).
Lemma in_dig verbose a o x : In x (dig verbose a o) <-> verbose = true /\ x = Out (match o with Some _ => LComputed a | None => LNotComputed a end).
Proof. unfold dig. destruct verbose; cbn; split; [intros [<-|[]]; auto|intros (_ & ->); auto|tauto|]. intros (H & _). discriminate. Qed.
Lemma prints_block_found verbose p C K builtin now ds s file root :
  In (Out LBlockFound) (fst (verify_prints verbose p C K builtin now ds s file root)) <->
  exists f b, fs_read s file = Some f /\ m_get_signing_block p (module_new f) f = Ok b.
Proof.
  early_line. split.
  - intros [H|[H|(f & Ef & b & Eb & _)]]; [discriminate..|eauto].
  - intros (f & b & Ef & Eb). right. right. exists f. split; [exact Ef|]. exists b. auto.
Qed.
Lemma prints_custom_root verbose p C K builtin now ds s file root r :
  In (Out (LCustomRoot r)) (fst (verify_prints verbose p C K builtin now ds s file root)) <->
  root = Some r /\ exists f, prepared p K builtin s file root f.
Proof.
  early_line. split.
  - intros [H|[H|(f & Ef & b & Eb & [H|(roots & Er & [(r' & -> & [= <-])|(o1 & _ & H)])])]]; try discriminate.
    + split; [reflexivity|]. exists f. split; [exact Ef|]. eauto.
    + exfalso. destruct H as [H|(o2 & _ & [H|[(_ & _ & H)|(_ & H)]])]; try discriminate; apply in_dig in H; destruct H as (_ & H); [destruct o1|destruct o2]; discriminate.
  - intros (-> & f & Ef & (b & Eb) & roots & Er). right. right. exists f. split; [exact Ef|]. exists b. split; [exact Eb|]. right. exists roots. split; [exact Er|]. eauto.
Qed.
Lemma prints_digest verbose p C K builtin now ds s file root a :
  (In (Out (LComputed a)) (fst (verify_prints verbose p C K builtin now ds s file root)) <->
   verbose = true /\ exists f o256, prepared p K builtin s file root f /\ digest_known p C ds f ECDSA_SHA2_256 o256 /\
     In a [ECDSA_SHA2_256; ECDSA_SHA2_512] /\ exists d, digest_known p C ds f a (Some d)) /\
  (In (Out (LNotComputed a)) (fst (verify_prints verbose p C K builtin now ds s file root)) <->
   verbose = true /\ exists f o256, prepared p K builtin s file root f /\ digest_known p C ds f ECDSA_SHA2_256 o256 /\
     In a [ECDSA_SHA2_256; ECDSA_SHA2_512] /\ digest_known p C ds f a None).
Proof.
  split; early_line.
  - split.
    + intros [H|[H|(f & Ef & b & Eb & [H|(roots & Er & [(r' & -> & H)|(o1 & D1 & [H|(o2 & D2 & [H|[(_ & _ & H)|(_ & H)]])])])])]]; try discriminate.
      * apply in_dig in H. destruct H as (-> & H). destruct o1 as [d|]; [injection H as ->|discriminate]. split; [reflexivity|]. exists f, (Some d).
        split; [split; [exact Ef|eauto]|]. split; [exact D1|]. split; [now left|eauto].
      * apply in_dig in H. destruct H as (-> & H). destruct o2 as [d|]; [injection H as ->|discriminate]. split; [reflexivity|]. exists f, o1.
        split; [split; [exact Ef|eauto]|]. split; [exact D1|]. split; [right; now left|eauto].
    + intros (-> & f & o1 & (Ef & (b & Eb) & roots & Er) & D1 & I & d & D). right. right. exists f. split; [exact Ef|]. exists b. split; [exact Eb|]. right.
      exists roots. split; [exact Er|]. right. exists o1. split; [exact D1|]. destruct I as [<-|[<-|[]]].
      * left. rewrite (known_fun _ _ _ _ _ _ _ D D1). now left.
      * right. exists (Some d). split; [exact D|]. left. now left.
  - split.
    + intros [H|[H|(f & Ef & b & Eb & [H|(roots & Er & [(r' & -> & H)|(o1 & D1 & [H|(o2 & D2 & [H|[(_ & _ & H)|(_ & H)]])])])])]]; try discriminate.
      * apply in_dig in H. destruct H as (-> & H). destruct o1 as [d|]; [discriminate|injection H as ->]. split; [reflexivity|]. exists f, None.
        split; [split; [exact Ef|eauto]|]. split; [exact D1|]. split; [now left|exact D1].
      * apply in_dig in H. destruct H as (-> & H). destruct o2 as [d|]; [discriminate|injection H as ->]. split; [reflexivity|]. exists f, o1.
        split; [split; [exact Ef|eauto]|]. split; [exact D1|]. split; [right; now left|exact D2].
    + intros (-> & f & o1 & (Ef & (b & Eb) & roots & Er) & D1 & I & D). right. right. exists f. split; [exact Ef|]. exists b. split; [exact Eb|]. right.
      exists roots. split; [exact Er|]. right. exists o1. split; [exact D1|]. destruct I as [<-|[<-|[]]].
      * left. rewrite (known_fun _ _ _ _ _ _ _ D D1). now left.
      * right. exists None. split; [exact D|]. left. now left.
Qed.
Lemma prints_no_digests verbose p C K builtin now ds s file root :
  In (Errs LNoDigests) (fst (verify_prints verbose p C K builtin now ds s file root)) <->
  exists f, prepared p K builtin s file root f /\ digest_known p C ds f ECDSA_SHA2_256 None /\ digest_known p C ds f ECDSA_SHA2_512 None.
Proof.
  early_line. split.
  - intros [H|[H|(f & Ef & b & Eb & [H|(roots & Er & [(r' & -> & H)|(o1 & D1 & [H|(o2 & D2 & [H|[(-> & -> & _)|(_ & H)]])])])])]]; try discriminate.
    + apply in_dig in H. destruct H as (_ & H). discriminate.
    + apply in_dig in H. destruct H as (_ & H). discriminate.
    + exists f. split; [split; [exact Ef|eauto]|auto].
  - intros (f & (Ef & (b & Eb) & roots & Er) & D1 & D2). right. right. exists f. split; [exact Ef|]. exists b. split; [exact Eb|]. right.
    exists roots. split; [exact Er|]. right. exists None. split; [exact D1|]. right. exists None. split; [exact D2|]. auto.
Qed.
Lemma prints_digests_computed verbose p C K builtin now ds s file root :
  In (Out LDigestsComputed) (fst (verify_prints verbose p C K builtin now ds s file root)) <->
  exists v2 stamp, results p C K builtin now ds s file root v2 stamp.
Proof.
  early_line. split.
  - intros [H|[H|(f & Ef & b & Eb & [H|(roots & Er & [(r' & -> & H)|(o1 & D1 & [H|(o2 & D2 & [H|[(-> & -> & H)|(NE & _)]])])])])]]; try discriminate.
    + apply in_dig in H. destruct H as (_ & H). destruct o1; discriminate.
    + apply in_dig in H. destruct H as (_ & H). destruct o2; discriminate.
    + eexists _, _. exists f, b, roots, o1, o2. repeat (split; [assumption|]). split; [|split; reflexivity].
      intros Z. apply NE. destruct o2; [discriminate|]. destruct o1; [discriminate|]. auto.
  - intros (v2 & stamp & f & b & roots & o1 & o2 & Ef & Eb & Er & D1 & D2 & NE & _). right. right. exists f. split; [exact Ef|]. exists b. split; [exact Eb|]. right.
    exists roots. split; [exact Er|]. right. exists o1. split; [exact D1|]. right. exists o2. split; [exact D2|]. right. right.
    split; [|reflexivity]. intros (-> & ->). now apply NE.
Qed.
