(** PrintFacts.v - proofs about Print.v. *)
From Verif Require Import Base BaseFacts Utils Algorithms SigningBlock Module Signer Verifier ModuleVerify Cli Print PrintSpec.
From Coq Require Import Lia.
Open Scope N_scope.

(** The part of the command that follows the verifier. *)
Definition tail_out (verbose : bool) (v2 stamp : vres) : list said * res unit :=
  wbind (out_v2_result v2) (fun r =>
  wbind (out_v2 verbose r) (fun _ =>
  wbind (say (fst (out_stamp stamp))) (fun _ => out_end r (snd (out_stamp stamp))))).

Definition early (x : said) : bool :=
  match x with
  | Out LVerifying | Out (LFile _) | Out LBlank | Out LBlockFound | Out (LCustomRoot _)
  | Out (LComputed _) | Out (LNotComputed _) | Out LDigestsComputed | Errs LNoDigests => true
  | _ => false
  end.

Lemma results_fun p C K builtin now ds s file root v2 stamp v2' stamp' :
  results p C K builtin now ds s file root v2 stamp -> results p C K builtin now ds s file root v2' stamp' ->
  v2' = v2 /\ stamp' = stamp.
Proof.
  intros (f & b & roots & o1 & o2 & E1 & E2 & E3 & D1 & D2 & _ & -> & ->) (f' & b' & roots' & o1' & o2' & E1' & E2' & E3' & D1' & D2' & _ & -> & ->).
  assert (f' = f) by congruence. subst f'. assert (b' = b) by congruence. subst b'. assert (roots' = roots) by congruence. subst roots'.
  assert (o1' = o1).
  { destruct o1, o1'; cbn [digest_known] in *; try destruct D1 as (? & D1); try destruct D1' as (? & D1'); congruence. }
  assert (o2' = o2).
  { destruct o2, o2'; cbn [digest_known] in *; try destruct D2 as (? & D2); try destruct D2' as (? & D2'); congruence. }
  subst. auto.
Qed.

Ltac nores := let X := fresh in intros ? ? X; destruct X as (f' & b' & roots' & o1 & o2 & Q1 & Q2 & Q3 & D1 & D2 & NE & _).

Lemma stage verbose p C K builtin now ds s file root :
  ((forall v2 stamp, ~ results p C K builtin now ds s file root v2 stamp) /\
   Forall (fun x => early x = true) (fst (verify_prints verbose p C K builtin now ds s file root)) /\
   snd (verify_prints verbose p C K builtin now ds s file root) <> Ok tt) \/
  (exists v2 stamp pre, results p C K builtin now ds s file root v2 stamp /\
   Forall (fun x => early x = true /\ on_stderr x = false) pre /\
   verify_prints verbose p C K builtin now ds s file root =
     (pre ++ fst (tail_out verbose v2 stamp), snd (tail_out verbose v2 stamp))).
Proof.
  unfold verify_prints, say. cbn [wbind fst snd].
  destruct (fs_read s file) as [f|] eqn:Ef; cbn [of_option wbind fst snd].
  2:{ left. split; [nores; congruence|]. split; [repeat constructor|discriminate]. }
  destruct (m_get_signing_block p (module_new f) f) as [b|e|] eqn:Eb; cbn [map_err wbind fst snd].
  2:{ left. split; [nores; congruence|]. split; [repeat constructor|discriminate]. }
  2:{ left. split; [nores; congruence|]. split; [repeat constructor|discriminate]. }
  destruct (cli_roots K builtin s root) as [roots|e|] eqn:Er; cbn [wbind fst snd].
  2:{ left. split; [nores; congruence|]. split; [repeat constructor|discriminate]. }
  2:{ left. split; [nores; congruence|]. split; [repeat constructor|discriminate]. }
  set (cr := match root with Some r => [Out (LCustomRoot r)] | None => [] end).
  assert (Hcr : Forall (fun x => early x = true /\ on_stderr x = false) cr) by (unfold cr; destruct root; repeat constructor).
  assert (Hcr' : Forall (fun x => early x = true) cr) by (eapply Forall_impl; [|exact Hcr]; intros ? (X & _); exact X).
  unfold out_digest.
  assert (W : forall y, early y = true -> on_stderr y = false -> Forall (fun x => early x = true /\ on_stderr x = false) (when verbose [y])).
  { intros y H1 H2. destruct verbose; repeat constructor; auto. }
  assert (FI : forall l, Forall (fun x => early x = true /\ on_stderr x = false) l -> Forall (fun x => early x = true) l)
    by (intros l Hl; eapply Forall_impl; [|exact Hl]; intros ? (X & _); exact X).
  assert (A : forall o256 o512, digest_known p C ds f ECDSA_SHA2_256 o256 -> digest_known p C ds f ECDSA_SHA2_512 o512 ->
    entry_of ECDSA_SHA2_512 o512 ++ entry_of ECDSA_SHA2_256 o256 <> [] ->
    results p C K builtin now ds s file root
      (verify_v2_with_digest C K now roots b (Some (entry_of ECDSA_SHA2_512 o512 ++ entry_of ECDSA_SHA2_256 o256)))
      (verify_source_stamp_with_digest C K now roots b (Some (entry_of ECDSA_SHA2_512 o512 ++ entry_of ECDSA_SHA2_256 o256)))).
  { intros o256 o512 D1 D2 NE. exists f, b, roots, o256, o512. auto 10. }
  destruct (m_digest p C (ds ECDSA_SHA2_256) (module_new f) f ECDSA_SHA2_256) as [d1|e1|] eqn:E1;
    cbn [wbind fst snd].
  3:{ left. split.
      - nores. assert (f' = f) by congruence; subst f'. destruct o1; cbn [digest_known] in D1; [|destruct D1 as (? & D1)]; congruence.
      - split; [|discriminate]. cbn [app]. repeat (constructor; [reflexivity|]). rewrite app_nil_r. exact Hcr'. }
  - destruct (m_digest p C (ds ECDSA_SHA2_512) (module_new f) f ECDSA_SHA2_512) as [d2|e2|] eqn:E2;
      cbn [wbind fst snd].
    3:{ left. split.
        - nores. assert (f' = f) by congruence; subst f'. destruct o2; cbn [digest_known] in D2; [|destruct D2 as (? & D2)]; congruence.
        - split; [|discriminate]. cbn [app]. repeat (constructor; [reflexivity|]). rewrite app_nil_r. apply Forall_app. split; auto. }
    + right. eexists _, _, _. split; [apply (A (Some d1) (Some d2) E1 E2); discriminate|]. split; [|
        unfold ctx_new, add_digest; cbn [wbind fst snd entry_of app]; unfold tail_out;
        match goal with |- (?l, ?r) = _ => assert (L : l = ([Out LVerifying; Out (LFile file); Out LBlank; Out LBlockFound] ++ cr ++ when verbose [Out (LComputed ECDSA_SHA2_256)] ++ when verbose [Out (LComputed ECDSA_SHA2_512)] ++ [Out LDigestsComputed]) ++
          fst (tail_out verbose (verify_v2_with_digest C K now roots b (Some (entry_of ECDSA_SHA2_512 (Some d2) ++ entry_of ECDSA_SHA2_256 (Some d1)))) (verify_source_stamp_with_digest C K now roots b (Some (entry_of ECDSA_SHA2_512 (Some d2) ++ entry_of ECDSA_SHA2_256 (Some d1)))))) by (cbn [entry_of app]; rewrite <- ?app_assoc; reflexivity) end;
        rewrite L; reflexivity].
      cbn [app]. repeat (constructor; [split; reflexivity|]). rewrite !Forall_app. repeat split; auto; repeat constructor.
    + right. eexists _, _, _. split; [apply (A (Some d1) None E1 (ex_intro _ _ E2)); discriminate|]. split; [|
        unfold ctx_new, add_digest; cbn [wbind fst snd entry_of app]; unfold tail_out;
        match goal with |- (?l, ?r) = _ => assert (L : l = ([Out LVerifying; Out (LFile file); Out LBlank; Out LBlockFound] ++ cr ++ when verbose [Out (LComputed ECDSA_SHA2_256)] ++ when verbose [Out (LNotComputed ECDSA_SHA2_512)] ++ [Out LDigestsComputed]) ++
          fst (tail_out verbose (verify_v2_with_digest C K now roots b (Some (entry_of ECDSA_SHA2_512 None ++ entry_of ECDSA_SHA2_256 (Some d1)))) (verify_source_stamp_with_digest C K now roots b (Some (entry_of ECDSA_SHA2_512 None ++ entry_of ECDSA_SHA2_256 (Some d1)))))) by (cbn [entry_of app]; rewrite <- ?app_assoc; reflexivity) end;
        rewrite L; reflexivity].
      cbn [app]. repeat (constructor; [split; reflexivity|]). rewrite !Forall_app. repeat split; auto; repeat constructor.
  - destruct (m_digest p C (ds ECDSA_SHA2_512) (module_new f) f ECDSA_SHA2_512) as [d2|e2|] eqn:E2;
      cbn [wbind fst snd].
    3:{ left. split.
        - nores. assert (f' = f) by congruence; subst f'. destruct o2; cbn [digest_known] in D2; [|destruct D2 as (? & D2)]; congruence.
        - split; [|discriminate]. cbn [app]. repeat (constructor; [reflexivity|]). rewrite app_nil_r. apply Forall_app. split; auto. }
    + right. eexists _, _, _. split; [apply (A None (Some d2) (ex_intro _ _ E1) E2); discriminate|]. split; [|
        unfold ctx_new, add_digest; cbn [wbind fst snd entry_of app]; unfold tail_out;
        match goal with |- (?l, ?r) = _ => assert (L : l = ([Out LVerifying; Out (LFile file); Out LBlank; Out LBlockFound] ++ cr ++ when verbose [Out (LNotComputed ECDSA_SHA2_256)] ++ when verbose [Out (LComputed ECDSA_SHA2_512)] ++ [Out LDigestsComputed]) ++
          fst (tail_out verbose (verify_v2_with_digest C K now roots b (Some (entry_of ECDSA_SHA2_512 (Some d2) ++ entry_of ECDSA_SHA2_256 None))) (verify_source_stamp_with_digest C K now roots b (Some (entry_of ECDSA_SHA2_512 (Some d2) ++ entry_of ECDSA_SHA2_256 None))))) by (cbn [entry_of app]; rewrite <- ?app_assoc; reflexivity) end;
        rewrite L; reflexivity].
      cbn [app]. repeat (constructor; [split; reflexivity|]). rewrite !Forall_app. repeat split; auto; repeat constructor.
    + left. split.
      * nores. assert (f' = f) by congruence; subst f'.
        destruct o1 as [x|]; cbn [digest_known] in D1; [congruence|]. destruct o2 as [x|]; cbn [digest_known] in D2; [congruence|]. now apply NE.
      * unfold ctx_new. split; [|discriminate]. cbn [app fst]. repeat (constructor; [reflexivity|]). rewrite !Forall_app. repeat split; auto; repeat constructor.
Qed.

(** * The exit status *)
Lemma snd_wbind {A B} (m : list said * res A) (k : A -> list said * res B) :
  snd (wbind m k) = bind (snd m) (fun a => snd (k a)).
Proof. destruct m as (l & [a|e|]); reflexivity. Qed.
Lemma snd_tail verbose v2 stamp : snd (tail_out verbose v2 stamp) = cli_conclusion v2 stamp.
Proof.
  unfold tail_out, cli_conclusion. destruct v2 as [r|[|e|l]]; try reflexivity.
  cbn [out_v2_result wbind snd]. unfold out_v2. destruct (vr_signature_valid r) eqn:E1; [|reflexivity].
  destruct (vr_digest_valid r) eqn:E2; [|reflexivity]. destruct (vr_chain_valid r) eqn:E3; [|reflexivity].
  destruct (vr_trusted r) eqn:E4; [|reflexivity]. cbn [negb wbind snd say]. unfold out_end, all_valid. rewrite E1, E2, E3, E4. cbn [andb].
  unfold out_stamp, all_valid. destruct stamp as [t|[|e|l]]; try reflexivity.
  destruct (_ && _); reflexivity.
Qed.
Lemma prints_verdict verbose p C K builtin now ds s file root :
  snd (verify_prints verbose p C K builtin now ds s file root) = cli_verify p C K builtin now ds s file root.
Proof.
  unfold verify_prints, cli_verify, say. cbn [wbind fst snd].
  destruct (fs_read s file) as [f|]; cbn [of_option bind wbind fst snd]; [|reflexivity].
  destruct (map_err _ _) as [b|e|]; cbn [bind wbind fst snd]; [|reflexivity..].
  destruct (cli_roots K builtin s root) as [roots|e|]; cbn [bind wbind fst snd]; [|reflexivity..].
  assert (D : forall a ctx, snd (out_digest verbose p C ds (module_new f) f a ctx) = cli_add_digest p C ds (module_new f) f a ctx).
  { intros a ctx. unfold out_digest, cli_add_digest. destruct (m_digest _ _ _ _ _ _); reflexivity. }
  rewrite snd_wbind, D. destruct (cli_add_digest p C ds (module_new f) f ECDSA_SHA2_256 ctx_new) as [ctx|e|]; cbn [bind]; [|reflexivity..].
  rewrite snd_wbind, D. destruct (cli_add_digest p C ds (module_new f) f ECDSA_SHA2_512 ctx) as [ctx'|e|]; cbn [bind]; [|reflexivity..].
  destruct ctx' as [|x ctx']; [reflexivity|]. cbn [wbind fst snd].
  apply (snd_tail verbose (verify_v2_with_digest C K now roots b (Some (x :: ctx'))) (verify_source_stamp_with_digest C K now roots b (Some (x :: ctx')))).
Qed.

(** * Verbose *)
Definition strip {A} (o : list said * res A) : list said * res A := (filter (fun x => negb (detail x)) (fst o), snd o).
Lemma strip_wbind {A B} (m : list said * res A) (k k' : A -> list said * res B) :
  (forall a, strip (k a) = k' a) -> strip (wbind m k) = wbind (strip m) k'.
Proof.
  intros H. destruct m as (l & [a|e|]); cbn [strip fst snd wbind]; [|reflexivity..]. unfold strip. cbn [fst snd].
  rewrite filter_app, <- H. reflexivity.
Qed.
Lemma strip_step {A B} (m m' : list said * res A) (k k' : A -> list said * res B) :
  strip m = m' -> (forall a, strip (k a) = k' a) -> strip (wbind m k) = wbind m' k'.
Proof. intros <-. apply strip_wbind. Qed.
Lemma filter_same {A} (g : A -> bool) l : Forall (fun x => g x = true) l -> filter g l = l.
Proof. induction 1 as [|x l H _ IH]; cbn [filter]; [reflexivity|]. now rewrite H, IH. Qed.
Lemma filter_none {A} (g : A -> bool) l : Forall (fun x => g x = false) l -> filter g l = [].
Proof. induction 1 as [|x l H _ IH]; cbn [filter]; [reflexivity|]. now rewrite H. Qed.
Lemma Forall_map_all {A B} (f : A -> B) (P : B -> Prop) l : (forall x, P (f x)) -> Forall P (map f l).
Proof. intros H. induction l; constructor; auto. Qed.
Lemma strip_plain {A} (l : list said) (r : res A) : Forall (fun x => negb (detail x) = true) l -> strip (l, r) = (l, r).
Proof. intros H. unfold strip. cbn [fst snd]. now rewrite filter_same. Qed.
Lemma strip_signer x : filter (fun x => negb (detail x)) (out_signer true x) = out_signer false x.
Proof.
  unfold out_signer. cbn [app filter detail negb]. do 5 f_equal. rewrite !filter_app. f_equal; [|f_equal].
  - now destruct (sr_cert x).
  - destruct (nonempty (sr_chain x)); [|reflexivity]. cbn [when filter detail negb]. f_equal. apply filter_none.
    apply Forall_map_all. reflexivity.
  - destruct (nonempty (sr_warnings x)); [|reflexivity]. cbn [andb when filter detail negb]. apply filter_none. apply Forall_map_all. reflexivity.
Qed.
Lemma strip_flat {A} (f g : A -> list said) : (forall x, filter (fun x => negb (detail x)) (f x) = g x) ->
  forall l, filter (fun x => negb (detail x)) (flat_map f l) = flat_map g l.
Proof. intros H l. induction l as [|x l IH]; cbn [flat_map]; [reflexivity|]. now rewrite filter_app, H, IH. Qed.
Lemma strip_v2 r : strip (out_v2 true r) = out_v2 false r.
Proof.
  unfold out_v2. destruct r as [r|]; [|reflexivity]. destruct (vr_signature_valid r).
  - assert (W : filter (fun x => negb (detail x)) (when (nonempty (vr_warnings r))
        (Out (LWarnings 2) :: map (fun w => Out (LWarning 4 (Some (fst w)) (snd w))) (vr_warnings r))) =
      when (nonempty (vr_warnings r)) (Out (LWarnings 2) :: map (fun w => Out (LWarning 4 (Some (fst w)) (snd w))) (vr_warnings r))).
    { destruct (nonempty _); [|reflexivity]. cbn [when]. apply filter_same. constructor; [reflexivity|]. apply Forall_map_all. reflexivity. }
    destruct (vr_digest_valid r), (vr_chain_valid r), (vr_trusted r); cbn [negb]; unfold strip; cbn [fst snd]; f_equal;
      rewrite ?filter_app, W, (strip_flat _ _ strip_signer); reflexivity.
  - apply strip_plain. constructor; [reflexivity|]. destruct (nonempty _); [|constructor]. constructor; [reflexivity|]. apply Forall_map_all. reflexivity.
Qed.
Lemma strip_tail v2 stamp : strip (tail_out true v2 stamp) = tail_out false v2 stamp.
Proof.
  unfold tail_out. rewrite (strip_wbind _ _ (fun r => wbind (out_v2 false r) (fun _ => wbind (say (fst (out_stamp stamp))) (fun _ => out_end r (snd (out_stamp stamp)))))).
  - f_equal. destruct v2 as [r|[|e|l]]; try reflexivity. apply strip_plain. constructor; [reflexivity|]. apply Forall_map_all. reflexivity.
  - intros r. rewrite (strip_wbind _ _ (fun _ => wbind (say (fst (out_stamp stamp))) (fun _ => out_end r (snd (out_stamp stamp))))).
    + now rewrite strip_v2.
    + intros _. rewrite (strip_wbind _ _ (fun _ => out_end r (snd (out_stamp stamp)))).
      * f_equal. apply strip_plain. unfold out_stamp. destruct stamp as [t|[|e|l]]; try (repeat constructor; fail).
        -- destruct (all_valid t); cbn [fst]; rewrite !Forall_app.
           ++ split; [repeat constructor|destruct (vr_cert t); repeat constructor].
           ++ split; [repeat constructor|]. split; [destruct (vr_digest_valid t); repeat constructor|].
              split; [destruct (vr_trusted t); repeat constructor|]. apply Forall_map_all. reflexivity.
        -- cbn [fst]. constructor; [reflexivity|]. apply Forall_app. split; [apply Forall_map_all; reflexivity|repeat constructor].
      * intros _. unfold out_end. destruct r as [r|]; [|reflexivity]. destruct (all_valid r); [|reflexivity]. destruct (snd (out_stamp stamp)); reflexivity.
Qed.
Lemma strip_digest p C ds m f a ctx : strip (out_digest true p C ds m f a ctx) = out_digest false p C ds m f a ctx.
Proof. unfold out_digest. destruct (m_digest _ _ _ _ _ _); reflexivity. Qed.
Lemma prints_verbose p C K builtin now ds s file root :
  fst (verify_prints false p C K builtin now ds s file root) =
  filter (fun x => negb (detail x)) (fst (verify_prints true p C K builtin now ds s file root)).
Proof.
  change (filter (fun x => negb (detail x)) (fst (verify_prints true p C K builtin now ds s file root)))
    with (fst (strip (verify_prints true p C K builtin now ds s file root))). f_equal. symmetry.
  unfold verify_prints.
  apply strip_step; [reflexivity|intros _]. apply strip_step; [reflexivity|intros f]. cbv zeta.
  apply strip_step; [reflexivity|intros b]. apply strip_step; [reflexivity|intros _].
  apply strip_step; [reflexivity|intros roots]. apply strip_step; [destruct root; reflexivity|intros _].
  apply strip_step; [apply strip_digest|intros ctx]. apply strip_step; [apply strip_digest|intros ctx'].
  destruct ctx' as [|x ctx']; [reflexivity|]. apply strip_step; [reflexivity|intros _].
  exact (strip_tail (verify_v2_with_digest C K now roots b (Some (x :: ctx'))) (verify_source_stamp_with_digest C K now roots b (Some (x :: ctx')))).
Qed.

(** * The lines of the sections *)
Definition v2_lines (verbose : bool) (r : verify_result) : list said :=
  [Out LV2Passed; Out (LSignersVerified (len (vr_signers r)))] ++
  flat_map (out_signer verbose) (vr_signers r) ++
  [Out LOverall; Out (LField 2 FDigest (vr_digest_valid r));
   Out (LField 2 FChain (vr_chain_valid r)); Out (LField 2 FTrusted (vr_trusted r))] ++
  when (nonempty (vr_warnings r))
    (Out (LWarnings 2) :: map (fun w => Out (LWarning 4 (Some (fst w)) (snd w))) (vr_warnings r)).
Definition signer_kind (x : said) : bool :=
  match x with
  | Out (LSigner _) | Out (LField 4 _ _) | Out (LCertificate 4 _) | Out (LChain _) | Out (LChainCert _ _)
  | Out (LWarnings 4) | Out (LWarning 6 _ _) => true
  | _ => false
  end.
Definition v2_kind (x : said) : bool :=
  signer_kind x ||
  match x with
  | Out LV2Passed | Out (LSignersVerified _) | Out LOverall | Out (LField 2 FDigest _) | Out (LField 2 FChain _)
  | Out (LField 2 FTrusted _) | Out (LWarnings 2) | Out (LWarning 4 _ _) => true
  | _ => false
  end.
Definition stamp_kind (x : said) : bool :=
  match x with
  | Out LStampPassed | Out (LField 2 _ true) | Out (LCertificate 2 _) | Out LStampNotFound => true
  | Errs (LStampFailed _) | Errs (LField 2 _ _) | Errs LStampTampered | Errs LStampUntrusted | Errs (LWarning 2 _ _)
  | Errs LStampErrors | Errs (LStampError _) | Errs (LStampErrorWith _) | Errs LStampWarning => true
  | _ => false
  end.
Lemma signer_kinds verbose x : Forall (fun y => signer_kind y = true) (out_signer verbose x).
Proof.
  unfold out_signer. rewrite !Forall_app. split; [repeat constructor|]. split; [destruct (sr_cert x); repeat constructor|]. split.
  - destruct (nonempty _); [|constructor]. cbn [when]. constructor; [reflexivity|]. destruct verbose; [|constructor].
    apply Forall_map_all. reflexivity.
  - destruct (_ && _); [|constructor]. constructor; [reflexivity|]. apply Forall_map_all. reflexivity.
Qed.
Lemma v2_kinds verbose r : Forall (fun y => v2_kind y = true) (v2_lines verbose r).
Proof.
  unfold v2_lines. rewrite !Forall_app. split; [repeat constructor|]. split; [|split; [repeat constructor|]].
  - induction (vr_signers r) as [|x l IH]; cbn [flat_map]; [constructor|]. apply Forall_app. split; [|exact IH].
    eapply Forall_impl; [|apply signer_kinds]. intros y H. unfold v2_kind. now rewrite H.
  - destruct (nonempty _); [|constructor]. constructor; [reflexivity|]. apply Forall_map_all. reflexivity.
Qed.
Lemma all_valid_iff r : all_valid r = true <-> passes r.
Proof.
  unfold all_valid, passes. split.
  - intros H f. apply andb_prop in H. destruct H as (H & H4). apply andb_prop in H. destruct H as (H & H3). apply andb_prop in H. destruct H as (H1 & H2).
    destruct f; assumption.
  - intros H. now rewrite (H FSignature : vr_signature_valid r = true), (H FDigest : vr_digest_valid r = true),
      (H FChain : vr_chain_valid r = true), (H FTrusted : vr_trusted r = true).
Qed.
Lemma stamp_kinds stamp : Forall (fun y => stamp_kind y = true) (fst (out_stamp stamp)).
Proof.
  unfold out_stamp. destruct stamp as [t|[|e|l]]; try (repeat constructor; fail).
  - destruct (all_valid t) eqn:V; cbn [fst]; rewrite !Forall_app.
    + apply all_valid_iff in V. rewrite (V FSignature : vr_signature_valid t = true), (V FDigest : vr_digest_valid t = true),
        (V FChain : vr_chain_valid t = true), (V FTrusted : vr_trusted t = true).
      split; [repeat constructor|destruct (vr_cert t); repeat constructor].
    + split; [repeat constructor|]. split; [destruct (vr_digest_valid t); repeat constructor|].
      split; [destruct (vr_trusted t); repeat constructor|]. apply Forall_map_all. reflexivity.
  - cbn [fst]. constructor; [reflexivity|]. apply Forall_app. split; [apply Forall_map_all; reflexivity|repeat constructor].
Qed.
Lemma stamp_failed_iff stamp : snd (out_stamp stamp) = false <-> stamp = VErr VNoSignature \/ exists r, stamp = VOk r /\ passes r.
Proof.
  unfold out_stamp. destruct stamp as [t|[|e|l]]; cbn [snd].
  - destruct (all_valid t) eqn:V; cbn [snd].
    + apply all_valid_iff in V. split; [intros _; right; eauto|reflexivity].
    + split; [discriminate|]. intros [H|(r & [= <-] & P)]; [discriminate|]. apply all_valid_iff in P. congruence.
  - split; auto.
  - split; [discriminate|]. intros [H|(r & H & _)]; discriminate.
  - split; [discriminate|]. intros [H|(r & H & _)]; discriminate.
Qed.

(** The shape of the output after the verifier. *)
Inductive shape (verbose : bool) (v2 stamp : vres) : list said * res unit -> Prop :=
| sh_none : v2 = VErr VNoSignature ->
    shape verbose v2 stamp ([Out LV2NotFound; Out LV2NotFound] ++ fst (out_stamp stamp) ++ [Out LBlank], Err (ECli 9))
| sh_multi l : v2 = VErr (VMultiSigner l) ->
    shape verbose v2 stamp (Errs LV2Failed :: map (fun e => Errs (LFailedSigner (fst e + 1) (snd e))) (numbered 0 l), Err (ECli 10))
| sh_other e : v2 = VErr (VInvalidSignature e) ->
    shape verbose v2 stamp ([Errs (LV2FailedWith (VInvalidSignature e))], Err (ECli 10))
| sh_invalid r : v2 = VOk r -> vr_signature_valid r = false ->
    shape verbose v2 stamp (Errs LV2Invalid :: when (nonempty (vr_warnings r))
      (Errs LErrors :: map (fun w => Errs (LWarning 4 (Some (fst w)) (snd w))) (vr_warnings r)), Err (ECli 10))
| sh_refused r x e : v2 = VOk r -> vr_signature_valid r = true -> ~ passes r ->
    In x [LDigestMismatch; LChainInvalid; LUntrusted] ->
    shape verbose v2 stamp (v2_lines verbose r ++ [Errs x], Err e)
| sh_stamp r : v2 = VOk r -> passes r -> snd (out_stamp stamp) = true ->
    shape verbose v2 stamp (v2_lines verbose r ++ fst (out_stamp stamp) ++ [Out LBlank; Out LV2ButStamp; Out LV2Checks; Out LStampMay], Err (ECli 14))
| sh_good r : v2 = VOk r -> passes r -> snd (out_stamp stamp) = false ->
    shape verbose v2 stamp (v2_lines verbose r ++ fst (out_stamp stamp) ++ [Out LBlank; Out LSuccess; Out LAllChecks], Ok tt).
Lemma tail_shape verbose v2 stamp : shape verbose v2 stamp (tail_out verbose v2 stamp).
Proof.
  unfold tail_out. destruct v2 as [r|[|e|l]].
  - cbn [out_v2_result wbind fst snd app]. unfold out_v2. fold (v2_lines verbose r).
    destruct (vr_signature_valid r) eqn:E1; [|now apply sh_invalid].
    destruct (vr_digest_valid r) eqn:E2.
    2:{ cbn [negb wbind fst snd]. eapply sh_refused; auto; [|now left]. intros P. specialize (P FDigest). cbn in P. congruence. }
    destruct (vr_chain_valid r) eqn:E3.
    2:{ cbn [negb wbind fst snd]. eapply sh_refused; auto; [|right; now left]. intros P. specialize (P FChain). cbn in P. congruence. }
    destruct (vr_trusted r) eqn:E4.
    2:{ cbn [negb wbind fst snd]. eapply sh_refused; auto; [|right; right; now left]. intros P. specialize (P FTrusted). cbn in P. congruence. }
    cbn [negb wbind fst snd say]. unfold out_end. assert (P : all_valid r = true) by (unfold all_valid; now rewrite E1, E2, E3, E4).
    rewrite P. apply all_valid_iff in P. destruct (snd (out_stamp stamp)) eqn:S; cbn [fst snd]; [now apply sh_stamp|now apply sh_good].
  - cbn [out_v2_result wbind fst snd app out_v2 say out_end]. now apply sh_none.
  - now apply sh_other.
  - now apply sh_multi.
Qed.

(** * C75 *)
Ltac notin F := let H := fresh in intros H; apply (proj1 (Forall_forall _ _) F) in H; first [discriminate H | destruct H as (H & _); discriminate H].
Lemma in_early pre x : Forall (fun x => early x = true /\ on_stderr x = false) pre -> early x = false -> ~ In x pre.
Proof. intros F E H. apply (proj1 (Forall_forall _ _) F) in H. destruct H. congruence. Qed.
Lemma in_kind (g : said -> bool) l x : Forall (fun y => g y = true) l -> g x = false -> ~ In x l.
Proof. intros F E H. apply (proj1 (Forall_forall _ _) F) in H. congruence. Qed.

(** Facts about one line [x] of the output, given where it can occur. *)
Lemma prints_in verbose p C K builtin now ds s file root x : early x = false ->
  (In x (fst (verify_prints verbose p C K builtin now ds s file root)) <->
   exists v2 stamp, results p C K builtin now ds s file root v2 stamp /\ In x (fst (tail_out verbose v2 stamp))).
Proof.
  intros E. destruct (stage verbose p C K builtin now ds s file root) as [(N & F & _)|(v2 & stamp & pre & R & F & ->)].
  - split; [intros H; exfalso; revert H; now apply (in_kind early)|]. intros (v2 & stamp & R & _). now apply N in R.
  - cbn [fst]. split.
    + intros H. apply in_app_or in H. destruct H as [H|H]; [exfalso; revert H; now apply in_early|eauto].
    + intros (v2' & stamp' & R' & H). destruct (results_fun _ _ _ _ _ _ _ _ _ _ _ _ _ R R') as (-> & ->). apply in_or_app. auto.
Qed.
Lemma map_errs_in {A} (f : A -> line) l x : In (Out x) (map (fun y => Errs (f y)) l) -> False.
Proof. intros H. apply in_map_iff in H. destruct H as (? & H & _). discriminate. Qed.

(** Membership in the output after the verifier, for a line on standard output that is not in
    the section of a signer. *)
Ltac inapp := repeat match goal with
  | H : In _ (_ ++ _) |- _ => apply in_app_or in H; destruct H as [H|H]
  | H : In _ (_ :: _) |- _ => destruct H as [H|H]; [try discriminate H|]
  | H : In _ [] |- _ => destruct H
  | H : In (Out _) (map (fun _ => Errs _) _) |- _ => apply map_errs_in in H; destruct H
  | H : In _ (when ?b _) |- _ => destruct b; cbn [when] in H
  end.

Lemma tail_success verbose v2 stamp : In (Out LSuccess) (fst (tail_out verbose v2 stamp)) <-> snd (tail_out verbose v2 stamp) = Ok tt.
Proof.
  destruct (tail_shape verbose v2 stamp) as [E|l E|e E|r E S|r x e E S P I|r E P S|r E P S]; cbn [fst snd].
  1-6: split; [intros H; exfalso|discriminate]; inapp;
    try (revert H; apply (in_kind v2_kind); [apply v2_kinds|reflexivity]); try (revert H; apply (in_kind stamp_kind); [apply stamp_kinds|reflexivity]).
  split; [reflexivity|]. intros _. apply in_or_app. right. apply in_or_app. right. right. now left.
Qed.
Lemma prints_success verbose p C K builtin now ds s file root :
  In (Out LSuccess) (fst (verify_prints verbose p C K builtin now ds s file root)) <->
  cli_verify p C K builtin now ds s file root = Ok tt.
Proof.
  rewrite <- (prints_verdict verbose), prints_in by reflexivity.
  destruct (stage verbose p C K builtin now ds s file root) as [(N & _ & F)|(v2 & stamp & pre & R & F & ->)].
  - split; [|tauto]. intros (v2 & stamp & R & _). now apply N in R.
  - cbn [snd]. rewrite <- tail_success. split.
    + intros (v2' & stamp' & R' & H). destruct (results_fun _ _ _ _ _ _ _ _ _ _ _ _ _ R R') as (-> & ->). exact H.
    + eauto.
Qed.
Lemma v2_lines_out verbose r : Forall (fun x => on_stderr x = false) (v2_lines verbose r).
Proof.
  eapply Forall_impl; [|apply (v2_kinds verbose r)]. intros [x|x]; [reflexivity|]. destruct x; discriminate.
Qed.
Lemma prints_success_shape verbose p C K builtin now ds s file root :
  cli_verify p C K builtin now ds s file root = Ok tt ->
  exists before, fst (verify_prints verbose p C K builtin now ds s file root) = before ++ [Out LBlank; Out LSuccess; Out LAllChecks] /\
    Forall (fun x => on_stderr x = false) before.
Proof.
  rewrite <- (prints_verdict verbose).
  destruct (stage verbose p C K builtin now ds s file root) as [(N & _ & F)|(v2 & stamp & pre & R & F & ->)]; [tauto|].
  cbn [fst snd]. destruct (tail_shape verbose v2 stamp) as [E|l E|e E|r E S|r x e E S P I|r E P S|r E P S]; try discriminate. intros _. cbn [fst].
  exists (pre ++ v2_lines verbose r ++ fst (out_stamp stamp)). split; [now rewrite <- !app_assoc|].
  rewrite !Forall_app. split; [eapply Forall_impl; [|exact F]; intros ? (_ & X); exact X|]. split; [apply v2_lines_out|].
  apply stamp_failed_iff in S. destruct S as [->|(t & -> & Q)]; [repeat constructor|]. apply all_valid_iff in Q. cbn [out_stamp]. rewrite Q. cbn [fst].
  apply Forall_app. split; [repeat constructor|]. destruct (vr_cert t); repeat constructor.
Qed.
Lemma in_v2_field verbose r f v : In (Out (LField 2 f v)) (v2_lines verbose r) <-> f <> FSignature /\ reported f r = v.
Proof.
  unfold v2_lines. split.
  - intros H. apply in_app_or in H. destruct H as [H|H]; [inapp|]. apply in_app_or in H. destruct H as [H|H].
    + exfalso. apply in_flat_map in H. destruct H as (x & _ & H). revert H. apply (in_kind signer_kind); [apply signer_kinds|reflexivity].
    + apply in_app_or in H. destruct H as [H|H].
      * destruct H as [H|[H|[H|[H|[]]]]]; try discriminate H; injection H as <- <-; split; [discriminate|reflexivity|discriminate|reflexivity|discriminate|reflexivity].
      * exfalso. destruct (nonempty _); cbn [when] in H; [|destruct H]. destruct H as [H|H]; [discriminate|].
        apply in_map_iff in H. destruct H as (? & H & _). discriminate.
  - intros (N & <-). apply in_or_app. right. apply in_or_app. right. apply in_or_app. left.
    destruct f; [tauto|right; now left|right; right; now left|right; right; right; now left].
Qed.
Lemma in_stamp_field stamp f v : In (Out (LField 2 f v)) (fst (out_stamp stamp)) <-> v = true /\ exists r, stamp = VOk r /\ passes r.
Proof.
  split.
  - intros H. unfold out_stamp in H. destruct stamp as [t|[|e|l]]; cbn [fst] in H; inapp.
    destruct (all_valid t) eqn:V; cbn [fst] in H.
    + apply all_valid_iff in V. rewrite (V FSignature : vr_signature_valid t = true), (V FDigest : vr_digest_valid t = true),
        (V FChain : vr_chain_valid t = true), (V FTrusted : vr_trusted t = true) in H.
      split; [|eauto]. apply in_app_or in H. destruct H as [H|H].
      * destruct H as [H|[H|[H|[H|[H|[]]]]]]; congruence.
      * destruct (vr_cert t); [destruct H as [H|[]]; discriminate|destruct H].
    + exfalso. inapp.
  - intros (-> & r & -> & P). pose proof (proj2 (all_valid_iff r) P) as V. unfold out_stamp. rewrite V. cbn [fst]. apply in_or_app. left.
    rewrite (P FSignature : vr_signature_valid r = true), (P FDigest : vr_digest_valid r = true),
        (P FChain : vr_chain_valid r = true), (P FTrusted : vr_trusted r = true).
    destruct f; cbn [In]; auto 8.
Qed.
Lemma tail_field verbose v2 stamp f v : f <> FSignature ->
  (In (Out (LField 2 f v)) (fst (tail_out verbose v2 stamp)) <->
   (exists r, v2 = VOk r /\ vr_signature_valid r = true /\ reported f r = v) \/
   (v2 = VErr VNoSignature /\ v = true /\ exists r, stamp = VOk r /\ passes r)).
Proof.
  intros Hf. destruct (tail_shape verbose v2 stamp) as [E|l E|e E|r E S|r x e E S P I|r E P S|r E P S]; cbn [fst]; subst v2.
  - split.
    + intros H. inapp. right. apply in_stamp_field in H. tauto.
    + intros [(r & H & _)|(_ & H)]; [discriminate|]. apply in_or_app. right. apply in_or_app. left. now apply in_stamp_field.
  - split; [intros H; exfalso; inapp|]. intros [(r & H & _)|(H & _)]; discriminate.
  - split; [intros H; exfalso; inapp|]. intros [(r & H & _)|(H & _)]; discriminate.
  - split; [intros H; exfalso; inapp|]. intros [(r' & [= <-] & H & _)|(H & _)]; congruence.
  - split.
    + clear I. intros H. left. inapp. apply in_v2_field in H. exists r. tauto.
    + intros [(r' & [= <-] & _ & H)|(H & _)]; [|discriminate]. apply in_or_app. left. now apply in_v2_field.
  - split.
    + intros H. left. exists r. split; [reflexivity|]. split; [exact (P FSignature)|]. inapp.
      * apply in_v2_field in H. tauto.
      * apply in_stamp_field in H. destruct H as (-> & _). apply P.
    + intros [(r' & [= <-] & _ & H)|(H & _)]; [|discriminate]. apply in_or_app. left. now apply in_v2_field.
  - split.
    + intros H. left. exists r. split; [reflexivity|]. split; [exact (P FSignature)|]. inapp.
      * apply in_v2_field in H. tauto.
      * apply in_stamp_field in H. destruct H as (-> & _). apply P.
    + intros [(r' & [= <-] & _ & H)|(H & _)]; [|discriminate]. apply in_or_app. left. now apply in_v2_field.
Qed.
Lemma prints_field verbose p C K builtin now ds s file root f v : f <> FSignature ->
  (In (Out (LField 2 f v)) (fst (verify_prints verbose p C K builtin now ds s file root)) <->
   exists v2 stamp, results p C K builtin now ds s file root v2 stamp /\
     ((exists r, v2 = VOk r /\ vr_signature_valid r = true /\ reported f r = v) \/
      (v2 = VErr VNoSignature /\ v = true /\ exists r, stamp = VOk r /\ passes r))).
Proof.
  intros Hf. rewrite prints_in by reflexivity. split; intros (v2 & stamp & R & H); exists v2, stamp; (split; [exact R|]); now apply (tail_field verbose v2 stamp f v Hf).
Qed.
Lemma in_stamp_passed stamp : In (Out LStampPassed) (fst (out_stamp stamp)) <-> exists r, stamp = VOk r /\ passes r.
Proof.
  split.
  - intros H. unfold out_stamp in H. destruct stamp as [t|[|e|l]]; cbn [fst] in H; inapp.
    destruct (all_valid t) eqn:V; cbn [fst] in H; [apply all_valid_iff in V; eauto|]. exfalso. inapp.
  - intros (r & -> & P). apply all_valid_iff in P. unfold out_stamp. rewrite P. now left.
Qed.
Lemma prints_stamp verbose p C K builtin now ds s file root :
  In (Out LStampPassed) (fst (verify_prints verbose p C K builtin now ds s file root)) <->
  exists v2 r, results p C K builtin now ds s file root v2 (VOk r) /\ passes r /\
    (v2 = VErr VNoSignature \/ exists q, v2 = VOk q /\ passes q).
Proof.
  rewrite prints_in by reflexivity. split.
  - intros (v2 & stamp & R & H).
    destruct (tail_shape verbose v2 stamp) as [E|l E|e E|r E S|r x e E S P I|r E P S|r E P S]; try clear I; cbn [fst] in H; inapp;
      try (exfalso; revert H; apply (in_kind v2_kind); [apply v2_kinds|reflexivity]);
      apply in_stamp_passed in H; destruct H as (t & -> & Q); exists v2, t; eauto 10.
  - intros (v2 & r & R & P & H). exists v2, (VOk r). split; [exact R|].
    assert (I : In (Out LStampPassed) (fst (out_stamp (VOk r)))) by (apply in_stamp_passed; eauto).
    assert (S : snd (out_stamp (VOk r)) = false) by (apply stamp_failed_iff; eauto).
    destruct (tail_shape verbose v2 (VOk r)) as [E|l E|e E|q E S'|q x e E S' P' I'|q E P' S'|q E P' S']; cbn [fst].
    + apply in_or_app. right. apply in_or_app. now left.
    + destruct H as [H|(? & H & _)]; congruence.
    + destruct H as [H|(? & H & _)]; congruence.
    + destruct H as [H|(q' & H & P')]; [congruence|]. specialize (P' FSignature). cbn [reported] in P'. congruence.
    + destruct H as [H|(q' & H & P'')]; [congruence|]. assert (q' = q) by congruence. subst q'. tauto.
    + congruence.
    + apply in_or_app. right. apply in_or_app. now left.
Qed.
Lemma prints_stamp_failed verbose p C K builtin now ds s file root :
  In (Out LV2ButStamp) (fst (verify_prints verbose p C K builtin now ds s file root)) <->
  exists q stamp, results p C K builtin now ds s file root (VOk q) stamp /\ passes q /\
    stamp <> VErr VNoSignature /\ (forall r, stamp = VOk r -> ~ passes r).
Proof.
  rewrite prints_in by reflexivity. split.
  - intros (v2 & stamp & R & H).
    destruct (tail_shape verbose v2 stamp) as [E|l E|e E|r E S|r x e E S P I|r E P S|r E P S]; try clear I; cbn [fst] in H; inapp;
      try (exfalso; revert H; apply (in_kind v2_kind); [apply v2_kinds|reflexivity]);
      try (exfalso; revert H; apply (in_kind stamp_kind); [apply stamp_kinds|reflexivity]).
    subst v2. exists r, stamp. split; [exact R|]. split; [exact P|]. split.
    + intros ->. discriminate.
    + intros t -> Q. assert (snd (out_stamp (VOk t)) = false) by (apply stamp_failed_iff; eauto). congruence.
  - intros (q & stamp & R & P & N & Q). exists (VOk q), stamp. split; [exact R|].
    assert (S : snd (out_stamp stamp) = true).
    { apply Bool.not_false_is_true. intros F. apply stamp_failed_iff in F. destruct F as [F|(t & F & F')]; [auto|]. now apply (Q t). }
    destruct (tail_shape verbose (VOk q) stamp) as [E|l E|e E|r E S'|r x e E S' P' I|r E P' S'|r E P' S']; try discriminate E; cbn [fst].
    + injection E as <-. specialize (P FSignature). cbn [reported] in P. congruence.
    + injection E as <-. tauto.
    + apply in_or_app. right. apply in_or_app. right. right. now left.
    + congruence.
Qed.
Lemma filter_signer verbose x : filter about_signer (out_signer verbose x) =
  Out (LSigner (sr_index x + 1)) :: map (fun f => Out (LField 4 f (signer_reported f x))) [FSignature; FDigest; FChain; FTrusted].
Proof.
  unfold out_signer. cbn [app filter about_signer map signer_reported]. do 5 f_equal. rewrite !filter_app.
  replace (filter about_signer (match sr_cert x with Some c => _ | None => _ end)) with (@nil said) by (now destruct (sr_cert x)).
  rewrite (filter_none about_signer (when (nonempty (sr_chain x)) _)), (filter_none about_signer (when (_ && _) _)); [reflexivity|..].
  - destruct (_ && _); [|constructor]. constructor; [reflexivity|]. apply Forall_map_all. reflexivity.
  - destruct (nonempty _); [|constructor]. constructor; [reflexivity|]. destruct verbose; [|constructor]. apply Forall_map_all. reflexivity.
Qed.
Lemma filter_v2 verbose r : filter about_signer (v2_lines verbose r) =
  flat_map (fun x => Out (LSigner (sr_index x + 1)) :: map (fun f => Out (LField 4 f (signer_reported f x))) [FSignature; FDigest; FChain; FTrusted]) (vr_signers r).
Proof.
  unfold v2_lines. rewrite !filter_app. cbn [filter about_signer app].
  rewrite (filter_none about_signer (when _ _)), app_nil_r.
  - induction (vr_signers r) as [|x l IH]; cbn [flat_map]; [reflexivity|]. rewrite filter_app, filter_signer, IH. reflexivity.
  - destruct (nonempty _); [|constructor]. constructor; [reflexivity|]. apply Forall_map_all. reflexivity.
Qed.
Lemma filter_stamp stamp : filter about_signer (fst (out_stamp stamp)) = [].
Proof.
  apply filter_none. eapply Forall_impl; [|apply stamp_kinds]. intros [x|x] Q; [|reflexivity]. destruct x; try reflexivity; try discriminate Q.
  destruct level as [|[lv|[lv|[lv|lv|]|]|]]; try reflexivity; discriminate.
Qed.
Lemma prints_signers verbose p C K builtin now ds s file root v2 stamp :
  results p C K builtin now ds s file root v2 stamp ->
  filter about_signer (fst (verify_prints verbose p C K builtin now ds s file root)) =
  match v2 with
  | VOk r =>
      if vr_signature_valid r then
        flat_map (fun x => Out (LSigner (sr_index x + 1)) ::
          map (fun f => Out (LField 4 f (signer_reported f x))) [FSignature; FDigest; FChain; FTrusted]) (vr_signers r)
      else []
  | VErr _ => []
  end.
Proof.
  intros R. destruct (stage verbose p C K builtin now ds s file root) as [(N & _ & F)|(v2' & stamp' & pre & R' & F & ->)]; [now apply N in R|].
  destruct (results_fun _ _ _ _ _ _ _ _ _ _ _ _ _ R R') as (-> & ->). cbn [fst]. rewrite filter_app.
  rewrite (filter_none about_signer pre).
  2:{ eapply Forall_impl; [|exact F]. intros [x|x] (H & _); [|reflexivity]. destruct x; try reflexivity; discriminate. }
  cbn [app]. destruct (tail_shape verbose v2 stamp) as [E|l E|e E|r E S|r x e E S P I|r E P S|r E P S]; cbn [fst]; subst v2.
  - rewrite !filter_app, filter_stamp. reflexivity.
  - cbn [filter about_signer]. apply filter_none. apply Forall_map_all. reflexivity.
  - reflexivity.
  - rewrite S. cbn [filter about_signer]. apply filter_none. destruct (nonempty _); [|constructor]. constructor; [reflexivity|]. apply Forall_map_all. reflexivity.
  - rewrite S, filter_app, filter_v2. cbn [filter about_signer]. now rewrite app_nil_r.
  - rewrite (P FSignature : vr_signature_valid r = true), !filter_app, filter_v2, filter_stamp. cbn [filter about_signer app]. now rewrite app_nil_r.
  - rewrite (P FSignature : vr_signature_valid r = true), !filter_app, filter_v2, filter_stamp. cbn [filter about_signer app]. now rewrite app_nil_r.
Qed.
Lemma numbered_nth {A} (l : list A) i k : nth_error (numbered i l) k = match nth_error l k with Some x => Some (i + N.of_nat k, x) | None => None end.
Proof.
  revert i k. induction l as [|x l IH]; intros i k; [destruct k; reflexivity|]. destruct k as [|k]; cbn [numbered nth_error].
  - now rewrite N.add_0_r.
  - rewrite IH. destruct (nth_error l k); [|reflexivity]. do 2 f_equal. lia.
Qed.
Lemma prints_failed verbose p C K builtin now ds s file root errors stamp :
  results p C K builtin now ds s file root (VErr (VMultiSigner errors)) stamp ->
  forall k, nth_error (filter failed_signer (fst (verify_prints verbose p C K builtin now ds s file root))) k =
    match nth_error errors k with Some e => Some (Errs (LFailedSigner (N.of_nat k + 1) e)) | None => None end.
Proof.
  intros R k. destruct (stage verbose p C K builtin now ds s file root) as [(N & _ & F)|(v2' & stamp' & pre & R' & F & ->)]; [now apply N in R|].
  destruct (results_fun _ _ _ _ _ _ _ _ _ _ _ _ _ R R') as (-> & ->). cbn [fst]. rewrite filter_app.
  rewrite (filter_none failed_signer pre).
  2:{ eapply Forall_impl; [|exact F]. intros [x|x] (_ & H); [reflexivity|discriminate]. }
  cbn [app]. destruct (tail_shape verbose (VErr (VMultiSigner errors)) stamp) as [E|l E|e E|r E S|r x e E S P I|r E P S|r E P S]; try discriminate E.
  injection E as <-. cbn [fst filter failed_signer]. rewrite filter_same by (apply Forall_map_all; reflexivity).
  rewrite nth_error_map, numbered_nth. destruct (nth_error errors k); [|reflexivity]. cbn [option_map fst snd]. do 3 f_equal.
Qed.
Lemma prints_not_found verbose p C K builtin now ds s file root stamp :
  results p C K builtin now ds s file root (VErr VNoSignature) stamp ->
  filter (fun x => match x with Out LV2NotFound => true | _ => false end) (fst (verify_prints verbose p C K builtin now ds s file root)) =
    [Out LV2NotFound; Out LV2NotFound].
Proof.
  intros R. destruct (stage verbose p C K builtin now ds s file root) as [(N & _ & F)|(v2' & stamp' & pre & R' & F & ->)]; [now apply N in R|].
  destruct (results_fun _ _ _ _ _ _ _ _ _ _ _ _ _ R R') as (-> & ->). cbn [fst]. rewrite filter_app, filter_none.
  2:{ eapply Forall_impl; [|exact F]. intros [x|x] (H & _); [|reflexivity]. destruct x; try reflexivity; discriminate. }
  cbn [app]. destruct (tail_shape verbose (VErr VNoSignature) stamp) as [E|l E|e E|r E S|r x e E S P I|r E P S|r E P S]; try discriminate E.
  cbn [fst]. rewrite !filter_app. rewrite (filter_none _ (fst (out_stamp stamp))); [reflexivity|].
  eapply Forall_impl; [|apply stamp_kinds]. intros [x|x] H; [|reflexivity]. destruct x; try reflexivity; discriminate.
Qed.
