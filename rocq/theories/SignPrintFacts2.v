(** SignPrintFacts2.v - every line of the sign and digest commands, when it is
    printed and in which order. *)
From Verif Require Import Base BaseFacts Utils Algorithms Common SchemeV2 SourceStamp Utf8 ElfInfo SigningBlock
  Zip Digest Module Signable Signer Verifier Keystore Elf Cli CliSpec CliFacts CliProps SignPrint SignPrintSpec SignPrintFacts.
From Coq Require Import Lia.
Open Scope N_scope.

(** The digests: what is printed when one fails. *)
Lemma digests_fail p C rest ds x file l : forall done k, (forall r, cli_digests p C rest ds x file l <> Ok r) ->
  exists l1 algo l2 r, l = l1 ++ algo :: l2 /\ cli_digests p C rest ds x file l1 = Ok r /\
    (forall d, signable_digest p C rest ds x file algo <> Ok d) /\
    fst (digests_print p C rest ds x file l done k) = map SDigest (l1 ++ [algo]).
Proof.
  induction l as [|a l IH]; intros done k H; cbn [cli_digests digests_print] in *.
  - now elim (H []).
  - unfold say, attempt. destruct (signable_digest p C rest ds x file a) as [d|e|] eqn:E; cbn [bind fst snd] in *.
    + destruct (IH (done ++ [(a, d)]) k) as (l1 & b & l2 & r & -> & Hr & Hd & Hp).
      { intros r Hr. rewrite Hr in H. cbn [bind] in H. now elim (H ((a, d) :: r)). }
      exists (a :: l1), b, l2, ((a, d) :: r). split; [reflexivity|]. split; [cbn [cli_digests]; now rewrite E; cbn [bind]; rewrite Hr|].
      split; [exact Hd|]. rewrite Hp. reflexivity.
    + exists [], a, l, []. rewrite E. repeat split; congruence.
    + exists [], a, l, []. rewrite E. repeat split; congruence.
Qed.
Lemma digests_prefix p C rest ds x file l1 : forall l2 r, cli_digests p C rest ds x file (l1 ++ l2) = Ok r ->
  exists r1, cli_digests p C rest ds x file l1 = Ok r1.
Proof.
  induction l1 as [|a l1 IH]; intros l2 r H; [exists []; reflexivity|]. cbn [app cli_digests] in *.
  apply bind_Ok in H as (d & -> & H). apply bind_Ok in H as (r' & H & _). apply IH in H. destruct H as (r1 & ->). eexists. reflexivity.
Qed.
(** A digest that fails is the last. *)
Lemma digests_unique p C rest ds x file : forall l1 a l2 m1 b m2 r1 r2, l1 ++ a :: l2 = m1 ++ b :: m2 ->
  cli_digests p C rest ds x file l1 = Ok r1 -> (forall d, signable_digest p C rest ds x file a <> Ok d) ->
  cli_digests p C rest ds x file m1 = Ok r2 -> In b (l1 ++ [a]).
Proof.
  induction l1 as [|c l1 IH]; intros a l2 m1 b m2 r1 r2 E H1 Ha H2.
  - destruct m1 as [|c m1]; injection E as -> E; [now left|]. exfalso. cbn [cli_digests] in H2. apply bind_Ok in H2 as (d & H2 & _). now elim (Ha d).
  - destruct m1 as [|c' m1]; injection E as -> E; [now left|]. right. cbn [cli_digests] in H1, H2.
    apply bind_Ok in H1 as (d1 & _ & H1). apply bind_Ok in H1 as (r1' & H1 & _). apply bind_Ok in H2 as (d2 & _ & H2). apply bind_Ok in H2 as (r2' & H2 & _).
    eapply IH; eauto.
Qed.

(** * Where a run of the sign command ends *)
Inductive ended p C L rest (clk : option N) ds (s : fs) (a : sign_args) : list sline -> Prop :=
| en_key : (forall v, load_credentials L s (sa_v2 a) <> Ok (Some v)) -> (forall sg, cli_signer L s a <> Ok sg) ->
    ended p C L rest clk ds s a [SStart; SInput (sa_input a); SOutput (sa_output a); SBlank]
| en_stamp : forall v, load_credentials L s (sa_v2 a) = Ok (Some v) -> (forall sg, cli_signer L s a <> Ok sg) ->
    ended p C L rest clk ds s a [SStart; SInput (sa_input a); SOutput (sa_output a); SBlank; SKey]
| en_open : forall v sg, load_credentials L s (sa_v2 a) = Ok (Some v) -> cli_signer L s a = Ok sg ->
    (forall x, ~ opened_as rest (fs_read s (sa_input a)) (sa_sections a) x) ->
    ended p C L rest clk ds s a ([SStart; SInput (sa_input a); SOutput (sa_output a); SBlank; SKey] ++
      match ms_stamp sg with Some _ => [SStampKey] | None => [] end)
| en_regions : forall v sg x, load_credentials L s (sa_v2 a) = Ok (Some v) -> cli_signer L s a = Ok sg ->
    opened_as rest (fs_read s (sa_input a)) (sa_sections a) x ->
    (forall l, signable_regions p rest x (fs_read s (sa_input a)) <> Ok l) ->
    ended p C L rest clk ds s a ([SStart; SInput (sa_input a); SOutput (sa_output a); SBlank; SKey] ++
      match ms_stamp sg with Some _ => [SStampKey] | None => [] end ++ [SFormat (signable_format x)])
| en_digest : forall v sg x l l1 algo l2 r, load_credentials L s (sa_v2 a) = Ok (Some v) -> cli_signer L s a = Ok sg ->
    opened_as rest (fs_read s (sa_input a)) (sa_sections a) x -> signable_regions p rest x (fs_read s (sa_input a)) = Ok l ->
    required_algorithms sg = l1 ++ algo :: l2 -> cli_digests p C rest ds x (fs_read s (sa_input a)) l1 = Ok r ->
    (forall d, signable_digest p C rest ds x (fs_read s (sa_input a)) algo <> Ok d) ->
    (forall r, cli_digests p C rest ds x (fs_read s (sa_input a)) (required_algorithms sg) <> Ok r) ->
    ended p C L rest clk ds s a ([SStart; SInput (sa_input a); SOutput (sa_output a); SBlank; SKey] ++
      match ms_stamp sg with Some _ => [SStampKey] | None => [] end ++ [SFormat (signable_format x); SRegions] ++ map SRegion l ++
      [SAlgorithms (len (required_algorithms sg)); SCalculating] ++ map SDigest (l1 ++ [algo]))
| en_sign : forall v sg x l r, load_credentials L s (sa_v2 a) = Ok (Some v) -> cli_signer L s a = Ok sg ->
    opened_as rest (fs_read s (sa_input a)) (sa_sections a) x -> signable_regions p rest x (fs_read s (sa_input a)) = Ok l ->
    cli_digests p C rest ds x (fs_read s (sa_input a)) (required_algorithms sg) = Ok r ->
    ended p C L rest clk ds s a ([SStart; SInput (sa_input a); SOutput (sa_output a); SBlank; SKey] ++
      match ms_stamp sg with Some _ => [SStampKey] | None => [] end ++ [SFormat (signable_format x); SRegions] ++ map SRegion l ++
      [SAlgorithms (len (required_algorithms sg)); SCalculating] ++ map SDigest (required_algorithms sg) ++ [SDigested; SSigning]).

Lemma sign_ends : forall p C L rest clk ds s a,
  (ended p C L rest clk ds s a (fst (sign_prints p C L rest clk ds s a)) /\ (forall x b, cli_sign_block p C L rest clk ds s a <> Ok (x, b)) /\
   snd (cli_sign p C L rest clk ds s a) <> Ok tt) \/
  (exists v sg x l r b, load_credentials L s (sa_v2 a) = Ok (Some v) /\ cli_signer L s a = Ok sg /\
     opened_as rest (fs_read s (sa_input a)) (sa_sections a) x /\ signable_regions p rest x (fs_read s (sa_input a)) = Ok l /\
     cli_digests p C rest ds x (fs_read s (sa_input a)) (required_algorithms sg) = Ok r /\
     cli_sign_block p C L rest clk ds s a = Ok (x, b) /\
     fst (sign_prints p C L rest clk ds s a) =
       all_lines a sg x l b ++ match snd (cli_sign p C L rest clk ds s a) with Ok _ => [SSuccess; SOutputFile (sa_output a)] | _ => [] end).
Proof.
  intros p C L rest clk ds s a.
  destruct (sign_lines p C L rest clk ds s a) as [(out & r & E1 & E2 & N & _ & B)|(sg & x & l & b & st & r & H1 & H2 & H3 & H4 & H5)].
  2:{ right. rewrite H5, H4. cbn [fst snd]. pose proof H2 as H2'. unfold cli_sign_block in H2'. rewrite H1 in H2'. cbn [bind] in H2'. cbv zeta in H2'.
      apply bind_Ok in H2' as (x0 & O1 & H2'). apply bind_Ok in H2' as (x1 & O2 & H2'). apply bind_Ok in H2' as (l' & _ & H2').
      apply bind_Ok in H2' as (ps & D & H2'). apply bind_Ok in H2' as (b1 & _ & H2'). apply bind_Ok in H2' as (b2 & _ & H2'). injection H2' as -> _.
      pose proof H1 as H1'. unfold cli_signer in H1'. apply bind_Ok in H1' as (v & V & H1'). destruct v as [v|]; [|discriminate].
      exists v, sg, x, l, ps, b. split; [exact V|]. split; [exact H1|]. split; [exists x0; auto|]. auto. }
  left. rewrite E2. cbn [snd]. split; [|auto]. rewrite E1. cbn [fst].
  assert (E : out = fst (sign_prints p C L rest clk ds s a)) by now rewrite E1. rewrite E. clear E E1 E2 N r out.
  assert (CS : cli_signer L s a = do v2 <- load_credentials L s (sa_v2 a); do v2 <- of_option (ECli 5) v2; do stamp <- load_credentials L s (sa_stamp a);
     match stamp with Some st => Ok (ms_with_stamp (config_from_credentials v2) (config_from_credentials st))
                    | None => Ok (ms_v2_only (config_from_credentials v2)) end) by reflexivity.
  unfold cli_sign_block in B. cbv zeta in B. unfold sign_prints. cbv zeta.
  destruct (load_credentials L s (sa_v2 a)) as [[v2|]|e|] eqn:V; cbn [bind of_option attempt] in CS |- *.
  2-4: unfold say; cbn [fst app]; apply en_key; [rewrite V|rewrite CS]; discriminate.
  destruct (load_credentials L s (sa_stamp a)) as [st|e|]; cbn [bind attempt] in CS |- *.
  2-3: unfold say; cbn [fst app]; eapply en_stamp; [exact V|rewrite CS; discriminate].
  set (sg := match st with Some st => ms_with_stamp (config_from_credentials v2) (config_from_credentials st)
                       | None => ms_v2_only (config_from_credentials v2) end).
  assert (ES : cli_signer L s a = Ok sg) by (rewrite CS; unfold sg; destruct st; reflexivity).
  assert (EK : match st with Some _ => [SStampKey] | None => [] end = match ms_stamp sg with Some _ => [SStampKey] | None => [] end)
    by (unfold sg; destruct st; reflexivity).
  rewrite EK. clear EK CS. rewrite ES in B. clearbody sg. cbn [bind] in B.
  destruct (signable_open rest (fs_read s (sa_input a))) as [x0|e|] eqn:O1; cbn [bind attempt] in B |- *.
  2-3: unfold say; cbn [fst snd app]; rewrite ?app_nil_r; eapply (en_open p C L rest clk ds s a v2 sg V ES); intros x (y & H & _); congruence.
  destruct (choose_sections x0 (sa_sections a)) as [x|e|] eqn:O2; cbn [bind attempt] in B |- *.
  2-3: unfold say; cbn [fst snd app]; rewrite ?app_nil_r; eapply (en_open p C L rest clk ds s a v2 sg V ES); intros x (y & H & H'); congruence.
  assert (O : opened_as rest (fs_read s (sa_input a)) (sa_sections a) x) by (exists x0; auto).
  destruct (signable_regions p rest x (fs_read s (sa_input a))) as [l|e|] eqn:R; cbn [bind attempt] in B |- *.
  2-3: unfold say; cbn [fst snd app]; eapply (en_regions p C L rest clk ds s a v2 sg x V ES O); rewrite R; discriminate.
  match goal with |- context [digests_print p C rest ds x ?f ?q [] ?k] =>
    destruct (digests_print_spec p C rest ds x f q [] k) as [(r & Dr & Dp)|Df] end.
  - rewrite Dp. rewrite Dr in B. cbn [bind app attempt] in B |- *.
    destruct (ms_sign p C clk sg (digests_of_pairs r)) as [b0|e|]; cbn [bind attempt] in B |- *.
    + destruct (cli_add_info rest x b0) as [b|e|]; cbn [bind attempt] in B |- *; [now elim (B x b)| |].
      all: unfold say; cbn [fst snd app]; rewrite ?app_nil_r, <- ?app_assoc; cbn [app]; eapply (en_sign p C L rest clk ds s a v2 sg x l r V ES O R Dr).
    + unfold say; cbn [fst snd app]; rewrite ?app_nil_r, <- ?app_assoc; cbn [app]; eapply (en_sign p C L rest clk ds s a v2 sg x l r V ES O R Dr).
    + unfold say; cbn [fst snd app]; rewrite ?app_nil_r, <- ?app_assoc; cbn [app]; eapply (en_sign p C L rest clk ds s a v2 sg x l r V ES O R Dr).
  - assert (NF : forall r, cli_digests p C rest ds x (fs_read s (sa_input a)) (required_algorithms sg) <> Ok r).
    { intros r Hr. destruct Df as (l1 & [(e & H & _)|(H & _)]); congruence. }
    match goal with |- context [digests_print p C rest ds x ?f ?q [] ?k] =>
      destruct (digests_fail p C rest ds x f q [] k NF) as (l1 & algo & l2 & r & El & Hr & Hd & Hp); revert Hp; generalize k; intros kk Hp end.
    unfold say. cbn [fst snd app]. rewrite Hp. rewrite <- ?app_assoc. cbn [app].
    eapply (en_digest p C L rest clk ds s a v2 sg x l l1 algo l2 r V ES O R El Hr Hd NF).
Qed.

Lemma opened_fun rest file l x y : opened_as rest file l x -> opened_as rest file l y -> x = y.
Proof. intros (u & U & V) (u' & U' & V'). congruence. Qed.

Ltac uni := repeat match goal with
  | H : ?f = Ok ?x, H' : ?f = Ok ?y |- _ => first [constr_eq x y; clear H' | rewrite H in H'; injection H' as H'; subst]
  | H : opened_as ?r ?f ?l ?x, H' : opened_as ?r ?f ?l ?y |- _ => first [constr_eq x y; clear H' | pose proof (opened_fun _ _ _ _ _ H H'); subst y; clear H']
  end.
Lemma stamp_line sg y : In y (match ms_stamp sg with Some _ => [SStampKey] | None => [] end) <-> y = SStampKey /\ exists c, ms_stamp sg = Some c.
Proof. destruct (ms_stamp sg) as [c|]; cbn [In]; split; intros H; [destruct H as [<-|[]]; eauto|left; symmetry; apply H|destruct H|destruct H as (_ & c & H); discriminate]. Qed.

(** Every line of a list is justified. *)
Ltac fa := repeat first [apply Forall_nil | apply Forall_app; split | apply Forall_cons].
Lemma stamp_said p C L rest clk ds s a sg : cli_signer L s a = Ok sg ->
  Forall (sign_said p C L rest clk ds s a) (match ms_stamp sg with Some _ => [SStampKey] | None => [] end).
Proof. intros H. destruct (ms_stamp sg) eqn:E; fa. eapply sd_stamp_key; eauto. Qed.
Lemma regions_said p C L rest clk ds s a sg x l : cli_signer L s a = Ok sg -> opened_as rest (fs_read s (sa_input a)) (sa_sections a) x ->
  signable_regions p rest x (fs_read s (sa_input a)) = Ok l -> Forall (sign_said p C L rest clk ds s a) (map SRegion l).
Proof. intros. apply Forall_map, Forall_forall. intros g Hg. eapply sd_region; eauto 7. Qed.
Lemma digests_said p C L rest clk ds s a sg x l l1 l2 r : cli_signer L s a = Ok sg -> opened_as rest (fs_read s (sa_input a)) (sa_sections a) x ->
  signable_regions p rest x (fs_read s (sa_input a)) = Ok l -> required_algorithms sg = l1 ++ l2 ->
  cli_digests p C rest ds x (fs_read s (sa_input a)) l1 = Ok r ->
  Forall (sign_said p C L rest clk ds s a) (map SDigest l1).
Proof.
  intros HS HO HR HA HD. apply Forall_map, Forall_forall. intros q Hq. apply in_split in Hq. destruct Hq as (m1 & m2 & ->).
  rewrite <- app_assoc in HA. cbn [app] in HA. apply digests_prefix in HD. destruct HD as (r1 & HD). eapply sd_digest; eauto.
Qed.

Lemma sign_progress p C L rest clk ds s a y :
  In y (fst (sign_prints p C L rest clk ds s a)) <-> sign_said p C L rest clk ds s a y.
Proof.
  destruct (sign_ends p C L rest clk ds s a) as [(E & B & NO)|(v & sg & x & l & r & b & V & S & O & R & D & B & E)].
  2:{ rewrite E. clear E. unfold all_lines, signable_format. split.
    - revert y. apply Forall_forall. fa; try (solve [apply sd_start|apply sd_input|apply sd_output|apply sd_blank]); try (eapply sd_key; eassumption); try (eapply sd_format; eassumption);
        try (now apply stamp_said); try (eapply sd_region; eauto 7; fail); try (eapply sd_digested; eauto; fail); try (eapply sd_block; eauto; fail).
      + eapply regions_said; eauto.
      + eapply digests_said; eauto. symmetry. apply app_nil_r.
      + destruct (snd (cli_sign p C L rest clk ds s a)) as [[]|e|] eqn:Q; fa; eapply sd_success; eauto.
    - rewrite !in_app_iff, stamp_line, !in_map_iff. intros H. destruct H as [| | | |v' H|sg' c H H0|sg' x' H H0|sg' x' l' y H H0 H1 H2|sg' x' l' l1 algo l2 r' H H0 H1 H2 H3|sg' x' l' r' y H H0 H1 H2 H3|x' b' y H H0|y H H0];
        uni; cbn [In]; auto 12.
      + left. right. left. eauto.
      + decompose [or] H2; subst; auto 12. destruct H0 as (g & H3 & ->). left. do 3 right. left. eauto.
      + left. do 5 right. left. exists algo. split; [reflexivity|]. rewrite H2. apply in_elt.
      + decompose [or] H3; subst; auto 14.
      + destruct H0; subst; auto 14.
      + right. rewrite H. destruct H0; subst; cbn [In]; auto. }
  assert (NB : forall x b, cli_sign_block p C L rest clk ds s a = Ok (x, b) -> False) by (intros x b; apply B). clear B.
  assert (NO' : snd (cli_sign p C L rest clk ds s a) = Ok tt -> False) by exact NO. clear NO.
  remember (fst (sign_prints p C L rest clk ds s a)) as lines eqn:EL. clear EL.
  inversion E as [HV HS EQ|v HV HS EQ|v sg HV HS HO EQ|v sg x HV HS HO HR EQ|v sg x l l1 algo l2 r HV HS HO HR HA HD HF HN EQ|v sg x l r HV HS HO HR HD EQ];
    subst lines; clear E; unfold signable_format; split.
  - revert y. apply Forall_forall. fa; solve [apply sd_start|apply sd_input|apply sd_output|apply sd_blank].
  - intros H. destruct H; cbn [In]; auto 6; exfalso; try (eapply HS; eassumption); try (eapply HV; eassumption); eauto.
  - revert y. apply Forall_forall. fa; try (solve [apply sd_start|apply sd_input|apply sd_output|apply sd_blank]); eapply sd_key; eassumption.
  - intros H. destruct H; cbn [In]; auto 6; exfalso; try (eapply HS; eassumption); eauto.
  - revert y. apply Forall_forall. fa; try (solve [apply sd_start|apply sd_input|apply sd_output|apply sd_blank]); try (eapply sd_key; eassumption); now apply stamp_said.
  - rewrite in_app_iff, stamp_line. intros H. destruct H; uni; cbn [In]; auto 8; try (exfalso; eapply HO; eassumption); try (exfalso; eauto; fail).
    right. eauto.
  - revert y. apply Forall_forall. fa; try (solve [apply sd_start|apply sd_input|apply sd_output|apply sd_blank]); try (eapply sd_key; eassumption); try (now apply stamp_said); eapply sd_format; eauto.
  - rewrite !in_app_iff, stamp_line. intros H. destruct H; uni; cbn [In]; auto 8; try (exfalso; eapply HR; eassumption); try (exfalso; eauto; fail).
    right. left. eauto.
  - revert y. apply Forall_forall. fa; try (solve [apply sd_start|apply sd_input|apply sd_output|apply sd_blank]); try (eapply sd_key; eassumption); try (eapply sd_format; eassumption);
        try (now apply stamp_said); try (eapply sd_region; eauto 7; fail).
    + eapply regions_said; eauto.
    + rewrite map_app. fa; [|eapply sd_digest; eauto]. eapply digests_said; eauto.
  - rewrite !in_app_iff, stamp_line, !in_map_iff. intros H. destruct H as [| | | |v' H|sg' c H H0|sg' x' H H0|sg' x' l' y H H0 H1 H2|sg' x' l' m1 algo' m2 r' H H0 H1 H2 H3|sg' x' l' r' y H H0 H1 H2 H3|x' b' y H H0|y H H0];
      uni; cbn [In]; auto 12; try (exfalso; eauto; fail).
    + right. left. eauto.
    + decompose [or] H2; subst; auto 12. destruct H0 as (g & H3 & ->). do 3 right. left. eauto.
    + do 5 right. exists algo'. split; [reflexivity|]. rewrite HA in H2. eapply digests_unique; eauto.
    + exfalso. eapply HN; eassumption.
  - revert y. apply Forall_forall. fa; try (solve [apply sd_start|apply sd_input|apply sd_output|apply sd_blank]); try (eapply sd_key; eassumption); try (eapply sd_format; eassumption);
        try (now apply stamp_said); try (eapply sd_region; eauto 7; fail); try (eapply sd_digested; eauto; fail).
    + eapply regions_said; eauto.
    + eapply digests_said; eauto. symmetry. apply app_nil_r.
  - rewrite !in_app_iff, stamp_line, !in_map_iff. intros H. destruct H as [| | | |v' H|sg' c H H0|sg' x' H H0|sg' x' l' y H H0 H1 H2|sg' x' l' m1 algo' m2 r' H H0 H1 H2 H3|sg' x' l' r' y H H0 H1 H2 H3|x' b' y H H0|y H H0];
      uni; cbn [In]; auto 12; try (exfalso; eauto; fail).
    + right. left. eauto.
    + decompose [or] H2; subst; auto 12. destruct H0 as (g & H3 & ->). do 3 right. left. eauto.
    + do 5 right. left. exists algo'. split; [reflexivity|]. rewrite H2. apply in_elt.
    + decompose [or] H3; subst; auto 14.
Qed.

Lemma sign_order p C L rest clk ds s a :
  exists stamp f regions algos n later, sign_script a stamp f regions algos n = fst (sign_prints p C L rest clk ds s a) ++ later /\
    (snd (cli_sign p C L rest clk ds s a) = Ok tt <-> later = []).
Proof.
  assert (SB : forall sg, match ms_stamp sg with Some _ => [SStampKey] | None => [] end = if match ms_stamp sg with Some _ => true | None => false end then [SStampKey] else [])
    by (intros sg; destruct (ms_stamp sg); reflexivity).
  destruct (sign_ends p C L rest clk ds s a) as [(E & B & NO)|(v & sg & x & l & r & b & V & S & O & R & D & B & E)].
  - remember (fst (sign_prints p C L rest clk ds s a)) as lines eqn:EL. clear EL.
    assert (Q : forall later : list sline, later <> [] -> (snd (cli_sign p C L rest clk ds s a) = Ok tt <-> later = [])) by (intros; split; contradiction).
    inversion E as [HV HS EQ|v HV HS EQ|v sg HV HS HO EQ|v sg x HV HS HO HR EQ|v sg x l l1 algo l2 r HV HS HO HR HA HD HF HN EQ|v sg x l r HV HS HO HR HD EQ];
      subst lines; clear E; rewrite ?SB; unfold sign_script.
    + exists false, FModule, [], [], 0. eexists. split; [reflexivity|]. apply Q. discriminate.
    + exists false, FModule, [], [], 0. eexists. split; [reflexivity|]. apply Q. discriminate.
    + exists (match ms_stamp sg with Some _ => true | None => false end), FModule, [], [], 0. eexists. split; [rewrite <- app_assoc; reflexivity|]. apply Q. discriminate.
    + exists (match ms_stamp sg with Some _ => true | None => false end), (signable_format x), [], [], 0. eexists.
      split; [rewrite <- ?app_assoc; cbn [app]; rewrite <- ?app_assoc; reflexivity|]. apply Q. discriminate.
    + exists (match ms_stamp sg with Some _ => true | None => false end), (signable_format x), l, (required_algorithms sg), 0.
      exists (map SDigest l2 ++ [SDigested; SSigning; SBlock 0; SWriting; SSuccess; SOutputFile (sa_output a)]).
      split; [|apply Q; destruct (map SDigest l2); discriminate].
      repeat (rewrite <- ?app_assoc; cbn [app]). rewrite HA at 2. rewrite !map_app. cbn [map app]. repeat (rewrite <- ?app_assoc; cbn [app]). reflexivity.
    + exists (match ms_stamp sg with Some _ => true | None => false end), (signable_format x), l, (required_algorithms sg), 0.
      exists [SBlock 0; SWriting; SSuccess; SOutputFile (sa_output a)].
      split; [|apply Q; discriminate]. repeat (rewrite <- ?app_assoc; cbn [app]). reflexivity.
  - rewrite E. unfold sign_script, all_lines. rewrite SB.
    exists (match ms_stamp sg with Some _ => true | None => false end), (signable_format x), l, (required_algorithms sg), (len (block_to_u8 b)).
    destruct (snd (cli_sign p C L rest clk ds s a)) as [[]|e|].
    + exists []. split; [|split; reflexivity]. repeat (rewrite <- ?app_assoc; cbn [app]). reflexivity.
    + exists [SSuccess; SOutputFile (sa_output a)]. split; [|split; discriminate]. repeat (rewrite <- ?app_assoc; cbn [app]). reflexivity.
    + exists [SSuccess; SOutputFile (sa_output a)]. split; [|split; discriminate]. repeat (rewrite <- ?app_assoc; cbn [app]). reflexivity.
Qed.

(** * digest *)
Lemma regions_printed p l : forall acc, acc < U64 ->
  exists l1 l2, l = l1 ++ l2 /\ fst (regions_print p l acc) = map DRegion l1 /\
   match snd (regions_print p l acc) with
   | Ok n => l2 = [] /\ (p = Release \/ acc + sizes l < U64) /\ n = (acc + sizes l) mod U64
   | Err _ => False
   | Panic => p = Debug /\ exists m g, l1 = m ++ [g] /\ acc + sizes m < U64 /\ U64 <= acc + sizes l1
   end.
Proof.
  induction l as [|g l IH]; intros acc Ha; cbn [regions_print].
  - exists [], []. cbn [fst snd map app sizes fold_right]. rewrite N.add_0_r. split; [reflexivity|]. split; [reflexivity|]. split; [reflexivity|].
    split; [right; exact Ha|]. symmetry. now apply N.mod_small.
  - unfold uadd. destruct (acc + rg_size g <? U64) eqn:L.
    + apply N.ltb_lt in L. destruct (IH _ L) as (l1 & l2 & -> & P & Q). destruct (regions_print p (l1 ++ l2) (acc + rg_size g)) as [d r]. cbn [fst snd] in *.
      exists (g :: l1), l2. split; [reflexivity|]. split; [cbn [map]; now rewrite P|]. destruct r as [n|e|]; [|exact Q|].
      * destruct Q as (-> & Q1 & Q2). cbn [app sizes fold_right]. change (fold_right _ 0 (l1 ++ [])) with (sizes (l1 ++ [])).
        rewrite N.add_assoc. auto.
      * destruct Q as (-> & m & h & -> & Q1 & Q2). split; [reflexivity|]. exists (g :: m), h. split; [reflexivity|].
        cbn [app sizes fold_right]. change (fold_right _ 0 m) with (sizes m). change (fold_right _ 0 (m ++ [h])) with (sizes (m ++ [h])). lia.
    + apply N.ltb_ge in L. destruct p.
      * exists [g], l. cbn [fst snd]. split; [reflexivity|]. split; [reflexivity|]. split; [reflexivity|]. exists [], g.
        cbn [app sizes fold_right]. split; [reflexivity|]. lia.
      * assert (M : (acc + rg_size g) mod U64 < U64) by (apply N.mod_lt; discriminate).
        destruct (IH _ M) as (l1 & l2 & -> & P & Q). destruct (regions_print Release (l1 ++ l2) ((acc + rg_size g) mod U64)) as [d r]. cbn [fst snd] in *.
        exists (g :: l1), l2. split; [reflexivity|]. split; [cbn [map]; now rewrite P|]. destruct r as [n|e|]; [|exact Q|destruct Q; discriminate].
        destruct Q as (-> & Q1 & Q2). cbn [app sizes fold_right]. change (fold_right _ 0 (l1 ++ [])) with (sizes (l1 ++ [])).
        split; [reflexivity|]. split; [now left|]. rewrite Q2, N.add_mod_idemp_l by discriminate. now rewrite N.add_assoc.
Qed.

Lemma total_is p l : total_size p l 0 = snd (regions_print p l 0).
Proof. symmetry. apply regions_print_total. Qed.

Lemma digest_ends p C rest base64 ds s a :
  let lines := fst (digest_prints p C rest base64 ds s a) in
  let r := snd (cli_digest p C rest base64 ds s a) in
  ((forall x, ~ opened_as rest (fs_read s (da_input a)) (da_sections a) x) /\ lines = [] /\ (forall o, r <> Ok o)) \/
  (exists x, opened_as rest (fs_read s (da_input a)) (da_sections a) x /\ (forall l, signable_regions p rest x (fs_read s (da_input a)) <> Ok l) /\
     lines = [DFile (da_input a); DFormat (signable_format x)] /\ (forall o, r <> Ok o)) \/
  (exists x l1 l2 m g, opened_as rest (fs_read s (da_input a)) (da_sections a) x /\ signable_regions p rest x (fs_read s (da_input a)) = Ok (l1 ++ l2) /\
     p = Debug /\ l1 = m ++ [g] /\ sizes m < U64 /\ U64 <= sizes l1 /\
     lines = [DFile (da_input a); DFormat (signable_format x); DRegions] ++ map DRegion l1 /\ (forall o, r <> Ok o)) \/
  (exists x l, opened_as rest (fs_read s (da_input a)) (da_sections a) x /\ signable_regions p rest x (fs_read s (da_input a)) = Ok l /\
     (p = Release \/ sizes l < U64) /\
     lines = [DFile (da_input a); DFormat (signable_format x); DRegions] ++ map DRegion l ++ [DTotal (sizes l mod U64); DBlank] ++
       match da_dump a with
       | Some o => match r with Ok _ => [DDumped (sizes l mod U64) o] | _ => [] end
       | None => DAlgorithm (da_sha512 a) :: match r with Ok (Some t) => [DDigest t] | _ => [] end
       end /\
     forall o, r = Ok o -> (o = None <-> da_dump a <> None)).
Proof.
  cbv zeta. unfold digest_prints, cli_digest. cbv zeta.
  destruct (signable_open rest (fs_read s (da_input a))) as [x0|e|] eqn:O1; cbn [bind].
  2,3: left; split; [intros x (y & H & _); congruence|]; split; [reflexivity|discriminate].
  destruct (choose_sections x0 (da_sections a)) as [x|e|] eqn:O2; cbn [bind].
  2,3: left; split; [intros x (y & H & H'); congruence|]; split; [reflexivity|discriminate].
  assert (O : opened_as rest (fs_read s (da_input a)) (da_sections a) x) by (exists x0; auto). right.
  destruct (signable_regions p rest x (fs_read s (da_input a))) as [l|e|] eqn:R; cbn [bind].
  2,3: left; exists x; split; [exact O|]; split; [rewrite R; discriminate|]; split; [reflexivity|discriminate].
  right. pose proof (total_is p l) as T. destruct (regions_printed p l 0 eq_refl) as (l1 & l2 & E & P & Q).
  destruct (regions_print p l 0) as [rl tot]. cbn [fst snd] in P, Q, T |- *. rewrite T. subst rl.
  destruct tot as [n|e|]; [|destruct Q|].
  2:{ cbn [bind]. left. destruct Q as (-> & m & g & Q). exists x, l1, l2, m, g. rewrite !N.add_0_l in Q. destruct Q as (Q1 & Q2 & Q3). subst l.
      repeat (split; [auto|]). discriminate. }
  right. destruct Q as (-> & Q1 & Q2). rewrite app_nil_r in E. subst l1. rewrite N.add_0_l in Q1, Q2. exists x, l.
  split; [exact O|]. split; [exact R|]. split; [exact Q1|]. cbn [bind]. rewrite (copied_total p l 0 n T). rewrite <- Q2.
  destruct (da_dump a) as [o|].
  - destruct (dump_regions p s (da_input a) o l) as [w r]. cbn [fst snd]. split.
    + repeat (rewrite <- ?app_assoc; cbn [app]). destruct r; reflexivity.
    + intros t H. apply bind_Ok in H as (? & _ & H). injection H as <-. split; [discriminate|reflexivity].
  - cbn [fst snd]. destruct (signable_digest _ _ _ _ _ _ _) as [d|e|]; cbn [bind]; split.
    all: try (cbn [fst]; repeat (rewrite <- ?app_assoc; cbn [app]); reflexivity).
    all: intros t H; try discriminate. injection H as <-. split; [discriminate|congruence].
Qed.

Lemma sizes_app l1 l2 : sizes (l1 ++ l2) = sizes l1 + sizes l2.
Proof. induction l1 as [|g l1 IH]; cbn [sizes fold_right app]; [reflexivity|]. change (fold_right _ 0 ?l) with (sizes l). change (fold_right _ 0 ?l) with (sizes l). rewrite IH. lia. Qed.

Lemma before l1 l2 k1 (h : region) k2 : l1 ++ l2 = k1 ++ h :: k2 -> sizes k1 < sizes l1 -> In h l1.
Proof.
  revert k1. induction l1 as [|x l1 IH]; intros k1 E H; [cbn [sizes fold_right] in H; lia|].
  destruct k1 as [|y k1]; injection E as -> E; [now left|]. right. apply (IH k1 E). cbn [sizes fold_right] in H.
  change (fold_right _ 0 l1) with (sizes l1) in H. change (fold_right _ 0 k1) with (sizes k1) in H. lia.
Qed.

Lemma digest_progress p C rest base64 ds s a y :
  In y (fst (digest_prints p C rest base64 ds s a)) <-> digest_said p C rest base64 ds s a y.
Proof.
  destruct (digest_ends p C rest base64 ds s a) as [(HO & -> & HR)|[(x & HO & HR & -> & HF)|[(x & l1 & l2 & m & g & HO & HR & HP & HM & H1 & H2 & -> & HF)|(x & l & HO & HR & HS & -> & HF)]]].
  - split; [intros []|]. intros H. destruct H; exfalso; try (eapply HO; eassumption). eapply HR; eassumption.
  - split; unfold signable_format.
    + revert y. apply Forall_forall. fa; eapply dd_file; eauto.
    + intros H. destruct H; uni; try (exfalso; eapply HR; eassumption); try (exfalso; eapply HF; eassumption). cbn [In]. destruct H0; subst; auto.
  - split; unfold signable_format.
    + revert y. apply Forall_forall. fa; try (eapply dd_file; eauto; fail); [eapply dd_regions; eauto|].
      apply Forall_map, Forall_forall. intros h Hh. apply in_split in Hh. destruct Hh as (u & v & Hh). rewrite Hh, <- app_assoc in HR. cbn [app] in HR.
      eapply dd_region; [exact HO|exact HR|]. right. change (2 ^ 64) with U64.
      assert (S : sizes u <= sizes m); [|lia]. rewrite HM in Hh. destruct (exists_last (l := h :: v)) as (v' & z & Ez); [discriminate|].
      rewrite Ez, app_assoc in Hh. apply app_inj_tail in Hh. destruct Hh as (-> & _). rewrite sizes_app. lia.
    + intros H. rewrite in_app_iff, in_map_iff. destruct H as [x' y Hx H|x' l' Hx H|x' k1 h k2 Hx H Hs|x' l' y Hx H Hs Hy|x' l' o Hx H Hd Hr|t H];
        uni; try (exfalso; eapply HF; eassumption); cbn [In].
      * destruct H; subst; auto.
      * auto.
      * right. exists h. split; [reflexivity|]. destruct Hs as [Hs|Hs]; [discriminate|].
        change (2 ^ 64) with U64 in Hs. eapply (before _ l2 k1 h k2); [first [eassumption|symmetry; eassumption]|]. lia.
      * exfalso. change (2 ^ 64) with U64 in Hs. rewrite sizes_app in Hs. destruct Hs as [Hs|Hs]; [discriminate|lia].
  - split; unfold signable_format.
    + revert y. apply Forall_forall. fa; try (eapply dd_file; eauto; fail); try (eapply dd_regions; eauto; fail); try (eapply dd_total; eauto 6; fail).
      * apply Forall_map, Forall_forall. intros h Hh. apply in_split in Hh. destruct Hh as (u & v & ->).
        eapply dd_region; [exact HO|exact HR|]. destruct HS as [HS|HS]; [now left|right]. change (2 ^ 64) with U64. rewrite sizes_app in HS. lia.
      * destruct (da_dump a) as [o|] eqn:Da.
        -- destruct (snd (cli_digest p C rest base64 ds s a)) as [t|e|] eqn:Q; fa. eapply dd_dumped; eauto. rewrite Q. f_equal. apply (HF t eq_refl). discriminate.
        -- fa; [eapply dd_total; eauto 7|]. destruct (snd (cli_digest p C rest base64 ds s a)) as [[t|]|e|] eqn:Q; fa. now apply dd_digest.
    + intros H. rewrite !in_app_iff, in_map_iff. destruct H as [x' y Hx H|x' l' Hx H|x' k1 h k2 Hx H Hs|x' l' y Hx H Hs Hy|x' l' o Hx H Hd Hr|t H];
        uni; cbn [In].
      * destruct H; subst; auto.
      * auto.
      * right. left. exists h. split; [reflexivity|]. apply in_elt.
      * destruct Hy as [->|[->|(-> & ->)]]; cbn [In]; auto 8.
      * right. right. right. rewrite Hd, Hr. now left.
      * right. right. right. rewrite H. assert (D : da_dump a = None); [|rewrite D; right; now left].
        destruct (da_dump a); [|reflexivity]. assert (X : Some t = None) by (apply (HF (Some t) H); discriminate). discriminate.
Qed.

Lemma digest_order p C rest base64 ds s a :
  exists f regions total text later, digest_script a f regions total text = fst (digest_prints p C rest base64 ds s a) ++ later /\
    ((exists o, snd (cli_digest p C rest base64 ds s a) = Ok o) <-> later = []).
Proof.
  destruct (digest_ends p C rest base64 ds s a) as [(HO & -> & HR)|[(x & HO & HR & -> & HF)|[(x & l1 & l2 & m & g & HO & HR & HP & HM & H1 & H2 & -> & HF)|(x & l & HO & HR & HS & -> & HF)]]].
  1-3: assert (Q : forall later : list dline, later <> [] -> ((exists o, snd (cli_digest p C rest base64 ds s a) = Ok o) <-> later = []))
    by (intros later N; split; [intros (o & H); exfalso; first [eapply HF; eassumption|eapply HR; eassumption]|contradiction]).
  - exists FModule, [], 0, []. eexists. split; [reflexivity|]. apply Q. discriminate.
  - exists (signable_format x), [], 0, []. eexists. split; [reflexivity|]. apply Q. discriminate.
  - exists (signable_format x), l1, 0, []. eexists. split; [unfold digest_script; rewrite <- app_assoc; reflexivity|]. apply Q. discriminate.
  - exists (signable_format x), l, (sizes l mod U64). unfold digest_script.
    destruct (snd (cli_digest p C rest base64 ds s a)) as [o|e|].
    + specialize (HF o eq_refl). destruct (da_dump a) as [out|].
      * exists [], []. rewrite app_nil_r. split; [reflexivity|]. split; eauto.
      * destruct o as [t|]; [|exfalso; now apply HF]. exists t, []. rewrite app_nil_r. split; [reflexivity|]. split; eauto.
    + exists []. destruct (da_dump a) as [out|]; eexists; (split; [repeat (rewrite <- ?app_assoc; cbn [app]); reflexivity|]); (split; [intros (o & H); discriminate|discriminate]).
    + exists []. destruct (da_dump a) as [out|]; eexists; (split; [repeat (rewrite <- ?app_assoc; cbn [app]); reflexivity|]); (split; [intros (o & H); discriminate|discriminate]).
Qed.
