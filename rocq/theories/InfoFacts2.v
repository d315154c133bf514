(** InfoFacts2.v - every line of the info command and when it is printed. *)
From Verif Require Import Base BaseFacts Utils Algorithms Common SchemeV2 SourceStamp ElfInfo SigningBlock Wire
  Module Signer Verifier Cli Print PrintSpec PrintFacts2 InfoPrint InfoSpec InfoFacts.
From Coq Require Import Lia.
Open Scope N_scope.

Lemma in_entries l x : In x (map info_entry l) <->
  (exists v, In (V2Block v) l /\ x = IOut IV2) \/ (exists v, In (StampBlk v) l /\ x = IOut IStamp) \/
  (exists v, In (ElfBlock v) l /\ x = IOut (IElf (ei_count v))) \/ (exists v, In (BaseBlock v) l /\ x = IOut (IUnknown (rw_id v))).
Proof.
  rewrite in_map_iff. split.
  - intros (v & <- & H). destruct v as [r|v|s|i]; cbn [info_entry]; eauto 8.
  - intros [(v & H & ->)|[(v & H & ->)|[(v & H & ->)|(v & H & ->)]]]; eexists; (split; [|exact H]); reflexivity.
Qed.

Lemma nonempty_iff {A} (l : list A) : nonempty l = true <-> l <> [].
Proof. destruct l; split; intros H; try discriminate; try reflexivity. contradiction. Qed.

Lemma in_if {A} (c : bool) (x : A) a b : In x (if c then a else b) <-> (c = true /\ In x a) \/ (c = false /\ In x b).
Proof. destruct c; intuition discriminate. Qed.

Lemma in_option {A B} (g : A -> B) o x : In x (match o with Some c => [g c] | None => [] end) <-> exists c, o = Some c /\ x = g c.
Proof.
  destruct o as [c|]; cbn [In]; split.
  - intros [H|[]]. eauto.
  - intros (d & H & ->). injection H as ->. now left.
  - intros [].
  - intros (d & H & _). discriminate.
Qed.

Lemma in_v2 r x : In x (info_v2 r) <->
  x = IOut IBlank \/ (exists e, r = VErr e /\ x = IOut (IUnavailable e)) \/
  exists v, r = VOk v /\
   (x = IOut IV2Details \/ (exists f, x = IOut (IField f (reported f v))) \/ (exists c, vr_cert v = Some c /\ x = IOut (ILeaf c)) \/
    (vr_chain v <> [] /\ x = IOut (IChain (len (vr_chain v)))) \/
    (exists i c, nth_error (vr_chain v) i = Some c /\ x = IOut (IChainCert (N.of_nat i) c)) \/
    (vr_chain v = [] /\ x = IOut INoChain) \/
    (vr_warnings v <> [] /\ x = IOut IWarnings) \/
    (exists n w, In (n, w) (vr_warnings v) /\ x = IOut (IWarning n w))).
Proof.
  destruct r as [v|e]; cbn [info_v2].
  2:{ cbn [In]. split.
      - intros [<-|[<-|[]]]; [now left|right; left; eauto].
      - intros [->|[(d & E & ->)|(d & E & _)]]; [now left|injection E as ->; right; now left|discriminate]. }
  rewrite !in_app_iff, (in_option (fun c => IOut (ILeaf c))), !in_if. cbn [In]. split.
  - intros [H|[H|[H|H]]].
    + decompose [or] H; try contradiction; subst x; auto; right; right; exists v; split; auto; right; left;
        [exists FSignature|exists FDigest|exists FChain|exists FTrusted]; reflexivity.
    + destruct H as (c & E & ->). right; right. exists v. split; [reflexivity|]. eauto 6.
    + right; right. exists v. split; [reflexivity|]. destruct H as [(N & H)|(N & H)].
      * apply nonempty_iff in N. destruct H as [<-|H]; [auto 6|]. apply in_map_iff in H. destruct H as ((k & c) & <- & H).
        apply in_numbered in H. destruct H as (j & -> & H). cbn [fst snd]. do 4 right. left. exists j, c. split; [exact H|].
        now rewrite N.add_0_l.
      * destruct H as [<-|[]]. do 5 right. left. split; [|reflexivity]. destruct (vr_chain v); [reflexivity|discriminate].
    + right; right. exists v. split; [reflexivity|]. destruct H as [(N & [<-|H])|(_ & [])].
      * apply nonempty_iff in N. auto 10.
      * apply in_map_iff in H. destruct H as ((k & w) & <- & H). do 7 right. exists k, w. split; [exact H|reflexivity].
  - intros [->|[(d & E & _)|(v' & E & H)]]; [auto|discriminate|]. injection E as <-.
    destruct H as [->|[(f & ->)|[(c & E & ->)|[(N & ->)|[(i & c & E & ->)|[(N & ->)|[(N & ->)|(n & w & E & ->)]]]]]]].
    + auto.
    + left. destruct f; cbn [reported]; auto 8.
    + eauto 6.
    + right; right; left. left. split; [now apply nonempty_iff|now left].
    + right; right; left. left. split; [apply nonempty_iff; intros N; rewrite N in E; destruct i; discriminate|right].
      apply in_map_iff. exists (N.of_nat i, c). split; [reflexivity|]. apply in_numbered. exists i. split; [lia|exact E].
    + right; right; left. right. rewrite N. split; [reflexivity|now left].
    + right; right; right. left. split; [now apply nonempty_iff|now left].
    + right; right; right. left. split; [apply nonempty_iff; intros N; rewrite N in E; destruct E|right].
      apply in_map_iff. exists (n, w). split; [reflexivity|exact E].
Qed.

Lemma in_stamp r x : In x (info_stamp r) <->
  exists v, r = VOk v /\ vr_signature_valid v = true /\
   (x = IOut IBlank \/ x = IOut IStampDetails \/ (exists f, f <> FDigest /\ x = IOut (IField f (reported f v))) \/
    (exists c, vr_cert v = Some c /\ x = IOut (IStampCert c))).
Proof.
  destruct r as [v|e]; cbn [info_stamp]; [|split; [intros []|intros (v & E & _); discriminate]].
  destruct (vr_signature_valid v) eqn:S; [|split; [intros []|intros (v' & E & S' & _); injection E as <-; congruence]].
  rewrite in_app_iff, (in_option (fun c => IOut (IStampCert c))). cbn [In]. split.
  - intros H. exists v. split; [reflexivity|]. split; [exact S|]. destruct H as [H|H]; [|auto].
    decompose [or] H; try contradiction; subst x; auto; right; right; left;
      [exists FSignature|exists FChain|exists FTrusted]; (split; [discriminate|cbn [reported]; congruence]).
  - intros (v' & E & _ & H). injection E as <-. destruct H as [->|[->|[(f & D & ->)|H]]]; auto.
    left. destruct f; cbn [reported]; rewrite ?S; auto 8.
Qed.

Theorem info_lines p C K builtin now s file x : (forall f, fs_read s file = Some f -> len f < U64) ->
  In x (fst (info_prints p C K builtin now s file)) <-> info_line p C K builtin now s file x.
Proof.
  intros Hl. unfold info_line. destruct (fs_read s file) as [f|] eqn:F.
  2:{ unfold info_prints. rewrite F. cbn [fst In]. split; [intros []|intros (f & E & _); discriminate]. }
  specialize (Hl f eq_refl). destruct (from_reader p f (len f) 0) as [b|e|] eqn:B.
  - rewrite (info_ok _ _ _ _ _ _ _ _ _ F Hl B). cbn [fst]. unfold body. rewrite !in_app_iff, in_v2, in_stamp, in_if.
    cbn [In]. rewrite in_entries. split.
    + intros H. exists f. split; [reflexivity|]. rewrite B.
      destruct H as [H|[H|[H|H]]].
      * decompose [or] H; try contradiction; subst x; auto; do 4 right; exists b; (split; [reflexivity|constructor]).
      * destruct H as [(N & H)|(_ & [])]. apply nonempty_iff in N. do 4 right. exists b. split; [reflexivity|].
        destruct H as [<-|[(v & H & ->)|[(v & H & ->)|[(v & H & ->)|(v & H & ->)]]]]; econstructor; eauto.
      * destruct H as [->|[(e & E & ->)|(v & E & H)]]; [auto|do 4 right; exists b; split; [reflexivity|now constructor]|].
        do 4 right. exists b. split; [reflexivity|].
        destruct H as [->|[(g & ->)|[(c & G & ->)|[(N & ->)|[(i & c & G & ->)|[(N & ->)|[(N & ->)|(n & w & G & ->)]]]]]]];
          solve [econstructor; eauto].
      * destruct H as (v & E & S & H). destruct H as [->|H]; [auto|]. do 4 right. exists b. split; [reflexivity|].
        destruct H as [->|[(g & D & ->)|(c & G & ->)]]; [eapply bl_stamp_details|eapply bl_stamp_field|eapply bl_stamp_cert]; eauto.
    + intros (f' & E & H). injection E as <-. rewrite B in H.
      destruct H as [->|[->|[->|[(e & E & _)|(b' & E & H)]]]]; [auto 9|auto 9|auto 9|discriminate|]. injection E as <-.
      assert (NE : forall v, In v (bk_content b) -> nonempty (bk_content b) = true).
      { intros v H0. apply nonempty_iff. intros E. rewrite E in H0. destruct H0. }
      inversion H; subst x;
        try (left; solve [auto 9]);
        try (right; left; left; split; [solve [eauto | now apply nonempty_iff]|solve [auto | eauto 8]]);
        try (right; right; left; solve [eauto 6 | right; right; eexists; split; [eassumption|eauto 12]]);
        try (right; right; right; eexists; split; [eassumption|]; split; [assumption|]; solve [eauto 8]).
  - unfold info_prints. rewrite F, B. cbn [fst In app]. split.
    + intros H. exists f. split; [reflexivity|]. rewrite B. decompose [or] H; try contradiction; subst x; auto; right; right; right; left; eauto.
    + intros (f' & E & H). injection E as <-. rewrite B in H.
      destruct H as [->|[->|[->|[(d & E & H)|(b' & E & H)]]]]; [auto 9|auto 9|auto 9| |discriminate]. injection E as <-.
      destruct H as [->| ->]; auto 9.
  - unfold info_prints. rewrite F, B. cbn [fst In app]. split.
    + intros H. exists f. split; [reflexivity|]. decompose [or] H; try contradiction; subst x; auto.
    + intros (f' & E & H). injection E as <-. rewrite B in H.
      destruct H as [->|[->|[->|[(d & E & H)|(b' & E & H)]]]]; auto 9; discriminate.
Qed.
