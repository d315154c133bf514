(** InfoFacts.v - proofs about InfoPrint.v. *)
From Verif Require Import Base BaseFacts Utils Algorithms Common SchemeV2 SourceStamp Utf8 ElfInfo SigningBlock Wire
  Zip Module Signer Verifier VerifySpec ReportSpec ReportFacts FindSpec GrammarFacts Cli CliSpec Print InfoPrint InfoSpec PropVerify PropReport PropIgnored.
From Coq Require Import Lia.
Open Scope N_scope.

(** A successful run, opened up. *)
Definition body (r1 r2 : vres) (b : signing_block) : list isaid :=
  (if nonempty (bk_content b) then IOut IContents :: map info_entry (bk_content b) else []) ++ info_v2 r1 ++ info_stamp r2.

Lemma info_ok p C K builtin now s file f b : fs_read s file = Some f -> len f < U64 ->
  from_reader p f (len f) 0 = Ok b ->
  info_prints p C K builtin now s file =
  ([IOut (IFile file); IOut (IFileSize (len f)); IOut IBlank; IOut IFound; IOut (ILocation (bk_start b) (bk_end b));
    IOut (IBlockSize (bk_size_start b + 8)); IOut IBlank] ++
   body (verify_v2_with_digest C K now (roots_with_builtin K builtin) b None)
        (verify_source_stamp C K now (roots_with_builtin K builtin) b) b, Ok tt).
Proof.
  intros H Hl Hb. unfold info_prints. rewrite H, Hb. cbv zeta.
  apply c69_reader in Hb; [|exact Hl]. destruct Hb as (pre & raw & post & _ & _ & D). destruct D as (_ & D1 & _ & _ & D2 & _).
  assert (E : uadd p (bk_size_start b) 8 = Ok (bk_size_start b + 8)).
  { unfold uadd. destruct p; rewrite (proj2 (N.ltb_lt _ _)) by (unfold U64; lia); reflexivity. }
  rewrite E. unfold body. rewrite <- !app_assoc. reflexivity.
Qed.

Lemma info_inv p C K builtin now s file out : info_prints p C K builtin now s file = (out, Ok tt) ->
  exists f b, fs_read s file = Some f /\ from_reader p f (len f) 0 = Ok b.
Proof.
  unfold info_prints. destruct (fs_read s file) as [f|]; [|discriminate].
  destruct (from_reader p f (len f) 0) as [b|e|] eqn:E; try discriminate. eauto.
Qed.

Lemma info_status p C K builtin now s file : (forall f, fs_read s file = Some f -> len f < U64) ->
  snd (info_prints p C K builtin now s file) = (do _ <- cli_info p C K builtin now s file; Ok tt).
Proof.
  intros H. unfold cli_info. destruct (fs_read s file) as [f|] eqn:E; cbn [of_option bind].
  - destruct (from_reader p f (len f) 0) as [b|e|] eqn:B; cbn [bind].
    + rewrite (info_ok _ _ _ _ _ _ _ _ _ E (H _ eq_refl) B). reflexivity.
    + unfold info_prints. rewrite E, B. reflexivity.
    + unfold info_prints. rewrite E, B. reflexivity.
  - unfold info_prints. rewrite E. reflexivity.
Qed.

Lemma none_v2 r : filter about_entry (info_v2 r) = [].
Proof.
  destruct r as [r|e]; [|reflexivity]. cbn [info_v2]. rewrite !filter_app.
  destruct (vr_cert r); (destruct (nonempty (vr_chain r)); cbn [filter about_entry app]);
    destruct (nonempty (vr_warnings r)); cbn [filter about_entry app];
    repeat match goal with
    | |- context [filter about_entry (map ?g ?l)] =>
        replace (filter about_entry (map g l)) with (@nil isaid)
          by (generalize l; intros l0; induction l0; [reflexivity|cbn [map filter about_entry]; auto])
    end; reflexivity.
Qed.
Lemma none_stamp r : filter about_entry (info_stamp r) = [].
Proof.
  destruct r as [r|e]; [|reflexivity]. cbn [info_stamp]. destruct (vr_signature_valid r); [|reflexivity].
  destruct (vr_cert r); reflexivity.
Qed.
Lemma entries_only l : filter about_entry (map info_entry l) = map info_entry l.
Proof. induction l as [|v l IH]; [reflexivity|]. cbn [map filter]. rewrite IH. destruct v; reflexivity. Qed.

Lemma values_tell l raws : W_list W_value l raws ->
  exists es, raws = map (fun e => pair (fst e) (snd e)) es /\ Forall2 tells es (map info_entry l).
Proof.
  intros H. induction H as [|v raw l raws (body & E & _ & _ & V) H (es & -> & F)]; [exists []; split; constructor|].
  exists ((value_id v, body) :: es). split; [cbn [map fst snd]; now rewrite E|]. cbn [map]. constructor; [|exact F].
  destruct v as [r|v|s|i]; cbn [info_entry tells fst snd value_id].
  - destruct V as (_ & _ & V). split; [reflexivity|exact V].
  - apply V.
  - apply V.
  - destruct V as (V & x & junk & (raws' & _ & -> & _) & ->). split; [exact V|]. exists (concat raws' ++ junk). now rewrite app_assoc.
Qed.

Lemma info_contents p C K builtin now s file f out : fs_read s file = Some f -> len f < U64 ->
  info_prints p C K builtin now s file = (out, Ok tt) ->
  exists pre entries post, f = pre ++ block_bytes entries ++ post /\
    (forall x y, f = x ++ MAGIC ++ y -> len (x ++ MAGIC) <= len (pre ++ block_bytes entries)) /\
    In (IOut (IFileSize (len f))) out /\
    In (IOut (ILocation (len pre) (len (pre ++ block_bytes entries)))) out /\
    In (IOut (IBlockSize (len (block_bytes entries)))) out /\
    Forall2 tells entries (filter about_entry out).
Proof.
  intros Hf Hl H. destruct (info_inv _ _ _ _ _ _ _ _ H) as (f' & b & Hf' & Hb). assert (f' = f) by congruence. subst f'.
  rewrite (info_ok _ _ _ _ _ _ _ _ _ Hf Hl Hb) in H. injection H as <-.
  apply c69_reader in Hb; [|exact Hl]. destruct Hb as (pre & raw & post & (E & _ & L) & _ & (pairs & (raws & W & ->) & Er) & _ & S1 & S2 & S3 & _).
  destruct (values_tell _ _ W) as (es & -> & T). rewrite N.sub_0_r in L.
  exists pre, es, post. unfold block_bytes. rewrite <- Er. split; [exact E|]. split.
  { intros x y X. apply (L x y X). rewrite X, (app_assoc x), (len_app _ y). lia. }
  split; [cbn; tauto|]. split; [rewrite S1, S2, len_app; cbn; tauto|]. split; [rewrite S3; cbn; tauto|].
  cbn [app filter about_entry]. unfold body. rewrite !filter_app, none_v2, none_stamp, !app_nil_r.
  destruct (bk_content b) as [|v l]; [exact T|]. cbn [nonempty filter about_entry]. now rewrite entries_only.
Qed.

(** ** Values of the fields *)
Lemma v2_no_digest C K now roots b x : In (IOut (IField FDigest x)) (info_v2 (verify_v2_with_digest C K now roots b None)) -> x = false.
Proof.
  destruct (verify_v2_with_digest C K now roots b None) as [r|e] eqn:E; cbn [info_v2].
  - destruct (C43_v2 _ _ _ _ _ _ E) as [D _]. rewrite D. rewrite !in_app_iff. intros [H|[H|[H|H]]].
    + cbn in H. destruct H as [H|[H|[H|[H|[H|[H|[]]]]]]]; congruence.
    + destruct (vr_cert r); [destruct H as [H|[]]; congruence|destruct H].
    + destruct (nonempty (vr_chain r)); destruct H as [H|H]; try congruence; [|destruct H].
      apply in_map_iff in H as (? & H & _). congruence.
    + destruct (nonempty (vr_warnings r)); [|destruct H]. destruct H as [H|H]; [congruence|].
      apply in_map_iff in H as (? & H & _). congruence.
  - cbn. intros [H|[H|[]]]; congruence.
Qed.
Lemma stamp_no_digest r x : ~ In (IOut (IField FDigest x)) (info_stamp r).
Proof.
  destruct r as [r|e]; cbn [info_stamp]; [|intros []]. destruct (vr_signature_valid r); [|intros []].
  rewrite in_app_iff. intros [H|H]; [cbn in H; intuition congruence|]. destruct (vr_cert r); [destruct H as [H|[]]; congruence|destruct H].
Qed.

Lemma info_no_integrity p C K builtin now s file : ~ In (IOut (IField FDigest true)) (fst (info_prints p C K builtin now s file)).
Proof.
  unfold info_prints. destruct (fs_read s file) as [f|]; [|intros []].
  destruct (from_reader p f (len f) 0) as [b|e|]; [|cbn; intuition congruence|cbn; intuition congruence]. cbv zeta.
  destruct (uadd p (bk_size_start b) 8) as [n|e|]; [|cbn; intuition congruence|cbn; intuition congruence].
  cbn [fst]. rewrite !in_app_iff. intros [[H|H]|[H|[H|[H|H]]]]; try (cbn in H; intuition congruence).
  - destruct (nonempty (bk_content b)); [|destruct H]. destruct H as [H|H]; [congruence|].
    apply in_map_iff in H as (v & H & _). destruct v; discriminate H.
  - apply v2_no_digest in H. discriminate.
  - now apply stamp_no_digest in H.
Qed.

(** ** Sections *)
Lemma split_unique {A} (x : A) h t a b : ~ In x h -> ~ In x t -> h ++ x :: t = a ++ x :: b -> h = a /\ t = b.
Proof.
  revert a. induction h as [|y h IH]; intros [|z a] Hh Ht E; cbn [app] in E.
  - injection E as ->. auto.
  - injection E as -> ->. exfalso. apply Ht. apply in_app_iff. right. now left.
  - injection E as -> _. exfalso. apply Hh. now left.
  - injection E as -> E. destruct (IH a) as [-> ->]; auto. intros H. apply Hh. now right.
Qed.

Definition v2_rest (r : verify_result) : list isaid :=
  match vr_cert r with Some c => [IOut (ILeaf c)] | None => [] end ++
  (if nonempty (vr_chain r) then
     IOut (IChain (len (vr_chain r))) :: map (fun e => IOut (IChainCert (fst e) (snd e))) (numbered 0 (vr_chain r))
   else [IOut INoChain]) ++
  (if nonempty (vr_warnings r) then
     IOut IWarnings :: map (fun w => IOut (IWarning (fst w) (snd w))) (vr_warnings r)
   else []).
Definition v2_fields (r : verify_result) : list isaid :=
  [IOut (IField FSignature (vr_signature_valid r)); IOut (IField FDigest (vr_digest_valid r));
   IOut (IField FChain (vr_chain_valid r)); IOut (IField FTrusted (vr_trusted r))].
Definition heading (x : isaid) : Prop := x = IOut IV2Details \/ x = IOut IStampDetails.

Lemma v2_rest_plain r x : heading x -> ~ In x (v2_rest r).
Proof.
  intros Hx H. unfold v2_rest in H. apply in_app_iff in H as [H|H]; [|apply in_app_iff in H as [H|H]].
  - destruct (vr_cert r); [destruct H as [H|[]]; destruct Hx; congruence|destruct H].
  - destruct (nonempty (vr_chain r)); destruct H as [H|H]; try (destruct Hx; congruence); [|destruct H].
    apply in_map_iff in H as (? & H & _). destruct Hx; congruence.
  - destruct (nonempty (vr_warnings r)); [|destruct H]. destruct H as [H|H]; [destruct Hx; congruence|].
    apply in_map_iff in H as (? & H & _). destruct Hx; congruence.
Qed.
Lemma v2_fields_plain r x : heading x -> ~ In x (v2_fields r).
Proof. intros Hx H. cbn in H. destruct H as [H|[H|[H|[H|[]]]]]; destruct Hx; congruence. Qed.

Definition front (file : Cli.path) (f : bytes) (b : signing_block) : list isaid :=
  [IOut (IFile file); IOut (IFileSize (len f)); IOut IBlank; IOut IFound; IOut (ILocation (bk_start b) (bk_end b));
   IOut (IBlockSize (bk_size_start b + 8)); IOut IBlank] ++
  (if nonempty (bk_content b) then IOut IContents :: map info_entry (bk_content b) else []).
Lemma front_plain file f b x : heading x -> ~ In x (front file f b).
Proof.
  intros Hx H. unfold front in H. apply in_app_iff in H as [H|H].
  - cbn in H. destruct H as [H|[H|[H|[H|[H|[H|[H|[]]]]]]]]; destruct Hx; congruence.
  - destruct (nonempty (bk_content b)); [|destruct H]. destruct H as [H|H]; [destruct Hx; congruence|].
    apply in_map_iff in H as (v & H & _). destruct v, Hx; subst x; cbn in H; discriminate H.
Qed.
Lemma info_stamp_no_v2 r : ~ In (IOut IV2Details) (info_stamp r).
Proof.
  destruct r as [r|e]; cbn [info_stamp]; [|intros []]. destruct (vr_signature_valid r); [|intros []].
  rewrite in_app_iff. intros [H|H]; [cbn in H; intuition congruence|]. destruct (vr_cert r); [destruct H as [H|[]]; congruence|destruct H].
Qed.
Lemma info_v2_no_stamp r : ~ In (IOut IStampDetails) (info_v2 r).
Proof.
  destruct r as [r|e]; [|cbn; intuition congruence].
  change (info_v2 (VOk r)) with ([IOut IBlank; IOut IV2Details] ++ v2_fields r ++ v2_rest r).
  rewrite !in_app_iff. intros [H|[H|H]]; [cbn in H; intuition congruence| |].
  - revert H. apply v2_fields_plain. now right.
  - revert H. apply v2_rest_plain. now right.
Qed.

Lemma v2_section_iff file f b r1 r2 sg dg ch tr :
  v2_section (front file f b ++ info_v2 r1 ++ info_stamp r2) sg dg ch tr <->
  exists r, r1 = VOk r /\ vr_signature_valid r = sg /\ vr_digest_valid r = dg /\ vr_chain_valid r = ch /\ vr_trusted r = tr.
Proof.
  destruct r1 as [r|e].
  - assert (E : front file f b ++ info_v2 (VOk r) ++ info_stamp r2 =
               (front file f b ++ [IOut IBlank]) ++ IOut IV2Details :: (v2_fields r ++ v2_rest r ++ info_stamp r2)).
    { change (info_v2 (VOk r)) with ([IOut IBlank; IOut IV2Details] ++ v2_fields r ++ v2_rest r).
      rewrite <- !app_assoc. reflexivity. }
    rewrite E. split.
    + intros (a & c & H). cbn [app] in H. apply split_unique in H as [_ H].
      * unfold v2_fields in H. cbn [app] in H. injection H as H1 H2 H3 H4 _. exists r. auto.
      * rewrite in_app_iff. intros [H0|H0]; [revert H0; apply front_plain; now left|cbn in H0; intuition congruence].
      * rewrite !in_app_iff. intros [H0|[H0|H0]]; [revert H0; apply v2_fields_plain; now left|revert H0; apply v2_rest_plain; now left|].
        now apply info_stamp_no_v2 in H0.
    + intros (r' & R & <- & <- & <- & <-). injection R as <-.
      exists (front file f b ++ [IOut IBlank]), (v2_rest r ++ info_stamp r2). reflexivity.
  - split; [|intros (r & R & _); discriminate]. intros (a & c & H). exfalso.
    assert (I : In (IOut IV2Details) (front file f b ++ info_v2 (VErr e) ++ info_stamp r2)).
    { rewrite H. apply in_app_iff. right. now left. }
    apply in_app_iff in I as [I|I]; [revert I; apply front_plain; now left|].
    apply in_app_iff in I as [I|I]; [cbn in I; intuition congruence|now apply info_stamp_no_v2 in I].
Qed.

Lemma stamp_section_iff file f b r1 r2 sg ch tr :
  stamp_section (front file f b ++ info_v2 r1 ++ info_stamp r2) sg ch tr <->
  exists r, r2 = VOk r /\ vr_signature_valid r = true /\ sg = true /\ vr_chain_valid r = ch /\ vr_trusted r = tr.
Proof.
  assert (N : ~ In (IOut IStampDetails) (front file f b ++ info_v2 r1)).
  { rewrite in_app_iff. intros [I|I]; [revert I; apply front_plain; now right|now apply info_v2_no_stamp in I]. }
  destruct (match r2 with VOk r => vr_signature_valid r | VErr _ => false end) eqn:V.
  - destruct r2 as [r|e]; [|discriminate].
    set (c := match vr_cert r with Some c => [IOut (IStampCert c)] | None => [] end).
    assert (E : front file f b ++ info_v2 r1 ++ info_stamp (VOk r) =
      ((front file f b ++ info_v2 r1) ++ [IOut IBlank]) ++ IOut IStampDetails ::
        ([IOut (IField FSignature (vr_signature_valid r)); IOut (IField FChain (vr_chain_valid r)); IOut (IField FTrusted (vr_trusted r))] ++ c)).
    { cbn [info_stamp]. rewrite V. rewrite <- !app_assoc. reflexivity. }
    rewrite E. split.
    + intros (a & d & H). cbn [app] in H. apply split_unique in H as [_ H].
      * injection H as H1 H2 H3 _. exists r. rewrite V in H1. auto.
      * rewrite in_app_iff. intros [H0|H0]; [now apply N|cbn in H0; intuition congruence].
      * cbn [In]. unfold c. destruct (vr_cert r); cbn; intuition congruence.
    + intros (r' & R & V' & -> & <- & <-). injection R as <-.
      exists ((front file f b ++ info_v2 r1) ++ [IOut IBlank]), c. rewrite V. reflexivity.
  - assert (E : info_stamp r2 = []). { destruct r2 as [r|e]; [cbn [info_stamp]; now rewrite V|reflexivity]. }
    rewrite E, app_nil_r. split.
    + intros (a & d & H). exfalso. apply N. rewrite H. apply in_app_iff. right. now left.
    + intros (r & -> & V' & _). congruence.
Qed.

Lemma info_sections p C K builtin now s file f b out : fs_read s file = Some f -> len f < U64 ->
  from_reader p f (len f) 0 = Ok b -> info_prints p C K builtin now s file = (out, Ok tt) ->
  out = front file f b ++ info_v2 (verify_v2_with_digest C K now (roots_with_builtin K builtin) b None) ++
        info_stamp (verify_source_stamp C K now (roots_with_builtin K builtin) b).
Proof.
  intros Hf Hl Hb H. rewrite (info_ok _ _ _ _ _ _ _ _ _ Hf Hl Hb) in H. injection H as <-. unfold front, body.
  rewrite <- !app_assoc. reflexivity.
Qed.

Lemma builtin_given K builtin s roots : roots_given K builtin s None roots -> roots_with_builtin K builtin = configured K roots.
Proof.
  intros H. rewrite C47_builtin_roots. cbn [roots_given] in H.
  destruct (pem_parse K builtin) as [[tag cert]|]; [|now subst]. destruct (beq tag CERTIFICATE_TAG); now subst.
Qed.

Lemma certificate_trusted K now roots certs use r note : certificate_entry K now roots certs use r note ->
  (sr_trusted r = true <-> exists leaf rest, map ct_data certs = leaf :: rest /\ trusted K now roots leaf (use rest)).
Proof.
  unfold certificate_entry. destruct (map ct_data certs) as [|leaf rest].
  - intros (_ & _ & _ & -> & _). split; [discriminate|]. intros (? & ? & E & _). discriminate.
  - intros (_ & _ & T & _). rewrite T. split; [eauto|]. intros (l & rs & E & H). injection E as <- <-. exact H.
Qed.

Lemma Forall_Forall2 {A B} (P : A -> Prop) (Q : B -> Prop) l m :
  Forall2 (fun a b => Q b <-> P a) l m -> (Forall Q m <-> Forall P l).
Proof.
  intros H. induction H as [|a b l m E H IH]; [split; constructor|].
  rewrite !Forall_cons_iff, E, IH. reflexivity.
Qed.

Lemma numbered_snd b : map snd (numbered_signers b) = v2_signers_of b.
Proof.
  unfold numbered_signers, v2_signers_of. induction (bk_content b) as [|v l IH]; [reflexivity|].
  cbn [flat_map]. rewrite map_app, IH. f_equal. destruct v as [r|v|s|i]; try reflexivity.
  generalize (sns_data (v2_signers v)). intros ss. generalize 0%nat. induction ss as [|x ss IH2]; intros n; [reflexivity|].
  cbn [seq map List.length combine snd]. now rewrite IH2.
Qed.

Lemma info_v2_section p C K builtin now s file f b out roots : fs_read s file = Some f -> len f < U64 ->
  from_reader p f (len f) 0 = Ok b -> info_prints p C K builtin now s file = (out, Ok tt) ->
  roots_given K builtin s None roots ->
  ((exists sg dg ch tr, v2_section out sg dg ch tr) <->
   v2_signers_of b <> [] /\ Forall (fun s => v2_failure C K None s None) (v2_signers_of b)) /\
  forall sg dg ch tr, v2_section out sg dg ch tr ->
    dg = false /\
    (sg = true <-> Forall (fun s =>
       Forall (fun g => accepted C (sg_algo g) (pk_data (sn_key s)) (v2_message s) (sg_data g) /\
                        ~ no_digest (dgs_data (sd_digests (sn_data s))) (sg_algo g)) (sgs_data (sn_sigs s))) (v2_signers_of b)) /\
    (tr = true <-> Forall (fun s => exists leaf rest, map ct_data (cts_data (sd_certs (sn_data s))) = leaf :: rest /\
       trusted K now roots leaf rest) (v2_signers_of b)).
Proof.
  intros Hf Hl Hb H Hr. rewrite (info_sections _ _ _ _ _ _ _ _ _ _ Hf Hl Hb H). rewrite (builtin_given _ _ _ _ Hr). split.
  - rewrite <- (C72_report_iff C K now (configured K roots)). split.
    + intros (sg & dg & ch & tr & V). apply v2_section_iff in V as (r & R & _). eauto.
    + intros (r & R). exists (vr_signature_valid r), (vr_digest_valid r), (vr_chain_valid r), (vr_trusted r).
      apply v2_section_iff. exists r. auto.
  - intros sg dg ch tr V. apply v2_section_iff in V as (r & R & <- & <- & <- & <-).
    split; [exact (proj1 (C43_v2 _ _ _ _ _ _ R))|].
    destruct (C72_report _ _ _ _ _ _ _ R) as (F & _ & S1 & _ & _ & S4 & _). rewrite S1, S4. split.
    + pose proof (C45_exact _ _ _ _ _ _ _ R) as F'. apply Forall_Forall2. cbv zeta in F'.
      clear - F'. induction F' as [|x y l m [E _] F' IH]; constructor; auto.
    + rewrite <- numbered_snd. rewrite Forall_map. apply Forall_Forall2.
      clear - F. induction F as [|x y l m E F IH]; constructor; auto.
      destruct E as (_ & _ & good & why & note & _ & _ & _ & CE & _). exact (certificate_trusted _ _ _ _ _ _ _ CE).
Qed.

Lemma info_stamp_section p C K builtin now s file f b out roots : fs_read s file = Some f -> len f < U64 ->
  from_reader p f (len f) 0 = Ok b -> info_prints p C K builtin now s file = (out, Ok tt) ->
  roots_given K builtin s None roots ->
  ((exists sg ch tr, stamp_section out sg ch tr) <->
   exists x rest, stamps_of b = x :: rest /\ stamp_failure C K None x None) /\
  forall sg ch tr, stamp_section out sg ch tr ->
    sg = true /\ exists x others, stamps_of b = x :: others /\
    Forall (fun g => accepted C (sg_algo g) (pk_data (sb_key x)) (stamp_message x) (sg_data g)) (sgs_data (sb_sigs x)) /\
    (tr = true <-> exists leaf rest, map ct_data (cts_data (st_certs (sb_data x))) = leaf :: rest /\
       trusted K now roots leaf []).
Proof.
  intros Hf Hl Hb H Hr. rewrite (info_sections _ _ _ _ _ _ _ _ _ _ Hf Hl Hb H). rewrite (builtin_given _ _ _ _ Hr).
  unfold verify_source_stamp. split.
  - rewrite <- (C72_stamp_report_iff C K now (configured K roots)). split.
    + intros (sg & ch & tr & V). apply stamp_section_iff in V as (r & R & _). eauto.
    + intros (r & R). exists true, (vr_chain_valid r), (vr_trusted r). apply stamp_section_iff. exists r.
      destruct (C45_stamp_exact _ _ _ _ _ _ _ R) as (x & rest & _ & V & _). auto.
  - intros sg ch tr V. apply stamp_section_iff in V as (r & R & V & -> & <- & <-). split; [reflexivity|].
    destruct (C45_stamp_exact _ _ _ _ _ _ _ R) as (x & rest & S & _ & A & _).
    exists x, rest. split; [exact S|]. split; [exact A|].
    destruct (C72_stamp_report _ _ _ _ _ _ _ R) as (x' & rest' & e & S' & E & T & _ & _ & _ & _ & S4 & _).
    assert (x' = x) by congruence. subst x'. rewrite S4, E. rewrite Forall_cons_iff.
    destruct T as (_ & _ & _ & _ & about & note & _ & CE & _). rewrite <- (certificate_trusted _ _ _ _ _ _ _ CE). intuition.
Qed.

(** ** The file around the block does not matter *)
Lemma denotes_u8 p b st raw : denotes b st raw -> len raw < U64 -> from_u8 p raw = Ok (with_offsets b 0 (len raw)).
Proof.
  intros D L. apply c69_slice; [exact L|]. exists [], raw, []. split.
  - split; [now rewrite app_nil_r|]. split; [cbn [app]; lia|]. cbn [app]. auto.
  - destruct D as (D1 & D2 & D3 & D4 & D5 & D6 & D7 & D8). unfold denotes, with_offsets. cbn.
    split; [exact D1|]. repeat split; auto; lia.
Qed.

Lemma denotes_content b1 b2 s1 s2 raw : denotes b1 s1 raw -> denotes b2 s2 raw ->
  bk_content b1 = bk_content b2 /\ bk_size_start b1 = bk_size_start b2.
Proof.
  intros D1 D2. assert (L : len raw < U64) by (destruct D1 as (_ & L & _); unfold U64; lia).
  pose proof (denotes_u8 Release _ _ _ D1 L) as E1. pose proof (denotes_u8 Release _ _ _ D2 L) as E2.
  rewrite E1 in E2. injection E2. auto.
Qed.

Lemma info_block_only p q C K builtin now s1 s2 file1 file2 f1 f2 pre1 pre2 post1 post2 raw out1 out2 :
  fs_read s1 file1 = Some f1 -> fs_read s2 file2 = Some f2 -> len f1 < U64 -> len f2 < U64 ->
  info_prints p C K builtin now s1 file1 = (out1, Ok tt) -> info_prints q C K builtin now s2 file2 = (out2, Ok tt) ->
  f1 = pre1 ++ raw ++ post1 -> f2 = pre2 ++ raw ++ post2 ->
  In (IOut (ILocation (len pre1) (len (pre1 ++ raw)))) out1 ->
  In (IOut (ILocation (len pre2) (len (pre2 ++ raw)))) out2 ->
  filter (fun x => negb (about_file x)) out1 = filter (fun x => negb (about_file x)) out2.
Proof.
  intros R1 R2 L1 L2 H1 H2 F1 F2 I1 I2.
  assert (X : forall p s file f pre post out, fs_read s file = Some f -> len f < U64 ->
     info_prints p C K builtin now s file = (out, Ok tt) -> f = pre ++ raw ++ post ->
     In (IOut (ILocation (len pre) (len (pre ++ raw)))) out ->
     exists b, denotes b (len pre) raw /\
       out = front file f b ++ info_v2 (verify_v2_with_digest C K now (roots_with_builtin K builtin) b None) ++
             info_stamp (verify_source_stamp C K now (roots_with_builtin K builtin) b)).
  { clear. intros p s file f pre post out R L H F I. destruct (info_inv _ _ _ _ _ _ _ _ H) as (f' & b & R' & B).
    assert (f' = f) by congruence. subst f'. pose proof (info_sections _ _ _ _ _ _ _ _ _ _ R L B H) as E.
    exists b. split; [|exact E]. apply c69_reader in B; [|exact L]. destruct B as (pre' & raw' & post' & (F' & _) & _ & D).
    assert (Q : len pre = bk_start b /\ len (pre ++ raw) = bk_end b).
    { rewrite E in I. clear - I. apply in_app_iff in I as [I|I].
      - unfold front in I. apply in_app_iff in I as [I|I].
        + cbn in I. destruct I as [I|[I|[I|[I|[I|[I|[I|[]]]]]]]]; try discriminate I. injection I. auto.
        + destruct (nonempty (bk_content b)); [|destruct I]. destruct I as [I|I]; [discriminate|].
          apply in_map_iff in I as (v & I & _). destruct v; discriminate I.
      - exfalso. apply in_app_iff in I as [I|I].
        + match type of I with In _ (info_v2 ?rr) => destruct rr as [r|e] end; [|cbn in I; intuition congruence].
          cbn [info_v2] in I. rewrite !in_app_iff in I. destruct I as [I|[I|[I|I]]].
          * cbn in I. intuition congruence.
          * destruct (vr_cert r); [destruct I as [I|[]]; congruence|destruct I].
          * destruct (nonempty (vr_chain r)); destruct I as [I|I]; try congruence; [|destruct I].
            apply in_map_iff in I as (? & I & _). congruence.
          * destruct (nonempty (vr_warnings r)); [|destruct I]. destruct I as [I|I]; [congruence|].
            apply in_map_iff in I as (? & I & _). congruence.
        + match type of I with In _ (info_stamp ?rr) => destruct rr as [r|e] end; [|destruct I].
          cbn [info_stamp] in I. destruct (vr_signature_valid r); [|destruct I].
          apply in_app_iff in I as [I|I]; [cbn in I; intuition congruence|]. destruct (vr_cert r); [destruct I as [I|[]]; congruence|destruct I]. }
    destruct Q as [Q1 Q2]. destruct D as (D1 & D2 & D3 & D4 & D5). rewrite D3 in Q1. rewrite D4, len_app in Q2.
    assert (pre' = pre /\ raw' = raw).
    { rewrite F in F'. symmetry in F'. apply app_inj_len in F' as [-> F']; [|lia]. apply app_inj_len in F' as [-> _]; [auto|lia]. }
    destruct H0 as [-> ->]. unfold denotes. auto. }
  destruct (X _ _ _ _ _ _ _ R1 L1 H1 F1 I1) as (b1 & D1 & ->). destruct (X _ _ _ _ _ _ _ R2 L2 H2 F2 I2) as (b2 & D2 & ->).
  destruct (denotes_content _ _ _ _ _ D1 D2) as [E1 E2].
  assert (V : forall b, bk_content b = bk_content b1 ->
    verify_v2_with_digest C K now (roots_with_builtin K builtin) b None = verify_v2_with_digest C K now (roots_with_builtin K builtin) b1 None /\
    verify_source_stamp C K now (roots_with_builtin K builtin) b = verify_source_stamp C K now (roots_with_builtin K builtin) b1).
  { intros b E. unfold verify_v2_with_digest, verify_source_stamp, verify_source_stamp_with_digest. now rewrite E. }
  destruct (V b2 (eq_sym E1)) as [-> ->]. rewrite !filter_app. f_equal. unfold front. rewrite E1, E2. rewrite !filter_app.
  f_equal.
Qed.
