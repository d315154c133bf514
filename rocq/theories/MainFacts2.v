(** MainFacts2.v - what the program depends on. *)
From Verif Require Import Base BaseFacts Utils Algorithms Common SchemeV2 SourceStamp Utf8 ElfInfo SigningBlock
  Zip Digest Module Signable Signer Verifier Keystore Elf Cli CliSpec CliFacts CliProps Print InfoPrint SignPrint Main MainSpec MainFacts.
From Coq Require Import Lia.
Open Scope N_scope.

Lemma creds_same L s1 s2 k : Forall (fun q => fs_read s1 q = fs_read s2 q) (key_files k) -> load_credentials L s1 k = load_credentials L s2 k.
Proof.
  unfold key_files. rewrite !Forall_app. intros (H1 & H2 & H3). unfold load_credentials.
  destruct (ka_p12 k) as [p12|].
  - apply Forall_cons_iff in H1. destruct H1 as (H1 & _). destruct (ka_password k); [|reflexivity]. cbn [of_option bind].
    unfold path_str. destruct (utf8_dec p12); [|reflexivity]. cbn [bind]. now rewrite H1.
  - destruct (ka_key k) as [key|]; [|reflexivity]. apply Forall_cons_iff in H2. destruct H2 as (H2 & _).
    destruct (ka_cert k) as [cert|]; [|reflexivity]. apply Forall_cons_iff in H3. destruct H3 as (H3 & _). cbn [of_option bind].
    unfold path_str. destruct (utf8_dec key); [|reflexivity]. destruct (utf8_dec cert); [|reflexivity]. cbn [bind]. now rewrite H2, H3.
Qed.
Lemma signer_same L s1 s2 a : same_inputs s1 s2 (CSign a) -> cli_signer L s1 a = cli_signer L s2 a.
Proof.
  unfold same_inputs. cbn [inputs_of]. intros H. apply Forall_cons_iff in H. destruct H as (_ & H). apply Forall_app in H. destruct H as (H1 & H2).
  unfold cli_signer. now rewrite (creds_same L s1 s2 _ H1), (creds_same L s1 s2 _ H2).
Qed.
Lemma block_same p C L rest clk ds s1 s2 a : same_inputs s1 s2 (CSign a) ->
  cli_sign_block p C L rest clk ds s1 a = cli_sign_block p C L rest clk ds s2 a.
Proof.
  intros H. unfold cli_sign_block. rewrite (signer_same L s1 s2 a H). apply Forall_cons_iff in H. destruct H as (H & _). now rewrite H.
Qed.

(** After the output has been created. *)
Lemma created_same s1 s2 q o f : fs_read s1 q = Some f -> fs_read s2 q = Some f ->
  (fs_file s1 q = fs_file s1 o <-> fs_file s2 q = fs_file s2 o) ->
  fs_read (apply s1 (Truncate (fs_file s1 o))) q = fs_read (apply s2 (Truncate (fs_file s2 o))) q.
Proof.
  intros H1 H2 A.
  assert (R : forall s, fs_read s q = Some f -> fs_can_read s q = true) by (intros s; unfold fs_read; destruct (fs_can_read s q); [reflexivity|discriminate]).
  destruct (N.eq_dec (fs_file s1 q) (fs_file s1 o)) as [E|E].
  - now rewrite !truncate_same by (auto; now apply A).
  - rewrite !truncate_read by (auto; intros X; now apply E, A). congruence.
Qed.

Definition payload (x : step) : option bytes := match x with Truncate _ => None | Append _ b => Some b end.
Definition of_payload (o : N) (b : option bytes) : step := match b with None => Truncate o | Some b => Append o b end.

(** Steps with the same bytes leave the same content. *)
Lemma same_run l : forall s1 s2 o1 o2, fs_data s1 o1 = fs_data s2 o2 ->
  fs_data (run s1 (map (of_payload o1) l)) o1 = fs_data (run s2 (map (of_payload o2) l)) o2.
Proof.
  induction l as [|x l IH]; intros s1 s2 o1 o2 H; [exact H|]. cbn [map run fold_left].
  change (fold_left apply ?l ?s) with (run s l). apply IH. destruct x as [b|]; cbn [of_payload apply]; rewrite !put_get; [now rewrite H|reflexivity].
Qed.
(** Also another file, if it is the same one in both. *)
Lemma same_run_other l : forall s1 s2 o1 o2 i1 i2, fs_data s1 o1 = fs_data s2 o2 -> fs_data s1 i1 = fs_data s2 i2 -> (i1 = o1 <-> i2 = o2) ->
  fs_data (run s1 (map (of_payload o1) l)) i1 = fs_data (run s2 (map (of_payload o2) l)) i2.
Proof.
  intros s1 s2 o1 o2 i1 i2 H G A. destruct (N.eq_dec i1 o1) as [E|E].
  - assert (E2 : i2 = o2) by now apply A. subst. now apply same_run.
  - assert (O : forall s o i, i <> o -> fs_data (run s (map (of_payload o) l)) i = fs_data s i).
    { clear. intros s o i H. revert s. induction l as [|x l IH]; intros s; [reflexivity|]. cbn [map run fold_left].
      change (fold_left apply ?l ?s) with (run s l). rewrite IH. destruct x; apply put_other; auto. }
    rewrite !O; auto. intros X. now apply E, A.
Qed.

Lemma pieces_same : forall fuel s1 s2 i1 i2 o1 o2 pos rem,
  fs_data s1 o1 = fs_data s2 o2 -> fs_data s1 i1 = fs_data s2 i2 -> (i1 = o1 <-> i2 = o2) ->
  exists l r, copy_pieces fuel s1 i1 o1 pos rem = (map (of_payload o1) l, r) /\ copy_pieces fuel s2 i2 o2 pos rem = (map (of_payload o2) l, r).
Proof.
  induction fuel as [|fuel IH]; intros s1 s2 i1 i2 o1 o2 pos rem H G A; cbn [copy_pieces]; destruct (rem =? 0).
  - exists [], (Ok tt). auto.
  - exists [], (Err EFuel). auto.
  - exists [], (Ok tt). auto.
  - cbv zeta. rewrite G. destruct (read_exact_at (now_content (fs_data s2 i2)) pos (N.min rem BUFFER_SIZE)) as [b|e|].
    + destruct (IH (apply s1 (Append o1 b)) (apply s2 (Append o2 b)) i1 i2 o1 o2 (pos + N.min rem BUFFER_SIZE) (rem - N.min rem BUFFER_SIZE)) as (l & r & E1 & E2).
      * exact (same_run [Some b] s1 s2 o1 o2 H).
      * exact (same_run_other [Some b] s1 s2 o1 o2 i1 i2 H G A).
      * exact A.
      * rewrite E1, E2. exists (Some b :: l), r. auto.
    + exists [], (Err e). auto.
    + exists [], Panic. auto.
Qed.
Lemma regions_same p l : forall s1 s2 i1 i2 o1 o2 total,
  fs_data s1 o1 = fs_data s2 o2 -> fs_data s1 i1 = fs_data s2 i2 -> (i1 = o1 <-> i2 = o2) ->
  exists w r, copy_regions p s1 i1 o1 l total = (map (of_payload o1) w, r) /\ copy_regions p s2 i2 o2 l total = (map (of_payload o2) w, r).
Proof.
  induction l as [|g l IH]; intros s1 s2 i1 i2 o1 o2 total H G A; cbn [copy_regions].
  - exists [], (Ok tt). auto.
  - destruct (seek (rg_offset g)) as [u|e|]; [|exists [], (Err e); auto|exists [], Panic; auto].
    assert (F : copy_fuel s1 i1 (rg_size g) = copy_fuel s2 i2 (rg_size g)) by (unfold copy_fuel; now rewrite G).
    rewrite F. destruct (pieces_same (copy_fuel s2 i2 (rg_size g)) s1 s2 i1 i2 o1 o2 (rg_offset g) (rg_size g) H G A) as (w & r & E1 & E2).
    rewrite E1, E2. destruct (do _ <- r; uadd p total (rg_size g)) as [t|e|]; [|exists w, (Err e); auto|exists w, Panic; auto].
    destruct (IH (run s1 (map (of_payload o1) w)) (run s2 (map (of_payload o2) w)) i1 i2 o1 o2 t) as (w' & r' & F1 & F2).
    + now apply same_run.
    + now apply same_run_other.
    + exact A.
    + rewrite F1, F2. exists (w ++ w'), r'. now rewrite !map_app.
Qed.
Lemma dump_same p s1 s2 inp o l f : fs_read s1 inp = Some f -> fs_read s2 inp = Some f -> fs_can_create s1 o = fs_can_create s2 o ->
  (fs_file s1 inp = fs_file s1 o <-> fs_file s2 inp = fs_file s2 o) ->
  exists w r, dump_regions p s1 inp o l = (map (of_payload (fs_file s1 o)) w, r) /\ dump_regions p s2 inp o l = (map (of_payload (fs_file s2 o)) w, r) /\
    (w = [] \/ hd_error w = Some None).
Proof.
  intros H1 H2 Hc A. unfold dump_regions. rewrite H1, H2, Hc. destruct (fs_can_create s2 o); [|exists [], (Err (ECli 6)); auto]. cbv zeta.
  assert (R : forall s, fs_read s inp = Some f -> fs_data s (fs_file s inp) = Some f) by (intros s; unfold fs_read; destruct (fs_can_read s inp); [auto|discriminate]).
  destruct (regions_same p l (apply s1 (Truncate (fs_file s1 o))) (apply s2 (Truncate (fs_file s2 o))) (fs_file s1 inp) (fs_file s2 inp) (fs_file s1 o) (fs_file s2 o) 0)
    as (w & r & E1 & E2).
  - cbn [apply]. now rewrite !put_get.
  - cbn [apply]. destruct (N.eq_dec (fs_file s1 inp) (fs_file s1 o)) as [E|E].
    + assert (E' : fs_file s2 inp = fs_file s2 o) by now apply A. now rewrite E, E', !put_get.
    + rewrite !put_other by (auto; intros X; now apply E, A). now rewrite (R _ H1), (R _ H2).
  - exact A.
  - rewrite E1, E2. exists (None :: w), r. auto.
Qed.

(** Steps that begin with a truncation, and the content they leave. *)
Lemma same_final w s1 s2 o1 o2 : hd_error w = Some None ->
  fs_data (run s1 (map (of_payload o1) w)) o1 = fs_data (run s2 (map (of_payload o2) w)) o2.
Proof.
  destruct w as [|x w]; [discriminate|]. intros [= ->]. cbn [map run fold_left]. change (fold_left apply ?l ?s) with (run s l).
  apply same_run. cbn [of_payload apply]. now rewrite !put_get.
Qed.

Lemma sign_same p C L rest clk ds s1 s2 a : same_inputs s1 s2 (CSign a) -> same_output s1 s2 (CSign a) ->
  exists w r, cli_sign p C L rest clk ds s1 a = (map (of_payload (fs_file s1 (sa_output a))) w, r) /\
    cli_sign p C L rest clk ds s2 a = (map (of_payload (fs_file s2 (sa_output a))) w, r) /\ (w = [] \/ hd_error w = Some None).
Proof.
  intros H O. unfold cli_sign. rewrite (block_same p C L rest clk ds s1 s2 a H).
  destruct (cli_sign_block p C L rest clk ds s2 a) as [(x & b)|e|] eqn:B; [|exists [], (Err e); auto|exists [], Panic; auto].
  destruct (O (sa_output a) eq_refl) as (-> & A). destruct (fs_can_create s2 (sa_output a)); [|exists [], (Err (ECli 6)); auto]. cbv zeta.
  apply Forall_cons_iff in H. destruct H as (H & _). apply Forall_cons_iff in A. destruct A as (A & _).
  apply sign_block_kind in B. destruct B as (f & F & _).
  rewrite (created_same s1 s2 (sa_input a) (sa_output a) f) by (auto; congruence).
  destruct (signable_write p rest x _ b) as (w & r). exists [None; Some w], r. auto.
Qed.
Lemma digest_same p C rest base64 ds s1 s2 a : same_inputs s1 s2 (CDigest a) -> same_output s1 s2 (CDigest a) ->
  exists w r, cli_digest p C rest base64 ds s1 a = (w s1, r) /\ cli_digest p C rest base64 ds s2 a = (w s2, r) /\
    match da_dump a with
    | Some o => exists l, (forall s, w s = map (of_payload (fs_file s o)) l) /\ (l = [] \/ hd_error l = Some None)
    | None => forall s, w s = []
    end.
Proof.
  intros H O. apply Forall_cons_iff in H. destruct H as (H & _). unfold cli_digest. cbv zeta. rewrite H.
  destruct (do x <- signable_open rest (fs_read s2 (da_input a)); _) as [(x & l)|e|] eqn:B.
  - destruct (da_dump a) as [o|] eqn:Da.
    + destruct (O o Da) as (Hc & A). apply Forall_cons_iff in A. destruct A as (A & _).
      assert (F : exists f, fs_read s2 (da_input a) = Some f) by (destruct (fs_read s2 (da_input a)); [eauto|discriminate]).
      destruct F as (f & F). destruct (dump_same p s1 s2 (da_input a) o l f) as (w & r & E1 & E2 & E3); auto; [congruence|].
      rewrite E1, E2. exists (fun s => map (of_payload (fs_file s o)) w), (do _ <- r; Ok None). split; [reflexivity|]. split; [reflexivity|]. eauto.
    + exists (fun _ => []). eexists. split; [reflexivity|]. split; [reflexivity|]. reflexivity.
  - exists (fun _ => []), (Err e). split; [reflexivity|]. split; [reflexivity|]. destruct (da_dump a); [exists []; auto|reflexivity].
  - exists (fun _ => []), Panic. split; [reflexivity|]. split; [reflexivity|]. destruct (da_dump a); [exists []; auto|reflexivity].
Qed.

Lemma roots_same K builtin s1 s2 root : Forall (fun q => fs_read s1 q = fs_read s2 q) (optional root) -> cli_roots K builtin s1 root = cli_roots K builtin s2 root.
Proof. intros H. unfold cli_roots. destruct root as [r|]; [|reflexivity]. apply Forall_cons_iff in H. destruct H as (H & _). now rewrite H. Qed.

Lemma depends W s1 s2 c : same_inputs s1 s2 c -> same_output s1 s2 c ->
  snd (program W s1 c) = snd (program W s2 c) /\
  (fst (program W s1 c) = [] <-> fst (program W s2 c) = []) /\
  forall o, output_of c = Some o -> fst (program W s1 c) <> [] ->
    fs_data (run s1 (fst (program W s1 c))) (fs_file s1 o) = fs_data (run s2 (fst (program W s2 c))) (fs_file s2 o).
Proof.
  intros H O. rewrite !program_execute. cbn [fst snd]. destruct c as [a|file root|file|a]; cbn [execute output_of].
  - destruct (sign_same (w_profile W) (w_crypto W) (w_keys W) (w_rest W) (w_clock W) (w_reads W) s1 s2 a H O) as (w & r & -> & -> & X).
    cbn [fst snd]. split; [reflexivity|]. split; [destruct w; split; intros E; (reflexivity || discriminate)|].
    intros o [= <-] N. destruct X as [->|X]; [now elim N|]. now apply same_final.
  - cbn [fst snd]. split; [|split; [tauto|discriminate]]. f_equal. apply Forall_cons_iff in H. destruct H as (H1 & H2).
    unfold cli_verify. now rewrite H1, (roots_same _ _ _ _ _ H2).
  - cbn [fst snd]. split; [|split; [tauto|discriminate]]. apply Forall_cons_iff in H. destruct H as (H1 & _). unfold cli_info. now rewrite H1.
  - destruct (digest_same (w_profile W) (w_crypto W) (w_rest W) (w_base64 W) (w_reads W) s1 s2 a H O) as (w & r & -> & -> & X).
    cbn [fst snd]. split; [reflexivity|]. destruct (da_dump a) as [o|].
    + destruct X as (l & E & X). rewrite !E. split; [destruct l; split; intros Z; (reflexivity || discriminate)|].
      intros o' [= <-] N. destruct X as [->|X]; [now elim N|]. now apply same_final.
    + rewrite !X. split; [tauto|discriminate].
Qed.
