(** TextFacts4.v - the text of the whole program. *)
From Coq Require Import Strings.String Lia Sorting.Permutation.
From Verif Require Import Base BaseFacts Utils Algorithms Common Utf8 Utf8Facts ElfInfo SigningBlock Zip Digest Module Signable Signer Verifier Keystore Elf
  ElfSpec Cli CliSpec Print PrintFacts InfoPrint InfoFacts SignPrint SignPrintSpec SignPrintFacts SignPrintFacts2 OptionFacts Main MainSpec MainFacts MainFacts2 Text TextSpec DecFacts TextFacts TextFacts2.
Open Scope N_scope.
Open Scope list_scope.

(** * The program *)
Lemma verify_lines W T verbose s file root l t : tame T -> harmless T (CVerify file root) -> In (l, t) verify_wording ->
  has_line (oc_stdout (program_text W T verbose s (CVerify file root))) (bstr t) <->
  In (Out l) (fst (verify_prints verbose (w_profile W) (w_crypto W) (w_pki W) (w_builtin W) (w_clock W) (w_reads W) s file root)).
Proof.
  intros H [F _] I. rewrite <- (verify_text_lines T verbose _ _ _ _ _ _ s file root l t H F I). unfold program_text.
  destruct (verify_prints _ _ _ _ _ _ _ _ _ _). reflexivity.
Qed.
Lemma verify_spoken W T verbose s file root : tame T -> harmless T (CVerify file root) ->
  let o := program_text W T verbose s (CVerify file root) in
  has_line (oc_stdout o) (bstr "✓ Module signature verification successful!") <-> oc_status o = 0.
Proof.
  intros H F o. unfold o. rewrite (verify_lines W T verbose s file root LSuccess _ H F) by (unfold verify_wording; cbn [In]; tauto).
  rewrite prints_success, <- (prints_verdict verbose). unfold program_text.
  destruct (verify_prints _ _ _ _ _ _ _ _ _ _) as [l r]. cbn [finish oc_status snd].
  destruct r as [[]|e|]; cbn [exit_status]; split; intros X; try discriminate; reflexivity.
Qed.
Lemma info_lines W T (verbose : bool) s file l t : tame T -> harmless T (CInfo file) -> In (l, t) info_wording ->
  has_line (oc_stdout (program_text W T verbose s (CInfo file))) (bstr t) <->
  In (IOut l) (fst (info_prints (w_profile W) (w_crypto W) (w_pki W) (w_builtin W) (w_clock W) s file)).
Proof.
  intros H [F _] I. inversion F as [|? ? F1 _]; subst. rewrite <- (info_text_lines T _ _ _ _ _ s file l t H F1 I). unfold program_text.
  destruct (info_prints _ _ _ _ _ _ _). reflexivity.
Qed.
Lemma sign_lines W T (verbose : bool) s a l t : tame T -> harmless T (CSign a) -> In (l, t) sign_wording ->
  has_line (oc_stdout (program_text W T verbose s (CSign a))) (bstr t) <->
  In l (fst (sign_prints (w_profile W) (w_crypto W) (w_keys W) (w_rest W) (w_clock W) (w_reads W) s a)).
Proof.
  intros H F I. rewrite <- (sign_text_lines T _ _ _ _ _ _ s a l t H F I). unfold program_text.
  destruct (sign_prints _ _ _ _ _ _ _ _) as [? [? ?]]. reflexivity.
Qed.
Lemma sign_spoken W T (verbose : bool) s a : tame T -> harmless T (CSign a) ->
  let o := program_text W T verbose s (CSign a) in
  has_line (oc_stdout o) (bstr "✓ Signing successful!") <-> oc_status o = 0.
Proof.
  intros H F o. unfold o. rewrite (sign_lines W T verbose s a SSuccess _ H F) by (unfold sign_wording; cbn [In]; tauto).
  unfold program_text. destruct (sign_prints _ _ _ _ _ _ _ _) as [l [steps r]] eqn:E. cbn [fst finish oc_status].
  apply sign_print_status in E as (_ & -> & _). destruct r as [[]|e|]; cbn [exit_status]; split; intros X; try discriminate; reflexivity.
Qed.
Lemma digest_out W T (verbose : bool) s a :
  let o := program_text W T verbose s (CDigest a) in
  (oc_status o <> 0 \/ da_dump a <> None -> oc_stdout o = []) /\
  (oc_status o = 0 -> da_dump a = None -> exists x d,
     opened_as (w_rest W) (fs_read s (da_input a)) (da_sections a) x /\
     signable_digest (w_profile W) (w_crypto W) (w_rest W) (w_reads W) x (fs_read s (da_input a))
       (if da_sha512 a then ECDSA_SHA2_512 else ECDSA_SHA2_256) = Ok d /\
     oc_stdout o = (match da_format a with Hex => hex_encode d | Base64 => w_base64 W d end) ++ [x0a]).
Proof.
  intros o. pose proof (digest_text W T verbose s a : oc_stdout o = _) as D. pose proof (text_program W T verbose s (CDigest a) I) as P.
  apply (f_equal snd) in P. cbn [snd] in P. fold o in P. unfold program, execute in P. rewrite D, P. clear o D P.
  unfold cli_digest. set (file := fs_read s (da_input a)). unfold opened_as.
  destruct (signable_open (w_rest W) file) as [x0|e|] eqn:E0; cbn [bind fst snd exit_status]; [|split; [reflexivity|discriminate]..].
  destruct (choose_sections x0 (da_sections a)) as [x|e|] eqn:E1; cbn [bind fst snd exit_status]; [|split; [reflexivity|discriminate]..].
  destruct (signable_regions _ _ x file) as [l|e|] eqn:E2; cbn [bind fst snd exit_status]; [|split; [reflexivity|discriminate]..].
  destruct (total_size _ l 0) as [n|e|] eqn:E3; cbn [bind fst snd exit_status]; [|split; [reflexivity|discriminate]..].
  destruct (da_dump a) as [out|].
  - split; [intros _|discriminate]. destruct (dump_regions _ _ _ _ _) as [w [r|e|]]; reflexivity.
  - destruct (signable_digest _ _ _ _ x file _) as [d|e|] eqn:E4; cbn [bind fst snd exit_status]; [|split; [reflexivity|discriminate]..].
    split; [intros [X|X]; now destruct X|]. intros _ _. exists x, d. eauto.
Qed.

(** * What the text depends on *)
Definition alike {A} (x y : printed A) : Prop := fst x = fst y /\ snd (snd x) = snd (snd y).
Lemma say_alike {A} l (x y : printed A) : alike x y -> alike (SignPrint.say l x) (SignPrint.say l y).
Proof. intros [E F]. split; cbn; congruence. Qed.
Lemma attempt_alike {A B} (m : res A) (k k' : A -> printed B) : (forall x, m = Ok x -> alike (k x) (k' x)) -> alike (attempt m k) (attempt m k').
Proof. destruct m; cbn [attempt]; intros H; [now apply H|split; reflexivity..]. Qed.
Lemma digests_alike p C rest ds x file k k' : (forall l, alike (k l) (k' l)) -> forall l done,
  alike (digests_print p C rest ds x file l done k) (digests_print p C rest ds x file l done k').
Proof.
  intros H. induction l as [|a l IH]; intros done; cbn [digests_print]; [apply H|]. apply say_alike, attempt_alike. intros d _. apply IH.
Qed.
Lemma sign_prints_alike p C L rest clk ds s1 s2 a : same_inputs s1 s2 (CSign a) -> same_output s1 s2 (CSign a) ->
  alike (sign_prints p C L rest clk ds s1 a) (sign_prints p C L rest clk ds s2 a).
Proof.
  intros H O. destruct (O (sa_output a) eq_refl) as (Hc & A). apply Forall_cons_iff in A. destruct A as (A & _).
  unfold same_inputs in H. cbn [inputs_of] in H. apply Forall_cons_iff in H. destruct H as (H & H0). apply Forall_app in H0. destruct H0 as (H1 & H2).
  unfold sign_prints. cbv zeta. rewrite (creds_same L s1 s2 _ H1), (creds_same L s1 s2 _ H2), H, Hc.
  apply say_alike, attempt_alike. intros v2 _. apply say_alike, attempt_alike. intros st _.
  apply say_alike, attempt_alike. intros x Ex. apply say_alike, attempt_alike. intros rg _.
  apply say_alike, digests_alike. intros l. apply say_alike, attempt_alike. intros b _. apply say_alike.
  destruct (fs_can_create s2 (sa_output a)); [|split; reflexivity].
  destruct (fs_read s2 (sa_input a)) as [f|] eqn:F; [|discriminate Ex].
  rewrite (created_same s1 s2 (sa_input a) (sa_output a) f) by (auto; congruence).
  destruct (signable_write p rest x _ b) as (w & r). destruct r as [[]|e|]; split; reflexivity.
Qed.
Lemma digest_prints_alike p C rest base64 ds s1 s2 a : same_inputs s1 s2 (CDigest a) -> same_output s1 s2 (CDigest a) ->
  fst (digest_prints p C rest base64 ds s1 a) = fst (digest_prints p C rest base64 ds s2 a) /\
  snd (snd (digest_prints p C rest base64 ds s1 a)) = snd (snd (digest_prints p C rest base64 ds s2 a)).
Proof.
  intros H O. apply Forall_cons_iff in H. destruct H as (H & _). unfold digest_prints. cbv zeta. rewrite H.
  destruct (do x <- signable_open rest (fs_read s2 (da_input a)); _) as [x|e|] eqn:B; [|split; reflexivity..].
  destruct (signable_regions _ _ _ _) as [l|e|]; [|split; reflexivity..].
  destruct (regions_print _ _ _) as [rl total]. destruct total as [n|e|]; [|split; reflexivity..].
  destruct (da_dump a) as [o|] eqn:Da; [|split; reflexivity].
  destruct (O o Da) as (Hc & A). apply Forall_cons_iff in A. destruct A as (A & _).
  destruct (fs_read s2 (da_input a)) as [f|] eqn:F; [|discriminate B].
  destruct (dump_same p s1 s2 (da_input a) o l f) as (w & r & E1 & E2 & E3); auto; try congruence.
  rewrite E1, E2. split; reflexivity.
Qed.
Lemma finish_alike {A} T (render : nat -> A -> bytes) out l1 l2 w1 w2 r1 r2 : l1 = l2 -> r1 = r2 ->
  oc_stdout (finish T render out l1 w1 r1) = oc_stdout (finish T render out l2 w2 r2) /\
  oc_stderr (finish T render out l1 w1 r1) = oc_stderr (finish T render out l2 w2 r2) /\
  oc_status (finish T render out l1 w1 r1) = oc_status (finish T render out l2 w2 r2).
Proof. intros -> ->. repeat split. Qed.
Lemma text_depends W T verbose s1 s2 c : same_inputs s1 s2 c -> same_output s1 s2 c ->
  let o1 := program_text W T verbose s1 c in let o2 := program_text W T verbose s2 c in
  oc_stdout o1 = oc_stdout o2 /\ oc_stderr o1 = oc_stderr o2 /\ oc_status o1 = oc_status o2.
Proof.
  intros H O. cbv zeta. unfold program_text. destruct c as [a|file root|file|a].
  - destruct (sign_prints_alike (w_profile W) (w_crypto W) (w_keys W) (w_rest W) (w_clock W) (w_reads W) s1 s2 a H O) as [E F].
    destruct (sign_prints _ _ _ _ _ _ s1 a) as [l1 [w1 r1]], (sign_prints _ _ _ _ _ _ s2 a) as [l2 [w2 r2]]. now apply finish_alike.
  - apply Forall_cons_iff in H. destruct H as (H1 & H2).
    unfold verify_prints. cbv zeta. rewrite H1, (roots_same _ _ _ _ _ H2). repeat split.
  - apply Forall_cons_iff in H. destruct H as (H1 & _). unfold info_prints. rewrite H1. repeat split.
  - destruct (digest_prints_alike (w_profile W) (w_crypto W) (w_rest W) (w_base64 W) (w_reads W) s1 s2 a H O) as [E F].
    destruct (digest_prints _ _ _ _ _ s1 a) as [l1 [w1 r1]], (digest_prints _ _ _ _ _ s2 a) as [l2 [w2 r2]]. now apply finish_alike.
Qed.
