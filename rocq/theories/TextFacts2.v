(** TextFacts2.v - the text of the info, sign and digest commands, and of the program. *)
From Coq Require Import Strings.String Lia Sorting.Permutation.
From Verif Require Import Base BaseFacts Utils Algorithms Common Utf8 Utf8Facts ElfInfo SigningBlock Zip Digest Module Signable Signer Verifier Keystore Elf
  ElfSpec Cli CliSpec Print PrintFacts InfoPrint InfoFacts SignPrint SignPrintSpec SignPrintFacts SignPrintFacts2 OptionFacts Main MainSpec Text TextSpec DecFacts TextFacts.
Open Scope N_scope.
Open Scope list_scope.

Lemma info_wording_render T j l t : In (l, t) info_wording -> info_line T j (IOut l) = bstr t.
Proof.
  intros I. unfold info_wording in I. cbn [In] in I. repeat (destruct I as [I|I]; [injection I as <- <-; vm_compute; reflexivity|]). destruct I.
Qed.
Lemma info_text_lines T p C K builtin now s file l t : tame T -> one_line (tx_path T file) -> In (l, t) info_wording ->
  has_line (text_of (info_line T) isaid_out 0 (fst (info_prints p C K builtin now s file))) (bstr t) <->
  In (IOut l) (fst (info_prints p C K builtin now s file)).
Proof.
  intros H F I. apply line_iff; [|reflexivity|..].
  - apply (wording_one_line info_wording) with (l := l); [vm_compute; reflexivity|exact I].
  - intros j y E _. apply info_line_one; [exact H|]. intros q Q. apply nth_error_In in E.
    now rewrite (proj1 (Forall_forall _ _) (info_paths p C K builtin now s file) _ E q Q).
  - intros j. now apply info_wording_render.
  - intros j [y|y] K' E; [|discriminate]. f_equal. now apply (info_word T j l y t).
Qed.

(** * Names of sections *)
Lemma utf8_feed s : scalars s -> In x0a (utf8_enc s) -> In 10 s.
Proof.
  intros S I. unfold utf8_enc in I. apply in_flat_map in I as (c & I & J).
  pose proof (proj1 (Forall_forall _ _) S c I) as V. enough (c = 10) by (now subst).
  assert (G : forall n, b8 n = x0a -> n mod 256 = 10). { intros n E. rewrite <- to_N_b8, E. reflexivity. }
  unfold utf8_enc1 in J. unfold is_scalar in V.
  destruct (c <? 128) eqn:E1; [destruct J as [J|[]]; apply G in J; rewrite N.mod_small in J by lia; exact J|].
  exfalso.
  assert (M : forall x, (128 + x mod 64) mod 256 = 10 -> False).
  { intros x. pose proof (N.mod_lt x 64 ltac:(lia)). rewrite N.mod_small by lia. lia. }
  destruct (c <? 2048) eqn:E2; [|destruct (c <? 65536) eqn:E3].
  - destruct J as [J|[J|[]]]; apply G in J; [|now apply (M c)]. assert (c / 64 < 32) by (apply N.div_lt_upper_bound; lia).
    rewrite N.mod_small in J by lia. lia.
  - destruct J as [J|[J|[J|[]]]]; apply G in J; [|now apply (M (c / 64))|now apply (M c)]. assert (c / 4096 < 16) by (apply N.div_lt_upper_bound; lia).
    rewrite N.mod_small in J by lia. lia.
  - destruct J as [J|[J|[J|[J|[]]]]]; apply G in J; [|now apply (M (c / 4096))|now apply (M (c / 64))|now apply (M c)].
    assert (c < 0x110000) by lia. assert (c / 262144 < 5) by (apply N.div_lt_upper_bound; lia).
    rewrite N.mod_small in J by lia. lia.
Qed.
Lemma trimmed_plain n t : trimmed n t -> scalars n /\ ~ In 10 n -> scalars t /\ ~ In 10 t.
Proof.
  intros (a & c & -> & _) [S N]. split.
  - unfold scalars in *. rewrite !Forall_app in S. tauto.
  - intros I. apply N. rewrite !in_app_iff. tauto.
Qed.
Lemma region_names rest p file l x regions : Forall (fun n => scalars n /\ ~ In 10 n) l ->
  opened_as rest file l x -> signable_regions p rest x file = Ok regions -> Forall (fun g => one_line (rg_name g)) regions.
Proof.
  intros F O R. destruct file as [file|]; [|destruct O as (y & O & _); discriminate O].
  destruct x as [m|f].
  - cbn [signable_regions] in R. unfold m_digest_regions in R.
    destruct (m_get_offsets _ _ _) as [o|e|]; try discriminate R. cbn [bind] in R.
    destruct (usub _ _ _) as [n1|e|]; try discriminate R. cbn [bind] in R.
    destruct (usub _ _ _) as [n2|e|]; try discriminate R. cbn [bind] in R.
    destruct (usub _ _ _) as [n3|e|]; try discriminate R. cbn [bind] in R. injection R as <-.
    repeat constructor; cbn [rg_name]; literal.
  - pose proof (proj1 (opened_exact rest file l (SElf f)) O) as (_ & M & _).
    destruct (digested_names rest p file l (SElf f) regions O R M) as (e & names & _ & P & N & _).
    assert (G : Forall (fun n => one_line (utf8_enc n)) names).
    { assert (D : forall n, scalars n /\ ~ In 10 n -> one_line (utf8_enc n)) by (intros n [S D] I; apply D; now apply utf8_feed).
      destruct l as [|n0 l].
      - subst names. repeat constructor; vm_compute; intuition discriminate.
      - destruct N as (ts & T & ->). apply Forall_forall. intros n I. apply filter_In in I as [I _]. apply D.
        clear - F T I. revert F. induction T as [|a b l' ts' H T IH]; intros F; [destruct I|]. inversion F; subst.
        destruct I as [->|I]; [now apply (trimmed_plain a)|auto]. }
    apply Forall_forall. intros g I. apply (in_map rg_name) in I. apply (Permutation_in _ P) in I.
    apply in_map_iff in I as (n & <- & I). exact (proj1 (Forall_forall _ _) G n I).
Qed.

(** * sign *)
Lemma sign_one_lines T p C L rest clk ds s a y i : tame T -> harmless T (CSign a) ->
  In y (fst (sign_prints p C L rest clk ds s a)) -> one_line (sign_line T i y).
Proof.
  intros H [P Q] I. cbn [shown_paths shown_sections] in P, Q. inversion P as [|? ? P1 P']; subst. inversion P' as [|? ? P2 _]; subst.
  apply sign_progress in I. destruct I as [| | | |v Hv|sg c Hs Hc|sg x Hs Ho|sg x l y Hs Ho Hr Hy|sg x l l1 al l2 r Hs Ho Hr Ha Hd|sg x l r y Hs Ho Hr Hd Hy|x b y Hb Hy|y Hk Hy];
    cbn [sign_line]; pieces; try assumption; try apply algo_one_line.
  - destruct x; literal.
  - destruct Hy as [->|[(g & I & ->)|[->| ->]]]; cbn [sign_line]; pieces.
    exact (proj1 (Forall_forall _ _) (region_names rest p _ _ x l Q Ho Hr) g I).
  - destruct Hy as [->| ->]; cbn [sign_line]; pieces.
  - destruct Hy as [->| ->]; cbn [sign_line]; pieces.
  - destruct Hy as [->| ->]; cbn [sign_line]; pieces. assumption.
Qed.
Lemma sign_word T j l l' t : In (l, t) sign_wording -> sign_line T j l' = bstr t -> l' = l.
Proof.
  intros I E. destruct l'; cbn [sign_line] in E.
  all: try match goal with f : file_format |- _ => destruct f end.
  all: try match goal with |- SBlank = _ => unfold sign_wording in I; cbn [In] in I; options I E end.
  all: try (narrow I E; options I E).
Qed.
Lemma sign_wording_render T j l t : In (l, t) sign_wording -> sign_line T j l = bstr t.
Proof.
  intros I. unfold sign_wording in I. cbn [In] in I. repeat (destruct I as [I|I]; [injection I as <- <-; vm_compute; reflexivity|]). destruct I.
Qed.
Lemma sign_text_lines T p C L rest clk ds s a l t : tame T -> harmless T (CSign a) -> In (l, t) sign_wording ->
  has_line (text_of (sign_line T) (fun _ => true) 0 (fst (sign_prints p C L rest clk ds s a))) (bstr t) <->
  In l (fst (sign_prints p C L rest clk ds s a)).
Proof.
  intros H F I. apply line_iff; [|reflexivity|..].
  - apply (wording_one_line sign_wording) with (l := l); [vm_compute; reflexivity|exact I].
  - intros j y E _. apply nth_error_In in E. now apply (sign_one_lines T p C L rest clk ds s a).
  - intros j. now apply sign_wording_render.
  - intros j y _ E. now apply (sign_word T j l y t).
Qed.

(** * The program *)
Lemma finish_status {A} T (render : nat -> A -> bytes) out l steps r : oc_steps (finish T render out l steps r) = steps /\ oc_status (finish T render out l steps r) = exit_status r.
Proof. split; reflexivity. Qed.
Lemma text_program W T verbose s c : small_input s c ->
  (oc_steps (program_text W T verbose s c), oc_status (program_text W T verbose s c)) = program W s c.
Proof.
  intros I. unfold program, program_text, execute. destruct c as [a|file root|file|a].
  - destruct (sign_prints _ _ _ _ _ _ s a) as [l [steps r]] eqn:E. apply sign_print_status in E as [E _]. rewrite E. reflexivity.
  - pose proof (prints_verdict verbose (w_profile W) (w_crypto W) (w_pki W) (w_builtin W) (w_clock W) (w_reads W) s file root) as E.
    destruct (verify_prints _ _ _ _ _ _ _ s file root) as [l r]. cbn [snd] in E. rewrite <- E. reflexivity.
  - pose proof (info_status (w_profile W) (w_crypto W) (w_pki W) (w_builtin W) (w_clock W) s file I) as E.
    destruct (info_prints _ _ _ _ _ s file) as [l r]. cbn [snd] in E. rewrite <- E. reflexivity.
  - destruct (digest_prints _ _ _ _ _ s a) as [l [steps r]] eqn:E. apply digest_print_status in E as (E1 & E2 & E3 & _).
    destruct (cli_digest _ _ _ _ _ s a) as [w o]. cbn [fst snd] in *. subst w. cbn [finish oc_steps oc_status]. f_equal.
    destruct o as [o|e|]; cbn [bind exit_status].
    + rewrite (proj2 E2) by eauto. reflexivity.
    + destruct r as [[]|e'|]; [|reflexivity|].
      * destruct (proj1 E2 eq_refl) as (o & O). discriminate.
      * pose proof (proj1 E3 eq_refl). discriminate.
    + now rewrite (proj2 E3).
Qed.

Lemma text_none {A} (render : nat -> A -> bytes) keep l : forall i, Forall (fun x => keep x = false) l -> text_of render keep i l = [].
Proof. induction l as [|x l IH]; intros i H; [reflexivity|]. inversion H as [|? ? E F]; subst. cbn. rewrite E. cbn. now apply IH. Qed.
Lemma last_words_none T i r : last_words T i r = [] <-> r = Ok tt.
Proof. destruct r as [[]|e|]; cbn [last_words]; split; try reflexivity; intros H; try discriminate; vm_compute in H; discriminate. Qed.
Lemma text_silent W T verbose s c : (forall a, c <> CDigest a) ->
  oc_stderr (program_text W T verbose s c) = [] <-> oc_status (program_text W T verbose s c) = 0.
Proof.
  intros D. unfold program_text. destruct c as [a|file root|file|a]; [..|now destruct (D a)].
  - destruct (sign_prints _ _ _ _ _ _ s a) as [l [steps r]]. cbn [finish oc_stderr oc_status].
    rewrite text_none by (apply Forall_forall; reflexivity). cbn [app]. rewrite last_words_none.
    destruct r as [[]|e|]; cbn [exit_status]; split; intros H; try discriminate; reflexivity.
  - pose proof (prints_verdict verbose (w_profile W) (w_crypto W) (w_pki W) (w_builtin W) (w_clock W) (w_reads W) s file root) as V.
    pose proof (prints_success_shape verbose (w_profile W) (w_crypto W) (w_pki W) (w_builtin W) (w_clock W) (w_reads W) s file root) as S.
    destruct (verify_prints _ _ _ _ _ _ _ s file root) as [l r]. cbn [fst snd] in *. cbn [finish oc_stderr oc_status]. split.
    + intros H. apply app_eq_nil in H as [_ H]. apply last_words_none in H. rewrite H. reflexivity.
    + intros H. destruct r as [[]|e|]; try discriminate H. destruct (S (eq_sym V)) as (b & -> & F). cbn [last_words]. rewrite app_nil_r.
      apply text_none. apply Forall_app. split; [|repeat constructor]. eapply Forall_impl; [|exact F]. intros [x|x]; cbn; congruence.
  - unfold info_prints. destruct (fs_read s file) as [f|]; [|cbn; split; intros H; vm_compute in H; discriminate H]. cbv zeta.
    assert (Bad : forall l r, r <> Ok tt -> oc_stderr (finish T (info_line T) isaid_out l [] r) = [] <-> oc_status (finish T (info_line T) isaid_out l [] r) = 0).
    { intros l r N. cbn [finish oc_stderr oc_status]. split.
      - intros H. apply app_eq_nil in H as [_ H]. apply last_words_none in H. now destruct N.
      - intros H. destruct r as [[]|e|]; [now destruct N|discriminate|discriminate]. }
    destruct (from_reader (w_profile W) f (len f) 0) as [b|e|]; [|apply Bad; discriminate|apply Bad; discriminate].
    destruct (uadd (w_profile W) (bk_size_start b) 8) as [n|e|]; [|apply Bad; discriminate|apply Bad; discriminate].
    cbn [finish oc_stderr oc_status last_words exit_status]. rewrite app_nil_r. split; [reflexivity|intros _].
    assert (G : forall l, Forall (fun x => exists y, x = IOut y) l -> text_of (info_line T) (fun x => negb (isaid_out x)) 0 l = []).
    { intros l H. apply text_none. eapply Forall_impl; [|exact H]. intros x (y & ->). reflexivity. }
    apply G. repeat (apply Forall_app; split); repeat (constructor; eauto).
    + destruct (Print.nonempty (bk_content b)); constructor; eauto. apply Forall_forall. intros x I. apply in_map_iff in I as (v & <- & _).
      unfold info_entry. eauto.
    + unfold info_v2. destruct (verify_v2_with_digest _ _ _ _ _ _) as [q|e]; [|repeat (constructor; eauto)].
      repeat (apply Forall_app; split); repeat (constructor; eauto).
      * destruct (vr_cert q); repeat (constructor; eauto).
      * destruct (Print.nonempty (vr_chain q)); repeat (constructor; eauto). apply Forall_forall. intros x I. apply in_map_iff in I as (v & <- & _). eauto.
      * destruct (Print.nonempty (vr_warnings q)); repeat (constructor; eauto). apply Forall_forall. intros x I. apply in_map_iff in I as (v & <- & _). eauto.
    + unfold info_stamp. destruct (verify_source_stamp _ _ _ _ _) as [q|e]; [|constructor]. destruct (vr_signature_valid q); [|constructor].
      repeat (apply Forall_app; split); repeat (constructor; eauto). destruct (vr_cert q); repeat (constructor; eauto).
Qed.

Lemma digest_stdout T l : forall i, text_of (digest_line T) dline_out i l = flat_map (fun t => t ++ [x0a]) (pick text_line l).
Proof. induction l as [|x l IH]; intros i; [reflexivity|]. cbn [text_of]. rewrite IH. destruct x; reflexivity. Qed.
Lemma digest_text W T verbose s a :
  let o := program_text W T verbose s (CDigest a) in
  oc_stdout o = match snd (cli_digest (w_profile W) (w_crypto W) (w_rest W) (w_base64 W) (w_reads W) s a) with
                | Ok (Some t) => t ++ [x0a] | _ => [] end.
Proof.
  cbv zeta. unfold program_text. destruct (digest_prints _ _ _ _ _ s a) as [l [steps r]] eqn:E. apply digest_print_status in E as (_ & _ & _ & E & _).
  cbn [finish oc_stdout]. rewrite digest_stdout, E. destruct (snd (cli_digest _ _ _ _ _ s a)) as [[t|]|e|]; try reflexivity. cbn. apply app_nil_r.
Qed.
