(** BuildFacts2.v - exactly when "sign" crashes. *)
From Verif Require Import Base BaseFacts Utils Algorithms Common SchemeV2 SourceStamp Utf8 ElfInfo SigningBlock LimitFacts DebugFacts PropBlockFacts
  Zip Digest Module Signable Signer Verifier Keystore Elf Cli CliSpec CliFacts CliProps Print InfoPrint SignPrint Main MainSpec ZipFacts ModuleProps MainFacts
  Text TextSpec BuildSpec BuildFacts Spec Built BuiltFacts SignFacts VerifySpec Wire ModuleFacts.
From Coq Require Import Lia.
Open Scope N_scope.
Open Scope list_scope.

Lemma padding_panics l : block_new_with_padding Debug l = Panic <-> block_new_with_padding Release l = Err EPaddingGap.
Proof.
  rewrite !padding_cases. destruct (existsb _ l); [split; discriminate|]. cbn zeta. destruct (_ && _); [tauto|].
  destruct (_ <? _); split; discriminate.
Qed.
Lemma exists_iff {A} (P Q : A -> Prop) : (forall x, P x <-> Q x) -> (exists x, P x) <-> exists x, Q x.
Proof. intros H. split; intros [x ?]; exists x; now apply H. Qed.
Lemma bind_panic {A B} (m : res A) (k : A -> res B) : m <> Panic -> bind m k = Panic <-> exists x, m = Ok x /\ k x = Panic.
Proof.
  destruct m as [x|e|]; cbn [bind]; intros H; [|split; [discriminate|intros (? & ? & _); discriminate]|congruence].
  split; [eauto|]. now intros (y & [= <-] & ?).
Qed.
Lemma bind_err {A B} (m : res A) (k : A -> res B) e : m <> Err e -> bind m k = Err e <-> exists x, m = Ok x /\ k x = Err e.
Proof.
  destruct m as [x|e'|]; cbn [bind]; intros H; [|split; [congruence|intros (? & ? & _); discriminate]|split; [discriminate|intros (? & ? & _); discriminate]].
  split; [eauto|]. now intros (y & [= <-] & ?).
Qed.
Ltac nogap := repeat first [discriminate | match goal with
  |- ?t <> _ => match t with context [match ?y with _ => _ end] =>
    lazymatch y with context [match _ with _ => _ end] => fail | _ => destruct y end end end].
Lemma ms_sign_panics C clk m d : ms_sign Debug C clk m d = Panic <-> ms_sign Release C clk m d = Err EPaddingGap.
Proof.
  unfold ms_sign, v2_sign, stamp_sign, stamp_attrs, clone_config, clone_private_key, algo_sign, public_key_der. cbv zeta.
  set (X := match ms_v2 m with Some c => _ | None => Ok [] end).
  assert (X1 : X <> Panic) by (unfold X; np).
  assert (X2 : X <> Err EPaddingGap).
  { unfold X. cbv [bind of_option]. nogap. }
  clearbody X. rewrite (bind_panic _ _ X1), (bind_err _ _ _ X2). apply exists_iff. intros l. apply and_iff_compat_l.
  set (Y := match ms_stamp m with Some c => _ | None => Ok l end).
  assert (Y1 : Y <> Panic) by (unfold Y; np).
  assert (Y2 : Y <> Err EPaddingGap).
  { unfold Y. cbv [bind of_option]. nogap. }
  clearbody Y. rewrite (bind_panic _ _ Y1), (bind_err _ _ _ Y2). apply exists_iff. intros l'. apply and_iff_compat_l.
  destruct l' as [|v l']; [split; discriminate|]. unfold ms_finish. destruct (ms_padding m); [apply padding_panics|].
  unfold block_new. destruct (_ <? _); split; discriminate.
Qed.
Lemma source_debug f : len f < U64 -> ~ stops_block f -> s_source Debug (module_new f) f <> Panic.
Proof.
  intros Hl H. unfold s_source. destruct (m_get_signing_block Debug (module_new f) f) as [b|x|] eqn:B.
  - destruct (get_sb_ok _ _ _ Hl B) as (e & raw & E & G & _). apply get_range_spec in G.
    apply bind_no_panic; [|intros r _; apply bind_no_panic; [apply find_eocd_no_panic|discriminate]].
    unfold m_get_raw_module. cbn [module_new m_raw]. change (mkModule false (len f) None) with (module_new f). rewrite B. cbn [bind].
    unfold usub at 1. destruct (N.leb_spec (bk_start b) (bk_end b)); [|lia]. cbn [bind].
    apply bind_no_panic; [apply of_option_np|intros h _]. unfold m_find_eocd. cbn [module_new m_len m_raw]. rewrite E. cbn [bind].
    destruct (_ <? _); [discriminate|]. cbv zeta.
    destruct (find_eocd_inv f e E) as [(R & _) Ee]. destruct (eocd_at_bytes f (eo_off e) R) as (Q1 & _ & Q3). rewrite <- Ee in Q1, Q3.
    destruct Q1 as (S & _ & _ & _ & _ & _ & _ & _ & Cm).
    apply bind_no_panic; [|intros n _; apply bind_no_panic; [apply of_option_np|discriminate]].
    unfold usub. destruct (N.leb_spec (len (eocd_to_u8 (with_cd_offset e (eo_cd_offset e - (bk_end b - bk_start b) mod U32)))) (len f)) as [|Z]; [discriminate|].
    exfalso. unfold eocd_to_u8, with_cd_offset in Z. cbn [eo_sig eo_disk eo_disk_cd eo_num eo_total eo_cd_size eo_cd_offset eo_comment_len eo_comment] in Z.
    rewrite !len_app, !len_le, S, Cm in Z. change (len EOCD_SIG) with 4 in Z.
    change (N.of_nat 2) with 2 in Z. change (N.of_nat 4) with 4 in Z. lia.
  - destruct (maybe_missing_signature x); [|discriminate]. apply bind_no_panic; [apply find_eocd_no_panic|discriminate].
  - exfalso. now apply H, get_sb_debug.
Qed.
Lemma write_debug f b : len f < 2 ^ 63 -> ~ stops_block f -> snd (s_write_with_signature Debug (module_new f) f b) <> Panic.
Proof.
  intros Hl H. assert (Hu : len f < U64) by (unfold U64; lia). pose proof (source_debug f Hu H) as S.
  pose proof (module_write_np f b Hl) as R.
  destruct (agree_source f) as [|E]; [contradiction|]. unfold s_write_with_signature in *. rewrite <- E in R.
  destruct (s_source Debug (module_new f) f) as [[raw e]|x|] eqn:Q; [|discriminate|contradiction].
  apply source_eocd in Q. rewrite write_raw_same; [exact R|].
  destruct (find_eocd_inv raw e Q) as [(Z & _) _]. apply eocd_at_bytes in Z. destruct Z. lia.
Qed.


Lemma digests_debug C rest ds f l : len f < 2 ^ 63 -> ~ (stops_block f \/ stops_signed f \/ stops_unsigned f) ->
  cli_digests Debug C rest ds (SModule (module_new f)) (Some f) l = cli_digests Release C rest ds (SModule (module_new f)) (Some f) l.
Proof.
  intros Hl H. induction l as [|a l IH]; [reflexivity|]. cbn [cli_digests signable_digest now_content].
  destruct (agree_digest C (ds a) f a) as [E| ->]; [apply (digest_debug C (ds a) f a Hl) in E; contradiction|]. now rewrite IH.
Qed.
Lemma digests_elf p C rest ds g o l : cli_digests p C rest ds (SElf g) o l = cli_digests Release C rest ds (SElf g) o l.
Proof. induction l as [|a l IH]; [reflexivity|]. cbn [cli_digests signable_digest]. now rewrite IH. Qed.


Lemma block_debug W s a : (forall f, fs_read s (sa_input a) = Some f -> len f < 2 ^ 63) ->
  (sign_block Debug W s a = Panic <-> early_stop W s a \/ ~ early_stop W s a /\ gap_stop W s a) /\
  (~ early_stop W s a -> ~ gap_stop W s a -> sign_block Debug W s a = sign_block Release W s a).
Proof.
  intros Hl. unfold sign_block, cli_sign_block, early_stop, gap_stop, gathered.
  destruct (cli_signer (w_keys W) s a) as [signer|e|] eqn:S; cbn [bind]; cycle 1.
  { split; [|reflexivity]. split; [discriminate|]. intros [H|[_ H]]; decompose [ex and] H; discriminate. }
  { now apply signer_np in S. }
  cbv zeta. destruct (fs_read s (sa_input a)) as [f|] eqn:F; cycle 1.
  { split; [|reflexivity]. split; [discriminate|]. intros [H|[_ H]]; decompose [ex and] H; discriminate. }
  specialize (Hl f eq_refl).
  destruct (signable_open (w_rest W) (Some f)) as [x|e|] eqn:O; cbn [bind]; cycle 1.
  { split; [|reflexivity]. split; [discriminate|]. intros [H|[_ H]]; decompose [ex and] H; congruence. }
  { now apply open_np in O. }
  destruct (choose_sections x (sa_sections a)) as [y|e|] eqn:Y; cbn [bind]; cycle 1.
  { split; [|reflexivity]. split; [discriminate|]. intros [H|[_ H]]; decompose [ex and] H; congruence. }
  { now apply choose_np in Y. }
  pose proof (opened _ _ _ _ _ O Y) as OP.
  assert (RD : signable_regions Debug (w_rest W) y (Some f) = Panic \/
    signable_regions Debug (w_rest W) y (Some f) = signable_regions Release (w_rest W) y (Some f)).
  { apply agree_sregions. destruct y; auto. }
  assert (ST : match y with SModule _ => stops_block f \/ stops_signed f \/ stops_unsigned f | SElf _ => False end <->
     signable_regions Debug (w_rest W) y (Some f) = Panic).
  { destruct y as [m|g]; cbn [signable_regions now_content].
    - subst m. symmetry. apply (digest_debug (w_crypto W) (w_reads W ECDSA_SHA2_256) f ECDSA_SHA2_256 Hl).
    - split; [tauto|]. intros H. exfalso. revert H. apply (regions_np (w_crypto W) (w_rest W) (SElf g) f Hl OP). }
  assert (SE : (exists signer0 f0 x0 m, Ok signer = Ok signer0 /\ Some f = Some f0 /\ signable_open (w_rest W) (Some f0) = Ok x0 /\
    choose_sections x0 (sa_sections a) = Ok (SModule m) /\ (stops_block f0 \/ stops_signed f0 \/ stops_unsigned f0)) <->
    match y with SModule _ => stops_block f \/ stops_signed f \/ stops_unsigned f | SElf _ => False end).
  { split.
    - intros (s0 & f0 & x0 & m & [= <-] & [= <-] & E1 & E2 & E3). rewrite O in E1. injection E1 as <-. rewrite Y in E2. injection E2 as ->. exact E3.
    - intros H. destruct y as [m|g]; [|contradiction]. exists signer, f, x, m. auto. }
  rewrite SE, ST. clear SE.
  destruct RD as [R|R]; [rewrite R; cbn [bind]; split; [tauto|intros H; now destruct H]|].
  assert (RN : signable_regions Release (w_rest W) y (Some f) <> Panic) by now apply (regions_np (w_crypto W)).
  rewrite R. destruct (signable_regions Release (w_rest W) y (Some f)) as [l|e|] eqn:RR; cbn [bind]; [| |congruence]; cycle 1.
  { split; [|reflexivity]. split; [discriminate|]. intros [H|[_ H]]; [discriminate|]. decompose [ex and] H. congruence. }
  assert (DG : cli_digests Debug (w_crypto W) (w_rest W) (w_reads W) y (Some f) (required_algorithms signer) =
    cli_digests Release (w_crypto W) (w_rest W) (w_reads W) y (Some f) (required_algorithms signer)).
  { destruct y as [m|g]; [|apply digests_elf]. subst m. apply digests_debug; [exact Hl|]. rewrite ST, R. discriminate. }
  rewrite DG. pose proof (digests_np (w_crypto W) (w_rest W) (w_reads W) y f (required_algorithms signer) Hl OP) as DN.
  destruct (cli_digests Release _ _ _ y (Some f) (required_algorithms signer)) as [ps|e|] eqn:DD; cbn [bind]; [| |now destruct DN]; cycle 1.
  { split; [|reflexivity]. split; [discriminate|]. intros [H|[_ H]]; [discriminate|]. decompose [ex and] H. congruence. }
  assert (GS : (exists signer0 f0 y0 pairs, (Ok signer = Ok signer0 /\ Some f = Some f0 /\
      (exists x0, signable_open (w_rest W) (Some f0) = Ok x0 /\ choose_sections x0 (sa_sections a) = Ok y0) /\
      (exists l0, signable_regions Release (w_rest W) y0 (Some f0) = Ok l0) /\
      cli_digests Release (w_crypto W) (w_rest W) (w_reads W) y0 (Some f0) (required_algorithms signer0) = Ok pairs) /\
      ms_sign Release (w_crypto W) (w_clock W) signer0 (digests_of_pairs pairs) = Err EPaddingGap) <->
    ms_sign Release (w_crypto W) (w_clock W) signer (digests_of_pairs ps) = Err EPaddingGap).
  { split.
    - intros (s0 & f0 & y0 & p0 & ([= <-] & [= <-] & (x0 & E1 & E2) & _ & E3) & E4). rewrite O in E1. injection E1 as <-.
      rewrite Y in E2. injection E2 as <-. rewrite DD in E3. injection E3 as <-. exact E4.
    - intros H. exists signer, f, y, ps. eauto 10. }
  rewrite GS. clear GS. rewrite <- ms_sign_panics.
  destruct (agree_ms_sign (w_crypto W) (w_clock W) signer (digests_of_pairs ps)) as [M|M].
  - rewrite M. cbn [bind]. split; [|intros _ H; now destruct H]. split; [|reflexivity]. intros _. right. split; [discriminate|reflexivity].
  - rewrite M. assert (MN : ms_sign Release (w_crypto W) (w_clock W) signer (digests_of_pairs ps) <> Panic) by apply ms_sign_np.
    split; [|reflexivity]. split; [|intros [H|[_ H]]; [discriminate|contradiction]].
    intros H. exfalso. revert H. apply bind_no_panic; [exact MN|intros b _]. apply bind_no_panic; [apply add_info_np|discriminate].
Qed.

Lemma write_stage W s a x b : (forall f, fs_read s (sa_input a) = Some f -> len f < 2 ^ 63) ->
  sign_block (w_profile W) W s a = Ok (x, b) -> (w_profile W = Debug -> ~ early_stop W s a) ->
  snd (execute W s (CSign a)) = Panic <-> writer_stop W s a.
Proof.
  intros Hl EB NE. cbn [execute]. unfold cli_sign, writer_stop. unfold sign_block in *. rewrite EB.
  split.
  - destruct (fs_can_create s (sa_output a)); [|discriminate]. cbv zeta.
    destruct (signable_write _ _ _ _ _) as (w & r) eqn:E. cbn [snd]. intros ->.
    pose proof EB as EB'. unfold cli_sign_block in EB'. apply bind_Ok in EB' as (signer & HS & EB'). cbv zeta in EB'.
    destruct (fs_read s (sa_input a)) as [file|] eqn:F; [|discriminate]. specialize (Hl file eq_refl).
    apply bind_Ok in EB' as (x0 & H0 & EB'). apply bind_Ok in EB' as (x1 & H1 & EB').
    apply bind_Ok in EB' as (l0 & _ & EB'). apply bind_Ok in EB' as (l1 & _ & EB'). apply bind_Ok in EB' as (b1 & _ & EB').
    apply bind_Ok in EB' as (b2 & _ & EB'). injection EB' as -> <-.
    pose proof (opened _ _ _ _ _ H0 H1) as O.
    destruct x as [m|f].
    + exfalso. subst m. destruct (N.eq_dec (fs_file s (sa_input a)) (fs_file s (sa_output a))) as [Eq|Ne].
      * rewrite (truncate_same _ _ (sa_input a)) in E; [|auto|].
        2:{ unfold fs_read in F. destruct (fs_can_read s (sa_input a)); [reflexivity|discriminate]. }
        cbn [signable_write now_content] in E. unfold module_new in E. destruct (source_empty (w_profile W) (len file) b2) as (x & X).
        rewrite X in E. discriminate.
      * rewrite truncate_read, F in E by auto. cbn [signable_write now_content] in E. apply (f_equal snd) in E. cbn [snd] in E. revert E.
        destruct (w_profile W); [|now apply module_write_np]. apply write_debug; [exact Hl|].
        intros K. apply NE; [reflexivity|]. exists signer, file, x0, (module_new file). auto 6.
    + cbn [signable_write] in E. exists f, b2. split; [reflexivity|]. split; [reflexivity|].
      destruct (elf_write_with_signature (w_rest W) f b2); [discriminate|discriminate|reflexivity].
  - intros (g & b' & [= -> ->] & -> & H). cbv zeta. cbn [signable_write]. rewrite H. reflexivity.
Qed.
Lemma sign_panic W s a : (forall f, fs_read s (sa_input a) = Some f -> len f < 2 ^ 63) ->
  snd (execute W s (CSign a)) = Panic <-> w_profile W = Debug /\ (early_stop W s a \/ gap_stop W s a) \/ writer_stop W s a.
Proof.
  intros Hl. destruct (w_profile W) eqn:P.
  - destruct (block_debug W s a Hl) as (B1 & B2).
    destruct (sign_block Debug W s a) as [[x b]|e|] eqn:EB.
    + assert (NE : ~ early_stop W s a) by (intros H; destruct B1 as [_ B1]; discriminate B1; auto).
      assert (NG : ~ gap_stop W s a) by (intros H; destruct B1 as [_ B1]; discriminate B1; auto).
      rewrite (write_stage W s a x b Hl); [|rewrite P; exact EB|auto]. tauto.
    + assert (NE : ~ early_stop W s a) by (intros H; destruct B1 as [_ B1]; discriminate B1; auto).
      assert (NG : ~ gap_stop W s a) by (intros H; destruct B1 as [_ B1]; discriminate B1; auto).
      assert (NW : ~ writer_stop W s a) by (unfold writer_stop; rewrite P, EB; intros H; decompose [ex and] H; discriminate).
      cbn [execute]. unfold cli_sign. unfold sign_block in EB. rewrite P, EB. cbn [snd]. split; [discriminate|tauto].
    + cbn [execute]. unfold cli_sign. unfold sign_block in EB. rewrite P, EB. cbn [snd]. tauto.
  - pose proof (sign_block_np (w_crypto W) (w_keys W) (w_rest W) (w_clock W) (w_reads W) s a Hl) as NP.
    destruct (sign_block Release W s a) as [[x b]|e|] eqn:EB; [| |contradiction].
    + rewrite (write_stage W s a x b Hl); [|rewrite P; exact EB|rewrite P; discriminate]. split; [tauto|intros [[? _]|?]; [discriminate|auto]].
    + assert (NW : ~ writer_stop W s a) by (unfold writer_stop; rewrite P, EB; intros H; decompose [ex and] H; discriminate).
      cbn [execute]. unfold cli_sign. unfold sign_block in EB. rewrite P, EB. cbn [snd]. split; [discriminate|].
      intros [[? _]|?]; [discriminate|contradiction].
Qed.
(** Where the padding stops a debug build, a release build reports the error. *)
Lemma gap_release W s a : gap_stop W s a -> execute (pick_build Release W) s (CSign a) = ([], Err EPaddingGap).
Proof.
  intros (signer & f & y & ps & (H1 & H2 & (x & H3 & H4) & (l & H5) & H6) & H7). cbn [execute pick_build w_profile w_crypto w_keys w_rest w_clock w_reads].
  unfold cli_sign, cli_sign_block. rewrite H1. cbn [bind]. cbv zeta. rewrite H2, H3. cbn [bind]. rewrite H4. cbn [bind]. rewrite H5. cbn [bind].
  rewrite H6. cbn [bind]. rewrite H7. reflexivity.
Qed.
(** The block without padding tells whether the padding fails. *)
Lemma gap_length C clk m l b : crypto_ok C -> Forall (fun p => canonical (fst p)) l -> ms_padding m = true ->
  ms_sign Release C clk (ms_set_padding m false) (digests_of_pairs l) = Ok b ->
  ms_sign Release C clk m (digests_of_pairs l) = Err EPaddingGap <-> 0 < pad_bytes (len (block_to_u8 b)) < 12.
Proof.
  intros HC Hl Hp H. pose proof (ms_sign_built _ _ _ _ _ _ HC Hl H) as HB. apply built_block_fresh in HB as (l0 & HF & -> & _).
  rewrite fresh_block_len by exact HF. change pad_bytes with gap.
  unfold ms_sign in *. unfold ms_set_padding in H. cbn [ms_v2 ms_stamp ms_timestamp ms_padding] in H.
  apply bind_Ok in H as (l1 & H1 & H). rewrite H1. cbn [bind]. apply bind_Ok in H as (l2 & H2 & H). rewrite H2. cbn [bind].
  destruct l2 as [|v l2]; [discriminate|]. unfold ms_finish in *. cbn [ms_padding] in H. rewrite Hp.
  unfold block_new in H. destruct (_ <? _); [discriminate|]. 
  assert (E : v :: l2 = l0) by (apply (f_equal (fun r => match r with Ok b => bk_content b | _ => [] end)) in H; exact H). rewrite E in *. clear H.
  rewrite padding_cases.
  replace (existsb _ l0) with false.
  - cbv zeta. destruct (N.ltb_spec 0 (gap (content_size l0 + 32))), (N.ltb_spec (gap (content_size l0 + 32)) 12); cbn [andb];
      [split; [auto|reflexivity]|..]; (destruct (_ <? _); split; [discriminate|lia|discriminate|lia]).
  - symmetry. apply not_true_iff_false. intros X. apply existsb_exists in X as (w & Hw & X).
    rewrite Forall_forall in HF. specialize (HF w Hw). subst l0.
    assert (Y : match w with V2Block _ | StampBlk _ => False | _ => True end).
    { destruct w; try exact I; destruct HF as (? & _ & ->); discriminate X. }
    clear HF X. destruct (ms_v2 m) as [c|].
    + apply bind_Ok in H1 as (c1 & _ & H1). apply bind_Ok in H1 as (v1 & _ & [= <-]). destruct (ms_stamp m) as [c2|].
      * apply bind_Ok in H2 as (c3 & _ & H2). apply bind_Ok in H2 as (v2 & _ & [= <- <-]). destruct Hw as [<-|[<-|[]]]; exact Y.
      * injection H2 as <- <-. destruct Hw as [<-|[]]; exact Y.
    + injection H1 as <-. destruct (ms_stamp m) as [c2|]; [|discriminate].
      apply bind_Ok in H2 as (c3 & _ & H2). apply bind_Ok in H2 as (v2 & _ & [= <- <-]). destruct Hw as [<-|[]]; exact Y.
Qed.
