(** MainFacts.v - proofs about Main.v. *)
From Verif Require Import Base BaseFacts Utils Algorithms Common SchemeV2 SourceStamp Utf8 ElfInfo SigningBlock
  Zip Digest Module Signable ZipSpec ZipFacts ModuleFacts ModuleProps RawFacts DebugFacts PropBlockFacts Signer Verifier ModuleVerify
  VerifySpec Keystore Elf ElfProps3 Cli CliSpec CliFacts CliProps Main MainSpec.
From Coq Require Import Lia.
Open Scope N_scope.

(** ** Which files are changed *)
Lemma copy_pieces_touch : forall fuel s inp out pos rem, Forall (touches out) (fst (copy_pieces fuel s inp out pos rem)).
Proof.
  induction fuel as [|fuel IH]; intros s inp out pos rem; cbn [copy_pieces]; destruct (rem =? 0); try constructor.
  cbv zeta. destruct (read_exact_at _ _ _) as [b|e|]; try constructor.
  specialize (IH (apply s (Append out b)) inp out (pos + N.min rem BUFFER_SIZE) (rem - N.min rem BUFFER_SIZE)).
  destruct (copy_pieces fuel _ _ _ _ _) as (l & r). cbn [fst] in *. constructor; [reflexivity|exact IH].
Qed.
Lemma copy_regions_touch : forall p l s inp out total, Forall (touches out) (fst (copy_regions p s inp out l total)).
Proof.
  intros p l. induction l as [|g l IH]; intros s inp out total; cbn [copy_regions]; [constructor|].
  destruct (seek _); try constructor.
  pose proof (copy_pieces_touch (copy_fuel s inp (rg_size g)) s inp out (rg_offset g) (rg_size g)) as H.
  destruct (copy_pieces _ _ _ _ _ _) as (w & r). cbn [fst] in H.
  destruct (do _ <- r; uadd p total (rg_size g)) as [t|e|]; try exact H.
  specialize (IH (run s w) inp out t). destruct (copy_regions _ _ _ _ _ _) as (w' & r'). cbn [fst] in *.
  now apply Forall_app.
Qed.
Lemma dump_touch p s inp o l : Forall (touches (fs_file s o)) (fst (dump_regions p s inp o l)).
Proof.
  unfold dump_regions. destruct (fs_read s inp); [|constructor]. destruct (fs_can_create s o); [|constructor]. cbv zeta.
  pose proof (copy_regions_touch p l (apply s (Truncate (fs_file s o))) (fs_file s inp) (fs_file s o) 0) as H.
  destruct (copy_regions _ _ _ _ _ _) as (w & r). cbn [fst] in *. constructor; [reflexivity|exact H].
Qed.

Lemma execute_touch W s c : match output_of c with
  | Some o => Forall (touches (fs_file s o)) (fst (execute W s c))
  | None => fst (execute W s c) = [] end.
Proof.
  destruct c as [a|file root|file|a]; cbn [output_of execute]; try reflexivity.
  - destruct (cli_sign _ _ _ _ _ _ _ _) as (l & r) eqn:E. apply sign_steps in E.
    destruct E as [(-> & _)|(x & b & w & _ & _ & -> & _)]; cbn [fst]; repeat constructor.
  - unfold cli_digest. cbv zeta.
    destruct (do x <- signable_open _ _; _) as [(x & l)|e|]; cbn [fst]; try (destruct (da_dump a); (reflexivity || constructor)).
    destruct (da_dump a) as [o|]; [|reflexivity].
    pose proof (dump_touch (w_profile W) s (da_input a) o l) as H. destruct (dump_regions _ _ _ _ _) as (w & r). exact H.
Qed.

Lemma program_execute W s c : program W s c = (fst (execute W s c), exit_status (snd (execute W s c))).
Proof. unfold program. destruct (execute W s c); reflexivity. Qed.

Lemma other_files W s c s' q : reached s (fst (program W s c)) s' ->
  (forall o, output_of c = Some o -> fs_file s q <> fs_file s o) -> fs_read s' q = fs_read s q.
Proof.
  rewrite program_execute. cbn [fst]. intros R H. pose proof (execute_touch W s c) as T.
  destruct (output_of c) as [o|].
  - destruct (reached_touch _ _ _ _ R T) as (A & B & D). unfold fs_read. rewrite A, B.
    destruct (fs_can_read s q); [|reflexivity]. apply D. now apply H.
  - rewrite T in R. inversion R; subst; reflexivity.
Qed.

(** ** No panic in a release build *)
Lemma of_option_np {A} e (o : option A) : of_option e o <> Panic. Proof. destruct o; discriminate. Qed.
Ltac np := repeat first
  [ discriminate
  | apply of_option_np
  | apply usub_release_no_panic
  | apply bind_no_panic; [|intros ? ?]
  | match goal with |- context [match ?x with _ => _ end] => destruct x end ].

Lemma elf_parse_np rest d : elf_parse rest d <> Panic.
Proof. unfold elf_parse. np. Qed.
Lemma lookup_np e l : lookup_sections e l <> Panic.
Proof. induction l as [|n l IH]; cbn [lookup_sections]; [discriminate|]. np. exact IH. Qed.
Lemma resolved_np rest f : resolved_sections rest f <> Panic.
Proof.
  unfold resolved_sections, collect_sections. apply bind_no_panic; [apply elf_parse_np|intros e _].
  apply bind_no_panic; [apply lookup_np|discriminate].
Qed.
Lemma open_np rest file : signable_open rest file <> Panic.
Proof.
  unfold signable_open. destruct file as [b|]; [|discriminate]. cbn [of_option bind].
  destruct (detect_spec b) as (_ & _ & D). apply bind_no_panic; [exact D|]. intros [] _; [discriminate|].
  apply bind_no_panic; [|discriminate]. unfold elf_new. apply bind_no_panic; [apply elf_parse_np|discriminate].
Qed.
Lemma choose_np x l : choose_sections x l <> Panic.
Proof. unfold choose_sections, set_elf_sections, set_signed_sections. destruct l; [discriminate|]. destruct x; np. Qed.

(** What is opened. *)
Lemma opened rest file x l y : signable_open rest (Some file) = Ok x -> choose_sections x l = Ok y ->
  match y with SModule m => m = module_new file | SElf f => el_data f = file end.
Proof.
  intros H1 H2. apply open_module in H1. apply choose_kind in H2. destruct x as [m|f].
  - now subst.
  - destruct H2 as (g & -> & Hg). congruence.
Qed.
Lemma opened_kind rest file x l y : signable_open rest (Some file) = Ok x -> choose_sections x l = Ok y ->
  match y with SModule _ => forall t, file <> ELFMAG ++ t | SElf _ => exists t, file = ELFMAG ++ t end.
Proof.
  intros H1 H2. unfold signable_open in H1. cbn [of_option bind] in H1.
  destruct (detect_file_format file) as [[]|e|] eqn:D; try discriminate; cbn [bind] in H1.
  - injection H1 as <-. apply choose_kind in H2. subst y. apply detect_spec in D. apply D.
  - apply bind_Ok in H1 as (f & _ & H1). injection H1 as <-. apply choose_kind in H2. destruct H2 as (g & -> & _).
    now apply detect_spec in D.
Qed.

Lemma regions_np (C : crypto) rest x file : len file < 2 ^ 63 ->
  match x with SModule m => m = module_new file | SElf f => el_data f = file end ->
  signable_regions Release rest x (Some file) <> Panic.
Proof.
  intros Hl Hx. destruct x as [m|f]; cbn [signable_regions now_content].
  - subst m. apply (c33_digest C (fun _ _ => 0) (module_new file) file ECDSA_SHA2_256); auto.
  - unfold elf_digest_regions. apply bind_no_panic; [apply resolved_np|discriminate].
Qed.
Lemma digest_np C rest ds x file a : len file < 2 ^ 63 ->
  match x with SModule m => m = module_new file | SElf f => el_data f = file end ->
  signable_digest Release C rest ds x (Some file) a <> Panic.
Proof.
  intros Hl Hx. destruct x as [m|f]; cbn [signable_digest now_content].
  - subst m. apply (c33_digest C (ds a) (module_new file) file a); auto.
  - unfold elf_digest. apply bind_no_panic; [apply resolved_np|discriminate].
Qed.
Lemma digests_np C rest ds x file l : len file < 2 ^ 63 ->
  match x with SModule m => m = module_new file | SElf f => el_data f = file end ->
  cli_digests Release C rest ds x (Some file) l <> Panic.
Proof.
  intros Hl Hx. induction l as [|a l IH]; cbn [cli_digests]; [discriminate|].
  apply bind_no_panic; [now apply digest_np|intros d _]. apply bind_no_panic; [exact IH|discriminate].
Qed.

Lemma creds_np L s k : load_credentials L s k <> Panic.
Proof.
  unfold load_credentials, path_str, load_p12, load_p12_from_bytes, load_pem, load_pem_from_bytes, read_to_string, parse_private_key_pem,
    parse_private_key_der, parse_certificate_chain_pem, parse_certificate_pem.
  np.
Qed.
Lemma signer_np L s a : cli_signer L s a <> Panic.
Proof.
  unfold cli_signer. apply bind_no_panic; [apply creds_np|intros v _]. apply bind_no_panic; [apply of_option_np|intros w _].
  apply bind_no_panic; [apply creds_np|intros [] _; discriminate].
Qed.
Lemma ms_sign_np C now m d : ms_sign Release C now m d <> Panic.
Proof.
  unfold ms_sign, ms_finish, block_new, block_new_with_padding, clone_config, clone_private_key, v2_sign, stamp_sign, stamp_attrs, algo_sign, public_key_der.
  cbv zeta. np.
Qed.
Lemma add_info_np rest x b : cli_add_info rest x b <> Panic.
Proof. unfold cli_add_info. destruct x; [discriminate|]. apply bind_no_panic; [apply resolved_np|discriminate]. Qed.

Lemma sign_block_np C L rest clk ds s a : (forall f, fs_read s (sa_input a) = Some f -> len f < 2 ^ 63) ->
  cli_sign_block Release C L rest clk ds s a <> Panic.
Proof.
  intros Hl. unfold cli_sign_block. apply bind_no_panic; [apply signer_np|intros signer _]. cbv zeta.
  destruct (fs_read s (sa_input a)) as [file|]; [|discriminate]. specialize (Hl file eq_refl).
  apply bind_no_panic; [apply open_np|intros x Hx]. apply bind_no_panic; [apply choose_np|intros y Hy].
  pose proof (opened _ _ _ _ _ Hx Hy) as O.
  apply bind_no_panic; [now apply (regions_np C)|intros l _]. apply bind_no_panic; [now apply digests_np|intros ps _].
  apply bind_no_panic; [apply ms_sign_np|intros b _]. apply bind_no_panic; [apply add_info_np|discriminate].
Qed.

Lemma module_write_np file b : len file < 2 ^ 63 ->
  snd (s_write_with_signature Release (module_new file) file b) <> Panic.
Proof.
  intros Hl. assert (Hu : len file < U64) by (unfold U64; lia).
  unfold s_write_with_signature.
  assert (S : s_source Release (module_new file) file <> Panic).
  { unfold s_source. pose proof (get_sb_release_no_panic (module_new file) file eq_refl Hu) as G.
    destruct (m_get_signing_block Release (module_new file) file) as [b'|x|] eqn:E; [|destruct (maybe_missing_signature x)|congruence].
    - apply bind_no_panic.
      + unfold m_get_raw_module. cbn [module_new m_raw]. change (mkModule false (len file) None) with (module_new file). rewrite E. cbn [bind].
        apply bind_no_panic; [apply usub_release_no_panic|intros n _].
        apply bind_no_panic; [apply of_option_np|intros h _].
        apply bind_no_panic; [unfold m_find_eocd; apply find_eocd_no_panic|intros e _].
        destruct (_ <? _); [discriminate|]. cbv zeta.
        apply bind_no_panic; [apply usub_release_no_panic|intros m _]. apply bind_no_panic; [apply of_option_np|discriminate].
      + intros raw _. apply bind_no_panic; [apply find_eocd_no_panic|discriminate].
    - apply bind_no_panic; [apply find_eocd_no_panic|discriminate].
    - discriminate. }
  destruct (s_source Release (module_new file) file) as [(raw & e)|x|]; [|discriminate|congruence].
  unfold s_write_raw. cbv zeta. destruct (_ <? _); [discriminate|].
  pose proof (usub_release_no_panic (len raw) (eo_off e)) as U. destruct (usub Release (len raw) (eo_off e)); [|discriminate|congruence].
  destruct (get_range raw 0 _); [|discriminate]. destruct (get_range raw _ _); [|discriminate]. cbn [debug_assert]. discriminate.
Qed.

Lemma sign_release W s a : w_profile W = Release ->
  (forall f, fs_read s (sa_input a) = Some f -> len f < 2 ^ 63) -> snd (execute W s (CSign a)) = Panic ->
  exists t e sh, fs_read s (sa_input a) = Some (ELFMAG ++ t) /\ elf_parse (w_rest W) (ELFMAG ++ t) = Ok e /\ shstrtab_header e = Some sh /\
    (2 ^ 59 < len (ELFMAG ++ t) \/ 2 ^ 62 < sh_addralign sh \/
     exists x b, cli_sign_block Release (w_crypto W) (w_keys W) (w_rest W) (w_clock W) (w_reads W) s a = Ok (x, b) /\ 2 ^ 59 < len (block_to_u8 b)).
Proof.
  intros HP Hl. cbn [execute]. rewrite HP. destruct (cli_sign _ _ _ _ _ _ _ _) as (steps & r) eqn:E. cbn [snd]. intros ->.
  unfold cli_sign in E. pose proof (sign_block_np (w_crypto W) (w_keys W) (w_rest W) (w_clock W) (w_reads W) s a Hl) as NP.
  destruct (cli_sign_block Release (w_crypto W) (w_keys W) (w_rest W) (w_clock W) (w_reads W) s a) as [(x & b)|e|] eqn:EB; [|discriminate|congruence].
  destruct (fs_can_create s (sa_output a)); [|discriminate]. cbv zeta in E.
  pose proof EB as EB'. unfold cli_sign_block in EB'. apply bind_Ok in EB' as (signer & _ & EB'). cbv zeta in EB'.
  destruct (fs_read s (sa_input a)) as [file|] eqn:F; [|discriminate]. specialize (Hl file eq_refl).
  apply bind_Ok in EB' as (x0 & H0 & EB'). apply bind_Ok in EB' as (x1 & H1 & EB').
  apply bind_Ok in EB' as (l0 & _ & EB'). apply bind_Ok in EB' as (l1 & _ & EB'). apply bind_Ok in EB' as (b1 & _ & EB').
  apply bind_Ok in EB' as (b2 & _ & EB'). injection EB' as -> <-.
  pose proof (opened _ _ _ _ _ H0 H1) as O. pose proof (opened_kind _ _ _ _ _ H0 H1) as OK.
  destruct x as [m|f].
  - exfalso. subst m. destruct (N.eq_dec (fs_file s (sa_input a)) (fs_file s (sa_output a))) as [Eq|Ne].
    + rewrite (truncate_same _ _ (sa_input a)) in E; [|auto|].
      2:{ unfold fs_read in F. destruct (fs_can_read s (sa_input a)); [reflexivity|discriminate]. }
      cbn [signable_write now_content] in E. unfold module_new in E. destruct (source_empty Release (len file) b2) as (x & X).
      rewrite X in E. discriminate.
    + rewrite truncate_read, F in E by auto. cbn [signable_write now_content] in E.
      pose proof (module_write_np file b2 Hl) as G. destruct (s_write_with_signature _ _ _ _) as (w & r). injection E as <- ->. now apply G.
  - destruct OK as (t & ->). subst. cbn [signable_write] in E. exists t.
    assert (EP : elf_write_with_signature (w_rest W) f b2 = Panic).
    { destruct (elf_write_with_signature (w_rest W) f b2); [discriminate|discriminate|reflexivity]. }
    destruct (elf_parse (w_rest W) (el_data f)) as [e|e|] eqn:PE.
    2:{ unfold elf_write_with_signature in EP. rewrite PE in EP. discriminate. }
    2:{ now apply elf_parse_np in PE. }
    destruct (shstrtab_header e) as [sh|] eqn:SH.
    2:{ unfold elf_write_with_signature in EP. rewrite PE in EP. cbn [bind] in EP. unfold load_shstrtab in EP. rewrite SH in EP. discriminate. }
    exists e, sh. rewrite O in PE. split; [reflexivity|]. split; [exact PE|]. split; [exact SH|].
    destruct (N.lt_ge_cases (2 ^ 59) (len (ELFMAG ++ t))) as [|G1]; [auto|].
    destruct (N.lt_ge_cases (2 ^ 62) (sh_addralign sh)) as [|G2]; [auto|].
    destruct (N.lt_ge_cases (2 ^ 59) (len (block_to_u8 b2))) as [|G3]; [right; right; eauto|]. exfalso.
    rewrite <- O in PE. apply (c68_safe (w_rest W) f b2 e PE); auto; [rewrite O; exact G1|].
    intros s0 S0. rewrite SH in S0. injection S0 as <-. exact G2.
Qed.

(** ** verify and info *)
Lemma roots_np K builtin s root : cli_roots K builtin s root <> Panic.
Proof. unfold cli_roots. destruct root; [|discriminate]. apply bind_no_panic; [apply of_option_np|intros]. apply of_option_np. Qed.

Lemma conclusion_np v2 st : cli_conclusion v2 st <> Panic.
Proof. unfold cli_conclusion. np. Qed.

Lemma verify_end_np {A} p C ds f (ctx : context) (k : context -> res A) a :
  m_digest p C (ds a) (module_new f) f a <> Panic -> (forall c, k c <> Panic) ->
  (do c <- cli_add_digest p C ds (module_new f) f a ctx; k c) <> Panic.
Proof.
  intros H K. unfold cli_add_digest. destruct (m_digest p C (ds a) (module_new f) f a); cbn [bind]; [apply K|apply K|congruence].
Qed.

Lemma get_sb_debug f : m_get_signing_block Debug (module_new f) f = Panic <-> stops_block f.
Proof.
  unfold m_get_signing_block, m_find_eocd, stops_block, sizes_differ. cbn [module_new m_sig m_raw m_len].
  destruct (find_eocd f (len f)) as [e|x|] eqn:E; cbn [bind].
  - rewrite c10_reader_exact. split; [eauto|]. intros (e' & [= <-] & H). exact H.
  - split; [discriminate|intros (e & ? & _); discriminate].
  - destruct (find_eocd_no_panic f E).
Qed.
Lemma get_sb_same f : ~ stops_block f -> m_get_signing_block Debug (module_new f) f = m_get_signing_block Release (module_new f) f.
Proof.
  intros H. rewrite <- get_sb_debug in H. unfold m_get_signing_block, m_find_eocd in *. cbn [module_new m_sig m_raw m_len] in *.
  destruct (find_eocd f (len f)) as [e|x|]; cbn [bind] in *; try reflexivity.
  destruct (c10_reader_same f (len f - eo_cd_offset e)); [contradiction|assumption].
Qed.
Lemma get_sb_block f e : find_eocd f (len f) = Ok e -> m_get_signing_block Release (module_new f) f = block_of f e.
Proof. intros H. unfold m_get_signing_block, m_find_eocd, block_of. cbn [module_new m_sig m_raw m_len]. now rewrite H. Qed.

(** The debug build and digests. *)
Lemma digest_debug C sched f a : len f < 2 ^ 63 ->
  (m_digest Debug C sched (module_new f) f a = Panic <-> stops_block f \/ stops_signed f \/ stops_unsigned f) /\
  (m_digest_regions Debug (module_new f) f = Panic <-> stops_block f \/ stops_signed f \/ stops_unsigned f).
Proof.
  intros Hl. destruct (c33_debug_exact C sched f a Hl) as (H1 & H2). rewrite H1, H2.
  assert (X : (exists e, find_eocd f (len f) = Ok e /\
    match m_get_signing_block Debug (module_new f) f with
    | Ok b => eo_off e < bk_end b
    | Err x => maybe_missing_signature x = true /\ eo_off e < eo_cd_offset e
    | Panic => True
    end) <-> stops_block f \/ stops_signed f \/ stops_unsigned f); [|split; exact X]. split.
  - intros (e & E & H). destruct (m_get_signing_block Debug (module_new f) f) as [b|x|] eqn:B.
    + right; left. exists e, b. split; [exact E|]. split; [|exact H]. rewrite <- (get_sb_block f e E), <- B. symmetry. apply get_sb_same.
      intros S. apply get_sb_debug in S. congruence.
    + right; right. exists e, x. split; [exact E|]. split; [|exact H]. rewrite <- (get_sb_block f e E), <- B. symmetry. apply get_sb_same.
      intros S. apply get_sb_debug in S. congruence.
    + left. now apply get_sb_debug.
  - intros H.
    assert (D : stops_block f \/ ~ stops_block f).
    { rewrite <- get_sb_debug. destruct (m_get_signing_block Debug (module_new f) f); [right|right|left]; (discriminate || reflexivity). }
    destruct D as [D|D].
    + pose proof D as (e & E & _). exists e. split; [exact E|]. apply get_sb_debug in D. now rewrite D.
    + rewrite (get_sb_same f D). destruct H as [H|[(e & b & E & B & H)|(e & x & E & B & H)]]; [contradiction| |];
        exists e; (split; [exact E|]); rewrite (get_sb_block f e E), B; exact H.
Qed.

Lemma verify_panic W s file root : (forall f, fs_read s file = Some f -> len f < 2 ^ 63) ->
  snd (execute W s (CVerify file root)) = Panic <->
  w_profile W = Debug /\ exists f, fs_read s file = Some f /\
    (stops_block f \/ stops_signed f /\ exists roots, roots_given (w_pki W) (w_builtin W) s root roots).
Proof.
  intros Hl. cbn [execute snd]. unfold cli_verify. destruct (fs_read s file) as [f|]; cbn [of_option bind].
  2:{ split; [discriminate|intros (_ & f & ? & _); discriminate]. }
  specialize (Hl f eq_refl). assert (Hu : len f < U64) by (unfold U64; lia). cbv zeta.
  destruct (w_profile W) eqn:HP.
  2:{ split; [|intros (? & _); discriminate]. intros E. exfalso. revert E.
      pose proof (get_sb_release_no_panic (module_new f) f eq_refl Hu) as G.
      destruct (m_get_signing_block Release (module_new f) f) as [b|x|]; cbn [map_err bind]; [|discriminate|congruence].
      apply bind_no_panic; [apply roots_np|intros roots _].
      apply verify_end_np; [apply (c33_digest (w_crypto W) (w_reads W ECDSA_SHA2_256) (module_new f) f ECDSA_SHA2_256); auto|intros c1].
      apply verify_end_np; [apply (c33_digest (w_crypto W) (w_reads W ECDSA_SHA2_512) (module_new f) f ECDSA_SHA2_512); auto|intros c2].
      destruct c2; [discriminate|apply conclusion_np]. }
  assert (DD : forall a, m_digest Debug (w_crypto W) (w_reads W a) (module_new f) f a = Panic <-> stops_block f \/ stops_signed f \/ stops_unsigned f)
    by (intros a; now apply digest_debug).
  destruct (m_get_signing_block Debug (module_new f) f) as [b|x|] eqn:B; cbn [map_err bind].
  - assert (NB : ~ stops_block f) by (intros S; apply get_sb_debug in S; congruence).
    assert (NU : ~ stops_unsigned f).
    { intros (e & x & E & X & _). rewrite (get_sb_same f NB), (get_sb_block f e E) in B. congruence. }
    destruct (cli_roots (w_pki W) (w_builtin W) s root) as [tr|x|] eqn:R; cbn [bind].
    + apply cli_roots_iff in R. destruct R as (roots & RG & ->).
      assert (X : (do ctx <- cli_add_digest Debug (w_crypto W) (w_reads W) (module_new f) f ECDSA_SHA2_256 ctx_new;
        do ctx0 <- cli_add_digest Debug (w_crypto W) (w_reads W) (module_new f) f ECDSA_SHA2_512 ctx;
        match ctx0 with
        | [] => Err (ECli 17)
        | _ => cli_conclusion (verify_v2_with_digest (w_crypto W) (w_pki W) (w_clock W) (configured (w_pki W) roots) b (Some ctx0))
                 (verify_source_stamp_with_digest (w_crypto W) (w_pki W) (w_clock W) (configured (w_pki W) roots) b (Some ctx0))
        end) = Panic <-> stops_signed f).
      { split.
        - intros H. assert (Z : m_digest Debug (w_crypto W) (w_reads W ECDSA_SHA2_256) (module_new f) f ECDSA_SHA2_256 = Panic \/
            m_digest Debug (w_crypto W) (w_reads W ECDSA_SHA2_512) (module_new f) f ECDSA_SHA2_512 = Panic).
          { destruct (m_digest Debug (w_crypto W) (w_reads W ECDSA_SHA2_256) (module_new f) f ECDSA_SHA2_256) eqn:E1; [| |auto];
            (destruct (m_digest Debug (w_crypto W) (w_reads W ECDSA_SHA2_512) (module_new f) f ECDSA_SHA2_512) eqn:E2; [| |auto]);
            exfalso; revert H; (apply verify_end_np; [congruence|intros c1]); (apply verify_end_np; [congruence|intros c2]);
            (destruct c2; [discriminate|apply conclusion_np]). }
          destruct Z as [Z|Z]; apply DD in Z; tauto.
        - intros H. unfold cli_add_digest. rewrite (proj2 (DD ECDSA_SHA2_256)) by auto. reflexivity. }
      rewrite X. split.
      * intros H. split; [reflexivity|]. exists f. eauto 6.
      * intros (_ & f' & [= <-] & [H|(H & _)]); [contradiction|exact H].
    + split; [discriminate|]. intros (_ & f' & [= <-] & [H|(_ & roots & RG)]); [contradiction|]. exfalso.
      assert (Y : cli_roots (w_pki W) (w_builtin W) s root = Ok (configured (w_pki W) roots)) by (apply cli_roots_iff; eauto). congruence.
    + now apply roots_np in R.
  - assert (NB : ~ stops_block f) by (intros S; apply get_sb_debug in S; congruence).
    split; [discriminate|]. intros (_ & f' & [= <-] & [H|((e & b & E & X & _) & _)]); [contradiction|].
    rewrite (get_sb_same f NB), (get_sb_block f e E) in B. congruence.
  - split; [|reflexivity]. intros _. split; [reflexivity|]. exists f. split; [reflexivity|]. left. now apply get_sb_debug.
Qed.

Lemma info_panic W s file : (forall f, fs_read s file = Some f -> len f < U64) ->
  snd (execute W s (CInfo file)) = Panic <->
  w_profile W = Debug /\ exists f, fs_read s file = Some f /\ sizes_differ f 0.
Proof.
  intros Hl. cbn [execute snd]. unfold cli_info, sizes_differ. destruct (fs_read s file) as [f|]; cbn [of_option bind].
  2:{ split; [discriminate|intros (_ & f & ? & _); discriminate]. }
  specialize (Hl f eq_refl). destruct (w_profile W).
  - destruct (from_reader Debug f (len f) 0) as [b|x|] eqn:B; cbn [bind].
    + split; [discriminate|]. intros (_ & f' & [= <-] & H). apply c10_reader_exact in H. congruence.
    + split; [discriminate|]. intros (_ & f' & [= <-] & H). apply c10_reader_exact in H. congruence.
    + split; [|reflexivity]. intros _. split; [reflexivity|]. exists f. split; [reflexivity|]. now apply c10_reader_exact.
  - split; [|intros (? & _); discriminate]. intros E. exfalso. revert E. apply bind_no_panic; [|discriminate].
    apply bind_no_panic; [|discriminate]. apply (c10_reader f 0 Hl).
Qed.

(** ** digest *)
Lemma copy_pieces_np : forall fuel s inp out pos rem, snd (copy_pieces fuel s inp out pos rem) <> Panic.
Proof.
  induction fuel as [|fuel IH]; intros s inp out pos rem; cbn [copy_pieces]; destruct (rem =? 0); try discriminate.
  cbv zeta. unfold read_exact_at. destruct (get_range _ _ _) as [b|]; [|discriminate].
  specialize (IH (apply s (Append out b)) inp out (pos + N.min rem BUFFER_SIZE) (rem - N.min rem BUFFER_SIZE)).
  destruct (copy_pieces fuel _ _ _ _ _) as (l & r). exact IH.
Qed.
Lemma uadd_panic p a b : uadd p a b = Panic <-> p = Debug /\ U64 <= a + b.
Proof.
  unfold uadd. destruct (N.ltb_spec (a + b) U64); [split; [discriminate|intros (_ & ?); lia]|].
  destruct p; split; auto; try discriminate. intros (? & _). discriminate.
Qed.
Lemma uadd_sum a b c : uadd Debug a b = Ok c -> c = a + b.
Proof. unfold uadd. destruct (_ <? _); [intros [= <-]; reflexivity|discriminate]. Qed.
Lemma copy_regions_panic : forall p l s inp out total, snd (copy_regions p s inp out l total) = Panic ->
  p = Debug /\ U64 <= total + sizes l.
Proof.
  intros p l. induction l as [|g l IH]; intros s inp out total; cbn [copy_regions]; [discriminate|].
  pose proof (seek_no_panic (rg_offset g)) as S. destruct (seek _); [|discriminate|congruence].
  pose proof (copy_pieces_np (copy_fuel s inp (rg_size g)) s inp out (rg_offset g) (rg_size g)) as N.
  destruct (copy_pieces _ _ _ _ _ _) as (w & r). cbn [snd] in N. cbn [sizes fold_right]. change (fold_right _ 0 l) with (sizes l).
  destruct r as [u|e|]; cbn [bind]; [|discriminate|congruence].
  destruct (uadd p total (rg_size g)) as [t|e|] eqn:A.
  - specialize (IH (run s w) inp out t). destruct (copy_regions _ _ _ _ _ _) as (w' & r'). cbn [snd] in *. intros ->.
    destruct (IH eq_refl) as (-> & H). split; [reflexivity|]. apply uadd_sum in A. lia.
  - discriminate.
  - intros _. apply uadd_panic in A. destruct A as (-> & A). split; [reflexivity|lia].
Qed.
Lemma dump_panic p s inp o l : snd (dump_regions p s inp o l) = Panic -> p = Debug /\ U64 <= sizes l.
Proof.
  unfold dump_regions. destruct (fs_read s inp); [|discriminate]. destruct (fs_can_create s o); [|discriminate]. cbv zeta.
  pose proof (copy_regions_panic p l (apply s (Truncate (fs_file s o))) (fs_file s inp) (fs_file s o) 0) as H.
  destruct (copy_regions _ _ _ _ _ _) as (w & r). exact H.
Qed.
Lemma total_panic p l : forall acc, total_size p l acc = Panic <-> p = Debug /\ acc < U64 /\ U64 <= acc + sizes l \/ p = Debug /\ l <> [] /\ U64 <= acc.
Proof.
  induction l as [|g l IH]; intros acc; cbn [total_size sizes fold_right]; [split; [discriminate|intros [(_ & ? & ?)|(_ & ? & _)]; [lia|congruence]]|].
  change (fold_right _ 0 l) with (sizes l).
  destruct (uadd p acc (rg_size g)) as [t|e|] eqn:A; cbn [bind].
  - rewrite IH. destruct p.
    + assert (L : acc + rg_size g < U64).
      { destruct (N.lt_ge_cases (acc + rg_size g) U64) as [L|L]; [exact L|]. rewrite (proj2 (uadd_panic Debug acc (rg_size g))) in A by auto. discriminate. }
      apply uadd_sum in A. subst t. split.
      * intros [(_ & H1 & H2)|(_ & H1 & H2)]; [left; split; [reflexivity|lia]|lia].
      * intros [(_ & H1 & H2)|(_ & H1 & H2)]; [left; split; [reflexivity|lia]|lia].
    + split; intros [(? & _)|(? & _)]; discriminate.
  - exfalso. unfold uadd in A. destruct (_ <? _), p; discriminate.
  - split; [|reflexivity]. intros _. apply uadd_panic in A. destruct A as (-> & A).
    destruct (N.lt_ge_cases acc U64); [left; split; [reflexivity|lia]|right]. split; [reflexivity|]. split; [discriminate|assumption].
Qed.

(** The regions of a module do not overflow. *)
Lemma module_sizes f l : len f < 2 ^ 63 -> m_digest_regions Debug (module_new f) f = Ok l -> sizes l < U64.
Proof.
  intros Hl H. unfold m_digest_regions in H. apply bind_Ok in H as (o & Ho & H).
  apply bind_Ok in H as (n1 & H1 & H). apply bind_Ok in H as (n2 & H2 & H). apply bind_Ok in H as (n3 & H3 & H). injection H as <-.
  assert (Hu : len f < U64) by (unfold U64; lia).
  assert (S : forall a b n, usub Debug a b = Ok n -> n = a - b).
  { intros a b n. unfold usub. destruct (_ <=? _); [intros [= <-]; reflexivity|discriminate]. }
  apply S in H1, H2, H3. cbn [sizes fold_right rg_size].
  destruct (offsets_shape Debug (module_new f) f o eq_refl eq_refl Hu Ho) as (E1 & E2 & E3).
  assert (B : fo_stop_content o <= 2 ^ 63 /\ fo_stop_cd o <= fo_start_eocd o).
  { unfold m_get_offsets, m_find_eocd in Ho. cbn [module_new m_len m_raw] in Ho. change (mkModule false (len f) None) with (module_new f) in Ho.
    apply bind_Ok in Ho as (e & He & Ho).
    destruct (m_get_signing_block Debug (module_new f) f) as [b|x|] eqn:B; [| |discriminate].
    - injection Ho as <-. cbn [offsets_new fo_stop_content fo_stop_cd fo_start_eocd]. split; [|lia].
      destruct (get_sb_ok Debug f b Hu B) as (e' & raw & _ & G & _). apply get_range_spec in G. lia.
    - destruct (maybe_missing_signature x); [|discriminate]. injection Ho as <-. cbn [offsets_without_signature offsets_new fo_stop_content fo_stop_cd fo_start_eocd].
      split; [|lia]. destruct (find_eocd_inv f e He) as [(Hr & _) Ee]. destruct (eocd_at_bytes f (eo_off e) Hr) as (Hfl & _). rewrite <- Ee in Hfl.
      assert (Q : eo_cd_offset e < U32) by apply Hfl. unfold U32 in Q. lia. }
  unfold U64. lia.
Qed.

Lemma digest_panic W s a : (forall f, fs_read s (da_input a) = Some f -> len f < 2 ^ 63) ->
  snd (execute W s (CDigest a)) = Panic <->
  w_profile W = Debug /\ exists f x y, fs_read s (da_input a) = Some f /\ signable_open (w_rest W) (Some f) = Ok x /\
    choose_sections x (da_sections a) = Ok y /\
    match y with
    | SModule _ => stops_block f \/ stops_signed f \/ stops_unsigned f
    | SElf g => exists l, elf_digest_regions (w_rest W) g = Ok l /\ 2 ^ 64 <= sizes l
    end.
Proof.
  intros Hl. cbn [execute]. unfold cli_digest. cbv zeta.
  destruct (fs_read s (da_input a)) as [f|].
  2:{ cbn. split; [discriminate|intros (_ & f & x & y & ? & _); discriminate]. }
  specialize (Hl f eq_refl).
  destruct (signable_open (w_rest W) (Some f)) as [x|e|] eqn:E1; cbn [bind snd].
  2:{ split; [discriminate|]. intros (_ & f' & x & y & [= <-] & H & _). congruence. }
  2:{ now apply open_np in E1. }
  destruct (choose_sections x (da_sections a)) as [y|e|] eqn:E2; cbn [bind snd].
  2:{ split; [discriminate|]. intros (_ & f' & x' & y & [= <-] & H & H' & _). congruence. }
  2:{ now apply choose_np in E2. }
  pose proof (opened _ _ _ _ _ E1 E2) as O.
  assert (Q : forall P : signable -> Prop, (exists f' x' y', Some f = Some f' /\ signable_open (w_rest W) (Some f') = Ok x' /\
     choose_sections x' (da_sections a) = Ok y' /\ P y') <-> P y).
  { intros P. split.
    - intros (f' & x' & y' & [= <-] & H1 & H2 & H3). congruence.
    - intros H. exists f, x, y. auto. }
  assert (T : forall p l, (if match total_size p l 0 with Panic => true | _ => false end then True else False) <-> p = Debug /\ U64 <= sizes l).
  { intros p l. destruct (total_size p l 0) eqn:E.
    - split; [intros []|]. intros (-> & H). assert (X : total_size Debug l 0 = Panic) by (apply total_panic; left; split; [reflexivity|unfold U64 in *; lia]). congruence.
    - split; [intros []|]. intros (-> & H). assert (X : total_size Debug l 0 = Panic) by (apply total_panic; left; split; [reflexivity|unfold U64 in *; lia]). congruence.
    - split; [|auto]. intros _. apply total_panic in E. destruct E as [(-> & _ & E)|(_ & _ & E)]; [split; [reflexivity|lia]|unfold U64 in E; lia]. }
  assert (End : forall p l, w_profile W = p -> signable_regions p (w_rest W) y (Some f) = Ok l ->
    (p = Debug -> signable_digest p (w_crypto W) (w_rest W) (w_reads W) y (Some f) (if da_sha512 a then ECDSA_SHA2_512 else ECDSA_SHA2_256) <> Panic) ->
    (snd (let '(l0, r) := match (do _ <- total_size p l 0; Ok (y, l)) with
           | Ok (x0, l0) => match da_dump a with
              | Some out => let '(w, r) := dump_regions p s (da_input a) out l0 in (w, do _ <- r; Ok None)
              | None => ([], do d <- signable_digest p (w_crypto W) (w_rest W) (w_reads W) x0 (Some f) (if da_sha512 a then ECDSA_SHA2_512 else ECDSA_SHA2_256);
                             Ok (Some (match da_format a with Hex => hex_encode d | Base64 => w_base64 W d end)))
              end
           | Err e => ([], Err e) | Panic => ([], Panic) end in (l0, do _ <- r; Ok tt)) = Panic <-> p = Debug /\ U64 <= sizes l)).
  { intros p l HP HR HD. specialize (T p l). destruct (total_size p l 0) as [t|e|]; cbn [bind].
    - assert (N : ~ (p = Debug /\ U64 <= sizes l)) by tauto. split; [|tauto]. intros H. exfalso. revert H.
      destruct (da_dump a) as [out|].
      + pose proof (dump_panic p s (da_input a) out l) as D. destruct (dump_regions p s (da_input a) out l) as (w & r). cbn [snd] in *.
        destruct r; cbn [bind]; try discriminate. intros _. now apply N, D.
      + cbn [snd]. apply bind_no_panic; [|discriminate]. apply bind_no_panic; [|discriminate].
        destruct p; [now apply HD|now apply digest_np].
    - split; [discriminate|]. tauto.
    - cbn [snd]. tauto. }
  destruct (w_profile W) eqn:HP.
  - destruct y as [m|g].
    + subst m. cbn [signable_regions now_content].
      destruct (digest_debug (w_crypto W) (w_reads W (if da_sha512 a then ECDSA_SHA2_512 else ECDSA_SHA2_256)) f (if da_sha512 a then ECDSA_SHA2_512 else ECDSA_SHA2_256) Hl) as (D1 & D2).
      destruct (m_digest_regions Debug (module_new f) f) as [l|e|] eqn:R; cbn [bind snd].
      * rewrite (End Debug l eq_refl R). 2:{ intros _ H. cbn [signable_digest now_content] in H. apply D1, D2 in H. discriminate. }
        pose proof (module_sizes f l Hl R) as B. split; [intros (_ & ?); lia|].
        intros (_ & f' & x' & y' & [= <-] & H1 & H2 & H3). rewrite E1 in H1. injection H1 as <-. rewrite E2 in H2. injection H2 as <-.
        apply D2 in H3. discriminate.
      * split; [discriminate|]. intros (_ & f' & x' & y' & [= <-] & H1 & H2 & H3). rewrite E1 in H1. injection H1 as <-. rewrite E2 in H2. injection H2 as <-.
        apply D2 in H3. discriminate.
      * split; [|reflexivity]. intros _. split; [reflexivity|]. exists f, x, (SModule (module_new f)). split; [reflexivity|]. split; [exact E1|]. split; [exact E2|]. now apply D2.
    + cbn [signable_regions]. destruct (elf_digest_regions (w_rest W) g) as [l|e|] eqn:R; cbn [bind snd].
      * rewrite (End Debug l eq_refl R). 2:{ intros _. cbn [signable_digest]. unfold elf_digest. apply bind_no_panic; [apply resolved_np|discriminate]. }
        split.
        { intros (_ & H). split; [reflexivity|]. exists f, x, (SElf g). split; [reflexivity|]. split; [exact E1|]. split; [exact E2|]. exists l. auto. }
        { intros (_ & f' & x' & y' & [= <-] & H1 & H2 & H3). rewrite E1 in H1. injection H1 as <-. rewrite E2 in H2. injection H2 as <-.
          destruct H3 as (l' & H3 & H4). rewrite R in H3. injection H3 as <-. auto. }
      * split; [discriminate|]. intros (_ & f' & x' & y' & [= <-] & H1 & H2 & H3). rewrite E1 in H1. injection H1 as <-. rewrite E2 in H2. injection H2 as <-.
        destruct H3 as (l' & H3 & H4). congruence.
      * exfalso. revert R. unfold elf_digest_regions. apply bind_no_panic; [apply resolved_np|discriminate].
  - split; [|intros (? & _); discriminate]. intros H. exfalso.
    pose proof (regions_np (w_crypto W) (w_rest W) y f Hl O) as RN.
    destruct (signable_regions Release (w_rest W) y (Some f)) as [l|e|] eqn:R; cbn [bind snd] in H; [|discriminate|now apply RN].
    apply (End Release l eq_refl R) in H; [destruct H; discriminate|discriminate].
Qed.
