(** CliProps2.v - sign followed by verify; two accepted files; sections and
    regions of the digest command. *)
From Verif Require Import Base BaseFacts Utils Algorithms Common SchemeV2 SourceStamp Utf8 ElfInfo SigningBlock
  Wire Built BuiltFacts CodecFacts BlockFacts SearchFacts InjFacts Spec LimitFacts Zip Digest Module Signable ZipSpec RegionSpec ZipFacts
  DigestFacts ModuleFacts ModuleProps RawFacts Signer Verifier ModuleVerify VerifySpec VerifyFacts SignSpec SignFacts VerifyProps
  EndToEnd Keystore KeySpec KeyFacts Elf Cli CliSpec CliFacts CliProps.
From Coq Require Import Bool Lia.
Open Scope N_scope.

(** ** The signer *)
Lemma load_credentials_algo : forall L s k c, load_credentials L s k = Ok (Some c) -> cr_algo c = algo_of_key (cr_key c).
Proof.
  intros L s k c H. unfold load_credentials in H. destruct (ka_p12 k) as [p12|].
  - destruct (ka_password k) as [pwd|]; cbn [of_option bind] in H; [|discriminate].
    destruct (path_str p12) as [q| |]; cbn [bind] in H; try discriminate.
    unfold load_p12 in H. destruct (fs_read s q) as [d|]; cbn [bind] in H; [|discriminate].
    destruct (load_p12_from_bytes L d pwd) as [c'| |] eqn:E; cbn [bind] in H; try discriminate.
    injection H as <-. now apply c58_p12 in E.
  - destruct (ka_key k) as [key|]; [|discriminate].
    destruct (ka_cert k) as [cert|]; cbn [of_option bind] in H; [|discriminate].
    destruct (path_str key) as [kp| |]; cbn [bind] in H; try discriminate.
    destruct (path_str cert) as [cp| |]; cbn [bind] in H; try discriminate.
    unfold load_pem in H. destruct (read_to_string (fs_read s kp)) as [x| |]; cbn [bind] in H; try discriminate.
    destruct (read_to_string (fs_read s cp)) as [y| |]; cbn [bind] in H; try discriminate.
    destruct (load_pem_from_bytes L x y (ka_password k)) as [c'| |] eqn:E; cbn [bind] in H; try discriminate.
    injection H as <-. now apply c58_pem in E.
Qed.

Lemma cli_signer_spec : forall L s a m, cli_signer L s a = Ok m ->
  ms_padding m = true /\ ms_timestamp m = true /\ ms_v2 m <> None /\
  forall c, ms_v2 m = Some c \/ ms_stamp m = Some c -> sc_algo c = algo_of_key (sc_key c).
Proof.
  intros L s a m H. unfold cli_signer in H.
  destruct (load_credentials L s (sa_v2 a)) as [[v2|]| |] eqn:E1; cbn [of_option bind] in H; try discriminate.
  destruct (load_credentials L s (sa_stamp a)) as [[st|]| |] eqn:E2; cbn [bind] in H; try discriminate;
    injection H as <-; cbn [ms_with_stamp ms_v2_only ms_padding ms_timestamp ms_v2 ms_stamp];
    (split; [reflexivity|]; split; [reflexivity|]; split; [discriminate|]); intros c [[= <-]|Hc].
  - cbn. now apply load_credentials_algo in E1.
  - injection Hc as <-. cbn. now apply load_credentials_algo in E2.
  - cbn. now apply load_credentials_algo in E1.
  - discriminate.
Qed.

Lemma cli_digests_spec : forall p C rest ds x file l r, cli_digests p C rest ds x file l = Ok r ->
  map fst r = l /\ forall a d, In (a, d) r -> signable_digest p C rest ds x file a = Ok d.
Proof.
  intros p C rest ds x file l. induction l as [|a l IH]; intros r H; cbn [cli_digests] in H.
  - injection H as <-. split; [reflexivity|]. intros ? ? [].
  - destruct (signable_digest p C rest ds x file a) as [d| |] eqn:E; cbn [bind] in H; try discriminate.
    destruct (cli_digests p C rest ds x file l) as [r'| |]; cbn [bind] in H; try discriminate.
    injection H as <-. destruct (IH r' eq_refl) as (M & F). cbn [map fst]. rewrite M. split; [reflexivity|].
    intros a' d' [[= <- <-]|I]; auto.
Qed.
Lemma cli_digests_ok : forall p C rest ds x file l, (forall a, exists d, signable_digest p C rest ds x file a = Ok d) ->
  exists r, cli_digests p C rest ds x file l = Ok r.
Proof.
  intros p C rest ds x file l H. induction l as [|a l (r & IH)]; cbn [cli_digests]; [eauto|].
  destruct (H a) as (d & ->). cbn [bind]. rewrite IH. cbn [bind]. eauto.
Qed.

(** What was signed, if a module was. *)
Lemma sign_block_module : forall p C L rest clk ds s a m b, cli_sign_block p C L rest clk ds s a = Ok (SModule m, b) ->
  exists signer file l, cli_signer L s a = Ok signer /\ fs_read s (sa_input a) = Some file /\ m = module_new file /\
    map fst l = required_algorithms signer /\
    (forall x d, In (x, d) l -> m_digest p C (ds x) (module_new file) file x = Ok d) /\
    ms_sign p C clk signer (digests_of_pairs l) = Ok b.
Proof.
  intros p C L rest clk ds s a m b H.
  destruct (sign_block_kind _ _ _ _ _ _ _ _ _ _ H) as (file & Hf & Hm). cbn in Hm.
  unfold cli_sign_block in H.
  destruct (cli_signer L s a) as [sg| |]; cbn [bind] in H; try discriminate. cbv zeta in H. rewrite Hf in H.
  destruct (signable_open rest (Some file)) as [x0| |] eqn:E0; cbn [bind] in H; try discriminate.
  destruct (choose_sections x0 (sa_sections a)) as [x1| |] eqn:E1; cbn [bind] in H; try discriminate.
  destruct (signable_regions p rest x1 (Some file)) as [rg| |]; cbn [bind] in H; try discriminate.
  destruct (cli_digests _ _ _ _ _ _ _) as [l| |] eqn:E2; cbn [bind] in H; try discriminate.
  destruct (ms_sign _ _ _ _ _) as [b0| |] eqn:E3; cbn [bind] in H; try discriminate.
  destruct (cli_add_info rest x1 b0) as [b1| |] eqn:E4; cbn [bind] in H; try discriminate.
  injection H as -> ->. cbn [cli_add_info] in E4. injection E4 as ->. subst m.
  exists sg, file, l. split; [reflexivity|]. split; [exact Hf|]. split; [reflexivity|].
  apply cli_digests_spec in E2. destruct E2 as (M & F). split; [exact M|]. split; [exact F|exact E3].
Qed.

Lemma not_elf_module : forall p C L rest clk ds s a x b file, cli_sign_block p C L rest clk ds s a = Ok (x, b) ->
  fs_read s (sa_input a) = Some file -> (forall t, file <> ELFMAG ++ t) -> x = SModule (module_new file).
Proof.
  intros p C L rest clk ds s a x b file HB Hr Hne.
  destruct (sign_block_kind _ _ _ _ _ _ _ _ _ _ HB) as (file' & Hf' & Hx). rewrite Hr in Hf'. injection Hf' as <-.
  destruct x as [m|f]; [now subst|]. exfalso.
  unfold cli_sign_block in HB. destruct (cli_signer L s a); cbn [bind] in HB; try discriminate.
  cbv zeta in HB. rewrite Hr in HB. unfold signable_open in HB. cbn [of_option bind] in HB.
  destruct (detect_file_format file) as [[]| |] eqn:D; cbn [bind] in HB; try discriminate.
  - destruct (choose_sections _ _) as [x1| |] eqn:E1; cbn [bind] in HB; try discriminate.
    apply choose_kind in E1. subst x1. destruct (signable_regions _ _ _ _); cbn [bind] in HB; try discriminate.
    destruct (cli_digests _ _ _ _ _ _ _) as [l| |]; cbn [bind] in HB; try discriminate.
    destruct (ms_sign _ _ _ _ _) as [b0| |]; cbn [bind] in HB; try discriminate.
  - apply detect_spec in D. destruct D as (t & ->). now elim (Hne t).
Qed.

Lemma required_canonical : forall m, (forall c, ms_v2 m = Some c \/ ms_stamp m = Some c -> sc_algo c = algo_of_key (sc_key c)) ->
  forall a, In a (required_algorithms m) -> canonical a.
Proof.
  intros m H a I. apply (proj2 (required_spec m)) in I. destruct I as (c & Hc & <-). rewrite (H c Hc). now destruct (sc_key c).
Qed.

Lemma built_block_short : forall b, built_block b -> len (block_to_u8 b) <= 16392.
Proof.
  intros b H. apply built_block_bytes in H. destruct H as ((_ & H) & _). unfold MAX_SIGNING_BLOCK_SIZE in H. lia.
Qed.

Lemma read_after : forall s steps q f w, Forall (touches f) steps -> fs_file s q = f -> fs_can_read s q = true ->
  fs_data (run s steps) f = Some w -> fs_read (run s steps) q = Some w.
Proof.
  intros s steps q f w _ Hq Hr Hw. unfold fs_read. pose proof (run_perm steps s) as (P1 & P2 & _).
  rewrite P1, P2, Hr, Hq. exact Hw.
Qed.

(** ** sign, then verify *)
Lemma cli_sign_verify : forall p q C K L rest builtin clk now ds1 ds2 s a z steps signer root pem r,
  crypto_ok C -> (forall x, fills (ds1 x)) -> (forall x, fills (ds2 x)) ->
  fs_read s (sa_input a) = Some (plain z) -> zip_ok z [] -> unsigned z -> (forall t, plain z <> ELFMAG ++ t) ->
  (forall blk, len blk <= 16392 -> zip_ok z blk /\ zip_small z blk) ->
  fs_file s (sa_output a) <> fs_file s (sa_input a) -> fs_can_read s (sa_output a) = true ->
  fs_read s root = Some pem -> fs_file s root <> fs_file s (sa_output a) ->
  pem_parse K pem = Some (CERTIFICATE_TAG, r) ->
  cli_signer L s a = Ok signer ->
  (forall c, ms_v2 signer = Some c \/ ms_stamp signer = Some c -> certified C K c) ->
  cli_sign p C L rest clk ds1 s a = (steps, Ok tt) ->
  (cli_verify q C K builtin now ds2 (run s steps) (sa_output a) (Some root) = Ok tt <->
     (forall c, ms_v2 signer = Some c -> trusted K now [r] (sc_cert c) (sc_chain c)) /\
     (forall c, ms_stamp signer = Some c -> trusted K now [r] (sc_cert c) [])).
Proof.
  intros p q C K L rest builtin clk now ds1 ds2 s a z steps signer root pem r HC F1 F2 Hr Hz Hu Hne Hblk Hio Hor Hroot Hro Hpem
    Hsig Hcert H.
  pose proof (cli_signer_spec _ _ _ _ Hsig) as (_ & _ & Hv2 & Halgo).
  pose proof H as H0. apply sign_steps in H. destruct H as [(_ & X)|(x & b & w & HB & Hc & Hst & HW)]; [congruence|].
  assert (HX := not_elf_module _ _ _ _ _ _ _ _ _ _ _ HB Hr Hne). subst x.
  rewrite (truncate_read s _ (sa_input a)) in HW by auto. rewrite Hr in HW. cbn [signable_write now_content] in HW.
  destruct (sign_block_module _ _ _ _ _ _ _ _ _ _ HB) as (sg & file & l & Hsg & Hf & _ & Hm & Hd & HS).
  rewrite Hsig in Hsg. injection Hsg as <-. rewrite Hr in Hf. injection Hf as <-.
  assert (Hcan : Forall (fun x => canonical (fst x)) l).
  { apply Forall_forall. intros (x & d) I. cbn. apply (required_canonical signer Halgo). rewrite <- Hm.
    change x with (fst (x, d)). now apply in_map. }
  assert (HBt : built_block b) by (eapply ms_sign_built; eauto).
  destruct (Hblk (block_to_u8 b) (built_block_short b HBt)) as (Hzb & Hsb).
  destruct (sign_write_verify p p p q C K clk now ds1 ds2 [r] z signer l b w HC Hz Hu F1 F2 Hcan Hd) as (res & HV & Hh & _ & Hval); auto.
  { intros x I. rewrite <- Hm in I. apply in_map_iff in I. destruct I as ((x' & d) & <- & I). eauto. }
  assert (Hout : fs_read (run s steps) (sa_output a) = Some w).
  { apply (read_after s steps (sa_output a) (fs_file s (sa_output a))); auto.
    - subst steps. repeat constructor.
    - subst steps. cbn [run fold_left apply]. now rewrite !put_get. }
  assert (Hpemr : fs_read (run s steps) root = Some pem).
  { rewrite <- Hroot. eapply sign_others; [exact H0|apply reached_end|exact Hro]. }
  assert (Hlen : len w < U64).
  { rewrite s_write_unsigned in HW by auto. injection HW as <-. red in Hsb. unfold U64. change (2 ^ 63) with I64 in Hsb. unfold I64 in Hsb. lia. }
  rewrite <- Hval. rewrite (module_valid_iff _ _ _ _ _ _ _ _ Hlen HV). rewrite cli_verify_iff.
  assert (HG := c20_write p q z b w HBt Hz Hu Hzb Hsb HW).
  assert (HN : v2_signers_of (offset_by b (len (z_entries z))) <> []).
  { destruct (ms_sign_signers _ _ _ _ _ _ HC HS) as (Sv & _). destruct (ms_v2 signer); [|congruence].
    destruct Sv as (v & y & _ & _ & E). change (v2_signers_of (offset_by b (len (z_entries z)))) with (v2_signers_of b).
    rewrite E. discriminate. }
  split.
  - intros (f & b' & roots & Hf & Hb' & (pem' & cert & Hp1 & Hp2 & ->) & _ & X1 & X2).
    rewrite Hout in Hf. injection Hf as <-. rewrite Hpemr in Hp1. injection Hp1 as <-.
    rewrite Hpem in Hp2. injection Hp2 as <-. exists b'. auto.
  - intros (b' & Hb' & X1 & X2). exists w, b', [r]. split; [exact Hout|]. split; [exact Hb'|]. split; [exists pem, r; auto|].
    rewrite HG in Hb'. injection Hb' as <-. auto.
Qed.

(** Why the sign command can fail on such a module. *)
Lemma cli_sign_result : forall p C L rest clk ds s a z signer,
  crypto_ok C -> fs_read s (sa_input a) = Some (plain z) -> zip_ok z [] -> zip_small z [] -> unsigned z ->
  (forall t, plain z <> ELFMAG ++ t) -> sa_sections a = [] ->
  fs_file s (sa_output a) <> fs_file s (sa_input a) -> fs_can_create s (sa_output a) = true ->
  cli_signer L s a = Ok signer ->
  (forall c, ms_v2 signer = Some c \/ ms_stamp signer = Some c ->
     (exists pub, public_key_der C (sc_key c) = Ok pub) /\ exists k, clone_private_key C (sc_key c) = Ok k) ->
  (ms_stamp signer <> None -> clk <> None) ->
  (exists b, built_block b /\ cli_sign p C L rest clk ds s a =
     ([Truncate (fs_file s (sa_output a)); Append (fs_file s (sa_output a)) (with_block z (block_to_u8 b))], Ok tt)) \/
  cli_sign p C L rest clk ds s a = ([], Err EGeneratedTooLarge) \/
  cli_sign p C L rest clk ds s a = ([], match p with Debug => Panic | Release => Err EPaddingGap end).
Proof.
  intros p C L rest clk ds s a z signer HC Hr Hz Hs Hu Hne Hsec Hio Hc Hsig Hk Hclk.
  pose proof (cli_signer_spec _ _ _ _ Hsig) as (Hpad & Hts & Hv2 & Halgo).
  assert (HD : detect_file_format (plain z) = Ok FModule).
  { apply detect_spec. assert (HE := find_eocd_plain z Hz). split.
    - pose proof (len_with_block z [] (proj1 Hz)) as HL. unfold plain. rewrite len_nil in HL. destruct Hu. lia.
    - split; [exact Hne|]. right. apply find_eocd_exists. eauto. }
  assert (Hdig : forall x, exists d, signable_digest p C rest ds (SModule (module_new (plain z))) (Some (plain z)) x = Ok d).
  { intros x. cbn [signable_digest now_content]. rewrite m_digest_plain by auto. eauto. }
  destruct (cli_digests_ok p C rest ds _ _ (required_algorithms signer) Hdig) as (l & Hl).
  assert (Cfg : forall c, ms_v2 signer = Some c \/ ms_stamp signer = Some c -> clone_config C c = Ok c).
  { intros c Hc'. destruct (Hk c Hc') as (_ & k & Hcl). unfold clone_config. rewrite Hcl. cbn [bind].
    assert (k = sc_key c).
    { unfold clone_private_key in Hcl. destruct HC as (_ & _ & C1 & C2). destruct (sc_key c) as [u|u].
      - destruct (p256_clone C u) as [v|] eqn:E; [|discriminate]. cbn in Hcl. injection Hcl as <-. f_equal. now apply C1.
      - destruct (p384_clone C u) as [v|] eqn:E; [|discriminate]. cbn in Hcl. injection Hcl as <-. f_equal. now apply C2. }
    subst k. now destruct c. }
  assert (Mt : forall c, ms_v2 signer = Some c \/ ms_stamp signer = Some c -> matches (sc_algo c) (sc_key c)).
  { intros c Hc'. rewrite (Halgo c Hc'). apply algo_of_key_matches. }
  assert (S : exists vals, ms_sign p C clk signer (digests_of_pairs l) = ms_finish p signer vals /\
     existsb (fun c => value_id c =? VERITY_PADDING_BLOCK_ID) vals = false).
  { unfold ms_sign. destruct (ms_v2 signer) as [c1|] eqn:E1; [|congruence].
    rewrite (Cfg c1) by auto. cbn [bind].
    destruct (proj2 (v2_sign_ok C c1 (digests_of_pairs l))) as (v & Hv).
    { split; [apply Mt; auto|]. apply Hk. auto. }
    rewrite Hv. cbn [bind].
    assert (Vid : (v2_id v =? VERITY_PADDING_BLOCK_ID) = false).
    { apply v2_sign_inv in Hv. destruct Hv as (sig & pub & -> & _). reflexivity. }
    destruct (ms_stamp signer) as [c2|] eqn:E2.
    - rewrite (Cfg c2) by auto. cbn [bind].
      destruct (proj2 (stamp_sign_ok C clk (ms_timestamp signer) c2 (digests_of_pairs l))) as (st & Hst).
      { split; [apply Mt; auto|]. split; [apply Hk; auto|]. intros _. apply Hclk. discriminate. }
      rewrite Hst. cbn [bind app]. exists [V2Block v; StampBlk st]. split; [reflexivity|].
      apply stamp_sign_inv in Hst. destruct Hst as (attrs & sig & pub & _ & -> & _).
      cbn [existsb value_id]. rewrite Vid. reflexivity.
    - cbn [bind]. exists [V2Block v]. split; [reflexivity|]. cbn [existsb value_id]. now rewrite Vid. }
  destruct S as (vals & Hms & Hpv).
  assert (HB : cli_sign_block p C L rest clk ds s a =
    do b <- block_new_with_padding p vals; Ok (SModule (module_new (plain z)), b)).
  { unfold cli_sign_block. rewrite Hsig. cbn [bind]. cbv zeta. rewrite Hr. unfold signable_open. cbn [of_option bind].
    rewrite HD. cbn [bind]. rewrite Hsec. cbn [choose_sections bind signable_regions now_content].
    unfold m_digest_regions. rewrite offsets_plain by auto.
    cbn [bind fo_stop_content fo_start_content fo_stop_cd fo_start_cd fo_stop_eocd fo_start_eocd].
    unfold usub. rewrite (proj2 (N.leb_le 0 _)) by lia. cbn [bind]. rewrite (proj2 (N.leb_le (len (z_entries z)) _)) by lia. cbn [bind].
    pose proof (len_with_block z [] (proj1 Hz)) as HL. rewrite len_nil in HL. fold (plain z) in HL.
    rewrite (proj2 (N.leb_le (len (z_entries z) + len (z_cd z)) (len (plain z)))) by lia. cbn [bind].
    rewrite Hl. cbn [bind]. rewrite Hms. unfold ms_finish. rewrite Hpad.
    destruct (block_new_with_padding p vals); reflexivity. }
  assert (HBt : forall b, block_new_with_padding p vals = Ok b -> built_block b).
  { intros b Hb. eapply (ms_sign_built p C clk signer l b); eauto.
    - apply cli_digests_spec in Hl. destruct Hl as (Hm & _). apply Forall_forall. intros (x & d) I. cbn.
      apply (required_canonical signer Halgo). rewrite <- Hm. change x with (fst (x, d)). now apply in_map.
    - rewrite Hms. unfold ms_finish. now rewrite Hpad. }
  unfold cli_sign. rewrite HB. rewrite padding_cases, Hpv in *. cbv zeta in *.
  destruct ((0 <? gap (content_size vals + 32)) && (gap (content_size vals + 32) <? 12)).
  { right. right. now destruct p. }
  destruct (16384 <? content_size vals + 32 + gap (content_size vals + 32)).
  { right. now left. }
  left. eexists. split; [apply HBt; reflexivity|]. cbn [bind].
  rewrite Hc. rewrite (truncate_read s _ (sa_input a)) by auto. rewrite Hr. cbn [signable_write now_content].
  now rewrite s_write_unsigned by auto.
Qed.

(** ** Two accepted files with a common signer *)
Lemma cli_tamper : forall p q C K1 K2 builtin1 builtin2 now1 now2 ds1 ds2 s1 s2 file1 file2 root1 root2 f1 f2 b1 b2 e1 e2 sg,
  hash_sized C -> (forall a, fills (ds1 a)) -> (forall a, fills (ds2 a)) ->
  fs_read s1 file1 = Some f1 -> fs_read s2 file2 = Some f2 -> len f1 < 2 ^ 63 -> len f2 < 2 ^ 63 ->
  cli_verify p C K1 builtin1 now1 ds1 s1 file1 root1 = Ok tt -> cli_verify q C K2 builtin2 now2 ds2 s2 file2 root2 = Ok tt ->
  m_get_signing_block p (module_new f1) f1 = Ok b1 -> m_get_signing_block q (module_new f2) f2 = Ok b2 ->
  In sg (v2_signers_of b1) -> In sg (v2_signers_of b2) ->
  find_eocd f1 (len f1) = Ok e1 -> p = Debug \/ eo_cd_offset e1 <= eo_off e1 ->
  find_eocd f2 (len f2) = Ok e2 -> q = Debug \/ eo_cd_offset e2 <= eo_off e2 ->
  (exists a, (a = ECDSA_SHA2_256 \/ a = ECDSA_SHA2_512) /\ module_clash p q (hash C a) f1 e1 f2 e2) \/ same_outside_block p q f1 f2 e1 e2.
Proof.
  intros p q C K1 K2 builtin1 builtin2 now1 now2 ds1 ds2 s1 s2 file1 file2 root1 root2 f1 f2 b1 b2 e1 e2 sg
    HH F1 F2 R1 R2 L1 L2 V1 V2 B1 B2 I1 I2 E1 O1 E2 O2.
  apply cli_verify_iff in V1, V2.
  destruct V1 as (f & b & roots & Hf & Hb & _ & _ & G1 & _). rewrite R1 in Hf. injection Hf as <-. rewrite B1 in Hb. injection Hb as <-.
  destruct V2 as (f & b & roots' & Hf & Hb & _ & _ & G2 & _). rewrite R2 in Hf. injection Hf as <-. rewrite B2 in Hb. injection Hb as <-.
  rewrite Forall_forall in G1, G2. specialize (G1 sg I1). specialize (G2 sg I2).
  destruct G1 as (Hs & G1 & _), G2 as (_ & G2 & _).
  destruct (sgs_data (sn_sigs sg)) as [|g gs] eqn:Eg; [contradiction|].
  apply Forall_cons_iff in G1, G2. destruct G1 as ((A & d1 & S1 & X1) & _), G2 as ((_ & d2 & S2 & X2) & _).
  destruct (hash_sized_of _ _ _ _ _ HH A) as (n & Hn & Hlen).
  rewrite (stored_unique _ _ _ _ S2 S1) in X2.
  destruct (c31 p q C (ds1 (sg_algo g)) (ds2 (sg_algo g)) f1 f2 e1 e2 (sg_algo g) d1 n (F1 _) (F2 _) Hn Hlen L1 L2 E1 O1 E2 O2 X1 X2)
    as [Y|Y]; [left|right; exact Y]. exists (sg_algo g). split; [exact (accepted_known _ _ _ _ _ A)|exact Y].
Qed.

(** ** info *)
Lemma last_magic_found : forall p f b, len f < U64 -> m_get_signing_block p (module_new f) f = Ok b ->
  24 <= bk_end b /\ bk_end b <= len f /\ magic_ends f (bk_end b) /\ block_at p f (len f) (bk_end b) = Ok b.
Proof.
  intros p f b Hf H. destruct (get_sb_ok p f b Hf H) as (e & raw & He & _).
  rewrite (get_sb_eq p f e He) in H. set (eo := len f - eo_cd_offset e) in *.
  destruct (N.lt_ge_cases (len f - eo) 24) as [Hs|Hs].
  { rewrite from_reader_small in H by auto. discriminate. }
  destruct (magic_cases f (len f - eo)) as [(e' & He')|Hn].
  - rewrite (from_reader_found p f eo e' Hs He') in H. destruct He' as (H1 & H2 & H3 & _).
    destruct (block_at_ok p f (len f) e' b Hf ltac:(lia) H) as (raw' & _ & _ & -> & _).
    split; [lia|]. split; [lia|]. auto.
  - rewrite from_reader_none in H by auto. discriminate.
Qed.

Lemma info_block_iff : forall p f b, len f < U64 -> m_get_signing_block p (module_new f) f = Ok b ->
  (from_reader p f (len f) 0 = Ok b <->
   (forall x y, f = x ++ MAGIC ++ y -> len x + 16 <= bk_end b) /\ len f + 24 <= bk_end b + 2 ^ 24).
Proof.
  intros p f b Hf H. destruct (last_magic_found p f b Hf H) as (H1 & H2 & H3 & H4).
  assert (L : 24 <= len f - 0) by lia. split.
  - intros G. destruct (magic_cases f (len f - 0)) as [(e & He)|Hn].
    + rewrite (from_reader_found p f 0 e L He) in G. destruct He as (E1 & E2 & E3 & E4).
      destruct (block_at_ok p f (len f) e b Hf ltac:(lia) G) as (raw & _ & _ & -> & _).
      split.
      * intros x y E. assert (M : magic_ends f (len x + 16)) by (apply magic_ends_split; eauto).
        destruct (N.le_gt_cases (len x + 16) e) as [|Lt]; [auto|].
        elim (E4 (len x + 16)); auto. rewrite E, !len_app. change (len MAGIC) with 16. lia.
      * unfold window_start, MAX_WINDOW_SIZE in E1. change (2 ^ 24) with 16777216. lia.
    + rewrite from_reader_none in G by auto. discriminate.
  - intros (N1 & N2). rewrite (from_reader_found p f 0 (bk_end b) L); [exact H4|].
    split; [unfold window_start, MAX_WINDOW_SIZE; change (2 ^ 24) with 16777216 in N2; lia|]. split; [lia|]. split; [exact H3|].
    intros e' G1 G2 M. apply magic_ends_split in M. destruct M as (x & y & E & ->). specialize (N1 x y E). lia.
Qed.

Lemma cli_info_iff : forall p C K builtin now s file f b, len f < U64 -> fs_read s file = Some f ->
  m_get_signing_block p (module_new f) f = Ok b ->
  ((exists o, cli_info p C K builtin now s file = Ok o /\ io_block o = b) <->
   (forall x y, f = x ++ MAGIC ++ y -> len x + 16 <= bk_end b) /\ len f + 24 <= bk_end b + 2 ^ 24).
Proof.
  intros p C K builtin now s file f b Hf Hr Hb. rewrite <- (info_block_iff p f b Hf Hb).
  unfold cli_info. rewrite Hr. cbn [of_option bind]. split.
  - intros (o & Ho & Eo). destruct (from_reader p f (len f) 0) as [b'| |]; cbn [bind] in Ho; try discriminate.
    injection Ho as <-. cbn [io_block] in Eo. now rewrite Eo.
  - intros ->. cbn [bind]. eexists. split; [reflexivity|]. reflexivity.
Qed.

Lemma blocks_fit : forall z, zip_ok z [] -> len (z_comment z) < 13 ->
  len (z_entries z) + 16392 < 2 ^ 32 -> len (plain z) + 16392 < 2 ^ 63 ->
  forall blk, len blk <= 16392 -> zip_ok z blk /\ zip_small z blk.
Proof.
  intros z Hz Hc He Hl blk Hb. split.
  - apply zip_ok_short; auto. change U32 with (2 ^ 32). lia.
  - unfold zip_small. unfold plain in Hl. destruct Hz as [Hh _]. rewrite len_with_block in * by auto. rewrite len_nil in Hl. lia.
Qed.
