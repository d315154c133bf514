(** KeyUseFacts.v - lemmas for C84. *)
From Verif Require Import Base BaseFacts Utils Algorithms Common SchemeV2 SourceStamp Utf8 ElfInfo
  SigningBlock Zip Digest Module Signable ZipSpec ZipFacts DigestFacts Signer SignSpec SignFacts Verifier ModuleVerify VerifySpec
  VerifyFacts VerifyProps EndToEnd Built Wire BuiltFacts BlockFacts CodecFacts SearchFacts InjFacts Spec LimitFacts RegionSpec ModuleFacts ModuleProps RawFacts Keystore KeySpec KeyFacts CredFacts Elf ElfSpec ElfFacts
  ElfProps ElfProps2 ElfProps3 Cli CliSpec CliFacts CliProps CliProps2 CliProps3 IgnoredSpec IgnoredFacts ElfVerifySpec ElfVerifyFacts
  KeyUseSpec.
From Coq Require Import Lia.
Open Scope N_scope.

Lemma path_str_ok p q : path_str p = Ok q <-> q = p /\ text p.
Proof.
  unfold path_str, text. destruct (utf8_dec p) as [u|].
  - split; [intros [= <-]; eauto|intros (-> & _); reflexivity].
  - split; [discriminate|intros (_ & u & X); discriminate].
Qed.

Lemma of_option_ok {A} e (o : option A) x : of_option e o = Ok x <-> o = Some x.
Proof. destruct o; cbn; split; congruence. Qed.

Lemma given_exact L s k cr : load_credentials L s k = Ok (Some cr) <->
  given L s k (cr_key cr) (cr_cert cr :: cr_chain cr) /\ cr_algo cr = algo_of_key (cr_key cr).
Proof.
  unfold load_credentials, given, in_keystore, in_pem. destruct (ka_p12 k) as [p|].
  - rewrite bind_Ok. setoid_rewrite of_option_ok. setoid_rewrite bind_Ok. setoid_rewrite path_str_ok. setoid_rewrite bind_Ok.
    setoid_rewrite p12_file_exact. setoid_rewrite p12_exact. split.
    + intros (pwd & H1 & q & (-> & H2) & c & (data & H3 & H4 & H5 & H6 & H7) & [= <-]). split; [|exact H6].
      left. exists p, pwd, data. auto 10.
    + intros ([(p' & pwd & data & [= <-] & H1 & H2 & H3 & H4 & H5 & H6)|(X & _)] & H7); [|discriminate].
      exists pwd. split; [exact H1|]. exists p. split; [auto|]. exists cr. split; [|reflexivity]. exists data. auto.
  - destruct (ka_key k) as [kp|].
    + rewrite bind_Ok. setoid_rewrite of_option_ok. setoid_rewrite bind_Ok. setoid_rewrite path_str_ok. setoid_rewrite bind_Ok.
      setoid_rewrite path_str_ok. setoid_rewrite bind_Ok. setoid_rewrite files_exact. setoid_rewrite pem_exact. split.
      * intros (cp & H1 & q & (-> & H2) & q' & (-> & H3) & c & (kf & cf & H4 & H5 & H6 & H7 & H8 & H9 & H10) & [= <-]).
        split; [|exact H9]. right. split; [reflexivity|]. exists kp, cp, kf, cf. auto 12.
      * intros ([(p' & pwd & data & X & _)|(_ & kp' & cp & kf & cf & [= <-] & H1 & H2 & H3 & H4 & H5 & H6 & H7 & H8 & H9)] & H10);
          [discriminate|].
        exists cp. split; [exact H1|]. exists kp. split; [auto|]. exists cp. split; [auto|]. exists cr. split; [|reflexivity].
        exists kf, cf. auto 10.
    + split; [discriminate|]. intros ([(p' & pwd & data & X & _)|(_ & kp' & cp & kf & cf & X & _)] & _); discriminate.
Qed.

Lemma none_exact L s k : load_credentials L s k = Ok None <-> no_key_option k.
Proof.
  unfold load_credentials, no_key_option. destruct (ka_p12 k) as [p|].
  - split; [|intros (X & _); discriminate]. intros H. apply bind_Ok in H as (w & _ & H). apply bind_Ok in H as (q & _ & H).
    apply bind_Ok in H as (c & _ & H). discriminate.
  - destruct (ka_key k) as [kp|]; [|tauto].
    split; [|intros (_ & X); discriminate]. intros H. apply bind_Ok in H as (w & _ & H). apply bind_Ok in H as (q & _ & H).
    apply bind_Ok in H as (q' & _ & H). apply bind_Ok in H as (c & _ & H). discriminate.
Qed.

Lemma given_unique L s k key certs key' certs' : given L s k key certs -> given L s k key' certs' -> key = key' /\ certs = certs'.
Proof.
  unfold given, in_keystore, in_pem.
  intros [(p & pwd & data & H1 & H2 & _ & H3 & _ & (f & o & H4 & H5) & H6)|
          (H1 & kp & cp & kf & cf & H2 & H3 & _ & _ & H4 & H5 & _ & _ & H6 & H7)]
         [(p' & pwd' & data' & G1 & G2 & _ & G3 & _ & (f' & o' & G4 & G5) & G6)|
          (G1 & kp' & cp' & kf' & cf' & G2 & G3 & _ & _ & G4 & G5 & _ & _ & G6 & G7)]; try congruence.
  - assert (p' = p) by congruence. subst p'. assert (data' = data) by congruence. assert (pwd' = pwd) by congruence. subst data' pwd'.
    assert (f' = f) by congruence. subst f'. split; congruence.
  - assert (kp' = kp) by congruence. assert (cp' = cp) by congruence. subst kp' cp'.
    assert (kf' = kf) by congruence. assert (cf' = cf) by congruence. subst kf' cf'. split; congruence.
Qed.

Definition config_of (key : private_key) (leaf : bytes) (chain : list bytes) : signer_config :=
  mkConfig key leaf (algo_of_key key) chain.

Lemma creds_config L s k cr : load_credentials L s k = Ok (Some cr) ->
  given L s k (cr_key cr) (cr_cert cr :: cr_chain cr) /\ config_from_credentials cr = config_of (cr_key cr) (cr_cert cr) (cr_chain cr).
Proof. intros H. apply given_exact in H. destruct H as (H & E). split; [exact H|]. unfold config_from_credentials, config_of. now rewrite E. Qed.

Lemma config_creds L s k key leaf chain : given L s k key (leaf :: chain) ->
  exists cr, load_credentials L s k = Ok (Some cr) /\ config_from_credentials cr = config_of key leaf chain.
Proof. intros H. exists (mkCreds key leaf (algo_of_key key) chain). split; [|reflexivity]. apply given_exact. auto. Qed.

Lemma signer_exact L s a m : cli_signer L s a = Ok m <->
  exists key leaf chain, given L s (sa_v2 a) key (leaf :: chain) /\
    ((no_key_option (sa_stamp a) /\ m = ms_v2_only (config_of key leaf chain)) \/
     exists key' leaf' chain', given L s (sa_stamp a) key' (leaf' :: chain') /\
       m = ms_with_stamp (config_of key leaf chain) (config_of key' leaf' chain')).
Proof.
  unfold cli_signer. split.
  - intros H. apply bind_Ok in H as (o & H1 & H). apply bind_Ok in H as (cr & H2 & H). apply of_option_ok in H2. subst o.
    apply bind_Ok in H as (st & H2 & H). destruct (creds_config _ _ _ _ H1) as (G1 & E1).
    exists (cr_key cr), (cr_cert cr), (cr_chain cr). split; [exact G1|]. rewrite <- E1. destruct st as [st|].
    + right. destruct (creds_config _ _ _ _ H2) as (G2 & E2). exists (cr_key st), (cr_cert st), (cr_chain st). split; [exact G2|].
      rewrite <- E2. congruence.
    + left. apply none_exact in H2. split; [exact H2|congruence].
  - intros (key & leaf & chain & G1 & H). destruct (config_creds _ _ _ _ _ _ G1) as (cr & H1 & E1). rewrite H1. cbn [bind of_option].
    destruct H as [(G2 & ->)|(key' & leaf' & chain' & G2 & ->)].
    + apply (none_exact L s) in G2. rewrite G2. cbn [bind]. now rewrite E1.
    + destruct (config_creds _ _ _ _ _ _ G2) as (st & H2 & E2). rewrite H2. cbn [bind]. now rewrite E1, E2.
Qed.

Lemma made_v2 C key leaf chain d v : v2_sign C (config_of key leaf chain) d = Ok v ->
  exists g, sns_data (v2_signers v) = [g] /\ made_with C key (leaf :: chain) (sd_certs (sn_data g)) (sn_sigs g) (sn_key g).
Proof.
  intros H. apply v2_sign_inv in H as (sig & pub & -> & _ & Hp). exists (v2_one (config_of key leaf chain) d sig pub).
  split; [reflexivity|]. split; [cbn; f_equal; apply certs_data_map|]. split; [exact Hp|]. cbn. eexists. split; [reflexivity|]. reflexivity.
Qed.

Lemma made_stamp C now ts key leaf chain d s : stamp_sign C now ts (config_of key leaf chain) d = Ok s ->
  made_with C key [leaf] (st_certs (sb_data (ss_block s))) (sb_sigs (ss_block s)) (sb_key (ss_block s)).
Proof.
  intros H. apply stamp_sign_inv in H as (attrs & sig & pub & _ & -> & _ & Hp). cbn [ss_new ss_block].
  split; [reflexivity|]. split; [exact Hp|]. cbn. eexists. split; [reflexivity|]. reflexivity.
Qed.

Lemma signed_as_asked p C L now s a signer l b0 b : crypto_ok C -> cli_signer L s a = Ok signer ->
  ms_sign p C now signer (digests_of_pairs l) = Ok b0 -> v2_signers_of b = v2_signers_of b0 -> stamps_of b = stamps_of b0 ->
  as_asked C L s a b.
Proof.
  intros HC HS H E1 E2. apply ms_sign_signers in H; [|exact HC]. unfold as_asked. rewrite E1, E2. clear E1 E2.
  apply signer_exact in HS as (key & leaf & chain & G1 & HS).
  destruct HS as [(G2 & ->)|(key' & leaf' & chain' & G2 & ->)]; cbn [ms_v2 ms_stamp ms_v2_only ms_with_stamp] in H;
    destruct H as ((v & g & V1 & V2 & V3) & H2); (split;
    [exists key, (leaf :: chain), g; split; [exact G1|]; split; [exact V3|];
     apply made_v2 in V1; destruct V1 as (g' & V1 & V4); assert (g' = g) by congruence; subst g'; exact V4|]).
  - left. auto.
  - right. destruct H2 as (st & H2 & H3). exists key', leaf', chain', (ss_block st). split; [exact G2|]. split; [exact H3|].
    now apply made_stamp in H2.
Qed.

(** ** Modules *)
Lemma module_as_asked : forall p q C L rest clk ds s a z steps,
  crypto_ok C -> fs_read s (sa_input a) = Some (plain z) -> zip_ok z [] -> unsigned z -> (forall t, plain z <> ELFMAG ++ t) ->
  (forall blk, len blk <= 16392 -> zip_ok z blk /\ zip_small z blk) ->
  fs_file s (sa_output a) <> fs_file s (sa_input a) ->
  cli_sign p C L rest clk ds s a = (steps, Ok tt) ->
  exists out b, fs_data (run s steps) (fs_file s (sa_output a)) = Some out /\
    m_get_signing_block q (module_new out) out = Ok b /\ as_asked C L s a b.
Proof.
  intros p q C L rest clk ds s a z steps HC Hr Hz Hu Hne Hblk Hio H.
  apply sign_steps in H. destruct H as [(_ & X)|(x & b & w & HB & Hc & Hst & HW)]; [congruence|].
  assert (HX := not_elf_module _ _ _ _ _ _ _ _ _ _ _ HB Hr Hne). subst x.
  rewrite (truncate_read s _ (sa_input a)) in HW by auto. rewrite Hr in HW. cbn [signable_write now_content] in HW.
  destruct (sign_block_module _ _ _ _ _ _ _ _ _ _ HB) as (sg & file & l & Hsg & Hf & _ & Hm & Hd & HS).
  rewrite Hr in Hf. injection Hf as <-. pose proof (cli_signer_spec _ _ _ _ Hsg) as (_ & _ & Hv2 & Halgo).
  assert (Hcan : Forall (fun x => canonical (fst x)) l).
  { apply Forall_forall. intros (x & d) I. cbn. apply (required_canonical sg Halgo). rewrite <- Hm.
    change x with (fst (x, d)). now apply in_map. }
  assert (HBt : built_block b) by (eapply ms_sign_built; eauto).
  destruct (Hblk (block_to_u8 b) (built_block_short b HBt)) as (Hzb & Hsb).
  exists w, (offset_by b (len (z_entries z))). split.
  - subst steps. cbn [run fold_left apply]. now rewrite !put_get.
  - split; [exact (c20_write p q z b w HBt Hz Hu Hzb Hsb HW)|]. eapply signed_as_asked; eauto.
Qed.

(** ** ELF files *)
Lemma elf_as_asked : forall p q C L rest clk ds s a t e steps out names b,
  crypto_ok C -> Forall scalars (sa_sections a) ->
  fs_read s (sa_input a) = Some (ELFMAG ++ t) -> elf_parse rest (ELFMAG ++ t) = Ok e -> well_named (ELFMAG ++ t) e ->
  cli_sign p C L rest clk ds s a = (steps, Ok tt) ->
  fs_data (run s steps) (fs_file s (sa_output a)) = Some out -> fits_class e (len out) -> rest out = true ->
  elf_get_signing_block rest q (mkElfFile out names) = Ok (Some b) -> as_asked C L s a b.
Proof.
  intros p q C L rest clk ds s a t e steps out names b HC Hsec Hr He Hw H Hout Hfit Hrest Hb.
  apply sign_steps in H. destruct H as [(_ & X)|(x & b' & w & HB & Hc & Hst & HW)]; [congruence|].
  destruct (elf_block_kind _ _ _ _ _ _ _ _ _ _ _ HB Hr) as (f & ->).
  destruct (sign_block_elf _ _ _ _ _ _ _ _ _ _ HC HB Hsec) as (l0 & ts0 & HF & Hf & Hts0 & Hsc & _ & _ & Eb0).
  assert (HS : exists signer, cli_signer L s a = Ok signer).
  { unfold cli_sign_block in HB. apply bind_Ok in HB as (signer & HS & _). eauto. }
  destruct HS as (signer & HS).
  destruct (sign_block_parts _ _ _ _ _ _ _ _ _ _ _ HB HS) as (l & b0 & ts & Ha & Hne & Hch & Hm & Hd & Hsign & Hts & Eb).
  assert (ts0 = ts) by congruence. subst ts0. clear Hts0.
  assert (Hf2 : ELFMAG ++ t = el_data f) by congruence. clear Hf. rewrite Hf2 in *. clear Hf2.
  cbn [signable_write] in HW. destruct (elf_write_with_signature rest f b') as [w'| |] eqn:EW; try discriminate.
  assert (w' = w) by congruence. subst w'.
  assert (w = out).
  { rewrite Hst in Hout. cbn [run fold_left apply] in Hout. rewrite !put_get in Hout. cbn [app] in Hout. congruence. }
  subst w.
  assert (Hb' : b = b').
  { destruct (extended_read q l0 ts HF (resolved_bounds _ _ _ Hts Hsc)) as (L1 & X1 & X2). rewrite <- Eb0 in L1, X1, X2.
    assert (Hn : block_to_u8 b' <> []).
    { intros Q. rewrite Q, len_nil in L1. unfold info_bytes in L1. lia. }
    rewrite (c53_read _ _ _ _ _ q names EW He Hw Hfit Hrest Hn) in Hb.
    destruct (from_u8 q (block_to_u8 b')) as [b1| |] eqn:Ef; cbn [map_err bind] in Hb; [|discriminate|discriminate].
    assert (b1 = b) by congruence. subst b1.
    destruct (N.le_gt_cases (len (block_to_u8 b')) 16392) as [Q|Q]; [specialize (X1 Q); congruence|].
    exfalso. enough (Z : 16392 < len (block_to_u8 b') < U64) by (specialize (X2 Z); discriminate). split; [exact Q|].
    destruct (view _ _ _ _ _ EW He Hw Hfit Hrest) as (e' & V).
    destruct (sv_sign _ _ _ _ _ _ V) as (sh & V1 & V2 & _ & _ & V5).
    pose proof (write_bound _ _ _ _ EW) as WB. pose proof (contents_len _ _ _ V2) as CL. unfold I64, U64 in *. lia. }
  clear Eb0. rewrite <- Hb' in *. clear b' Hb'.
  destruct (pushed_signers b0 (info_from_tuples ts)) as (Pv & Ps & Pl). rewrite <- Eb in Pv, Ps, Pl.
  eapply signed_as_asked; eauto.
Qed.

(** ** sign, then verify *)
Lemma accepted_exact : forall p q C K L rest builtin clk now ds1 ds2 s a z steps root pem r,
  crypto_ok C -> (forall x, fills (ds1 x)) -> (forall x, fills (ds2 x)) ->
  fs_read s (sa_input a) = Some (plain z) -> zip_ok z [] -> unsigned z -> (forall t, plain z <> ELFMAG ++ t) ->
  (forall blk, len blk <= 16392 -> zip_ok z blk /\ zip_small z blk) ->
  fs_file s (sa_output a) <> fs_file s (sa_input a) -> fs_can_read s (sa_output a) = true ->
  fs_read s root = Some pem -> fs_file s root <> fs_file s (sa_output a) ->
  pem_parse K pem = Some (CERTIFICATE_TAG, r) ->
  cli_sign p C L rest clk ds1 s a = (steps, Ok tt) ->
  (cli_verify q C K builtin now ds2 (run s steps) (sa_output a) (Some root) = Ok tt <->
     (exists key leaf chain, given L s (sa_v2 a) key (leaf :: chain) /\ cert_for C K key leaf /\ trusted K now [r] leaf chain) /\
     (no_key_option (sa_stamp a) \/
      exists key leaf chain, given L s (sa_stamp a) key (leaf :: chain) /\ cert_for C K key leaf /\ trusted K now [r] leaf [])).
Proof.
  intros p q C K L rest builtin clk now ds1 ds2 s a z steps root pem r HC F1 F2 Hr Hz Hu Hne Hblk Hio Hor Hroot Hro Hpem H.
  destruct (module_as_asked p q C L rest clk ds1 s a z steps HC Hr Hz Hu Hne Hblk Hio H) as (out & b & Ho & Hb & As).
  assert (HS : exists signer, cli_signer L s a = Ok signer).
  { pose proof H as H0. apply sign_steps in H0. destruct H0 as [(_ & X)|(x & b' & w & HB & _)]; [congruence|].
    unfold cli_sign_block in HB. apply bind_Ok in HB as (signer & HS & _). eauto. }
  destruct HS as (signer & HS).
  assert (Hread : fs_read (run s steps) (sa_output a) = Some out).
  { pose proof H as H0. apply sign_steps in H0. destruct H0 as [(_ & X)|(x & b' & w & HB & _ & -> & _)]; [congruence|].
    apply (read_after s _ (sa_output a) (fs_file s (sa_output a))); auto. repeat constructor. }
  pose proof (cli_sign_verify p q C K L rest builtin clk now ds1 ds2 s a z steps signer root pem r HC F1 F2 Hr Hz Hu Hne Hblk Hio Hor
    Hroot Hro Hpem HS) as V.
  pose proof HS as HS1. apply signer_exact in HS1 as (key & leaf & chain & G1 & HS1).
  destruct As as ((k1 & c1 & g & A1 & A2 & A3 & A4 & _) & As).
  destruct (given_unique _ _ _ _ _ _ _ G1 A1) as (<- & <-).
  split.
  - intros HV.
    assert (Good : exists roots D, Forall (v2_signer_good C K now roots D) (v2_signers_of b) /\
              match stamps_of b with [] => True | st :: _ => stamp_good C K now roots D st end).
    { pose proof HV as HV0. apply cli_verify_iff in HV0. destruct HV0 as (f & b' & roots & R1 & R2 & _ & _ & R3 & R4).
      assert (f = out) by congruence. subst f. assert (b' = b) by congruence. subst b'. eauto. }
    destruct Good as (roots & D & Gv & Gs). rewrite A2 in Gv. inversion Gv as [|x l (_ & _ & lf & rs & E1 & E2 & _) _]. subst.
    rewrite A3 in E1. assert (lf = leaf) by congruence. subst lf.
    assert (C1 : cert_for C K key leaf) by (exists (pk_data (sn_key g)); auto).
    destruct HS1 as [(G2 & Em)|(key' & leaf' & chain' & G2 & Em)].
    + assert (HT := proj1 (V ltac:(rewrite Em; intros c [[= <-]|X]; [exact C1|discriminate X]) H) HV). destruct HT as (T1 & _).
      split; [|now left]. exists key, leaf, chain. split; [exact G1|]. split; [exact C1|].
      apply (T1 (config_of key leaf chain)). now rewrite Em.
    + destruct As as [(N1 & _)|(k2 & l2 & ch2 & t & B1 & B2 & B3 & B4 & _)].
      { exfalso. apply (none_exact L s) in N1. destruct (config_creds _ _ _ _ _ _ G2) as (cr & X & _). congruence. }
      destruct (given_unique _ _ _ _ _ _ _ G2 B1) as (<- & Q). assert (l2 = leaf') by congruence. subst l2. clear Q.
      rewrite B2 in Gs. destruct Gs as (_ & _ & lf & rs2 & E3 & E4 & _). rewrite B3 in E3. assert (lf = leaf') by congruence. subst lf.
      assert (C2 : cert_for C K key' leaf') by (exists (pk_data (sb_key t)); auto).
      assert (HT := proj1 (V ltac:(rewrite Em; intros c [[= <-]|[= <-]]; [exact C1|exact C2]) H) HV). destruct HT as (T1 & T2).
      split; [|right].
      * exists key, leaf, chain. split; [exact G1|]. split; [exact C1|]. apply (T1 (config_of key leaf chain)). now rewrite Em.
      * exists key', leaf', chain'. split; [exact G2|]. split; [exact C2|]. apply (T2 (config_of key' leaf' chain')). now rewrite Em.
  - intros ((k1 & l1 & ch1 & P1 & P2 & P3) & P). destruct (given_unique _ _ _ _ _ _ _ G1 P1) as (<- & Q).
    assert (l1 = leaf) by congruence. assert (ch1 = chain) by congruence. subst l1 ch1. clear Q.
    destruct HS1 as [(G2 & Em)|(key' & leaf' & chain' & G2 & Em)].
    + apply V; [rewrite Em; intros c [[= <-]|X]; [exact P2|discriminate X]|exact H|]. rewrite Em. split; [|discriminate].
      intros c [= <-]. exact P3.
    + destruct P as [N1|(k2 & l2 & ch2 & B1 & B2 & B3)].
      { exfalso. apply (none_exact L s) in N1. destruct (config_creds _ _ _ _ _ _ G2) as (cr & X & _). congruence. }
      destruct (given_unique _ _ _ _ _ _ _ G2 B1) as (<- & Q). assert (l2 = leaf') by congruence. subst l2. clear Q.
      apply V; [rewrite Em; intros c [[= <-]|[= <-]]; [exact P2|exact B2]|exact H|]. rewrite Em.
      split; intros c [= <-]; [exact P3|exact B3].
Qed.
