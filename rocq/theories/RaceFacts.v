(** RaceFacts.v - proofs about Race.v. *)
From Verif Require Import Base BaseFacts Utils Algorithms Common SchemeV2 SourceStamp Utf8 ElfInfo SigningBlock
  Wire Built BuiltFacts CodecFacts BlockFacts SearchFacts InjFacts Spec LimitFacts Zip Digest Module Signable ZipSpec RegionSpec ZipFacts
  DigestFacts ModuleFacts ModuleProps RawFacts Signer Verifier ModuleVerify VerifySpec VerifyFacts SignSpec SignFacts VerifyProps
  EndToEnd Keystore KeySpec KeyFacts Elf Cli CliSpec CliFacts CliProps CliProps2 Race.
From Coq Require Import Bool Lia.
Open Scope N_scope.

(** * No other process *)
Lemma race_digests_same : forall p C rest ds x file l i,
  race_digests p C rest ds x (fun _ => file) i l = cli_digests p C rest ds x file l.
Proof.
  intros p C rest ds x file l. induction l as [|a l IH]; intros i; cbn [race_digests cli_digests]; [reflexivity|].
  now rewrite IH.
Qed.
Lemma race_open_same : forall rest file, race_open rest file file = signable_open rest file.
Proof.
  intros rest [f|]; [|reflexivity]. unfold race_open, signable_open. cbn [of_option bind].
  destruct (detect_file_format f); reflexivity.
Qed.
Lemma race_write_same : forall p rest x file b, race_write p rest x file file b = signable_write p rest x file b.
Proof. intros p rest [m|f] file b; reflexivity. Qed.

Lemma no_race : forall p C L rest clk ds s a,
  cli_sign p C L rest clk ds s a =
  let r := cli_sign_race p C L rest clk ds (undisturbed s (sa_output a)) a in (steps_of (fst r), snd r).
Proof.
  intros p C L rest clk ds s a. unfold cli_sign, cli_sign_race, undisturbed, cli_sign_block.
  cbn [at_keys at_detect at_open at_regions at_digest at_create at_check at_read].
  rewrite race_open_same.
  destruct (cli_signer L s a) as [sg| |]; cbn [bind]; try reflexivity.
  destruct (signable_open rest (fs_read s (sa_input a))) as [x0| |]; cbn [bind]; try reflexivity.
  destruct (choose_sections x0 (sa_sections a)) as [x| |]; cbn [bind]; try reflexivity.
  destruct (signable_regions p rest x (fs_read s (sa_input a))); cbn [bind]; try reflexivity.
  rewrite race_digests_same.
  destruct (cli_digests _ _ _ _ _ _ _) as [l| |]; cbn [bind]; try reflexivity.
  destruct (ms_sign _ _ _ _ _) as [b0| |]; cbn [bind]; try reflexivity.
  destruct (cli_add_info rest x b0) as [b| |]; cbn [bind]; try reflexivity.
  destruct (fs_can_create s (sa_output a)); [|reflexivity].
  rewrite race_write_same. cbv zeta. destruct (signable_write _ _ _ _ _) as (w & r). reflexivity.
Qed.
Lemma verify_no_race : forall p C K builtin now ds s file root,
  cli_verify_race p C K builtin now ds (mkVMoments s s s (fun _ => s)) file root =
  cli_verify p C K builtin now ds s file root.
Proof.
  intros. unfold cli_verify_race, cli_verify. cbn [v_open v_block v_root v_digest].
  destruct (fs_read s file); reflexivity.
Qed.

(** * Nothing is found in a file without the magic *)
Lemma search_magic : forall p file fl ws w k b, from_reader_search p file fl ws w k = Ok b ->
  exists x y, w = x ++ MAGIC ++ y.
Proof.
  intros p file fl ws w k b. induction k as [|k IH]; cbn [from_reader_search]; [discriminate|]. cbv zeta.
  destruct (get_range w (N.of_nat k) (N.of_nat k + MAGIC_LEN)) as [m|] eqn:G; [|exact IH].
  destruct (beq m MAGIC) eqn:E; [|exact IH]. intros _.
  apply beq_eq in E. subst m. apply get_range_split in G. eauto.
Qed.
Definition no_magic_in (f : bytes) : Prop := forall x y, f <> x ++ MAGIC ++ y.
Lemma from_reader_magic : forall p file fl eo b, from_reader p file fl eo = Ok b -> ~ no_magic_in file.
Proof.
  intros p file fl eo b H N. unfold from_reader in H. cbv zeta in H.
  destruct (_ <? MAGIC_LEN + SIZE_UINT64); [discriminate|].
  unfold read_exact_at in H.
  destruct (get_range file _ _) as [w|] eqn:G; cbn [bind] in H; [|discriminate].
  apply search_magic in H. destruct H as (x & y & ->). apply get_range_split in G.
  rewrite <- !app_assoc in G. rewrite (app_assoc (takeN _ file) x) in G. exact (N _ _ G).
Qed.

(** * The module that is written *)
Lemma race_source_plain : forall p f0 f1 z raw e, zip_ok z [] -> unsigned z ->
  len f0 = len (plain z) \/ no_magic_in (plain z) ->
  race_source p (module_new f0) f1 (plain z) = Ok (raw, e) ->
  raw = plain z /\ e = zip_eocd z (len (z_entries z) + len (z_cd z)) (len (z_entries z)).
Proof.
  intros p f0 f1 z raw e Hz Hu Hl H. unfold race_source in H.
  assert (NS : forall b, m_get_signing_block p (module_new f0) (plain z) <> Ok b).
  { intros b X. destruct Hl as [El|Nm].
    - replace (module_new f0) with (module_new (plain z)) in X by (unfold module_new; now rewrite El).
      rewrite get_sb_plain in X by auto. discriminate.
    - unfold m_get_signing_block in X. cbn [module_new m_sig m_raw] in X.
      destruct (m_find_eocd _ _); cbn [bind] in X; try discriminate. now apply from_reader_magic in X. }
  destruct (m_get_signing_block p (module_new f0) f1) as [b|x|].
  - exfalso. unfold m_get_raw_module in H. change (m_raw (module_new f0)) with false in H. cbv iota in H.
    destruct (m_get_signing_block p (module_new f0) (plain z)) as [b'| |] eqn:E; cbn [bind] in H; try discriminate.
    now elim (NS b').
  - destruct (maybe_missing_signature x); [|discriminate]. rewrite find_eocd_plain in H by auto.
    cbn [bind] in H. injection H as <- <-. auto.
  - discriminate.
Qed.

(** * A signature over any digests whatever *)
Lemma v2_signed_good_iff : forall C K now roots D c l v s d, crypto_ok C -> v2_sign C c (digests_of_pairs l) = Ok v ->
  certified C K c -> sns_data (v2_signers v) = [s] ->
  stored_digest (dgs_data (digests_of_pairs l)) (sc_algo c) d ->
  (v2_signer_good C K now roots D s <-> D (sc_algo c) d /\ trusted K now roots (sc_cert c) (sc_chain c)).
Proof.
  intros C K now roots D c l v s d HC HS Hcf Hv HD.
  assert (X : D (sc_algo c) d -> (v2_signer_good C K now roots D s <-> trusted K now roots (sc_cert c) (sc_chain c))).
  { intros X. eapply v2_signed_good; eauto. }
  split; [|intros (X1 & X2); apply X; auto].
  intros G. assert (D (sc_algo c) d); [|split; [auto|apply X; auto]].
  pose proof (v2_sign_inv _ _ _ _ HS) as (sig & pub & E & _). rewrite E in Hv. injection Hv as <-.
  destruct G as (_ & G & _).
  change (sgs_data (sn_sigs (v2_one c (digests_of_pairs l) sig pub))) with [sig_new (sc_algo c) sig] in G.
  change (dgs_data (sd_digests (sn_data (v2_one c (digests_of_pairs l) sig pub)))) with (dgs_data (digests_of_pairs l)) in G.
  apply Forall_cons_iff in G. destruct G as ((_ & d' & S & Y) & _). cbn [sig_new sg_algo] in S, Y.
  now rewrite (stored_unique _ _ _ _ S HD) in Y.
Qed.

Lemma stamp_signed_good_iff : forall C K now roots D clk ts c l v d, crypto_ok C ->
  stamp_sign C clk ts c (digests_of_pairs l) = Ok v -> certified C K c ->
  stored_digest (dgs_data (digests_of_pairs l)) (sc_algo c) d ->
  (stamp_good C K now roots D (ss_block v) <-> D (sc_algo c) d /\ trusted K now roots (sc_cert c) []).
Proof.
  intros C K now roots D clk ts c l v d HC HS Hcf HD.
  assert (X : D (sc_algo c) d -> (stamp_good C K now roots D (ss_block v) <-> trusted K now roots (sc_cert c) [])).
  { intros X. eapply stamp_signed_good; eauto. }
  split; [|intros (X1 & X2); apply X; auto].
  intros G. assert (D (sc_algo c) d); [|split; [auto|apply X; auto]].
  pose proof (stamp_sign_inv _ _ _ _ _ _ HS) as (attrs & sig & pub & _ & E & _). cbv zeta in E. rewrite E in G.
  cbn [ss_new ss_block] in G. destruct G as (G & _).
  set (s := stamp_one c attrs (digests_of_pairs l) sig pub) in *.
  change (sgs_data (sb_sigs s)) with [sig_new (sc_algo c) sig] in G.
  change (dgs_data (st_digests (sb_data s))) with (dgs_data (digests_of_pairs l)) in G.
  apply Forall_cons_iff in G. destruct G as ((_ & Y) & _). cbn [sig_new sg_algo] in Y. auto.
Qed.

Lemma sign_any_verify : forall q u C K clk now ds roots z m l b, crypto_ok C ->
  zip_ok z [] -> unsigned z -> Forall (fun x => canonical (fst x)) l -> NoDup (map fst l) ->
  (forall a, In a (required_algorithms m) -> In a (map fst l)) ->
  ms_sign q C clk m (digests_of_pairs l) = Ok b ->
  zip_ok z (block_to_u8 b) -> zip_small z (block_to_u8 b) ->
  (forall c, ms_v2 m = Some c \/ ms_stamp m = Some c -> certified C K c) ->
  let out := with_block z (block_to_u8 b) in
  exists res, m_verify_with_roots u C K now ds (module_new out) out (configured K roots) = Ok res /\
  (is_valid res = true <->
     (forall a d, In a (required_algorithms m) -> In (a, d) l ->
        m_digest u C (ds a) (module_new (plain z)) (plain z) a = Ok d) /\
     (forall c, ms_v2 m = Some c -> trusted K now roots (sc_cert c) (sc_chain c)) /\
     (forall c, ms_stamp m = Some c -> trusted K now roots (sc_cert c) [])).
Proof.
  intros q u C K clk now ds roots z m l b HC Hz Hu Hl HN HR HS Hzb Hsb Hcert out.
  assert (HB : built_block b) by (eapply ms_sign_built; eauto).
  assert (HW : s_write_with_signature u (module_new (plain z)) (plain z) b = (out, Ok tt)) by (apply s_write_unsigned; auto).
  assert (Hsm : zip_small z []) by (eapply zip_small_plain; [exact Hsb|apply Hz]).
  assert (Dig : forall a, m_digest u C (ds a) (module_new out) out a = m_digest u C (ds a) (module_new (plain z)) (plain z) a).
  { intros a. destruct (c21_write u u u C (ds a) z b a out HB Hz Hu Hzb Hsb HW) as (d & D1 & D2). congruence. }
  assert (DigOk : forall a, exists d, m_digest u C (ds a) (module_new out) out a = Ok d).
  { intros a. rewrite Dig, m_digest_plain by auto. eauto. }
  assert (HG := c20_write u u z b out HB Hz Hu Hzb Hsb HW).
  assert (Hlen : len out < U64).
  { unfold out. red in Hsb. unfold U64. change (2 ^ 63) with I64 in Hsb. unfold I64 in Hsb. lia. }
  assert (V : exists res, m_verify_with_roots u C K now ds (module_new out) out (configured K roots) = Ok res).
  { unfold m_verify_with_roots. rewrite HG.
    destruct (fill_context_ok u C ds (module_new out) out
                (digest_algos (bk_content (offset_by b (len (z_entries z))))) ctx_new DigOk) as (ctx & ->).
    cbn [bind]. eauto. }
  destruct V as (res & HV). exists res. split; [exact HV|].
  assert (Uniq : forall a d d', In (a, d) l -> In (a, d') l -> d' = d).
  { clear -HN. induction l as [|(x & y) l IH]; intros a d d' I1 I2; [destruct I1|].
    cbn [map fst] in HN. inversion_clear HN as [|? ? N1 N2]. destruct I1 as [E1|I1], I2 as [E2|I2].
    - congruence.
    - injection E1 as -> ->. elim N1. change a with (fst (a, d')). now apply in_map.
    - injection E2 as -> ->. elim N1. change a with (fst (a, d)). now apply in_map.
    - eauto. }
  set (D := fun a d => m_digest u C (ds a) (module_new out) out a = Ok d).
  assert (Req : forall c, ms_v2 m = Some c \/ ms_stamp m = Some c ->
    exists d, In (sc_algo c, d) l /\ stored_digest (dgs_data (digests_of_pairs l)) (sc_algo c) d).
  { intros c Hc. assert (I : In (sc_algo c) (map fst l)).
    { apply HR. apply (proj2 (required_spec m)). eauto. }
    apply in_map_iff in I. destruct I as ((a & d) & E & I). cbn [fst] in E. subst a.
    exists d. split; [exact I|]. apply pairs_stored; [exact I|]. intros d' I'. eapply Uniq; eauto. }
  destruct (ms_sign_signers _ _ _ _ _ _ HC HS) as (Sv & Ss).
  change (v2_signers_of b) with (v2_signers_of (offset_by b (len (z_entries z)))) in Sv.
  change (stamps_of b) with (stamps_of (offset_by b (len (z_entries z)))) in Ss.
  rewrite (module_valid_iff _ _ _ _ _ _ _ _ Hlen HV). cbv zeta. fold D.
  set (good := fun c chain => (forall d, In (sc_algo c, d) l -> D (sc_algo c) d) /\ trusted K now roots (sc_cert c) chain).
  assert (Av : Forall (v2_signer_good C K now roots D) (v2_signers_of (offset_by b (len (z_entries z)))) <->
    forall c, ms_v2 m = Some c -> good c (sc_chain c)).
  { destruct (ms_v2 m) as [c|].
    - destruct Sv as (v & s & Hv & Hs & ->). rewrite Forall_cons_iff.
      destruct (Req c (or_introl eq_refl)) as (d & I & S).
      rewrite (v2_signed_good_iff C K now roots D c l v s d HC Hv (Hcert c (or_introl eq_refl)) Hs S).
      split.
      + intros ((X & T) & _) c' [= <-]. split; [|exact T]. intros d' I'. now rewrite (Uniq _ _ _ I I').
      + intros G. destruct (G c eq_refl) as (X & T). split; [split; auto|constructor].
    - rewrite Sv. split; [discriminate|constructor]. }
  assert (As : match stamps_of (offset_by b (len (z_entries z))) with [] => True | s :: _ => stamp_good C K now roots D s end <->
    forall c, ms_stamp m = Some c -> good c []).
  { destruct (ms_stamp m) as [c|].
    - destruct Ss as (s & Hs & ->). destruct (Req c (or_intror eq_refl)) as (d & I & S).
      rewrite (stamp_signed_good_iff C K now roots D clk (ms_timestamp m) c l s d HC Hs (Hcert c (or_intror eq_refl)) S).
      split.
      + intros (X & T) c' [= <-]. split; [|exact T]. intros d' I'. now rewrite (Uniq _ _ _ I I').
      + intros G. destruct (G c eq_refl) as (X & T). auto.
    - rewrite Ss. split; [discriminate|trivial]. }
  assert (Req' : forall a, In a (required_algorithms m) <-> exists c, (ms_v2 m = Some c \/ ms_stamp m = Some c) /\ sc_algo c = a)
    by apply (required_spec m).
  split.
  - intros (b' & Hb' & X). rewrite HG in Hb'. injection Hb' as <-. rewrite Av, As in X. destruct X as (X1 & X2).
    split; [|split; intros c Hc; [apply (X1 c Hc)|apply (X2 c Hc)]].
    intros a d Ia I. rewrite <- Dig. apply Req' in Ia. destruct Ia as (c & [Hc|Hc] & <-).
    + apply (proj1 (X1 c Hc)). exact I.
    + apply (proj1 (X2 c Hc)). exact I.
  - intros (X & T1 & T2). eexists. split; [exact HG|]. rewrite Av, As. split; intros c Hc; (split; [|auto]);
      intros d I; unfold D; rewrite Dig; apply X; auto; apply Req'; eauto.
Qed.

(** * The sign command *)
Lemma race_digests_spec : forall p C rest ds x file l i r, race_digests p C rest ds x file i l = Ok r ->
  map fst r = l /\
  forall k a, nth_error l k = Some a -> exists d, nth_error r k = Some (a, d) /\
    signable_digest p C rest ds x (file (i + k)%nat) a = Ok d.
Proof.
  intros p C rest ds x file l. induction l as [|a l IH]; intros i r H; cbn [race_digests] in H.
  - injection H as <-. split; [reflexivity|]. intros [|k] a; discriminate.
  - destruct (signable_digest p C rest ds x (file i) a) as [d| |] eqn:E; cbn [bind] in H; try discriminate.
    destruct (race_digests p C rest ds x file (S i) l) as [r'| |] eqn:E'; cbn [bind] in H; try discriminate.
    injection H as <-. destruct (IH _ _ E') as (M & F). cbn [map fst]. rewrite M. split; [reflexivity|].
    intros [|k] a' Hn; cbn [nth_error] in *.
    + injection Hn as <-. rewrite Nat.add_0_r. eauto.
    + destruct (F k a' Hn) as (d' & F1 & F2). exists d'. split; [exact F1|].
      replace (i + S k)%nat with (S i + k)%nat by lia. exact F2.
Qed.

Lemma race_module_inv : forall p C L rest clk ds H a f w signer,
  cli_sign_race p C L rest clk ds H a = (Some (f, w), Ok tt) ->
  cli_signer L (at_keys H) a = Ok signer ->
  (forall t, fs_read (at_detect H) (sa_input a) <> Some (ELFMAG ++ t)) ->
  exists f0 l b, fs_read (at_open H) (sa_input a) = Some f0 /\
    race_digests p C rest ds (SModule (module_new f0)) (fun i => fs_read (at_digest H i) (sa_input a)) 0
      (required_algorithms signer) = Ok l /\
    ms_sign p C clk signer (digests_of_pairs l) = Ok b /\
    race_write p rest (SModule (module_new f0)) (fs_read (at_check H) (sa_input a)) (fs_read (at_read H) (sa_input a)) b = (w, Ok tt).
Proof.
  intros p C L rest clk ds H a f w signer HR Hs Hne. unfold cli_sign_race in HR. rewrite Hs in HR. cbn [bind] in HR.
  destruct (race_open _ _ _) as [x0| |] eqn:E0; cbn [bind] in HR; try discriminate.
  destruct (choose_sections x0 (sa_sections a)) as [x1| |] eqn:E1; cbn [bind] in HR; try discriminate.
  destruct (signable_regions p rest x1 _) as [rg| |]; cbn [bind] in HR; try discriminate.
  destruct (race_digests _ _ _ _ _ _ _ _) as [l| |] eqn:E2; cbn [bind] in HR; try discriminate.
  destruct (ms_sign _ _ _ _ _) as [b0| |] eqn:E3; cbn [bind] in HR; try discriminate.
  destruct (cli_add_info rest x1 b0) as [b1| |] eqn:E4; cbn [bind] in HR; try discriminate.
  destruct (fs_can_create _ _); [|discriminate].
  destruct (race_write _ _ _ _ _ _) as (w' & r') eqn:E5. injection HR as _ <- ->.
  unfold race_open in E0. destruct (fs_read (at_detect H) (sa_input a)) as [b|]; cbn [of_option bind] in E0; [|discriminate].
  destruct (detect_file_format b) as [fmt| |] eqn:Ed; cbn [bind] in E0; try discriminate.
  destruct (fs_read (at_open H) (sa_input a)) as [f0|]; cbn [of_option bind] in E0; [|discriminate].
  destruct fmt.
  - injection E0 as <-. apply choose_kind in E1. subst x1. cbn [cli_add_info] in E4. injection E4 as <-.
    exists f0, l, b0. auto.
  - apply detect_spec in Ed. destruct Ed as (t & ->). now elim (Hne t).
Qed.

Lemma race_sign_verify : forall p q C K L rest builtin clk now ds1 ds2 H a f w z signer s' file root pem r f0,
  crypto_ok C ->
  cli_sign_race p C L rest clk ds1 H a = (Some (f, w), Ok tt) ->
  cli_signer L (at_keys H) a = Ok signer ->
  (forall c, ms_v2 signer = Some c \/ ms_stamp signer = Some c -> certified C K c) ->
  (forall t, fs_read (at_detect H) (sa_input a) <> Some (ELFMAG ++ t)) ->
  fs_read (at_open H) (sa_input a) = Some f0 ->
  fs_read (at_read H) (sa_input a) = Some (plain z) -> zip_ok z [] -> unsigned z ->
  (forall blk, len blk <= 16392 -> zip_ok z blk /\ zip_small z blk) ->
  len f0 = len (plain z) \/ no_magic_in (plain z) ->
  fs_read s' file = Some w -> fs_read s' root = Some pem -> pem_parse K pem = Some (CERTIFICATE_TAG, r) ->
  (cli_verify q C K builtin now ds2 s' file (Some root) = Ok tt <->
     (forall i x, nth_error (required_algorithms signer) i = Some x -> exists d,
        m_digest p C (ds1 x) (module_new f0) (now_content (fs_read (at_digest H i) (sa_input a))) x = Ok d /\
        m_digest q C (ds2 x) (module_new (plain z)) (plain z) x = Ok d) /\
     (forall c, ms_v2 signer = Some c -> trusted K now [r] (sc_cert c) (sc_chain c)) /\
     (forall c, ms_stamp signer = Some c -> trusted K now [r] (sc_cert c) [])).
Proof.
  intros p q C K L rest builtin clk now ds1 ds2 H a f w z signer s' file root pem r f0 HC HR Hsig Hcert Hne Hop Hrd Hz Hu Hblk Hl
    Hw Hroot Hpem.
  destruct (race_module_inv _ _ _ _ _ _ _ _ _ _ _ HR Hsig Hne) as (f0' & l & b & Hop' & HD & HS & HW).
  rewrite Hop in Hop'. injection Hop' as <-.
  pose proof (cli_signer_spec _ _ _ _ Hsig) as (_ & _ & Hv2 & Halgo).
  apply race_digests_spec in HD. destruct HD as (Hm & HD).
  assert (Hcan : Forall (fun x => canonical (fst x)) l).
  { apply Forall_forall. intros (x & d) I. cbn. apply (required_canonical signer Halgo). rewrite <- Hm.
    change x with (fst (x, d)). now apply in_map. }
  assert (HBt : built_block b) by (eapply ms_sign_built; eauto).
  destruct (Hblk (block_to_u8 b) (built_block_short b HBt)) as (Hzb & Hsb).
  assert (Ew : w = with_block z (block_to_u8 b)).
  { unfold race_write in HW. rewrite Hrd in HW. cbn [now_content] in HW.
    destruct (race_source _ _ _ _) as [(raw & e)| |] eqn:E; try discriminate.
    apply race_source_plain in E; auto. destruct E as (-> & ->). rewrite s_write_raw_zip in HW by auto. congruence. }
  destruct (sign_any_verify p q C K clk now ds2 [r] z signer l b HC Hz Hu Hcan) as (res & HV & Hval); auto.
  { rewrite Hm. apply (required_spec signer). }
  { intros x I. now rewrite Hm. }
  rewrite <- Ew in HV.
  assert (Hlen : len w < U64).
  { rewrite Ew. red in Hsb. unfold U64. change (2 ^ 63) with I64 in Hsb. unfold I64 in Hsb. lia. }
  assert (HW' : s_write_with_signature p (module_new (plain z)) (plain z) b = (w, Ok tt)) by (rewrite Ew; apply s_write_unsigned; auto).
  assert (HG := c20_write p q z b w HBt Hz Hu Hzb Hsb HW').
  assert (HN : v2_signers_of (offset_by b (len (z_entries z))) <> []).
  { destruct (ms_sign_signers _ _ _ _ _ _ HC HS) as (Sv & _). destruct (ms_v2 signer); [|congruence].
    destruct Sv as (v & y & _ & _ & E). change (v2_signers_of (offset_by b (len (z_entries z)))) with (v2_signers_of b).
    rewrite E. discriminate. }
  assert (EQ : cli_verify q C K builtin now ds2 s' file (Some root) = Ok tt <-> is_valid res = true).
  { rewrite (module_valid_iff _ _ _ _ _ _ _ _ Hlen HV). rewrite cli_verify_iff. split.
    - intros (g & b' & roots & Hf & Hb' & (pem' & cert & Hp1 & Hp2 & ->) & _ & X1 & X2).
      rewrite Hw in Hf. injection Hf as <-. rewrite Hroot in Hp1. injection Hp1 as <-.
      rewrite Hpem in Hp2. injection Hp2 as <-. exists b'. auto.
    - intros (b' & Hb' & X1 & X2). exists w, b', [r]. split; [exact Hw|]. split; [exact Hb'|]. split; [exists pem, r; auto|].
      rewrite HG in Hb'. injection Hb' as <-. auto. }
  rewrite EQ, Hval.
  assert (ED : (forall x d, In x (required_algorithms signer) -> In (x, d) l ->
      m_digest q C (ds2 x) (module_new (plain z)) (plain z) x = Ok d) <->
     (forall i x, nth_error (required_algorithms signer) i = Some x -> exists d,
        m_digest p C (ds1 x) (module_new f0) (now_content (fs_read (at_digest H i) (sa_input a))) x = Ok d /\
        m_digest q C (ds2 x) (module_new (plain z)) (plain z) x = Ok d)).
  { split.
    - intros X i x Hn. destruct (HD i x Hn) as (d & D1 & D2). exists d. split; [exact D2|].
      apply X; [eapply nth_error_In; exact Hn|eapply nth_error_In; exact D1].
    - intros X x d _ I. apply In_nth_error in I. destruct I as (i & I).
      assert (Hn : nth_error (required_algorithms signer) i = Some x).
      { rewrite <- Hm. change x with (fst (x, d)). now apply map_nth_error. }
      destruct (HD i x Hn) as (d1 & D1 & D2). rewrite I in D1. injection D1 as <-.
      destruct (X i x Hn) as (d2 & D3 & D4). cbn [signable_digest Nat.add] in D2. congruence. }
  rewrite ED. tauto.
Qed.

Lemma race_binding : forall p q C K L rest builtin clk now ds1 ds2 H a f w z signer s' file root pem r f0 i x g e,
  crypto_ok C -> hash_sized C -> (forall y, fills (ds1 y)) -> (forall y, fills (ds2 y)) ->
  cli_sign_race p C L rest clk ds1 H a = (Some (f, w), Ok tt) ->
  cli_signer L (at_keys H) a = Ok signer ->
  (forall c, ms_v2 signer = Some c \/ ms_stamp signer = Some c -> certified C K c) ->
  (forall t, fs_read (at_detect H) (sa_input a) <> Some (ELFMAG ++ t)) ->
  fs_read (at_open H) (sa_input a) = Some f0 ->
  fs_read (at_read H) (sa_input a) = Some (plain z) -> zip_ok z [] -> unsigned z ->
  (forall blk, len blk <= 16392 -> zip_ok z blk /\ zip_small z blk) ->
  len f0 = len (plain z) \/ no_magic_in (plain z) ->
  fs_read s' file = Some w -> fs_read s' root = Some pem -> pem_parse K pem = Some (CERTIFICATE_TAG, r) ->
  cli_verify q C K builtin now ds2 s' file (Some root) = Ok tt ->
  nth_error (required_algorithms signer) i = Some x ->
  fs_read (at_digest H i) (sa_input a) = Some g -> len g = len f0 -> len g < 2 ^ 63 ->
  find_eocd g (len g) = Ok e -> p = Debug \/ eo_cd_offset e <= eo_off e ->
  let e' := zip_eocd z (len (z_entries z) + len (z_cd z)) (len (z_entries z)) in
  module_clash p q (hash C x) g e (plain z) e' \/ same_outside_block p q g (plain z) e e'.
Proof.
  intros p q C K L rest builtin clk now ds1 ds2 H a f w z signer s' file root pem r f0 i x g e HC HH F1 F2 HR Hsig Hcert Hne Hop Hrd Hz Hu
    Hblk Hl Hw Hroot Hpem HV Hn Hg Hlg Hg63 He Ho e'.
  destruct (proj1 (race_sign_verify p q C K L rest builtin clk now ds1 ds2 H a f w z signer s' file root pem r f0 HC HR Hsig Hcert Hne Hop
    Hrd Hz Hu Hblk Hl Hw Hroot Hpem) HV) as (X & _).
  destruct (X i x Hn) as (d & D1 & D2). rewrite Hg in D1. cbn [now_content] in D1.
  replace (module_new f0) with (module_new g) in D1 by (unfold module_new; now rewrite Hlg).
  assert (Hx : exists n, 0 < n /\ forall y, len (hash C x y) = n).
  { pose proof (cli_signer_spec _ _ _ _ Hsig) as (_ & _ & _ & Halgo).
    apply nth_error_In in Hn. apply (proj2 (required_spec signer)) in Hn. destruct Hn as (c & Hc & <-).
    rewrite (Halgo c Hc). destruct HH as (H1 & H2). destruct (sc_key c); cbn [algo_of_key hash]; auto. }
  destruct Hx as (n & Hn0 & Hlen).
  assert (Hz63 : len (plain z) < 2 ^ 63).
  { assert (len (@nil byte) <= 16392) by (rewrite len_nil; lia). apply (Hblk []); auto. }
  apply (c31 p q C (ds1 x) (ds2 x) g (plain z) e e' x d n (F1 x) (F2 x) Hn0 Hlen Hg63 Hz63 He Ho); auto.
  - apply find_eocd_plain. auto.
  - right. unfold e', zip_eocd. cbn [eo_cd_offset eo_off]. lia.
Qed.

(** * ELF files are read once *)
Lemma race_digests_elf : forall p C rest ds f file file' l i,
  race_digests p C rest ds (SElf f) file i l = cli_digests p C rest ds (SElf f) file' l.
Proof.
  intros p C rest ds f file file' l. induction l as [|a l IH]; intros i; cbn [race_digests cli_digests]; [reflexivity|].
  cbn [signable_digest]. now rewrite IH.
Qed.
Lemma race_elf : forall p C L rest clk ds H a s t t',
  fs_read (at_detect H) (sa_input a) = Some (ELFMAG ++ t) ->
  fs_read (at_open H) (sa_input a) = Some (ELFMAG ++ t') ->
  fs_read s (sa_input a) = Some (ELFMAG ++ t') -> cli_signer L s a = cli_signer L (at_keys H) a ->
  fs_can_create s (sa_output a) = fs_can_create (at_create H) (sa_output a) ->
  fs_file s (sa_output a) = fs_file (at_create H) (sa_output a) ->
  let r := cli_sign_race p C L rest clk ds H a in
  cli_sign p C L rest clk ds s a = (steps_of (fst r), snd r).
Proof.
  intros p C L rest clk ds H a s t t' H1 H2 H3 H4 H5 H6. cbv zeta.
  assert (De : forall u, detect_file_format (ELFMAG ++ u) = Ok FElf) by (intros u; apply detect_spec; eauto).
  unfold cli_sign, cli_sign_race, cli_sign_block. rewrite H4, H5, H6, H3, H1, H2.
  unfold signable_open, race_open. cbn [of_option bind]. rewrite !De. cbn [bind].
  destruct (cli_signer L (at_keys H) a) as [sg| |]; cbn [bind]; try reflexivity.
  destruct (elf_new rest (ELFMAG ++ t')) as [fe| |]; cbn [bind]; try reflexivity.
  destruct (choose_sections (SElf fe) (sa_sections a)) as [x| |] eqn:E; cbn [bind]; try reflexivity.
  assert (X : exists f', x = SElf f').
  { unfold choose_sections in E. destruct (sa_sections a); [injection E as <-; eauto|].
    cbn [set_elf_sections] in E. destruct (set_signed_sections fe _); cbn [bind] in E; try discriminate. injection E as <-. eauto. }
  destruct X as (f' & ->). cbn [signable_regions].
  destruct (elf_digest_regions rest f'); cbn [bind]; try reflexivity.
  rewrite (race_digests_elf p C rest ds f' _ (Some (ELFMAG ++ t')) (required_algorithms sg) 0).
  destruct (cli_digests _ _ _ _ _ _ _) as [l| |]; cbn [bind]; try reflexivity.
  destruct (ms_sign _ _ _ _ _) as [b0| |]; cbn [bind]; try reflexivity.
  destruct (cli_add_info rest (SElf f') b0) as [b| |]; cbn [bind]; try reflexivity.
  destruct (fs_can_create (at_create H) (sa_output a)); [|reflexivity]. cbv zeta.
  cbn [race_write signable_write].
  destruct (elf_write_with_signature rest f' b); reflexivity.
Qed.

(** * verify *)
Lemma verify_race : forall p C K builtin now ds V file root,
  cli_verify_race p C K builtin now ds V file root = Ok tt <->
  exists f b roots, fs_read (v_open V) file = Some f /\
    m_get_signing_block p (module_new f) (now_content (fs_read (v_block V) file)) = Ok b /\
    roots_given K builtin (v_root V) root roots /\
    let dig := fun a => m_digest p C (ds a) (module_new f) (now_content (fs_read (v_digest V a) file)) a in
    let D := fun a d => dig a = Ok d in
    dig ECDSA_SHA2_256 <> Panic /\ dig ECDSA_SHA2_512 <> Panic /\
    v2_signers_of b <> [] /\ Forall (v2_signer_good C K now roots D) (v2_signers_of b) /\
    match stamps_of b with [] => True | st :: _ => stamp_good C K now roots D st end.
Proof.
  intros p C K builtin now ds V file root. unfold cli_verify_race.
  destruct (fs_read (v_open V) file) as [f|]; cbn [of_option bind].
  2: { split; [discriminate|]. intros (f & b & roots & ? & _). discriminate. }
  cbv zeta.
  destruct (m_get_signing_block p (module_new f) (now_content (fs_read (v_block V) file))) as [b|e|] eqn:EB; cbn [map_err bind].
  2, 3: split; [discriminate|intros (f' & b & roots & [= <-] & E & _); congruence].
  destruct (cli_roots K builtin (v_root V) root) as [tr|e|] eqn:ER; cbn [bind].
  2, 3: split; [discriminate|intros (f' & b' & roots & _ & _ & R & _)];
    assert (Y : cli_roots K builtin (v_root V) root = Ok (configured K roots)) by (apply cli_roots_iff; eauto); congruence.
  apply cli_roots_iff in ER. destruct ER as (roots & RG & ->).
  assert (RU : forall roots', roots_given K builtin (v_root V) root roots' -> roots' = roots).
  { intros roots' R'. unfold roots_given in *. destruct root as [q|].
    - destruct RG as (p1 & c1 & A1 & A2 & ->), R' as (p2 & c2 & B1 & B2 & ->). congruence.
    - destruct (pem_parse K builtin) as [(tag & c)|]; [destruct (beq tag CERTIFICATE_TAG)|]; congruence. }
  set (dig := fun a => m_digest p C (ds a) (module_new f) (now_content (fs_read (v_digest V a) file)) a).
  set (D := fun a d => dig a = Ok d).
  set (G := v2_signers_of b <> [] /\ Forall (v2_signer_good C K now roots D) (v2_signers_of b) /\
     match stamps_of b with [] => True | st :: _ => stamp_good C K now roots D st end).
  assert (Goal1 : (exists f' b' roots', Some f = Some f' /\
    m_get_signing_block p (module_new f') (now_content (fs_read (v_block V) file)) = Ok b' /\
    roots_given K builtin (v_root V) root roots' /\
    m_digest p C (ds ECDSA_SHA2_256) (module_new f') (now_content (fs_read (v_digest V ECDSA_SHA2_256) file)) ECDSA_SHA2_256 <> Panic /\
    m_digest p C (ds ECDSA_SHA2_512) (module_new f') (now_content (fs_read (v_digest V ECDSA_SHA2_512) file)) ECDSA_SHA2_512 <> Panic /\
    v2_signers_of b' <> [] /\ Forall (v2_signer_good C K now roots'
      (fun a d => m_digest p C (ds a) (module_new f') (now_content (fs_read (v_digest V a) file)) a = Ok d)) (v2_signers_of b') /\
    match stamps_of b' with [] => True | st :: _ => stamp_good C K now roots'
      (fun a d => m_digest p C (ds a) (module_new f') (now_content (fs_read (v_digest V a) file)) a = Ok d) st end)
    <-> (dig ECDSA_SHA2_256 <> Panic /\ dig ECDSA_SHA2_512 <> Panic /\ G)).
  { split.
    - intros (f' & b' & roots' & [= <-] & Hb & R & X). rewrite EB in Hb. injection Hb as <-. rewrite (RU _ R) in X. exact X.
    - intros X. exists f, b, roots. auto. }
  rewrite Goal1. clear Goal1.
  assert (Goal2 : forall ctx, (forall a d, known a -> (computed ctx a d <-> D a d)) ->
    (cli_conclusion (verify_v2_with_digest C K now (configured K roots) b (Some ctx))
       (verify_source_stamp_with_digest C K now (configured K roots) b (Some ctx)) = Ok tt <-> G)).
  { intros ctx HD. rewrite conclusion_iff.
    pose proof (is_valid_iff C K now roots b ctx) as W. unfold is_valid, verify_all_with_digest in W.
    cbn [va_v2 va_stamp] in W. rewrite andb_true_iff in W.
    pose proof (has_v2_iff C K now (configured K roots) b (Some ctx)) as P. unfold has_v2, verify_all_with_digest in P.
    cbn [va_v2] in P. rewrite P, W.
    assert (E1 : Forall (v2_signer_good C K now roots (computed ctx)) (v2_signers_of b) <->
                 Forall (v2_signer_good C K now roots D) (v2_signers_of b)).
    { split; intros F; (eapply Forall_impl; [|exact F]); intros x; apply v2_good_known; intros a d Ka; apply HD; exact Ka. }
    assert (E2 : match stamps_of b with [] => True | st :: _ => stamp_good C K now roots (computed ctx) st end <->
                 match stamps_of b with [] => True | st :: _ => stamp_good C K now roots D st end).
    { destruct (stamps_of b); [tauto|]. split; apply stamp_good_known; intros a d Ka; apply HD; exact Ka. }
    unfold G. rewrite E1, E2. tauto. }
  assert (Bad : (forall a d, known a -> ~ D a d) -> ~ G).
  { intros NoD (N1 & F & _). destruct (v2_signers_of b) as [|x l]; [contradiction|]. apply Forall_cons_iff in F.
    destruct F as ((G1 & G2 & _) & _). destruct (sgs_data (sn_sigs x)) as [|g gs]; [contradiction|].
    apply Forall_cons_iff in G2. destruct G2 as ((A & d & _ & X) & _). refine (NoD _ d _ X). eapply accepted_known; exact A. }
  unfold cli_add_digest.
  change (m_digest p C (ds ECDSA_SHA2_256) (module_new f) (now_content (fs_read (v_digest V ECDSA_SHA2_256) file)) ECDSA_SHA2_256)
    with (dig ECDSA_SHA2_256).
  change (m_digest p C (ds ECDSA_SHA2_512) (module_new f) (now_content (fs_read (v_digest V ECDSA_SHA2_512) file)) ECDSA_SHA2_512)
    with (dig ECDSA_SHA2_512).
  destruct (dig ECDSA_SHA2_256) as [d1|e1|] eqn:D1; cbn [bind];
    [destruct (dig ECDSA_SHA2_512) as [d2|e2|] eqn:D2; cbn [bind]
    |destruct (dig ECDSA_SHA2_512) as [d2|e2|] eqn:D2; cbn [bind]
    |split; [discriminate|intros (X & _); congruence]];
    try (split; [discriminate|intros (_ & X & _); congruence]).
  - cbn [add_digest ctx_new]. rewrite Goal2; [split; [intros X; split; [discriminate|split; [discriminate|exact X]]|intros (_ & _ & X); exact X]|].
    intros a d [->| ->]; unfold computed, D; cbn -[N.eqb dig].
    + change (u32_of_algo ECDSA_SHA2_512 =? u32_of_algo ECDSA_SHA2_256) with false.
      rewrite N.eqb_refl. cbv iota. rewrite D1. split; intros [= <-]; reflexivity.
    + rewrite N.eqb_refl. cbv iota. rewrite D2. split; intros [= <-]; reflexivity.
  - cbn [add_digest ctx_new]. rewrite Goal2; [split; [intros X; split; [discriminate|split; [discriminate|exact X]]|intros (_ & _ & X); exact X]|].
    intros a d [->| ->]; unfold computed, D; cbn -[N.eqb dig].
    + rewrite N.eqb_refl. cbv iota. rewrite D1. split; intros [= <-]; reflexivity.
    + change (u32_of_algo ECDSA_SHA2_256 =? u32_of_algo ECDSA_SHA2_512) with false. cbv iota. rewrite D2. split; discriminate.
  - cbn [add_digest ctx_new]. rewrite Goal2; [split; [intros X; split; [discriminate|split; [discriminate|exact X]]|intros (_ & _ & X); exact X]|].
    intros a d [->| ->]; unfold computed, D; cbn -[N.eqb dig].
    + change (u32_of_algo ECDSA_SHA2_512 =? u32_of_algo ECDSA_SHA2_256) with false. cbv iota. rewrite D1. split; discriminate.
    + rewrite N.eqb_refl. cbv iota. rewrite D2. split; intros [= <-]; reflexivity.
  - cbn [ctx_new]. split; [discriminate|]. intros (_ & _ & X). exfalso. revert X. apply Bad.
    intros a d [->| ->] Y; unfold D in Y; congruence.
Qed.
