(** AuthFacts2.v - proofs for C94: files and commands *)
From Verif Require Import Base BaseFacts Utils ParseFacts Algorithms Common SchemeV2 SourceStamp Utf8 ElfInfo SigningBlock
  Wire Built Spec CodecFacts BlockFacts BuiltFacts InjFacts SearchFacts Zip Digest DigestFacts Module Signable ZipSpec ZipFacts RegionSpec ModuleFacts ModuleProps RawFacts
  Signer Verifier ModuleVerify VerifySpec VerifyFacts SignSpec SignFacts VerifyProps EndToEnd CrossSpec CrossProps
  Elf ElfSpec ElfFacts ElfProps ElfProps2 ElfProps3 ElfVerifySpec ElfVerifyFacts Keystore Cli CliSpec CliFacts CliProps CliProps2 CliProps3 AuthSpec AuthFacts.
Open Scope N_scope.

(** * A module accepted by the verify command *)
Lemma auth_module : forall p C K builtin now ds s file root f e b sg,
  hash_sized C -> (forall a, fills (ds a)) -> fs_read s file = Some f -> proper (Archive p f e) ->
  cli_verify p C K builtin now ds s file root = Ok tt ->
  m_get_signing_block p (module_new f) f = Ok b -> In sg (v2_signers_of b) ->
  forall y k, proper y -> has_signed C (pk_data (sn_key sg)) y k (v2_message sg) ->
  collide C (Archive p f e) y \/ same_content (Archive p f e) y.
Proof.
  intros p C K builtin now ds s file root f e b sg HH Hds Hr Px V Hb Hi y k Py S.
  apply cli_verify_iff in V. destruct V as (f' & b' & roots & Hf & Hb' & _ & _ & G & _).
  rewrite Hr in Hf. injection Hf as <-. rewrite Hb in Hb'. injection Hb' as <-.
  assert (Hl : len f < U64) by (destruct Px as (X & _); unfold U64; lia).
  destruct (parsed_signer _ _ _ _ Hl Hb Hi) as (raw & W).
  eapply v2_signed; [exact HH|exact Px|exact Py| |exact W|eapply Forall_forall in G; [exact G|exact Hi]|exact S].
  intros a d _ D. exists (ds a). split; [apply Hds|exact D].
Qed.

Lemma auth_stamp : forall p C K builtin now ds s file root f e b sb more,
  hash_sized C -> (forall a, fills (ds a)) -> fs_read s file = Some f -> proper (Archive p f e) ->
  cli_verify p C K builtin now ds s file root = Ok tt ->
  m_get_signing_block p (module_new f) f = Ok b -> stamps_of b = sb :: more ->
  forall y k, proper y -> has_signed C (pk_data (sb_key sb)) y k (stamp_message sb) ->
  k = ForStamp /\ (collide C (Archive p f e) y \/ same_content (Archive p f e) y).
Proof.
  intros p C K builtin now ds s file root f e b sb more HH Hds Hr Px V Hb Hi y k Py S.
  apply cli_verify_iff in V. destruct V as (f' & b' & roots & Hf & Hb' & _ & _ & _ & G).
  rewrite Hr in Hf. injection Hf as <-. rewrite Hb in Hb'. injection Hb' as <-. rewrite Hi in G.
  assert (Hl : len f < U64) by (destruct Px as (X & _); unfold U64; lia).
  assert (I : In sb (stamps_of b)) by (rewrite Hi; now left).
  destruct (parsed_stamp _ _ _ _ Hl Hb I) as (raw & W).
  eapply stamp_signed; [exact HH|exact Px|exact Py| |exact W|exact G|exact S].
  intros a d _ D. exists (ds a). split; [apply Hds|exact D].
Qed.

(** Content that the owner of the key never signed. *)
Lemma auth_history : forall p C K builtin now ds s file root f e b sg history,
  hash_sized C -> (forall a, fills (ds a)) -> fs_read s file = Some f -> proper (Archive p f e) ->
  cli_verify p C K builtin now ds s file root = Ok tt ->
  m_get_signing_block p (module_new f) f = Ok b -> In sg (v2_signers_of b) ->
  Forall (fun y => proper y /\ ~ collide C (Archive p f e) y /\ ~ same_content (Archive p f e) y) history ->
  exists roots leaf rest g, roots_given K builtin s root roots /\
    map ct_data (cts_data (sd_certs (sn_data sg))) = leaf :: rest /\ trusted K now roots leaf rest /\
    spki_of K leaf = Some (pk_data (sn_key sg)) /\
    In g (sgs_data (sn_sigs sg)) /\ accepted C (sg_algo g) (pk_data (sn_key sg)) (v2_message sg) (sg_data g) /\
    forall y k, In y history -> ~ has_signed C (pk_data (sn_key sg)) y k (v2_message sg).
Proof.
  intros p C K builtin now ds s file root f e b sg history HH Hds Hr Px V Hb Hi Hh.
  pose proof V as V'. apply cli_verify_iff in V'. destruct V' as (f' & b' & roots & Hf & Hb' & Hro & _ & G & _).
  rewrite Hr in Hf. injection Hf as <-. rewrite Hb in Hb'. injection Hb' as <-.
  eapply Forall_forall in G; [|exact Hi]. destruct G as (Hs & G & leaf & rest & E & Sp & T).
  destruct (sgs_data (sn_sigs sg)) as [|g gs]; [contradiction|].
  apply Forall_cons_iff in G. destruct G as ((A & _) & _).
  exists roots, leaf, rest, g. repeat (split; [assumption|]). split; [now left|]. split; [exact A|].
  intros y k Iy S. eapply Forall_forall in Hh; [|exact Iy]. destruct Hh as (Py & N1 & N2).
  destruct (auth_module _ _ _ _ _ _ _ _ _ _ _ _ _ HH Hds Hr Px V Hb Hi y k Py S); contradiction.
Qed.

(** * An ELF file that the library finds valid *)
Lemma elf_parsed_values : forall rest p f names b, len f < U64 -> elf_get_signing_block rest p (mkElfFile f names) = Ok (Some b) ->
  forall v, In v (bk_content b) -> exists raw, W_value v raw.
Proof.
  intros rest p f names b Hf H v Hv. unfold elf_get_signing_block in H. cbn [el_data] in H.
  apply bind_Ok in H. destruct H as (e & _ & H). destruct (find_section e KSU_SIGN_SECTION) as [sh|]; [|discriminate].
  destruct (U64 <=? sh_offset sh + sh_size sh); [discriminate|]. destruct (sh_size sh =? 0); [discriminate|].
  destruct (get_range f (sh_offset sh) (sh_offset sh + sh_size sh)) as [r|] eqn:Er; [|discriminate].
  destruct (from_u8 p r) as [b1| |] eqn:Ef; cbn [map_err bind] in H; try discriminate. injection H as ->.
  assert (Hr : len r < U64).
  { unfold get_range in Er. destruct (_ && _)%bool; [|discriminate]. injection Er as <-. rewrite len_takeN, len_dropN. lia. }
  apply from_u8_inv in Ef; [|exact Hr]. destruct Ef as (pre & raw & post & _ & (pairs & (raws & W & _) & _) & _).
  assert (F : Forall (fun v => exists raw, W_value v raw) (bk_content b)) by (eapply Forall2_left; [exact W|eauto]).
  eapply Forall_forall in F; eauto.
Qed.

Lemma auth_elf : forall rest p C K now roots f names0 names b ctx sg,
  hash_sized C -> len f < 2 ^ 64 -> of_sections rest C f names ctx ->
  elf_get_signing_block rest p (mkElfFile f names0) = Ok (Some b) ->
  is_valid (verify_all_with_digest C K now (configured K roots) b (Some ctx)) = true ->
  In sg (v2_signers_of b) ->
  forall y k, proper y -> has_signed C (pk_data (sn_key sg)) y k (v2_message sg) ->
  collide C (Sections rest f names) y \/ same_content (Sections rest f names) y.
Proof.
  intros rest p C K now roots f names0 names b ctx sg HH Hl HO Hb V Hi y k Py S.
  apply is_valid_iff in V. destruct V as (G & _). eapply Forall_forall in G; [|exact Hi].
  assert (W : exists raw, W_sd (sn_data sg) raw).
  { unfold v2_signers_of in Hi. apply in_flat_map in Hi. destruct Hi as (v & Hv & Hi). destruct v; try contradiction.
    destruct (elf_parsed_values _ _ _ _ _ Hl Hb _ Hv) as (raw & body & _ & _ & _ & _ & x & junk & W & _).
    eapply W_signers_in; eauto. }
  destruct W as (raw & W).
  eapply v2_signed; [exact HH|exact I|exact Py| |exact W|exact G|exact S].
  intros a d Ha D. cbn [digest_of]. apply HO; auto.
Qed.

(** * What the sign command signs *)
Lemma value_in_block : forall b v, In v (bk_content b) -> len (value_to_u8 v) <= len (block_to_u8 b).
Proof.
  intros b v H. unfold block_to_u8, content_to_u8. rewrite !len_app.
  enough (len (value_to_u8 v) <= len (flat_map value_to_u8 (bk_content b))) by lia.
  apply in_split in H. destruct H as (l1 & l2 & ->). rewrite flat_map_app. cbn [flat_map]. rewrite !len_app. lia.
Qed.

Lemma signed_for : forall p C now m l b x, crypto_ok C -> digests_of C x l ->
  ms_sign p C now m (digests_of_pairs l) = Ok b ->
  (forall sg, In sg (v2_signers_of b) -> has_signed C (pk_data (sn_key sg)) x ForModule (v2_message sg)) /\
  (forall sb, In sb (stamps_of b) -> has_signed C (pk_data (sb_key sb)) x ForStamp (stamp_message sb)).
Proof.
  intros p C now m l b x HC Hd H. pose proof (digests_of_canonical _ _ _ Hd) as Hc.
  assert (HS : len (block_to_u8 b) <= 16392) by (apply built_block_short; eapply ms_sign_built; eauto).
  apply ms_sign_inv in H; auto. destruct H as (v & s & pad & Eb & Hv & Hs & Hp & _).
  unfold v2_signers_of, stamps_of. split.
  - intros sg Hi. apply in_flat_map in Hi. destruct Hi as (w & Iw & Hi). destruct w as [?|w|?|?]; try contradiction.
    pose proof (value_in_block _ _ Iw) as Lw. rewrite Eb in Iw. rewrite !in_app_iff in Iw.
    assert (Iv : In (V2Block w) v).
    { destruct Iw as [Iw|[Iw|Iw]]; [exact Iw| |].
      - destruct (ms_stamp m); [destruct Hs as (y & _ & ->)|subst s]; cbn in Iw; [destruct Iw as [Iw|[]]; discriminate|contradiction].
      - destruct Hp as [->|(n & _ & ->)]; [contradiction|]. destruct Iw as [Iw|[]]. discriminate. }
    clear Iw. destruct (ms_v2 m) as [c|]; [|subst v; contradiction]. destruct Hv as (y & Hy & ->).
    destruct Iv as [Iv|[]]. injection Iv as ->. pose proof Hy as Hy'. apply v2_sign_inv in Hy'.
    destruct Hy' as (sig & pub & -> & _ & Hpub). pose proof Hi as Hi'. destruct Hi' as [<-|[]].
    apply (signed_v2 C _ x c l _ _ Hpub Hd Hy Hi).
    rewrite v2_message_is. destruct (v2_value_layout c l sig pub) as (E & _). rewrite E in Lw.
    unfold v2_pair, pair, lp in Lw. rewrite !len_app in Lw. lia.
  - intros sb Hi. apply in_flat_map in Hi. destruct Hi as (w & Iw & Hi). destruct w as [?|?|w|?]; try contradiction.
    pose proof (value_in_block _ _ Iw) as Lw. rewrite Eb in Iw. rewrite !in_app_iff in Iw.
    assert (Iv : In (StampBlk w) s).
    { destruct Iw as [Iw|[Iw|Iw]]; [|exact Iw|].
      - destruct (ms_v2 m); [destruct Hv as (y & _ & ->)|subst v]; cbn in Iw; [destruct Iw as [Iw|[]]; discriminate|contradiction].
      - destruct Hp as [->|(n & _ & ->)]; [contradiction|]. destruct Iw as [Iw|[]]. discriminate. }
    clear Iw. destruct (ms_stamp m) as [c|]; [|subst s; contradiction]. destruct Hs as (y & Hy & ->).
    destruct Iv as [Iv|[]]. injection Iv as ->. pose proof Hy as Hy'. apply stamp_sign_inv in Hy'.
    destruct Hy' as (attrs & sig & pub & Ha & -> & _ & Hpub). destruct Hi as [<-|[]]. cbn [ss_new ss_block].
    apply (signed_stamp C _ x now (ms_timestamp m) c l _ Hpub Hd Hy). cbn [ss_new ss_block].
    rewrite (stamp_message_is _ _ _ _ _ _ _ Ha). destruct (stamp_value_layout c l sig pub _ _ _ Ha) as (E & _). rewrite E in Lw.
    unfold stamp_pair, pair, lp in Lw. rewrite !len_app in Lw. lia.
Qed.

Lemma auth_sign_module : forall p q C L rest clk ds s a z e steps,
  crypto_ok C -> (forall x, fills (ds x)) ->
  fs_read s (sa_input a) = Some (plain z) -> zip_ok z [] -> unsigned z -> (forall t, plain z <> ELFMAG ++ t) ->
  (forall blk, len blk <= 16392 -> zip_ok z blk /\ zip_small z blk) ->
  fs_file s (sa_output a) <> fs_file s (sa_input a) ->
  cli_sign p C L rest clk ds s a = (steps, Ok tt) ->
  exists out b, fs_data (run s steps) (fs_file s (sa_output a)) = Some out /\
    m_get_signing_block q (module_new out) out = Ok b /\
    (forall sg, In sg (v2_signers_of b) -> has_signed C (pk_data (sn_key sg)) (Archive p (plain z) e) ForModule (v2_message sg)) /\
    (forall sb, In sb (stamps_of b) -> has_signed C (pk_data (sb_key sb)) (Archive p (plain z) e) ForStamp (stamp_message sb)).
Proof.
  intros p q C L rest clk ds s a z e steps HC Hds Hr Hz Hu Hne Hblk Hio H.
  apply sign_steps in H. destruct H as [(_ & X)|(x & b & w & HB & Hc & Hst & HW)]; [congruence|].
  assert (HX := not_elf_module _ _ _ _ _ _ _ _ _ _ _ HB Hr Hne). subst x.
  rewrite (truncate_read s _ (sa_input a)) in HW by auto. rewrite Hr in HW. cbn [signable_write now_content] in HW.
  destruct (sign_block_module _ _ _ _ _ _ _ _ _ _ HB) as (sg & file & l & Hsg & Hf & _ & Hm & Hd & HS).
  rewrite Hr in Hf. injection Hf as <-. pose proof (cli_signer_spec _ _ _ _ Hsg) as (_ & _ & Hv2 & Halgo).
  assert (Hcan : digests_of C (Archive p (plain z) e) l).
  { apply Forall_forall. intros (x & d) I. cbn [fst snd]. split.
    - apply (required_canonical sg Halgo). rewrite <- Hm. change x with (fst (x, d)). now apply in_map.
    - exists (ds x). split; [apply Hds|now apply Hd]. }
  assert (HBt : built_block b) by exact (ms_sign_built _ _ _ _ _ _ HC (digests_of_canonical _ _ _ Hcan) HS).
  destruct (Hblk (block_to_u8 b) (built_block_short b HBt)) as (Hzb & Hsb).
  exists w, (offset_by b (len (z_entries z))). split.
  - subst steps. cbn [run fold_left apply]. now rewrite !put_get.
  - split; [exact (c20_write p q z b w HBt Hz Hu Hzb Hsb HW)|].
    exact (signed_for p C clk sg l b _ HC Hcan HS).
Qed.

Lemma auth_sign_elf : forall p q C L rest clk ds s a t e steps out names b chosen,
  crypto_ok C -> Forall scalars (sa_sections a) ->
  fs_read s (sa_input a) = Some (ELFMAG ++ t) -> elf_parse rest (ELFMAG ++ t) = Ok e -> well_named (ELFMAG ++ t) e ->
  cli_sign p C L rest clk ds s a = (steps, Ok tt) ->
  fs_data (run s steps) (fs_file s (sa_output a)) = Some out -> fits_class e (len out) -> rest out = true ->
  asked (sa_sections a) chosen ->
  elf_get_signing_block rest q (mkElfFile out names) = Ok (Some b) ->
  (forall sg, In sg (v2_signers_of b) -> has_signed C (pk_data (sn_key sg)) (Sections rest (ELFMAG ++ t) chosen) ForModule (v2_message sg)) /\
  (forall sb, In sb (stamps_of b) -> has_signed C (pk_data (sb_key sb)) (Sections rest (ELFMAG ++ t) chosen) ForStamp (stamp_message sb)).
Proof.
  intros p q C L rest clk ds s a t e steps out names b chosen HC Hsec Hr He Hw H Hout Hfit Hrest Hask Hb.
  apply sign_steps in H. destruct H as [(_ & X)|(x & b' & w & HB & Hc & Hst & HW)]; [congruence|].
  destruct (elf_block_kind _ _ _ _ _ _ _ _ _ _ _ HB Hr) as (f & ->).
  destruct (sign_block_elf _ _ _ _ _ _ _ _ _ _ HC HB Hsec) as (l0 & ts0 & HF & Hf & Hts0 & Hsc & _ & _ & Eb0).
  assert (HS : exists signer, cli_signer L s a = Ok signer).
  { unfold cli_sign_block in HB. apply bind_Ok in HB as (signer & HS & _). eauto. }
  destruct HS as (signer & HS).
  destruct (sign_block_parts _ _ _ _ _ _ _ _ _ _ _ HB HS) as (l & b0 & ts & Ha & Hne & Hch & Hm & Hd & Hsign & Hts & Eb).
  assert (ts0 = ts) by congruence. subst ts0. clear Hts0.
  assert (el_signed f = chosen) by (eapply asked_fun; eauto). subst chosen.
  assert (Hf2 : ELFMAG ++ t = el_data f) by congruence. clear Hf. rewrite Hf2 in *. clear Hf2.
  cbn [signable_write] in HW. destruct (elf_write_with_signature rest f b') as [w'| |] eqn:EW; try discriminate.
  assert (w' = w) by congruence. subst w'.
  assert (w = out).
  { rewrite Hst in Hout. cbn [run fold_left apply] in Hout. rewrite !put_get in Hout. cbn [app] in Hout. congruence. }
  subst w.
  assert (Hb' : b = b').
  { destruct (extended_read q l0 ts HF (resolved_bounds _ _ _ Hts Hsc)) as (L1 & X1 & X2). rewrite <- Eb0 in L1, X1, X2.
    assert (Hn : block_to_u8 b' <> []).
    { intros Q. rewrite Q, len_nil in L1. unfold info_bytes in L1. lia. }
    rewrite (c53_read _ _ _ _ _ q names EW He Hw Hfit Hrest Hn) in Hb.
    destruct (from_u8 q (block_to_u8 b')) as [b1| |] eqn:Ef; cbn [map_err bind] in Hb; [|discriminate|discriminate].
    assert (b1 = b) by congruence. subst b1.
    destruct (N.le_gt_cases (len (block_to_u8 b')) 16392) as [Q|Q]; [specialize (X1 Q); congruence|].
    exfalso. enough (Z : 16392 < len (block_to_u8 b') < U64) by (specialize (X2 Z); discriminate). split; [exact Q|].
    destruct (view _ _ _ _ _ EW He Hw Hfit Hrest) as (e' & V).
    destruct (sv_sign _ _ _ _ _ _ V) as (sh & V1 & V2 & _ & _ & V5).
    pose proof (write_bound _ _ _ _ EW) as WB. pose proof (contents_len _ _ _ V2) as CL. unfold I64, U64 in *. lia. }
  clear Eb0. rewrite <- Hb' in *. clear b' Hb'.
  destruct (pushed_signers b0 (info_from_tuples ts)) as (Pv & Ps & Pl). rewrite <- Eb in Pv, Ps, Pl. rewrite Pv, Ps.
  pose proof (cli_signer_spec _ _ _ _ HS) as (_ & _ & _ & Halgo).
  assert (Hcan : digests_of C (Sections rest (el_data f) (el_signed f)) l).
  { apply Forall_forall. intros (x & d) I. cbn [fst snd]. split.
    - apply (required_canonical signer Halgo). rewrite <- Hm. change x with (fst (x, d)). now apply in_map.
    - cbn [digest_of]. destruct f. now apply Hd. }
  exact (signed_for p C clk signer l b0 _ HC Hcan Hsign).
Qed.

(** * Digests do not tell modules from ELF files *)
Lemma regions_unique p f e content mid cdr h off t content' mid' cdr' h' off' t' :
  regions_of p f e content mid cdr h off t -> regions_of p f e content' mid' cdr' h' off' t' ->
  content = content' /\ cdr = cdr' /\ h = h' /\ t = t'.
Proof.
  intros (E & L1 & L2 & L3 & B) (E' & L1' & L2' & L3' & B').
  assert (X : len content = len content' /\ len (content ++ mid) = len (content' ++ mid')).
  { destruct B as [(B1 & -> & B3)|(b & B1 & B2 & B3)], B' as [(B1' & -> & B3')|(b' & B1' & B2' & B3')].
    - rewrite !app_nil_r. split; congruence.
    - congruence.
    - congruence.
    - assert (b' = b) by congruence. subst b'. split; congruence. }
  destruct X as (X1 & X2). rewrite !len_app in *. rewrite E in E'.
  apply app_inj_len in E'; [|exact X1]. destruct E' as (-> & E').
  apply app_inj_len in E'; [|lia]. destruct E' as (-> & E').
  apply app_inj_len in E'; [|lia]. destruct E' as (-> & E').
  apply app_inj_len in E'; [|lia]. destruct E' as (-> & E').
  apply app_inj_len in E'; [|lia]. destruct E' as (-> & ->). auto.
Qed.

Lemma auth_kind : forall p C f e content mid cdr h off t rest g names ts,
  proper (Archive p f e) -> regions_of p f e content mid cdr h off t ->
  resolved_sections rest (mkElfFile g names) = Ok ts ->
  map (section_bytes g) ts = [content; cdr; h ++ le 4 (len content) ++ t] ->
  forall a d sched, fills sched -> m_digest p C sched (module_new f) f a = Ok d ->
  elf_digest rest C (mkElfFile g names) a = Ok d.
Proof.
  intros p C f e content mid cdr h off t rest g names ts (P1 & P2 & P3) R Hr Hm a d sched Hs D.
  destruct (c29 _ _ _ _ _ _ _ Hs P1 P2 P3 D) as (content' & mid' & cdr' & h' & off' & t' & R' & c1 & c2 & c3 & S1 & S2 & S3 & E1).
  destruct (regions_unique _ _ _ _ _ _ _ _ _ _ _ _ _ _ _ R R') as (<- & <- & <- & <-).
  destruct (elf_digest rest C (mkElfFile g names) a) as [d'| |] eqn:E.
  2, 3: unfold elf_digest in E; rewrite Hr in E; discriminate E.
  destruct (c55_is_digest _ _ _ _ _ E) as (ts' & cs & Hr' & (css & F & ->) & E2). cbn [el_data] in F.
  assert (ts' = ts) by congruence. subst ts'. clear Hr' E.
  do 3 (destruct ts as [|? ts]; [discriminate Hm|]). destruct ts; [|discriminate Hm].
  injection Hm. clear Hm. inversion F as [|? x1 ? l1 F1 G1]; subst. inversion G1 as [|? x2 ? l2 F2 G2]; subst.
  inversion G2 as [|? x3 ? l3 F3 G3]; subst. inversion G3; subst. intros M3 M2 M1.
  rewrite M1 in F1. rewrite M2 in F2. rewrite M3 in F3.
  rewrite (splits_fun _ _ _ F1 S1), (splits_fun _ _ _ F2 S2), (splits_fun _ _ _ F3 S3). cbn [concat]. now rewrite app_nil_r.
Qed.
