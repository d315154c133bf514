(** ElfVerifyFacts.v - lemmas for C81 and C82. *)
From Verif Require Import Base BaseFacts Utils Algorithms Common SchemeV2 SourceStamp Utf8 ElfInfo
  SigningBlock Zip Digest Module Signable ZipSpec ZipFacts DigestFacts Signer SignSpec SignFacts Verifier ModuleVerify VerifySpec
  VerifyFacts VerifyProps EndToEnd Built Wire BuiltFacts BlockFacts Keystore Elf ElfSpec ElfFacts ElfProps ElfProps2 ElfProps3
  Cli CliSpec CliFacts CliProps CliProps2 CliProps3 IgnoredSpec IgnoredFacts ElfVerifySpec.
From Coq Require Import Permutation.
Open Scope N_scope.

(** ** The names of the resolved sections *)
Lemma sort_id l : sorted l -> sort_by l = l.
Proof.
  induction l as [|t l IH]; [reflexivity|]. cbn [sorted sort_by]. intros (H1 & H2). rewrite IH by auto.
  destruct l as [|u l]; [reflexivity|]. cbn [insert_by]. apply Forall_cons_iff in H1. destruct H1 as (H1 & _).
  apply N.leb_le in H1. now rewrite H1.
Qed.

Lemma lookup_self e names l : lookup_sections e names = Ok l ->
  names = map name_of l /\ Forall (fun t => lookup1 e (name_of t) = Ok t) l.
Proof.
  rewrite lookup_Forall2. induction 1 as [|n t names l H F (I1 & I2)]; [split; [reflexivity|constructor]|].
  assert (n = name_of t).
  { unfold lookup1 in H. destruct (find_section e (utf8_enc n)); [|discriminate].
    destruct (_ =? _); [discriminate|]. destruct (_ =? _); [discriminate|]. injection H as <-. reflexivity. }
  subst n. cbn [map]. split; [now f_equal|]. constructor; auto.
Qed.

Lemma lookup_of e l : Forall (fun t => lookup1 e (name_of t) = Ok t) l -> lookup_sections e (map name_of l) = Ok l.
Proof. intros F. apply lookup_Forall2. induction F; cbn [map]; constructor; auto. Qed.

Lemma resolved_names rest data names ts : resolved_sections rest (mkElfFile data names) = Ok ts ->
  Permutation (map name_of ts) names /\ resolved_sections rest (mkElfFile data (map name_of ts)) = Ok ts.
Proof.
  unfold resolved_sections, collect_sections. cbn [el_data el_signed]. intros H.
  apply bind_Ok in H. destruct H as (e & He & H). rewrite He. cbn [bind].
  apply bind_Ok in H. destruct H as (l & Hl & H). injection H as <-.
  apply lookup_self in Hl. destruct Hl as (-> & F). split; [apply Permutation_map, sort_perm|].
  rewrite lookup_of by (eapply Permutation_Forall; [apply Permutation_sym, sort_perm|exact F]).
  cbn [bind]. now rewrite sort_id by apply sort_sorted.
Qed.

Lemma listed_tuples ts : listed_names (info_from_tuples ts) = map name_of ts.
Proof.
  unfold listed_names, info_from_tuples, info_new. cbn [ei_sections]. rewrite map_map. apply map_ext.
  intros ((n & o) & z). reflexivity.
Qed.

(** ** Names that can be chosen again *)
Definition choosable (n : rstring) : Prop :=
  trim n = n /\ nonempty n = true /\ ~ Forall2 same_letter (utf8_enc n) KSU_SIGN_SECTION.

Lemma trim_trim s : trim (trim s) = trim s.
Proof.
  apply trim_iff. destruct (proj2 (trim_iff s (trim s)) eq_refl) as (a & c & _ & _ & _ & H1 & H2).
  exists [], []. rewrite app_nil_r. auto.
Qed.

Lemma asked_choosable f given g : set_signed_sections f given = Ok g -> Forall choosable (el_signed g).
Proof.
  intros H. apply c56 in H. destruct H as (_ & _ & (ts & F & E) & Hk).
  assert (T : Forall (fun n => trim n = n) ts).
  { clear -F. induction F as [|s t l ts H F IH]; constructor; auto. apply trim_iff in H. subst t. apply trim_trim. }
  apply Forall_forall. intros n I. rewrite Forall_forall in Hk, T. specialize (Hk n I). rewrite E in I.
  apply filter_In in I. destruct I as (I & N). split; [auto|]. split; auto.
Qed.

Lemma default_choosable : Forall choosable DEFAULT_SIGNED_SECTIONS.
Proof.
  assert (K : forall n, trim n = n -> nonempty n = true -> eq_ignore_case (utf8_enc n) KSU_SIGN_SECTION = false -> choosable n).
  { intros n H1 H2 H3. split; [exact H1|]. split; [exact H2|]. rewrite <- eq_ignore_case_spec. congruence. }
  repeat constructor; try (vm_compute; reflexivity); rewrite <- eq_ignore_case_spec; vm_compute; discriminate.
Qed.

Lemma choose_again data names l : l <> [] -> Forall choosable l ->
  set_signed_sections (mkElfFile data names) l = Ok (mkElfFile data l).
Proof.
  intros Hn F. apply c56. cbn [el_data el_signed]. split; [reflexivity|]. split; [exact Hn|]. split.
  - exists l. split.
    + clear Hn. induction F as [|n l (H1 & _) F IH]; constructor; auto. now apply trim_iff.
    + clear Hn. induction F as [|n l (_ & H1 & _) F IH]; [reflexivity|]. cbn [filter]. rewrite H1. now f_equal.
  - eapply Forall_impl; [|exact F]. intros n (_ & _ & H). exact H.
Qed.

(** ** The block of a signed ELF file *)
Lemma asked_fun given c1 c2 : asked given c1 -> asked given c2 -> c1 = c2.
Proof.
  unfold asked. destruct given as [|n l]; [congruence|]. intros (t1 & F1 & ->) (t2 & F2 & ->). f_equal.
  revert t2 F2. induction F1 as [|s t l' ts H F IH]; intros t2 F2; inversion F2 as [|? t' ? ts' H' F']; subst; [reflexivity|].
  f_equal; [|auto]. apply trim_iff in H. apply trim_iff in H'. congruence.
Qed.

Lemma sign_block_parts : forall p C L rest clk ds s a f b signer, cli_sign_block p C L rest clk ds s a = Ok (SElf f, b) ->
  cli_signer L s a = Ok signer ->
  exists l b0 ts, asked (sa_sections a) (el_signed f) /\ el_signed f <> [] /\ Forall choosable (el_signed f) /\
    map fst l = required_algorithms signer /\ (forall x d, In (x, d) l -> elf_digest rest C f x = Ok d) /\
    ms_sign p C clk signer (digests_of_pairs l) = Ok b0 /\ resolved_sections rest f = Ok ts /\
    b = recalculate_size (content_push b0 (ElfBlock (info_from_tuples ts))).
Proof.
  intros p C L rest clk ds s a f b signer H ES. unfold cli_sign_block in H. rewrite ES in H. cbn [bind] in H. cbv zeta in H.
  destruct (signable_open rest (fs_read s (sa_input a))) as [x0| |] eqn:E0; cbn [bind] in H; try discriminate.
  destruct (choose_sections x0 (sa_sections a)) as [x1| |] eqn:E1; cbn [bind] in H; try discriminate.
  destruct (signable_regions _ _ _ _) as [rg| |]; cbn [bind] in H; try discriminate.
  destruct (cli_digests _ _ _ _ _ _ _) as [dg| |] eqn:E2; cbn [bind] in H; try discriminate.
  destruct (ms_sign _ _ _ _ _) as [b0| |] eqn:E3; cbn [bind] in H; try discriminate.
  destruct (cli_add_info rest x1 b0) as [b1| |] eqn:E4; cbn [bind] in H; try discriminate.
  injection H as -> ->. cbn [cli_add_info] in E4.
  destruct (resolved_sections rest f) as [ts| |] eqn:E5; cbn [bind] in E4; try discriminate. injection E4 as <-.
  apply cli_digests_spec in E2. destruct E2 as (Hm & Hd).
  assert (X : asked (sa_sections a) (el_signed f) /\ el_signed f <> [] /\ Forall choosable (el_signed f)).
  2:{ destruct X as (X1 & X2 & X3). exists dg, b0, ts. repeat (split; [assumption|]). split; [reflexivity|reflexivity]. }
  unfold choose_sections in E1. destruct (sa_sections a) as [|n ns].
  - injection E1 as ->. destruct (fs_read s (sa_input a)) as [file|]; [|discriminate]. unfold signable_open in E0. cbn [of_option bind] in E0.
    destruct (detect_file_format file) as [[]| |]; cbn [bind] in E0; try discriminate.
    unfold elf_new in E0. destruct (elf_parse rest file); cbn [bind] in E0; try discriminate. injection E0 as <-. cbn [el_signed asked].
    split; [reflexivity|]. split; [discriminate|]. exact default_choosable.
  - unfold set_elf_sections in E1. destruct x0 as [m|f0]; [discriminate|].
    destruct (set_signed_sections f0 (n :: ns)) as [g| |] eqn:E6; cbn [bind] in E1; try discriminate. injection E1 as ->.
    pose proof (asked_choosable _ _ _ E6) as K. apply c56 in E6. destruct E6 as (_ & Q & T & _). auto.
Qed.

Lemma pushed_signers b i : let b' := recalculate_size (content_push b (ElfBlock i)) in
  v2_signers_of b' = v2_signers_of b /\ stamps_of b' = stamps_of b /\ section_lists b' = section_lists b ++ [i].
Proof.
  cbv zeta. unfold v2_signers_of, stamps_of, section_lists, recalculate_size, content_push. cbn [bk_content].
  rewrite !flat_map_app. cbn [flat_map]. now rewrite !app_nil_r.
Qed.

(** Without the fields that are not authenticated: a built block. *)
Lemma signed_lists : forall p C now m l b, crypto_ok C -> ms_sign p C now m (digests_of_pairs l) = Ok b -> section_lists b = [].
Proof.
  intros p C now m l b HC H. apply ms_sign_inv in H; auto.
  destruct H as (v & s & pad & Hc & Hv & Hs & Hp & _). unfold section_lists. rewrite Hc, !flat_map_app.
  assert (flat_map (fun v => match v with ElfBlock i => [i] | _ => [] end) v = []) as ->.
  { destruct (ms_v2 m); [destruct Hv as (x & _ & ->); reflexivity|now subst v]. }
  assert (flat_map (fun v => match v with ElfBlock i => [i] | _ => [] end) s = []) as ->.
  { destruct (ms_stamp m); [destruct Hs as (x & _ & ->); reflexivity|now subst s]. }
  destruct Hp as [->|(n & _ & ->)]; reflexivity.
Qed.

(** Signing with the digests of the sections, then checking with the digests of
    the same sections of the output. *)
Lemma signers_valid : forall p C K clk now roots signer l b0 b ctx, crypto_ok C ->
  ms_sign p C clk signer (digests_of_pairs l) = Ok b0 -> v2_signers_of b = v2_signers_of b0 -> stamps_of b = stamps_of b0 ->
  (forall x d d', In (x, d) l -> In (x, d') l -> d' = d) ->
  (forall c, ms_v2 signer = Some c \/ ms_stamp signer = Some c -> certified C K c) ->
  (forall c, ms_v2 signer = Some c \/ ms_stamp signer = Some c -> exists d, In (sc_algo c, d) l /\ computed ctx (sc_algo c) d) ->
  let r := verify_all_with_digest C K now (configured K roots) b (Some ctx) in
  (has_v2 r = true <-> ms_v2 signer <> None) /\ (has_source_stamp r = true <-> ms_stamp signer <> None) /\
  (is_valid r = true <->
     (forall c, ms_v2 signer = Some c -> trusted K now roots (sc_cert c) (sc_chain c)) /\
     (forall c, ms_stamp signer = Some c -> trusted K now roots (sc_cert c) [])).
Proof.
  intros p C K clk now roots m l b0 b ctx HC HS Ev Es HU Hcert HD r. unfold r. clear r.
  rewrite has_v2_iff, has_stamp_iff, is_valid_iff, Ev, Es.
  destruct (ms_sign_signers _ _ _ _ _ _ HC HS) as (Sv & Ss).
  assert (Req : forall c, ms_v2 m = Some c \/ ms_stamp m = Some c ->
    exists d, stored_digest (dgs_data (digests_of_pairs l)) (sc_algo c) d /\ computed ctx (sc_algo c) d).
  { intros c Hc. destruct (HD c Hc) as (d & I & X). exists d. split; [|exact X]. apply pairs_stored; [exact I|]. eauto. }
  split; [|split].
  - destruct (ms_v2 m) as [c|].
    + destruct Sv as (v & s & _ & _ & ->). split; discriminate.
    + rewrite Sv. tauto.
  - destruct (ms_stamp m) as [c|].
    + destruct Ss as (s & _ & ->). split; discriminate.
    + rewrite Ss. tauto.
  - assert (Av : Forall (v2_signer_good C K now roots (computed ctx)) (v2_signers_of b0) <->
      forall c, ms_v2 m = Some c -> trusted K now roots (sc_cert c) (sc_chain c)).
    { destruct (ms_v2 m) as [c|].
      - destruct Sv as (v & s & Hv & Hs & ->). rewrite Forall_cons_iff.
        rewrite (v2_signed_good C K now roots _ c l v s HC Hv (Hcert c (or_introl eq_refl)) Hs (Req c (or_introl eq_refl))).
        split; [intros (T & _) c' [= <-]; exact T|]. intros T. split; [apply T; reflexivity|constructor].
      - rewrite Sv. split; [discriminate|constructor]. }
    assert (As : match stamps_of b0 with [] => True | s :: _ => stamp_good C K now roots (computed ctx) s end <->
      forall c, ms_stamp m = Some c -> trusted K now roots (sc_cert c) []).
    { destruct (ms_stamp m) as [c|].
      - destruct Ss as (s & Hs & ->).
        rewrite (stamp_signed_good C K now roots _ clk (ms_timestamp m) c l s HC Hs (Hcert c (or_intror eq_refl)) (Req c (or_intror eq_refl))).
        split; [intros T c' [= <-]; exact T|]. intros T. apply T. reflexivity.
      - rewrite Ss. split; [discriminate|trivial]. }
    now rewrite Av, As.
Qed.

Lemma elf_end_to_end : forall p q C L K rest clk now ds roots s a t e steps out signer chosen names b,
  crypto_ok C -> Forall scalars (sa_sections a) ->
  fs_read s (sa_input a) = Some (ELFMAG ++ t) -> elf_parse rest (ELFMAG ++ t) = Ok e -> well_named (ELFMAG ++ t) e ->
  cli_sign p C L rest clk ds s a = (steps, Ok tt) ->
  fs_data (run s steps) (fs_file s (sa_output a)) = Some out -> fits_class e (len out) -> rest out = true ->
  asked (sa_sections a) chosen -> Forall (ordinary e (ELFMAG ++ t)) chosen ->
  cli_signer L s a = Ok signer ->
  (forall c, ms_v2 signer = Some c \/ ms_stamp signer = Some c -> certified C K c) ->
  elf_get_signing_block rest q (mkElfFile out names) = Ok (Some b) ->
  exists i, section_lists b = [i] /\ Permutation (listed_names i) chosen /\
    set_signed_sections (mkElfFile out names) (listed_names i) = Ok (mkElfFile out (listed_names i)) /\
    (forall x, exists d, elf_digest rest C (mkElfFile out (listed_names i)) x = Ok d) /\
    forall ctx,
      (forall c, ms_v2 signer = Some c \/ ms_stamp signer = Some c ->
         exists d, elf_digest rest C (mkElfFile out (listed_names i)) (sc_algo c) = Ok d /\ computed ctx (sc_algo c) d) ->
      let r := verify_all_with_digest C K now (configured K roots) b (Some ctx) in
      has_v2 r = true /\ (has_source_stamp r = true <-> ms_stamp signer <> None) /\
      (is_valid r = true <->
         (forall c, ms_v2 signer = Some c -> trusted K now roots (sc_cert c) (sc_chain c)) /\
         (forall c, ms_stamp signer = Some c -> trusted K now roots (sc_cert c) [])).
Proof.
  intros p q C L K rest clk now ds roots s a t e steps out signer chosen names b HC Hsec Hr He Hw H Hout Hfit Hrest Hask Hord HS Hcert Hb.
  apply sign_steps in H. destruct H as [(_ & X)|(x & b' & w & HB & Hc & Hst & HW)]; [congruence|].
  destruct (elf_block_kind _ _ _ _ _ _ _ _ _ _ _ HB Hr) as (f & ->).
  destruct (sign_block_elf _ _ _ _ _ _ _ _ _ _ HC HB Hsec) as (l0 & ts0 & HF & Hf & Hts0 & Hsc & _ & _ & Eb0).
  destruct (sign_block_parts _ _ _ _ _ _ _ _ _ _ _ HB HS) as (l & b0 & ts & Ha & Hne & Hch & Hm & Hd & Hsign & Hts & Eb).
  assert (ts0 = ts) by congruence. subst ts0. clear Hts0.
  assert (el_signed f = chosen) by (eapply asked_fun; eauto). subst chosen.
  assert (Hf2 : ELFMAG ++ t = el_data f) by congruence. clear Hf. rewrite Hf2 in *. clear Hf2.
  cbn [signable_write] in HW. destruct (elf_write_with_signature rest f b') as [w'| |] eqn:EW; try discriminate.
  assert (w' = w) by congruence. subst w'.
  assert (w = out).
  { rewrite Hst in Hout. cbn [run fold_left apply] in Hout. rewrite !put_get in Hout. cbn [app] in Hout. congruence. }
  subst w.
  assert (Hb' : b = b').
  { destruct (extended_read q l0 ts HF (resolved_bounds _ _ _ Hts Hsc)) as (L1 & X1 & X2). rewrite <- Eb0 in L1, X1, X2.
    assert (Hn : block_to_u8 b' <> []).
    { intros Q. rewrite Q, len_nil in L1. unfold info_bytes in L1. lia. }
    rewrite (c53_read _ _ _ _ _ q names EW He Hw Hfit Hrest Hn) in Hb.
    destruct (from_u8 q (block_to_u8 b')) as [b1| |] eqn:Ef; cbn [map_err bind] in Hb; [|discriminate|discriminate].
    assert (b1 = b) by congruence. subst b1.
    destruct (N.le_gt_cases (len (block_to_u8 b')) 16392) as [Q|Q]; [specialize (X1 Q); congruence|].
    exfalso. enough (Z : 16392 < len (block_to_u8 b') < U64) by (specialize (X2 Z); discriminate). split; [exact Q|].
    destruct (view _ _ _ _ _ EW He Hw Hfit Hrest) as (e' & V).
    destruct (sv_sign _ _ _ _ _ _ V) as (sh & V1 & V2 & _ & _ & V5).
    pose proof (write_bound _ _ _ _ EW) as WB. pose proof (contents_len _ _ _ V2) as CL. unfold I64, U64 in *. lia. }
  clear Eb0. rewrite <- Hb' in *. clear b' Hb'. exists (info_from_tuples ts).
  destruct (pushed_signers b0 (info_from_tuples ts)) as (Pv & Ps & Pl). rewrite <- Eb in Pv, Ps, Pl.
  rewrite (signed_lists _ _ _ _ _ _ HC Hsign) in Pl. split; [exact Pl|]. rewrite listed_tuples.
  destruct f as [data signed]. cbn [el_data el_signed] in *.
  destruct (resolved_names _ _ _ _ Hts) as (Perm & Hts2). split; [exact Perm|].
  assert (Hch2 : Forall choosable (map name_of ts)) by (eapply Permutation_Forall; [apply Permutation_sym; exact Perm|exact Hch]).
  assert (Hord2 : Forall (ordinary e data) (map name_of ts)) by (eapply Permutation_Forall; [apply Permutation_sym; exact Perm|exact Hord]).
  assert (Dig : forall x, elf_digest rest C (mkElfFile out (map name_of ts)) x = elf_digest rest C (mkElfFile data signed) x).
  { intros x. destruct (c54 rest (mkElfFile data signed) b out e C x (map name_of ts) EW He Hw Hfit Hrest Hord2) as (-> & _).
    unfold elf_digest. cbn [el_data]. now rewrite Hts, Hts2. }
  split.
  { apply choose_again; [|exact Hch2]. intros Q. rewrite Q in Perm. apply Permutation_nil in Perm. contradiction. }
  split; [intros x; rewrite Dig; unfold elf_digest; rewrite Hts; cbn [bind]; eauto|].
  intros ctx HD. cbv zeta.
  destruct (signers_valid p C K clk now roots signer l b0 b ctx HC Hsign Pv Ps) as (V1 & V2 & V3); [|exact Hcert| |].
  - intros x d d' I I'. apply Hd in I. apply Hd in I'. congruence.
  - intros c Hc'. destruct (HD c Hc') as (d & D1 & D2). exists d. split; [|exact D2].
    assert (I : In (sc_algo c) (map fst l)) by (rewrite Hm; apply (proj2 (required_spec signer)); eauto).
    apply in_map_iff in I. destruct I as ((x & d') & E1 & I). cbn in E1. subst x.
    pose proof (Hd _ _ I) as Q. rewrite Dig in D1. assert (d' = d) by congruence. now subst d'.
  - split; [|split; [exact V2|exact V3]]. apply V1. apply (cli_signer_spec _ _ _ _ HS).
Qed.

(** ** Two accepted files *)
Lemma accepted_known C a key data sig : accepted C a key data sig -> a = ECDSA_SHA2_256 \/ a = ECDSA_SHA2_512.
Proof. destruct a; cbn; auto. tauto. Qed.

Lemma elf_tamper : forall rest1 rest2 C K1 K2 now1 now2 roots1 roots2 f1 f2 names1 names2 b1 b2 ctx1 ctx2 sg,
  hash_sized C ->
  of_sections rest1 C f1 names1 ctx1 -> of_sections rest2 C f2 names2 ctx2 ->
  is_valid (verify_all_with_digest C K1 now1 (configured K1 roots1) b1 (Some ctx1)) = true ->
  is_valid (verify_all_with_digest C K2 now2 (configured K2 roots2) b2 (Some ctx2)) = true ->
  In sg (v2_signers_of b1) -> In sg (v2_signers_of b2) ->
  exists t1 t2, resolved_sections rest1 (mkElfFile f1 names1) = Ok t1 /\ resolved_sections rest2 (mkElfFile f2 names2) = Ok t2 /\
  ((exists a c1 c2, (a = ECDSA_SHA2_256 \/ a = ECDSA_SHA2_512) /\ section_chunks f1 t1 c1 /\ section_chunks f2 t2 c2 /\
      clash (hash C a) (tree_messages (hash C a) c1) (tree_messages (hash C a) c2)) \/
   (flat_map (section_bytes f1) t1 = flat_map (section_bytes f2) t2 /\
    (Forall (fun t => 0 < len (section_bytes f1 t) <= 1024 * 1024) t1 ->
     Forall (fun t => 0 < len (section_bytes f2 t) <= 1024 * 1024) t2 ->
     map (section_bytes f1) t1 = map (section_bytes f2) t2))).
Proof.
  intros rest1 rest2 C K1 K2 now1 now2 roots1 roots2 f1 f2 n1 n2 b1 b2 ctx1 ctx2 sg HH O1 O2 V1 V2 I1 I2.
  apply is_valid_iff in V1. apply is_valid_iff in V2. destruct V1 as (V1 & _), V2 as (V2 & _).
  rewrite Forall_forall in V1, V2. destruct (V1 sg I1) as (Hs & F1 & _). destruct (V2 sg I2) as (_ & F2 & _).
  destruct (sgs_data (sn_sigs sg)) as [|g gs]; [contradiction|].
  apply Forall_cons_iff in F1. destruct F1 as ((A & d & S & X) & _).
  apply Forall_cons_iff in F2. destruct F2 as ((_ & d' & S' & X') & _).
  rewrite (stored_unique _ _ _ _ S' S) in X'.
  destruct (hash_sized_of _ _ _ _ _ HH A) as (n & Hn & Hlen).
  pose proof (accepted_known _ _ _ _ _ A) as Kn. pose proof (O1 _ _ Kn X) as D1. pose proof (O2 _ _ Kn X') as D2.
  assert (R1 : exists t1, resolved_sections rest1 (mkElfFile f1 n1) = Ok t1).
  { unfold elf_digest in D1. apply bind_Ok in D1. destruct D1 as (t1 & -> & _). eauto. }
  assert (R2 : exists t2, resolved_sections rest2 (mkElfFile f2 n2) = Ok t2).
  { unfold elf_digest in D2. apply bind_Ok in D2. destruct D2 as (t2 & -> & _). eauto. }
  destruct R1 as (t1 & R1), R2 as (t2 & R2). exists t1, t2. split; [exact R1|]. split; [exact R2|].
  destruct (c55_binding _ _ _ _ _ _ _ _ _ _ Hn Hlen D1 D2 R1 R2) as [Y|Y]; [|right; exact Y].
  left. destruct Y as (c1 & c2 & Y). exists (sg_algo g), c1, c2. auto.
Qed.

(** The section list and every other value that is not a signature are not looked
    at. *)
Lemma all_same C K now roots b1 b2 ctx : signature_values (bk_content b1) = signature_values (bk_content b2) ->
  verify_all_with_digest C K now roots b1 (Some ctx) = verify_all_with_digest C K now roots b2 (Some ctx).
Proof.
  intros H. unfold verify_all_with_digest, verify_v2_with_digest, verify_source_stamp_with_digest.
  rewrite (v2_results_agree C K now roots ctx ctx (bk_content b1) (bk_content b2)).
  2:{ intros e _. reflexivity. }
  2:{ rewrite v2_part_values, H. symmetry. apply v2_part_values. }
  rewrite (stamp_results_agree C K now roots ctx ctx (bk_content b1) (bk_content b2)).
  2:{ intros e _. reflexivity. }
  2:{ rewrite stamp_part_values, H. symmetry. apply stamp_part_values. }
  reflexivity.
Qed.

(** ** The command *)
Lemma verify_needs_record : forall p C K builtin now ds s file root, cli_verify p C K builtin now ds s file root = Ok tt ->
  exists f e, fs_read s file = Some f /\ find_eocd f (len f) = Ok e.
Proof.
  intros p C K builtin now ds s file root H. unfold cli_verify in H.
  destruct (fs_read s file) as [f|]; cbn [of_option bind] in H; [|discriminate]. cbv zeta in H.
  destruct (m_get_signing_block p (module_new f) f) as [b| |] eqn:E; cbn [map_err bind] in H; try discriminate.
  unfold m_get_signing_block in E. cbn [module_new m_sig m_raw] in E. apply bind_Ok in E. destruct E as (e & E & _).
  exists f, e. split; [reflexivity|exact E].
Qed.
