(** HistoryFacts.v - lemmas for C85. *)
From Verif Require Import Base BaseFacts Utils Algorithms Common Utf8 ElfInfo SigningBlock Digest Signable ZipSpec ZipFacts DigestFacts
  Spec Wire Built BuiltFacts Signer SignSpec SignFacts Verifier VerifySpec Keystore Module Elf ElfSpec ElfFacts ElfLayout ElfProps
  ElfProps2 ElfProps3 Cli CliSpec CliFacts CliProps CliProps2 CliProps3 HistorySpec.
From Coq Require Import Lia.
Open Scope N_scope.

Lemma last_app_single {A} (l : list A) x d : last (l ++ [x]) d = x.
Proof. apply last_last. Qed.

(** The name table of a signed file is as good as before. *)
Lemma named_again rest f b out e : elf_write_with_signature rest f b = Ok out -> elf_parse rest (el_data f) = Ok e ->
  well_named (el_data f) e -> fits_class e (len out) -> rest out = true ->
  exists e', signed_view rest f b out e e' /\ well_named out e'.
Proof.
  intros H He Hw Hfit Hrest. destruct (view _ _ _ _ _ H He Hw Hfit Hrest) as (e' & V). exists e'. split; [exact V|].
  destruct (write_layout _ _ _ _ H) as (l & Ho).
  assert (e = ly_e _ _ _ l) as -> by (pose proof (ly_parse _ _ _ l); congruence).
  set (e := ly_e _ _ _ l) in *.
  destruct (reparse _ _ _ _ l Ho Hw Hfit Hrest) as (h' & tab' & Hp' & Hidx & Hget & Hnew & (s' & Hs' & Hc')).
  fold e in Hp', Hidx, Hget, Hnew, Hs', Hc'.
  destruct Hw as (sh & t & Hsh & Ht & Hne & Hlast & Hoff & Hnames & Hself).
  assert (sh = ly_sh _ _ _ l) as -> by (pose proof (ly_hdr _ _ _ l) as Q; fold e in Q; congruence).
  assert (t = ly_str _ _ _ l) as -> by (pose proof (ly_range _ _ _ l) as Q; congruence).
  destruct (layout_app _ _ _ _ l Ho) as (E & LD & Hl & O & T & LO). fold e in E, LD, Hl, O, T, LO.
  assert (e' = mkElf (ef_ctx e) h' (ly_secs _ _ _ l) tab') by (pose proof (sv_parse _ _ _ _ _ _ V); congruence). subst e'.
  set (e' := mkElf (ef_ctx e) h' (ly_secs _ _ _ l) tab') in *.
  destruct (header_index _ _ Hsh) as (Hx & Hn).
  assert (Hh : shstrtab_header e' = Some s').
  { unfold shstrtab_header. cbn [e' ef_header ef_sections]. rewrite Hidx.
    assert (N.to_nat (eh_shstrndx (ef_header e)) < length (ly_secs _ _ _ l))%nat by (apply nth_error_Some; congruence).
    replace (N.min _ _) with (eh_shstrndx (ef_header e)) by (unfold len; lia). exact Hs'. }
  pose proof (Forall_forall (fun s => sh_name s < len (ly_str _ _ _ l)) (ef_sections e)) as FF. pose proof (proj1 FF Hnames) as Hnm. clear FF.
  assert (Hsame : forall s, sh_name s = sh_name (ly_sh _ _ _ l) -> section_name e' s <> Some KSU_SIGN_SECTION).
  { intros s Hs. unfold section_name. cbn [e' ef_strtab]. rewrite Hs, Hget; [exact Hself|]. apply Hnm. eapply nth_error_In; eauto. }
  unfold contents in Hc'.
  destruct (ly_case _ _ _ l) as [(i & s & Hi & Hs & Hname & Hm & H1 & H2)|(g2 & Hi & Hname & Hm & H1 & H2)]; fold e in Hi, H1, H2;
    rewrite Hi in Hc'.
  - fold e in Hs. exists s', (ly_str _ _ _ l). split; [exact Hh|]. split; [exact Hc'|]. split; [exact Hne|]. split; [exact Hlast|].
    assert (s' = ly_sh _ _ _ l).
    { rewrite H2, nth_update in Hs'. destruct (Nat.eqb (N.to_nat (eh_shstrndx (ef_header e))) i) eqn:Q.
      - exfalso. apply Nat.eqb_eq in Q. subst i. destruct (proj1 (find_index_Some _ _ _) Hi) as ((s0 & Hs0 & Hns) & _).
        apply Hself. rewrite Hn in Hs0. injection Hs0 as <-. now apply named_name.
      - rewrite H1 in Hs'. congruence. }
    subst s'. split; [exact Hoff|]. split; [|now apply Hsame].
    cbn [e' ef_sections]. rewrite H2. apply Forall_forall. intros x Ix. apply In_nth_error in Ix. destruct Ix as (j & Ix).
    rewrite nth_update in Ix. destruct (Nat.eqb j i).
    + destruct (nth_error (ly_secs1 _ _ _ l) j); [|discriminate]. injection Ix as <-. cbn [sign_shdr sh_name]. rewrite Hname.
      apply Hnm. eapply nth_error_In; eauto.
    + apply Hnm. rewrite H1 in Ix. eapply nth_error_In; eauto.
  - assert (Es : s' = with_table (ly_sh _ _ _ l) (len (el_data f) + ly_g1 _ _ _ l + len (block_to_u8 b) + g2) (len (ly_str _ _ _ l) + 10)).
    { rewrite H2, nth_error_app1 in Hs'.
      - rewrite H1, nth_update, Nat.eqb_refl, Hn in Hs'. now injection Hs' as <-.
      - rewrite H1, length_update. apply nth_error_Some. congruence. }
    exists s', (ly_str _ _ _ l ++ KSU_SIGN_SECTION ++ [x00]). split; [exact Hh|]. split; [exact Hc'|].
    split; [intros Q; apply app_eq_nil in Q; destruct Q; contradiction|]. split; [now rewrite app_assoc, last_app_single|].
    split. { rewrite Es. cbn [with_table sh_offset]. cbn [e' ef_ctx]. lia. }
    split; [|apply Hsame; now rewrite Es].
    assert (LT : forall x, In x (ef_sections e) -> sh_name x < len (ly_str _ _ _ l ++ KSU_SIGN_SECTION ++ [x00])).
    { intros x Ix. rewrite len_app. pose proof (Hnm _ Ix) as Q. cbv beta in Q. lia. }
    cbn [e' ef_sections]. rewrite H2. apply Forall_app. split.
    + rewrite H1. apply Forall_forall. intros x Ix. apply In_nth_error in Ix. destruct Ix as (j & Ix).
      rewrite nth_update in Ix. destruct (Nat.eqb j _).
      * destruct (nth_error (ef_sections e) j) as [y|] eqn:Ey; [|discriminate]. injection Ix as <-. cbn [with_table sh_name].
        apply LT. eapply nth_error_In; eauto.
      * apply LT. eapply nth_error_In; eauto.
    + constructor; [|constructor]. cbn [sign_shdr sh_name]. rewrite Hname, !len_app. cbn. lia.
Qed.

Lemma ordinary_again rest f b out e e' n : signed_view rest f b out e e' -> len (el_data f) <= len out ->
  ordinary e (el_data f) n -> ordinary e' out n.
Proof.
  intros V HL (Hn & Ho). split; [exact Hn|]. intros s Hs.
  assert (Q : find_section_index e (utf8_enc n) <> Some (N.to_nat (eh_shstrndx (ef_header e)))).
  { intros Q. destruct (proj1 (find_index_Some _ _ _) Q) as ((s0 & Hs0 & N2) & _).
    destruct (Ho s0) as (H1 & _); [|contradiction]. unfold find_section. rewrite find_index_find.
    fold (find_section_index e (utf8_enc n)). now rewrite Q. }
  rewrite (find_kept _ _ _ _ _ _ _ V Hn Q) in Hs. destruct (Ho s Hs) as (_ & P1 & P2).
  rewrite (index_kept _ _ _ _ _ _ _ V Hn), (sv_idx _ _ _ _ _ _ V). split; [exact Q|].
  split; [rewrite (sv_ctx _ _ _ _ _ _ V); exact P1|lia].
Qed.

(** What holds after any number of signatures. *)
Record signed_over (rest : bytes -> bool) (e : elf) (start : bytes) (bs : list signing_block) (out : bytes) (e' : elf) : Prop := mkOver {
  so_parse : elf_parse rest out = Ok e';
  so_named : well_named out e';
  so_ctx : ef_ctx e' = ef_ctx e;
  so_idx : eh_shstrndx (ef_header e') = eh_shstrndx (ef_header e);
  so_names : map (section_name e') (ef_sections e') =
    map (section_name e) (ef_sections e) ++
    match bs, find_section_index e KSU_SIGN_SECTION with _ :: _, None => [Some KSU_SIGN_SECTION] | _, _ => [] end;
  so_index : find_section_index e' KSU_SIGN_SECTION =
    match find_section_index e KSU_SIGN_SECTION with
    | Some i => Some i | None => match bs with [] => None | _ => Some (length (ef_sections e)) end end;
  so_kept : forall i s, nth_error (ef_sections e) i = Some s -> find_section_index e KSU_SIGN_SECTION <> Some i ->
    exists s', nth_error (ef_sections e') i = Some s' /\ (i <> N.to_nat (eh_shstrndx (ef_header e)) -> s' = s);
  so_range : forall a z, ehdr_size (cx_class (ef_ctx e)) <= a -> z <= len start -> get_range out a z = get_range start a z;
  so_len : len start + total bs <= len out;
  so_head : ehdr_size (cx_class (ef_ctx e)) <= len start;
  so_old : forall l1 b l2, bs = l1 ++ b :: l2 -> exists off, len start + total l1 <= off /\
    get_range out off (off + len (block_to_u8 b)) = Some (block_to_u8 b);
  so_ordinary : forall n, ordinary e start n -> ordinary e' out n;
  so_digest : forall C a names, Forall (ordinary e start) names ->
    elf_digest rest C (mkElfFile out names) a = elf_digest rest C (mkElfFile start names) a /\
    resolved_sections rest (mkElfFile out names) = resolved_sections rest (mkElfFile start names) }.

Lemma total_app l m : total (l ++ m) = total l + total m.
Proof. induction l as [|b l IH]; cbn [app total fold_right]; [reflexivity|]. fold (total (l ++ m)) (total l). rewrite IH. lia. Qed.

Lemma index_new e e' : map (section_name e') (ef_sections e') = map (section_name e) (ef_sections e) ++
    match find_section_index e KSU_SIGN_SECTION with Some _ => [] | None => [Some KSU_SIGN_SECTION] end ->
  find_section_index e' KSU_SIGN_SECTION =
    match find_section_index e KSU_SIGN_SECTION with Some i => Some i | None => Some (length (ef_sections e)) end.
Proof.
  intros Hnm. apply (f_equal (map (fun o => match o with Some n => beq n KSU_SIGN_SECTION | None => false end))) in Hnm.
  rewrite map_app, !map_map in Hnm.
  change (map (named (ef_strtab e') KSU_SIGN_SECTION) (ef_sections e') = map (named (ef_strtab e) KSU_SIGN_SECTION) (ef_sections e) ++
    map (fun o => match o with Some m => beq m KSU_SIGN_SECTION | None => false end)
      (match find_section_index e KSU_SIGN_SECTION with Some _ => [] | None => [Some KSU_SIGN_SECTION] end)) in Hnm.
  unfold find_section_index at 1. rewrite find_index_map, Hnm.
  destruct (find_section_index e KSU_SIGN_SECTION) as [i|] eqn:Ei; unfold find_section_index in Ei; rewrite find_index_map in Ei; cbn [map].
  - rewrite app_nil_r. exact Ei.
  - rewrite beq_refl, find_index_app_true, Ei, map_length. reflexivity.
Qed.

Lemma split_last {A} (l : list A) x l1 b l2 : l ++ [x] = l1 ++ b :: l2 ->
  (l2 = [] /\ b = x /\ l1 = l) \/ exists l3, l2 = l3 ++ [x] /\ l = l1 ++ b :: l3.
Proof.
  destruct (@exists_last _ (b :: l2)) as (m & y & Em); [discriminate|]. intros H. rewrite Em, app_assoc in H.
  apply app_inj_tail in H. destruct H as (H & <-). destruct m as [|c m].
  - left. cbn in Em. injection Em as -> ->. rewrite app_nil_r in H. auto.
  - right. cbn in Em. injection Em as -> ->. exists m. auto.
Qed.

Lemma overall rest e start bs out : elf_parse rest start = Ok e -> well_named start e -> history rest e start bs out ->
  exists e', signed_over rest e start bs out e'.
Proof.
  intros He Hw H. induction H as [|bs before names b out H (e1 & IH) HW Hfit Hrest].
  - exists e. destruct (elf_parse_inv _ _ _ He) as (P & _). destruct (parse_ehdr_inv _ _ _ P) as (_ & L & _).
    constructor; auto.
    + now rewrite app_nil_r.
    + now destruct (find_section_index e KSU_SIGN_SECTION).
    + intros i s Hs _. eauto.
    + cbn. lia.
    + intros l1 b l2 Q. destruct l1; discriminate.
  - assert (Hfit1 : fits_class e1 (len out)) by (unfold fits_class in *; rewrite (so_ctx _ _ _ _ _ _ IH); exact Hfit).
    destruct (named_again rest (mkElfFile before names) b out e1 HW (so_parse _ _ _ _ _ _ IH) (so_named _ _ _ _ _ _ IH) Hfit1 Hrest) as (e' & V & Hw').
    exists e'. cbn [el_data] in V. pose proof (so_len _ _ _ _ _ _ IH) as HL. pose proof (so_head _ _ _ _ _ _ IH) as Hh.
    destruct (c53_bytes _ _ _ _ _ HW (so_parse _ _ _ _ _ _ IH)) as (HL1 & _). cbn [el_data] in HL1.
    constructor.
    + apply V.
    + exact Hw'.
    + rewrite (sv_ctx _ _ _ _ _ _ V). apply IH.
    + rewrite (sv_idx _ _ _ _ _ _ V). apply IH.
    + rewrite (sv_names _ _ _ _ _ _ V), (so_names _ _ _ _ _ _ IH), (so_index _ _ _ _ _ _ IH).
      destruct bs as [|b0 bs]; cbn [app]; destruct (find_section_index e KSU_SIGN_SECTION); now rewrite ?app_nil_r.
    + rewrite (index_new _ _ (sv_names _ _ _ _ _ _ V)), (so_index _ _ _ _ _ _ IH).
      destruct (find_section_index e KSU_SIGN_SECTION); [reflexivity|]. destruct bs as [|b0 bs]; cbn [app]; [|reflexivity].
      f_equal. pose proof (so_names _ _ _ _ _ _ IH) as Q. apply (f_equal (@length _)) in Q. rewrite app_nil_r, !map_length in Q. exact Q.
    + intros i s Hs Hi. destruct (so_kept _ _ _ _ _ _ IH i s Hs Hi) as (s1 & Hs1 & E1).
      destruct (sv_kept _ _ _ _ _ _ V i s1 Hs1) as (s2 & Hs2 & _ & E2).
      { rewrite (so_index _ _ _ _ _ _ IH). destruct (find_section_index e KSU_SIGN_SECTION); [exact Hi|].
        destruct bs; [discriminate|]. intros [= Q]. subst i.
        assert (length (ef_sections e) < length (ef_sections e))%nat by (apply nth_error_Some; congruence). lia. }
      exists s2. split; [exact Hs2|]. rewrite (so_idx _ _ _ _ _ _ IH) in E2. intros X. rewrite (E2 X). now apply E1.
    + intros a z Ha Hz. rewrite (sv_range _ _ _ _ _ _ V); [now apply (so_range _ _ _ _ _ _ IH)| |].
      * rewrite (so_ctx _ _ _ _ _ _ IH). exact Ha.
      * cbn [el_data]. lia.
    + rewrite total_app. cbn [total fold_right]. lia.
    + exact Hh.
    + intros l1 c l2 Q. destruct (split_last _ _ _ _ _ Q) as [(-> & -> & ->)|(l3 & -> & ->)].
      * destruct (sv_sign _ _ _ _ _ _ V) as (s' & _ & Hc & _ & Ho & _). exists (sh_offset s'). cbn [el_data] in Ho.
        split; [lia|]. unfold contents in Hc. rewrite <- Hc. f_equal. pose proof (contents_len _ _ _ Hc). lia.
      * destruct (so_old _ _ _ _ _ _ IH l1 c l3 eq_refl) as (off & O1 & O2). exists off. split; [exact O1|]. rewrite <- O2.
        apply (sv_range _ _ _ _ _ _ V).
        -- rewrite (so_ctx _ _ _ _ _ _ IH). lia.
        -- cbn [el_data]. apply get_range_len in O2 as Q2. apply get_range_spec in O2. lia.
    + intros n Hn. apply (ordinary_again _ _ _ _ _ _ _ V); [cbn [el_data]; lia|]. now apply (so_ordinary _ _ _ _ _ _ IH).
    + intros C a ns F.
      assert (F1 : Forall (ordinary e1 (el_data (mkElfFile before names))) ns).
      { eapply Forall_impl; [|exact F]. intros n. apply (so_ordinary _ _ _ _ _ _ IH). }
      destruct (c54 rest (mkElfFile before names) b out e1 C a ns HW (so_parse _ _ _ _ _ _ IH) (so_named _ _ _ _ _ _ IH) Hfit1 Hrest F1) as (-> & ->).
      cbn [el_data]. apply (so_digest _ _ _ _ _ _ IH). exact F.
Qed.

Lemma history_sections rest e start bs out : elf_parse rest start = Ok e -> well_named start e -> history rest e start bs out -> bs <> [] ->
  exists e', elf_parse rest out = Ok e' /\
   map (section_name e') (ef_sections e') =
    map (section_name e) (ef_sections e) ++
    match find_section_index e KSU_SIGN_SECTION with Some _ => [] | None => [Some KSU_SIGN_SECTION] end /\
   forall i s, nth_error (ef_sections e) i = Some s -> find_section_index e KSU_SIGN_SECTION <> Some i ->
     i <> N.to_nat (eh_shstrndx (ef_header e)) ->
     nth_error (ef_sections e') i = Some s /\ (plain_section start e s -> contents out s = contents start s).
Proof.
  intros He Hw H Hne. destruct (overall _ _ _ _ _ He Hw H) as (e' & V). exists e'. split; [apply V|].
  split; [rewrite (so_names _ _ _ _ _ _ V); destruct bs; [contradiction|]; now destruct (find_section_index e KSU_SIGN_SECTION)|].
  intros i s Hs Hi Hx. destruct (so_kept _ _ _ _ _ _ V i s Hs Hi) as (s' & Hs' & E). rewrite (E Hx) in Hs'. split; [exact Hs'|].
  intros (P1 & P2). unfold contents. now apply (so_range _ _ _ _ _ _ V).
Qed.

Lemma history_snoc rest e start bs b out : history rest e start (bs ++ [b]) out -> exists before names,
  history rest e start bs before /\ elf_write_with_signature rest (mkElfFile before names) b = Ok out /\
  fits_class e (len out) /\ rest out = true.
Proof.
  inversion 1 as [Q|bs0 before names b0 out0 H1 H2 H3 H4 Q]; [destruct bs; discriminate|].
  apply app_inj_tail in Q. destruct Q as (-> & ->). eauto 8.
Qed.

Lemma history_last rest e start bs b out p names : elf_parse rest start = Ok e -> well_named start e -> built_block b ->
  history rest e start (bs ++ [b]) out -> elf_get_signing_block rest p (mkElfFile out names) = Ok (Some b).
Proof.
  intros He Hw Hb H. apply history_snoc in H. destruct H as (before & ns & H & HW & Hfit & Hrest).
  destruct (overall _ _ _ _ _ He Hw H) as (e1 & V).
  assert (Hfit1 : fits_class e1 (len out)) by (unfold fits_class in *; rewrite (so_ctx _ _ _ _ _ _ V); exact Hfit).
  eapply c53_block; eauto; apply V.
Qed.

Lemma history_digest rest e start bs out C a names : elf_parse rest start = Ok e -> well_named start e -> history rest e start bs out ->
  Forall (ordinary e start) names ->
  elf_digest rest C (mkElfFile out names) a = elf_digest rest C (mkElfFile start names) a /\
  resolved_sections rest (mkElfFile out names) = resolved_sections rest (mkElfFile start names).
Proof. intros He Hw H F. destruct (overall _ _ _ _ _ He Hw H) as (e' & V). now apply (so_digest _ _ _ _ _ _ V). Qed.

Lemma history_old rest e start bs out : elf_parse rest start = Ok e -> well_named start e -> history rest e start bs out ->
  len start + total bs <= len out /\
  forall l1 b l2, bs = l1 ++ b :: l2 -> exists off, len start + total l1 <= off /\
    get_range out off (off + len (block_to_u8 b)) = Some (block_to_u8 b).
Proof. intros He Hw H. destruct (overall _ _ _ _ _ He Hw H) as (e' & V). split; apply V. Qed.

(** ** The command, in place *)
Lemma parse_magic rest d e : elf_parse rest d = Ok e -> exists t, d = ELFMAG ++ t.
Proof.
  intros H. destruct (elf_parse_inv _ _ _ H) as (P & _). unfold parse_ehdr in P.
  destruct (len d <? 16) eqn:L; [discriminate|]. cbv zeta in P. destruct (ident_ctx (takeN 16 d)) eqn:I; [|discriminate].
  unfold ident_ctx in I. destruct (beq (takeN 4 (takeN 16 d)) ELFMAG) eqn:B; [|discriminate].
  apply beq_eq in B. exists (dropN 4 d). rewrite <- B. rewrite takeN_takeN. symmetry. apply take_drop.
Qed.

Lemma block_4096 p C L rest clk ds s a f b : crypto_ok C -> cli_sign_block p C L rest clk ds s a = Ok (SElf f, b) ->
  Forall scalars (sa_sections a) -> 4096 <= len (block_to_u8 b).
Proof.
  intros HC HB Hsec. destruct (sign_block_elf _ _ _ _ _ _ _ _ _ _ HC HB Hsec) as (l & ts & HF & _ & Hts & Hsc & M & _ & ->).
  destruct (extended_read Debug l ts HF (resolved_bounds _ _ _ Hts Hsc)) as (-> & _).
  assert (0 < len (block_to_u8 (fresh_block l))).
  { unfold block_to_u8. rewrite !len_app. unfold fresh_block. cbn [bk_magic]. change (len MAGIC) with 16. lia. }
  assert (len (block_to_u8 (fresh_block l)) < 4096 -> len (block_to_u8 (fresh_block l)) mod 4096 = len (block_to_u8 (fresh_block l)))
    by (intros; apply N.mod_small; lia). lia.
Qed.

Lemma in_place_history rest e file s0 start n s : fs_read s0 file = Some start -> elf_parse rest start = Ok e -> well_named start e ->
  signed_in_place rest e file s0 n s ->
  exists bs out, fs_read s file = Some out /\ history rest e start bs out /\ length bs = n /\ 4096 * N.of_nat n <= total bs.
Proof.
  intros Hr He Hw H. induction H as [|n s p C L clk ds a steps out' H IH HC Hsec Hi Ho HS Hout Hfit Hrest].
  - exists [], start. split; [exact Hr|]. split; [constructor|]. split; [reflexivity|]. cbn. lia.
  - destruct IH as (bs & out & Hc & Hh & Hn & Ht). 
    destruct (overall _ _ _ _ _ He Hw Hh) as (e1 & V). destruct (parse_magic _ _ _ (so_parse _ _ _ _ _ _ V)) as (t & Em).
    apply sign_steps in HS. destruct HS as [(_ & X)|(x & b & w & HB & _ & Hst & HW)]; [congruence|].
    assert (Hc' : fs_read s (sa_input a) = Some (ELFMAG ++ t)) by (rewrite Hi, Hc, Em; reflexivity).
    destruct (elf_block_kind _ _ _ _ _ _ _ _ _ _ _ HB Hc') as (f & ->).
    destruct (sign_block_elf _ _ _ _ _ _ _ _ _ _ HC HB Hsec) as (_ & _ & _ & Hf & _).
    pose proof (block_4096 _ _ _ _ _ _ _ _ _ _ HC HB Hsec) as HL.
    cbn [signable_write] in HW. destruct (elf_write_with_signature rest f b) as [w'| |] eqn:EW; try discriminate.
    assert (w' = w) by congruence. subst w'.
    assert (w = out').
    { unfold fs_read in Hout. pose proof (run_perm steps s) as (P1 & P2 & _). rewrite P1, P2 in Hout.
      destruct (fs_can_read s file); [|discriminate]. rewrite Hst in Hout. cbn [run fold_left apply] in Hout.
      rewrite <- Ho, !put_get in Hout. cbn [app] in Hout. congruence. }
    subst w. destruct f as [fd fn]. cbn [el_data] in Hf. assert (fd = out) by congruence. subst fd.
    exists (bs ++ [b]), out'. split; [exact Hout|]. split; [eapply again; eauto|]. split; [rewrite app_length; cbn; lia|].
    rewrite total_app. cbn [total fold_right]. lia.
Qed.

Lemma in_place_grows rest e file s0 start n s : fs_read s0 file = Some start -> elf_parse rest start = Ok e -> well_named start e ->
  signed_in_place rest e file s0 n s ->
  exists bs out, fs_read s file = Some out /\ history rest e start bs out /\ length bs = n /\
    len start + 4096 * N.of_nat n <= len out.
Proof.
  intros Hr He Hw H. destruct (in_place_history _ _ _ _ _ _ _ Hr He Hw H) as (bs & out & H1 & H2 & H3 & H4).
  exists bs, out. do 3 (split; [assumption|]). destruct (history_old _ _ _ _ _ He Hw H2) as (H5 & _). lia.
Qed.
