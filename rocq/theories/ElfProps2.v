(** ElfProps2.v - section names, the signature read back, digests and section
    selection. *)
From Coq Require Import Permutation Sorted.
From Verif Require Import Base BaseFacts Algorithms Utf8 SigningBlock Digest Signable Elf ElfFacts ElfLayout ElfSpec ElfProps
  ZipSpec DigestFacts.
Open Scope N_scope.

Lemma map_update {A B} (g g' : A -> B) i h (l : list A) :
  (forall s, nth_error l i = Some s -> g' (h s) = g s) -> Forall (fun s => g' s = g s) l ->
  map g' (update_nth i h l) = map g l.
Proof.
  intros H F. revert i H. induction F as [|a l Ha F IH]; intros [|i] H; cbn; try reflexivity; f_equal.
  - apply (H a). reflexivity.
  - apply map_ext_Forall in F. exact F.
  - exact Ha.
  - apply IH. intros s Hs. apply (H s). exact Hs.
Qed.
Lemma find_index_map {A} (f : A -> bool) l : find_index f l = find_index (fun b => b) (map f l).
Proof. induction l as [|a l IH]; cbn; [reflexivity|]. rewrite IH. reflexivity. Qed.
Lemma find_index_app_false l : find_index (fun b : bool => b) (l ++ [false]) = find_index (fun b => b) l.
Proof. induction l as [|a l IH]; cbn; [reflexivity|]. now rewrite IH. Qed.
Lemma find_index_app_true l : find_index (fun b : bool => b) (l ++ [true]) =
  Some (match find_index (fun b => b) l with Some i => i | None => length l end).
Proof. induction l as [|a l IH]; cbn; [reflexivity|]. destruct a; [reflexivity|]. rewrite IH. cbn. now destruct (find_index _ l). Qed.

Lemma named_name e n s : named (ef_strtab e) n s = true <-> section_name e s = Some n.
Proof.
  unfold named, section_name. destruct (get_at (ef_strtab e) (sh_name s)) as [m|]; [|split; discriminate].
  rewrite beq_eq. split; congruence.
Qed.
(** What the parse of a signed file shows. *)
Record signed_view (rest : bytes -> bool) (f : elf_file) (b : signing_block) (out : bytes) (e e' : elf) : Prop := mkView {
  sv_parse : elf_parse rest out = Ok e';
  sv_ctx : ef_ctx e' = ef_ctx e;
  sv_idx : eh_shstrndx (ef_header e') = eh_shstrndx (ef_header e);
  sv_names : map (section_name e') (ef_sections e') =
    map (section_name e) (ef_sections e) ++
    match find_section_index e KSU_SIGN_SECTION with Some _ => [] | None => [Some KSU_SIGN_SECTION] end;
  sv_kept : forall i s, nth_error (ef_sections e) i = Some s -> find_section_index e KSU_SIGN_SECTION <> Some i ->
    exists s', nth_error (ef_sections e') i = Some s' /\
      s' = with_table s (sh_offset s') (sh_size s') /\
      (i <> N.to_nat (eh_shstrndx (ef_header e)) -> s' = s) ;
  sv_table : exists s t, shstrtab_header e = Some s /\ contents (el_data f) s = Some t /\
    exists s', shstrtab_header e' = Some s' /\ contents out s' = Some (
      match find_section_index e KSU_SIGN_SECTION with Some _ => t | None => t ++ KSU_SIGN_SECTION ++ [x00] end);
  sv_sign : exists s', find_section e' KSU_SIGN_SECTION = Some s' /\ contents out s' = Some (block_to_u8 b) /\
    sh_type s' = SHT_PROGBITS /\ len (el_data f) <= sh_offset s' /\ sh_offset s' + sh_size s' <= len out;
  sv_range : forall a z, ehdr_size (cx_class (ef_ctx e)) <= a -> z <= len (el_data f) ->
    get_range out a z = get_range (el_data f) a z }.

Lemma view rest f b out e : elf_write_with_signature rest f b = Ok out -> elf_parse rest (el_data f) = Ok e ->
  well_named (el_data f) e -> fits_class e (len out) -> rest out = true -> exists e', signed_view rest f b out e e'.
Proof.
  intros H He Hw Hfit Hrest. destruct (write_layout _ _ _ _ H) as (l & Ho).
  assert (e = ly_e _ _ _ l) as -> by (pose proof (ly_parse _ _ _ l); congruence).
  set (e := ly_e _ _ _ l) in *.
  destruct (reparse _ _ _ _ l Ho Hw Hfit Hrest) as (h' & tab' & Hp' & Hidx & Hget & Hnew & (s' & Hs' & Hc')). fold e in Hp', Hidx, Hget, Hnew, Hs', Hc'.
  destruct Hw as (sh & t & Hsh & Ht & Hne & Hlast & Hoff & Hnames & Hself).
  assert (sh = ly_sh _ _ _ l) as -> by (pose proof (ly_hdr _ _ _ l) as Q; fold e in Q; congruence).
  assert (t = ly_str _ _ _ l) as -> by (pose proof (ly_range _ _ _ l) as Q; congruence).
  destruct (layout_app _ _ _ _ l Ho) as (E & LD & Hl & O & T & LO). fold e in E, LD, Hl, O, T, LO.
  set (e' := mkElf (ef_ctx e) h' (ly_secs _ _ _ l) tab') in *.
  assert (SN : Forall (fun s => section_name e' s = section_name e s) (ef_sections e)).
  { eapply Forall_impl; [|exact Hnames]. cbn beta. intros s Hs. apply Hget. exact Hs. }
  assert (Hcont : forall d, sh_offset d = len (el_data f) + ly_g1 _ _ _ l -> sh_size d = len (block_to_u8 b) ->
     contents out d = Some (block_to_u8 b)).
  { intros d D1 D2. unfold contents. rewrite D1, D2. rewrite E. eapply get_range_app; [rewrite app_assoc; reflexivity| |];
    rewrite len_app, LD, len_zeros; reflexivity. }
  destruct (ly_case _ _ _ l) as [(i & s & Hi & Hs & Hname & Hm & H1 & H2)|(g2 & Hi & Hname & Hm & H1 & H2)]; fold e in Hi, H1, H2.
  - fold e in Hs. destruct (proj1 (find_index_Some _ _ _) Hi) as ((s0 & Hs0 & Hns) & Hbefore).
    assert (s0 = s) as -> by congruence.
    assert (Hgs : section_name e s = Some KSU_SIGN_SECTION).
    { now apply named_name. }
    assert (Hnm : map (section_name e') (ef_sections e') = map (section_name e) (ef_sections e)).
    { cbn [e' ef_sections]. rewrite H2, H1. apply map_update; [|exact SN].
      intros s1 Hs1. assert (s1 = s) as -> by congruence. unfold section_name at 1. cbn [sign_shdr sh_name e' ef_strtab].
      rewrite Hnew, Hgs. reflexivity. }
    exists e'. constructor; auto.
    + rewrite Hi, app_nil_r. exact Hnm.
    + intros j sj Hj Hij. rewrite Hi in Hij. exists sj. cbn [e' ef_sections]. rewrite H2, H1, nth_update.
      replace (Nat.eqb j i) with false by (symmetry; apply Nat.eqb_neq; congruence).
      split; [exact Hj|]. split; [now destruct sj|auto].
    + exists (ly_sh _ _ _ l), (ly_str _ _ _ l). split; [exact Hsh|]. split; [exact Ht|]. exists s'. split; [|exact Hc'].
      unfold shstrtab_header. cbn [e' ef_header ef_sections]. rewrite Hidx.
      assert (N.to_nat (eh_shstrndx (ef_header e)) < length (ly_secs _ _ _ l))%nat by (apply nth_error_Some; congruence).
      replace (N.min _ _) with (eh_shstrndx (ef_header e)) by (unfold len; lia). exact Hs'.
    + exists (sign_shdr (ly_name _ _ _ l) (len (el_data f) + ly_g1 _ _ _ l) (len (block_to_u8 b)) (align_for_container (cx_class (ef_ctx e)))).
      split; [|split; [apply Hcont; reflexivity|cbn [sign_shdr sh_type sh_offset sh_size]; split; [reflexivity|lia]]].
      unfold find_section. rewrite find_index_find.
      assert (FI : find_index (named (ef_strtab e') KSU_SIGN_SECTION) (ef_sections e') = Some i).
      { rewrite <- Hi. unfold find_section_index. rewrite find_index_map, (find_index_map (named (ef_strtab e) _)). f_equal.
        apply (f_equal (map (fun o => match o with Some n => beq n KSU_SIGN_SECTION | None => false end))) in Hnm.
        rewrite !map_map in Hnm. exact Hnm. }
      rewrite FI. cbn [e' ef_sections]. rewrite H2, nth_update, Nat.eqb_refl, H1, Hs. reflexivity.
    + intros a z Ha Hz. apply (layout_range _ _ _ _ l Ho); auto.
  - set (new := sign_shdr (ly_name _ _ _ l) (len (el_data f) + ly_g1 _ _ _ l) (len (block_to_u8 b)) (align_for_container (cx_class (ef_ctx e)))) in *.
    assert (Hnm : map (section_name e') (ef_sections e') = map (section_name e) (ef_sections e) ++ [Some KSU_SIGN_SECTION]).
    { cbn [e' ef_sections]. rewrite H2, H1, map_app. f_equal.
      - apply map_update; [|exact SN]. intros s1 Hs1. rewrite Forall_forall in SN. apply nth_error_In in Hs1.
        rewrite <- (SN s1 Hs1). reflexivity.
      - cbn. f_equal. unfold section_name. cbn [new sign_shdr sh_name e' ef_strtab]. exact Hnew. }
    exists e'. constructor; auto.
    + rewrite Hi. exact Hnm.
    + intros j sj Hj _. cbn [e' ef_sections]. rewrite H2, H1.
      rewrite nth_error_app1 by (rewrite length_update; apply nth_error_Some; congruence). rewrite nth_update, Hj.
      destruct (Nat.eqb j (N.to_nat (eh_shstrndx (ef_header e)))) eqn:Ej.
      * apply Nat.eqb_eq in Ej. eexists. split; [reflexivity|]. split; [reflexivity|]. intros; contradiction.
      * exists sj. split; [reflexivity|]. split; [now destruct sj|auto].
    + exists (ly_sh _ _ _ l), (ly_str _ _ _ l). split; [exact Hsh|]. split; [exact Ht|]. exists s'. split; [|exact Hc'].
      unfold shstrtab_header. cbn [e' ef_header ef_sections]. rewrite Hidx.
      assert (N.to_nat (eh_shstrndx (ef_header e)) < length (ly_secs _ _ _ l))%nat by (apply nth_error_Some; congruence).
      replace (N.min _ _) with (eh_shstrndx (ef_header e)) by (unfold len; lia). exact Hs'.
    + exists new. split; [|split; [apply Hcont; reflexivity|unfold new; cbn [sign_shdr sh_type sh_offset sh_size]; split; [reflexivity|lia]]].
      unfold find_section. rewrite find_index_find.
      assert (FI : find_index (named (ef_strtab e') KSU_SIGN_SECTION) (ef_sections e') = Some (length (ef_sections e))).
      { unfold find_section_index in Hi. rewrite find_index_map in Hi. rewrite find_index_map.
        apply (f_equal (map (fun o => match o with Some n => beq n KSU_SIGN_SECTION | None => false end))) in Hnm.
        rewrite map_app, !map_map in Hnm. cbn [map] in Hnm. rewrite beq_refl in Hnm.
        change (map (named (ef_strtab e') KSU_SIGN_SECTION) (ef_sections e') =
                map (named (ef_strtab e) KSU_SIGN_SECTION) (ef_sections e) ++ [true]) in Hnm.
        rewrite Hnm, find_index_app_true, Hi, map_length. reflexivity. }
      rewrite FI. cbn [e' ef_sections]. rewrite H2, H1. rewrite nth_error_app2 by (rewrite length_update; auto).
      rewrite length_update, Nat.sub_diag. reflexivity.
    + intros a z Ha Hz. apply (layout_range _ _ _ _ l Ho); auto.
Qed.

(** * C53 *)
Lemma contents_len data s d : contents data s = Some d -> sh_size s = len d.
Proof. intros H. unfold contents in H. apply get_range_len in H. lia. Qed.

Lemma write_bound rest f b out : elf_write_with_signature rest f b = Ok out -> len out < I64.
Proof.
  intros H. destruct (write_layout _ _ _ _ H) as (l & Ho). destruct (layout_app _ _ _ _ l Ho) as (_ & _ & _ & _ & _ & LO).
  pose proof (ly_bound _ _ _ l). lia.
Qed.

Lemma c53_read rest f b out e p signed : elf_write_with_signature rest f b = Ok out -> elf_parse rest (el_data f) = Ok e ->
  well_named (el_data f) e -> fits_class e (len out) -> rest out = true -> block_to_u8 b <> [] ->
  elf_get_signing_block rest p (mkElfFile out signed) =
    do blk <- map_err (fun _ => EeValue) (from_u8 p (block_to_u8 b)); Ok (Some blk).
Proof.
  intros H He Hw Hfit Hrest Hne. destruct (view _ _ _ _ _ H He Hw Hfit Hrest) as (e' & V).
  pose proof (write_bound _ _ _ _ H) as HB.
  unfold elf_get_signing_block. cbn [el_data]. rewrite (sv_parse _ _ _ _ _ _ V). cbn [bind].
  destruct (sv_sign _ _ _ _ _ _ V) as (s' & Hf & Hc & _ & _ & Hz). rewrite Hf.
  replace (U64 <=? sh_offset s' + sh_size s') with false by (symmetry; apply N.leb_gt; unfold I64, U64 in *; lia).
  pose proof (contents_len _ _ _ Hc) as Hl.
  replace (sh_size s' =? 0) with false.
  2:{ symmetry. apply N.eqb_neq. intros Q. apply Hne. apply len_0. lia. }
  unfold contents in Hc. now rewrite Hc.
Qed.

Lemma c53_sections rest f b out e : elf_write_with_signature rest f b = Ok out -> elf_parse rest (el_data f) = Ok e ->
  well_named (el_data f) e -> fits_class e (len out) -> rest out = true ->
  exists e', elf_parse rest out = Ok e' /\
   map (section_name e') (ef_sections e') =
    map (section_name e) (ef_sections e) ++
    match find_section_index e KSU_SIGN_SECTION with Some _ => [] | None => [Some KSU_SIGN_SECTION] end /\
   (forall i s, nth_error (ef_sections e) i = Some s -> find_section_index e KSU_SIGN_SECTION <> Some i ->
     i <> N.to_nat (eh_shstrndx (ef_header e)) ->
     nth_error (ef_sections e') i = Some s /\ (plain_section (el_data f) e s -> contents out s = contents (el_data f) s)) /\
   (exists s t s', shstrtab_header e = Some s /\ contents (el_data f) s = Some t /\ shstrtab_header e' = Some s' /\
     s' = with_table s (sh_offset s') (sh_size s') /\
     contents out s' = Some (match find_section_index e KSU_SIGN_SECTION with Some _ => t | None => t ++ KSU_SIGN_SECTION ++ [x00] end)).
Proof.
  intros H He Hw Hfit Hrest. destruct (view _ _ _ _ _ H He Hw Hfit Hrest) as (e' & V). exists e'.
  split; [apply V|]. split; [apply V|]. split.
  - intros i s Hs Hi Hx. destruct (sv_kept _ _ _ _ _ _ V i s Hs Hi) as (s' & E1 & _ & E2). rewrite (E2 Hx) in E1.
    split; [exact E1|]. intros (P1 & P2). unfold contents. apply (sv_range _ _ _ _ _ _ V); auto.
  - destruct (sv_table _ _ _ _ _ _ V) as (s & t & Hs & Ht & s' & Hs' & Hc). exists s, t, s'. do 3 (split; [assumption|]).
    split; [|exact Hc].
    destruct (header_index _ _ Hs) as (_ & Hn). destruct (header_index _ _ Hs') as (_ & Hn').
    destruct (find_section_index e KSU_SIGN_SECTION) as [i|] eqn:Ei.
    + destruct (Nat.eq_dec i (N.to_nat (eh_shstrndx (ef_header e)))) as [->|Hne].
      * exfalso. destruct (proj1 (find_index_Some _ _ _) Ei) as ((s0 & Hs0 & Hns) & _).
        destruct Hw as (sh & tt' & Hsh & _ & _ & _ & _ & _ & Hself). assert (s0 = sh) as -> by congruence.
        apply Hself. now apply named_name.
      * destruct (sv_kept _ _ _ _ _ _ V _ s Hn) as (s2 & E1 & E2 & _); [rewrite Ei; congruence|].
        rewrite (sv_idx _ _ _ _ _ _ V), E1 in Hn'. injection Hn' as <-. exact E2.
    + destruct (sv_kept _ _ _ _ _ _ V _ s Hn) as (s2 & E1 & E2 & _); [rewrite Ei; congruence|].
      rewrite (sv_idx _ _ _ _ _ _ V), E1 in Hn'. injection Hn' as <-. exact E2.
Qed.

(** * C54 *)
Lemma index_kept rest f b out e e' n : signed_view rest f b out e e' -> n <> KSU_SIGN_SECTION ->
  find_section_index e' n = find_section_index e n.
Proof.
  intros V Hn. unfold find_section_index. rewrite find_index_map, (find_index_map (named (ef_strtab e) n)).
  pose proof (sv_names _ _ _ _ _ _ V) as Hnm.
  apply (f_equal (map (fun o => match o with Some m => beq m n | None => false end))) in Hnm.
  rewrite map_app, !map_map in Hnm.
  change (map (named (ef_strtab e') n) (ef_sections e') = map (named (ef_strtab e) n) (ef_sections e) ++
    map (fun o => match o with Some m => beq m n | None => false end)
      (match find_section_index e KSU_SIGN_SECTION with Some _ => [] | None => [Some KSU_SIGN_SECTION] end)) in Hnm.
  rewrite Hnm. destruct (find_section_index e KSU_SIGN_SECTION); cbn [map].
  - now rewrite app_nil_r.
  - replace (beq KSU_SIGN_SECTION n) with false by (symmetry; apply beq_neq; congruence). apply find_index_app_false.
Qed.
Lemma find_kept rest f b out e e' n : signed_view rest f b out e e' -> n <> KSU_SIGN_SECTION ->
  find_section_index e n <> Some (N.to_nat (eh_shstrndx (ef_header e))) ->
  find_section e' n = find_section e n.
Proof.
  intros V Hn Hx. unfold find_section. rewrite !find_index_find.
  fold (find_section_index e n) (find_section_index e' n). rewrite (index_kept _ _ _ _ _ _ _ V Hn).
  destruct (find_section_index e n) as [j|] eqn:Ej; [|reflexivity].
  destruct (proj1 (find_index_Some _ _ _) Ej) as ((s & Hs & N2) & _).
  destruct (sv_kept _ _ _ _ _ _ V j s Hs) as (s' & E1 & _ & E2).
  - intros Q. destruct (proj1 (find_index_Some _ _ _) Q) as ((s1 & Hs1 & N1) & _).
    assert (s1 = s) as -> by congruence. apply named_name in N1, N2. congruence.
  - rewrite E2 in E1 by congruence. congruence.
Qed.

Lemma lookup_kept rest f b out e e' names : signed_view rest f b out e e' ->
  Forall (ordinary e (el_data f)) names -> lookup_sections e' names = lookup_sections e names.
Proof.
  intros V F. induction F as [|n names (Hn & Ho) F IH]; cbn [lookup_sections]; [reflexivity|].
  rewrite IH, (find_kept _ _ _ _ _ _ _ V Hn); [reflexivity|]. intros Q.
  destruct (proj1 (find_index_Some _ _ _) Q) as ((s & Hs & N2) & _).
  destruct (Ho s) as (H1 & _); [|contradiction]. unfold find_section. rewrite find_index_find.
  fold (find_section_index e (utf8_enc n)). now rewrite Q.
Qed.
Lemma lookup_plain e data names l : Forall (ordinary e data) names -> lookup_sections e names = Ok l ->
  Forall (fun t => ehdr_size (cx_class (ef_ctx e)) <= t_offset t /\ t_offset t + t_size t <= len data) l.
Proof.
  intros F. revert l. induction F as [|n names (Hn & Ho) F IH]; intros l H; cbn in *; [injection H as <-; constructor|].
  destruct (find_section e (utf8_enc n)) as [s|] eqn:E; [|discriminate].
  destruct (sh_type s =? SHT_NOBITS); [discriminate|]. destruct (sh_size s =? 0); [discriminate|].
  apply bind_Ok in H. destruct H as (l' & H & E2). injection E2 as <-. constructor; [|auto].
  destruct (Ho s eq_refl) as (_ & P). exact P.
Qed.

Lemma insert_perm t l : Permutation (insert_by t l) (t :: l).
Proof.
  induction l as [|u l IH]; cbn; [reflexivity|]. destruct (_ <=? _); [reflexivity|].
  rewrite IH. apply perm_swap.
Qed.
Lemma sort_perm l : Permutation (sort_by l) l.
Proof. induction l as [|t l IH]; cbn; [reflexivity|]. rewrite insert_perm. now constructor. Qed.

Lemma taken_range data o s : o + s <= len data -> get_range data o (o + s) = Some (taken data o s).
Proof. intros H. rewrite get_range_Some by lia. unfold taken. do 2 f_equal. lia. Qed.

Lemma c54 rest f b out e C a signed : elf_write_with_signature rest f b = Ok out -> elf_parse rest (el_data f) = Ok e ->
  well_named (el_data f) e -> fits_class e (len out) -> rest out = true ->
  Forall (ordinary e (el_data f)) signed ->
  elf_digest rest C (mkElfFile out signed) a = elf_digest rest C (mkElfFile (el_data f) signed) a /\
  resolved_sections rest (mkElfFile out signed) = resolved_sections rest (mkElfFile (el_data f) signed).
Proof.
  intros H He Hw Hfit Hrest F. destruct (view _ _ _ _ _ H He Hw Hfit Hrest) as (e' & V).
  unfold elf_digest, resolved_sections, collect_sections in *. cbn [el_data el_signed] in *.
  rewrite He. rewrite (sv_parse _ _ _ _ _ _ V). cbn [bind].
  rewrite (lookup_kept _ _ _ _ _ _ _ V F). split; [|reflexivity].
  destruct (lookup_sections e signed) as [l| |] eqn:E; [|reflexivity|reflexivity]. cbn [bind].
  f_equal. unfold digest_elf_sections. f_equal.
  pose proof (lookup_plain _ _ _ _ F E) as P.
  apply (Permutation_Forall (Permutation_sym (sort_perm l))) in P.
  induction P as [|t l' (P1 & P2) P IH]; cbn [flat_map]; [reflexivity|]. f_equal; [|exact IH]. f_equal. f_equal.
  enough (Some (taken out (t_offset t) (t_size t)) = Some (taken (el_data f) (t_offset t) (t_size t))) by congruence.
  destruct (c53_bytes _ _ _ _ _ H He) as (HL & _).
  rewrite <- !taken_range by lia. apply (sv_range _ _ _ _ _ _ V); auto.
Qed.

(** * C55 *)
Fixpoint sorted (l : list tuple) : Prop :=
  match l with [] => True | t :: r => Forall (fun u => t_offset t <= t_offset u) r /\ sorted r end.
Lemma insert_sorted t l : sorted l -> sorted (insert_by t l).
Proof.
  induction l as [|u l IH]; cbn; [auto|]. intros (H1 & H2). destruct (t_offset t <=? t_offset u) eqn:E.
  - apply N.leb_le in E. cbn. split; [|auto]. constructor; [exact E|]. eapply Forall_impl; [|exact H1]. cbn; intros; lia.
  - apply N.leb_gt in E. cbn. split; [|auto].
    eapply Permutation_Forall; [apply Permutation_sym, insert_perm|]. constructor; [lia|exact H1].
Qed.
Lemma sort_sorted l : sorted (sort_by l).
Proof. induction l; cbn; [exact I|]. now apply insert_sorted. Qed.
Lemma sorted_unique l : forall l', Permutation l l' -> sorted l -> sorted l' -> NoDup (map t_offset l) -> l = l'.
Proof.
  induction l as [|t l IH]; intros l' P S S' D.
  - apply Permutation_nil in P. now subst.
  - destruct l' as [|u l']; [symmetry in P; apply Permutation_nil in P; discriminate|].
    cbn in S, S'. destruct S as (S1 & S2), S' as (S1' & S2'). cbn in D. apply NoDup_cons_iff in D. destruct D as (D1 & D2).
    assert (t = u) as ->.
    { assert (I1 : In u (t :: l)) by (eapply Permutation_in; [symmetry; exact P|now left]).
      assert (I2 : In t (u :: l')) by (eapply Permutation_in; [exact P|now left]).
      destruct I1 as [|I1]; [assumption|]. destruct I2 as [|I2]; [now symmetry|].
      rewrite Forall_forall in S1, S1'. specialize (S1 u I1). specialize (S1' t I2).
      exfalso. apply D1. replace (t_offset t) with (t_offset u) by lia. now apply in_map. }
    f_equal. apply IH; auto. eapply Permutation_cons_inv; eauto.
Qed.

Definition lookup1 (e : elf) (n : rstring) : res tuple :=
  match find_section e (utf8_enc n) with
  | None => Err EeMissing
  | Some s => if sh_type s =? SHT_NOBITS then Err EeValue else if sh_size s =? 0 then Err EeValue
              else Ok (n, sh_offset s, sh_size s)
  end.
Lemma lookup_Forall2 e names l : lookup_sections e names = Ok l <-> Forall2 (fun n t => lookup1 e n = Ok t) names l.
Proof.
  revert l. induction names as [|n names IH]; intros l; cbn [lookup_sections].
  - split; [intros [= <-]; constructor|]. inversion 1. reflexivity.
  - split.
    + destruct (find_section e (utf8_enc n)) as [s|] eqn:E; [|discriminate].
      destruct (sh_type s =? SHT_NOBITS) eqn:E1; [discriminate|]. destruct (sh_size s =? 0) eqn:E2; [discriminate|].
      intros H. apply bind_Ok in H. destruct H as (l' & H & E3). injection E3 as <-. constructor; [|now apply IH].
      unfold lookup1. now rewrite E, E1, E2.
    + inversion 1 as [|? t ? l' Ht H']; subst. unfold lookup1 in Ht.
      destruct (find_section e (utf8_enc n)) as [s|]; [|discriminate].
      destruct (sh_type s =? SHT_NOBITS); [discriminate|]. destruct (sh_size s =? 0); [discriminate|].
      apply IH in H'. rewrite H'. cbn [bind]. now injection Ht as <-.
Qed.
Lemma Forall2_perm {A B} (R : A -> B -> Prop) l l' m : Permutation l l' -> Forall2 R l m ->
  exists m', Permutation m m' /\ Forall2 R l' m'.
Proof.
  intros P. revert m. induction P as [|x l l' P IH|x y l|l l' l'' P1 IH1 P2 IH2]; intros m H.
  - inversion H; subst. exists []. auto.
  - inversion H as [|? b ? m1 H1 H2]; subst. destruct (IH _ H2) as (m' & P' & F). exists (b :: m'). auto.
  - inversion H as [|? b ? m1 H1 H2]; subst. inversion H2 as [|? b' ? m2 H3 H4]; subst.
    exists (b' :: b :: m2). split; [apply perm_swap|auto].
  - destruct (IH1 _ H) as (m1 & P1' & F1). destruct (IH2 _ F1) as (m2 & P2' & F2). exists m2. split; [etransitivity; eauto|auto].
Qed.

Lemma c55_order rest f C a l1 l2 d ts : Permutation l1 l2 ->
  resolved_sections rest (mkElfFile (el_data f) l1) = Ok ts -> NoDup (map t_offset ts) ->
  elf_digest rest C (mkElfFile (el_data f) l1) a = Ok d ->
  resolved_sections rest (mkElfFile (el_data f) l2) = Ok ts /\
  elf_digest rest C (mkElfFile (el_data f) l2) a = Ok d.
Proof.
  intros P Hr Hn Hd.
  assert (E : resolved_sections rest (mkElfFile (el_data f) l2) = Ok ts).
  { unfold resolved_sections, collect_sections in *. cbn [el_data el_signed] in *.
    apply bind_Ok in Hr. destruct Hr as (e & He & Hr). rewrite He. cbn [bind].
    apply bind_Ok in Hr. destruct Hr as (m & Hm & Hr). injection Hr as <-.
    apply lookup_Forall2 in Hm. destruct (Forall2_perm _ _ _ _ P Hm) as (m' & Pm & Hm').
    apply lookup_Forall2 in Hm'. rewrite Hm'. cbn [bind]. f_equal. symmetry. apply sorted_unique; auto using sort_sorted.
    rewrite !sort_perm. exact Pm. }
  split; [exact E|]. unfold elf_digest in *. rewrite E. rewrite Hr in Hd. exact Hd.
Qed.

(** What is resolved. *)
Lemma find_first e n s : find_section e n = Some s <-> first_named e n s.
Proof.
  unfold find_section, first_named. rewrite find_index_find.
  destruct (find_index (named (ef_strtab e) n) (ef_sections e)) as [i|] eqn:E.
  - destruct (proj1 (find_index_Some _ _ _) E) as ((s0 & H1 & H2) & H3). rewrite H1. split.
    + intros [= ->]. exists i. split; [exact H1|]. split; [now apply named_name|].
      intros j t Hj Ht Q. apply named_name in Q. rewrite (H3 j t Hj Ht) in Q. discriminate.
    + intros (k & K1 & K2 & K3). apply named_name in K2, H2.
      destruct (Nat.lt_trichotomy i k) as [L|[->|L]]; [|congruence|].
      * exfalso. apply (K3 i s0 L H1). exact H2.
      * rewrite (H3 k s L K1) in K2. discriminate.
  - split; [discriminate|]. intros (k & K1 & K2 & _). apply named_name in K2.
    apply find_index_None with (a := s) in E; [congruence|]. eapply nth_error_In; eauto.
Qed.
Lemma sorted_Strongly l : sorted l <-> StronglySorted (fun t u => t_offset t <= t_offset u) l.
Proof.
  induction l as [|t l IH]; cbn; [split; constructor|]. split.
  - intros (H1 & H2). constructor; [now apply IH|exact H1].
  - inversion 1; subst. split; [assumption|now apply IH].
Qed.
Lemma c55_resolved rest f ts : resolved_sections rest f = Ok ts -> exists e l,
  elf_parse rest (el_data f) = Ok e /\
  Forall2 (fun n t => exists s, first_named e (utf8_enc n) s /\ sh_type s <> SHT_NOBITS /\ sh_size s <> 0 /\
     t = (n, sh_offset s, sh_size s)) (el_signed f) l /\
  Permutation l ts /\ StronglySorted (fun t u => t_offset t <= t_offset u) ts.
Proof.
  unfold resolved_sections, collect_sections. intros H. apply bind_Ok in H. destruct H as (e & He & H).
  apply bind_Ok in H. destruct H as (l & Hl & H). injection H as <-. exists e, l. split; [exact He|]. split; [|split].
  - apply lookup_Forall2 in Hl. clear He. induction Hl as [|n t names l Ht Hl IH]; constructor; [|exact IH]. unfold lookup1 in Ht.
    destruct (find_section e (utf8_enc n)) as [s|] eqn:E; [|discriminate].
    destruct (N.eqb_spec (sh_type s) SHT_NOBITS); [discriminate|]. destruct (N.eqb_spec (sh_size s) 0); [discriminate|].
    injection Ht as <-. exists s. split; [now apply find_first|auto].
  - symmetry. apply sort_perm.
  - apply sorted_Strongly, sort_sorted.
Qed.
Lemma lookup_total e : forall names, (forall n, In n names -> exists s, first_named e (utf8_enc n) s /\ sh_type s <> SHT_NOBITS /\ sh_size s <> 0) ->
  exists l, lookup_sections e names = Ok l.
Proof.
  induction names as [|n names IH]; intros H; cbn; [eauto|].
  destruct (H n (or_introl eq_refl)) as (s & S1 & S2 & S3). apply find_first in S1. rewrite S1.
  destruct (N.eqb_spec (sh_type s) SHT_NOBITS); [contradiction|]. destruct (N.eqb_spec (sh_size s) 0); [contradiction|].
  destruct IH as (l & ->); [intros m Hm; apply H; now right|]. cbn [bind]. eauto.
Qed.
Lemma c55_resolves rest f e : elf_parse rest (el_data f) = Ok e ->
  (forall n, In n (el_signed f) -> exists s, first_named e (utf8_enc n) s /\ sh_type s <> SHT_NOBITS /\ sh_size s <> 0) ->
  exists ts, resolved_sections rest f = Ok ts.
Proof.
  intros He H. unfold resolved_sections, collect_sections. rewrite He. cbn [bind].
  destruct (lookup_total e _ H) as (l & ->). cbn [bind]. eauto.
Qed.

Lemma elf_final_eq C a cs : elf_digest_final C a (map (elf_digest_chunk C a) cs) = tree_digest (hash C a) cs.
Proof. unfold elf_digest_final, tree_digest. rewrite len_map. reflexivity. Qed.
Lemma flat_map_map {A B D} (f : A -> list B) (g : B -> D) l : flat_map (fun x => map g (f x)) l = map g (flat_map f l).
Proof. induction l as [|a l IH]; cbn; [reflexivity|]. now rewrite map_app, IH. Qed.
Definition elf_chunks (data : bytes) (l : list tuple) : list bytes :=
  flat_map (fun t => read_chunks full_reads (taken data (t_offset t) (t_size t))) l.
Lemma digest_elf_eq C data l a : digest_elf_sections C data l a = tree_digest (hash C a) (elf_chunks data l).
Proof. unfold digest_elf_sections. rewrite flat_map_map. apply elf_final_eq. Qed.

Lemma chunks_small data l : Forall (fun c => len c < U32) (elf_chunks data l).
Proof.
  unfold elf_chunks. induction l as [|t l IH]; cbn [flat_map]; [constructor|]. apply Forall_app. split; [|exact IH].
  pose proof (splits_len _ _ (read_chunks_splits full_reads (taken data (t_offset t) (t_size t)) full_reads_full)) as K.
  eapply Forall_impl; [|exact K]. cbn beta. unfold U32. lia.
Qed.
Lemma elf_chunks_spec data l : section_chunks data l (elf_chunks data l).
Proof.
  exists (map (fun t => read_chunks full_reads (taken data (t_offset t) (t_size t))) l). split.
  - induction l; cbn; constructor; [apply read_chunks_splits; exact full_reads_full|exact IHl].
  - unfold elf_chunks. apply flat_map_concat_map.
Qed.
Lemma section_chunks_concat data l cs : section_chunks data l cs -> concat cs = flat_map (section_bytes data) l.
Proof.
  intros (css & F & ->). induction F as [|t c l css H F IH]; cbn; [reflexivity|].
  rewrite concat_app, IH. f_equal. now apply splits_concat.
Qed.
Lemma section_chunks_small data l cs : section_chunks data l cs ->
  Forall (fun t => 0 < len (section_bytes data t) <= 1024 * 1024) l -> cs = map (section_bytes data) l.
Proof.
  intros (css & F & ->). induction F as [|t c l css H F IH]; intros G; cbn; [reflexivity|].
  apply Forall_cons_iff in G. destruct G as (G1 & G2). rewrite (IH G2).
  rewrite (splits_single _ (proj1 G1) (proj2 G1) _ H). reflexivity.
Qed.

Lemma c55_is_digest rest C f a d : elf_digest rest C f a = Ok d ->
  exists ts cs, resolved_sections rest f = Ok ts /\ section_chunks (el_data f) ts cs /\ d = tree_digest (hash C a) cs.
Proof.
  unfold elf_digest. intros H. apply bind_Ok in H. destruct H as (ts & Hr & H). injection H as <-.
  exists ts, (elf_chunks (el_data f) ts). split; [exact Hr|]. split; [apply elf_chunks_spec|apply digest_elf_eq].
Qed.
Lemma section_chunks_fun data l cs cs' : section_chunks data l cs -> section_chunks data l cs' -> cs = cs'.
Proof.
  intros (css & F & ->) (css' & F' & ->). f_equal. revert css' F'.
  induction F as [|t c l css H F IH]; intros css' F'; inversion F' as [|? c' ? css2 H' F2]; subst; [reflexivity|].
  rewrite (splits_fun _ _ _ H H'). f_equal. now apply IH.
Qed.

Lemma c55_binding rest1 rest2 C f1 f2 a d t1 t2 n :
  0 < n -> (forall x, len (hash C a x) = n) ->
  elf_digest rest1 C f1 a = Ok d -> elf_digest rest2 C f2 a = Ok d ->
  resolved_sections rest1 f1 = Ok t1 -> resolved_sections rest2 f2 = Ok t2 ->
  (exists cs1 cs2, section_chunks (el_data f1) t1 cs1 /\ section_chunks (el_data f2) t2 cs2 /\
     clash (hash C a) (tree_messages (hash C a) cs1) (tree_messages (hash C a) cs2)) \/
  (flat_map (section_bytes (el_data f1)) t1 = flat_map (section_bytes (el_data f2)) t2 /\
   (Forall (fun t => 0 < len (section_bytes (el_data f1) t) <= 1024 * 1024) t1 ->
    Forall (fun t => 0 < len (section_bytes (el_data f2) t) <= 1024 * 1024) t2 ->
    map (section_bytes (el_data f1)) t1 = map (section_bytes (el_data f2)) t2)).
Proof.
  intros Hn Hlen D1 D2 R1 R2.
  unfold elf_digest in D1, D2. rewrite R1 in D1. rewrite R2 in D2. cbn [bind] in D1, D2.
  rewrite digest_elf_eq in D1, D2. injection D1 as D1. injection D2 as D2. rewrite <- D2 in D1.
  destruct (tree_digest_inj _ _ _ _ Hn Hlen (chunks_small _ _) (chunks_small _ _) D1) as [K|K].
  - left. do 2 eexists. split; [apply elf_chunks_spec|]. split; [apply elf_chunks_spec|exact K].
  - right. split.
    + rewrite <- (section_chunks_concat _ _ _ (elf_chunks_spec (el_data f1) t1)).
      rewrite <- (section_chunks_concat _ _ _ (elf_chunks_spec (el_data f2) t2)). now rewrite K.
    + intros G1 G2. rewrite <- (section_chunks_small _ _ _ (elf_chunks_spec _ _) G1).
      rewrite <- (section_chunks_small _ _ _ (elf_chunks_spec _ _) G2). exact K.
Qed.

(** Splitting a section at a multiple of 1 MiB. *)
Lemma read_chunks_cut k : forall d1 d2, len d1 = N.of_nat k * CHUNK_SIZE ->
  read_chunks full_reads (d1 ++ d2) = read_chunks full_reads d1 ++ read_chunks full_reads d2.
Proof.
  intros d1 d2 H.
  assert (G : forall k d1 c1, len d1 = N.of_nat k * CHUNK_SIZE -> splits d1 c1 -> forall c2, splits d2 c2 -> splits (d1 ++ d2) (c1 ++ c2)).
  { clear. induction k as [|k IH]; intros d1 c1 H S1 c2 S2.
    - assert (d1 = []) as -> by (apply len_0; lia). apply splits_nil_inv in S1. now subst c1.
    - destruct S1 as [|d H1 H2|c d cs H1 H2 S1].
      + exfalso. unfold CHUNK_SIZE in H. cbn in H. change (len []) with 0 in H. lia.
      + assert (len d = 1024 * 1024) as L by (unfold CHUNK_SIZE in H; lia). cbn [app].
        destruct (N.eq_dec (len d2) 0) as [E|E].
        * apply len_0 in E. subst d2. apply splits_nil_inv in S2. subst c2. rewrite app_nil_r. now apply splits_last.
        * apply splits_more; [exact L|lia|exact S2].
      + rewrite <- app_assoc. cbn [app]. apply splits_more; [exact H1|rewrite len_app; lia|].
        apply IH; [|exact S1|exact S2]. rewrite len_app in H. unfold CHUNK_SIZE in *. lia. }
  apply (splits_fun (d1 ++ d2)); [apply read_chunks_splits, full_reads_full|].
  apply (G k); auto; apply read_chunks_splits, full_reads_full.
Qed.
Lemma taken_add data o s1 s2 : taken data o (s1 + s2) = taken data o s1 ++ taken data (o + s1) s2.
Proof. unfold taken. rewrite takeN_add, dropN_dropN. reflexivity. Qed.
Lemma c55_cut C data n m k o size a : o + N.of_nat k * CHUNK_SIZE + size <= len data ->
  digest_elf_sections C data [(n, o, N.of_nat k * CHUNK_SIZE + size)] a =
  digest_elf_sections C data [(n, o, N.of_nat k * CHUNK_SIZE); (m, o + N.of_nat k * CHUNK_SIZE, size)] a.
Proof.
  intros H. rewrite !digest_elf_eq. f_equal. unfold elf_chunks. cbn [flat_map t_offset t_size fst snd].
  rewrite !app_nil_r, taken_add. apply (read_chunks_cut k). unfold taken. rewrite len_takeN, len_dropN. lia.
Qed.

(** * C56 *)
Lemma trim_start_spec s : exists w, s = w ++ trim_start s /\ Forall (fun c => is_white c = true) w /\
  match trim_start s with [] => True | c :: _ => is_white c = false end.
Proof.
  induction s as [|c s (w & E & F & H)]; [exists []; split; [reflexivity|]; split; [constructor|exact I]|]. cbn [trim_start]. destruct (is_white c) eqn:W.
  - exists (c :: w). cbn [app]. split; [now f_equal|]. split; [now constructor|exact H].
  - exists []. split; [reflexivity|]. split; [constructor|exact W].
Qed.
Lemma trim_spec s : trimmed s (trim s).
Proof.
  unfold trim. destruct (trim_start_spec s) as (w & E & F & H).
  destruct (trim_start_spec (rev (trim_start s))) as (w' & E' & F' & H').
  set (t := trim_start (rev (trim_start s))) in *.
  assert (Es : trim_start s = rev t ++ rev w') by (rewrite <- rev_app_distr, <- E', rev_involutive; reflexivity).
  exists w, (rev w'). split; [rewrite E, Es at 1; reflexivity|]. split; [exact F|]. split; [apply Forall_rev; exact F'|].
  split.
  - intros c r Ec. rewrite Es, Ec in H. exact H.
  - intros c r Ec. apply (f_equal (@rev N)) in Ec. rewrite rev_involutive, rev_app_distr in Ec. cbn in Ec.
    rewrite Ec in H'. exact H'.
Qed.
Lemma trimmed_unique s t t' : trimmed s t -> trimmed s t' -> t = t'.
Proof.
  intros (a & c & E & Fa & Fc & H1 & H2) (a' & c' & E' & Fa' & Fc' & H1' & H2').
  assert (W : forall (x y : rstring) u v, x ++ u = y ++ v -> Forall (fun c => is_white c = true) x ->
     Forall (fun c => is_white c = true) y ->
     (forall c r, u = c :: r -> is_white c = false) -> (forall c r, v = c :: r -> is_white c = false) -> x = y /\ u = v).
  { clear. intros x. induction x as [|k x IH]; intros y u v E Fx Fy Hu Hv.
    - destruct y as [|k y]; [auto|]. cbn in E. subst u. exfalso. specialize (Hu k _ eq_refl).
      apply Forall_cons_iff in Fy. destruct Fy. congruence.
    - apply Forall_cons_iff in Fx. destruct Fx as (Kx & Fx). destruct y as [|k' y].
      + cbn in E. subst v. specialize (Hv k _ eq_refl). congruence.
      + cbn in E. injection E as <- E. apply Forall_cons_iff in Fy. destruct Fy as (_ & Fy).
        destruct (IH y u v E Fx Fy Hu Hv) as (-> & ->). auto. }
  assert (WR : forall (u v x y : rstring), u ++ x = v ++ y -> Forall (fun c => is_white c = true) x ->
     Forall (fun c => is_white c = true) y ->
     (forall c r, u = r ++ [c] -> is_white c = false) -> (forall c r, v = r ++ [c] -> is_white c = false) -> u = v).
  { clear - W. intros u v x y E Fx Fy Hu Hv. apply (f_equal (@rev N)) in E. rewrite !rev_app_distr in E.
    destruct (W _ _ _ _ E (Forall_rev Fx) (Forall_rev Fy)) as (_ & Q).
    - intros c r Q. apply (Hu c (rev r)). rewrite <- (rev_involutive u), Q. reflexivity.
    - intros c r Q. apply (Hv c (rev r)). rewrite <- (rev_involutive v), Q. reflexivity.
    - rewrite <- (rev_involutive u), Q, rev_involutive. reflexivity. }
  destruct t as [|k t].
  - destruct t' as [|k' t']; [reflexivity|]. exfalso.
    assert (In k' s). { rewrite E'. apply in_or_app. right. now left. }
    rewrite E in H. cbn in H. apply in_app_or in H. rewrite Forall_forall in Fa, Fc.
    assert (is_white k' = true) by (destruct H; auto). rewrite (H1' k' t' eq_refl) in H0. discriminate.
  - destruct t' as [|k' t'].
    + exfalso. assert (In k s). { rewrite E. apply in_or_app. right. now left. }
      rewrite E' in H. cbn in H. apply in_app_or in H. rewrite Forall_forall in Fa', Fc'.
      assert (is_white k = true) by (destruct H; auto). rewrite (H1 k t eq_refl) in H0. discriminate.
    + rewrite E in E'. destruct (W _ _ _ _ E' Fa Fa') as (-> & Q).
      * intros q r Q. cbn in Q. injection Q as <- _. eapply H1; reflexivity.
      * intros q r Q. cbn in Q. injection Q as <- _. eapply H1'; reflexivity.
      * apply (WR _ _ _ _ Q Fc Fc' H2 H2').
Qed.

Lemma lower_N a : Byte.to_N (lower a) =
  if (65 <=? Byte.to_N a) && (Byte.to_N a <=? 90) then Byte.to_N a + 32 else Byte.to_N a.
Proof. destruct a; reflexivity. Qed.
Lemma lower_spec a b : lower a = lower b <-> same_letter a b.
Proof.
  assert (I : forall x y, Byte.to_N x = Byte.to_N y <-> x = y).
  { intros x y. split; [|now intros ->]. intros H. apply (f_equal Byte.of_N) in H. rewrite !Byte.of_to_N in H. now injection H. }
  rewrite <- I, !lower_N. unfold same_letter. rewrite <- I.
  destruct (N.leb_spec 65 (Byte.to_N a)), (N.leb_spec (Byte.to_N a) 90), (N.leb_spec 65 (Byte.to_N b)), (N.leb_spec (Byte.to_N b) 90);
    cbn [andb]; lia.
Qed.
Lemma eq_ignore_case_spec a b : eq_ignore_case a b = true <-> Forall2 same_letter a b.
Proof.
  unfold eq_ignore_case. rewrite beq_eq. revert b. induction a as [|x a IH]; intros [|y b]; cbn [map]; split; intros H;
    try discriminate; try (inversion H; fail); try constructor; try reflexivity.
  - injection H as H1 H2. now apply lower_spec.
  - injection H as H1 H2. now apply IH.
  - inversion H; subst. f_equal; [now apply lower_spec|now apply IH].
Qed.
Lemma trim_iff s t : trimmed s t <-> trim s = t.
Proof.
  split; [intros H; apply (trimmed_unique s); [apply trim_spec|exact H]|intros <-; apply trim_spec].
Qed.

Lemma c56 f sections g : set_signed_sections f sections = Ok g <->
  el_data g = el_data f /\
  el_signed g <> [] /\
  (exists ts, Forall2 trimmed sections ts /\ el_signed g = filter nonempty ts) /\
  Forall (fun s => ~ Forall2 same_letter (utf8_enc s) KSU_SIGN_SECTION) (el_signed g).
Proof.
  unfold set_signed_sections. fold (@nonempty N).
  change (fun s : rstring => negb match s with [] => true | _ :: _ => false end) with (@nonempty N).
  set (l := filter nonempty (map trim sections)).
  assert (T : forall ts, Forall2 trimmed sections ts <-> ts = map trim sections).
  { clear. induction sections as [|s r IH]; intros [|t ts]; cbn [map]; split; intros H; try discriminate; try (inversion H; fail); try constructor; auto.
    - inversion H; subst. f_equal; [symmetry; now apply trim_iff|now apply IH].
    - injection H as -> _. apply trim_spec.
    - injection H as _ ->. now apply IH. }
  assert (E : existsb (fun s => eq_ignore_case (utf8_enc s) KSU_SIGN_SECTION) l = false <->
              Forall (fun s => ~ Forall2 same_letter (utf8_enc s) KSU_SIGN_SECTION) l).
  { clearbody l. induction l as [|s l IH]; cbn [existsb]; [split; constructor|].
    rewrite orb_false_iff, Forall_cons_iff, IH, <- eq_ignore_case_spec.
    now rewrite not_true_iff_false. }
  split.
  - intros H. destruct l as [|s l'] eqn:El; [discriminate|].
    match type of H with (if ?q then _ else _) = _ => destruct q eqn:Ex; [discriminate|] end. injection H as <-. cbn [el_data el_signed].
    split; [reflexivity|]. split; [discriminate|]. split; [|now apply E].
    exists (map trim sections). split; [now apply T|]. symmetry. exact El.
  - intros (H1 & H2 & (ts & H3 & H4) & H5). apply T in H3. subst ts. fold l in H4. clearbody l. rewrite H4 in H2, H5.
        destruct l as [|s l']; [now contradiction H2|]. apply E in H5. rewrite H5. f_equal. destruct g; cbn in *; now subst.
Qed.
Lemma c56_err f sections : (exists g, set_signed_sections f sections = Ok g) \/ set_signed_sections f sections = Err EeValue.
Proof.
  unfold set_signed_sections. set (l := filter _ _). destruct l as [|s l]; [now right|].
  match goal with |- context [if ?q then _ else _] => destruct q; [now right|left; eauto] end.
Qed.
