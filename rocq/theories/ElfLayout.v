(** ElfLayout.v - the bytes [elf_write_with_signature] produces. *)
From Verif Require Import Base BaseFacts Algorithms Utf8 SigningBlock Digest Signable Elf ElfFacts.
Open Scope N_scope.

(** * Padding *)
Lemma align_to_ge v a : v <= align_to v a.
Proof. unfold align_to. destruct (a =? 0); [lia|]. cbv zeta. destruct (_ =? 0); lia. Qed.
Lemma align_to_mod v a : a <> 0 -> align_to v a mod a = 0.
Proof.
  intros Ha. unfold align_to. replace (a =? 0) with false by (symmetry; apply N.eqb_neq; auto). cbv zeta.
  destruct (v mod a =? 0) eqn:E; [now apply N.eqb_eq in E|].
  pose proof (N.mod_lt v a Ha). rewrite (N.div_mod v a Ha) at 1.
  replace (a * (v / a) + v mod a + (a - v mod a)) with ((v / a + 1) * a) by lia. apply N.mod_mul; auto.
Qed.
Lemma resize_grow b n : len b <= n -> n < I64 -> resize b n = Ok (b ++ zeros (n - len b)).
Proof.
  intros H1 H2. unfold resize. replace (I64 <=? n) with false by (symmetry; apply N.leb_gt; auto).
  now rewrite takeN_all.
Qed.
Lemma resize_take o tb m : len o <= tb ->
  takeN tb (takeN (tb + m) o ++ zeros (tb + m - len o)) = o ++ zeros (tb - len o).
Proof.
  intros G. rewrite (takeN_all (tb + m)) by lia. rewrite takeN_app_r by lia. f_equal. unfold zeros. rewrite takeN_firstn.
  replace (N.to_nat (tb + m - len o)) with (N.to_nat (tb - len o) + N.to_nat m)%nat by lia.
  rewrite repeat_app, firstn_app, repeat_length, Nat.sub_diag, firstn_O, app_nil_r.
  apply firstn_all2. rewrite repeat_length. lia.
Qed.
Lemma append_aligned_ok t d a o off : append_aligned t d a = Ok (o, off) ->
  exists g, o = t ++ zeros g ++ d /\ off = len t + g /\ off mod N.max a 1 = 0 /\
            off = align_to (len t) (N.max a 1).
Proof.
  unfold append_aligned. intros H. apply bind_Ok in H. destruct H as (t' & H & E). injection E as <- <-.
  pose proof (align_to_ge (len t) (N.max a 1)). pose proof (align_to_mod (len t) (N.max a 1) ltac:(lia)) as M.
  destruct (len t <? align_to (len t) (N.max a 1)) eqn:L.
  - apply N.ltb_lt in L. unfold resize in H. destruct (I64 <=? _) eqn:L2; [discriminate|]. injection H as <-.
    rewrite takeN_all by lia. rewrite len_app, len_zeros. exists (align_to (len t) (N.max a 1) - len t).
    rewrite <- app_assoc.
    replace (len t + (align_to (len t) (N.max a 1) - len t)) with (align_to (len t) (N.max a 1)) by lia. auto.
  - apply N.ltb_ge in L. injection H as <-. exists 0. cbn [zeros N.to_nat repeat app].
    assert (align_to (len t) (N.max a 1) = len t) as E by lia. rewrite E in M.
    rewrite N.add_0_r, E. auto.
Qed.
Lemma append_aligned_ok' t d a : align_to (len t) (N.max a 1) < I64 ->
  exists g, append_aligned t d a = Ok (t ++ zeros g ++ d, len t + g).
Proof.
  intros H. unfold append_aligned. pose proof (align_to_ge (len t) (N.max a 1)).
  destruct (len t <? align_to (len t) (N.max a 1)) eqn:L.
  - apply N.ltb_lt in L. rewrite resize_grow by (auto; lia). cbn [bind]. rewrite len_app, len_zeros, <- app_assoc. eauto.
  - exists 0. cbn [zeros N.to_nat repeat app bind]. now rewrite N.add_0_r.
Qed.
Lemma append_aligned_not_err t d a e : append_aligned t d a <> Err e.
Proof.
  unfold append_aligned. destruct (_ <? _); [|discriminate]. unfold resize. destruct (_ <=? _); discriminate.
Qed.

Lemma length_update {A} i f (l : list A) : length (update_nth i f l) = length l.
Proof. revert i. induction l as [|a l IH]; intros [|i]; cbn; auto. Qed.
Lemma len_update {A} i f (l : list A) : len (update_nth i f l) = len l.
Proof. unfold len. now rewrite length_update. Qed.
Lemma nth_update {A} i f (l : list A) j :
  nth_error (update_nth i f l) j = if Nat.eqb j i then option_map f (nth_error l j) else nth_error l j.
Proof.
  revert i j. induction l as [|a l IH]; intros [|i] [|j]; cbn; auto.
  - now destruct (Nat.eqb j i).
Qed.
Lemma Forall_update {A} (P : A -> Prop) i f l : Forall P l -> (forall s, P s -> P (f s)) -> Forall P (update_nth i f l).
Proof.
  intros H Hf. revert i. induction H as [|a l Ha H IH]; intros [|i]; cbn; constructor; auto.
Qed.

Lemma find_index_find {A} f (l : list A) : find f l = match find_index f l with Some i => nth_error l i | None => None end.
Proof. induction l as [|a l IH]; cbn; [reflexivity|]. destruct (f a); [reflexivity|]. rewrite IH. now destruct (find_index f l). Qed.
Lemma find_index_Some {A} f (l : list A) i : find_index f l = Some i <->
  (exists a, nth_error l i = Some a /\ f a = true) /\ forall j a, (j < i)%nat -> nth_error l j = Some a -> f a = false.
Proof.
  revert i. induction l as [|a l IH]; intros i; cbn.
  - split; [discriminate|]. intros ((a & H & _) & _). destruct i; discriminate.
  - destruct (f a) eqn:E.
    + split.
      * intros [= <-]. split; [exists a; auto|]. intros; lia.
      * intros (H & H2). destruct i as [|i]; [reflexivity|]. specialize (H2 O a ltac:(lia) eq_refl). congruence.
    + split.
      * intros H. destruct (find_index f l) as [k|] eqn:E2; [|discriminate]. injection H as <-.
        destruct (proj1 (IH k) eq_refl) as (H1 & H2). split; [exact H1|]. intros [|j] b Hj Hb; cbn in Hb.
        -- injection Hb as <-. exact E.
        -- eapply H2; [|exact Hb]. lia.
      * intros ((b & Hb & Hf) & H2). destruct i as [|i]; cbn in Hb; [congruence|].
        enough (find_index f l = Some i) as -> by reflexivity. apply IH.
        split; [eauto|]. intros j c Hj Hc. apply (H2 (S j) c); [lia|exact Hc].
Qed.
Lemma find_index_None {A} f (l : list A) : find_index f l = None <-> forall a, In a l -> f a = false.
Proof.
  induction l as [|a l IH]; cbn; [split; [contradiction|reflexivity]|].
  destruct (f a) eqn:E.
  - split; [discriminate|]. intros H. specialize (H a (or_introl eq_refl)). congruence.
  - destruct (find_index f l); split; intros H; try discriminate.
    + exfalso. enough (Some n = None) by discriminate. apply IH. auto.
    + intros b [<-|Hb]; [exact E|]. now apply IH.
    + reflexivity.
Qed.

(** * Layout *)
Record layout (rest : bytes -> bool) (f : elf_file) (b : signing_block) := mkLayout {
  ly_e : elf; ly_sh : shdr; ly_str : bytes; ly_g1 : N; ly_mid : bytes; ly_pad : N;
  ly_secs1 : list shdr; ly_secs : list shdr; ly_name : N;
  ly_parse : elf_parse rest (el_data f) = Ok ly_e;
  ly_hdr : shstrtab_header ly_e = Some ly_sh;
  ly_range : get_range (el_data f) (sh_offset ly_sh) (sh_offset ly_sh + sh_size ly_sh) = Some ly_str;
  ly_name_lt : ly_name < U32;
  ly_case :
    (exists i s, find_section_index ly_e KSU_SIGN_SECTION = Some i /\ nth_error (ef_sections ly_e) i = Some s /\
      ly_name = sh_name s /\ ly_mid = [] /\ ly_secs1 = ef_sections ly_e /\
      ly_secs = update_nth i (fun _ => sign_shdr ly_name (len (el_data f) + ly_g1) (len (block_to_u8 b))
                                 (align_for_container (cx_class (ef_ctx ly_e)))) ly_secs1) \/
    (exists g2, find_section_index ly_e KSU_SIGN_SECTION = None /\
      ly_name = len ly_str /\ ly_mid = zeros g2 ++ ly_str ++ KSU_SIGN_SECTION ++ [x00] /\
      ly_secs1 = update_nth (N.to_nat (eh_shstrndx (ef_header ly_e)))
        (fun s => with_table s (len (el_data f) + ly_g1 + len (block_to_u8 b) + g2) (len ly_str + 10)) (ef_sections ly_e) /\
      ly_secs = ly_secs1 ++ [sign_shdr ly_name (len (el_data f) + ly_g1) (len (block_to_u8 b))
                                 (align_for_container (cx_class (ef_ctx ly_e)))]);
  ly_num : len ly_secs < U16;
  ly_bound : len (el_data f) + ly_g1 + len (block_to_u8 b) + len ly_mid + ly_pad +
             shdr_size (cx_class (ef_ctx ly_e)) * len ly_secs < I64 }.

Definition lay_bytes rest f b (l : layout rest f b) : bytes :=
    ehdr_to_u8 (ef_ctx (ly_e _ _ _ l)) (with_sections (ef_header (ly_e _ _ _ l))
       (len (el_data f) + (ly_g1 _ _ _ l) + len (block_to_u8 b) + len (ly_mid _ _ _ l) + (ly_pad _ _ _ l))
       (shdr_size (cx_class (ef_ctx (ly_e _ _ _ l)))) (len (ly_secs _ _ _ l))) ++
    dropN (ehdr_size (cx_class (ef_ctx (ly_e _ _ _ l))))
      (el_data f ++ zeros (ly_g1 _ _ _ l) ++ block_to_u8 b ++ (ly_mid _ _ _ l) ++ zeros (ly_pad _ _ _ l) ++
       flat_map (shdr_to_u8 (ef_ctx (ly_e _ _ _ l))) (ly_secs _ _ _ l)).

Lemma write_layout rest f b out : elf_write_with_signature rest f b = Ok out -> exists l : layout rest f b, out = lay_bytes _ _ _ l.
Proof.
  unfold elf_write_with_signature. intros H.
  apply bind_Ok in H. destruct H as (e & He & H).
  apply bind_Ok in H. destruct H as (shstr & Hs & H).
  unfold load_shstrtab in Hs. apply bind_Ok in Hs. destruct Hs as (sh & Hh & Hs).
  rewrite Hh in H. cbn [bind] in H. apply of_option_Ok in Hh.
  destruct (U64 <=? sh_offset sh + sh_size sh); [discriminate|]. apply of_option_Ok in Hs.
  apply bind_Ok in H. destruct H as ([out1 so] & H1 & H).
  apply append_aligned_ok in H1. destruct H1 as (g1 & -> & -> & _).
  assert (Hl : len shstr = sh_size sh). { apply get_range_len in Hs. lia. }
  unfold existing_name_offset, find_section in H. rewrite find_index_find in H.
  unfold find_section_index in H.
  destruct (find_index (named (ef_strtab e) KSU_SIGN_SECTION) (ef_sections e)) as [i|] eqn:Ei.
  - destruct (proj1 (find_index_Some _ _ _) Ei) as ((s & Hsi & Hn) & _). rewrite Hsi in H. cbn [option_map] in H.
    rewrite Hl, N.eqb_refl in H. cbn [bind] in H.
    destruct (U32 <=? sh_name s) eqn:LN; [discriminate|]. apply N.leb_gt in LN. cbv zeta in H.
    match type of H with context [update_nth i ?g ?l] => set (secs := update_nth i g l) in * end.
    destruct (U64 <=? shdr_size _ * len secs) eqn:L1; [discriminate|].
    apply bind_Ok in H. destruct H as (o3 & Ho3 & H).
    destruct (U16 <=? len secs) eqn:L2; [discriminate|]. apply N.leb_gt in L2. injection H as H.
    set (o2 := el_data f ++ zeros g1 ++ block_to_u8 b) in *.
    set (tb := align_to (len o2) (N.max (shdr_size (cx_class (ef_ctx e))) 8)) in *.
    pose proof (align_to_ge (len o2) (N.max (shdr_size (cx_class (ef_ctx e))) 8)) as G. fold tb in G.
    unfold resize in Ho3. destruct (I64 <=? _) eqn:L3; [discriminate|]. apply N.leb_gt in L3. injection Ho3 as <-.
    assert (Lo2 : len o2 = len (el_data f) + g1 + len (block_to_u8 b)).
    { unfold o2. rewrite !len_app, len_zeros. lia. }
    assert (T : takeN tb (takeN (tb + shdr_size (cx_class (ef_ctx e)) * len secs) o2 ++
       zeros (tb + shdr_size (cx_class (ef_ctx e)) * len secs - len o2)) = o2 ++ zeros (tb - len o2)).
    { now apply resize_take. }
    rewrite T in H.
    unshelve eexists (mkLayout rest f b e sh shstr g1 [] (tb - len o2) (ef_sections e) secs (sh_name s)
       He Hh Hs LN _ L2 _).
    + left. exists i, s. repeat split; auto.
    + rewrite len_nil. lia.
    + rewrite <- H. unfold lay_bytes. cbn [ly_e ly_g1 ly_mid ly_pad ly_secs].
      rewrite len_nil, N.add_0_r, <- Lo2. replace (len o2 + (tb - len o2)) with tb by lia.
      unfold o2. rewrite <- !app_assoc. reflexivity.
  - cbn [option_map] in H.
    assert (L10 : len (shstr ++ KSU_SIGN_SECTION ++ [x00]) = len shstr + 10) by (rewrite !len_app; reflexivity).
    remember (shstr ++ KSU_SIGN_SECTION ++ [x00]) as str2 eqn:E2.
    replace (len str2 =? sh_size sh) with false in H
      by (symmetry; apply N.eqb_neq; rewrite L10; lia).
    apply bind_Ok in H. destruct H as ([o2 secs1] & H2 & H).
    apply bind_Ok in H2. destruct H2 as ([o2' no] & H2 & H3). injection H3 as <- <-.
    apply append_aligned_ok in H2. destruct H2 as (g2 & -> & -> & _).
    destruct (U32 <=? len shstr) eqn:LN; [discriminate|]. apply N.leb_gt in LN. cbv zeta in H.
    match type of H with context [update_nth ?i ?g ?l ++ [?n]] => set (secs := update_nth i g l ++ [n]) in * end.
    destruct (U64 <=? shdr_size _ * len secs) eqn:L1; [discriminate|].
    apply bind_Ok in H. destruct H as (o3 & Ho3 & H).
    destruct (U16 <=? len secs) eqn:L2; [discriminate|]. apply N.leb_gt in L2. injection H as H.
    set (o2 := (el_data f ++ zeros g1 ++ block_to_u8 b) ++ zeros g2 ++ str2) in *.
    set (tb := align_to (len o2) (N.max (shdr_size (cx_class (ef_ctx e))) 8)) in *.
    pose proof (align_to_ge (len o2) (N.max (shdr_size (cx_class (ef_ctx e))) 8)) as G. fold tb in G.
    unfold resize in Ho3. destruct (I64 <=? _) eqn:L3; [discriminate|]. apply N.leb_gt in L3. injection Ho3 as <-.
    set (mid := zeros g2 ++ str2) in *.
    assert (Lo2 : len o2 = len (el_data f) + g1 + len (block_to_u8 b) + len mid).
    { unfold o2. rewrite !len_app, len_zeros. lia. }
    assert (T : takeN tb (takeN (tb + shdr_size (cx_class (ef_ctx e)) * len secs) o2 ++
       zeros (tb + shdr_size (cx_class (ef_ctx e)) * len secs - len o2)) = o2 ++ zeros (tb - len o2)).
    { now apply resize_take. }
    rewrite T in H.
    unshelve eexists (mkLayout rest f b e sh shstr g1 mid (tb - len o2) _ secs (len shstr)
       He Hh Hs LN _ L2 _).
    2:{ right. exists g2. split; [exact Ei|]. split; [reflexivity|]. split; [unfold mid; now rewrite E2|]. split; [reflexivity|].
        unfold secs. rewrite L10. rewrite !len_app, len_zeros. 
        replace (len (el_data f) + (g1 + len (block_to_u8 b)) + g2) with (len (el_data f) + g1 + len (block_to_u8 b) + g2) by lia.
        reflexivity. }
    + lia.
    + rewrite <- H. unfold lay_bytes. cbn [ly_e ly_g1 ly_mid ly_pad ly_secs].
      rewrite <- Lo2. replace (len o2 + (tb - len o2)) with tb by lia.
      unfold o2. rewrite <- !app_assoc. reflexivity.
Qed.
