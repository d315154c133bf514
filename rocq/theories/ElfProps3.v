(** ElfProps3.v - when writing a signature into an ELF file can panic. *)
From Verif Require Import Base BaseFacts Algorithms Utf8 SigningBlock Digest Signable Elf ElfFacts ElfLayout ElfSpec ElfProps
  Wire BlockFacts Spec PropBlockFacts ModuleFacts ZipSpec ElfProps2.
Open Scope N_scope.

Lemma align_to_lt v a : 0 < a -> align_to v a < v + a.
Proof.
  intros H. unfold align_to. destruct (N.eqb_spec a 0) as [->|E]; [lia|]. cbv zeta.
  destruct (N.eqb_spec (v mod a) 0); [lia|]. pose proof (N.mod_lt v a E). lia.
Qed.
Lemma append_total t d a : len t + N.max a 1 <= I64 ->
  exists g, append_aligned t d a = Ok (t ++ zeros g ++ d, len t + g) /\ len t + g < len t + N.max a 1.
Proof.
  intros H. pose proof (align_to_lt (len t) (N.max a 1) ltac:(lia)) as L.
  destruct (append_aligned_ok' t d a) as (g & E); [lia|]. exists g. split; [exact E|].
  apply append_aligned_ok in E. destruct E as (g' & _ & E1 & _ & E2). lia.
Qed.
Lemma read_shdrs_len x data : forall n off l, read_shdrs x data off n = Some l -> length l = n.
Proof.
  induction n as [|n IH]; intros off l H; cbn in H; [now injection H as <-|].
  destruct (read_shdr x data off); [|discriminate]. destruct (read_shdrs _ _ _ n) eqn:E; [|discriminate].
  injection H as <-. cbn. f_equal. eauto.
Qed.
Lemma sections_bound rest data e : elf_parse rest data = Ok e ->
  shdr_size (cx_class (ef_ctx e)) * len (ef_sections e) <= len data.
Proof.
  intros H. apply elf_parse_inv in H. destruct H as (_ & H & _). unfold parse_shdrs in H.
  set (z := shdr_size _) in *. assert (Z : 0 < z) by (unfold z; destruct (cx_class _); reflexivity).
  destruct (_ =? 0); [injection H as <-; change (len (@nil shdr)) with 0; lia|].
  destruct (read_shdr _ _ _) as [s0|] eqn:E0; [|discriminate]. cbv zeta in H.
  match type of H with (if _ <? ?c then _ else _) = _ => set (n := c) in * end.
  destruct (N.ltb_spec (len data / z) n) as [K|K]; [discriminate|].
  destruct (read_shdrs _ _ _ _) as [l|] eqn:E; [|discriminate]. injection H as <-.
  apply read_shdrs_len in E. rewrite len_cons.
  assert (len l = n - 1) by (unfold len; rewrite E; lia).
  unfold read_shdr in E0. destruct (get_range _ _ _) as [r|] eqn:G; [|discriminate]. fold z in G. apply get_range_spec in G.
  destruct (N.eq_dec n 0) as [->|N0]; [lia|].
  apply (N.mul_le_mono_l _ _ z) in K. pose proof (N.mul_div_le (len data) z ltac:(lia)). lia.
Qed.

Lemma c68_safe rest f b e : elf_parse rest (el_data f) = Ok e ->
  len (el_data f) <= 2 ^ 59 -> len (block_to_u8 b) <= 2 ^ 59 ->
  (forall s, shstrtab_header e = Some s -> sh_addralign s <= 2 ^ 62) ->
  elf_write_with_signature rest f b <> Panic.
Proof.
  intros He Hd Hb Ha. unfold elf_write_with_signature. rewrite He. cbn [bind].
  pose proof (sections_bound _ _ _ He) as Hsec.
  unfold load_shstrtab. destruct (shstrtab_header e) as [sh|]; [|discriminate]. cbn [of_option bind].
  specialize (Ha sh eq_refl). destruct (U64 <=? _); [discriminate|].
  destruct (get_range _ _ _) as [shstr|] eqn:G; [|discriminate]. cbn [of_option bind].
  assert (Hs : len shstr <= len (el_data f)).
  { apply get_range_spec in G. destruct G as (_ & _ & ->). rewrite len_takeN, len_dropN. lia. }
  set (z := shdr_size (cx_class (ef_ctx e))) in *.
  assert (Z : 0 < z <= 64) by (unfold z; destruct (cx_class (ef_ctx e)); cbn; lia).
  assert (AL : align_for_container (cx_class (ef_ctx e)) <= 8) by (destruct (cx_class (ef_ctx e)); cbn; lia).
  change (2 ^ 59) with 576460752303423488 in *. change (2 ^ 62) with 4611686018427387904 in *.
  destruct (append_total (el_data f) (block_to_u8 b) (align_for_container (cx_class (ef_ctx e)))) as (g1 & -> & Hg1); [unfold I64; lia|].
  cbn [bind].
  set (o1 := el_data f ++ zeros g1 ++ block_to_u8 b).
  assert (L1 : len o1 <= len (el_data f) + 8 + len (block_to_u8 b)) by (unfold o1; rewrite !len_app, len_zeros; lia).
  match goal with |- context [let '(n, s) := ?q in _] => assert (P : exists n s, q = (n, s) /\ len s <= len shstr + 10) end.
  { destruct (existing_name_offset _ _); do 2 eexists; (split; [reflexivity|]); [lia|].
    rewrite !len_app. change (len KSU_SIGN_SECTION) with 9. change (len [x00]) with 1. lia. }
  destruct P as (n & s & -> & Ls). cbv beta iota zeta.
  assert (P : exists o2 secs, (if len s =? sh_size sh then Ok (o1, ef_sections e) else
       do '(o, new_offset) <- append_aligned o1 s (N.max (sh_addralign sh) 1);
       Ok (o, update_nth (N.to_nat (eh_shstrndx (ef_header e)))
                (fun s0 => with_table s0 new_offset (len s)) (ef_sections e))) = Ok (o2, secs) /\
     len o2 <= len o1 + 4611686018427387904 + len s /\ len secs = len (ef_sections e)).
  { destruct (_ =? _); [exists o1, (ef_sections e); repeat split; lia|].
    destruct (append_total o1 s (N.max (sh_addralign sh) 1)) as (g2 & -> & Hg2); [unfold I64; lia|]. cbn [bind].
    do 2 eexists. split; [reflexivity|]. rewrite len_update, !len_app, len_zeros. split; [lia|reflexivity]. }
  destruct P as (o2 & secs & P & L2 & L3).
  match goal with |- bind ?m _ <> _ => replace m with (Ok (o2, secs)) by (symmetry; exact P) end. cbn [bind].
  destruct (U32 <=? n); [discriminate|].
  match goal with |- context [z * len ?q] => set (ss := q) end.
  assert (L4 : len ss <= len (ef_sections e) + 1).
  { unfold ss. destruct (find_section_index _ _); [rewrite len_update; lia|]. rewrite len_app, L3.
    change (len [sign_shdr n (len (el_data f) + g1) (len (block_to_u8 b)) (align_for_container (cx_class (ef_ctx e)))]) with 1. lia. }
  destruct (U64 <=? _); [discriminate|].
  unfold resize. match goal with |- context [I64 <=? ?v] => destruct (N.leb_spec I64 v) as [K|K] end.
  - exfalso. pose proof (align_to_lt (len o2) (N.max z 8) ltac:(lia)).
    assert (z * len ss <= z * (len (ef_sections e) + 1)) by (apply N.mul_le_mono_l; lia). unfold I64 in K. lia.
  - cbn [bind]. destruct (U16 <=? _); discriminate.
Qed.

Lemma c68_panics rest f b e s t : elf_parse rest (el_data f) = Ok e -> shstrtab_header e = Some s ->
  contents (el_data f) s = Some t -> find_section e KSU_SIGN_SECTION = None ->
  len (el_data f) + 8 <= I64 -> sh_offset s + sh_size s < U64 -> len (el_data f) + len (block_to_u8 b) + 8 < sh_addralign s ->
  I64 <= sh_addralign s -> elf_write_with_signature rest f b = Panic.
Proof.
  intros He Hs Ht Hf Hd Ho Hx Ha. unfold elf_write_with_signature. rewrite He. cbn [bind].
  unfold load_shstrtab. rewrite Hs. cbn [of_option bind].
  destruct (N.leb_spec U64 (sh_offset s + sh_size s)); [lia|]. unfold contents in Ht. rewrite Ht. cbn [of_option bind].
  assert (AL : align_for_container (cx_class (ef_ctx e)) <= 8) by (destruct (cx_class (ef_ctx e)); cbn; lia).
  destruct (append_total (el_data f) (block_to_u8 b) (align_for_container (cx_class (ef_ctx e)))) as (g1 & -> & Hg1); [lia|].
  cbn [bind]. unfold existing_name_offset. rewrite Hf. cbn [option_map].
  assert (L : len (t ++ KSU_SIGN_SECTION ++ [x00]) = len t + 10) by (rewrite !len_app; reflexivity).
  apply get_range_len in Ht.
  remember (t ++ KSU_SIGN_SECTION ++ [x00]) as t2 eqn:E2. clear E2.
  destruct (N.eqb_spec (len t2) (sh_size s)); [lia|].
  unfold append_aligned at 1. cbv zeta.
  set (o1 := el_data f ++ zeros g1 ++ block_to_u8 b).
  assert (L1 : 0 < len o1 < sh_addralign s).
  { unfold o1. rewrite !len_app, len_zeros.
    assert (0 < len (el_data f)). { destruct (elf_parse_inv _ _ _ He) as (P & _). destruct (parse_ehdr_inv _ _ _ P) as (_ & Q & _).
      destruct (cx_class (ef_ctx e)); cbn in Q; lia. } lia. }
  assert (A : align_to (len o1) (N.max (N.max (sh_addralign s) 1) 1) = sh_addralign s).
  { replace (N.max (N.max (sh_addralign s) 1) 1) with (sh_addralign s) by (unfold I64 in Ha; lia).
    unfold align_to. destruct (N.eqb_spec (sh_addralign s) 0); [lia|]. cbv zeta. rewrite N.mod_small by lia.
    destruct (N.eqb_spec (len o1) 0); lia. }
  rewrite A. destruct (N.ltb_spec (len o1) (sh_addralign s)); [|lia]. unfold resize.
  destruct (N.leb_spec I64 (sh_addralign s)); [reflexivity|lia].
Qed.

(** * Section names are the C strings of the name table *)
Lemma until_nul_no b : ~ In x00 (until_nul b).
Proof.
  induction b as [|a b IH]; cbn; [auto|]. destruct (Byte.eqb a x00) eqn:E; [auto|]. intros [->|H]; [discriminate|auto].
Qed.
Lemma strings_floor : forall n i t l off, strings n i t = Some l -> last t x01 = x00 -> i <= off < i + len t ->
  exists b0 s0 pre post, floor_entry l off = Some (b0, s0) /\ t = pre ++ s0 ++ x00 :: post /\ i + len pre = b0 /\
    b0 <= off <= b0 + len s0 /\ ~ In x00 s0.
Proof.
  induction n as [|n IH]; intros i t l off H Ht Ho.
  - destruct t; [discriminate|discriminate].
  - destruct t as [|a t]; [discriminate|]. cbn [strings] in H.
    destruct (until_nul_split _ Ht) as (r & E & Er). set (s := until_nul (a :: t)) in *.
    destruct (utf8_dec s); [|discriminate].
    assert (Ed : dropN (len s + 1) (a :: t) = r).
    { rewrite E. change (x00 :: r) with ([x00] ++ r). rewrite app_assoc. apply dropN_app_eq. now rewrite len_app. }
    assert (El : len (a :: t) = len s + 1 + len r).
    { rewrite E, len_app, len_cons. lia. }
    rewrite Ed in H. destruct (strings n (i + len s + 1) r) as [l'|] eqn:S; [|discriminate]. injection H as <-.
    cbn [floor_entry]. destruct (N.leb_spec i off); [|lia].
    destruct (N.le_gt_cases (i + len s + 1) off) as [L|L].
    + destruct Er as [->|Er]; [rewrite len_nil in El; lia|].
      destruct (IH _ _ _ off S Er) as (b0 & s0 & pre & post & F & E2 & E3 & E4 & E5); [lia|].
      rewrite F. exists b0, s0, (s ++ x00 :: pre), post. split; [reflexivity|]. split; [|split; [|split; [exact E4|exact E5]]].
      * rewrite E, E2 at 1. rewrite <- app_assoc. reflexivity.
      * rewrite len_app, len_cons. lia.
    + rewrite floor_none.
      * exists i, s, [], r. split; [reflexivity|]. split; [exact E|]. rewrite len_nil. split; [lia|]. split; [lia|apply until_nul_no].
      * apply strings_start in S. eapply Forall_impl; [|exact S]. cbn beta. lia.
Qed.
Lemma get_at_c_string t tab off n : parse_strtab t = Some tab -> last t x01 = x00 -> off < len t ->
  get_at tab off = Some n -> c_string t off n.
Proof.
  intros H Ht Ho Hg. unfold parse_strtab in H. destruct (strings_floor _ _ _ _ off H Ht) as (b0 & s0 & pre & post & F & E & E1 & E2 & E3); [lia|].
  unfold get_at in Hg. rewrite F in Hg. destruct (is_boundary _ _); [|discriminate]. injection Hg as <-.
  exists (pre ++ takeN (off - b0) s0), post. split; [|split].
  - rewrite E. rewrite <- (take_drop (off - b0) s0) at 1. now rewrite <- !app_assoc.
  - rewrite len_app, len_takeN. lia.
  - intros Q. apply E3. rewrite <- (take_drop (off - b0) s0). apply in_or_app. now right.
Qed.
Lemma section_c_string rest data e s n : elf_parse rest data = Ok e -> well_named data e -> eh_shstrndx (ef_header e) <> SHN_XINDEX ->
  In s (ef_sections e) -> section_name e s = Some n ->
  exists h t, shstrtab_header e = Some h /\ contents data h = Some t /\ c_string t (sh_name s) n.
Proof.
  intros He (sh & t & Hsh & Ht & Hne & Hlast & Hoff & Hnames & Hself) Hx Hs Hn. exists sh, t. split; [exact Hsh|]. split; [exact Ht|].
  destruct (elf_parse_inv _ _ _ He) as (_ & _ & Hsn & _). destruct (header_index _ _ Hsh) as (Hidx & Hnth).
  unfold section_names in Hsn. destruct (N.eqb_spec (eh_shstrndx (ef_header e)) SHN_XINDEX); [contradiction|].
  replace (N.min (eh_shstrndx (ef_header e)) (len (ef_sections e))) with (eh_shstrndx (ef_header e)) in Hsn by lia.
  rewrite Hnth, Ht in Hsn. rewrite Forall_forall in Hnames. eapply get_at_c_string; eauto.
Qed.

(** A block built by the library is read back. *)
Lemma c53_block rest f b out e p signed : built_block b ->
  elf_write_with_signature rest f b = Ok out -> elf_parse rest (el_data f) = Ok e ->
  well_named (el_data f) e -> fits_class e (len out) -> rest out = true ->
  elf_get_signing_block rest p (mkElfFile out signed) = Ok (Some b).
Proof.
  intros Hb H He Hw Hf Hr. pose proof (built_block_bytes b Hb) as (B1 & B2 & B3).
  pose proof (block_bytes_len _ _ B1) as (L1 & L2).
  rewrite (c53_read _ _ _ _ _ p signed H He Hw Hf Hr) by (intros Q; rewrite Q, len_nil in L1; lia).
  assert (E : from_u8 p (block_to_u8 b) = Ok b).
  { destruct Hb as (l & HF & [Hn | (q & Hn)]).
    - apply (c07_new p l b [] HF Hn). cbn [app]. unfold U64. lia.
    - apply (c07_padded p q l b [] HF Hn). cbn [app]. unfold U64. lia. }
  rewrite E. reflexivity.
Qed.
