(** ElfProps.v - proofs of the ELF properties. *)
From Verif Require Import Base BaseFacts Algorithms Utf8 SigningBlock Digest Signable Elf ElfFacts ElfLayout ElfSpec.
Open Scope N_scope.

(** * Parsing *)
Lemma elf_parse_inv rest data e : elf_parse rest data = Ok e ->
  parse_ehdr data = Some (ef_ctx e, ef_header e) /\
  parse_shdrs (ef_ctx e) data (eh_shoff (ef_header e)) (eh_shnum (ef_header e)) = Some (ef_sections e) /\
  section_names data (ef_sections e) (eh_shstrndx (ef_header e)) = Some (ef_strtab e) /\ rest data = true.
Proof.
  unfold elf_parse. destruct (parse_ehdr data) as [[x h]|]; [|discriminate].
  destruct (parse_shdrs _ _ _ _) as [l|] eqn:E; [|discriminate].
  destruct (section_names _ _ _) as [t|] eqn:E2; [|discriminate].
  destruct (rest data) eqn:E3; [|discriminate]. intros [= <-]. cbn. auto.
Qed.

Lemma header_index e sh : shstrtab_header e = Some sh ->
  eh_shstrndx (ef_header e) < len (ef_sections e) /\
  nth_error (ef_sections e) (N.to_nat (eh_shstrndx (ef_header e))) = Some sh.
Proof.
  unfold shstrtab_header. intros H.
  assert (L : (N.to_nat (N.min (eh_shstrndx (ef_header e)) (len (ef_sections e))) < length (ef_sections e))%nat).
  { apply nth_error_Some. congruence. }
  unfold len in *.
  assert (eh_shstrndx (ef_header e) < N.of_nat (length (ef_sections e))) by lia.
  split; [assumption|]. now replace (N.min _ _) with (eh_shstrndx (ef_header e)) in H by lia.
Qed.
Lemma section_names_at data l idx s : idx < U16 - 1 -> nth_error l (N.to_nat idx) = Some s ->
  section_names data l idx = match get_range data (sh_offset s) (sh_offset s + sh_size s) with None => None | Some b => parse_strtab b end.
Proof.
  intros H Hn. unfold section_names. replace (idx =? SHN_XINDEX) with false by (symmetry; apply N.eqb_neq; unfold SHN_XINDEX, U16 in *; lia).
  assert (L : (N.to_nat idx < length l)%nat) by (apply nth_error_Some; congruence).
  replace (N.min idx (len l)) with idx by (unfold len; lia). now rewrite Hn.
Qed.

(** * The written file *)
Lemma layout_app rest f b out (l : layout rest f b) (Ho : out = lay_bytes _ _ _ l) :
  let e := ly_e _ _ _ l in let x := ef_ctx e in
  let h' := with_sections (ef_header e)
       (len (el_data f) + ly_g1 _ _ _ l + len (block_to_u8 b) + len (ly_mid _ _ _ l) + ly_pad _ _ _ l)
       (shdr_size (cx_class x)) (len (ly_secs _ _ _ l)) in
  let d' := ehdr_to_u8 x h' ++ dropN (ehdr_size (cx_class x)) (el_data f) in
  out = d' ++ zeros (ly_g1 _ _ _ l) ++ block_to_u8 b ++ ly_mid _ _ _ l ++ zeros (ly_pad _ _ _ l) ++
        flat_map (shdr_to_u8 x) (ly_secs _ _ _ l) /\
  len d' = len (el_data f) /\ ehdr_size (cx_class x) <= len (el_data f) /\ ehdr_ok x (ef_header e) /\
  takeN (ehdr_size (cx_class x)) (el_data f) = ehdr_to_u8 x (ef_header e) /\
  len out = len (el_data f) + ly_g1 _ _ _ l + len (block_to_u8 b) + len (ly_mid _ _ _ l) + ly_pad _ _ _ l +
     shdr_size (cx_class x) * len (ly_secs _ _ _ l).
Proof.
  intros e x h' d'.
  destruct (elf_parse_inv _ _ _ (ly_parse _ _ _ l)) as (P & _).
  destruct (parse_ehdr_inv _ _ _ P) as (O & L & T). fold e x in O, L, T.
  assert (LD : len d' = len (el_data f)).
  { unfold d'. rewrite len_app, len_ehdr, len_dropN by (apply O). lia. }
  assert (E : out = d' ++ zeros (ly_g1 _ _ _ l) ++ block_to_u8 b ++ ly_mid _ _ _ l ++ zeros (ly_pad _ _ _ l) ++
        flat_map (shdr_to_u8 x) (ly_secs _ _ _ l)).
  { rewrite Ho at 1. unfold lay_bytes. fold e x h'. rewrite dropN_app_l by exact L. unfold d'. now rewrite <- app_assoc. }
  repeat split; auto; try (apply O).
  rewrite E, !len_app, LD, !len_zeros, len_shdrs. lia.
Qed.

(** Bytes of the original behind the header are where they were. *)
Lemma layout_range rest f b out (l : layout rest f b) (Ho : out = lay_bytes _ _ _ l) a z :
  ehdr_size (cx_class (ef_ctx (ly_e _ _ _ l))) <= a -> z <= len (el_data f) ->
  get_range out a z = get_range (el_data f) a z.
Proof.
  intros Ha Hz. destruct (layout_app _ _ _ _ l Ho) as (E & LD & Hl & O & T & _).
  destruct (N.le_gt_cases a z) as [Haz|Haz].
  2:{ rewrite (proj2 (get_range_None out a z)) by auto. symmetry. apply get_range_None. auto. }
  rewrite !get_range_Some; auto.
  - f_equal. rewrite E. set (d' := ehdr_to_u8 _ _ ++ dropN _ (el_data f)) in *.
    rewrite dropN_app_l by lia. rewrite takeN_app_l by (rewrite len_dropN; lia). f_equal.
    unfold d'. rewrite dropN_app_r by (rewrite len_ehdr; [lia|apply O]). rewrite len_ehdr by apply O.
    rewrite dropN_dropN. f_equal. lia.
  - rewrite E, len_app, LD. lia.
Qed.

Lemma enc_fields_app e ws1 vs1 ws2 vs2 : length ws1 = length vs1 ->
  enc_fields e (ws1 ++ ws2) (vs1 ++ vs2) = enc_fields e ws1 vs1 ++ enc_fields e ws2 vs2.
Proof.
  revert vs1. induction ws1 as [|w ws1 IH]; intros [|v vs1] H; try discriminate; [reflexivity|].
  cbn. rewrite IH by (now injection H). now rewrite app_assoc.
Qed.

(** The header bytes outside the rewritten fields. *)
Lemma nth_app_same {A} (a b b' c : list A) i d : length b = length b' ->
  ~ (length a <= i < length a + length b)%nat -> nth i (a ++ b ++ c) d = nth i (a ++ b' ++ c) d.
Proof.
  intros L H. destruct (Nat.lt_ge_cases i (length a)) as [Hi|Hi].
  - now rewrite !app_nth1.
  - rewrite !(app_nth2 a) by lia. rewrite !app_nth2 by lia. now rewrite L.
Qed.
Lemma header_bytes x h shoff ent num i : len (eh_ident h) = 16 -> ~ rewritten (cx_class x) i ->
  nth (N.to_nat i) (ehdr_to_u8 x (with_sections h shoff ent num)) x00 = nth (N.to_nat i) (ehdr_to_u8 x h) x00.
Proof.
  intros H R. assert (HL : length (eh_ident h) = 16%nat) by (unfold len in H; lia).
  unfold ehdr_to_u8, with_sections. cbn [eh_ident].
  destruct x as [c e]. cbn [cx_class cx_endian] in *.
  destruct c; unfold rewritten in R; cbn [ehdr_widths ehdr_fields enc_fields eh_type eh_machine eh_version eh_entry eh_phoff eh_shoff eh_flags eh_ehsize eh_phentsize eh_phnum eh_shentsize eh_shnum eh_shstrndx].
  - pose (pre := eh_ident h ++ enc e 2 (eh_type h) ++ enc e 2 (eh_machine h) ++ enc e 4 (eh_version h) ++ enc e 4 (eh_entry h) ++ enc e 4 (eh_phoff h)).
    pose (mid := enc e 4 (eh_flags h) ++ enc e 2 (eh_ehsize h) ++ enc e 2 (eh_phentsize h) ++ enc e 2 (eh_phnum h)).
    assert (Lp : length pre = 32%nat) by (unfold pre; rewrite !app_length, !length_enc, HL; reflexivity).
    assert (Lm : length mid = 10%nat) by (unfold mid; rewrite !app_length, !length_enc; reflexivity).
    transitivity (nth (N.to_nat i) (pre ++ enc e 4 (eh_shoff h) ++ (mid ++ (enc e 2 ent ++ enc e 2 num) ++ enc e 2 (eh_shstrndx h))) x00).
    + transitivity (nth (N.to_nat i) (pre ++ enc e 4 shoff ++ (mid ++ (enc e 2 ent ++ enc e 2 num) ++ enc e 2 (eh_shstrndx h))) x00).
      * f_equal. unfold pre, mid. rewrite <- !app_assoc, app_nil_r. reflexivity.
      * apply nth_app_same; rewrite !length_enc; [reflexivity|]. rewrite Lp. lia.
    + transitivity (nth (N.to_nat i) ((pre ++ enc e 4 (eh_shoff h) ++ mid) ++ (enc e 2 (eh_shentsize h) ++ enc e 2 (eh_shnum h)) ++ enc e 2 (eh_shstrndx h)) x00).
      * transitivity (nth (N.to_nat i) ((pre ++ enc e 4 (eh_shoff h) ++ mid) ++ (enc e 2 ent ++ enc e 2 num) ++ enc e 2 (eh_shstrndx h)) x00); [f_equal; now rewrite <- !app_assoc|].
        apply nth_app_same; rewrite !app_length, !length_enc; [reflexivity|]. rewrite Lp, Lm. lia.
      * f_equal. unfold pre, mid. rewrite <- !app_assoc, app_nil_r. reflexivity.
  - pose (pre := eh_ident h ++ enc e 2 (eh_type h) ++ enc e 2 (eh_machine h) ++ enc e 4 (eh_version h) ++ enc e 8 (eh_entry h) ++ enc e 8 (eh_phoff h)).
    pose (mid := enc e 4 (eh_flags h) ++ enc e 2 (eh_ehsize h) ++ enc e 2 (eh_phentsize h) ++ enc e 2 (eh_phnum h)).
    assert (Lp : length pre = 40%nat) by (unfold pre; rewrite !app_length, !length_enc, HL; reflexivity).
    assert (Lm : length mid = 10%nat) by (unfold mid; rewrite !app_length, !length_enc; reflexivity).
    transitivity (nth (N.to_nat i) (pre ++ enc e 8 (eh_shoff h) ++ (mid ++ (enc e 2 ent ++ enc e 2 num) ++ enc e 2 (eh_shstrndx h))) x00).
    + transitivity (nth (N.to_nat i) (pre ++ enc e 8 shoff ++ (mid ++ (enc e 2 ent ++ enc e 2 num) ++ enc e 2 (eh_shstrndx h))) x00).
      * f_equal. unfold pre, mid. rewrite <- !app_assoc, app_nil_r. reflexivity.
      * apply nth_app_same; rewrite !length_enc; [reflexivity|]. rewrite Lp. lia.
    + transitivity (nth (N.to_nat i) ((pre ++ enc e 8 (eh_shoff h) ++ mid) ++ (enc e 2 (eh_shentsize h) ++ enc e 2 (eh_shnum h)) ++ enc e 2 (eh_shstrndx h)) x00).
      * transitivity (nth (N.to_nat i) ((pre ++ enc e 8 (eh_shoff h) ++ mid) ++ (enc e 2 ent ++ enc e 2 num) ++ enc e 2 (eh_shstrndx h)) x00); [f_equal; now rewrite <- !app_assoc|].
        apply nth_app_same; rewrite !app_length, !length_enc; [reflexivity|]. rewrite Lp, Lm. lia.
      * f_equal. unfold pre, mid. rewrite <- !app_assoc, app_nil_r. reflexivity.
Qed.

Lemma c53_bytes rest f b out e : elf_write_with_signature rest f b = Ok out -> elf_parse rest (el_data f) = Ok e ->
  len (el_data f) + len (block_to_u8 b) <= len out /\
  forall i, i < len (el_data f) -> ~ rewritten (cx_class (ef_ctx e)) i ->
    nth_error out (N.to_nat i) = nth_error (el_data f) (N.to_nat i).
Proof.
  intros H He. destruct (write_layout _ _ _ _ H) as (l & Ho).
  assert (e = ly_e _ _ _ l) as -> by (pose proof (ly_parse _ _ _ l); congruence).
  destruct (layout_app _ _ _ _ l Ho) as (E & LD & Hl & O & T & LO). split; [lia|].
  intros i Hi R.
  assert (L1 : (N.to_nat i < length (el_data f))%nat) by (unfold len in Hi; lia).
  assert (L2 : (N.to_nat i < length out)%nat) by (unfold len in *; lia).
  rewrite (nth_error_nth' out x00 L2), (nth_error_nth' _ x00 L1). f_equal.
  rewrite E. set (x := ef_ctx (ly_e _ _ _ l)) in *.
  rewrite app_nth1 by (rewrite length_len, LD; lia).
  replace (nth (N.to_nat i) (el_data f) x00) with
    (nth (N.to_nat i) (ehdr_to_u8 x (ef_header (ly_e _ _ _ l)) ++ dropN (ehdr_size (cx_class x)) (el_data f)) x00)
    by (rewrite <- T, take_drop; reflexivity).
  match goal with |- context [with_sections ?h ?a ?b ?c] => set (h' := with_sections h a b c) end.
  assert (La : length (ehdr_to_u8 x h') = N.to_nat (ehdr_size (cx_class x))) by (rewrite length_len, len_ehdr; [reflexivity|apply O]).
  assert (Lb : length (ehdr_to_u8 x (ef_header (ly_e _ _ _ l))) = N.to_nat (ehdr_size (cx_class x))) by (rewrite length_len, len_ehdr; [reflexivity|apply O]).
  destruct (N.lt_ge_cases i (ehdr_size (cx_class x))) as [Hs|Hs].
  - rewrite !app_nth1 by lia. apply header_bytes; [apply O|exact R].
  - rewrite !app_nth2 by lia. now rewrite La, Lb.
Qed.

(** * Reading the output *)
Lemma sections_ok rest data e : elf_parse rest data = Ok e -> Forall (shdr_ok (ef_ctx e)) (ef_sections e).
Proof. intros H. apply elf_parse_inv in H. destruct H as (_ & H & _). eapply parse_shdrs_ok; eauto. Qed.

Lemma sign_shdr_ok x name off size align : name < U32 -> align < U32 ->
  off < match cx_class x with Class32 => U32 | Class64 => U64 end ->
  size < match cx_class x with Class32 => U32 | Class64 => U64 end ->
  shdr_ok x (sign_shdr name off size align).
Proof.
  intros H1 H2 H3 H4. unfold shdr_ok, fits, sign_shdr. destruct x as [c en]. cbn [cx_class] in *.
  assert (P : forall w, 0 < 256 ^ N.of_nat w) by apply pow256_pos.
  destruct c; unfold shdr_widths, shdr_fields;
  repeat (apply Forall2_cons; [first [exact H1 | exact H3 | exact H4 | apply P | exact H2 | reflexivity |
     (eapply N.lt_trans; [exact H2|reflexivity])]|]); apply Forall2_nil.
Qed.
Lemma with_table_ok x s off size : shdr_ok x s ->
  off < match cx_class x with Class32 => U32 | Class64 => U64 end ->
  size < match cx_class x with Class32 => U32 | Class64 => U64 end ->
  shdr_ok x (with_table s off size).
Proof.
  intros H H3 H4. unfold shdr_ok, fits, with_table in *. destruct x as [c en]. cbn [cx_class] in *.
  destruct c; unfold shdr_widths, shdr_fields in *;
  repeat (match goal with H : Forall2 _ (_ :: _) (_ :: _) |- _ => apply Forall2_cons_inv in H; destruct H end);
  repeat (apply Forall2_cons; [first [exact H3 | exact H4 | assumption]|]); apply Forall2_nil.
Qed.

(** The parse of the output. *)
Lemma reparse rest f b out (l : layout rest f b) (Ho : out = lay_bytes _ _ _ l) :
  let e := ly_e _ _ _ l in
  well_named (el_data f) e -> fits_class e (len out) -> rest out = true ->
  exists h' tab', elf_parse rest out = Ok (mkElf (ef_ctx e) h' (ly_secs _ _ _ l) tab') /\
    eh_shstrndx h' = eh_shstrndx (ef_header e) /\
    (forall off, off < len (ly_str _ _ _ l) -> get_at tab' off = get_at (ef_strtab e) off) /\
    get_at tab' (ly_name _ _ _ l) = Some KSU_SIGN_SECTION /\
    (exists s', nth_error (ly_secs _ _ _ l) (N.to_nat (eh_shstrndx (ef_header e))) = Some s' /\
      contents out s' = Some (match find_section_index e KSU_SIGN_SECTION with
        Some _ => ly_str _ _ _ l | None => ly_str _ _ _ l ++ KSU_SIGN_SECTION ++ [x00] end)).
Proof.
  intros e (sh & t & Hsh & Ht & Hne & Hlast & Hoff & Hnames & Hself) Hfit Hrest.
  pose proof (ly_parse _ _ _ l) as Hp. fold e in Hp.
  destruct (layout_app _ _ _ _ l Ho) as (E & LD & Hl & O & T & LO). fold e in E, LD, Hl, O, T, LO.
  destruct (elf_parse_inv _ _ _ Hp) as (_ & _ & Hsn & _).
  pose proof (sections_ok _ _ _ Hp) as Hso.
  assert (sh = ly_sh _ _ _ l) as -> by (pose proof (ly_hdr _ _ _ l) as Q; fold e in Q; congruence).
  assert (t = ly_str _ _ _ l) as -> by (pose proof (ly_range _ _ _ l) as Q; congruence).
  destruct (header_index _ _ Hsh) as (Hidx & Hnth).
  pose proof (ly_num _ _ _ l) as Hnum. pose proof (ly_bound _ _ _ l) as Hbound. fold e in Hbound.
  set (x := ef_ctx e) in *. set (secs := ly_secs _ _ _ l) in *.
  set (tb := len (el_data f) + ly_g1 _ _ _ l + len (block_to_u8 b) + len (ly_mid _ _ _ l) + ly_pad _ _ _ l) in *.
  assert (LL : len (ef_sections e) <= len secs).
  { destruct (ly_case _ _ _ l) as [(i & s & _ & _ & _ & _ & H1 & H2)|(g2 & _ & _ & _ & H1 & H2)]; fold e in H1, H2;
    fold secs in H2; rewrite H2, H1, ?len_app, ?len_update; lia. }
  assert (Hx : eh_shstrndx (ef_header e) < U16 - 1) by (unfold U16 in *; lia).
  assert (Hst : parse_strtab (ly_str _ _ _ l) = Some (ef_strtab e)).
  { rewrite (section_names_at _ _ _ _ Hx Hnth) in Hsn. now rewrite Ht in Hsn. }
  assert (CL : forall n, n <= len out -> n < match cx_class x with Class32 => U32 | Class64 => U64 end).
  { intros n Hn. unfold fits_class in Hfit. fold x in Hfit. destruct (cx_class x).
    - lia.
    - unfold I64, U64 in *. lia. }
  assert (Hstr : len (ly_str _ _ _ l) <= len (el_data f)).
  { apply get_range_spec in Ht. destruct Ht as (A & B & ->). rewrite len_takeN, len_dropN. lia. }
  assert (Hal : align_for_container (cx_class x) < U32) by (destruct (cx_class x); reflexivity).
  assert (Hsecs : Forall (shdr_ok x) secs).
  { destruct (ly_case _ _ _ l) as [(i & s & _ & _ & _ & _ & H1 & H2)|(g2 & _ & _ & Hm & H1 & H2)]; fold e in H1, H2;
    fold secs in H2; rewrite H2, H1.
    - apply Forall_update; [exact Hso|]. intros _ _. apply sign_shdr_ok; [apply (ly_name_lt _ _ _ l)|exact Hal|apply CL; lia|apply CL; lia].
    - assert (LM : len (ly_mid _ _ _ l) = g2 + len (ly_str _ _ _ l) + 10).
      { rewrite Hm, !len_app, len_zeros. change (len KSU_SIGN_SECTION) with 9. change (len [x00]) with 1. lia. }
      apply Forall_app. split.
      + apply Forall_update; [exact Hso|]. intros s Hs. apply with_table_ok; [exact Hs|apply CL; lia|apply CL; lia].
      + repeat constructor. apply sign_shdr_ok; [apply (ly_name_lt _ _ _ l)|exact Hal|apply CL; lia|apply CL; lia]. }
  set (h' := with_sections (ef_header e) tb (shdr_size (cx_class x)) (len secs)) in *.
  assert (Oh : ehdr_ok x h').
  { apply with_sections_ok; [exact O|apply CL; lia|destruct (cx_class x); reflexivity|exact Hnum]. }
  assert (P1 : parse_ehdr out = Some (x, h')).
  { rewrite E, <- app_assoc. apply parse_ehdr_app. exact Oh. }
  assert (P2 : parse_shdrs x out (eh_shoff h') (eh_shnum h') = Some secs).
  { cbn [h' with_sections eh_shoff eh_shnum].
    set (d' := ehdr_to_u8 x h' ++ dropN (ehdr_size (cx_class x)) (el_data f)) in *.
    replace out with ((d' ++ zeros (ly_g1 _ _ _ l) ++ block_to_u8 b ++ ly_mid _ _ _ l ++ zeros (ly_pad _ _ _ l)) ++
        flat_map (shdr_to_u8 x) secs ++ []) by (rewrite E, app_nil_r, <- !app_assoc; reflexivity).
    replace tb with (len (d' ++ zeros (ly_g1 _ _ _ l) ++ block_to_u8 b ++ ly_mid _ _ _ l ++ zeros (ly_pad _ _ _ l))).
    2:{ rewrite !len_app, !len_zeros, LD. unfold tb. lia. }
    apply parse_shdrs_app; [| |exact Hsecs].
    - intros Q. apply (f_equal len) in Q. rewrite len_app, LD in Q. assert (0 < ehdr_size (cx_class x)) by (destruct (cx_class x); reflexivity).
      change (len (@nil byte)) with 0 in Q. lia.
    - intros Q. rewrite Q in LL. change (len (@nil shdr)) with 0 in LL. lia. }
  assert (Hlt : forall off, off < len (ly_str _ _ _ l) -> off < len (ly_str _ _ _ l)) by auto.
  destruct (ly_case _ _ _ l) as [(i & s & Hi & Hs & Hname & Hm & H1 & H2)|(g2 & Hi & Hname & Hm & H1 & H2)]; fold e in Hi, H1, H2;
    fold secs in H2.
  - (* the section exists already *)
    destruct (proj1 (find_index_Some _ _ _) Hi) as ((s0 & Hs0 & Hns) & _). fold e in Hs.
    assert (s0 = s) as -> by congruence.
    assert (Hgs : get_at (ef_strtab e) (sh_name s) = Some KSU_SIGN_SECTION).
    { unfold named in Hns. destruct (get_at _ _); [|discriminate]. apply beq_eq in Hns. congruence. }
    assert (Hne2 : N.to_nat (eh_shstrndx (ef_header e)) <> i).
    { intros Q. subst i. assert (s = ly_sh _ _ _ l) as -> by congruence. apply Hself. exact Hgs. }
    assert (Hn' : nth_error secs (N.to_nat (eh_shstrndx (ef_header e))) = Some (ly_sh _ _ _ l)).
    { rewrite H2, nth_update, H1. replace (Nat.eqb _ i) with false by (symmetry; apply Nat.eqb_neq; exact Hne2). exact Hnth. }
    assert (Hr' : get_range out (sh_offset (ly_sh _ _ _ l)) (sh_offset (ly_sh _ _ _ l) + sh_size (ly_sh _ _ _ l)) = Some (ly_str _ _ _ l)).
    { rewrite (layout_range _ _ _ _ l Ho); [exact Ht|exact Hoff|]. apply get_range_spec in Ht. lia. }
    assert (P3 : section_names out secs (eh_shstrndx h') = Some (ef_strtab e)).
    { change (eh_shstrndx h') with (eh_shstrndx (ef_header e)). rewrite (section_names_at _ _ _ _ Hx Hn'). now rewrite Hr'. }
    exists h', (ef_strtab e). unfold elf_parse. rewrite P1, P2, P3, Hrest.
    split; [reflexivity|]. split; [reflexivity|]. split; [reflexivity|]. split; [now rewrite Hname|].
    rewrite Hi. exists (ly_sh _ _ _ l). split; [exact Hn'|]. exact Hr'.
  - set (s' := with_table (ly_sh _ _ _ l) (len (el_data f) + ly_g1 _ _ _ l + len (block_to_u8 b) + g2) (len (ly_str _ _ _ l) + 10)).
    assert (Hn' : nth_error secs (N.to_nat (eh_shstrndx (ef_header e))) = Some s').
    { rewrite H2, H1. rewrite nth_error_app1 by (rewrite length_update; apply nth_error_Some; congruence).
      rewrite nth_update, Nat.eqb_refl, Hnth. reflexivity. }
    assert (Hr' : get_range out (sh_offset s') (sh_offset s' + sh_size s') = Some (ly_str _ _ _ l ++ KSU_SIGN_SECTION ++ [x00])).
    { cbn [s' with_table sh_offset sh_size].
      set (d' := ehdr_to_u8 x h' ++ dropN (ehdr_size (cx_class x)) (el_data f)) in *.
      apply (get_range_app _ (d' ++ zeros (ly_g1 _ _ _ l) ++ block_to_u8 b ++ zeros g2) _
         (zeros (ly_pad _ _ _ l) ++ flat_map (shdr_to_u8 x) secs)).
      - rewrite E, Hm, <- !app_assoc. reflexivity.
      - rewrite !len_app, !len_zeros, LD. lia.
      - rewrite !len_app, !len_zeros, LD. change (len KSU_SIGN_SECTION) with 9. change (len [x00]) with 1. lia. }
    assert (P3 : section_names out secs (eh_shstrndx h') = Some (ef_strtab e ++ [(len (ly_str _ _ _ l), KSU_SIGN_SECTION)])).
    { change (eh_shstrndx h') with (eh_shstrndx (ef_header e)). rewrite (section_names_at _ _ _ _ Hx Hn'). rewrite Hr'.
      apply parse_strtab_app; [exact Hst|auto|reflexivity|discriminate|vm_compute; discriminate]. }
    eexists h', _. unfold elf_parse. rewrite P1, P2, P3, Hrest.
    split; [reflexivity|]. split; [reflexivity|]. split; [intros off Hof; apply (get_at_app _ _ _ _ Hst Hof)|].
    split; [rewrite Hname; apply get_at_new; [exact Hst|reflexivity]|].
    rewrite Hi. exists s'. split; [exact Hn'|]. exact Hr'.
Qed.
