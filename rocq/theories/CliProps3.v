(** CliProps3.v - what the sign command writes into an ELF file. *)
From Verif Require Import Base BaseFacts Utils Algorithms Common SchemeV2 SourceStamp Utf8 ElfInfo SigningBlock
  Wire Built BuiltFacts CodecFacts BlockFacts SearchFacts InjFacts Spec LimitFacts Zip Digest Module Signable ZipSpec RegionSpec ZipFacts
  DigestFacts ModuleFacts ModuleProps RawFacts Signer Verifier ModuleVerify VerifySpec VerifyFacts SignSpec SignFacts VerifyProps
  EndToEnd Keystore KeySpec KeyFacts Elf ElfSpec ElfFacts ElfProps2 Cli CliSpec CliFacts CliProps CliProps2.
From Coq Require Import Bool Lia Permutation.
Open Scope N_scope.

(** ** The entries *)
Lemma shdr_ok_bounds : forall x s, shdr_ok x s -> sh_offset s < U64 /\ sh_size s < U64.
Proof.
  intros x s H. unfold shdr_ok, fits, shdr_widths, shdr_fields in H.
  assert (P4 : 256 ^ N.of_nat 4 <= U64) by (vm_compute; discriminate).
  assert (P8 : 256 ^ N.of_nat 8 <= U64) by (vm_compute; discriminate).
  destruct (cx_class x);
    repeat (let X := fresh in apply Forall2_cons_inv in H; destruct H as (X & H)); split; lia.
Qed.
Lemma parse_shdr_ok : forall rest data e, elf_parse rest data = Ok e -> exists x, Forall (shdr_ok x) (ef_sections e).
Proof.
  intros rest data e H. unfold elf_parse in H.
  repeat match type of H with
  | context [match ?q with _ => _ end] => destruct q eqn:?; try discriminate
  end; injection H as <-; cbn [ef_sections];
  match goal with X : parse_shdrs ?x _ _ _ = Some _ |- _ => exists x; eapply parse_shdrs_ok; exact X end.
Qed.

Lemma resolved_bounds : forall rest f ts, resolved_sections rest f = Ok ts -> Forall scalars (el_signed f) ->
  Forall (fun t => scalars (name_of t) /\ t_offset t < U64 /\ t_size t < U64) ts.
Proof.
  intros rest f ts H Hs. apply c55_resolved in H. destruct H as (e & l & He & F & P & _).
  destruct (parse_shdr_ok _ _ _ He) as (x & Hx). rewrite Forall_forall in Hx.
  apply (Permutation_Forall P). clear P. induction F as [|n t ns l (s & (i & Hi & _) & _ & _ & ->) F IH]; [constructor|].
  apply Forall_cons_iff in Hs. destruct Hs as (Hn & Hs). constructor; [|auto].
  apply nth_error_In in Hi. destruct (shdr_ok_bounds x s (Hx s Hi)) as (H1 & H2).
  split; [exact Hn|]. unfold t_offset, t_size. cbn [fst snd]. auto.
Qed.

(** ** The size of a section list, and a block that holds one *)

Lemma info_value_size : forall ts, value_size (ElfBlock (info_from_tuples ts)) = info_bytes ts.
Proof.
  intros ts. unfold value_size, value_inner_size, info_from_tuples, info_new, info_bytes. cbn [ei_size].
  assert (E : fold_right (fun e acc => entry_byte_size e + acc) 0 (map (fun '(name, off, size) => entry_new name off size) ts) =
              fold_right (fun t n => 18 + len (utf8_enc (name_of t)) + n) 0 ts).
  { induction ts as [|((n & o) & z) ts IH]; [reflexivity|]. cbn [map fold_right]. rewrite IH.
    unfold entry_byte_size, entry_new, str_len, name_of. cbn [en_name fst]. lia. }
  rewrite E. lia.
Qed.

Lemma info_value_len : forall ts, len (value_to_u8 (ElfBlock (info_from_tuples ts))) = info_bytes ts.
Proof.
  intros ts. cbn [value_to_u8]. unfold info_to_u8, info_from_tuples, info_new, info_bytes. cbn [ei_size ei_id ei_count ei_sections].
  rewrite !len_app, !len_le.
  assert (E : len (flat_map entry_to_u8 (map (fun '(name, off, size) => entry_new name off size) ts)) =
              fold_right (fun t n => 18 + len (utf8_enc (name_of t)) + n) 0 ts).
  { induction ts as [|((n & o) & z) ts IH]; [reflexivity|]. cbn [map flat_map fold_right]. rewrite len_app, IH.
    unfold entry_to_u8, entry_new, name_of. cbn [en_name_len en_name en_offset en_size fst].
    rewrite !len_app, !len_le. lia. }
  rewrite E. lia.
Qed.

Lemma info_small : forall ts, info_bytes ts < U16 ->
  len ts < U32 /\ Forall (fun t => len (utf8_enc (name_of t)) < U16) ts.
Proof.
  unfold info_bytes. induction ts as [|t ts IH]; intros H.
  - split; [reflexivity|constructor].
  - cbn [fold_right] in H. destruct IH as (I1 & I2); [lia|]. rewrite len_cons.
    assert (len ts <= fold_right (fun t n => 18 + len (utf8_enc (name_of t)) + n) 0 ts).
    { clear. induction ts as [|t ts IH]; [vm_compute; discriminate|]. cbn [fold_right]. rewrite len_cons. lia. }
    unfold U16, U32 in *. split; [lia|]. constructor; [lia|exact I2].
Qed.

Lemma info_built : forall ts, info_bytes ts < U16 ->
  Forall (fun t => scalars (name_of t) /\ t_offset t < U64 /\ t_size t < U64) ts ->
  built_value (ElfBlock (info_from_tuples ts)).
Proof.
  intros ts H F. destruct (info_small ts H) as (H1 & H2). cbn [built_value].
  exists (map (fun '(name, off, size) => entry_new name off size) ts). split; [|split; [|reflexivity]].
  - apply Forall_forall. intros x I. apply in_map_iff in I. destruct I as (((n & o) & z) & <- & I).
    rewrite Forall_forall in F, H2. specialize (F _ I). specialize (H2 _ I).
    unfold name_of, t_offset, t_size in *. cbn [fst snd] in *. exists n, o, z. unfold short_name. tauto.
  - unfold len. rewrite map_length. exact H1.
Qed.

(** A fresh block with a section list appended is readable exactly if it is
    within the limit. *)
Lemma extended_read : forall p l ts, Forall built_value l ->
  Forall (fun t => scalars (name_of t) /\ t_offset t < U64 /\ t_size t < U64) ts ->
  let b := recalculate_size (content_push (fresh_block l) (ElfBlock (info_from_tuples ts))) in
  len (block_to_u8 b) = len (block_to_u8 (fresh_block l)) + info_bytes ts /\
  (len (block_to_u8 b) <= 16392 -> from_u8 p (block_to_u8 b) = Ok b) /\
  (16392 < len (block_to_u8 b) < U64 -> from_u8 p (block_to_u8 b) = Err EBlockTooBig).
Proof.
  intros p l ts HF HT b. set (v := ElfBlock (info_from_tuples ts)) in *.
  assert (Eb : b = fresh_block (l ++ [v])).
  { unfold b, recalculate_size, content_push, fresh_block. cbn [bk_start bk_content bk_magic]. unfold SIZE_UINT64, MAGIC_LEN. f_equal. }
  assert (Ec : content_size (l ++ [v]) = content_size l + info_bytes ts).
  { rewrite content_size_app. f_equal. rewrite content_size_sum. unfold ParseFacts.sumN. cbn [fold_right]. unfold v. rewrite info_value_size. lia. }
  assert (El : len (flat_map value_to_u8 (l ++ [v])) = content_size (l ++ [v])).
  { rewrite flat_map_app, len_app, Ec, (content_len l HF). cbn [flat_map]. rewrite app_nil_r. unfold v. now rewrite info_value_len. }
  assert (EB : block_to_u8 b = block_layout (flat_map value_to_u8 (l ++ [v]))).
  { rewrite Eb. unfold block_to_u8, fresh_block, content_to_u8, block_layout; cbn [bk_size_start bk_content bk_size_end bk_magic].
    rewrite El. unfold SIZE_UINT64, MAGIC_LEN. now replace (content_size (l ++ [v]) + 8 + 16) with (content_size (l ++ [v]) + 24) by lia. }
  assert (L : len (block_to_u8 b) = content_size (l ++ [v]) + 32) by (rewrite EB, len_block_layout, El; lia).
  split; [rewrite L, Ec, fresh_block_len by auto; lia|]. split; intros H.
  - assert (HV : built_value v) by (apply info_built; [rewrite L, Ec in H; unfold U16; lia|exact HT]).
    rewrite Eb. apply (fresh_roundtrip p []).
    + apply Forall_app. auto.
    + unfold MAX_SIGNING_BLOCK_SIZE. lia.
    + cbn [app]. rewrite <- Eb. unfold U64. lia.
  - rewrite EB. apply from_u8_at_layout; rewrite El; unfold MAX_SIGNING_BLOCK_SIZE; lia.
Qed.

(** ** The command *)
Lemma set_scalars : forall f l g, set_signed_sections f l = Ok g -> Forall scalars l -> Forall scalars (el_signed g).
Proof.
  intros f l g H Hl. apply c56 in H. destruct H as (_ & _ & (ts & F & ->) & _).
  assert (Forall scalars ts).
  { induction F as [|s t l ts (a & c & -> & _) F IH]; [constructor|]. apply Forall_cons_iff in Hl. destruct Hl as (Hs & Hl).
    constructor; [|auto]. unfold scalars in *. rewrite !Forall_app in Hs. tauto. }
  apply Forall_forall. intros x I. apply filter_In in I. rewrite Forall_forall in H. now apply H.
Qed.

Lemma sign_block_elf : forall p C L rest clk ds s a f b, crypto_ok C -> cli_sign_block p C L rest clk ds s a = Ok (SElf f, b) ->
  Forall scalars (sa_sections a) ->
  exists l ts, Forall built_value l /\ fs_read s (sa_input a) = Some (el_data f) /\ resolved_sections rest f = Ok ts /\
    Forall scalars (el_signed f) /\
    len (block_to_u8 (fresh_block l)) mod 4096 = 0 /\ len (block_to_u8 (fresh_block l)) <= 16384 /\
    b = recalculate_size (content_push (fresh_block l) (ElfBlock (info_from_tuples ts))).
Proof.
  intros p C L rest clk ds s a f b HC H Hsec.
  destruct (sign_block_kind _ _ _ _ _ _ _ _ _ _ H) as (file & Hf & Hk). cbn in Hk.
  unfold cli_sign_block in H. destruct (cli_signer L s a) as [sg| |] eqn:ES; cbn [bind] in H; try discriminate.
  cbv zeta in H. rewrite Hf in H.
  destruct (signable_open rest (Some file)) as [x0| |] eqn:E0; cbn [bind] in H; try discriminate.
  destruct (choose_sections x0 (sa_sections a)) as [x1| |] eqn:E1; cbn [bind] in H; try discriminate.
  destruct (signable_regions p rest x1 (Some file)) as [rg| |]; cbn [bind] in H; try discriminate.
  destruct (cli_digests _ _ _ _ _ _ _) as [dg| |] eqn:E2; cbn [bind] in H; try discriminate.
  destruct (ms_sign _ _ _ _ _) as [b0| |] eqn:E3; cbn [bind] in H; try discriminate.
  destruct (cli_add_info rest x1 b0) as [b1| |] eqn:E4; cbn [bind] in H; try discriminate.
  injection H as -> ->. cbn [cli_add_info] in E4.
  destruct (resolved_sections rest f) as [ts| |] eqn:E5; cbn [bind] in E4; try discriminate. injection E4 as <-.
  pose proof (cli_signer_spec _ _ _ _ ES) as (Hpad & _ & _ & Halgo).
  assert (Hcan : Forall (fun x => canonical (fst x)) dg).
  { apply cli_digests_spec in E2. destruct E2 as (Hm & _). apply Forall_forall. intros (x & d) I. cbn.
    apply (required_canonical sg Halgo). rewrite <- Hm. change x with (fst (x, d)). now apply in_map. }
  pose proof (ms_sign_inv _ _ _ _ _ _ HC E3) as (v & st & pad & Hc & Hv & Hs & _ & Hfin & _).
  unfold ms_finish in Hfin. rewrite Hpad in Hfin.
  assert (HB : Forall built_value (v ++ st)).
  { apply Forall_app. split.
    - destruct (ms_v2 sg); [|subst; constructor]. destruct Hv as (x & Hx & ->).
      constructor; [|constructor]. eapply v2_sign_built; eauto.
    - destruct (ms_stamp sg); [|subst; constructor]. destruct Hs as (x & Hx & ->).
      constructor; [|constructor]. eapply stamp_sign_built; eauto. }
  destruct (padding_ok _ _ _ HB Hfin) as (pd & -> & HF & H1 & H2 & _).
  exists ((v ++ st) ++ pd), ts. split; [exact HF|]. split; [rewrite Hf; f_equal; now symmetry|]. split; [reflexivity|].
  split; [|split; [exact H1|split; [exact H2|reflexivity]]].
  unfold choose_sections in E1. destruct (sa_sections a) as [|n ns] eqn:EA.
  - injection E1 as ->. unfold signable_open in E0. cbn [of_option bind] in E0.
    destruct (detect_file_format file) as [[]| |]; cbn [bind] in E0; try discriminate.
    unfold elf_new in E0. destruct (elf_parse rest file); cbn [bind] in E0; try discriminate. injection E0 as <-. cbn [el_signed].
    repeat constructor.
  - unfold set_elf_sections in E1. destruct x0 as [m|f0]; [discriminate|].
    destruct (set_signed_sections f0 (n :: ns)) as [g| |] eqn:E6; cbn [bind] in E1; try discriminate. injection E1 as ->.
    eapply set_scalars; [exact E6|exact Hsec].
Qed.

Lemma elf_block_kind : forall p C L rest clk ds s a x b t, cli_sign_block p C L rest clk ds s a = Ok (x, b) ->
  fs_read s (sa_input a) = Some (ELFMAG ++ t) -> exists f, x = SElf f.
Proof.
  intros p C L rest clk ds s a x b t EB Hr. destruct x as [m|f]; [|eauto]. exfalso.
  unfold cli_sign_block in EB. destruct (cli_signer L s a); cbn [bind] in EB; try discriminate.
  cbv zeta in EB. rewrite Hr in EB. unfold signable_open in EB. cbn [of_option bind] in EB.
  assert (D : detect_file_format (ELFMAG ++ t) = Ok FElf) by (apply detect_spec; eauto).
  rewrite D in EB. cbn [bind] in EB. destruct (elf_new rest (ELFMAG ++ t)) as [f| |]; cbn [bind] in EB; try discriminate.
  destruct (choose_sections _ _) as [x1| |] eqn:E1; cbn [bind] in EB; try discriminate.
  apply choose_kind in E1. destruct E1 as (g & -> & _).
  destruct (signable_regions _ _ _ _); cbn [bind] in EB; try discriminate.
  destruct (cli_digests _ _ _ _ _ _ _) as [l| |]; cbn [bind] in EB; try discriminate.
  destruct (ms_sign _ _ _ _ _) as [b0| |]; cbn [bind] in EB; try discriminate.
  destruct (cli_add_info _ _ _); cbn [bind] in EB; discriminate.
Qed.

Lemma cli_elf_read : forall p C L rest clk ds s a t e steps out,
  crypto_ok C -> Forall scalars (sa_sections a) ->
  fs_read s (sa_input a) = Some (ELFMAG ++ t) -> elf_parse rest (ELFMAG ++ t) = Ok e -> well_named (ELFMAG ++ t) e ->
  cli_sign p C L rest clk ds s a = (steps, Ok tt) ->
  fs_data (run s steps) (fs_file s (sa_output a)) = Some out -> fits_class e (len out) -> rest out = true ->
  exists e' sh sec signed ts k, elf_parse rest out = Ok e' /\ first_named e' KSU_SIGN_SECTION sh /\ contents out sh = Some sec /\
    resolved_sections rest (mkElfFile (ELFMAG ++ t) signed) = Ok ts /\ k <= 4 /\ len sec = 4096 * k + info_bytes ts /\
    forall q names, (len sec <= 16392 -> exists b, elf_get_signing_block rest q (mkElfFile out names) = Ok (Some b) /\ block_to_u8 b = sec) /\
      (16392 < len sec -> elf_get_signing_block rest q (mkElfFile out names) = Err EeValue).
Proof.
  intros p C L rest clk ds s a t e steps out HC Hsec Hr He Hw H Hout Hfit Hrest.
  apply sign_steps in H. destruct H as [(_ & X)|(x & b & w & HB & Hc & Hst & HW)]; [congruence|].
  destruct (elf_block_kind _ _ _ _ _ _ _ _ _ _ _ HB Hr) as (f & ->).
  destruct (sign_block_elf _ _ _ _ _ _ _ _ _ _ HC HB Hsec) as (l & ts & HF & Hf & Hts & Hsc & Hm & Hle & ->).
  set (b := recalculate_size _) in *.
  assert (Hf2 : ELFMAG ++ t = el_data f) by congruence. clear Hf. rename Hf2 into Hf.
  cbn [signable_write] in HW. destruct (elf_write_with_signature rest f b) as [w'| |] eqn:EW; try discriminate. injection HW as ->.
  assert (w = out).
  { rewrite Hst in Hout. cbn [run fold_left apply] in Hout. rewrite !put_get in Hout. now injection Hout. }
  subst w. rewrite Hf in He, Hw.
  destruct (extended_read p l ts HF (resolved_bounds _ _ _ Hts Hsc)) as (L1 & _). fold b in L1.
  assert (Hne : block_to_u8 b <> []).
  { intros Q. rewrite Q, len_nil in L1. unfold info_bytes in L1. lia. }
  destruct (view _ _ _ _ _ EW He Hw Hfit Hrest) as (e' & V).
  destruct (sv_sign _ _ _ _ _ _ V) as (sh & V1 & V2 & _ & _ & V5).
  pose proof (write_bound _ _ _ _ EW) as WB. pose proof (contents_len _ _ _ V2) as CL.
  exists e', sh, (block_to_u8 b), (el_signed f), ts, (len (block_to_u8 (fresh_block l)) / 4096).
  split; [exact (sv_parse _ _ _ _ _ _ V)|]. split; [now apply find_first|]. split; [exact V2|].
  split; [rewrite Hf; now destruct f|]. split; [apply N.div_le_upper_bound; lia|].
  split; [rewrite L1; f_equal; apply N.div_exact; lia|].
  intros q names. rewrite (c53_read _ _ _ _ _ q names EW He Hw Hfit Hrest Hne).
  destruct (extended_read q l ts HF (resolved_bounds _ _ _ Hts Hsc)) as (_ & X1 & X2). fold b in X1, X2. split; intros Hl.
  - exists b. rewrite (X1 Hl). split; reflexivity.
  - rewrite X2; [reflexivity|]. split; [exact Hl|]. unfold I64, U64 in *. lia.
Qed.

(** ** The regions of a module *)
Lemma slice_mid : forall (a b c : bytes) off size, off = len a -> size = len b -> slice (a ++ b ++ c) off size = b.
Proof. intros a b c off size -> ->. unfold slice. rewrite dropN_app. apply takeN_app. Qed.

Lemma module_regions : forall p f e l, len f < 2 ^ 63 -> find_eocd f (len f) = Ok e ->
  p = Debug \/ eo_cd_offset e <= eo_off e -> m_digest_regions p (module_new f) f = Ok l ->
  exists content mid cdr h off t, regions_of p f e content mid cdr h off t /\
    region_bytes f l = content ++ cdr ++ h ++ off ++ t /\ Forall (region_in f) l /\ sizes l = len f - len mid.
Proof.
  intros p f e l Hl He Hc H. assert (Hu : len f < U64) by (change (2 ^ 63) with I64 in Hl; unfold I64, U64 in *; lia).
  unfold m_digest_regions in H. apply bind_Ok in H as (o & Ho & H).
  apply bind_Ok in H as (n1 & H1 & H). apply bind_Ok in H as (n2 & H2 & H). apply bind_Ok in H as (n3 & H3 & H).
  assert (Hle : fo_start_cd o <= fo_stop_cd o).
  { destruct Hc as [->|Hc].
    - unfold usub in H2. destruct (N.leb_spec (fo_start_cd o) (fo_stop_cd o)); [auto|discriminate].
    - destruct (regions p f e o Hu He Hc Ho) as (c & m & y & t & _ & -> & He' & _). cbn [fo_start_cd fo_stop_cd].
      rewrite He', !len_app. lia. }
  destruct (regions_gen p f e o Hu He Ho Hle) as (content & mid & cdr & tail & Hf & -> & Hoff & G1 & G2 & G3).
  cbn [fo_start_content fo_stop_content fo_start_cd fo_stop_cd fo_start_eocd fo_stop_eocd] in *.
  assert (HL : len f = len content + len mid + len cdr + len tail) by (rewrite Hf, !len_app; lia).
  rewrite !len_app in Hoff.
  unfold usub in H1, H2, H3.
  rewrite (proj2 (N.leb_le _ _)) in H1 by lia. rewrite (proj2 (N.leb_le _ _)) in H2 by lia.
  rewrite (proj2 (N.leb_le _ _)) in H3 by lia. injection H1 as <-. injection H2 as <-. injection H3 as <-.
  injection H as <-.
  exists content, mid, cdr, (takeN 16 tail), (sub tail 16 20), (dropN 20 tail).
  split. { apply regions_of_tail; auto; [rewrite !len_app; lia|lia]. }
  assert (T : takeN 16 tail ++ sub tail 16 20 ++ dropN 20 tail = tail) by (symmetry; apply sub_split; lia).
  rewrite T. split; [|split].
  - unfold region_bytes. cbn [map List.concat rg_offset rg_size]. rewrite app_nil_r.
    assert (E1 : slice f 0 (len content - 0) = content).
    { rewrite Hf. apply (slice_mid [] content (mid ++ cdr ++ tail)); [reflexivity|lia]. }
    assert (E2 : slice f (len content + len mid) (eo_off e - (len content + len mid)) = cdr).
    { rewrite Hf. replace (content ++ mid ++ cdr ++ tail) with ((content ++ mid) ++ cdr ++ tail) by now rewrite <- app_assoc.
      apply slice_mid; [now rewrite len_app|lia]. }
    assert (E3 : slice f (eo_off e) (len f - eo_off e) = tail).
    { rewrite Hf at 1. replace (content ++ mid ++ cdr ++ tail) with ((content ++ mid ++ cdr) ++ tail ++ []) by now rewrite app_nil_r, <- !app_assoc.
      apply slice_mid; [rewrite !len_app; lia|lia]. }
    rewrite E1, E2, E3. reflexivity.
  - unfold region_in. repeat apply Forall_cons; [..|apply Forall_nil]; cbn [rg_offset rg_size]; lia.
  - unfold sizes. cbn [fold_right rg_size]. lia.
Qed.

Lemma elf_block_names : forall rest p d n1 n2, elf_get_signing_block rest p (mkElfFile d n1) = elf_get_signing_block rest p (mkElfFile d n2).
Proof. reflexivity. Qed.
