(** CliProps.v - dump, signing in place, format detection, the exit status of
    verify. *)
From Verif Require Import Base BaseFacts Utils Algorithms Common SchemeV2 SourceStamp Utf8 ElfInfo SigningBlock
  Zip Digest Module Signable ZipSpec ZipFacts ModuleFacts ModuleProps RawFacts Signer Verifier ModuleVerify VerifySpec VerifyFacts SignSpec SignFacts VerifyProps
  Keystore Elf Cli CliSpec CliFacts.
From Coq Require Import Bool Lia Strings.String.
Open Scope N_scope.

(** ** dump *)
Lemma fold_append : forall f l s c, Forall (is_append f) l -> fs_data s f = Some c ->
  exists w, fs_data (run s l) f = Some (c ++ w).
Proof.
  intros f l. induction l as [|x l IH]; intros s c F H; cbn [run fold_left].
  - exists []. now rewrite app_nil_r.
  - inversion F as [|? ? T F']; subst. destruct x as [g|g b]; [destruct T|]. cbn in T. subst g.
    destruct (IH (apply s (Append f b)) (c ++ b) F') as (w & Hw).
    { cbn [apply]. rewrite H. apply put_get. }
    exists (b ++ w). now rewrite app_assoc.
Qed.

Lemma slice_split : forall (file : bytes) off a b, slice file off a ++ slice file (off + a) b = slice file off (a + b).
Proof.
  intros file off a b. unfold slice. rewrite <- dropN_dropN.
  generalize (dropN off file) as d. clear. intros d. rewrite !takeN_firstn, dropN_skipn.
  rewrite <- (firstn_skipn (N.to_nat a) (firstn (N.to_nat (a + b)) d)). f_equal.
  - rewrite firstn_firstn. f_equal. lia.
  - rewrite skipn_firstn_comm. f_equal. lia.
Qed.
Lemma slice_0 : forall file off, slice file off 0 = [].
Proof. intros. unfold slice. rewrite takeN_firstn. reflexivity. Qed.

Lemma copy_pieces_spec : forall fuel s inp out file pos rem c, inp <> out ->
  fs_data s inp = Some file -> fs_data s out = Some c ->
  (0 < rem -> N.min rem (len file - pos + 1) <= N.of_nat fuel * BUFFER_SIZE) ->
  exists l r, copy_pieces fuel s inp out pos rem = (l, r) /\ Forall (is_append out) l /\
    (forall g, g <> out -> fs_data (run s l) g = fs_data s g) /\
    if (rem =? 0) || (pos + rem <=? len file)
    then r = Ok tt /\ fs_data (run s l) out = Some (c ++ slice file pos rem)
    else r = Err EIoEof.
Proof.
  intros fuel. induction fuel as [|fuel IH]; intros s inp out file pos rem c Hio Hi Ho Hf.
  - cbn [copy_pieces]. destruct (N.eqb_spec rem 0) as [->|Hr].
    + exists [], (Ok tt). split; [reflexivity|]. split; [constructor|]. split; [reflexivity|]. cbn [orb].
      split; [reflexivity|]. rewrite slice_0, app_nil_r. exact Ho.
    + exfalso. assert (0 < rem) as Hp by lia. specialize (Hf Hp). lia.
  - cbn [copy_pieces]. destruct (N.eqb_spec rem 0) as [->|Hr].
    + exists [], (Ok tt). split; [reflexivity|]. split; [constructor|]. split; [reflexivity|]. cbn [orb].
      split; [reflexivity|]. rewrite slice_0, app_nil_r. exact Ho.
    + cbn [orb]. assert (0 < rem) as Hp by lia. specialize (Hf Hp). rewrite Hi. cbn [now_content].
      set (n := N.min rem BUFFER_SIZE). unfold read_exact_at.
      destruct (get_range file pos (pos + n)) as [b|] eqn:G.
      * apply get_range_spec in G. destruct G as (_ & G & ->).
        replace (pos + n - pos) with n by lia. fold (slice file pos n).
        destruct (IH (apply s (Append out (slice file pos n))) inp out file (pos + n) (rem - n) (c ++ slice file pos n) Hio)
          as (l & r & E & F & O & X).
        { rewrite <- Hi. apply put_other. auto. }
        { cbn [apply]. rewrite Ho. apply put_get. }
        { intros Hp'. unfold n, BUFFER_SIZE in *. lia. }
        rewrite E. exists (Append out (slice file pos n) :: l), r. split; [reflexivity|].
        split; [constructor; [reflexivity|exact F]|]. split.
        { intros g Hg. cbn [run fold_left]. change (fold_left apply l ?x) with (run x l). rewrite O by auto. now apply put_other. }
        cbn [run fold_left]. change (fold_left apply l ?x) with (run x l).
        assert (Hn : n <= rem) by (unfold n; lia).
        destruct (N.leb_spec (pos + rem) (len file)) as [L|L].
        { assert (T : (rem - n =? 0) || (pos + n + (rem - n) <=? len file) = true).
          { apply orb_true_iff. right. apply N.leb_le. lia. }
          rewrite T in X. destruct X as (-> & ->). split; [reflexivity|].
          rewrite <- app_assoc, slice_split. now replace (n + (rem - n)) with rem by lia. }
        { assert (T : (rem - n =? 0) || (pos + n + (rem - n) <=? len file) = false).
          { apply orb_false_iff. split; [apply N.eqb_neq|apply N.leb_gt]; lia. }
          now rewrite T in X. }
      * apply get_range_None in G. exists [], (Err EIoEof). split; [reflexivity|]. split; [constructor|].
        split; [reflexivity|]. assert (Hn : n <= rem) by (unfold n; lia).
        destruct (N.leb_spec (pos + rem) (len file)) as [L|L]; [lia|reflexivity].
Qed.

Lemma fuel_enough : forall s inp file size pos, fs_data s inp = Some file ->
  N.min size (len file - pos + 1) <= N.of_nat (copy_fuel s inp size) * BUFFER_SIZE.
Proof.
  intros s inp file size pos H. unfold copy_fuel. rewrite H. cbn [now_content]. rewrite N2Nat.id.
  pose proof (N.div_mod (N.min size (len file)) BUFFER_SIZE) as D.
  pose proof (N.mod_lt (N.min size (len file)) BUFFER_SIZE) as M.
  assert (BUFFER_SIZE <> 0) by discriminate. specialize (D H0). specialize (M H0).
  unfold BUFFER_SIZE in *. lia.
Qed.

Lemma copy_regions_spec : forall p l s inp out file total c, inp <> out ->
  fs_data s inp = Some file -> fs_data s out = Some c ->
  exists w r, copy_regions p s inp out l total = (w, r) /\ Forall (is_append out) w /\
    (forall g, g <> out -> fs_data (run s w) g = fs_data s g) /\
    (Forall (region_in file) l -> total + sizes l < U64 \/ p = Release -> r = Ok tt) /\
    (r = Ok tt -> Forall (region_in file) l /\ fs_data (run s w) out = Some (c ++ region_bytes file l)) /\
    (r = Panic -> p = Debug /\ U64 <= total + sizes l).
Proof.
  intros p l. induction l as [|g l IH]; intros s inp out file total c Hio Hi Ho.
  - exists [], (Ok tt). split; [reflexivity|]. split; [constructor|]. split; [reflexivity|]. split; [reflexivity|].
    split; [|discriminate]. intros _. split; [constructor|]. cbn. now rewrite app_nil_r.
  - cbn [copy_regions]. unfold seek. change I64 with (2 ^ 63). destruct (N.ltb_spec (rg_offset g) (2 ^ 63)) as [Hs|Hs].
    2: { exists [], (Err EIoSeek). split; [reflexivity|]. split; [constructor|]. split; [reflexivity|].
         split; [|split; discriminate]. intros F. apply Forall_cons_iff in F. destruct F as ((F & _) & _). lia. }
    destruct (copy_pieces_spec (copy_fuel s inp (rg_size g)) s inp out file (rg_offset g) (rg_size g) c Hio Hi Ho)
      as (w & r & E & F & O & X).
    { intros _. now apply fuel_enough. }
    rewrite E. clear E.
    destruct (((rg_size g =? 0) || (rg_offset g + rg_size g <=? len file))) eqn:T.
    + destruct X as (-> & Hw). cbn [bind].
      assert (Rg : region_in file g).
      { split; [exact Hs|]. apply orb_true_iff in T. destruct T as [T|T]; [left; now apply N.eqb_eq|right; now apply N.leb_le]. }
      destruct (uadd p total (rg_size g)) as [t| |] eqn:A.
      * destruct (IH (run s w) inp out file t (c ++ slice file (rg_offset g) (rg_size g)) Hio)
          as (w' & r' & E' & F' & O' & X1 & X2 & X3).
        { rewrite O; auto. }
        { exact Hw. }
        rewrite E'. exists (w ++ w'), r'. split; [reflexivity|]. split; [apply Forall_app; auto|].
        assert (R : run s (w ++ w') = run (run s w) w') by apply fold_left_app.
        rewrite R. split; [intros h Hh; rewrite O' by auto; auto|].
        assert (At : p = Release \/ t = total + rg_size g).
        { unfold uadd in A. destruct (_ <? _); [injection A as <-; auto|]. destruct p; [discriminate|auto]. }
        cbn [sizes fold_right]. change (fold_right _ 0 l) with (sizes l). split; [|split].
        { intros G1 G2. apply Forall_cons_iff in G1. destruct G1 as (_ & G1). apply X1; [exact G1|].
          destruct At as [->| ->]; [now right|]. destruct G2 as [G2|G2]; [left; lia|now right]. }
        { intros ->. destruct (X2 eq_refl) as (Y1 & Y2). split; [constructor; auto|].
          rewrite Y2. unfold region_bytes. cbn [map List.concat]. now rewrite app_assoc. }
        { intros ->. destruct (X3 eq_refl) as (-> & Y2). split; [reflexivity|]. destruct At as [?| ->]; [discriminate|]. lia. }
      * exfalso. unfold uadd in A. destruct (_ <? _); [discriminate|]. destruct p; discriminate.
      * exists w, Panic. split; [reflexivity|]. split; [exact F|]. split; [exact O|].
        unfold uadd in A. destruct (N.ltb_spec (total + rg_size g) U64) as [L|L]; [discriminate|]. destruct p; [|discriminate].
        cbn [sizes fold_right]. change (fold_right _ 0 l) with (sizes l).
        split; [intros _ [G|G]; [lia|discriminate]|]. split; [discriminate|]. intros _. split; [reflexivity|lia].
    + subst r. cbn [bind]. exists w, (Err EIoEof). split; [reflexivity|]. split; [exact F|]. split; [exact O|].
      split; [|split; discriminate]. intros G. apply Forall_cons_iff in G. destruct G as ((_ & G) & _).
      apply orb_false_iff in T. destruct T as (T1 & T2). apply N.eqb_neq in T1. apply N.leb_gt in T2. lia.
Qed.

Lemma dump_spec : forall p s input output l file, fs_read s input = Some file ->
  fs_file s input <> fs_file s output -> fs_can_create s output = true ->
  exists w r, dump_regions p s input output l = (w, r) /\
    (forall q, fs_file s q <> fs_file s output -> fs_read (run s w) q = fs_read s q) /\
    (Forall (region_in file) l -> sizes l < U64 \/ p = Release -> r = Ok tt) /\
    (r = Ok tt -> Forall (region_in file) l /\
       fs_data (run s w) (fs_file s output) = Some (region_bytes file l)) /\
    (r = Panic -> p = Debug /\ U64 <= sizes l).
Proof.
  intros p s input output l file Hr Hio Hc. unfold dump_regions. rewrite Hr, Hc. cbv zeta.
  set (out := fs_file s output) in *.
  destruct (copy_regions_spec p l (apply s (Truncate out)) (fs_file s input) out file 0 [] Hio) as (w & r & E & F & O & X).
  { unfold fs_read in Hr. destruct (fs_can_read s input); [|discriminate]. rewrite <- Hr. now apply put_other. }
  { apply put_get. }
  rewrite E. exists (Truncate out :: w), r. split; [reflexivity|]. split; [|exact X].
  intros q Hq. unfold fs_read. pose proof (run_perm (Truncate out :: w) s) as (P1 & P2 & _). rewrite P1, P2.
  destruct (fs_can_read s q); [|reflexivity]. cbn [run fold_left]. change (fold_left apply w ?x) with (run x w).
  rewrite O by auto. now apply put_other.
Qed.

(** ** format detection *)
Lemma detect_spec : forall f,
  (detect_file_format f = Ok FElf <-> exists t, f = ELFMAG ++ t) /\
  (detect_file_format f = Ok FModule <->
     4 <= len f /\ (forall t, f <> ELFMAG ++ t) /\
     ((exists t, f = [x50; x4b] ++ t) \/ exists o, record_at f o /\ len f <= o + 65557)) /\
  detect_file_format f <> Panic.
Proof.
  intros f. unfold detect_file_format, read_exact_at.
  destruct (N.ltb_spec (len f) 4) as [L|L].
  - rewrite (proj2 (get_range_None f 0 (0 + 4))) by lia. cbn [bind].
    split; [|split].
    + split; [discriminate|]. intros (t & ->). rewrite len_app in L. change (len ELFMAG) with 4 in L. lia.
    + split; [discriminate|]. intros (H & _). lia.
    + discriminate.
  - rewrite get_range_Some by lia. cbn [bind]. rewrite dropN_0. replace (0 + 4 - 0) with 4 by lia.
    destruct (beq (takeN 4 f) ELFMAG) eqn:E.
    + apply beq_eq in E. assert (X : f = ELFMAG ++ dropN 4 f).
      { rewrite <- E. unfold takeN, dropN. now rewrite firstn_skipn. }
      split; [split; [intros _; eauto|reflexivity]|]. split; [|discriminate].
      split; [discriminate|]. intros (_ & H & _). now elim (H (dropN 4 f)).
    + assert (Hne : forall t, f <> ELFMAG ++ t).
      { intros t ->. rewrite (takeN_app_eq 4 ELFMAG t) in E by reflexivity. discriminate E. }
      destruct (beq (takeN 2 (takeN 4 f)) (bstr "PK")) eqn:P.
      * apply beq_eq in P.
        assert (X : f = [x50; x4b] ++ dropN 2 f).
        { change [x50; x4b] with (bstr "PK"). rewrite <- P. rewrite !takeN_firstn, firstn_firstn, dropN_skipn.
          change (Nat.min (N.to_nat 2) (N.to_nat 4)) with (N.to_nat 2). now rewrite firstn_skipn. }
        split; [split; [discriminate|intros (t & Ht); now elim (Hne t)]|]. split; [|discriminate].
        split; [|reflexivity]. intros _. split; [exact L|]. split; [exact Hne|]. left. eauto.
      * assert (Hpk : forall t, f <> [x50; x4b] ++ t).
        { intros t ->. rewrite !takeN_firstn, firstn_firstn in P.
          change (Nat.min (N.to_nat 2) (N.to_nat 4)) with 2%nat in P. vm_compute in P. discriminate P. }
        assert (Z := find_eocd_exists f).
        destruct (find_eocd f (len f)) as [e|e|] eqn:Ef.
        -- split; [split; [discriminate|intros (t & Ht); now elim (Hne t)]|]. split; [|discriminate].
           split; [|reflexivity]. intros _. split; [exact L|]. split; [exact Hne|]. right. apply Z. eauto.
        -- split; [split; [discriminate|intros (t & Ht); now elim (Hne t)]|]. split; [|discriminate].
           split; [discriminate|]. intros (_ & _ & [(t & Ht)|Ho]); [now elim (Hpk t)|].
           apply Z in Ho. destruct Ho. discriminate.
        -- exfalso. now apply (find_eocd_no_panic f).
Qed.

(** ** signing in place *)
Lemma open_module : forall rest file x, signable_open rest (Some file) = Ok x ->
  match x with SModule m => m = module_new file | SElf f => el_data f = file end.
Proof.
  intros rest file x H. unfold signable_open in H. cbn [of_option bind] in H.
  destruct (detect_file_format file) as [[]| |]; cbn [bind] in H; try discriminate.
  - now injection H as <-.
  - unfold elf_new in H. destruct (elf_parse rest file); cbn [bind] in H; try discriminate. now injection H as <-.
Qed.
Lemma choose_kind : forall x l y, choose_sections x l = Ok y ->
  match x with SModule m => y = SModule m | SElf f => exists g, y = SElf g /\ el_data g = el_data f end.
Proof.
  intros x l y H. unfold choose_sections in H. destruct l as [|n l].
  - injection H as <-. destruct x; eauto.
  - unfold set_elf_sections in H. destruct x as [m|f]; [discriminate|].
    destruct (set_signed_sections f (n :: l)) as [g| |] eqn:E; cbn [bind] in H; try discriminate. injection H as <-.
    exists g. split; [reflexivity|]. unfold set_signed_sections in E. cbv zeta in E.
    destruct (filter _ _); [discriminate|]. destruct (existsb _ _); [discriminate|]. now injection E as <-.
Qed.

Lemma sign_block_kind : forall p C L rest clk ds s a x b, cli_sign_block p C L rest clk ds s a = Ok (x, b) ->
  exists file, fs_read s (sa_input a) = Some file /\
  match x with SModule m => m = module_new file | SElf f => el_data f = file end.
Proof.
  intros p C L rest clk ds s a x b H. unfold cli_sign_block in H.
  destruct (cli_signer L s a) as [sg| |]; cbn [bind] in H; try discriminate. cbv zeta in H.
  destruct (fs_read s (sa_input a)) as [file|] eqn:Ef; [|discriminate].
  destruct (signable_open rest (Some file)) as [x0| |] eqn:E0; cbn [bind] in H; try discriminate.
  destruct (choose_sections x0 (sa_sections a)) as [x1| |] eqn:E1; cbn [bind] in H; try discriminate.
  destruct (signable_regions p rest x1 (Some file)) as [rg| |]; cbn [bind] in H; try discriminate.
  destruct (cli_digests _ _ _ _ _ _ _) as [l| |]; cbn [bind] in H; try discriminate.
  destruct (ms_sign _ _ _ _ _) as [b0| |]; cbn [bind] in H; try discriminate.
  destruct (cli_add_info rest x1 b0) as [b1| |]; cbn [bind] in H; try discriminate.
  injection H as <- <-. exists file. split; [reflexivity|].
  apply open_module in E0. apply choose_kind in E1. destruct x0 as [m|f].
  - now subst.
  - destruct E1 as (g & -> & Hg). congruence.
Qed.

Lemma source_empty : forall p n b, exists x,
  s_write_with_signature p (mkModule false n None) [] b = ([], Err (ECannotSignCorrupted x)).
Proof.
  intros p n b. unfold s_write_with_signature, s_source, m_get_signing_block, m_find_eocd. cbn [m_sig m_raw m_len].
  unfold find_eocd. destruct (n <? MIN_EOCD_SIZE) eqn:E; [eexists; reflexivity|].
  cbv zeta. unfold read_exact_at. rewrite (proj2 (get_range_None [] _ _)); [eexists; reflexivity|].
  apply N.ltb_ge in E. change (len []) with 0. unfold MIN_EOCD_SIZE in *. right. lia.
Qed.

Lemma in_place_module : forall p C L rest clk ds s a steps r file,
  cli_sign p C L rest clk ds s a = (steps, r) ->
  fs_file s (sa_output a) = fs_file s (sa_input a) ->
  fs_read s (sa_input a) = Some file -> (forall t, file <> ELFMAG ++ t) ->
  r <> Ok tt /\
  ((steps = [] /\ fs_read (run s steps) (sa_input a) = Some file) \/
   (steps <> [] /\ fs_read (run s steps) (sa_input a) = Some [])).
Proof.
  intros p C L rest clk ds s a steps r file H Hio Hr Hne. apply sign_steps in H.
  destruct H as [(-> & Hnr)|(x & b & w & HB & Hc & -> & HW)]; [auto|].
  assert (HX : x = SModule (module_new file)).
  { destruct (sign_block_kind _ _ _ _ _ _ _ _ _ _ HB) as (file' & Hf' & Hx). rewrite Hr in Hf'. injection Hf' as <-.
    destruct x as [m|f]; [now subst|]. exfalso.
    unfold cli_sign_block in HB. destruct (cli_signer L s a); cbn [bind] in HB; try discriminate.
    cbv zeta in HB. rewrite Hr in HB. unfold signable_open in HB. cbn [of_option bind] in HB.
    destruct (detect_file_format file) as [[]| |] eqn:D; cbn [bind] in HB; try discriminate.
    - destruct (choose_sections _ _) as [x1| |] eqn:E1; cbn [bind] in HB; try discriminate.
      apply choose_kind in E1. subst x1. destruct (signable_regions _ _ _ _); cbn [bind] in HB; try discriminate.
      destruct (cli_digests _ _ _ _ _ _ _) as [l| |]; cbn [bind] in HB; try discriminate.
      destruct (ms_sign _ _ _ _ _) as [b0| |]; cbn [bind] in HB; try discriminate.
    - apply detect_spec in D. destruct D as (t & ->). now elim (Hne t). }
  subst x. assert (Hcr : fs_can_read s (sa_input a) = true).
  { unfold fs_read in Hr. destruct (fs_can_read s (sa_input a)); [reflexivity|discriminate]. }
  rewrite (truncate_same _ _ (sa_input a)) in HW by auto.
  unfold signable_write, now_content, module_new in HW.
  destruct (source_empty p (len file) b) as (e & E). rewrite E in HW. injection HW as <- <-.
  split; [discriminate|]. right. split; [discriminate|].
  unfold fs_read. pose proof (run_perm [Truncate (fs_file s (sa_output a)); Append (fs_file s (sa_output a)) []] s) as (P1 & P2 & _).
  rewrite P1, P2, Hcr, <- Hio. cbn [run fold_left apply]. now rewrite !put_get.
Qed.

(** An ELF file was read into memory when it was opened: the output does not
    depend on where it goes. *)
Lemma in_place_elf : forall p C L rest clk ds s a o t,
  fs_read s (sa_input a) = Some (ELFMAG ++ t) ->
  fs_can_create s (sa_output a) = true -> fs_can_create s o = true ->
  let a' := mkSignArgs (sa_input a) o (sa_v2 a) (sa_stamp a) (sa_sections a) in
  let '(steps, r) := cli_sign p C L rest clk ds s a in
  let '(steps', r') := cli_sign p C L rest clk ds s a' in
  r' = r /\
  ((steps = [] /\ steps' = [] /\ r <> Ok tt) \/
   exists w, fs_data (run s steps) (fs_file s (sa_output a)) = Some w /\
             fs_data (run s steps') (fs_file s o) = Some w /\ (r <> Ok tt -> w = [])).
Proof.
  intros p C L rest clk ds s a o t Hr Hc1 Hc2. cbv zeta.
  set (a' := mkSignArgs (sa_input a) o (sa_v2 a) (sa_stamp a) (sa_sections a)).
  assert (HB : cli_sign_block p C L rest clk ds s a' = cli_sign_block p C L rest clk ds s a) by reflexivity.
  unfold cli_sign. rewrite HB. destruct (cli_sign_block p C L rest clk ds s a) as [(x & b)|e|] eqn:EB.
  2, 3: split; [reflexivity|]; left; split; [reflexivity|]; split; [reflexivity|discriminate].
  rewrite Hc1. change (sa_output a') with o. change (sa_input a') with (sa_input a). rewrite Hc2. cbv zeta.
  assert (HX : exists f, x = SElf f).
  { destruct x as [m|f]; [|eauto]. exfalso.
    unfold cli_sign_block in EB. destruct (cli_signer L s a); cbn [bind] in EB; try discriminate.
    cbv zeta in EB. rewrite Hr in EB. unfold signable_open in EB. cbn [of_option bind] in EB.
    assert (D : detect_file_format (ELFMAG ++ t) = Ok FElf) by (apply detect_spec; eauto).
    rewrite D in EB. cbn [bind] in EB. destruct (elf_new rest (ELFMAG ++ t)) as [f| |]; cbn [bind] in EB; try discriminate.
    destruct (choose_sections _ _) as [x1| |] eqn:E1; cbn [bind] in EB; try discriminate.
    apply choose_kind in E1. destruct E1 as (g & -> & _).
    destruct (signable_regions _ _ _ _); cbn [bind] in EB; try discriminate.
    destruct (cli_digests _ _ _ _ _ _ _) as [l| |]; cbn [bind] in EB; try discriminate.
    destruct (ms_sign _ _ _ _ _) as [b0| |]; cbn [bind] in EB; try discriminate.
    destruct (cli_add_info _ _ _) as [b1| |]; cbn [bind] in EB; try discriminate. }
  destruct HX as (f & ->). cbn [signable_write].
  destruct (elf_write_with_signature rest f b) as [out|e|]; cbn [fst snd].
  all: split; [reflexivity|]; right; eexists; cbn [run fold_left apply]; rewrite !put_get; cbn [app].
  all: split; [reflexivity|]; split; [reflexivity|]; intros ?; congruence.
Qed.

(** ** verify *)

Lemma cli_roots_iff : forall K builtin s root tr,
  cli_roots K builtin s root = Ok tr <-> exists roots, roots_given K builtin s root roots /\ tr = configured K roots.
Proof.
  intros K builtin s root tr. unfold cli_roots, roots_given. destruct root as [q|].
  - destruct (fs_read s q) as [pem|]; cbn [of_option bind].
    2: { split; [discriminate|]. intros (r & (? & ? & ? & _) & _). discriminate. }
    destruct (add_root_pem K roots_new pem) as [r|] eqn:E; cbn [of_option].
    + destruct (pem_root K [] pem r E) as (cert & P & ->). split.
      * intros [= <-]. exists [cert]. split; [eauto 6|reflexivity].
      * intros (roots & (pem' & cert' & [= <-] & P' & ->) & ->). rewrite P in P'. injection P' as <-. reflexivity.
    + split; [discriminate|]. intros (roots & (pem' & cert' & [= <-] & P' & ->) & ->).
      unfold add_root_pem in E. rewrite P' in E. rewrite (proj2 (beq_eq _ _) eq_refl) in E. discriminate.
  - rewrite builtin_roots. destruct (pem_parse K builtin) as [(tag & cert)|].
    + destruct (beq tag CERTIFICATE_TAG); (split; [intros [= <-]; eauto|intros (r & -> & ->); reflexivity]).
    + split; [intros [= <-]; eauto|intros (r & -> & ->); reflexivity].
Qed.

(** Whether a digest can be computed does not depend on the algorithm. *)
Lemma digest_status : forall p C1 C2 s1 s2 m f a1 a2 d1, m_digest p C1 s1 m f a1 = Ok d1 ->
  exists d2, m_digest p C2 s2 m f a2 = Ok d2.
Proof.
  intros p C1 C2 s1 s2 m f a1 a2 d1 H. unfold m_digest, digest_module, digest_region, digest_eocd in *.
  destruct (m_get_offsets p m f) as [o| |]; cbn [bind] in *; try discriminate.
  destruct (usub p _ _) as [n1| |]; cbn [bind] in *; try discriminate.
  destruct (seek _) as [| |]; cbn [bind] in *; try discriminate.
  destruct (usub p (fo_stop_cd o) _) as [n2| |]; cbn [bind] in *; try discriminate.
  destruct (seek (fo_start_cd o)) as [| |]; cbn [bind] in *; try discriminate.
  destruct (usub p (fo_stop_eocd o) _) as [n3| |]; cbn [bind] in *; try discriminate.
  destruct (seek (fo_start_eocd o)) as [| |]; cbn [bind] in *; try discriminate.
  cbv zeta in *. destruct (I64 <=? n3); [discriminate|].
  destruct (len (dropN (fo_start_eocd o) f) <? 16); [discriminate|].
  destruct (len (dropN (fo_start_eocd o) f) <? 20); [discriminate|]. cbn [bind]. eauto.
Qed.

Definition known (a : algorithms) : Prop := a = ECDSA_SHA2_256 \/ a = ECDSA_SHA2_512.
Lemma accepted_known : forall C a key data sig, accepted C a key data sig -> known a.
Proof. intros C a key data sig H. destruct a; [now left|now right|destruct H]. Qed.

Lemma v2_good_known : forall C K now roots (D1 D2 : algorithms -> bytes -> Prop) s,
  (forall a d, known a -> D1 a d -> D2 a d) ->
  v2_signer_good C K now roots D1 s -> v2_signer_good C K now roots D2 s.
Proof.
  intros C K now roots D1 D2 s H (A & B & X). split; [exact A|]. split; [|exact X].
  eapply Forall_impl; [|exact B]. intros g (G & d & S & Y). split; [exact G|]. exists d. split; [exact S|].
  apply H; [eapply accepted_known; exact G|exact Y].
Qed.
Lemma stamp_good_known : forall C K now roots (D1 D2 : algorithms -> bytes -> Prop) s,
  (forall a d, known a -> D1 a d -> D2 a d) ->
  stamp_good C K now roots D1 s -> stamp_good C K now roots D2 s.
Proof.
  intros C K now roots D1 D2 s H (A & B). split; [|exact B].
  eapply Forall_impl; [|exact A]. intros g (G & Y). split; [exact G|]. intros d S.
  apply H; [eapply accepted_known; exact G|auto].
Qed.

Lemma conclusion_iff : forall v2 stamp,
  cli_conclusion v2 stamp = Ok tt <-> present v2 = true /\ vres_ok v2 = true /\ vres_ok stamp = true.
Proof.
  intros v2 stamp. unfold cli_conclusion.
  destruct v2 as [r|[]]; cbn [present vres_ok]; [|split; [discriminate|intros (? & _); discriminate]
    |split; [discriminate|intros (_ & ? & _); discriminate]..].
  destruct (vr_signature_valid r), (vr_digest_valid r), (vr_chain_valid r), (vr_trusted r); cbn [negb andb];
    try (split; [discriminate|intros (_ & ? & _); discriminate]).
  destruct stamp as [q|[]]; cbn [vres_ok].
  - destruct (vr_signature_valid q && vr_digest_valid q && vr_chain_valid q && vr_trusted q).
    + split; [auto|reflexivity].
    + split; [discriminate|intros (_ & _ & ?); discriminate].
  - split; auto.
  - split; [discriminate|intros (_ & _ & ?); discriminate].
  - split; [discriminate|intros (_ & _ & ?); discriminate].
Qed.

Lemma cli_verify_iff : forall p C K builtin now ds s file root,
  cli_verify p C K builtin now ds s file root = Ok tt <->
  exists f b roots, fs_read s file = Some f /\ m_get_signing_block p (module_new f) f = Ok b /\
    roots_given K builtin s root roots /\
    let D := fun a d => m_digest p C (ds a) (module_new f) f a = Ok d in
    v2_signers_of b <> [] /\ Forall (v2_signer_good C K now roots D) (v2_signers_of b) /\
    match stamps_of b with [] => True | st :: _ => stamp_good C K now roots D st end.
Proof.
  intros p C K builtin now ds s file root. unfold cli_verify.
  destruct (fs_read s file) as [f|]; cbn [of_option bind].
  2: { split; [discriminate|]. intros (f & b & roots & ? & _). discriminate. }
  destruct (m_get_signing_block p (module_new f) f) as [b|e|] eqn:EB; cbn [map_err bind].
  2, 3: split; [discriminate|intros (f' & b & roots & [= <-] & E & _); congruence].
  destruct (cli_roots K builtin s root) as [tr|e|] eqn:ER; cbn [bind].
  2, 3: split; [discriminate|intros (f' & b' & roots & _ & _ & R & _)];
    assert (X : exists roots, roots_given K builtin s root roots /\ configured K roots = configured K roots) by eauto;
    destruct X as (rr & R1 & _); assert (Y : cli_roots K builtin s root = Ok (configured K rr)) by (apply cli_roots_iff; eauto); congruence.
  apply cli_roots_iff in ER. destruct ER as (roots & RG & ->).
  set (D := fun a d => m_digest p C (ds a) (module_new f) f a = Ok d).
  assert (RU : forall roots', roots_given K builtin s root roots' -> roots' = roots).
  { intros roots' R'. unfold roots_given in *. destruct root as [q|].
    - destruct RG as (p1 & c1 & A1 & A2 & ->), R' as (p2 & c2 & B1 & B2 & ->). congruence.
    - destruct (pem_parse K builtin) as [(tag & c)|]; [destruct (beq tag CERTIFICATE_TAG)|]; congruence. }
  assert (Goal2 : forall ctx, (forall a d, known a -> (computed ctx a d <-> D a d)) ->
    (cli_conclusion (verify_v2_with_digest C K now (configured K roots) b (Some ctx))
       (verify_source_stamp_with_digest C K now (configured K roots) b (Some ctx)) = Ok tt <->
     v2_signers_of b <> [] /\ Forall (v2_signer_good C K now roots D) (v2_signers_of b) /\
     match stamps_of b with [] => True | st :: _ => stamp_good C K now roots D st end)).
  { intros ctx HD. rewrite conclusion_iff.
    pose proof (is_valid_iff C K now roots b ctx) as V. unfold is_valid, verify_all_with_digest in V.
    cbn [va_v2 va_stamp] in V. rewrite andb_true_iff in V.
    pose proof (has_v2_iff C K now (configured K roots) b (Some ctx)) as P. unfold has_v2, verify_all_with_digest in P.
    cbn [va_v2] in P. rewrite P, V.
    assert (E1 : Forall (v2_signer_good C K now roots (computed ctx)) (v2_signers_of b) <->
                 Forall (v2_signer_good C K now roots D) (v2_signers_of b)).
    { split; intros F; (eapply Forall_impl; [|exact F]); intros x; apply v2_good_known; intros a d Ka; apply HD; exact Ka. }
    assert (E2 : match stamps_of b with [] => True | st :: _ => stamp_good C K now roots (computed ctx) st end <->
                 match stamps_of b with [] => True | st :: _ => stamp_good C K now roots D st end).
    { destruct (stamps_of b); [tauto|]. split; apply stamp_good_known; intros a d Ka; apply HD; exact Ka. }
    rewrite E1, E2. tauto. }
  unfold cli_add_digest.
  destruct (m_digest p C (ds ECDSA_SHA2_256) (module_new f) f ECDSA_SHA2_256) as [d1|e1|] eqn:D1; cbn [bind].
  - destruct (digest_status p C C (ds ECDSA_SHA2_256) (ds ECDSA_SHA2_512) (module_new f) f ECDSA_SHA2_256 ECDSA_SHA2_512 d1 D1) as (d2 & D2).
    rewrite D2. cbn [bind add_digest ctx_new].
    rewrite Goal2.
    + split.
      * intros X. exists f, b, roots. auto.
      * intros (f' & b' & roots' & [= <-] & Hb & R & X). rewrite EB in Hb. injection Hb as <-.
        rewrite (RU _ R) in X. exact X.
    + intros a d [->| ->]; unfold computed, D; cbn -[N.eqb].
      * change (u32_of_algo ECDSA_SHA2_512 =? u32_of_algo ECDSA_SHA2_256) with false.
        rewrite N.eqb_refl. cbv iota. rewrite D1. split; intros [= <-]; reflexivity.
      * rewrite N.eqb_refl. cbv iota. rewrite D2. split; intros [= <-]; reflexivity.
  - assert (NoD : forall a d, ~ D a d).
    { intros a d Hd. destruct (digest_status p C C (ds a) (ds ECDSA_SHA2_256) (module_new f) f a ECDSA_SHA2_256 d Hd) as (x & Hx). congruence. }
    assert (Bad : ~ (v2_signers_of b <> [] /\ Forall (v2_signer_good C K now roots D) (v2_signers_of b))).
    { intros (N1 & F). destruct (v2_signers_of b) as [|x l]; [contradiction|]. apply Forall_cons_iff in F.
      destruct F as ((G1 & G2 & _) & _). destruct (sgs_data (sn_sigs x)) as [|g gs]; [contradiction|].
      apply Forall_cons_iff in G2. destruct G2 as ((_ & d & _ & X) & _). exact (NoD _ d X). }
    destruct (m_digest p C (ds ECDSA_SHA2_512) (module_new f) f ECDSA_SHA2_512) as [d2|e2|] eqn:D2; cbn [bind].
    + exfalso. now apply (NoD ECDSA_SHA2_512 d2).
    + split; [discriminate|]. intros (f' & b' & roots' & [= <-] & Hb & R & X1 & X2 & _). rewrite EB in Hb. injection Hb as <-.
      rewrite (RU _ R) in X2. elim Bad. auto.
    + split; [discriminate|]. intros (f' & b' & roots' & [= <-] & Hb & R & X1 & X2 & _). rewrite EB in Hb. injection Hb as <-.
      rewrite (RU _ R) in X2. elim Bad. auto.
  - assert (NoD : forall a d, ~ D a d).
    { intros a d Hd. destruct (digest_status p C C (ds a) (ds ECDSA_SHA2_256) (module_new f) f a ECDSA_SHA2_256 d Hd) as (x & Hx). congruence. }
    split; [discriminate|]. intros (f' & b' & roots' & [= <-] & Hb & R & X1 & X2 & _). rewrite EB in Hb. injection Hb as <-.
    exfalso. rewrite (RU _ R) in X2. destruct (v2_signers_of b) as [|x l]; [contradiction|]. apply Forall_cons_iff in X2.
    destruct X2 as ((G1 & G2 & _) & _). destruct (sgs_data (sn_sigs x)) as [|g gs]; [contradiction|].
    apply Forall_cons_iff in G2. destruct G2 as ((_ & d & _ & X) & _). exact (NoD _ d X).
Qed.
