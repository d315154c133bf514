(** SignPrintFacts.v - the lines of the sign and digest commands. *)
From Verif Require Import Base BaseFacts Utils Algorithms Common SchemeV2 SourceStamp Utf8 ElfInfo SigningBlock
  Wire Built BuiltFacts CodecFacts BlockFacts Spec LimitFacts Zip Digest Module Signable ZipSpec RegionSpec ZipFacts
  ModuleFacts ModuleProps RawFacts Signer Verifier ModuleVerify VerifySpec VerifyFacts SignSpec SignFacts VerifyProps
  EndToEnd Keystore KeySpec Elf ElfSpec ElfFacts ElfProps2 Cli CliSpec CliFacts CliProps CliProps2 CliProps3 CliProps4 SignPrint SignPrintSpec.
From Coq Require Import Strings.String Lia.
Open Scope N_scope.

Lemma digests_print_spec : forall p C rest ds x file l done k,
  (exists r, cli_digests p C rest ds x file l = Ok r /\
     digests_print p C rest ds x file l done k = say (map SDigest l) (k (done ++ r))) \/
  (exists l1, (exists e, cli_digests p C rest ds x file l = Err e /\
                 digests_print p C rest ds x file l done k = (map SDigest l1, ([], Err e))) \/
              (cli_digests p C rest ds x file l = Panic /\
                 digests_print p C rest ds x file l done k = (map SDigest l1, ([], Panic)))).
Proof.
  intros p C rest ds x file l. induction l as [|a l IH]; intros done k; cbn [cli_digests digests_print].
  - left. exists []. split; [reflexivity|]. rewrite app_nil_r. unfold say. cbn [map app]. now destruct (k done).
  - destruct (signable_digest p C rest ds x file a) as [d|e|]; cbn [bind attempt].
    + destruct (IH (done ++ [(a, d)]) k) as [(r & -> & ->)|(l1 & [(e & -> & ->)|(-> & ->)])]; cbn [bind].
      * left. exists ((a, d) :: r). split; [reflexivity|]. rewrite <- app_assoc. reflexivity.
      * right. exists (a :: l1). left. exists e. split; reflexivity.
      * right. exists (a :: l1). right. split; reflexivity.
    + right. exists [a]. left. exists e. split; reflexivity.
    + right. exists [a]. right. split; reflexivity.
Qed.

(** What is printed before a run ends: in a run that does not get to the output
    none of the last lines; in one that does all the lines. *)
Definition early (x : sline) : Prop :=
  match x with SSuccess | SOutputFile _ | SWriting | SBlock _ => False | _ => True end.

Definition all_lines (a : sign_args) (signer : module_signer) (x : signable) (regions : list region) (b : signing_block) : list sline :=
  [SStart; SInput (sa_input a); SOutput (sa_output a); SBlank; SKey] ++
  match ms_stamp signer with Some _ => [SStampKey] | None => [] end ++
  [SFormat (signable_format x); SRegions] ++ map SRegion regions ++
  [SAlgorithms (len (required_algorithms signer)); SCalculating] ++
  map SDigest (required_algorithms signer) ++ [SDigested; SSigning; SBlock (len (block_to_u8 b)); SWriting].

Lemma sign_lines : forall p C L rest clk ds s a,
  (exists out r, sign_prints p C L rest clk ds s a = (out, ([], r)) /\ cli_sign p C L rest clk ds s a = ([], r) /\ r <> Ok tt /\
     Forall early out /\ (forall x b, cli_sign_block p C L rest clk ds s a <> Ok (x, b))) \/
  (exists signer x regions b steps r, cli_signer L s a = Ok signer /\ cli_sign_block p C L rest clk ds s a = Ok (x, b) /\
     signable_regions p rest x (fs_read s (sa_input a)) = Ok regions /\
     cli_sign p C L rest clk ds s a = (steps, r) /\
     sign_prints p C L rest clk ds s a =
       (all_lines a signer x regions b ++ match r with Ok _ => [SSuccess; SOutputFile (sa_output a)] | _ => [] end, (steps, r))).
Proof.
  intros p C L rest clk ds s a. unfold sign_prints, cli_sign, cli_sign_block, cli_signer. cbv zeta.
  assert (FE : forall l, Forall early (map SDigest l)) by (intros; apply Forall_forall; intros y I; apply in_map_iff in I as (? & <- & _); exact I).
  assert (FR : forall l, Forall early (map SRegion l)) by (intros; apply Forall_forall; intros y I; apply in_map_iff in I as (? & <- & _); exact I).
  Local Ltac fin := left; eexists; eexists; split; [reflexivity|]; split; [reflexivity|]; split; [discriminate|];
    split; [cbn [fst app]; repeat (apply Forall_cons; [exact I|] || apply Forall_nil || (apply Forall_app; split) || assumption || (cbn [fst]; solve [auto]))|intros; discriminate].
  destruct (load_credentials L s (sa_v2 a)) as [[v2|]|e|]; cbn [bind of_option attempt]; try fin.
  destruct (load_credentials L s (sa_stamp a)) as [st|e|]; cbn [bind of_option attempt]; try fin.
  set (signer := match st with Some st => ms_with_stamp (config_from_credentials v2) (config_from_credentials st)
                       | None => ms_v2_only (config_from_credentials v2) end).
  assert (ES : match st with Some st => Ok (ms_with_stamp (config_from_credentials v2) (config_from_credentials st))
                        | None => Ok (ms_v2_only (config_from_credentials v2)) end = Ok signer) by (unfold signer; destruct st; reflexivity).
  rewrite ES. cbn [bind].
  assert (EK : match st with Some _ => [SStampKey] | None => [] end = match ms_stamp signer with Some _ => [SStampKey] | None => [] end)
    by (unfold signer; destruct st; reflexivity).
  rewrite EK. clearbody signer. clear ES EK.
  assert (FS : Forall early (match ms_stamp signer with Some _ => [SStampKey] | None => [] end)) by (destruct (ms_stamp signer); repeat constructor).
  destruct (signable_open rest (fs_read s (sa_input a))) as [x0|e|]; cbn [bind attempt]; try fin.
  destruct (choose_sections x0 (sa_sections a)) as [x|e|]; cbn [bind attempt]; try fin.
  destruct (signable_regions p rest x (fs_read s (sa_input a))) as [rg|e|] eqn:EG; cbn [bind attempt]; try fin.
  match goal with |- context [digests_print p C rest ds x ?f ?l [] ?k] =>
    destruct (digests_print_spec p C rest ds x f l [] k) as [(r & -> & ->)|(l1 & [(e & -> & ->)|(-> & ->)])] end; cbn [bind app]; try fin.
  destruct (ms_sign p C clk signer (digests_of_pairs r)) as [b0|e|]; cbn [bind attempt]; try fin.
  destruct (cli_add_info rest x b0) as [b|e|]; cbn [bind attempt]; try fin.
  right. destruct (fs_can_create s (sa_output a)).
  - destruct (signable_write p rest x _ b) as [w r'].
    exists signer, x, rg, b, [Truncate (fs_file s (sa_output a)); Append (fs_file s (sa_output a)) w], r'.
    repeat (split; [reflexivity || assumption|]). unfold say, all_lines. cbn [fst snd]. f_equal.
    do 8 (cbn [app]; rewrite <- ?app_assoc). reflexivity.
  - exists signer, x, rg, b, [], (Err (ECli 6)).
    repeat (split; [reflexivity || assumption|]). unfold say, all_lines. cbn [fst snd]. f_equal.
    do 8 (cbn [app]; rewrite <- ?app_assoc). reflexivity.
Qed.

Lemma three {A B C} (a a' : A) (b b' : B) (c c' : C) : (a, (b, c)) = (a', (b', c')) -> a = a' /\ b = b' /\ c = c'.
Proof. intros E. injection E. auto. Qed.

Lemma all_lines_no_success : forall a signer x rg b, ~ In SSuccess (all_lines a signer x rg b).
Proof.
  intros a signer x rg b I. unfold all_lines in I.
  repeat (rewrite in_app_iff in I || rewrite in_map_iff in I || cbn [In] in I).
  destruct (ms_stamp signer); cbn [In] in I;
  repeat match goal with H : _ \/ _ |- _ => destruct H | H : False |- _ => destruct H | H : exists _, _ |- _ => destruct H | H : _ /\ _ |- _ => destruct H end; discriminate.
Qed.

Lemma early_not : forall out x, Forall early out -> ~ early x -> ~ In x out.
Proof. intros out x F N I. rewrite Forall_forall in F. now apply N, F. Qed.

Lemma sign_print_status : forall p C L rest clk ds s a lines steps r,
  sign_prints p C L rest clk ds s a = (lines, (steps, r)) ->
  cli_sign p C L rest clk ds s a = (steps, r) /\
  (In SSuccess lines <-> r = Ok tt) /\
  (r = Ok tt -> exists l, lines = l ++ [SSuccess; SOutputFile (sa_output a)]) /\
  (~ In SWriting lines -> steps = [] /\ r <> Ok tt).
Proof.
  intros p C L rest clk ds s a lines steps r H.
  destruct (sign_lines p C L rest clk ds s a) as [(out & r' & E1 & E2 & N & F & _)|(sg & x & rg & b & st & r' & _ & _ & _ & E2 & E1)];
    rewrite H in E1; apply three in E1 as (-> & -> & ->).
  - split; [exact E2|]. split; [|split; [congruence|auto]]. split; [|congruence]. intros I. exfalso. now apply (early_not out SSuccess) in I.
  - split; [exact E2|]. split; [|split].
    + split; [|intros ->; apply in_app_iff; right; now left]. intros I. apply in_app_iff in I as [I|I]; [now apply all_lines_no_success in I|].
      destruct r' as [[]|e|]; [reflexivity|destruct I|destruct I].
    + intros ->. eauto.
    + intros W. exfalso. apply W. apply in_app_iff. left. unfold all_lines. rewrite !in_app_iff. do 6 right. cbn [In]. auto.
Qed.

(** A run that gets to the end. *)
Lemma success_lines : forall p C L rest clk ds s a lines steps,
  sign_prints p C L rest clk ds s a = (lines, (steps, Ok tt)) ->
  exists signer x regions b, cli_signer L s a = Ok signer /\ cli_sign_block p C L rest clk ds s a = Ok (x, b) /\
     signable_regions p rest x (fs_read s (sa_input a)) = Ok regions /\ cli_sign p C L rest clk ds s a = (steps, Ok tt) /\
     lines = all_lines a signer x regions b ++ [SSuccess; SOutputFile (sa_output a)].
Proof.
  intros p C L rest clk ds s a lines steps H.
  destruct (sign_lines p C L rest clk ds s a) as [(out & r' & E1 & E2 & N & F & _)|(sg & x & rg & b & st & r' & E3 & E4 & E5 & E2 & E1)];
    rewrite H in E1; apply three in E1 as (-> & -> & E).
  - congruence.
  - exists sg, x, rg, b. subst r'. auto.
Qed.

Lemma pick_app {A B} (f : A -> option B) l1 l2 : pick f (l1 ++ l2) = pick f l1 ++ pick f l2.
Proof. induction l1 as [|x l1 IH]; cbn [pick app]; [reflexivity|]. rewrite IH. now destruct (f x). Qed.
Lemma pick_map {A B C} (g : C -> A) (f : A -> option B) h l : (forall c, f (g c) = Some (h c)) -> pick f (map g l) = map h l.
Proof. intros H. induction l as [|x l IH]; cbn [pick map]; [reflexivity|]. now rewrite H, IH. Qed.
Lemma pick_none {A B C} (g : C -> A) (f : A -> option B) l : (forall c, f (g c) = None) -> pick f (map g l) = [].
Proof. intros H. induction l as [|x l IH]; cbn [pick map]; [reflexivity|]. now rewrite H, IH. Qed.

Lemma all_picks : forall a signer x rg b,
  pick region_line (all_lines a signer x rg b) = rg /\ pick digest_line (all_lines a signer x rg b) = required_algorithms signer /\
  pick block_line (all_lines a signer x rg b) = [len (block_to_u8 b)] /\
  pick count_line (all_lines a signer x rg b) = [len (required_algorithms signer)] /\
  pick format_line (all_lines a signer x rg b) = [signable_format x].
Proof.
  intros a signer x rg b. unfold all_lines. rewrite !pick_app.
  assert (E : forall B (f : sline -> option B), f SStampKey = None -> pick f (match ms_stamp signer with Some _ => [SStampKey] | None => [] end) = []).
  { intros B f NN. destruct (ms_stamp signer); cbn [pick]; [now rewrite NN|reflexivity]. }
  rewrite !E by reflexivity.
  rewrite (pick_map SRegion region_line (fun g => g)), map_id by reflexivity.
  rewrite (pick_map SDigest digest_line (fun g => g)), map_id by reflexivity.
  rewrite !(pick_none SRegion) by reflexivity. rewrite !(pick_none SDigest) by reflexivity.
  cbn [pick region_line digest_line block_line count_line format_line app]. rewrite !app_nil_r. auto 10.
Qed.
Lemma success_picks : forall a signer x rg b,
  let lines := all_lines a signer x rg b ++ [SSuccess; SOutputFile (sa_output a)] in
  pick region_line lines = rg /\ pick digest_line lines = required_algorithms signer /\
  pick block_line lines = [len (block_to_u8 b)] /\
  pick count_line lines = [len (required_algorithms signer)] /\ pick format_line lines = [signable_format x].
Proof.
  intros a signer x rg b lines. unfold lines. rewrite !pick_app. cbn [pick region_line digest_line block_line count_line format_line].
  rewrite !app_nil_r. apply all_picks.
Qed.

Lemma sign_print_keys : forall p C L rest clk ds s a lines steps,
  sign_prints p C L rest clk ds s a = (lines, (steps, Ok tt)) ->
  exists signer, cli_signer L s a = Ok signer /\ In SKey lines /\ (In SStampKey lines <-> ms_stamp signer <> None) /\
  NoDup (pick digest_line lines) /\
  (forall x, In x (pick digest_line lines) <-> exists c, (ms_v2 signer = Some c \/ ms_stamp signer = Some c) /\ sc_algo c = x) /\
  pick count_line lines = [len (pick digest_line lines)].
Proof.
  intros p C L rest clk ds s a lines steps H.
  destruct (success_lines _ _ _ _ _ _ _ _ _ _ H) as (signer & x & rg & b & E1 & _ & _ & _ & ->).
  destruct (success_picks a signer x rg b) as (_ & P1 & _ & P2 & _). rewrite P1, P2.
  exists signer. split; [exact E1|]. split; [cbn; auto 10|]. split; [|destruct (required_spec signer); auto].
  unfold all_lines. rewrite !in_app_iff, !in_map_iff. cbn [In]. destruct (ms_stamp signer); cbn [In].
  - split; [discriminate|auto 10].
  - split; [|congruence]. intros I. exfalso.
    repeat match goal with H : _ \/ _ |- _ => destruct H | H : False |- _ => destruct H | H : exists _, _ |- _ => destruct H | H : _ /\ _ |- _ => destruct H end; discriminate.
Qed.

(** ** Modules *)
Lemma module_region_list : forall p f e l, len f < 2 ^ 63 -> find_eocd f (len f) = Ok e ->
  p = Debug \/ eo_cd_offset e <= eo_off e -> m_digest_regions p (module_new f) f = Ok l ->
  exists content mid cdr h off t, regions_of p f e content mid cdr h off t /\
    l = [mkRegion (bstr "zip_entries") 0 (len content);
         mkRegion (bstr "central_directory") (len (content ++ mid)) (len cdr);
         mkRegion (bstr "eocd") (len (content ++ mid ++ cdr)) (len (h ++ off ++ t))].
Proof.
  intros p f e l Hl He Hc H. assert (Hu : len f < U64) by (change (2 ^ 63) with I64 in Hl; unfold I64, U64 in *; lia).
  unfold m_digest_regions in H. apply bind_Ok in H as (o & Ho & H).
  apply bind_Ok in H as (n1 & H1 & H). apply bind_Ok in H as (n2 & H2 & H). apply bind_Ok in H as (n3 & H3 & H).
  assert (Hle : fo_start_cd o <= fo_stop_cd o).
  { destruct Hc as [->|Hc].
    - unfold usub in H2. destruct (N.leb_spec (fo_start_cd o) (fo_stop_cd o)); [auto|discriminate].
    - destruct (regions p f e o Hu He Hc Ho) as (c & m & y & t & _ & -> & He' & _). cbn [fo_start_cd fo_stop_cd].
      rewrite He', !len_app. lia. }
  destruct (regions_gen p f e o Hu He Ho Hle) as (content & mid & cdr & tail & Hf & -> & Hoff & G1 & G2 & G3).
  cbn [fo_start_content fo_stop_content fo_start_cd fo_stop_cd fo_start_eocd fo_stop_eocd] in *.
  assert (HL : len f = len content + len mid + len cdr + len tail) by (rewrite Hf, !len_app; lia).
  pose proof Hoff as Hoff'. rewrite !len_app in Hoff.
  unfold usub in H1, H2, H3.
  rewrite (proj2 (N.leb_le _ _)) in H1 by lia. rewrite (proj2 (N.leb_le _ _)) in H2 by lia.
  rewrite (proj2 (N.leb_le _ _)) in H3 by lia. injection H1 as <-. injection H2 as <-. injection H3 as <-.
  exists content, mid, cdr, (takeN 16 tail), (sub tail 16 20), (dropN 20 tail).
  split. { apply regions_of_tail; auto; lia. }
  assert (T : takeN 16 tail ++ sub tail 16 20 ++ dropN 20 tail = tail) by (symmetry; apply sub_split; lia).
  rewrite T, !len_app. assert (E : l = [mkRegion (bstr "zip_entries") 0 (len content - 0);
      mkRegion (bstr "central_directory") (len content + len mid) (eo_off e - (len content + len mid));
      mkRegion (bstr "eocd") (eo_off e) (len f - eo_off e)]) by congruence.
  rewrite E. repeat (f_equal; try lia).
Qed.

Lemma sign_print_regions : forall p C L rest clk ds s a lines steps file e,
  sign_prints p C L rest clk ds s a = (lines, (steps, Ok tt)) -> fs_read s (sa_input a) = Some file ->
  (forall t, file <> ELFMAG ++ t) -> len file < 2 ^ 63 -> find_eocd file (len file) = Ok e ->
  p = Debug \/ eo_cd_offset e <= eo_off e ->
  exists content mid cdr h off t, regions_of p file e content mid cdr h off t /\
    pick format_line lines = [FModule] /\
    pick region_line lines =
      [mkRegion (bstr "zip_entries") 0 (len content);
       mkRegion (bstr "central_directory") (len (content ++ mid)) (len cdr);
       mkRegion (bstr "eocd") (len (content ++ mid ++ cdr)) (len (h ++ off ++ t))].
Proof.
  intros p C L rest clk ds s a lines steps file e H Hr Hne Hl He Hc.
  destruct (success_lines _ _ _ _ _ _ _ _ _ _ H) as (signer & x & rg & b & E1 & EB & ER & _ & ->).
  destruct (success_picks a signer x rg b) as (P1 & _ & _ & _ & P2). rewrite P1, P2.
  assert (HX := not_elf_module _ _ _ _ _ _ _ _ _ _ _ EB Hr Hne). subst x.
  rewrite Hr in ER. cbn [signable_regions now_content] in ER.
  destruct (module_region_list p file e rg Hl He Hc ER) as (c & m & y & h & o & t & R & ->).
  exists c, m, y, h, o, t. auto.
Qed.

Lemma sign_print_module : forall p C L rest clk ds s a lines steps z file out, crypto_ok C ->
  sign_prints p C L rest clk ds s a = (lines, (steps, Ok tt)) -> fs_read s (sa_input a) = Some file ->
  (forall t, file <> ELFMAG ++ t) -> zip_ok z [] ->
  (file = plain z /\ unsigned z) \/
  (exists b0, built_block b0 /\ file = with_block z (block_to_u8 b0) /\ zip_ok z (block_to_u8 b0) /\ zip_small z (block_to_u8 b0)) ->
  fs_file s (sa_output a) <> fs_file s (sa_input a) ->
  fs_data (run s steps) (fs_file s (sa_output a)) = Some out ->
  exists b, built_block b /\ out = with_block z (block_to_u8 b) /\ pick block_line lines = [len (block_to_u8 b)].
Proof.
  intros p C L rest clk ds s a lines steps z file out HC H Hr Hne Hz Hcase Hio Hout.
  destruct (success_lines _ _ _ _ _ _ _ _ _ _ H) as (signer & x & rg & b & E1 & EB & ER & ES & ->).
  destruct (success_picks a signer x rg b) as (_ & _ & P1 & _). rewrite P1. clear P1.
  assert (HX := not_elf_module _ _ _ _ _ _ _ _ _ _ _ EB Hr Hne). subst x.
  pose proof (cli_signer_spec _ _ _ _ E1) as (_ & _ & _ & Halgo).
  destruct (sign_block_module _ _ _ _ _ _ _ _ _ _ EB) as (sg & file' & l & Hsg & Hf & _ & Hm & Hd & HS).
  assert (sg = signer) by congruence. subst sg. assert (file' = file) by congruence. subst file'.
  assert (Hcan : Forall (fun x => canonical (fst x)) l).
  { apply Forall_forall. intros (x & d) I. cbn. apply (required_canonical signer Halgo). rewrite <- Hm.
    change x with (fst (x, d)). now apply in_map. }
  assert (HBt : built_block b) by (eapply ms_sign_built; eauto).
  exists b. split; [exact HBt|]. split; [|reflexivity].
  apply sign_steps in ES. destruct ES as [(_ & X)|(x & b' & w & HB & Hc & Hst & HW)]; [congruence|].
  rewrite EB in HB. apply (f_equal (fun r => match r with Ok (x, b) => Some (x, b) | _ => None end)) in HB.
  apply (f_equal (fun o => match o with Some q => q | None => (x, b') end)) in HB.
  assert (x = SModule (module_new file) /\ b' = b) as [-> ->] by (split; congruence).
  rewrite (truncate_read s _ (sa_input a)) in HW by auto. rewrite Hr in HW. cbn [signable_write now_content] in HW.
  assert (Ew : w = with_block z (block_to_u8 b)).
  { destruct Hcase as [[-> Hu]|(b0 & Hb0 & -> & Z1 & Z2)].
    - rewrite s_write_unsigned in HW by auto. congruence.
    - destruct (built_block_bytes b0 Hb0) as (B0 & _). rewrite (s_write_signed p z _ _ b Hz Z1 Z2 B0) in HW. congruence. }
  rewrite Hst in Hout. cbn [run fold_left apply] in Hout. rewrite !put_get in Hout. cbn [app] in Hout. congruence.
Qed.

(** ** ELF files *)
Lemma listed_regions : forall ts,
  map listed (ei_sections (info_from_tuples ts)) = map (fun t => mkRegion (utf8_enc (fst (fst t))) (t_offset t) (t_size t)) ts.
Proof.
  intros ts. unfold info_from_tuples, info_new. cbn [ei_sections]. rewrite map_map. apply map_ext. intros ((n & o) & z). reflexivity.
Qed.

Lemma sign_print_elf : forall p C L rest clk ds s a lines steps t e out,
  crypto_ok C -> Forall scalars (sa_sections a) ->
  fs_read s (sa_input a) = Some (ELFMAG ++ t) -> elf_parse rest (ELFMAG ++ t) = Ok e -> well_named (ELFMAG ++ t) e ->
  sign_prints p C L rest clk ds s a = (lines, (steps, Ok tt)) ->
  fs_data (run s steps) (fs_file s (sa_output a)) = Some out -> fits_class e (len out) -> rest out = true ->
  pick format_line lines = [FElf] /\
  exists e' sh sec, elf_parse rest out = Ok e' /\ first_named e' KSU_SIGN_SECTION sh /\ contents out sh = Some sec /\
    pick block_line lines = [len sec] /\
    (len sec <= 16392 -> forall q names, exists b i, elf_get_signing_block rest q (mkElfFile out names) = Ok (Some b) /\
       In (ElfBlock i) (bk_content b) /\ map listed (ei_sections i) = pick region_line lines).
Proof.
  intros p C L rest clk ds s a lines steps t e out HC Hsec Hr He Hw H Hout Hfit Hrest.
  destruct (success_lines _ _ _ _ _ _ _ _ _ _ H) as (signer & x & rg & b & E1 & EB & ER & ES & ->).
  destruct (success_picks a signer x rg b) as (P1 & _ & P2 & _ & P3). rewrite P1, P2, P3. clear P1 P2 P3.
  destruct (elf_block_kind _ _ _ _ _ _ _ _ _ _ _ EB Hr) as (f & ->). split; [reflexivity|].
  apply sign_steps in ES. destruct ES as [(_ & X)|(x & b' & w & HB & Hc & Hst & HW)]; [congruence|].
  assert (x = SElf f /\ b' = b) as [-> ->] by (rewrite EB in HB; split; congruence). clear HB.
  destruct (sign_block_elf _ _ _ _ _ _ _ _ _ _ HC EB Hsec) as (l & ts & HF & Hf & Hts & Hsc & _ & _ & Eb).
  assert (Hf2 : ELFMAG ++ t = el_data f) by congruence. clear Hf. rename Hf2 into Hf.
  cbn [signable_write] in HW. destruct (elf_write_with_signature rest f b) as [w'| |] eqn:EW; try discriminate.
  assert (w' = w) by congruence. subst w'.
  assert (w = out).
  { rewrite Hst in Hout. cbn [run fold_left apply] in Hout. rewrite !put_get in Hout. cbn [app] in Hout. congruence. }
  subst w. rewrite Hf in He, Hw.
  destruct (extended_read p l ts HF (resolved_bounds _ _ _ Hts Hsc)) as (L1 & _). rewrite <- Eb in L1.
  assert (Hne : block_to_u8 b <> []).
  { intros Q. rewrite Q, len_nil in L1. unfold info_bytes in L1. lia. }
  destruct (view _ _ _ _ _ EW He Hw Hfit Hrest) as (e' & V).
  destruct (sv_sign _ _ _ _ _ _ V) as (sh & V1 & V2 & _ & _ & V5).
  exists e', sh, (block_to_u8 b). split; [exact (sv_parse _ _ _ _ _ _ V)|]. split; [now apply find_first|]. split; [exact V2|].
  split; [reflexivity|]. intros Hl q names.
  rewrite (c53_read _ _ _ _ _ q names EW He Hw Hfit Hrest Hne).
  destruct (extended_read q l ts HF (resolved_bounds _ _ _ Hts Hsc)) as (_ & X1 & _). rewrite <- Eb in X1.
  exists b, (info_from_tuples ts). rewrite (X1 Hl). split; [reflexivity|]. split.
  - rewrite Eb. unfold recalculate_size, content_push. cbn [bk_content]. apply in_app_iff. right. now left.
  - rewrite listed_regions. cbn [signable_regions] in ER. unfold elf_digest_regions in ER. rewrite Hts in ER. cbn [bind] in ER. congruence.
Qed.

(** ** The digest command *)
Lemma regions_print_total : forall p l acc, snd (regions_print p l acc) = total_size p l acc /\
  (forall n, total_size p l acc = Ok n -> fst (regions_print p l acc) = map DRegion l) /\
  Forall (fun x => exists g, x = DRegion g) (fst (regions_print p l acc)).
Proof.
  intros p l. induction l as [|g l IH]; intros acc; cbn [regions_print total_size fst snd].
  - split; [reflexivity|]. split; [reflexivity|constructor].
  - destruct (uadd p acc (rg_size g)) as [n|e|]; cbn [bind].
    + destruct (IH n) as (A & B & D). destruct (regions_print p l n) as [d r]. cbn [fst snd] in *. split; [exact A|]. split.
      * intros m Hm. cbn [map]. f_equal. now apply (B m).
      * constructor; eauto.
    + cbn [fst snd]. split; [reflexivity|]. split; [discriminate|]. repeat constructor. eauto.
    + cbn [fst snd]. split; [reflexivity|]. split; [discriminate|]. repeat constructor. eauto.
Qed.

Lemma total_value : forall p l acc n, total_size p l acc = Ok n -> acc < U64 -> n = (acc + sizes l) mod U64.
Proof.
  intros p l. induction l as [|g l IH]; intros acc n H Ha; cbn [total_size] in H.
  - injection H as <-. unfold sizes. cbn [fold_right]. rewrite N.add_0_r. symmetry. now apply N.mod_small.
  - apply bind_Ok in H as (m & Hm & H). unfold uadd in Hm. change (sizes (g :: l)) with (rg_size g + sizes l).
    destruct (acc + rg_size g <? U64) eqn:El.
    + injection Hm as <-. apply N.ltb_lt in El. rewrite (IH _ _ H El). f_equal. lia.
    + destruct p; [discriminate|]. injection Hm as <-. rewrite (IH _ _ H) by (apply N.mod_lt; unfold U64; lia).
      rewrite N.add_mod_idemp_l by (unfold U64; lia). f_equal. lia.
Qed.

Lemma copied_total : forall p l acc n, total_size p l acc = Ok n -> copied p l acc = n.
Proof.
  intros p l. induction l as [|g l IH]; intros acc n H; cbn [total_size copied] in *; [congruence|].
  apply bind_Ok in H as (m & Hm & H). rewrite Hm. now apply IH.
Qed.

Lemma dpick_regions {B} (f : dline -> option B) l : (forall g, f (DRegion g) = None) -> Forall (fun x => exists g, x = DRegion g) l -> pick f l = [].
Proof. intros N F. induction F as [|x l (g & ->) F IH]; cbn [pick]; [reflexivity|]. now rewrite N. Qed.

(** The status, and the digest printed. *)
Lemma digest_print_status : forall p C rest base64 ds s a lines steps r,
  digest_prints p C rest base64 ds s a = (lines, (steps, r)) ->
  fst (cli_digest p C rest base64 ds s a) = steps /\
  (r = Ok tt <-> exists o, snd (cli_digest p C rest base64 ds s a) = Ok o) /\
  (r = Panic <-> snd (cli_digest p C rest base64 ds s a) = Panic) /\
  pick text_line lines = match snd (cli_digest p C rest base64 ds s a) with Ok (Some t) => [t] | _ => [] end /\
  (pick dumped_line lines <> [] <-> r = Ok tt /\ da_dump a <> None).
Proof.
  intros p C rest base64 ds s a lines steps r H. unfold digest_prints in H. unfold cli_digest. cbv zeta in *.
  assert (E3 : forall (l : list dline) (st : list step) (rr : res unit), (l, (st, rr)) = (lines, (steps, r)) -> l = lines /\ st = steps /\ rr = r)
    by (intros l st rr Q; now apply three in Q).
  Local Ltac dfin E3 H := apply E3 in H as (<- & <- & <-); cbn [fst snd]; split; [reflexivity|];
    split; [split; [discriminate|intros (? & X); discriminate]|]; split; [split; (discriminate || reflexivity)|].
  destruct (signable_open rest (fs_read s (da_input a))) as [x0|e|]; cbn [bind] in *.
  2,3: dfin E3 H; (split; [reflexivity|split; [cbn; congruence|intros (X & _); discriminate]]).
  destruct (choose_sections x0 (da_sections a)) as [x|e|]; cbn [bind] in *.
  2,3: dfin E3 H; (split; [reflexivity|split; [cbn; congruence|intros (X & _); discriminate]]).
  destruct (signable_regions p rest x (fs_read s (da_input a))) as [l|e|]; cbn [bind] in *.
  2,3: dfin E3 H; (split; [reflexivity|split; [cbn; congruence|intros (X & _); discriminate]]).
  destruct (regions_print_total p l 0) as (T1 & T2 & T3). destruct (regions_print p l 0) as [rl tot]. cbn [fst snd] in T1, T2, T3.
  rewrite <- T1. rewrite <- T1 in T2. clear T1. destruct tot as [n|e|]; cbn [bind].
  2,3: dfin E3 H; rewrite !pick_app, (dpick_regions text_line rl), (dpick_regions dumped_line rl) by auto;
       (split; [reflexivity|split; [cbn; congruence|intros (X & _); discriminate]]).
  assert (PT : forall B (f : dline -> option B) l', (forall g, f (DRegion g) = None) -> f (DFile (da_input a)) = None ->
    f (DFormat (signable_format x)) = None -> f DRegions = None -> f (DTotal n) = None -> f DBlank = None ->
    pick f ((([DFile (da_input a); DFormat (signable_format x)] ++ [DRegions] ++ rl) ++ [DTotal n; DBlank]) ++ l') = pick f l').
  { intros B f l' F1 F2 F3 F4 F5 F6. rewrite !pick_app, (dpick_regions f rl) by auto. cbn [pick]. rewrite F2, F3, F4, F5, F6. reflexivity. }
  destruct (da_dump a) as [out|] eqn:ED.
  - destruct (dump_regions p s (da_input a) out l) as [w r'].
    apply E3 in H as (<- & <- & <-). rewrite !PT by reflexivity. cbn [fst snd]. split; [reflexivity|].
    destruct r' as [[]|e|]; cbn [bind pick text_line dumped_line].
    + split; [split; eauto|]. split; [split; discriminate|]. split; [reflexivity|]. split; [split; [reflexivity|discriminate]|discriminate].
    + split; [split; [discriminate|intros (? & X); discriminate]|]. split; [split; discriminate|]. split; [reflexivity|]. split; [congruence|intros (X & _); discriminate].
    + split; [split; [discriminate|intros (? & X); discriminate]|]. split; [split; reflexivity|]. split; [reflexivity|]. split; [congruence|intros (X & _); discriminate].
  - destruct (signable_digest p C rest ds x _ _) as [d|e|]; cbn [bind]; apply E3 in H as (<- & <- & <-).
    + rewrite <- !(app_assoc _ [DAlgorithm _]). rewrite !PT by reflexivity. cbn [fst snd app pick text_line dumped_line]. split; [reflexivity|].
      split; [split; eauto|]. split; [split; discriminate|]. split; [reflexivity|]. split; [congruence|intros (_ & X); congruence].
    + rewrite !PT by reflexivity. cbn [fst snd app pick text_line dumped_line]. split; [reflexivity|].
      split; [split; [discriminate|intros (? & X); discriminate]|]. split; [split; discriminate|]. split; [reflexivity|]. split; [congruence|intros (_ & X); congruence].
    + rewrite !PT by reflexivity. cbn [fst snd app pick text_line dumped_line]. split; [reflexivity|].
      split; [split; [discriminate|intros (? & X); discriminate]|]. split; [split; reflexivity|]. split; [reflexivity|]. split; [congruence|intros (_ & X); congruence].
Qed.

Lemma region_bytes_len : forall file l, Forall (region_in file) l -> len (region_bytes file l) = sizes l.
Proof.
  intros file l F. induction F as [|g l (H1 & H2) F IH]; [reflexivity|].
  change (region_bytes file (g :: l)) with (slice file (rg_offset g) (rg_size g) ++ region_bytes file l).
  change (sizes (g :: l)) with (rg_size g + sizes l). rewrite len_app, IH. f_equal. unfold slice. rewrite len_takeN, len_dropN. lia.
Qed.

(** What a run that gets as far as the regions prints about them. *)
Lemma digest_print_regions : forall p C rest base64 ds s a lines steps,
  digest_prints p C rest base64 ds s a = (lines, (steps, Ok tt)) ->
  exists x y l, signable_open rest (fs_read s (da_input a)) = Ok x /\ choose_sections x (da_sections a) = Ok y /\
    signable_regions p rest y (fs_read s (da_input a)) = Ok l /\
    pick dregion_line lines = l /\ pick total_line lines = [sizes l mod 2 ^ 64] /\ (p = Debug -> sizes l < 2 ^ 64) /\
    pick dumped_line lines = match da_dump a with Some out => [(sizes l mod 2 ^ 64, out)] | None => [] end.
Proof.
  intros p C rest base64 ds s a lines steps H. unfold digest_prints in H. cbv zeta in *.
  assert (E3 : forall (l : list dline) (st : list step) (rr : res unit), (l, (st, rr)) = (lines, (steps, Ok tt)) -> l = lines /\ st = steps /\ rr = Ok tt)
    by (intros l st rr Q; now apply three in Q).
  destruct (signable_open rest (fs_read s (da_input a))) as [x0|e|]; cbn [bind] in *.
  2,3: apply E3 in H as (_ & _ & X); discriminate.
  destruct (choose_sections x0 (da_sections a)) as [x|e|] eqn:EC; cbn [bind] in *.
  2,3: apply E3 in H as (_ & _ & X); discriminate.
  destruct (signable_regions p rest x (fs_read s (da_input a))) as [l|e|] eqn:ER; cbn [bind] in *.
  2,3: apply E3 in H as (_ & _ & X); discriminate.
  destruct (regions_print_total p l 0) as (T1 & T2 & T3). destruct (regions_print p l 0) as [rl tot]. cbn [fst snd] in T1, T2, T3.
  destruct tot as [n|e|]; cbn [bind].
  2,3: apply E3 in H as (_ & _ & X); discriminate.
  symmetry in T1. specialize (T2 n T1).
  assert (En : n = sizes l mod 2 ^ 64) by (apply (total_value _ _ _ _ T1); reflexivity).
  assert (Ed : p = Debug -> sizes l < 2 ^ 64).
  { intros ->. destruct (total_size_spec _ _ _ _ T1) as [|[|E4]]; [discriminate|assumption|rewrite E4; reflexivity]. }
  pose proof (copied_total _ _ _ _ T1) as Ec.
  exists x0, x, l. do 3 (split; [auto|]).
  assert (PR : pick dregion_line rl = l). { rewrite T2. rewrite (pick_map DRegion dregion_line (fun g => g)), map_id by reflexivity. reflexivity. }
  assert (P1 : forall l', pick dregion_line ((([DFile (da_input a); DFormat (signable_format x)] ++ [DRegions] ++ rl) ++ [DTotal n; DBlank]) ++ l') = l ++ pick dregion_line l').
  { intros l'. rewrite !pick_app, PR. cbn [pick dregion_line app]. now rewrite app_nil_r. }
  assert (P2 : forall l', pick total_line ((([DFile (da_input a); DFormat (signable_format x)] ++ [DRegions] ++ rl) ++ [DTotal n; DBlank]) ++ l') = n :: pick total_line l').
  { intros l'. rewrite !pick_app, (dpick_regions total_line rl) by auto. reflexivity. }
  assert (P3 : forall l', pick dumped_line ((([DFile (da_input a); DFormat (signable_format x)] ++ [DRegions] ++ rl) ++ [DTotal n; DBlank]) ++ l') = pick dumped_line l').
  { intros l'. rewrite !pick_app, (dpick_regions dumped_line rl) by auto. reflexivity. }
  destruct (da_dump a) as [out|].
  - destruct (dump_regions p s (da_input a) out l) as [w r']. apply E3 in H as (<- & <- & ->).
    rewrite P1, P2, P3. cbn [pick dregion_line total_line dumped_line]. rewrite Ec, En, app_nil_r. auto.
  - destruct (signable_digest p C rest ds x _ _) as [d|e|]; apply E3 in H as (<- & <- & X); try discriminate.
    rewrite <- !(app_assoc _ [DAlgorithm _]). rewrite P1, P2, P3. cbn [pick dregion_line total_line dumped_line app]. rewrite En, app_nil_r. auto.
Qed.

Lemma digest_print_dump : forall p C rest base64 ds s a lines steps file out,
  digest_prints p C rest base64 ds s a = (lines, (steps, Ok tt)) -> fs_read s (da_input a) = Some file ->
  da_dump a = Some out -> fs_file s (da_input a) <> fs_file s out ->
  exists dump, fs_data (run s steps) (fs_file s out) = Some dump /\
    Forall (region_in file) (pick dregion_line lines) /\ dump = region_bytes file (pick dregion_line lines) /\
    pick total_line lines = [len dump mod 2 ^ 64] /\ pick dumped_line lines = [(len dump mod 2 ^ 64, out)].
Proof.
  intros p C rest base64 ds s a lines steps file out H Hr Hd Hne.
  destruct (digest_print_regions _ _ _ _ _ _ _ _ _ H) as (x & y & l & E0 & E1 & E2 & P1 & P2 & _ & P3). rewrite Hd in P3.
  destruct (digest_print_status _ _ _ _ _ _ _ _ _ _ H) as (S1 & S2 & _ & S3 & _).
  destruct (proj1 S2 eq_refl) as (o & So).
  assert (Ho : o = None).
  { destruct o as [t|]; [|reflexivity]. exfalso. destruct (cli_digest p C rest base64 ds s a) as [st rr] eqn:E. cbn [snd] in So. subst rr.
    apply digest_print in E. destruct E as (_ & E & _). congruence. }
  subst o. destruct (cli_digest p C rest base64 ds s a) as [st rr] eqn:E. cbn [fst snd] in S1, So. subst st rr.
  assert (Hcr : fs_can_create s out = true).
  { destruct (fs_can_create s out) eqn:Ec; [auto|]. exfalso. unfold cli_digest in E. rewrite Hd in E.
    match type of E with (match ?m with _ => _ end = _) => destruct m as [[x' l']|e'|] end; try congruence.
    unfold dump_regions in E. rewrite Hr, Ec in E. cbn [bind] in E. congruence. }
  destruct (digest_dump _ _ _ _ _ _ _ _ _ _ _ E Hd Hr Hne Hcr) as [_ G].
  rewrite Hr in E0, E2. destruct (G _ _ E0 _ E1 E2) as [K G'].
  assert (F : Forall (region_in file) l) by (now apply K).
  exists (region_bytes file l). rewrite P1, P2, P3. split; [now apply G'|]. split; [exact F|]. split; [reflexivity|].
  now rewrite (region_bytes_len file l F).
Qed.
