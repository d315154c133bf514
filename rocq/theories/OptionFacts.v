(** OptionFacts.v - the option --elf-section of the commands. *)
From Verif Require Import Base BaseFacts Utils Algorithms Common Utf8 ElfInfo SigningBlock
  Zip Digest Module Signable ZipSpec Signer Verifier Keystore Elf ElfSpec ElfFacts ElfProps2 Cli CliSpec CliFacts CliProps SignPrint SignPrintSpec Main MainSpec MainFacts.
From Coq Require Import Strings.String Lia.
Open Scope N_scope.

Lemma opened_exact rest file l x : opened_as rest (Some file) l x <->
  match x with
  | SModule m => m = module_new file /\ l = [] /\ detect_file_format file = Ok FModule
  | SElf f => el_data f = file /\ (exists t, file = ELFMAG ++ t) /\ (exists e, elf_parse rest file = Ok e) /\
      match l with
      | [] => el_signed f = [str ".text"; str ".rodata"]
      | _ => el_signed f <> [] /\ (exists ts, Forall2 trimmed l ts /\ el_signed f = filter nonempty ts) /\
             Forall (fun s => ~ Forall2 same_letter (utf8_enc s) KSU_SIGN_SECTION) (el_signed f)
      end
  end.
Proof.
  unfold opened_as, signable_open. cbn [of_option bind]. destruct (detect_spec file) as (D1 & D2 & _). split.
  - intros (y & H & G). apply bind_Ok in H as (fmt & F & H). destruct fmt.
    + injection H as <-. unfold choose_sections in G. destruct l as [|n l]; [|discriminate]. injection G as <-. auto.
    + apply bind_Ok in H as (f & E & H). injection H as <-. unfold elf_new in E. apply bind_Ok in E as (e & P & E). injection E as <-.
      unfold choose_sections in G. destruct l as [|n l].
      * injection G as <-. cbn [el_data el_signed]. split; [reflexivity|]. split; [now apply D1|]. split; [eauto|reflexivity].
      * cbn [set_elf_sections] in G. apply bind_Ok in G as (g & S & G). injection G as <-. apply c56 in S. cbn [el_data] in S.
        destruct S as (S1 & S2 & S3 & S4). split; [exact S1|]. split; [now apply D1|]. split; [eauto|]. auto.
  - destruct x as [m|f].
    + intros (-> & -> & F). exists (SModule (module_new file)). rewrite F. auto.
    + intros (H1 & H2 & (e & H3) & H4). apply D1 in H2. rewrite H2. cbn [bind]. unfold elf_new. rewrite H3. cbn [bind].
      eexists. split; [reflexivity|]. destruct l as [|n l]; cbn [choose_sections].
      * destruct f as [d n]. cbn [el_data el_signed] in *. now subst.
      * destruct H4 as (S2 & S3 & S4). cbn [set_elf_sections].
        destruct (c56 (mkElfFile file DEFAULT_SIGNED_SECTIONS) (n :: l) f) as (_ & S). rewrite S by (cbn [el_data]; auto). reflexivity.
Qed.

(** For a module the option is an error. *)
Lemma module_option rest file l x : (forall t, file <> ELFMAG ++ t) -> l <> [] -> signable_open rest (Some file) = Ok x ->
  choose_sections x l = Err EInvalidFormat.
Proof.
  intros Hn Hl O. destruct x as [m|f].
  - unfold choose_sections. destruct l; [congruence|]. reflexivity.
  - exfalso. assert (X : opened_as rest (Some file) [] (SElf f)) by (exists (SElf f); auto). apply opened_exact in X.
    destruct X as (_ & (t & Ht) & _). now apply (Hn t).
Qed.
Lemma sign_module_option p C L rest clk ds s a file : fs_read s (sa_input a) = Some file -> (forall t, file <> ELFMAG ++ t) -> sa_sections a <> [] ->
  exists e, cli_sign p C L rest clk ds s a = ([], Err e).
Proof.
  intros F Hn Hl. unfold cli_sign, cli_sign_block. cbv zeta. rewrite F. pose proof (signer_np L s a) as N.
  destruct (cli_signer L s a) as [sg|e|]; cbn [bind]; [|eauto|congruence].
  pose proof (open_np rest (Some file)) as O.
  destruct (signable_open rest (Some file)) as [x|e'|] eqn:Q; cbn [bind]; [|eauto|congruence].
  rewrite (module_option rest file _ x Hn Hl Q). cbn [bind]. eauto.
Qed.
Lemma digest_module_option p C rest base64 ds s a file : fs_read s (da_input a) = Some file -> (forall t, file <> ELFMAG ++ t) -> da_sections a <> [] ->
  exists e, cli_digest p C rest base64 ds s a = ([], Err e).
Proof.
  intros F Hn Hl. unfold cli_digest. cbv zeta. rewrite F.
  pose proof (open_np rest (Some file)) as O.
  destruct (signable_open rest (Some file)) as [x|e'|] eqn:Q; cbn [bind]; [|eauto|congruence].
  rewrite (module_option rest file _ x Hn Hl Q). cbn [bind]. eauto.
Qed.

(** The sections of an ELF file that are digested. *)
Lemma digested_names rest p file l x regions : opened_as rest (Some file) l x -> signable_regions p rest x (Some file) = Ok regions ->
  (exists t, file = ELFMAG ++ t) ->
  exists e names, elf_parse rest file = Ok e /\ Permutation.Permutation (map rg_name regions) (map utf8_enc names) /\
    match l with [] => names = [str ".text"; str ".rodata"] | _ => exists ts, Forall2 trimmed l ts /\ names = filter nonempty ts end /\
    Forall (fun g => exists s, first_named e (rg_name g) s /\ rg_offset g = sh_offset s /\ rg_size g = sh_size s /\ sh_type s <> SHT_NOBITS /\ sh_size s <> 0) regions.
Proof.
  intros O R E. apply opened_exact in O. destruct x as [m|f].
  { destruct O as (_ & _ & O). destruct (detect_spec file) as (_ & D & _). apply D in O. destruct O as (_ & O & _). destruct E as (t & E). now elim (O t). }
  destruct O as (Hd & _ & (e & P) & O). cbn [signable_regions] in R. unfold elf_digest_regions in R. apply bind_Ok in R as (ts & H & R). injection R as <-.
  unfold resolved_sections in H. rewrite Hd, P in H. cbn [bind] in H. unfold collect_sections in H. apply bind_Ok in H as (us & H & U). injection U as <-.
  exists e, (el_signed f). split; [exact P|]. rewrite map_map. cbn [rg_name].
  assert (L : forall names ts, lookup_sections e names = Ok ts -> map (fun t => fst (fst t)) ts = names /\
    Forall (fun t => exists s, first_named e (utf8_enc (fst (fst t))) s /\ t_offset t = sh_offset s /\ t_size t = sh_size s /\ sh_type s <> SHT_NOBITS /\ sh_size s <> 0) ts).
  { induction names as [|n names IH]; intros ts H1; cbn [lookup_sections] in H1; [injection H1 as <-; auto|].
    destruct (find_section e (utf8_enc n)) as [sh|] eqn:F; [|discriminate]. destruct (sh_type sh =? SHT_NOBITS) eqn:T; [discriminate|].
    destruct (sh_size sh =? 0) eqn:Z; [discriminate|]. apply bind_Ok in H1 as (r & Hr & H1). injection H1 as <-.
    destruct (IH _ Hr) as (I1 & I2). cbn [map fst]. split; [now rewrite I1|]. constructor; [|exact I2].
    exists sh. split; [now apply find_first|]. cbn [fst t_offset t_size snd]. apply N.eqb_neq in T, Z. auto. }
  destruct (L _ _ H) as (L1 & L2). split; [|split].
  - rewrite <- L1, map_map. apply Permutation.Permutation_map, sort_perm.
  - destruct l; [exact O|apply O].
  - apply Forall_map. cbn [rg_name rg_offset rg_size]. apply (Permutation.Permutation_Forall (Permutation.Permutation_sym (sort_perm us))). exact L2.
Qed.
