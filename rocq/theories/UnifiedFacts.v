(** UnifiedFacts.v - lemmas for C80. *)
From Verif Require Import Base BaseFacts SigningBlock Wire ZipSpec FindSpec Zip Digest Module Signable Elf ElfSpec
  ElfFacts ElfProps2 CliProps3 ModuleProps GrammarFacts Cli Verifier ModuleVerify Unified UnifiedSpec.
From Coq Require Import Lia.
Open Scope N_scope.

Lemma m_eocd_of : forall p f b, m_get_signing_block p (module_new f) f = Ok b -> exists e, find_eocd f (len f) = Ok e.
Proof.
  intros p f b H. unfold m_get_signing_block, module_new, m_find_eocd in H. cbn in H.
  destruct (find_eocd f (len f)) as [e| |]; cbn [bind] in H; try discriminate. eauto.
Qed.

Lemma module_block : forall p f b, len f < U64 ->
  (s_get_signing_block p (module_new f) f = Ok (Some b) <-> module_carries f b).
Proof.
  intros p f b Hf. split.
  - intros H. assert (G : m_get_signing_block p (module_new f) f = Ok b).
    { unfold s_get_signing_block in H. destruct (m_get_signing_block _ _ _) as [b0|x|]; [congruence| |discriminate].
      destruct (maybe_missing_signature x); discriminate. }
    destruct (m_eocd_of _ _ _ G) as [e E]. apply (c69_module _ _ e) in G; auto. destruct G as (pre & raw & post & G).
    exists e, pre, raw, post. tauto.
  - intros (e & pre & raw & post & E & G). unfold s_get_signing_block.
    replace (m_get_signing_block p (module_new f) f) with (@Ok signing_block b); [reflexivity|]. symmetry.
    apply (c69_module _ _ e); auto. exists pre, raw, post. exact G.
Qed.
Lemma module_none : forall p f, len f < U64 ->
  (s_get_signing_block p (module_new f) f = Ok None <-> module_unsigned f).
Proof.
  intros p f Hf. split.
  - intros H. assert (G : exists x, m_get_signing_block p (module_new f) f = Err x /\ maybe_missing_signature x = true).
    { unfold s_get_signing_block in H. destruct (m_get_signing_block _ _ _) as [b0|x|]; [congruence| |discriminate].
      exists x. destruct (maybe_missing_signature x); [auto|discriminate]. }
    destruct G as (x & G & M). destruct (get_sb_err _ _ _ Hf G M) as (e & E & _).
    exists e. split; [exact E|]. apply (c69_none p); auto.
  - intros (e & E & G). apply (c69_none p) in G; auto.
Qed.

Lemma first_bounds : forall rest data e n s, elf_parse rest data = Ok e -> first_named e n s ->
  sh_offset s < U64 /\ sh_size s < U64.
Proof.
  intros rest data e n s P (i & N & _). unfold elf_parse in P. destruct (parse_ehdr data) as [(x & h)|]; [|discriminate].
  destruct (parse_shdrs x data (eh_shoff h) (eh_shnum h)) as [l|] eqn:L; [|discriminate].
  destruct (section_names data l (eh_shstrndx h)); [|discriminate]. destruct (rest data); [|discriminate].
  injection P as <-. cbn [ef_sections] in N. apply parse_shdrs_ok in L. rewrite Forall_forall in L.
  apply (shdr_ok_bounds x). apply L. eapply nth_error_In; eauto.
Qed.

Lemma elf_block : forall rest p f b, len (el_data f) < U64 ->
  (elf_get_signing_block rest p f = Ok (Some b) <-> elf_carries rest (el_data f) b).
Proof.
  intros rest p f b Hf. unfold elf_get_signing_block. split.
  - intros H. destruct (elf_parse rest (el_data f)) as [e| |] eqn:P; cbn [bind] in H; try discriminate.
    destruct (find_section e KSU_SIGN_SECTION) as [s|] eqn:F; [|discriminate].
    destruct (U64 <=? sh_offset s + sh_size s); [discriminate|]. destruct (sh_size s =? 0); [discriminate|].
    destruct (get_range (el_data f) (sh_offset s) (sh_offset s + sh_size s)) as [sec|] eqn:G; [|discriminate].
    destruct (from_u8 p sec) as [blk| |] eqn:B; cbn [map_err bind] in H; try discriminate. injection H as ->.
    assert (Hs : len sec < U64).
    { apply get_range_split in G. apply (f_equal len) in G. rewrite !len_app in G. lia. }
    apply c69_slice in B; auto. destruct B as (pre & raw & post & B).
    exists e, s, sec, pre, raw, post. rewrite <- find_first. unfold contents. tauto.
  - intros (e & s & sec & pre & raw & post & P & F & G & E & D). rewrite P. cbn [bind].
    apply find_first in F. rewrite F. unfold contents in G.
    assert (Hl : len sec <= len (el_data f) /\ sh_offset s + sh_size s <= len (el_data f)).
    { pose proof (get_range_len _ _ _ _ G). apply get_range_spec in G. lia. }
    assert (Hs : len sec = sh_size s) by (apply get_range_len in G; lia).
    replace (U64 <=? sh_offset s + sh_size s) with false by (symmetry; apply N.leb_gt; lia).
    destruct (sh_size s =? 0) eqn:Z.
    { apply N.eqb_eq in Z. destruct E as (E & _). destruct D as (_ & _ & _ & _ & D & _).
      apply (f_equal len) in E. rewrite !len_app in E. lia. }
    rewrite G. replace (from_u8 p sec) with (@Ok signing_block b); [reflexivity|]. symmetry. apply c69_slice; [lia|eauto].
Qed.
Lemma elf_none : forall rest p f,
  (elf_get_signing_block rest p f = Ok None <-> elf_unsigned rest (el_data f)).
Proof.
  intros rest p f. unfold elf_get_signing_block. split.
  - intros H. destruct (elf_parse rest (el_data f)) as [e| |] eqn:P; cbn [bind] in H; try discriminate.
    exists e. split; [exact P|].
    destruct (find_section e KSU_SIGN_SECTION) as [s|] eqn:F.
    2: { left. intros s S. apply find_first in S. congruence. }
    right. exists s. split; [apply find_first; exact F|].
    destruct (U64 <=? sh_offset s + sh_size s); [discriminate|].
    destruct (sh_size s =? 0) eqn:Z; [apply N.eqb_eq; exact Z|].
    destruct (get_range (el_data f) (sh_offset s) (sh_offset s + sh_size s)) as [sec|] eqn:G; [|discriminate].
    destruct (from_u8 p sec) as [blk| |]; cbn [map_err bind] in H; discriminate.
  - intros (e & P & [N | (s & F & Z)]); rewrite P; cbn [bind].
    + destruct (find_section e KSU_SIGN_SECTION) as [s|] eqn:F; [|reflexivity].
      apply find_first in F. destruct (N s F).
    + destruct (first_bounds _ _ _ _ _ P F) as [B _]. apply find_first in F. rewrite F, Z, N.add_0_r.
      replace (U64 <=? sh_offset s) with false by (symmetry; apply N.leb_gt; exact B). reflexivity.
Qed.

Lemma module_signed : forall p f, len f < U64 ->
  (s_is_signed p (module_new f) f = true <-> exists b, module_carries f b).
Proof.
  intros p f Hf. unfold s_is_signed. split.
  - destruct (s_get_signing_block p (module_new f) f) as [[b|]| |] eqn:E; try discriminate. intros _.
    exists b. apply (module_block p); auto.
  - intros [b B]. apply (module_block p) in B; auto. rewrite B. reflexivity.
Qed.
Lemma elf_signed : forall rest p f, len (el_data f) < U64 ->
  (elf_is_signed rest p f = true <-> exists b, elf_carries rest (el_data f) b).
Proof.
  intros rest p f Hf. unfold elf_is_signed. split.
  - destruct (elf_get_signing_block rest p f) as [[b|]| |] eqn:E; try discriminate. intros _.
    exists b. apply (elf_block rest p); auto.
  - intros [b B]. apply (elf_block rest p) in B; auto. rewrite B. reflexivity.
Qed.

Lemma opened : forall p rest f x, len f < U64 -> signable_open rest (Some f) = Ok x ->
  (detect_file_format f = Ok FModule /\ signable_kind x = FModule /\
   (forall b, signable_block p rest x (Some f) = Ok (Some b) <-> module_carries f b) /\
   (signable_block p rest x (Some f) = Ok None <-> module_unsigned f)) \/
  (detect_file_format f = Ok FElf /\ signable_kind x = FElf /\
   (forall now b, signable_block p rest x now = Ok (Some b) <-> elf_carries rest f b) /\
   (forall now, signable_block p rest x now = Ok None <-> elf_unsigned rest f)).
Proof.
  intros p rest f x Hf H. unfold signable_open in H. cbn [of_option bind] in H.
  destruct (detect_file_format f) as [[]| |]; cbn [bind] in H; try discriminate.
  - injection H as <-. left. split; [reflexivity|]. split; [reflexivity|].
    split; [intros b; apply module_block; auto|apply module_none; auto].
  - unfold elf_new in H. destruct (elf_parse rest f); cbn [bind] in H; try discriminate. injection H as <-.
    right. split; [reflexivity|]. split; [reflexivity|].
    split; intros; cbn [signable_block]; [rewrite elf_block by exact Hf|rewrite elf_none]; reflexivity.
Qed.

Lemma valid_signed : forall p C K now ds f roots r, 
  m_verify_with_roots p C K now ds (module_new f) f roots = Ok r -> is_valid r = true ->
  s_is_signed p (module_new f) f = true.
Proof.
  intros p C K now ds f roots r H V. unfold m_verify_with_roots in H. unfold s_is_signed, s_get_signing_block.
  destruct (m_get_signing_block p (module_new f) f) as [b|x|]; [reflexivity| |discriminate].
  injection H as <-. vm_compute in V. discriminate.
Qed.
