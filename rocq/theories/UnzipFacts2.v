(** UnzipFacts2.v - C91 for the operations and commands. *)
From Verif Require Import Base BaseFacts Utils Algorithms Common SchemeV2 SourceStamp Utf8 ElfInfo
  SigningBlock Wire Built BuiltFacts Spec PropBlockFacts Zip Digest Module Signable ZipSpec RegionSpec ZipFacts DigestFacts ModuleFacts
  ModuleProps RawFacts Toy Signer Verifier ModuleVerify VerifySpec VerifyFacts SignSpec SignFacts VerifyProps
  EndToEnd ToyVerify Keystore Elf ElfSpec ElfFacts Cli CliSpec CliFacts CliProps CliProps2 CliProps3 CliProps4 FindSpec PropFind UnzipSpec UnzipFacts.
Open Scope N_scope.

Lemma written_same p z b out l : zip_ok z [] -> unsigned z -> zip_ok z (block_to_u8 b) -> unzips (plain z) l ->
  s_write_with_signature p (module_new (plain z)) (plain z) b = (out, Ok tt) -> forall l', unzips out l' <-> l' = l.
Proof.
  intros Z U Zb H W l'. rewrite s_write_unsigned in W by auto. injection W as <-. now apply unzips_block.
Qed.

Lemma resigned_same p q z raw b0 b out l : zip_ok z raw -> zip_small z raw -> zip_ok z [] -> zip_ok z (block_to_u8 b) -> unzips (plain z) l ->
  m_get_signing_block p (module_new (with_block z raw)) (with_block z raw) = Ok b0 ->
  bk_start b0 = len (z_entries z) -> bk_end b0 = len (z_entries z) + len raw ->
  s_write_with_signature q (module_new (with_block z raw)) (with_block z raw) b = (out, Ok tt) -> forall l', unzips out l' <-> l' = l.
Proof.
  intros Z S Z0 Zb H G B1 B2 W l'. pose proof (C70_written p q z raw [] b0 b) as X. rewrite app_nil_r in X.
  assert (E : with_gap z [] = z) by (unfold with_gap; rewrite app_nil_r; now destruct z).
  rewrite E in X. specialize (X Z S Z0 G B1 B2). cbv zeta in X. rewrite X in W. injection W as <-. now apply unzips_block.
Qed.

Lemma sign_same p C L rest clk ds s a z steps signer l :
  crypto_ok C -> fs_read s (sa_input a) = Some (plain z) -> zip_ok z [] -> unsigned z -> (forall t, plain z <> ELFMAG ++ t) ->
  (forall blk, len blk <= 16392 -> zip_ok z blk) ->
  fs_file s (sa_output a) <> fs_file s (sa_input a) -> fs_can_read s (sa_output a) = true ->
  cli_signer L s a = Ok signer -> cli_sign p C L rest clk ds s a = (steps, Ok tt) -> unzips (plain z) l ->
  exists out, fs_read (run s steps) (sa_output a) = Some out /\ forall l', unzips out l' <-> l' = l.
Proof.
  intros HC Hr Hz Hu Hne Hblk Hio Hor Hsig H U.
  pose proof (cli_signer_spec _ _ _ _ Hsig) as (_ & _ & Hv2 & Halgo).
  apply sign_steps in H. destruct H as [(_ & X)|(x & b & w & HB & Hc & Hst & HW)]; [congruence|].
  assert (HX := not_elf_module _ _ _ _ _ _ _ _ _ _ _ HB Hr Hne). subst x.
  rewrite (truncate_read s _ (sa_input a)) in HW by auto. rewrite Hr in HW. cbn [signable_write now_content] in HW.
  destruct (sign_block_module _ _ _ _ _ _ _ _ _ _ HB) as (sg & file & l0 & Hsg & Hf & _ & Hm & Hd & HS).
  rewrite Hsig in Hsg. injection Hsg as <-. rewrite Hr in Hf. injection Hf as <-.
  assert (Hcan : Forall (fun x => canonical (fst x)) l0).
  { apply Forall_forall. intros (x & d) I. cbn. apply (required_canonical signer Halgo). rewrite <- Hm.
    change x with (fst (x, d)). now apply in_map. }
  assert (HBt : built_block b) by (eapply ms_sign_built; eauto).
  exists w. split.
  - apply (read_after s steps (sa_output a) (fs_file s (sa_output a))); auto.
    + subst steps. repeat constructor.
    + subst steps. cbn [run fold_left apply]. now rewrite !put_get.
  - eapply written_same; eauto. apply Hblk. now apply built_block_short.
Qed.

Lemma accepted_same p q C K1 K2 builtin1 builtin2 now1 now2 ds1 ds2 s1 s2 file1 file2 root1 root2 z raw f2 b1 b2 sg l :
  let f1 := with_block z raw in
  hash_sized C -> (forall a, fills (ds1 a)) -> (forall a, fills (ds2 a)) ->
  fs_read s1 file1 = Some f1 -> fs_read s2 file2 = Some f2 -> zip_ok z [] -> zip_ok z raw -> zip_small z raw -> len f2 < 2 ^ 63 ->
  cli_verify p C K1 builtin1 now1 ds1 s1 file1 root1 = Ok tt -> cli_verify q C K2 builtin2 now2 ds2 s2 file2 root2 = Ok tt ->
  m_get_signing_block p (module_new f1) f1 = Ok b1 -> bk_start b1 = len (z_entries z) -> bk_end b1 = len (z_entries z) + len raw ->
  m_get_signing_block q (module_new f2) f2 = Ok b2 -> In sg (v2_signers_of b1) -> In sg (v2_signers_of b2) ->
  unzips (plain z) l -> forall l', unzips f2 l' ->
  l' = l \/ exists a e1 e2, (a = ECDSA_SHA2_256 \/ a = ECDSA_SHA2_512) /\ find_eocd f1 (len f1) = Ok e1 /\ find_eocd f2 (len f2) = Ok e2 /\ module_clash p q (hash C a) f1 e1 f2 e2.
Proof.
  intros f1 HC F1 F2 R1 R2 Z0 Z S L2 V1 V2 G1 B1 B2 G2 I1 I2 U l' U'.
  pose proof (find_eocd_with_block z raw Z) as E1. fold f1 in E1.
  destruct (unzips_split _ _ U') as (z2 & Ef & Z2 & _). pose proof (find_eocd_with_block z2 [] Z2) as E2. fold (plain z2) in E2.
  rewrite <- Ef in E2.
  set (e1 := zip_eocd z _ _) in E1. set (e2 := zip_eocd z2 _ _) in E2.
  assert (O1 : eo_cd_offset e1 <= eo_off e1) by (unfold e1; cbn [zip_eocd eo_cd_offset eo_off]; lia).
  assert (O2 : eo_cd_offset e2 <= eo_off e2) by (unfold e2; cbn [zip_eocd eo_cd_offset eo_off]; lia).
  destruct (cli_tamper p q C K1 K2 builtin1 builtin2 now1 now2 ds1 ds2 s1 s2 file1 file2 root1 root2 f1 f2 b1 b2 e1 e2 sg
    HC F1 F2 R1 R2 S L2 V1 V2 G1 G2 I1 I2 E1 (or_intror O1) E2 (or_intror O2)) as [(a & Kn & M)|M].
  - right. exists a, e1, e2. auto.
  - left. apply (unzips_outside p q f1 f2 e1 e2 z raw l eq_refl Z0 Z U E1); auto. right.
    exists b1. unfold s_get_signing_block. rewrite G1. auto.
Qed.

Lemma digest_same_files p q C d1 d2 z f2 a d n l :
  fills d1 -> fills d2 -> 0 < n -> (forall x, len (hash C a x) = n) ->
  zip_ok z [] -> zip_small z [] -> unsigned z -> len f2 < 2 ^ 63 ->
  m_digest p C d1 (module_new (plain z)) (plain z) a = Ok d -> m_digest q C d2 (module_new f2) f2 a = Ok d ->
  unzips (plain z) l -> forall l', unzips f2 l' ->
  l' = l \/ exists e1 e2, find_eocd (plain z) (len (plain z)) = Ok e1 /\ find_eocd f2 (len f2) = Ok e2 /\ module_clash p q (hash C a) (plain z) e1 f2 e2.
Proof.
  intros F1 F2 Hn HC Z S Un L2 D1 D2 U l' U'.
  pose proof (find_eocd_with_block z [] Z) as E1. fold (plain z) in E1.
  destruct (unzips_split _ _ U') as (z2 & Ef & Z2 & _). pose proof (find_eocd_with_block z2 [] Z2) as E2. fold (plain z2) in E2.
  rewrite <- Ef in E2.
  set (e1 := zip_eocd z _ _) in E1. set (e2 := zip_eocd z2 _ _) in E2.
  assert (O1 : eo_cd_offset e1 <= eo_off e1) by (unfold e1; cbn [zip_eocd eo_cd_offset eo_off]; lia).
  assert (O2 : eo_cd_offset e2 <= eo_off e2) by (unfold e2; cbn [zip_eocd eo_cd_offset eo_off]; lia).
  destruct (c31 p q C d1 d2 (plain z) f2 e1 e2 a d n F1 F2 Hn HC S L2 E1 (or_intror O1) E2 (or_intror O2) D1 D2) as [M|M].
  - right. exists e1, e2. auto.
  - left. apply (unzips_outside p q (plain z) f2 e1 e2 z [] l eq_refl Z Z U E1); auto. left. split; [|reflexivity].
    unfold s_get_signing_block. rewrite (get_sb_plain p z Z Un). reflexivity.
Qed.
