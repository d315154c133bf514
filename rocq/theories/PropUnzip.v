(** PropUnzip.v - C91: the files in a module.

    [unzips f l] (UnzipSpec.v): the archive [f] contains exactly the files [l], read
    through its directory by the rules of the ZIP format.  [plain z] is an archive
    without signing block, [with_block z raw] the same with [raw] before the
    directory (ZipSpec.v). *)
From Verif Require Import Base BaseFacts Utils Algorithms Common SchemeV2 SourceStamp Utf8 ElfInfo
  SigningBlock Wire Built BuiltFacts Spec Zip Digest Module Signable ZipSpec RegionSpec ZipFacts DigestFacts ModuleFacts
  ModuleProps RawFacts Toy Signer Verifier ModuleVerify VerifySpec SignSpec EndToEnd ToyVerify Keystore Elf ElfSpec
  ToyElf Cli CliSpec CliFacts CliProps CliProps2 CliProps3 CliProps4 ToyCli UnzipSpec UnzipFacts UnzipFacts2.
Open Scope N_scope.
Open Scope list_scope.

(** * C91 *)
(** An archive contains one list of files. *)
Theorem C91_one : forall f l1 l2, unzips f l1 -> unzips f l2 -> l1 = l2.
Proof. exact unzips_fun. Qed.
Print Assumptions C91_one.

(** Writing a signature keeps the files. *)
Theorem C91_written : forall p z b out l, zip_ok z [] -> unsigned z -> zip_ok z (block_to_u8 b) -> unzips (plain z) l ->
  s_write_with_signature p (module_new (plain z)) (plain z) b = (out, Ok tt) -> forall l', unzips out l' <-> l' = l.
Proof. exact written_same. Qed.
Print Assumptions C91_written.

(** So does replacing one, whoever wrote it, as long as it is found right before the
    directory and the archive is readable without it. *)
Theorem C91_resigned : forall p q z raw b0 b out l, zip_ok z raw -> zip_small z raw -> zip_ok z [] -> zip_ok z (block_to_u8 b) -> unzips (plain z) l ->
  m_get_signing_block p (module_new (with_block z raw)) (with_block z raw) = Ok b0 ->
  bk_start b0 = len (z_entries z) -> bk_end b0 = len (z_entries z) + len raw ->
  s_write_with_signature q (module_new (with_block z raw)) (with_block z raw) b = (out, Ok tt) -> forall l', unzips out l' <-> l' = l.
Proof. exact resigned_same. Qed.
Print Assumptions C91_resigned.

(** The sign command. *)
Theorem C91_sign : forall p C L rest clk ds s a z steps signer l,
  crypto_ok C -> fs_read s (sa_input a) = Some (plain z) -> zip_ok z [] -> unsigned z -> (forall t, plain z <> ELFMAG ++ t) ->
  (forall blk, len blk <= 16392 -> zip_ok z blk) ->
  fs_file s (sa_output a) <> fs_file s (sa_input a) -> fs_can_read s (sa_output a) = true ->
  cli_signer L s a = Ok signer -> cli_sign p C L rest clk ds s a = (steps, Ok tt) -> unzips (plain z) l ->
  exists out, fs_read (run s steps) (sa_output a) = Some out /\ forall l', unzips out l' <-> l' = l.
Proof. exact sign_same. Qed.
Print Assumptions C91_sign.

(** A module with the digest of an unsigned module contains the same files, or none
    can be read, or two messages hashed for the two digests collide. *)
Theorem C91_digest : forall p q C d1 d2 z f2 a d n l,
  fills d1 -> fills d2 -> 0 < n -> (forall x, len (hash C a x) = n) ->
  zip_ok z [] -> zip_small z [] -> unsigned z -> len f2 < 2 ^ 63 ->
  m_digest p C d1 (module_new (plain z)) (plain z) a = Ok d -> m_digest q C d2 (module_new f2) f2 a = Ok d ->
  unzips (plain z) l -> forall l', unzips f2 l' ->
  l' = l \/ exists e1 e2, find_eocd (plain z) (len (plain z)) = Ok e1 /\ find_eocd f2 (len f2) = Ok e2 /\
    module_clash p q (hash C a) (plain z) e1 f2 e2.
Proof. exact digest_same_files. Qed.
Print Assumptions C91_digest.

(** Whoever made [f2]: if verify accepts it and it has a V2 signer in common with the
    accepted module [with_block z raw], it contains the same files, or none can be
    read, or hashes collide. *)
Theorem C91_accepted : forall p q C K1 K2 builtin1 builtin2 now1 now2 ds1 ds2 s1 s2 file1 file2 root1 root2 z raw f2 b1 b2 sg l,
  let f1 := with_block z raw in
  hash_sized C -> (forall a, fills (ds1 a)) -> (forall a, fills (ds2 a)) ->
  fs_read s1 file1 = Some f1 -> fs_read s2 file2 = Some f2 -> zip_ok z [] -> zip_ok z raw -> zip_small z raw -> len f2 < 2 ^ 63 ->
  cli_verify p C K1 builtin1 now1 ds1 s1 file1 root1 = Ok tt -> cli_verify q C K2 builtin2 now2 ds2 s2 file2 root2 = Ok tt ->
  m_get_signing_block p (module_new f1) f1 = Ok b1 -> bk_start b1 = len (z_entries z) -> bk_end b1 = len (z_entries z) + len raw ->
  m_get_signing_block q (module_new f2) f2 = Ok b2 -> In sg (v2_signers_of b1) -> In sg (v2_signers_of b2) ->
  unzips (plain z) l -> forall l', unzips f2 l' ->
  l' = l \/ exists a e1 e2, (a = ECDSA_SHA2_256 \/ a = ECDSA_SHA2_512) /\ find_eocd f1 (len f1) = Ok e1 /\ find_eocd f2 (len f2) = Ok e2 /\ module_clash p q (hash C a) f1 e1 f2 e2.
Proof. exact accepted_same. Qed.
Print Assumptions C91_accepted.

(** ** Examples *)
(** Archives made of stored files. *)
Definition local_of (name data : bytes) : bytes :=
  [x50; x4b; x03; x04] ++ zeros 14 ++ le 4 (len data) ++ le 4 (len data) ++ le 2 (len name) ++ le 2 0 ++ name.
Definition central_of (name data : bytes) (off : N) (comment : bytes) : bytes :=
  [x50; x4b; x01; x02] ++ zeros 16 ++ le 4 (len data) ++ le 4 (len data) ++ le 2 (len name) ++ le 2 0 ++ le 2 (len comment) ++
  zeros 8 ++ le 4 off ++ name ++ comment.
Definition name_a : bytes := [x61].
Definition name_b : bytes := [x62].
Definition data_a : bytes := [x6f; x6b].
Definition data_b : bytes := [x62; x61; x68].
Definition two_entries : bytes := local_of name_a data_a ++ data_a ++ local_of name_b data_b ++ data_b.
Definition off_b : N := len (local_of name_a data_a ++ data_a).
Definition head_of (n : N) (cd : bytes) : bytes := le 2 0 ++ le 2 0 ++ le 2 n ++ le 2 n ++ le 4 (len cd).
Definition headers_ab : list bytes := [central_of name_a data_a 0 []; central_of name_b data_b off_b []].
Definition zip_ab : zip := mkZip two_entries (concat headers_ab) (head_of 2 (concat headers_ab)) [].
Definition item_a : item := mkItem (central_of name_a data_a 0 []) (local_of name_a data_a) data_a.
Definition item_b : item := mkItem (central_of name_b data_b off_b []) (local_of name_b data_b) data_b.

Ltac points_tac pre post := repeat split; [try (vm_compute; discriminate)|]; exists pre, post; split; vm_compute; reflexivity.
Lemma zip_ab_ok : zip_ok zip_ab [].
Proof. zip_ok_tac. Qed.
Lemma zip_ab_unzips : unzips (plain zip_ab) [item_a; item_b].
Proof.
  apply reads_unzips; [exact zip_ab_ok|]. exists headers_ab. split; [reflexivity|]. split; [reflexivity|]. split; [reflexivity|]. split.
  - repeat constructor; vm_compute; discriminate.
  - constructor; [|constructor; [|constructor]].
    + points_tac (@nil byte) (local_of name_b data_b ++ data_b).
    + points_tac (local_of name_a data_a ++ data_a) (@nil byte).
Qed.

Lemma zip_ab_unsigned : unsigned zip_ab.
Proof. split; [vm_compute; discriminate|apply no_magic_check; vm_compute; reflexivity]. Qed.
Lemma zip_ab_blocks : forall blk, len blk <= 16392 -> zip_ok zip_ab blk.
Proof. intros blk H. apply blocks_fit; [exact zip_ab_ok|reflexivity|vm_compute; reflexivity|vm_compute; reflexivity|exact H]. Qed.
(** Signing it on the command line: the output contains both files. *)
Example C91_sign_example : let s := toy_fs (plain zip_ab) in
  let r := cli_sign Debug toyC toyKL all_ok (Some 500) fr2 s toy_args in
  snd r = Ok tt /\
  exists out, fs_read (run s (fst r)) (sa_output toy_args) = Some out /\ out <> plain zip_ab /\ unzips out [item_a; item_b] /\
    cli_verify Debug toyC toyK [] (Some 500) fr2 (run s (fst r)) (sa_output toy_args) (Some ([x72; x6f; x6f; x74])) = Ok tt.
Proof.
  intros s r. assert (E : snd r = Ok tt) by (vm_compute; reflexivity). split; [exact E|].
  destruct (C91_sign Debug toyC toyKL all_ok (Some 500) fr2 s toy_args zip_ab (fst r) signer12 [item_a; item_b]) as (out & O & U).
  - apply toy_crypto_ok.
  - reflexivity.
  - exact zip_ab_ok.
  - exact zip_ab_unsigned.
  - intros t X. discriminate X.
  - exact zip_ab_blocks.
  - vm_compute. discriminate.
  - reflexivity.
  - reflexivity.
  - fold r. rewrite <- E. now destruct r.
  - exact zip_ab_unzips.
  - exists out. split; [exact O|]. split; [|split; [now apply U|vm_compute; reflexivity]].
    assert (X : option_map (fun f => beq f (plain zip_ab)) (fs_read (run s (fst r)) (sa_output toy_args)) = Some false) by (vm_compute; reflexivity).
    rewrite O in X. injection X as X. intros ->. rewrite beq_refl in X. discriminate X.
Qed.

(** An archive with one file, and in the comment of its header the header of another. *)
Definition header_tricky : bytes := central_of name_a data_a 0 (central_of name_b data_b off_b []).
Definition zip_tricky : zip := mkZip two_entries header_tricky (head_of 1 header_tricky) [].
Definition tricky_values : list value := takeN 2 (bk_content (
  get_ok dummy_block (ms_sign Debug toyC (Some 500) signer12 (digests_of_pairs
    (map (fun a => (a, get_ok [] (m_digest Debug toyC (fun _ => full_reads) (module_new (plain zip_tricky)) (plain zip_tricky) a)))
      [ECDSA_SHA2_256; ECDSA_SHA2_512]))))).
Definition tricky_block : signing_block := fresh_block tricky_values.
Definition tricky_signed : bytes := with_block zip_tricky (block_to_u8 tricky_block).
(** The same with a directory offset that is 47 larger. *)
Definition tricky_moved : bytes :=
  with_offset zip_tricky (block_to_u8 tricky_block) (len (z_entries zip_tricky) + len (block_to_u8 tricky_block) + 47).
Definition item_t : item := mkItem header_tricky (local_of name_a data_a) data_a.
Definition accepts (f : bytes) : bool :=
  match m_verify_with_roots Debug toyC toyK (Some 500) fr2 (module_new f) f (configured toyK [root_cert]) with
  | Ok r => is_valid r && has_v2 r | _ => false end.

Lemma found f e : find_eocd f (len f) = Ok e -> forall o, eo_off e = o -> last_record f o.
Proof. intros H o <-. now apply find_eocd_inv. Qed.

(** An unpacker that does not look at the size of the directory can be shown other
    files in a module that verifies with the same block: the offset of the directory
    is not authenticated (C32). *)
Theorem C91_careless_refuted : exists f1 f2 l1 l2, accepts f1 = true /\ accepts f2 = true /\
  m_get_signing_block Debug (module_new f1) f1 = m_get_signing_block Debug (module_new f2) f2 /\
  unzips f1 l1 /\ unzips_careless f1 l1 /\ unzips_careless f2 l2 /\ l1 <> l2 /\ forall l, ~ unzips f2 l.
Proof.
  exists tricky_signed, tricky_moved, [item_t], [item_b].
  split; [vm_compute; reflexivity|]. split; [vm_compute; reflexivity|]. split; [vm_compute; reflexivity|].
  assert (Z : zip_ok zip_tricky []) by zip_ok_tac.
  assert (Zb : zip_ok zip_tricky (block_to_u8 tricky_block)) by zip_ok_tac.
  assert (U : unzips tricky_signed [item_t]).
  { apply (unzips_block zip_tricky (block_to_u8 tricky_block) [item_t] Z Zb); [|reflexivity].
    apply reads_unzips; [exact Z|]. exists [header_tricky]. split; [reflexivity|]. split; [reflexivity|]. split; [reflexivity|]. split.
    - repeat constructor; vm_compute; discriminate.
    - constructor; [|constructor]. points_tac (@nil byte) (local_of name_b data_b ++ data_b). }
  split; [exact U|]. split.
  { destruct U as (area & hs & head & c & E & L1 & L2 & L3 & R & N1 & N2 & F1 & F2). exists area, hs, [], head, c. cbn [app].
    change (len (@nil byte)) with 0. rewrite N.add_0_r. auto 10. }
  assert (E2 : find_eocd tricky_moved (len tricky_moved) = Ok (zip_eocd zip_tricky
    (len (z_entries zip_tricky ++ block_to_u8 tricky_block ++ z_cd zip_tricky)) (len (z_entries zip_tricky) + len (block_to_u8 tricky_block) + 47)))
    by (vm_compute; reflexivity).
  split; [|split; [discriminate|]].
  - exists (z_entries zip_tricky ++ block_to_u8 tricky_block ++ takeN 47 header_tricky), [central_of name_b data_b off_b []], [], (z_head zip_tricky), [].
    split; [vm_compute; reflexivity|]. split; [reflexivity|]. split; [reflexivity|]. split; [vm_compute; reflexivity|].
    split; [apply (found _ _ E2); vm_compute; reflexivity|]. split; [reflexivity|]. split.
    + repeat constructor; vm_compute; discriminate.
    + constructor; [|constructor]. points_tac (local_of name_a data_a ++ data_a) (block_to_u8 tricky_block ++ takeN 47 header_tricky).
  - intros l Ul. pose proof (unzips_size _ _ _ Ul E2) as X. revert X. vm_compute. discriminate.
Qed.
Print Assumptions C91_careless_refuted.

(** Two accepted files with the same signer and different blocks; both can be read. *)
Definition other_block : signing_block := fresh_block (tricky_values ++ [BaseBlock (raw_new 0x99 [xff])]).
Example C91_accepted_example :
  let f1 := tricky_signed in let f2 := with_block zip_tricky (block_to_u8 other_block) in f1 <> f2 /\
  cli_verify Debug toyC toyK [] (Some 500) fr2 (toy_fs f1) (sa_input toy_args) (Some [x72; x6f; x6f; x74]) = Ok tt /\
  cli_verify Debug toyC toyK [] (Some 500) fr2 (toy_fs f2) (sa_input toy_args) (Some [x72; x6f; x6f; x74]) = Ok tt /\
  (exists b1 b2 sg, m_get_signing_block Debug (module_new f1) f1 = Ok b1 /\ bk_start b1 = len (z_entries zip_tricky) /\
     bk_end b1 = len (z_entries zip_tricky) + len (block_to_u8 tricky_block) /\
     m_get_signing_block Debug (module_new f2) f2 = Ok b2 /\ In sg (v2_signers_of b1) /\ In sg (v2_signers_of b2)) /\
  unzips f2 [item_t].
Proof.
  intros f1 f2. split; [|split; [|split; [|split]]].
  - intros E. apply (f_equal len) in E. revert E. vm_compute. discriminate.
  - vm_compute. reflexivity.
  - vm_compute. reflexivity.
  - do 3 eexists. split; [vm_compute; reflexivity|]. split; [reflexivity|]. split; [vm_compute; reflexivity|].
    split; [vm_compute; reflexivity|]. split; left; reflexivity.
  - assert (Z : zip_ok zip_tricky []) by zip_ok_tac. assert (Zb : zip_ok zip_tricky (block_to_u8 other_block)) by zip_ok_tac.
    apply (unzips_block zip_tricky (block_to_u8 other_block) [item_t] Z Zb); [|reflexivity].
    apply reads_unzips; [exact Z|]. exists [header_tricky]. split; [reflexivity|]. split; [reflexivity|]. split; [reflexivity|]. split.
    + repeat constructor; vm_compute; discriminate.
    + constructor; [|constructor]. points_tac (@nil byte) (local_of name_b data_b ++ data_b).
Qed.
(** The digest example: the unsigned and the signed archive have the same digest. *)
Example C91_digest_example :
  let f2 := with_block zip_tricky (block_to_u8 other_block) in
  exists d, m_digest Debug toyC (fun _ => full_reads) (module_new (plain zip_tricky)) (plain zip_tricky) ECDSA_SHA2_256 = Ok d /\
  m_digest Debug toyC (fun _ => full_reads) (module_new f2) f2 ECDSA_SHA2_256 = Ok d /\ unsigned zip_tricky.
Proof.
  eexists. split; [vm_compute; reflexivity|]. split; [vm_compute; reflexivity|].
  split; [vm_compute; discriminate|apply no_magic_check; vm_compute; reflexivity].
Qed.
