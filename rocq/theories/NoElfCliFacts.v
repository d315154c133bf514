(** NoElfCliFacts.v - the commands of builds with and without ELF support. *)
From Verif Require Import Base BaseFacts Utils Algorithms Common SchemeV2 SourceStamp ElfInfo SigningBlock Zip ZipFacts Digest Module Signable Signer Verifier ModuleVerify
  Utf8 Keystore Elf Cli Main MainFacts NoElf NoElfSpec NoElfFacts NoElfCli NoElfCliSpec.
From Coq Require Import Lia.
Open Scope N_scope.
Open Scope list_scope.

(** Both fail for a reason of their own. *)
Definition both_fail (p : profile) (f : bytes) : Prop := exists e e',
  m_get_signing_block p (module_new f) f = Err e /\ m_get_signing_block_w value_parse_n p (module_new f) f = Err e' /\
  maybe_missing_signature e = false /\ maybe_missing_signature e' = false.
Lemma undisputed p f : len f < U64 -> ~ disputed p f -> agreed p f \/ both_fail p f.
Proof.
  intros Hl D. pose proof (sb_alike p f Hl) as A. unfold agreed, both_fail.
  destruct (m_get_signing_block p (module_new f) f) as [b|e|] eqn:X; [left; discriminate| |left; discriminate].
  destruct (m_get_signing_block_w value_parse_n p (module_new f) f) as [c|e'|] eqn:Y; cbn [alike] in A; [|..|contradiction].
  - exfalso. apply D. exists c. split; [exact Y|apply A].
  - destruct A as [->|[A B]]; [left; intros ? [= ->]; reflexivity|]. right. exists e, e'. auto.
Qed.
(** The default build's side of a disputed module. *)
Lemma disputed_err p f : len f < U64 -> disputed p f -> exists e, m_get_signing_block p (module_new f) f = Err e /\ maybe_missing_signature e = false.
Proof.
  intros Hl (c & Y & B). pose proof (sb_alike p f Hl) as A. rewrite Y in A.
  destruct (m_get_signing_block p (module_new f) f) as [b|e|]; cbn [alike] in A; [|exists e; split; [reflexivity|apply A]|contradiction].
  exfalso. exact (same_good _ _ A B).
Qed.
Lemma offsets_err p f e : m_get_signing_block p (module_new f) f = Err e -> maybe_missing_signature e = false ->
  exists e', m_get_offsets p (module_new f) f = Err e'.
Proof.
  intros E M. unfold m_get_offsets. rewrite E, M. unfold m_get_signing_block in E. cbn [module_new m_sig m_raw] in E.
  change (mkModule false (len f) None) with (module_new f) in E.
  destruct (m_find_eocd (module_new f) f); cbn [bind] in *; [eauto|eauto|discriminate].
Qed.
Lemma offsets_err_n p f e : m_get_signing_block_w value_parse_n p (module_new f) f = Err e -> maybe_missing_signature e = false ->
  exists e', m_get_offsets_w value_parse_n p (module_new f) f = Err e'.
Proof.
  intros E M. unfold m_get_offsets_w. rewrite E, M. unfold m_get_signing_block_w in E. cbn [module_new m_sig m_raw] in E.
  change (mkModule false (len f) None) with (module_new f) in E.
  destruct (m_find_eocd (module_new f) f); cbn [bind] in *; [eauto|eauto|discriminate].
Qed.
Lemma regions_same p f : len f < U64 -> agreed p f ->
  m_digest_regions_w value_parse_n p (module_new f) f = m_digest_regions p (module_new f) f.
Proof. intros Hl H. unfold m_digest_regions_w, m_digest_regions. now rewrite offsets_same. Qed.
Lemma regions_err p f e : m_get_offsets p (module_new f) f = Err e -> m_digest_regions p (module_new f) f = Err e.
Proof. intros E. unfold m_digest_regions. now rewrite E. Qed.
Lemma regions_err_n p f e : m_get_offsets_w value_parse_n p (module_new f) f = Err e -> m_digest_regions_w value_parse_n p (module_new f) f = Err e.
Proof. intros E. unfold m_digest_regions_w. now rewrite E. Qed.

(** ** Opening *)
Lemma open_module f m : open_n f = Ok m -> m = module_new f.
Proof.
  unfold open_n. destruct (read_exact_at f 0 4); [|discriminate..]. cbn [bind]. destruct (beq _ _); [now intros [= <-]|].
  destruct (find_eocd f (len f)); [now intros [= <-]|discriminate..].
Qed.
Lemma open_n_np f : open_n f <> Panic.
Proof.
  unfold open_n. destruct (read_exact_at f 0 4) eqn:R; cbn [bind]; [|discriminate|].
  - destruct (beq _ _); [discriminate|]. pose proof (find_eocd_no_panic f). destruct (find_eocd f (len f)); [discriminate..|contradiction].
  - unfold read_exact_at in R. destruct (get_range _ _ _); discriminate.
Qed.
Lemma eocd_empty n : exists e, find_eocd [] n = Err e.
Proof.
  unfold find_eocd. destruct (N.ltb_spec n MIN_EOCD_SIZE) as [L|L]; [eauto|]. cbv zeta. unfold read_exact_at, get_range.
  replace (_ && _) with false; [cbn [of_option bind]; eauto|]. symmetry. apply andb_false_intro2. apply N.leb_gt.
  unfold len. cbn [length N.of_nat]. unfold MAX_COMMENT_LEN, MIN_EOCD_SIZE in *. lia.
Qed.
Lemma open_some rest f : ~ starts_elf f -> signable_open rest (Some f) = do m <- open_n f; Ok (SModule m).
Proof. intros H. apply open_same. intros t E. apply H. now exists t. Qed.

(** ** Writing *)
(** What is at the input when the output has been emptied. *)
Lemma input_then s out input f : fs_read s input = Some f ->
  now_content (fs_read (apply s (Truncate out)) input) = f \/ now_content (fs_read (apply s (Truncate out)) input) = [].
Proof.
  unfold fs_read. cbn [apply put fs_can_read fs_data fs_file]. destruct (fs_can_read s input); [|discriminate]. intros H.
  destruct (_ =? _); [right; reflexivity|left]. now rewrite H.
Qed.
Lemma write_empty p f blk : s_write_with_signature_w value_parse_n p (module_new f) [] blk = s_write_with_signature p (module_new f) [] blk.
Proof.
  unfold s_write_with_signature_w, s_write_with_signature, s_source_w, s_source, m_get_signing_block_w, m_get_signing_block.
  unfold m_find_eocd. cbn [module_new m_sig m_raw m_len]. destruct (eocd_empty (len f)) as [e ->]. reflexivity.
Qed.

(** ** sign *)
Lemma digests_same p C rest ds f l : len f < U64 -> agreed p f ->
  cli_digests_n p C ds (module_new f) f l = cli_digests p C rest ds (SModule (module_new f)) (Some f) l.
Proof.
  intros Hl H. induction l as [|a l IH]; [reflexivity|]. cbn [cli_digests_n cli_digests signable_digest now_content].
  rewrite digest_same by assumption. now rewrite IH.
Qed.
Definition alike_results {A} (x y : list step * res A) : Prop :=
  fst x = fst y /\ (snd x = snd y \/ exists e e', snd x = Err e /\ snd y = Err e').
Lemma refused_n (l : list rstring) : l <> [] -> refuse_sections l = Err (ECli 19).
Proof. destruct l; [easy|reflexivity]. Qed.
Lemma refused_module m (l : list rstring) : l <> [] -> choose_sections (SModule m) l = Err EInvalidFormat.
Proof. destruct l; [easy|reflexivity]. Qed.
Lemma both_err {A} (e e' : err) : alike_results ([], @Err A e) ([], Err e').
Proof. split; [reflexivity|]. right. do 2 eexists. split; reflexivity. Qed.
Lemma same_result {A} (x : list step * res A) : alike_results x x.
Proof. split; [reflexivity|now left]. Qed.

Lemma sign_alike p C L rest clk ds s a :
  holds s (sa_input a) (fun f => len f < U64 /\ ~ starts_elf f /\ ~ disputed p f) ->
  alike_results (cli_sign p C L rest clk ds s a) (cli_sign_n p C L clk ds s a).
Proof.
  intros H. unfold cli_sign, cli_sign_n, cli_sign_block, cli_sign_block_n, holds in *.
  destruct (cli_signer L s a) as [sg|e|]; cbn [bind]; [|apply same_result..].
  destruct (fs_read s (sa_input a)) as [f|] eqn:F; [|apply same_result].
  destruct (H f eq_refl) as (Hl & NE & ND). rewrite open_some by exact NE. cbn [signable_open_n of_option bind].
  destruct (open_n f) as [m|e|] eqn:O; cbn [bind]; [|apply same_result..].
  apply open_module in O. subst m.
  destruct (sa_sections a) as [|x l] eqn:S; [|apply both_err]. cbn [choose_sections refuse_sections bind signable_regions now_content].
  destruct (undisputed p f Hl ND) as [A|(e & e' & E & E' & M & M')].
  - rewrite regions_same by assumption. destruct (m_digest_regions p (module_new f) f); cbn [bind]; [|apply same_result..].
    rewrite (digests_same p C rest ds f _ Hl A). destruct (cli_digests _ _ _ _ _ _ _); cbn [bind]; [|apply same_result..].
    destruct (ms_sign _ _ _ _ _) as [b|?|]; cbn [bind cli_add_info]; [|apply same_result..].
    destruct (fs_can_create s (sa_output a)); [|apply same_result]. cbv zeta. cbn [signable_write].
    destruct (input_then s (fs_file s (sa_output a)) (sa_input a) f F) as [-> | ->].
    + rewrite (write_same p f b Hl A). apply same_result.
    + rewrite write_empty. apply same_result.
  - destruct (offsets_err p f e E M) as [x ->%regions_err]. destruct (offsets_err_n p f e' E' M') as [y ->%regions_err_n]. apply both_err.
Qed.

(** ** digest *)
Lemma digest_alike p C rest b64 ds s a :
  holds s (da_input a) (fun f => len f < U64 /\ ~ starts_elf f /\ ~ disputed p f) ->
  alike_results (cli_digest p C rest b64 ds s a) (cli_digest_n p C b64 ds s a).
Proof.
  intros H. unfold cli_digest, cli_digest_n, holds in *. cbv zeta.
  destruct (fs_read s (da_input a)) as [f|] eqn:F; [|apply same_result].
  destruct (H f eq_refl) as (Hl & NE & ND). rewrite open_some by exact NE. cbn [signable_open_n of_option bind].
  destruct (open_n f) as [m|e|] eqn:O; cbn [bind]; [|apply same_result..].
  apply open_module in O. subst m.
  destruct (da_sections a) as [|x l] eqn:S; [|apply both_err]. cbn [choose_sections refuse_sections bind signable_regions now_content].
  destruct (undisputed p f Hl ND) as [A|(e & e' & E & E' & M & M')].
  - rewrite regions_same by assumption. destruct (m_digest_regions p (module_new f) f) as [l|?|]; cbn [bind]; [|apply same_result..].
    destruct (total_size p l 0); cbn [bind]; [|apply same_result..]. destruct (da_dump a); [apply same_result|].
    cbn [signable_digest now_content]. rewrite digest_same by assumption. apply same_result.
  - destruct (offsets_err p f e E M) as [x ->%regions_err]. destruct (offsets_err_n p f e' E' M') as [y ->%regions_err_n]. apply both_err.
Qed.

(** ** verify *)
Lemma add_same p C ds f a ctx : len f < U64 -> agreed p f -> cli_add_digest_n p C ds (module_new f) f a ctx = cli_add_digest p C ds (module_new f) f a ctx.
Proof. intros Hl A. unfold cli_add_digest_n, cli_add_digest. now rewrite digest_same. Qed.
Lemma same_v2_verdict C K now roots b c ctx : same_block b c ->
  verify_v2_with_digest C K now roots c ctx = verify_v2_with_digest C K now roots b ctx /\
  verify_source_stamp_with_digest C K now roots c ctx = verify_source_stamp_with_digest C K now roots b ctx.
Proof.
  intros (_ & _ & _ & _ & _ & _ & H). unfold verify_v2_with_digest, verify_source_stamp_with_digest.
  now rewrite (same_v2 _ _ _ _ _ _ _ H), (same_stamp _ _ _ _ _ _ _ H).
Qed.
Lemma verify_alike p C K builtin now ds s file root f : fs_read s file = Some f -> len f < U64 -> agreed p f ->
  cli_verify_n p C K builtin now ds s file root = cli_verify p C K builtin now ds s file root.
Proof.
  intros F Hl A. unfold cli_verify, cli_verify_n. rewrite F. cbn [of_option bind]. cbv zeta.
  pose proof (sb_alike p f Hl) as B. pose proof A as A'. unfold agreed in A'.
  destruct (m_get_signing_block p (module_new f) f) as [b|e|] eqn:X; [|rewrite (A' e eq_refl); reflexivity|].
  - destruct (m_get_signing_block_w value_parse_n p (module_new f) f) as [c|e|]; cbn [alike] in B; try contradiction. cbn [map_err bind].
    destruct (cli_roots K builtin s root) as [rs|?|]; cbn [bind]; [|reflexivity..].
    rewrite add_same by assumption. destruct (cli_add_digest p C ds (module_new f) f ECDSA_SHA2_256 ctx_new) as [ctx|?|]; cbn [bind]; [|reflexivity..].
    rewrite add_same by assumption. destruct (cli_add_digest p C ds (module_new f) f ECDSA_SHA2_512 ctx) as [ctx'|?|]; cbn [bind]; [|reflexivity..].
    destruct (same_v2_verdict C K now rs b c (Some ctx') B) as [V T]. destruct ctx' as [|x ctx']; [reflexivity|]. now rewrite V, T.
  - destruct (m_get_signing_block_w value_parse_n p (module_new f) f) as [c|e|]; cbn [alike] in B; try contradiction. reflexivity.
Qed.
Lemma verify_alike' p C K builtin now ds s file root : holds s file (fun f => len f < U64 /\ ~ disputed p f) ->
  cli_verify_n p C K builtin now ds s file root = cli_verify p C K builtin now ds s file root.
Proof.
  intros H. unfold holds in H. destruct (fs_read s file) as [f|] eqn:F; [|unfold cli_verify, cli_verify_n; now rewrite F].
  destruct (H f eq_refl) as [Hl D]. destruct (undisputed p f Hl D) as [A|(e & e' & E & E' & _)]; [now apply (verify_alike p C K builtin now ds s file root f)|].
  unfold cli_verify, cli_verify_n. rewrite F. cbn [of_option bind]. cbv zeta. now rewrite E, E'.
Qed.
Lemma verify_disputed p C K builtin now ds s file root f : fs_read s file = Some f -> len f < U64 -> disputed p f ->
  cli_verify p C K builtin now ds s file root = Err (ECli 16).
Proof.
  intros F Hl D. destruct (disputed_err p f Hl D) as (e & E & _). unfold cli_verify. rewrite F. cbn [of_option bind]. cbv zeta. now rewrite E.
Qed.
Lemma verify_more p C K builtin now ds s file root : holds s file (fun f => len f < U64) ->
  cli_verify p C K builtin now ds s file root = Ok tt -> cli_verify_n p C K builtin now ds s file root = Ok tt.
Proof.
  intros H V. destruct (fs_read s file) as [f|] eqn:F; [|unfold cli_verify in V; rewrite F in V; discriminate].
  rewrite <- V. apply (verify_alike p C K builtin now ds s file root f F); [now apply H|]. intros e E.
  unfold cli_verify in V. rewrite F in V. cbn [of_option bind] in V. cbv zeta in V. rewrite E in V. discriminate.
Qed.

(** ** info *)
Lemma info_alike p C K builtin now s file : holds s file (fun f => len f < U64) ->
  match cli_info p C K builtin now s file, cli_info_n p C K builtin now s file with
  | Ok x, Ok y => same_block (io_block x) (io_block y) /\ io_v2 y = io_v2 x /\ io_stamp y = io_stamp x
  | Err _, Ok y => exists f, fs_read s file = Some f /\ disputed_info p f
  | Err _, Err _ => True
  | Panic, Panic => True
  | _, _ => False
  end.
Proof.
  intros H. unfold cli_info, cli_info_n, holds in *. destruct (fs_read s file) as [f|]; [|exact I]. cbn [of_option bind].
  pose proof (reader_alike p f (len f) 0 (H f eq_refl)) as A.
  destruct (from_reader p f (len f) 0) as [b|e|], (from_reader_w value_parse_n p f (len f) 0) as [c|e'|] eqn:Y; cbn [alike bind] in *; try contradiction; try exact I.
  - cbv zeta. cbn [io_block io_v2 io_stamp]. destruct (same_v2_verdict C K now (roots_with_builtin K builtin) b c None A) as [-> E].
    split; [exact A|]. split; [reflexivity|]. unfold verify_source_stamp. now rewrite E.
  - exists f. split; [reflexivity|]. exists c. split; [exact Y|apply A].
Qed.
Lemma info_disputed p C K builtin now s file f : fs_read s file = Some f -> len f < U64 -> disputed_info p f ->
  exists e, cli_info p C K builtin now s file = Err e.
Proof.
  intros F Hl (c & Y & B). pose proof (reader_alike p f (len f) 0 Hl) as A. rewrite Y in A. unfold cli_info. rewrite F. cbn [of_option bind].
  destruct (from_reader p f (len f) 0) as [b|e|]; cbn [alike] in A; [|cbn [bind]; eauto|contradiction]. exfalso. exact (same_good _ _ A B).
Qed.

(** ** What the default build refuses *)
Lemma sign_disputed p C L rest clk ds s a f : fs_read s (sa_input a) = Some f -> len f < U64 -> ~ starts_elf f -> disputed p f ->
  exists e, cli_sign p C L rest clk ds s a = ([], Err e).
Proof.
  intros F Hl NE D. destruct (disputed_err p f Hl D) as (e & E & M). destruct (offsets_err p f e E M) as [x X%regions_err].
  unfold cli_sign, cli_sign_block. pose proof (signer_np L s a) as NP. destruct (cli_signer L s a) as [sg|?|]; cbn [bind]; [|eauto|contradiction].
  rewrite F, open_some by exact NE. pose proof (open_module f) as O.
  pose proof (open_n_np f).
  destruct (open_n f) as [m|?|]; cbn [bind]; [|eauto|contradiction]. rewrite (O m eq_refl).
  destruct (sa_sections a); [|cbn; eauto]. cbn [choose_sections bind signable_regions now_content]. rewrite X. cbn [bind]. eauto.
Qed.
Lemma digest_disputed p C rest b64 ds s a f : fs_read s (da_input a) = Some f -> len f < U64 -> ~ starts_elf f -> disputed p f ->
  exists e, cli_digest p C rest b64 ds s a = ([], Err e).
Proof.
  intros F Hl NE D. destruct (disputed_err p f Hl D) as (e & E & M). destruct (offsets_err p f e E M) as [x X%regions_err].
  unfold cli_digest. cbv zeta.
  rewrite F, open_some by exact NE. pose proof (open_module f) as O.
  pose proof (open_n_np f).
  destruct (open_n f) as [m|?|]; cbn [bind]; [|eauto|contradiction]. rewrite (O m eq_refl).
  destruct (da_sections a); [|cbn; eauto]. cbn [choose_sections bind signable_regions now_content]. rewrite X. cbn [bind]. eauto.
Qed.

(** ** What the other build refuses *)
Lemma sign_sections_n p C L clk ds s a : sa_sections a <> [] -> exists e, cli_sign_n p C L clk ds s a = ([], Err e).
Proof.
  intros S. unfold cli_sign_n, cli_sign_block_n. pose proof (signer_np L s a) as NP. destruct (cli_signer L s a) as [sg|?|]; cbn [bind]; [|eauto|contradiction].
  unfold signable_open_n. destruct (fs_read s (sa_input a)) as [f|]; cbn [of_option bind]; [|eauto].
  pose proof (open_n_np f). destruct (open_n f); cbn [bind]; [|eauto|contradiction]. rewrite refused_n by exact S. cbn [bind]. eauto.
Qed.
Lemma digest_sections_n p C b64 ds s a : da_sections a <> [] -> exists e, cli_digest_n p C b64 ds s a = ([], Err e).
Proof.
  intros S. unfold cli_digest_n. cbv zeta.
  unfold signable_open_n. destruct (fs_read s (da_input a)) as [f|]; cbn [of_option bind]; [|eauto].
  pose proof (open_n_np f). destruct (open_n f); cbn [bind]; [|eauto|contradiction]. rewrite refused_n by exact S. cbn [bind]. eauto.
Qed.
Lemma elf_unopened f : starts_elf f -> (forall e, find_eocd f (len f) <> Ok e) -> exists e, open_n f = Err e.
Proof.
  intros [t ->] N. destruct (open_elf t) as [[A _] B]. cbv zeta in *. pose proof (open_n_np (ELFMAG ++ t)).
  destruct (open_n (ELFMAG ++ t)) as [m|e|]; [|eauto|contradiction]. rewrite (B m eq_refl) in A. destruct (A eq_refl) as [e E]. now destruct (N e).
Qed.
Lemma sign_elf_n p C L clk ds s a f : fs_read s (sa_input a) = Some f -> starts_elf f -> (forall e, find_eocd f (len f) <> Ok e) ->
  exists e, cli_sign_n p C L clk ds s a = ([], Err e).
Proof.
  intros F E N. unfold cli_sign_n, cli_sign_block_n. pose proof (signer_np L s a) as NP. destruct (cli_signer L s a) as [sg|?|]; cbn [bind]; [|eauto|contradiction].
  rewrite F. cbn [signable_open_n of_option bind]. destruct (elf_unopened f E N) as [e ->]. cbn [bind]. eauto.
Qed.
Lemma digest_elf_n p C b64 ds s a f : fs_read s (da_input a) = Some f -> starts_elf f -> (forall e, find_eocd f (len f) <> Ok e) ->
  exists e, cli_digest_n p C b64 ds s a = ([], Err e).
Proof.
  intros F E N. unfold cli_digest_n. cbv zeta.
  rewrite F. cbn [signable_open_n of_option bind]. destruct (elf_unopened f E N) as [e ->]. cbn [bind]. eauto.
Qed.
