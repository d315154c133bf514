(** BuildFacts.v - the debug and the release build. *)
From Verif Require Import Base BaseFacts Utils Algorithms Common SchemeV2 SourceStamp Utf8 ElfInfo SigningBlock LimitFacts DebugFacts PropBlockFacts
  Zip Digest Module Signable Signer Verifier Keystore Elf Cli CliSpec CliFacts CliProps Print InfoPrint SignPrint Main MainSpec MainFacts Text TextSpec ZipFacts ZipFacts BuildSpec.
From Coq Require Import Lia.
Open Scope N_scope.
Open Scope list_scope.

(** The debug build gives what the release build gives, or stops. *)
Definition agree {A} (x y : res A) : Prop := x = Panic \/ x = y.
Lemma agree_same {A} (x : res A) : agree x x. Proof. now right. Qed.
Lemma agree_bind {A B} (m m' : res A) (k k' : A -> res B) : agree m m' -> (forall x, m = Ok x -> agree (k x) (k' x)) -> agree (bind m k) (bind m' k').
Proof. intros [->| ->] H; [now left|]. destruct m'; cbn [bind]; [now apply H|now right..]. Qed.
Lemma agree_usub a b : agree (usub Debug a b) (usub Release a b).
Proof. unfold usub, agree. destruct (_ <=? _); auto. Qed.
Lemma agree_uadd a b : agree (uadd Debug a b) (uadd Release a b).
Proof. unfold uadd, agree. destruct (_ <? _); auto. Qed.
Lemma agree_sb f : agree (m_get_signing_block Debug (module_new f) f) (m_get_signing_block Release (module_new f) f).
Proof.
  unfold m_get_signing_block, m_find_eocd. cbn [module_new m_sig m_raw m_len]. apply agree_bind; [apply agree_same|]. intros e _. apply c10_reader_same.
Qed.
Lemma agree_offsets f : agree (m_get_offsets Debug (module_new f) f) (m_get_offsets Release (module_new f) f).
Proof.
  unfold m_get_offsets. apply agree_bind; [apply agree_same|]. intros e _. destruct (agree_sb f) as [->| ->]; [now left|apply agree_same].
Qed.
Lemma agree_regions f : agree (m_digest_regions Debug (module_new f) f) (m_digest_regions Release (module_new f) f).
Proof.
  unfold m_digest_regions. apply agree_bind; [apply agree_offsets|]. intros o _.
  do 3 (apply agree_bind; [apply agree_usub|]; intros ? _). apply agree_same.
Qed.
Lemma agree_digest C sched f a : agree (m_digest Debug C sched (module_new f) f a) (m_digest Release C sched (module_new f) f a).
Proof.
  unfold m_digest. apply agree_bind; [apply agree_offsets|]. intros o _. unfold digest_module.
  do 3 (apply agree_bind; [apply agree_usub|]; intros ? _; apply agree_bind; [apply agree_same|]; intros ? _). apply agree_same.
Qed.
Lemma agree_padding l : agree (block_new_with_padding Debug l) (block_new_with_padding Release l).
Proof.
  rewrite !padding_cases. destruct (existsb _ l); [apply agree_same|]. cbn zeta. destruct (_ && _); [now left|apply agree_same].
Qed.
Lemma agree_ms_sign C clk m d : agree (ms_sign Debug C clk m d) (ms_sign Release C clk m d).
Proof.
  unfold ms_sign. apply agree_bind; [apply agree_same|]. intros l _. apply agree_bind; [apply agree_same|]. intros [|v l'] _; [apply agree_same|].
  unfold ms_finish. destruct (ms_padding m); [apply agree_padding|apply agree_same].
Qed.
Lemma agree_raw f : agree (m_get_raw_module Debug (module_new f) f) (m_get_raw_module Release (module_new f) f).
Proof.
  unfold m_get_raw_module. destruct (m_raw (module_new f)); [apply agree_same|]. apply agree_bind; [apply agree_sb|]. intros b _.
  apply agree_bind; [apply agree_usub|]. intros n _. apply agree_bind; [apply agree_same|]. intros h _. apply agree_bind; [apply agree_same|]. intros e _.
  destruct (_ <? _); [apply agree_same|]. cbv zeta. apply agree_bind; [apply agree_usub|]. intros n' _. apply agree_same.
Qed.
Lemma agree_source f : agree (s_source Debug (module_new f) f) (s_source Release (module_new f) f).
Proof.
  unfold s_source. destruct (agree_sb f) as [->| ->]; [now left|]. destruct (m_get_signing_block Release (module_new f) f); [|apply agree_same..].
  apply agree_bind; [apply agree_raw|]. intros raw _. apply agree_same.
Qed.

(** With what was printed or written before. *)
Definition prefix {A} (x y : list A) : Prop := exists t, y = x ++ t.
Lemma prefix_nil {A} (y : list A) : prefix [] y. Proof. now exists y. Qed.
Lemma prefix_refl {A} (y : list A) : prefix y y. Proof. exists []. now rewrite app_nil_r. Qed.
Lemma prefix_cons {A} a (x y : list A) : prefix x y -> prefix (a :: x) (a :: y). Proof. intros [t ->]. now exists t. Qed.
Lemma prefix_app {A} l (x y : list A) : prefix x y -> prefix (l ++ x) (l ++ y). Proof. intros [t ->]. exists t. now rewrite app_assoc. Qed.
Lemma prefix_more {A} (x y : list A) : prefix x (x ++ y). Proof. now exists y. Qed.
Definition follows {L A} (x y : list L * res A) : Prop := x = y \/ snd x = Panic /\ prefix (fst x) (fst y).
Lemma follows_same {L A} (x : list L * res A) : follows x x. Proof. now left. Qed.
Lemma follows_wbind {A B} (m m' : list said * res A) (k k' : A -> list said * res B) :
  follows m m' -> (forall x, follows (k x) (k' x)) -> follows (wbind m k) (wbind m' k').
Proof.
  intros [->|[P F]] H.
  - destruct m' as [l [x|e|]]; cbn [wbind]; [|now left..]. destruct (H x) as [->|[P F]]; [now left|]. right. cbn [fst snd].
    split; [exact P|]. now apply prefix_app.
  - destruct m as [l r]. cbn [fst snd] in P, F. subst r. cbn [wbind]. right. split; [reflexivity|]. cbn [fst].
    destruct m' as [l' [x|e|]]; cbn [wbind fst] in *; try exact F. destruct F as [t ->]. rewrite <- app_assoc. apply prefix_more.
Qed.
Lemma follows_res {A} (x y : res A) : agree x y -> follows (@nil said, x) (@nil said, y).
Proof. intros [->| ->]; [right; split; [reflexivity|apply prefix_refl]|now left]. Qed.

(** ** verify, info *)
Lemma follows_digest verbose C ds f a ctx :
  follows (out_digest verbose Debug C ds (module_new f) f a ctx) (out_digest verbose Release C ds (module_new f) f a ctx).
Proof.
  unfold out_digest. destruct (agree_digest C (ds a) f a) as [->| ->]; [right; split; [reflexivity|apply prefix_nil]|now left].
Qed.
Lemma follows_verify verbose C K builtin now ds s file root :
  follows (verify_prints verbose Debug C K builtin now ds s file root) (verify_prints verbose Release C K builtin now ds s file root).
Proof.
  unfold verify_prints. apply follows_wbind; [apply follows_same|]. intros _. apply follows_wbind; [apply follows_same|]. intros f. cbv zeta.
  apply follows_wbind.
  { apply follows_res. destruct (agree_sb f) as [->| ->]; [now left|apply agree_same]. }
  intros b. apply follows_wbind; [apply follows_same|]. intros _. apply follows_wbind; [apply follows_same|]. intros roots.
  apply follows_wbind; [apply follows_same|]. intros _. apply follows_wbind; [apply follows_digest|]. intros ctx.
  apply follows_wbind; [apply follows_digest|]. intros ctx'. apply follows_same.
Qed.
Lemma follows_info C K builtin now s file :
  follows (info_prints Debug C K builtin now s file) (info_prints Release C K builtin now s file).
Proof.
  unfold info_prints. destruct (fs_read s file) as [f|]; [|apply follows_same]. cbv zeta.
  destruct (c10_reader_same f 0) as [->| ->].
  - right. split; [reflexivity|]. cbn [fst].
    destruct (from_reader Release f (len f) 0) as [b|e|]; [destruct (uadd Release _ _)|..]; cbn [fst]; rewrite <- ?app_assoc; apply prefix_more || apply prefix_refl.
  - destruct (from_reader Release f (len f) 0) as [b|e|]; try apply follows_same.
    destruct (agree_uadd (bk_size_start b) 8) as [->| ->]; [|apply follows_same]. right. split; [reflexivity|]. cbn [fst].
    destruct (uadd Release _ _); cbn [fst]; apply prefix_more || apply prefix_refl.
Qed.

(** ** sign *)
Definition follows3 {L A} (x y : list L * (list step * res A)) : Prop := x = y \/ snd (snd x) = Panic /\ prefix (fst x) (fst y).
Lemma follows3_same {L A} (x : list L * (list step * res A)) : follows3 x x. Proof. now left. Qed.
Lemma say_follows {A} l (x y : printed A) : follows3 x y -> follows3 (SignPrint.say l x) (SignPrint.say l y).
Proof. intros [->|[P F]]; [now left|right]. split; [exact P|]. cbn [SignPrint.say fst]. now apply prefix_app. Qed.
Lemma attempt_follows {A B} (m m' : res A) (k k' : A -> printed B) : agree m m' -> (forall x, m = Ok x -> follows3 (k x) (k' x)) ->
  follows3 (attempt m k) (attempt m' k').
Proof.
  intros [->| ->] H; [right; split; [reflexivity|apply prefix_nil]|]. destruct m'; cbn [attempt]; [now apply H|apply follows3_same..].
Qed.
Lemma agree_sdigest C rest ds x f a : match x with SModule m => m = module_new f | SElf _ => True end ->
  agree (signable_digest Debug C rest ds x (Some f) a) (signable_digest Release C rest ds x (Some f) a).
Proof. destruct x; cbn [signable_digest now_content]; intros H; [subst; apply agree_digest|apply agree_same]. Qed.
Lemma agree_sregions rest x f : match x with SModule m => m = module_new f | SElf _ => True end ->
  agree (signable_regions Debug rest x (Some f)) (signable_regions Release rest x (Some f)).
Proof. destruct x; cbn [signable_regions now_content]; intros H; [subst; apply agree_regions|apply agree_same]. Qed.
Lemma digests_follow C rest ds x f k k' : match x with SModule m => m = module_new f | SElf _ => True end -> (forall l, follows3 (k l) (k' l)) -> forall l done,
  follows3 (digests_print Debug C rest ds x (Some f) l done k) (digests_print Release C rest ds x (Some f) l done k').
Proof.
  intros X H. induction l as [|a l IH]; intros done; cbn [digests_print]; [apply H|]. apply say_follows, attempt_follows; [now apply agree_sdigest|].
  intros d _. apply IH.
Qed.
Lemma write_raw_same raw e b : eo_off e <= len raw -> s_write_raw Debug raw e b = s_write_raw Release raw e b.
Proof.
  intros H. unfold s_write_raw. cbv zeta. destruct (N.ltb_spec (eo_off e) (eo_cd_offset e)) as [L|L]; [reflexivity|].
  unfold usub. destruct (N.leb_spec (eo_off e) (len raw)); [|lia].
  destruct (get_range raw 0 _); [|reflexivity]. destruct (get_range raw _ _); [|reflexivity].
  replace (_ =? len raw) with true; [reflexivity|]. symmetry. apply N.eqb_eq. lia.
Qed.
Lemma source_eocd p m f raw e : s_source p m f = Ok (raw, e) -> find_eocd raw (len raw) = Ok e.
Proof.
  unfold s_source. destruct (m_get_signing_block p m f) as [b|x|]; [|destruct (maybe_missing_signature x)|]; intros H; try discriminate.
  - apply bind_Ok in H as (r & _ & H). apply bind_Ok in H as (e' & E & H). congruence.
  - apply bind_Ok in H as (e' & E & H). congruence.
Qed.
Lemma write_follows f g b : g = f \/ g = [] ->
  snd (s_write_with_signature Debug (module_new f) g b) = Panic \/
  s_write_with_signature Debug (module_new f) g b = s_write_with_signature Release (module_new f) g b.
Proof.
  intros [->| ->].
  - unfold s_write_with_signature. destruct (agree_source f) as [->| ->]; [now left|right].
    destruct (s_source Release (module_new f) f) as [[raw e]|x|] eqn:E; [|reflexivity..]. apply source_eocd in E.
    apply write_raw_same. destruct (find_eocd_inv raw e E) as [(H & _) _]. apply eocd_at_bytes in H. destruct H. lia.
  - right. unfold s_write_with_signature, s_source, m_get_signing_block, m_find_eocd. cbn [module_new m_sig m_raw m_len].
    unfold find_eocd. destruct (len f <? MIN_EOCD_SIZE) eqn:E; [reflexivity|].
    cbv zeta. unfold read_exact_at. rewrite (proj2 (get_range_None [] _ _)); [reflexivity|].
    apply N.ltb_ge in E. change (len []) with 0. unfold MIN_EOCD_SIZE in *. right. lia.
Qed.
Lemma follows_sign C L rest clk ds s a :
  follows3 (sign_prints Debug C L rest clk ds s a) (sign_prints Release C L rest clk ds s a).
Proof.
  unfold sign_prints. cbv zeta. apply say_follows, attempt_follows; [apply agree_same|]. intros v2 _.
  apply say_follows, attempt_follows; [apply agree_same|]. intros st _.
  apply say_follows, attempt_follows; [apply agree_same|]. intros x Ex.
  destruct (fs_read s (sa_input a)) as [f|] eqn:F; [|discriminate Ex].
  apply bind_Ok in Ex as (x0 & E0 & E1). pose proof (opened _ _ _ _ _ E0 E1) as O.
  assert (O' : match x with SModule m => m = module_new f | SElf _ => True end) by (destruct x; [exact O|exact I]).
  apply say_follows, attempt_follows; [now apply agree_sregions|]. intros rg _.
  apply say_follows, digests_follow; [exact O'|]. intros l. apply say_follows, attempt_follows.
  { apply agree_bind; [apply agree_ms_sign|]. intros b _. apply agree_same. }
  intros b _. apply say_follows. destruct (fs_can_create s (sa_output a)); [|apply follows3_same].
  assert (G : fs_read (apply s (Truncate (fs_file s (sa_output a)))) (sa_input a) = Some f \/
              fs_read (apply s (Truncate (fs_file s (sa_output a)))) (sa_input a) = Some []).
  { destruct (N.eq_dec (fs_file s (sa_input a)) (fs_file s (sa_output a))) as [E|E].
    - right. apply truncate_same; [exact E|]. unfold fs_read in F. now destruct (fs_can_read s (sa_input a)).
    - left. rewrite <- F. now apply truncate_read. }
  set (now := fs_read (apply s (Truncate (fs_file s (sa_output a)))) (sa_input a)) in *. clearbody now.
  assert (Q : snd (signable_write Debug rest x now b) = Panic \/ signable_write Debug rest x now b = signable_write Release rest x now b).
  { destruct x as [m|g]; cbn [signable_write].
    - subst m. destruct G as [-> | ->]; cbn [now_content]; apply write_follows; auto.
    - right. reflexivity. }
  destruct Q as [Q|Q].
  - destruct (signable_write Debug rest x now b) as [w r]. cbn [snd] in Q. subst r. right. split; [reflexivity|]. apply prefix_nil.
  - rewrite Q. apply follows3_same.
Qed.

(** ** digest *)
Lemma follows_total l : forall n, follows (regions_print Debug l n) (regions_print Release l n).
Proof.
  induction l as [|g l IH]; intros n; cbn [regions_print]; [apply follows_same|].
  destruct (agree_uadd n (rg_size g)) as [->| ->].
  - right. split; [reflexivity|]. cbn [fst]. destruct (uadd Release n (rg_size g)) as [m|e|]; cbn [fst]; [|apply prefix_refl..].
    destruct (regions_print Release l m) as [d r]. cbn [fst]. apply prefix_cons, prefix_nil.
  - destruct (uadd Release n (rg_size g)) as [m|e|]; try apply follows_same.
    destruct (IH m) as [->|[P F]]; [apply follows_same|]. destruct (regions_print Debug l m) as [d r], (regions_print Release l m) as [d' r'].
    cbn [fst snd] in *. right. split; [exact P|]. cbn [fst]. now apply prefix_cons.
Qed.
Lemma copy_agree inp out l : forall s n, snd (copy_regions Debug s inp out l n) = Panic \/ copy_regions Debug s inp out l n = copy_regions Release s inp out l n.
Proof.
  induction l as [|g l IH]; intros s n; cbn [copy_regions]; [now right|]. destruct (seek (rg_offset g)); [|now right..].
  destruct (copy_pieces _ s inp out _ _) as [w r].
  destruct (agree_bind r r (fun _ => uadd Debug n (rg_size g)) (fun _ => uadd Release n (rg_size g))) as [->| ->];
    [apply agree_same|intros ? _; apply agree_uadd|now left|].
  destruct (do _ <- r; uadd Release n (rg_size g)) as [m|e|]; [|now right..].
  destruct (IH (run s w) m) as [P| ->]; [|now right]. left. destruct (copy_regions Debug (run s w) inp out l m). exact P.
Qed.
Lemma dump_agree s inp out l : snd (dump_regions Debug s inp out l) = Panic \/ dump_regions Debug s inp out l = dump_regions Release s inp out l.
Proof.
  unfold dump_regions. destruct (fs_read s inp); [|now right]. destruct (fs_can_create s out); [|now right]. cbv zeta.
  destruct (copy_agree (fs_file s inp) (fs_file s out) l (apply s (Truncate (fs_file s out))) 0) as [P| ->]; [left|now right].
  destruct (copy_regions Debug _ _ _ _ _). exact P.
Qed.
Lemma copied_agree l : forall n, snd (regions_print Debug l n) = Panic \/ copied Debug l n = copied Release l n.
Proof.
  induction l as [|g l IH]; intros n; cbn [regions_print copied]; [now right|].
  destruct (agree_uadd n (rg_size g)) as [->| ->]; [now left|]. destruct (uadd Release n (rg_size g)) as [m|e|]; [|now right..].
  destruct (IH m) as [P| ->]; [left|now right]. destruct (regions_print Debug l m). exact P.
Qed.
Lemma follows_digest_cmd C rest base64 ds s a :
  follows3 (digest_prints Debug C rest base64 ds s a) (digest_prints Release C rest base64 ds s a).
Proof.
  unfold digest_prints. cbv zeta. destruct (do x <- signable_open rest (fs_read s (da_input a)); _) as [x|e|] eqn:Ex; [|apply follows3_same..].
  destruct (fs_read s (da_input a)) as [f|] eqn:F; [|discriminate Ex].
  apply bind_Ok in Ex as (x0 & E0 & E1). pose proof (opened _ _ _ _ _ E0 E1) as O.
  assert (O' : match x with SModule m => m = module_new f | SElf _ => True end) by (destruct x; [exact O|exact I]).
  destruct (agree_sregions rest x f O') as [->| ->].
  { right. split; [reflexivity|]. cbn [fst]. destruct (signable_regions Release rest x (Some f)) as [l|e|]; [|apply prefix_refl..].
    destruct (regions_print Release l 0) as [rl [n|e|]]; [destruct (da_dump a); [destruct (dump_regions _ _ _ _ _)|destruct (signable_digest _ _ _ _ _ _ _)]|..];
      cbn [fst]; rewrite <- ?app_assoc; apply prefix_more. }
  destruct (signable_regions Release rest x (Some f)) as [l|e|]; [|apply follows3_same..].
  pose proof (copied_agree l 0) as CA. destruct (follows_total l 0) as [E|[P T]]; [rewrite E in CA |- *|].
  2:{ destruct (regions_print Debug l 0) as [rl r]. cbn [fst snd] in *. subst r. right. split; [reflexivity|]. cbn [fst].
      destruct T as [t T]. destruct (regions_print Release l 0) as [rl' r']. cbn [fst] in T. subst rl'.
      destruct r' as [n|e|]; [destruct (da_dump a); [destruct (dump_regions _ _ _ _ _)|destruct (signable_digest _ _ _ _ _ _ _)]|..];
      cbn [fst]; rewrite <- ?app_assoc; do 2 apply prefix_app; try (apply (prefix_app [DRegions])); apply prefix_more. }
  destruct (regions_print Release l 0) as [rl [n|e|]]; [|apply follows3_same..].
  destruct CA as [CA|CA]; [discriminate CA|]. destruct (da_dump a) as [o|].
  - destruct (dump_agree s (da_input a) o l) as [P| ->].
    + destruct (dump_regions Debug s (da_input a) o l) as [w r]. cbn [snd] in P. subst r. right. split; [reflexivity|]. cbn [fst]. rewrite app_nil_r.
      destruct (dump_regions Release s (da_input a) o l). apply prefix_more.
    + rewrite CA. apply follows3_same.
  - destruct (agree_sdigest C rest ds x f (if da_sha512 a then ECDSA_SHA2_512 else ECDSA_SHA2_256) O') as [->| ->]; [|apply follows3_same].
    right. split; [reflexivity|]. cbn [fst]. destruct (signable_digest Release _ _ _ _ _ _); cbn [fst]; apply prefix_more || apply prefix_refl.
Qed.

(** ** The program *)
Lemma text_prefix {A} (render : nat -> A -> bytes) keep l : forall l' i, prefix l l' -> prefix (text_of render keep i l) (text_of render keep i l').
Proof.
  induction l as [|x l IH]; intros l' i [t ->]; cbn [app text_of]; [apply prefix_nil|]. apply prefix_app, IH, prefix_more.
Qed.
Lemma builds W T verbose s c :
  let d := program_text (pick_build Debug W) T verbose s c in
  let r := program_text (pick_build Release W) T verbose s c in
  d = r \/ oc_status d = 101 /\ exists more, oc_stdout r = oc_stdout d ++ more.
Proof.
  cbv zeta. unfold program_text, pick_build. cbn [w_profile w_crypto w_keys w_pki w_base64 w_rest w_builtin w_clock w_reads].
  destruct c as [a|file root|file|a].
  - destruct (follows_sign (w_crypto W) (w_keys W) (w_rest W) (w_clock W) (w_reads W) s a) as [->|[P F]]; [now left|right].
    destruct (sign_prints Debug _ _ _ _ _ s a) as [l [w r]], (sign_prints Release _ _ _ _ _ s a) as [l' [w' r']]. cbn [fst snd] in *. subst r.
    split; [reflexivity|]. cbn [finish oc_stdout]. now apply text_prefix.
  - destruct (follows_verify verbose (w_crypto W) (w_pki W) (w_builtin W) (w_clock W) (w_reads W) s file root) as [->|[P F]]; [now left|right].
    destruct (verify_prints _ Debug _ _ _ _ _ s file root) as [l r], (verify_prints _ Release _ _ _ _ _ s file root) as [l' r']. cbn [fst snd] in *. subst r.
    split; [reflexivity|]. cbn [finish oc_stdout]. now apply text_prefix.
  - destruct (follows_info (w_crypto W) (w_pki W) (w_builtin W) (w_clock W) s file) as [->|[P F]]; [now left|right].
    destruct (info_prints Debug _ _ _ _ s file) as [l r], (info_prints Release _ _ _ _ s file) as [l' r']. cbn [fst snd] in *. subst r.
    split; [reflexivity|]. cbn [finish oc_stdout]. now apply text_prefix.
  - destruct (follows_digest_cmd (w_crypto W) (w_rest W) (w_base64 W) (w_reads W) s a) as [->|[P F]]; [now left|right].
    destruct (digest_prints Debug _ _ _ _ s a) as [l [w r]], (digest_prints Release _ _ _ _ s a) as [l' [w' r']]. cbn [fst snd] in *. subst r.
    split; [reflexivity|]. cbn [finish oc_stdout]. now apply text_prefix.
Qed.
