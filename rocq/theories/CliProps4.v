(** CliProps4.v - facts about the digest command. *)
From Verif Require Import Base BaseFacts Utils Algorithms Common SchemeV2 SourceStamp Utf8 ElfInfo
  SigningBlock Zip Digest Module Signable ZipSpec RegionSpec ZipFacts ModuleProps Signer Verifier VerifySpec
  Keystore Elf ElfSpec Cli CliSpec CliFacts CliProps CliProps3.
Open Scope N_scope.

Lemma total_size_spec : forall p l acc n, total_size p l acc = Ok n -> p = Release \/ acc + sizes l < U64 \/ l = [].
Proof.
  intros [|] l; [|auto]. induction l as [|g l IH]; intros acc n H; [auto|].
  cbn [total_size] in H. apply bind_Ok in H as (m & Hm & H). unfold uadd in Hm. right; left.
  destruct (N.ltb_spec (acc + rg_size g) U64); [|discriminate]. injection Hm as <-.
  destruct (IH _ _ H) as [|[Hs| ->]]; [discriminate| |]; unfold sizes in *; cbn [fold_right]; lia.
Qed.

Lemma total_size_ok : forall p l acc, p = Release \/ acc + sizes l < U64 -> exists n, total_size p l acc = Ok n.
Proof.
  intros p l. induction l as [|g l IH]; intros acc H; [eexists; reflexivity|].
  cbn [total_size]. destruct H as [->|H].
  - assert (E : exists m, uadd Release acc (rg_size g) = Ok m) by (unfold uadd; destruct (_ <? _); eauto).
    destruct E as [m ->]. cbn [bind]. apply IH. auto.
  - unfold sizes in H; cbn [fold_right] in H; fold (sizes l) in H. unfold uadd.
    rewrite (proj2 (N.ltb_lt _ _)) by lia. cbn [bind]. apply IH. right. lia.
Qed.

(** [x] is what the command has opened: the file, and for an ELF file the chosen
    sections. *)
Lemma digest_dump : forall p C rest base64 ds s a out steps r file,
  cli_digest p C rest base64 ds s a = (steps, r) -> da_dump a = Some out -> fs_read s (da_input a) = Some file ->
  fs_file s (da_input a) <> fs_file s out -> fs_can_create s out = true ->
  (forall q, fs_file s q <> fs_file s out -> fs_read (run s steps) q = fs_read s q) /\
  forall x l, signable_open rest (Some file) = Ok x -> forall y, choose_sections x (da_sections a) = Ok y ->
    signable_regions p rest y (Some file) = Ok l ->
    (r = Ok None <-> Forall (region_in file) l /\ (sizes l < U64 \/ p = Release)) /\
    (r = Ok None -> fs_data (run s steps) (fs_file s out) = Some (region_bytes file l)).
Proof.
  intros p C rest base64 ds s a out steps r file H Hd Hr Hne Hc. unfold cli_digest in H. rewrite Hr, Hd in H.
  destruct (do x <- signable_open rest (Some file); do x <- choose_sections x (da_sections a);
            do l <- signable_regions p rest x (Some file); do _ <- total_size p l 0; Ok (x, l)) as [[x l]|e|] eqn:E.
  - apply bind_Ok in E as (x0 & E0 & E). apply bind_Ok in E as (x1 & E1 & E). apply bind_Ok in E as (l1 & E2 & E).
    apply bind_Ok in E as (n & E3 & E). injection E as <- <-.
    destruct (dump_spec p s (da_input a) out l1 file Hr Hne Hc) as (w & r' & G & G1 & G2 & G3 & G4).
    rewrite G in H. injection H as <- <-. split; [exact G1|].
    intros x l F0 y F1 F2. assert (x = x0) by congruence. subst x. assert (y = x1) by congruence. subst y.
    assert (l = l1) by congruence. subst l.
    split; [split|].
    + intros K. destruct r' as [[]|?|]; try discriminate. destruct (G3 eq_refl) as [G5 _]. split; [exact G5|].
      destruct (total_size_spec _ _ _ _ E3) as [|[|E4]]; auto.
      rewrite E4. left. reflexivity.
    + intros [K1 K2]. now rewrite (G2 K1 K2).
    + intros K. destruct r' as [[]|?|]; try discriminate. now destruct (G3 eq_refl).
  - injection H as <- <-. split; [auto|]. intros x l F0 y F1 F2. rewrite F0 in E. cbn [bind] in E. rewrite F1 in E.
    cbn [bind] in E. rewrite F2 in E. cbn [bind] in E. split; [split|]; try discriminate.
    intros [_ K]. destruct (total_size_ok p l 0) as [n Hn]; [destruct K; auto|]. rewrite Hn in E. discriminate.
  - injection H as <- <-. split; [auto|]. intros x l F0 y F1 F2. rewrite F0 in E. cbn [bind] in E. rewrite F1 in E.
    cbn [bind] in E. rewrite F2 in E. cbn [bind] in E. split; [split|]; try discriminate.
    intros [_ K]. destruct (total_size_ok p l 0) as [n Hn]; [destruct K; auto|]. rewrite Hn in E. discriminate.
Qed.

Lemma digest_print : forall p C rest base64 ds s a steps t,
  cli_digest p C rest base64 ds s a = (steps, Ok (Some t)) ->
  steps = [] /\ da_dump a = None /\ exists x y d, signable_open rest (fs_read s (da_input a)) = Ok x /\
    choose_sections x (da_sections a) = Ok y /\
    signable_digest p C rest ds y (fs_read s (da_input a)) (if da_sha512 a then ECDSA_SHA2_512 else ECDSA_SHA2_256) = Ok d /\
    t = match da_format a with Hex => hex_encode d | Base64 => base64 d end.
Proof.
  intros p C rest base64 ds s a steps t H. unfold cli_digest in H.
  match type of H with (match ?m with _ => _ end = _) => destruct m as [[x l]|e|] eqn:E end; try discriminate.
  apply bind_Ok in E as (x0 & E0 & E). apply bind_Ok in E as (x1 & E1 & E). apply bind_Ok in E as (l1 & E2 & E).
  apply bind_Ok in E as (n & E3 & E). injection E as <- <-.
  destruct (da_dump a) as [out|].
  - destruct (dump_regions p s (da_input a) out l1) as [w r]. destruct r; discriminate.
  - split; [congruence|]. split; [auto|].
    assert (H' : (do d <- signable_digest p C rest ds x1 (fs_read s (da_input a)) (if da_sha512 a then ECDSA_SHA2_512 else ECDSA_SHA2_256);
      Ok (Some (match da_format a with Hex => hex_encode d | Base64 => base64 d end))) = Ok (Some t)) by congruence.
    apply bind_Ok in H' as (d & Hd & H'). exists x0, x1, d. repeat split; auto. congruence.
Qed.

(** A file that is not ELF and is opened is a module. *)
Lemma open_module : forall rest f x, signable_open rest (Some f) = Ok x -> (forall t, f <> ELFMAG ++ t) -> x = SModule (module_new f).
Proof.
  intros rest f x H Hn. unfold signable_open in H. cbn [of_option bind] in H.
  apply bind_Ok in H as (fmt & Hf & H). destruct fmt; [congruence|].
  exfalso. apply (proj1 (detect_spec f)) in Hf as [t ->]. now apply (Hn t).
Qed.

(** A dump of a module: everything but the signing block. *)
Lemma digest_dump_module : forall p C rest base64 ds s a out steps r file e,
  cli_digest p C rest base64 ds s a = (steps, r) -> da_dump a = Some out -> fs_read s (da_input a) = Some file ->
  fs_file s (da_input a) <> fs_file s out ->
  (forall t, file <> ELFMAG ++ t) -> len file < 2 ^ 63 -> find_eocd file (len file) = Ok e ->
  p = Debug \/ eo_cd_offset e <= eo_off e -> r = Ok None ->
  exists content mid cdr h off t, regions_of p file e content mid cdr h off t /\
    fs_data (run s steps) (fs_file s out) = Some (content ++ cdr ++ h ++ off ++ t).
Proof.
  intros p C rest base64 ds s a out steps r file e H Hd Hr Hne Hn Hl He Hc Hok.
  assert (Hcr : fs_can_create s out = true).
  { destruct (fs_can_create s out) eqn:E; [auto|]. exfalso. unfold cli_digest in H. rewrite Hd in H.
    match type of H with (match ?m with _ => _ end = _) => destruct m as [[x l]|e'|] end; try congruence.
    unfold dump_regions in H. rewrite Hr, E in H. cbn [bind] in H. congruence. }
  destruct (digest_dump _ _ _ _ _ _ _ _ _ _ _ H Hd Hr Hne Hcr) as [_ G].
  unfold cli_digest in H. rewrite Hr, Hd in H.
  match type of H with (match ?m with _ => _ end = _) => destruct m as [[x l]|e'|] eqn:E end; try congruence.
  apply bind_Ok in E as (x0 & E0 & E). apply bind_Ok in E as (x1 & E1 & E). apply bind_Ok in E as (l1 & E2 & E).
  clear E H. destruct (G _ _ E0 _ E1 E2) as [_ G'].
  pose proof (open_module _ _ _ E0 Hn) as ->.
  assert (x1 = SModule (module_new file)). { unfold choose_sections in E1. destruct (da_sections a); [congruence|discriminate]. }
  subst x1. cbn [signable_regions now_content] in E2.
  destruct (module_regions p file e l1 Hl He Hc E2) as (content & mid & cdr & h & off & t & R & B & _).
  exists content, mid, cdr, h, off, t. split; [exact R|]. rewrite <- B. auto.
Qed.
