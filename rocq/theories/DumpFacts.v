(** DumpFacts.v - the digest command with and without [--dump]. *)
From Verif Require Import Base BaseFacts Utils Algorithms Common SchemeV2 SourceStamp Utf8 ElfInfo
  SigningBlock Zip Digest Module Signable ZipSpec RegionSpec ZipFacts DigestFacts ModuleProps Signer Verifier VerifySpec
  Keystore Elf ElfSpec ElfProps2 Cli CliSpec CliFacts CliProps CliProps3 CliProps4 Base64 Base64Facts DumpSpec.
From Coq Require Import Lia Permutation.
Open Scope N_scope.

Lemma app_len_inj {A} (a b c d : list A) : a ++ b = c ++ d -> len a = len c -> a = c /\ b = d.
Proof. intros H L. now apply app_inj_len. Qed.

Lemma regions_of_fun : forall p f e c1 m1 y1 h1 o1 t1 c2 m2 y2 h2 o2 t2,
  regions_of p f e c1 m1 y1 h1 o1 t1 -> regions_of p f e c2 m2 y2 h2 o2 t2 ->
  c1 = c2 /\ m1 = m2 /\ y1 = y2 /\ h1 = h2 /\ o1 = o2 /\ t1 = t2.
Proof.
  intros p f e c1 m1 y1 h1 o1 t1 c2 m2 y2 h2 o2 t2 (F1 & L1 & H1 & O1 & B1) (F2 & L2 & H2 & O2 & B2).
  assert (X : len c1 = len c2 /\ len m1 = len m2).
  { rewrite !len_app in L1, L2. destruct B1 as [(S1 & -> & K1)|(b1 & S1 & K1 & J1)];
    destruct B2 as [(S2 & -> & K2)|(b2 & S2 & K2 & J2)]; try congruence.
    - split; [congruence|reflexivity].
    - assert (b2 = b1) by congruence. subst b2. rewrite len_app in J1, J2. lia. }
  destruct X as [X1 X2]. rewrite F1 in F2.
  apply app_len_inj in F2 as [-> F2]; [|exact X1]. apply app_len_inj in F2 as [-> F2]; [|exact X2].
  rewrite !len_app in L1, L2.
  apply app_len_inj in F2 as [-> F2]; [|lia]. apply app_len_inj in F2 as [-> F2]; [|lia].
  apply app_len_inj in F2 as [-> ->]; [|lia]. auto 10.
Qed.

(** The field is the recorded directory offset. *)
Lemma regions_of_field : forall p f e c m y h o t, find_eocd f (len f) = Ok e ->
  regions_of p f e c m y h o t -> o = le 4 (eo_cd_offset e).
Proof.
  intros p f e c m y h o t He (F & L & H & O & _). destruct (find_eocd_inv f e He) as [_ Ee].
  rewrite Ee. cbn [eocd_at eo_cd_offset]. cbv zeta.
  assert (E : sub f (eo_off e + 16) (eo_off e + 20) = o).
  { rewrite F. unfold sub. rewrite <- L.
    replace (c ++ m ++ y ++ h ++ o ++ t) with (((c ++ m ++ y) ++ h) ++ o ++ t) by now rewrite <- !app_assoc.
    replace (len (c ++ m ++ y) + 16) with (len ((c ++ m ++ y) ++ h)) by (rewrite (len_app (c ++ m ++ y) h); lia).
    rewrite dropN_app. replace (_ + 20 - _) with (len o) by (rewrite (len_app (c ++ m ++ y) h); lia). apply takeN_app. }
  rewrite E. symmetry. apply le_un_le'. unfold len in O. lia.
Qed.

Lemma module_dump_digest : forall p C sched f e a l, fills sched -> len f < 2 ^ 63 -> find_eocd f (len f) = Ok e ->
  p = Debug \/ eo_cd_offset e <= eo_off e -> m_digest_regions p (module_new f) f = Ok l ->
  exists content mid cdr h t d,
    regions_of p f e content mid cdr h (le 4 (eo_cd_offset e)) t /\
    region_bytes f l = content ++ cdr ++ h ++ le 4 (eo_cd_offset e) ++ t /\
    m_digest p C sched (module_new f) f a = Ok d /\
    is_digest (hash C a) content cdr (h ++ le 4 (len content) ++ t) d.
Proof.
  intros p C sched f e a l Hs Hl He Hc H.
  assert (M : exists d, m_digest p C sched (module_new f) f a = Ok d).
  { assert (Hu : len f < U64) by (change (2 ^ 63) with I64 in Hl; unfold I64, U64 in *; lia).
    unfold m_digest_regions in H. apply bind_Ok in H as (o & Ho & H).
    apply bind_Ok in H as (n1 & H1 & H). apply bind_Ok in H as (n2 & H2 & H). clear H.
    assert (Hle : fo_start_cd o <= fo_stop_cd o).
    { destruct Hc as [->|Hc].
      - unfold usub in H2. destruct (N.leb_spec (fo_start_cd o) (fo_stop_cd o)); [auto|discriminate].
      - destruct (regions p f e o Hu He Hc Ho) as (c & m & y & t & _ & -> & He' & _). cbn [fo_start_cd fo_stop_cd].
        rewrite He', !len_app. lia. }
    destruct (regions_gen p f e o Hu He Ho Hle) as (content & mid & cdr & tail & Hf & -> & Hoff & G1 & G2 & G3).
    unfold m_digest. rewrite Ho. cbn [bind]. rewrite Hoff.
    rewrite (digest_regions_ok p C sched f a content mid cdr tail) by (auto; lia). eauto. }
  destruct M as [d M].
  destruct (c29 p C sched f e a d Hs Hl He Hc M) as (content & mid & cdr & h & off & t & R & D).
  destruct (module_regions p f e l Hl He Hc H) as (c' & m' & y' & h' & o' & t' & R' & B & _).
  destruct (regions_of_fun _ _ _ _ _ _ _ _ _ _ _ _ _ _ _ R R') as (<- & <- & <- & <- & <- & <-).
  pose proof (regions_of_field _ _ _ _ _ _ _ _ _ He R) as Eo. rewrite Eo in R, B.
  exists content, mid, cdr, h, t, d. repeat split; auto; apply R.
Qed.

(** What the two calls share. *)
Lemma dump_inv : forall p C rest base64 ds s a out steps file,
  cli_digest p C rest base64 ds s a = (steps, Ok None) -> da_dump a = Some out -> fs_read s (da_input a) = Some file ->
  fs_file s (da_input a) <> fs_file s out ->
  exists x y l, signable_open rest (Some file) = Ok x /\ choose_sections x (da_sections a) = Ok y /\
    signable_regions p rest y (Some file) = Ok l /\ Forall (region_in file) l /\
    fs_data (run s steps) (fs_file s out) = Some (region_bytes file l) /\
    cli_digest p C rest base64 ds s (without_dump a) =
      ([], do d <- signable_digest p C rest ds y (Some file) (if da_sha512 a then ECDSA_SHA2_512 else ECDSA_SHA2_256);
           Ok (Some (match da_format a with Hex => hex_encode d | Base64 => base64 d end))).
Proof.
  intros p C rest base64 ds s a out steps file H Hd Hr Hne.
  assert (Hcr : fs_can_create s out = true).
  { destruct (fs_can_create s out) eqn:E; [auto|]. exfalso. unfold cli_digest in H. rewrite Hd in H.
    match type of H with (match ?m with _ => _ end = _) => destruct m as [[x l]|e'|] end; try congruence.
    unfold dump_regions in H. rewrite Hr, E in H. cbn [bind] in H. congruence. }
  destruct (digest_dump _ _ _ _ _ _ _ _ _ _ _ H Hd Hr Hne Hcr) as [_ G].
  unfold cli_digest in H. rewrite Hr, Hd in H.
  match type of H with (match ?m with _ => _ end = _) => destruct m as [[x l]|e'|] eqn:E end; try congruence.
  pose proof E as E'.
  apply bind_Ok in E as (x0 & E0 & E). apply bind_Ok in E as (x1 & E1 & E). apply bind_Ok in E as (l1 & E2 & E).
  apply bind_Ok in E as (n & E3 & E). injection E as <- <-.
  destruct (G _ _ E0 _ E1 E2) as [K G']. exists x0, x1, l1. do 3 (split; [assumption|]).
  split; [now apply K|]. split; [now apply G'|].
  unfold cli_digest, without_dump. cbn [da_input da_sha512 da_dump da_sections da_format]. rewrite Hr, E'. reflexivity.
Qed.

Lemma dump_module : forall p C rest base64 ds s a out steps file e,
  cli_digest p C rest base64 ds s a = (steps, Ok None) -> da_dump a = Some out -> fs_read s (da_input a) = Some file ->
  fs_file s (da_input a) <> fs_file s out ->
  (forall algo, fills (ds algo)) ->
  (forall t, file <> ELFMAG ++ t) -> len file < 2 ^ 63 -> find_eocd file (len file) = Ok e ->
  p = Debug \/ eo_cd_offset e <= eo_off e ->
  exists content mid cdr h t d,
    regions_of p file e content mid cdr h (le 4 (eo_cd_offset e)) t /\
    fs_data (run s steps) (fs_file s out) = Some (content ++ cdr ++ h ++ le 4 (eo_cd_offset e) ++ t) /\
    is_digest (hash C (if da_sha512 a then ECDSA_SHA2_512 else ECDSA_SHA2_256)) content cdr (h ++ le 4 (len content) ++ t) d /\
    cli_digest p C rest base64 ds s (without_dump a) =
      ([], Ok (Some (match da_format a with Hex => hex_encode d | Base64 => base64 d end))).
Proof.
  intros p C rest base64 ds s a out steps file e H Hd Hr Hne Hs Hn Hl He Hc.
  destruct (dump_inv _ _ _ _ _ _ _ _ _ _ H Hd Hr Hne) as (x & y & l & E0 & E1 & E2 & _ & D & P).
  pose proof (open_module _ _ _ E0 Hn) as ->.
  assert (y = SModule (module_new file)). { unfold choose_sections in E1. destruct (da_sections a); [congruence|discriminate]. }
  subst y. cbn [signable_regions now_content] in E2.
  set (algo := if da_sha512 a then ECDSA_SHA2_512 else ECDSA_SHA2_256) in *.
  destruct (module_dump_digest p C (ds algo) file e algo l (Hs algo) Hl He Hc E2)
    as (content & mid & cdr & h & t & d & R & B & M & I).
  exists content, mid, cdr, h, t, d. split; [exact R|]. split; [now rewrite <- B|]. split; [exact I|].
  rewrite P. cbn [signable_digest now_content]. rewrite M. reflexivity.
Qed.

(** An unsigned module is dumped as it is, and its digest is that of its parts. *)
Lemma dump_unsigned : forall p C rest base64 ds s a out steps file e,
  cli_digest p C rest base64 ds s a = (steps, Ok None) -> da_dump a = Some out -> fs_read s (da_input a) = Some file ->
  fs_file s (da_input a) <> fs_file s out ->
  (forall algo, fills (ds algo)) ->
  (forall t, file <> ELFMAG ++ t) -> len file < 2 ^ 63 -> find_eocd file (len file) = Ok e ->
  p = Debug \/ eo_cd_offset e <= eo_off e ->
  s_get_signing_block p (module_new file) file = Ok None ->
  fs_data (run s steps) (fs_file s out) = Some file /\
  exists content cdr record d, file = content ++ cdr ++ record /\ len content = eo_cd_offset e /\
    len (content ++ cdr) = eo_off e /\
    is_digest (hash C (if da_sha512 a then ECDSA_SHA2_512 else ECDSA_SHA2_256)) content cdr record d /\
    cli_digest p C rest base64 ds s (without_dump a) =
      ([], Ok (Some (match da_format a with Hex => hex_encode d | Base64 => base64 d end))).
Proof.
  intros p C rest base64 ds s a out steps file e H Hd Hr Hne Hs Hn Hl He Hc Hu.
  destruct (dump_module _ _ _ _ _ _ _ _ _ _ _ H Hd Hr Hne Hs Hn Hl He Hc) as (c & m & y & h & t & d & R & D & I & P).
  destruct R as (F & L & _ & _ & B). destruct B as [(_ & -> & K)|(b & B & _)]; [|congruence].
  rewrite K in I. cbn [app] in F, L. split; [now rewrite F at 1|].
  exists c, y, (h ++ le 4 (eo_cd_offset e) ++ t), d. auto.
Qed.

Lemma dump_elf : forall p C rest base64 ds s a out steps file,
  cli_digest p C rest base64 ds s a = (steps, Ok None) -> da_dump a = Some out -> fs_read s (da_input a) = Some file ->
  fs_file s (da_input a) <> fs_file s out ->
  (exists t, file = ELFMAG ++ t) ->
  exists sections pieces,
    fs_data (run s steps) (fs_file s out) = Some (List.concat sections) /\
    Forall (fun x => x <> [] /\ exists before after, file = before ++ x ++ after) sections /\
    Forall2 splits sections pieces /\
    cli_digest p C rest base64 ds s (without_dump a) =
      ([], Ok (Some (let d := tree_digest (hash C (if da_sha512 a then ECDSA_SHA2_512 else ECDSA_SHA2_256)) (List.concat pieces) in
                     match da_format a with Hex => hex_encode d | Base64 => base64 d end))).
Proof.
  intros p C rest base64 ds s a out steps file H Hd Hr Hne He.
  destruct (dump_inv _ _ _ _ _ _ _ _ _ _ H Hd Hr Hne) as (x & y & l & E0 & E1 & E2 & Hin & D & P).
  assert (Y : exists f, y = SElf f /\ el_data f = file).
  { unfold signable_open in E0. cbn [of_option bind] in E0. rewrite (proj2 (proj1 (detect_spec file)) He) in E0.
    cbn [bind] in E0. apply bind_Ok in E0 as (f & F & E0). injection E0 as <-.
    unfold elf_new in F. apply bind_Ok in F as (? & _ & F). injection F as <-.
    unfold choose_sections in E1. destruct (da_sections a) as [|n ns]; [injection E1 as <-; eauto|].
    cbn [set_elf_sections] in E1. apply bind_Ok in E1 as (g & G & E1). injection E1 as <-. exists g. split; [reflexivity|].
    unfold set_signed_sections in G. destruct (filter _ _); [discriminate|].
    destruct (existsb _ _); [discriminate|]. injection G as <-. reflexivity. }
  destruct Y as (f & -> & Ef). cbn [signable_regions] in E2. unfold elf_digest_regions in E2.
  apply bind_Ok in E2 as (ts & Ts & E2). injection E2 as <-.
  destruct (elf_chunks_spec file ts) as (css & F & Ec).
  exists (map (section_bytes file) ts), css. split; [|split; [|split]].
  - rewrite D. unfold region_bytes. rewrite map_map. reflexivity.
  - apply Forall_forall. intros z Hz. apply in_map_iff in Hz as (t & <- & Ht).
    split; [|exists (takeN (t_offset t) file), (dropN (t_size t) (dropN (t_offset t) file)); unfold section_bytes;
      now rewrite !take_drop].
    intros Z. rewrite Forall_forall in Hin. specialize (Hin _ (in_map _ _ _ Ht)). destruct Hin as [_ Hin].
    cbn [rg_size rg_offset] in Hin.
    apply c55_resolved in Ts as (e & l' & _ & F2 & Pm & _). apply Permutation_sym in Pm.
    pose proof (Permutation_in t Pm Ht) as Hl.
    assert (Q : t_size t <> 0).
    { clear - F2 Hl. induction F2 as [|n u ns l' (sh & _ & _ & K & ->) F2 IH]; [destruct Hl|].
      destruct Hl as [<-|Hl]; [exact K|auto]. }
    apply (f_equal len) in Z. unfold section_bytes in Z. rewrite len_takeN, len_dropN in Z. change (len []) with 0 in Z. lia.
  - clear - F. induction F; constructor; auto.
  - rewrite P. cbn [signable_digest]. unfold elf_digest. rewrite Ts. cbn [bind].
    rewrite digest_elf_eq, Ef, <- Ec. reflexivity.
Qed.
