(** RaceDigestFacts.v - C93: the digest and info commands while others change the files. *)
From Verif Require Import Base BaseFacts Utils Algorithms Utf8 SigningBlock Zip Digest Module Signable Signer Verifier Elf ElfSpec Cli CliSpec CliFacts CliProps
  Race LoadFacts RaceDigest RaceDigestSpec.
From Coq Require Import Lia.
Open Scope N_scope.

Lemma nth_app_N (a b : bytes) i : nth_error (a ++ b) (N.to_nat i) = if i <? len a then nth_error a (N.to_nat i) else nth_error b (N.to_nat (i - len a)).
Proof.
  unfold len. destruct (N.ltb_spec i (N.of_nat (List.length a))).
  - apply nth_error_app1. lia.
  - rewrite nth_error_app2 by lia. f_equal. lia.
Qed.
Lemma nth_slice file off n j : j < n -> nth_error (slice file off n) (N.to_nat j) = nth_error file (N.to_nat (off + j)).
Proof.
  intros H. unfold slice. rewrite takeN_firstn, dropN_skipn, nth_firstn, nth_skipn by lia. f_equal. lia.
Qed.
Lemma nth_some (f : bytes) i : i < len f -> exists b, nth_error f (N.to_nat i) = Some b.
Proof.
  intros H. destruct (nth_error f (N.to_nat i)) eqn:E; eauto. apply nth_error_None in E. unfold len in H. lia.
Qed.
Lemma len_slice file off n : off + n <= len file -> len (slice file off n) = n.
Proof. intros H. unfold slice. rewrite len_takeN, len_dropN. lia. Qed.

Lemma race_pieces_ok : forall fuel at_piece inp pos rem k, (0 < rem -> rem <= N.of_nat fuel * BUFFER_SIZE) ->
  exists w k' r, race_pieces fuel at_piece inp pos rem k = (w, k', r) /\ r <> Panic /\
    (r = Ok tt -> len w = rem /\ N.of_nat k' = N.of_nat k + pieces_in rem /\
      forall j, j < rem -> exists b, nth_error w (N.to_nat j) = Some b /\
        nth_error (now_content (fs_data (at_piece (N.to_nat (N.of_nat k + j / 65536))) inp)) (N.to_nat (pos + j)) = Some b).
Proof.
  induction fuel as [|fuel IH]; intros at_piece inp pos rem k Hf.
  - cbn [race_pieces]. destruct (N.eqb_spec rem 0) as [->|Hr].
    + exists [], k, (Ok tt). split; [reflexivity|]. split; [discriminate|]. intros _. change (len (@nil byte)) with 0.
      split; [reflexivity|]. change (pieces_in 0) with 0. split; [lia|]. intros j Hj. lia.
    + exfalso. specialize (Hf ltac:(lia)). lia.
  - cbn [race_pieces]. destruct (N.eqb_spec rem 0) as [->|Hr].
    + exists [], k, (Ok tt). split; [reflexivity|]. split; [discriminate|]. intros _. change (len (@nil byte)) with 0.
      split; [reflexivity|]. change (pieces_in 0) with 0. split; [lia|]. intros j Hj. lia.
    + specialize (Hf ltac:(lia)). set (n := N.min rem BUFFER_SIZE). set (c := now_content (fs_data (at_piece k) inp)).
      unfold read_exact_at. destruct (get_range c pos (pos + n)) as [b|] eqn:G.
      2: { exists [], k, (Err EIoEof). split; [reflexivity|]. split; discriminate. }
      apply get_range_spec in G. destruct G as (_ & G & ->). replace (pos + n - pos) with n by lia. fold (slice c pos n).
      destruct (IH at_piece inp (pos + n) (rem - n) (S k)) as (w & k' & r & E & NP & X).
      { intros Hp. unfold n, BUFFER_SIZE in *. lia. }
      rewrite E. exists (slice c pos n ++ w), k', r. split; [reflexivity|]. split; [exact NP|]. intros Hk.
      destruct (X Hk) as (L & Kn & J). pose proof (len_slice c pos n G) as Ls. rewrite len_app, L, Ls.
      assert (Hn : n <= rem) by (unfold n; lia). split; [lia|]. split.
      { rewrite Kn. unfold pieces_in. destruct (N.le_gt_cases rem 65536) as [S1|S1].
        - assert (n = rem) by (unfold n, BUFFER_SIZE; lia). replace (rem - n + 65535) with 65535 by lia. change (65535 / 65536) with 0.
          assert (Q : (rem + 65535) / 65536 = 1); [|lia]. symmetry. apply (N.div_unique _ 65536 1 (rem - 1)); lia.
        - assert (n = 65536) by (unfold n, BUFFER_SIZE; lia). replace (rem + 65535) with (rem - n + 65535 + 1 * 65536) by lia.
          rewrite N.div_add by lia. lia. }
      intros j Hj. rewrite nth_app_N, Ls. destruct (N.ltb_spec j n) as [Lj|Lj].
      * rewrite nth_slice by exact Lj. rewrite N.div_small by (unfold n, BUFFER_SIZE in *; lia). rewrite N.add_0_r, Nat2N.id. fold c.
        destruct (nth_some c (pos + j) ltac:(lia)) as (x & Hx). exists x. split; exact Hx.
      * assert (n = 65536) by (unfold n, BUFFER_SIZE in *; lia). destruct (J (j - n) ltac:(lia)) as (x & J1 & J2). exists x. split; [exact J1|].
        rewrite <- J2. f_equal; [|f_equal; lia]. f_equal. f_equal. f_equal. f_equal.
        replace j with (j - n + 1 * 65536) at 1 by lia. rewrite N.div_add by lia. lia.
Qed.
Lemma race_fuel_enough n : n <= N.of_nat (race_fuel n) * BUFFER_SIZE.
Proof.
  unfold race_fuel. rewrite N2Nat.id. pose proof (N.div_mod n BUFFER_SIZE ltac:(discriminate)). pose proof (N.mod_lt n BUFFER_SIZE ltac:(discriminate)).
  unfold BUFFER_SIZE in *. lia.
Qed.

Lemma race_regions_ok : forall p at_piece inp l total k w, race_regions p at_piece inp l total k = (w, Ok tt) ->
  len w = sizes l /\
  forall l1 g l2 j, l = l1 ++ g :: l2 -> j < rg_size g ->
    exists b, nth_error w (N.to_nat (sizes l1 + j)) = Some b /\
      nth_error (now_content (fs_data (at_piece (N.to_nat (N.of_nat k + pieces_before l1 + j / 65536))) inp)) (N.to_nat (rg_offset g + j)) = Some b.
Proof.
  intros p at_piece inp. induction l as [|g l IH]; intros total k w H.
  - injection H as <-. split; [reflexivity|]. intros [|? ?] ? ? ? E; discriminate E.
  - cbn [race_regions] in H. destruct (seek (rg_offset g)); try discriminate H.
    destruct (race_pieces_ok (race_fuel (rg_size g)) at_piece inp (rg_offset g) (rg_size g) k (fun _ => race_fuel_enough _)) as (w1 & k' & r & E & NP & X).
    rewrite E in H. destruct r as [[]| |]; [|discriminate H|discriminate H]. cbn [bind] in H. destruct (X eq_refl) as (L1 & K1 & J1).
    destruct (uadd p total (rg_size g)) as [t| |]; [|discriminate H|discriminate H].
    destruct (race_regions p at_piece inp l t k') as [w2 r2] eqn:E2. injection H as <- ->. destruct (IH t k' w2 E2) as (L2 & J2).
    cbn [sizes fold_right]. change (fold_right _ 0 l) with (sizes l). rewrite len_app. split; [lia|].
    intros l1 h l2 j Hl Hj. destruct l1 as [|h1 l1].
    + injection Hl as <- _. cbn [sizes fold_right pieces_before]. rewrite N.add_0_l, N.add_0_r. rewrite nth_app_N.
      replace (j <? len w1) with true by (symmetry; apply N.ltb_lt; lia). exact (J1 j Hj).
    + cbn [app] in Hl. injection Hl as <- Hl. cbn [sizes fold_right pieces_before]. change (fold_right _ 0 l1) with (sizes l1) at 1.
      change (fold_right _ 0 l1) with (pieces_before l1). rewrite nth_app_N.
      replace (rg_size g + sizes l1 + j <? len w1) with false by (symmetry; apply N.ltb_ge; lia).
      destruct (J2 l1 h l2 j Hl Hj) as (b & B1 & B2). exists b. split.
      * rewrite <- B1. f_equal. f_equal. lia.
      * rewrite <- B2. f_equal. f_equal. f_equal. f_equal. f_equal. lia.
Qed.

(** The file does not change: the model without other processes. *)
Lemma race_pieces_still : forall fuel at_piece inp file pos rem k, (forall i, now_content (fs_data (at_piece i) inp) = file) ->
  (0 < rem -> rem <= N.of_nat fuel * BUFFER_SIZE) ->
  exists w k', race_pieces fuel at_piece inp pos rem k = (w, k', if (rem =? 0) || (pos + rem <=? len file) then Ok tt else Err EIoEof) /\
    ((rem =? 0) || (pos + rem <=? len file) = true -> w = slice file pos rem).
Proof.
  induction fuel as [|fuel IH]; intros at_piece inp file pos rem k Hc Hf.
  - cbn [race_pieces]. destruct (N.eqb_spec rem 0) as [->|Hr]; [|exfalso; specialize (Hf ltac:(lia)); lia].
    exists [], k. split; [reflexivity|]. intros _. now rewrite slice_0.
  - cbn [race_pieces]. destruct (N.eqb_spec rem 0) as [->|Hr]; [exists [], k; split; [reflexivity|]; intros _; now rewrite slice_0|].
    specialize (Hf ltac:(lia)). cbn [orb]. set (n := N.min rem BUFFER_SIZE). rewrite Hc. unfold read_exact_at.
    assert (Hn : n <= rem) by (unfold n; lia).
    destruct (get_range file pos (pos + n)) as [b|] eqn:G.
    + apply get_range_spec in G. destruct G as (_ & G & ->). replace (pos + n - pos) with n by lia. fold (slice file pos n).
      destruct (IH at_piece inp file (pos + n) (rem - n) (S k) Hc) as (w & k' & E & X).
      { intros Hp. unfold n, BUFFER_SIZE in *. lia. }
      rewrite E. exists (slice file pos n ++ w), k'.
      assert (T : (rem - n =? 0) || (pos + n + (rem - n) <=? len file) = (pos + rem <=? len file)).
      { replace (pos + n + (rem - n)) with (pos + rem) by lia. destruct (N.eqb_spec (rem - n) 0) as [Z|Z]; [|reflexivity].
        cbn [orb]. symmetry. apply N.leb_le. lia. }
      rewrite T in *. split; [reflexivity|]. intros Y. rewrite (X Y), slice_split. now replace (n + (rem - n)) with rem by lia.
    + apply get_range_None in G. exists [], k. destruct (N.leb_spec (pos + rem) (len file)); [exfalso; lia|]. split; [reflexivity|discriminate].
Qed.
Lemma race_regions_still : forall p at_piece inp file, (forall i, now_content (fs_data (at_piece i) inp) = file) -> forall l total k,
  exists w r, race_regions p at_piece inp l total k = (w, r) /\
    (r = Ok tt -> w = region_bytes file l) /\
    forall s out c, inp <> out -> fs_data s inp = Some file -> fs_data s out = Some c ->
      snd (copy_regions p s inp out l total) = r /\
      (r = Ok tt -> fs_data (run s (fst (copy_regions p s inp out l total))) out = Some (c ++ w)).
Proof.
  intros p at_piece inp file Hc. induction l as [|g l IH]; intros total k.
  - exists [], (Ok tt). split; [reflexivity|]. split; [reflexivity|]. intros s out c _ _ Ho. split; [reflexivity|]. intros _. cbn. now rewrite app_nil_r.
  - cbn [race_regions]. unfold seek. change I64 with (2 ^ 63). destruct (N.ltb_spec (rg_offset g) (2 ^ 63)) as [Hs|Hs].
    2: { exists [], (Err EIoSeek). split; [reflexivity|]. split; [discriminate|]. intros s out c _ _ _. cbn [copy_regions]. unfold seek. change I64 with (2 ^ 63).
         destruct (N.ltb_spec (rg_offset g) (2 ^ 63)); [lia|]. split; [reflexivity|discriminate]. }
    destruct (race_pieces_still (race_fuel (rg_size g)) at_piece inp file (rg_offset g) (rg_size g) k Hc (fun _ => race_fuel_enough _)) as (w1 & k1 & E & X).
    rewrite E. clear E.
    assert (Cp : forall s out c, inp <> out -> fs_data s inp = Some file -> fs_data s out = Some c ->
      exists l1 r1, copy_pieces (copy_fuel s inp (rg_size g)) s inp out (rg_offset g) (rg_size g) = (l1, r1) /\ Forall (is_append out) l1 /\
        (forall h, h <> out -> fs_data (run s l1) h = fs_data s h) /\
        if (rg_size g =? 0) || (rg_offset g + rg_size g <=? len file)
        then r1 = Ok tt /\ fs_data (run s l1) out = Some (c ++ slice file (rg_offset g) (rg_size g))
        else r1 = Err EIoEof).
    { intros s out c H1 H2 H3. apply copy_pieces_spec; auto. intros _. now apply fuel_enough. }
    destruct ((rg_size g =? 0) || (rg_offset g + rg_size g <=? len file)) eqn:T.
    + cbn [bind]. rewrite (X eq_refl). destruct (uadd p total (rg_size g)) as [t|er|] eqn:A.
      * destruct (IH t k1) as (w2 & r2 & E2 & Y1 & Y2). rewrite E2. exists (slice file (rg_offset g) (rg_size g) ++ w2), r2. split; [reflexivity|]. split.
        { intros Hk. rewrite (Y1 Hk). reflexivity. }
        intros s out c H1 H2 H3. destruct (Cp s out c H1 H2 H3) as (l1 & r1 & E1 & F1 & O1 & -> & D1). cbn [copy_regions]. unfold seek. change I64 with (2 ^ 63).
        destruct (N.ltb_spec (rg_offset g) (2 ^ 63)); [|lia]. rewrite E1. cbn [bind]. rewrite A.
        destruct (Y2 (run s l1) out (c ++ slice file (rg_offset g) (rg_size g)) H1) as (Z1 & Z2); [rewrite O1; auto|exact D1|].
        destruct (copy_regions p (run s l1) inp out l t) as [l2 r2'] eqn:E3. cbn [fst snd] in *. split; [exact Z1|]. intros Hk.
        replace (run s (l1 ++ l2)) with (run (run s l1) l2) by (symmetry; apply fold_left_app). rewrite (Z2 Hk). now rewrite app_assoc.
      * exists (slice file (rg_offset g) (rg_size g)), (Err er). split; [reflexivity|]. split; [discriminate|].
        intros s out c H1 H2 H3. destruct (Cp s out c H1 H2 H3) as (l1 & r1 & E1 & F1 & O1 & -> & D1). cbn [copy_regions]. unfold seek. change I64 with (2 ^ 63).
        destruct (N.ltb_spec (rg_offset g) (2 ^ 63)); [|lia]. rewrite E1. cbn [bind]. rewrite A. split; [reflexivity|discriminate].
      * exists (slice file (rg_offset g) (rg_size g)), Panic. split; [reflexivity|]. split; [discriminate|].
        intros s out c H1 H2 H3. destruct (Cp s out c H1 H2 H3) as (l1 & r1 & E1 & F1 & O1 & -> & D1). cbn [copy_regions]. unfold seek. change I64 with (2 ^ 63).
        destruct (N.ltb_spec (rg_offset g) (2 ^ 63)); [|lia]. rewrite E1. cbn [bind]. rewrite A. split; [reflexivity|discriminate].
    + cbn [bind]. exists w1, (Err EIoEof). split; [reflexivity|]. split; [discriminate|].
      intros s out c H1 H2 H3. destruct (Cp s out c H1 H2 H3) as (l1 & r1 & E1 & F1 & O1 & ->). cbn [copy_regions]. unfold seek. change I64 with (2 ^ 63).
      destruct (N.ltb_spec (rg_offset g) (2 ^ 63)); [|lia]. rewrite E1. cbn [bind]. split; [reflexivity|discriminate].
Qed.

Lemma open_same rest file : race_open rest file file = signable_open rest file.
Proof. destruct file; reflexivity. Qed.

Lemma digest_undisturbed p C rest base64 ds s a : da_dump a = None ->
  let r := cli_digest_race p C rest base64 ds (d_undisturbed s (da_dump a)) a in
  fst r = None /\ cli_digest p C rest base64 ds s a = ([], snd r).
Proof.
  intros Hd. unfold cli_digest_race, cli_digest, d_undisturbed. cbn [d_detect d_open d_regions d_digest]. rewrite open_same, Hd.
  destruct (do x <- signable_open _ _; _) as [[x l]| |]; split; reflexivity.
Qed.
Lemma dump_undisturbed p C rest base64 ds s a out : da_dump a = Some out -> fs_file s (da_input a) <> fs_file s out ->
  let r := cli_digest_race p C rest base64 ds (d_undisturbed s (da_dump a)) a in
  snd (cli_digest p C rest base64 ds s a) = snd r /\ (fst (cli_digest p C rest base64 ds s a) = [] <-> fst r = None) /\
  (snd r = Ok None -> exists w, fst r = Some (fs_file s out, w) /\
     fs_data (run s (fst (cli_digest p C rest base64 ds s a))) (fs_file s out) = Some w).
Proof.
  intros Hd Hio. unfold cli_digest_race, cli_digest, d_undisturbed. cbn [d_detect d_open d_regions d_digest d_input d_create d_piece]. rewrite open_same, Hd.
  destruct (do x <- signable_open _ _; _) as [[x l]|e|]; [|split; [reflexivity|]; split; [split; reflexivity|discriminate]..].
  unfold dump_regions. destruct (fs_read s (da_input a)) as [file|] eqn:Hr; [|split; [reflexivity|]; split; [split; reflexivity|discriminate]].
  destruct (fs_can_create s out); [|split; [reflexivity|]; split; [split; reflexivity|discriminate]].
  set (s1 := apply s (Truncate (fs_file s out))).
  assert (Hi : fs_data s1 (fs_file s (da_input a)) = Some file).
  { unfold fs_read in Hr. destruct (fs_can_read s (da_input a)); [|discriminate]. rewrite <- Hr. now apply put_other. }
  destruct (race_regions_still p (fun _ => s1) (fs_file s (da_input a)) file) with (l := l) (total := 0) (k := 0%nat) as (w & r & E & X & Y).
  { intros _. now rewrite Hi. }
  rewrite E. destruct (Y s1 (fs_file s out) [] Hio Hi) as (Z1 & Z2); [apply put_get|].
  destruct (copy_regions p s1 (fs_file s (da_input a)) (fs_file s out) l 0) as [w' r']. cbn [fst snd] in *. subst r'.
  split; [reflexivity|]. split; [split; discriminate|]. intros Hk. exists w. split; [reflexivity|].
  destruct r as [[]| |]; [|discriminate Hk|discriminate Hk]. exact (Z2 eq_refl).
Qed.
Lemma digest_printed p C rest base64 ds H a o t : cli_digest_race p C rest base64 ds H a = (o, Ok (Some t)) ->
  o = None /\ da_dump a = None /\ exists x y d,
    race_open rest (fs_read (d_detect H) (da_input a)) (fs_read (d_open H) (da_input a)) = Ok x /\
    choose_sections x (da_sections a) = Ok y /\
    signable_digest p C rest ds y (fs_read (d_digest H) (da_input a)) (if da_sha512 a then ECDSA_SHA2_512 else ECDSA_SHA2_256) = Ok d /\
    t = match da_format a with Hex => hex_encode d | Base64 => base64 d end.
Proof.
  unfold cli_digest_race. intros E.
  destruct (race_open _ _ _) as [x| |] eqn:E1; cbn [bind] in E; try discriminate E.
  destruct (choose_sections x _) as [y| |] eqn:E2; cbn [bind] in E; try discriminate E.
  destruct (signable_regions _ _ _ _) as [l| |] eqn:E3; cbn [bind] in E; try discriminate E.
  destruct (total_size p l 0) as [n| |]; cbn [bind] in E; try discriminate E.
  destruct (da_dump a).
  { destruct (fs_read (d_input H) _); [|discriminate E]. destruct (fs_can_create _ _); [|discriminate E].
    destruct (race_regions _ _ _ _ _ _) as [w r]. destruct r; discriminate E. }
  destruct (signable_digest _ _ _ _ _ _ _) as [d| |] eqn:E4; cbn [bind] in E; try discriminate E. injection E as <- <-.
  split; [reflexivity|]. split; [reflexivity|]. exists x, y, d. auto.
Qed.
Lemma open_module rest f1 f2 x : race_open rest f1 f2 = Ok x -> (forall t, f1 <> Some (ELFMAG ++ t)) ->
  exists f0, f2 = Some f0 /\ x = SModule (module_new f0).
Proof.
  unfold race_open. destruct f1 as [f1|]; [|discriminate]. cbn [of_option bind]. intros H Hm.
  destruct (detect_file_format f1) as [[|]| |] eqn:E; cbn [bind] in H; try discriminate H.
  - destruct f2 as [f2|]; [|discriminate H]. cbn [of_option bind] in H. injection H as <-. eauto.
  - apply (proj1 (detect_spec f1)) in E. destruct E as (t & ->). now elim (Hm t).
Qed.
Lemma digest_module p C rest base64 ds H a o t : cli_digest_race p C rest base64 ds H a = (o, Ok (Some t)) ->
  (forall t, fs_read (d_detect H) (da_input a) <> Some (ELFMAG ++ t)) ->
  exists f0 d, fs_read (d_open H) (da_input a) = Some f0 /\
    m_digest p C (ds (if da_sha512 a then ECDSA_SHA2_512 else ECDSA_SHA2_256)) (module_new f0) (now_content (fs_read (d_digest H) (da_input a)))
      (if da_sha512 a then ECDSA_SHA2_512 else ECDSA_SHA2_256) = Ok d /\
    t = match da_format a with Hex => hex_encode d | Base64 => base64 d end.
Proof.
  intros E Hm. destruct (digest_printed _ _ _ _ _ _ _ _ _ E) as (_ & _ & x & y & d & E1 & E2 & E3 & E4).
  destruct (open_module _ _ _ _ E1 Hm) as (f0 & F0 & ->). exists f0, d. split; [exact F0|]. split; [|exact E4].
  destruct (da_sections a); [|discriminate E2]. injection E2 as <-. exact E3.
Qed.
Lemma digest_elf p C rest base64 ds H a s t t' : da_dump a = None ->
  fs_read (d_detect H) (da_input a) = Some (ELFMAG ++ t) -> fs_read (d_open H) (da_input a) = Some (ELFMAG ++ t') ->
  fs_read s (da_input a) = Some (ELFMAG ++ t') ->
  cli_digest p C rest base64 ds s a = ([], snd (cli_digest_race p C rest base64 ds H a)).
Proof.
  intros Hd H1 H2 H3. unfold cli_digest, cli_digest_race. rewrite H1, H2, H3, Hd.
  assert (D : forall u, detect_file_format (ELFMAG ++ u) = Ok FElf) by (intros u; apply (proj1 (detect_spec _)); eauto).
  unfold race_open, signable_open. cbn [of_option bind]. rewrite !D. cbn [bind].
  destruct (elf_new rest (ELFMAG ++ t')) as [f| |]; cbn [bind]; try reflexivity.
  assert (Y : forall y, choose_sections (SElf f) (da_sections a) = Ok y -> exists g, y = SElf g).
  { destruct (da_sections a); cbn; [intros y Hy; injection Hy as <-; eauto|]. destruct (set_signed_sections _ _); cbn; intros y Hy; try discriminate Hy. injection Hy as <-. eauto. }
  destruct (choose_sections (SElf f) (da_sections a)) as [y| |]; cbn [bind]; try reflexivity. destruct (Y y eq_refl) as (g & ->).
  cbn [signable_regions]. destruct (elf_digest_regions rest g) as [l| |]; cbn [bind]; try reflexivity.
  destruct (total_size p l 0); cbn [bind]; reflexivity.
Qed.
Lemma dump_torn p C rest base64 ds H a o : cli_digest_race p C rest base64 ds H a = (o, Ok None) ->
  exists out w x y l, da_dump a = Some out /\ o = Some (fs_file (d_create H) out, w) /\
    race_open rest (fs_read (d_detect H) (da_input a)) (fs_read (d_open H) (da_input a)) = Ok x /\
    choose_sections x (da_sections a) = Ok y /\
    signable_regions p rest y (fs_read (d_regions H) (da_input a)) = Ok l /\
    torn (fun i => now_content (fs_data (d_piece H i) (fs_file (d_input H) (da_input a)))) l w.
Proof.
  unfold cli_digest_race. intros E.
  destruct (race_open _ _ _) as [x| |] eqn:E1; cbn [bind] in E; try discriminate E.
  destruct (choose_sections x _) as [y| |] eqn:E2; cbn [bind] in E; try discriminate E.
  destruct (signable_regions _ _ _ _) as [l| |] eqn:E3; cbn [bind] in E; try discriminate E.
  destruct (total_size p l 0) as [n| |]; cbn [bind] in E; try discriminate E.
  destruct (da_dump a) as [out|].
  2: { destruct (signable_digest _ _ _ _ _ _ _); discriminate E. }
  destruct (fs_read (d_input H) _); [|discriminate E]. destruct (fs_can_create _ _); [|discriminate E].
  destruct (race_regions p (d_piece H) (fs_file (d_input H) (da_input a)) l 0 0) as [w r] eqn:E4.
  destruct r as [[]| |]; try discriminate E. injection E as <-.
  exists out, w, x, y, l. repeat (split; [first [reflexivity|assumption]|]). exact (race_regions_ok _ _ _ _ _ _ _ E4).
Qed.
Lemma torn_fun content l w w' : torn content l w -> torn content l w' -> w' = w.
Proof.
  intros (L & T) (L' & T'). apply nth_ext. intros i. rewrite <- (Nat2N.id i).
  assert (P : forall l n, n < sizes l -> exists l1 g l2 j, l = l1 ++ g :: l2 /\ j < rg_size g /\ n = sizes l1 + j).
  { clear. induction l as [|g l IH]; intros n H; [cbn in H; lia|]. cbn [sizes fold_right] in H. change (fold_right _ 0 l) with (sizes l) in H.
    destruct (N.lt_ge_cases n (rg_size g)) as [S1|S1].
    - exists [], g, l, n. split; [reflexivity|]. split; [exact S1|]. reflexivity.
    - destruct (IH (n - rg_size g) ltac:(lia)) as (l1 & h & l2 & j & -> & Hj & En). exists (g :: l1), h, l2, j. split; [reflexivity|]. split; [exact Hj|].
      cbn [sizes fold_right]. change (fold_right _ 0 l1) with (sizes l1). lia. }
  destruct (N.lt_ge_cases (N.of_nat i) (sizes l)) as [S1|S1].
  - destruct (P l (N.of_nat i) S1) as (l1 & g & l2 & j & El & Hj & En).
    destruct (T l1 g l2 j El Hj) as (b & B1 & B2). destruct (T' l1 g l2 j El Hj) as (b' & B1' & B2').
    rewrite En, B1, B1'. congruence.
  - rewrite (proj2 (nth_error_None w' _)) by (unfold len in L'; lia). symmetry. apply nth_error_None. unfold len in L. lia.
Qed.
Lemma torn_still file l w : torn (fun _ => file) l w -> w = region_bytes file l.
Proof.
  intros T. symmetry. apply (torn_fun (fun _ => file) l); [exact T|].
  assert (B : forall l1 g l2, l = l1 ++ g :: l2 -> rg_size g <> 0 -> rg_offset g + rg_size g <= len file).
  { intros l1 g l2 El Hz. destruct (proj2 T l1 g l2 (rg_size g - 1) El ltac:(lia)) as (b & _ & X).
    assert (Y : nth_error file (N.to_nat (rg_offset g + (rg_size g - 1))) <> None) by congruence. apply nth_error_Some in Y. unfold len. lia. }
  clear T w. assert (G : forall r, (forall l1 g l2, r = l1 ++ g :: l2 -> rg_size g <> 0 -> rg_offset g + rg_size g <= len file) -> torn (fun _ => file) r (region_bytes file r)).
  { clear l B. induction r as [|g r IH]; intros B.
    - split; [reflexivity|]. intros [|? ?] ? ? ? E; discriminate E.
    - destruct IH as (L & T); [intros l1 h l2 E; apply (B (g :: l1) h l2); now rewrite E|].
      assert (Lg : len (slice file (rg_offset g) (rg_size g)) = rg_size g).
      { destruct (N.eq_dec (rg_size g) 0) as [Z|Z]; [rewrite Z; now rewrite slice_0|]. apply len_slice. now apply (B [] g r). }
      unfold region_bytes in *. cbn [map List.concat]. split.
      + rewrite len_app, Lg, L. reflexivity.
      + intros l1 h l2 j E Hj. destruct l1 as [|h1 l1].
        * injection E as <- _. cbn [sizes fold_right]. rewrite N.add_0_l, nth_app_N, Lg. replace (j <? rg_size g) with true by (symmetry; now apply N.ltb_lt).
          rewrite nth_slice by exact Hj. destruct (nth_some file (rg_offset g + j)) as (b & Hb); [|exists b; split; exact Hb].
          pose proof (B [] g r eq_refl ltac:(lia)). lia.
        * cbn [app] in E. injection E as <- E. cbn [sizes fold_right]. change (fold_right _ 0 l1) with (sizes l1). rewrite nth_app_N, Lg.
          replace (rg_size g + sizes l1 + j <? rg_size g) with false by (symmetry; apply N.ltb_ge; lia).
          replace (rg_size g + sizes l1 + j - rg_size g) with (sizes l1 + j) by lia. exact (T l1 h l2 j E Hj). }
  now apply G.
Qed.

(** * info *)
Lemma read_exact_cut g n a k : a + k <= n -> n <= len g -> read_exact_at (takeN n g) a k = read_exact_at g a k.
Proof.
  intros H L. unfold read_exact_at, get_range. rewrite len_takeN.
  replace (a + k <=? N.min n (len g)) with true by (symmetry; apply N.leb_le; lia).
  replace (a + k <=? len g) with true by (symmetry; apply N.leb_le; lia).
  replace (a <=? a + k) with true by (symmetry; apply N.leb_le; lia). cbn [andb]. replace (a + k - a) with k by lia. f_equal.
  rewrite !takeN_firstn, !dropN_skipn, skipn_firstn_comm, firstn_firstn. f_equal. lia.
Qed.
Lemma search_cut p g n ws window k : n <= len g -> ws + len window <= n ->
  from_reader_search p (takeN n g) n ws window k = from_reader_search p g n ws window k.
Proof.
  intros L W. induction k as [|k IH]; [reflexivity|]. cbn [from_reader_search]. cbv zeta.
  destruct (get_range window (N.of_nat k) (N.of_nat k + MAGIC_LEN)) as [m|] eqn:G; [|exact IH]. destruct (beq m MAGIC); [|exact IH].
  apply get_range_spec in G. destruct G as (_ & G & _).
  assert (E : from_reader_at p (takeN n g) n ws window (N.of_nat k) = from_reader_at p g n ws window (N.of_nat k)).
  { unfold from_reader_at. cbv zeta. destruct (N.of_nat k <? SIZE_UINT64); [reflexivity|]. f_equal.
    destruct (MAX_SIGNING_BLOCK_SIZE <? _); [reflexivity|]. destruct (n <? _); [reflexivity|].
    destruct (_ <? _ + SIZE_UINT64); [|reflexivity]. destruct (N.ltb_spec (ws + (N.of_nat k + MAGIC_LEN)) (un_le (takeN 8 (dropN (N.of_nat k - SIZE_UINT64) window)) + SIZE_UINT64)) as [Q|Q]; [reflexivity|].
    rewrite read_exact_cut by lia. reflexivity. }
  rewrite E. destruct (from_reader_at p g n ws window (N.of_nat k)); [reflexivity|exact IH].
Qed.
Lemma from_reader_cut p g n eo : n <= len g -> from_reader p (takeN n g) n eo = from_reader p g n eo.
Proof.
  intros L. unfold from_reader. cbv zeta. set (se := n - eo). set (wz := N.min se MAX_WINDOW_SIZE). destruct (wz <? _); [reflexivity|].
  rewrite read_exact_cut by lia. destruct (read_exact_at g (se - wz) wz) as [window| |] eqn:R; [|reflexivity|reflexivity]. cbn [bind].
  apply search_cut; [exact L|]. unfold read_exact_at in R. destruct (get_range g (se - wz) (se - wz + wz)) as [b|] eqn:G; [|discriminate R]. injection R as <-.
  apply get_range_spec in G. destruct G as (_ & G & ->). rewrite len_takeN, len_dropN. lia.
Qed.
Lemma info_race p C K builtin now s1 s2 s file f o : fs_read s1 file = Some f ->
  let g := now_content (fs_data s2 (fs_file s1 file)) in
  fs_read s file = Some (takeN (len f) g) ->
  cli_info_race p C K builtin now s1 s2 file = Ok o <-> len f <= len g /\ cli_info p C K builtin now s file = Ok o.
Proof.
  intros Hf g Hs. unfold cli_info_race, cli_info. rewrite Hf, Hs. cbn [of_option bind]. fold g.
  destruct (N.le_gt_cases (len f) (len g)) as [L|L].
  - rewrite len_takeN. replace (N.min (len f) (len g)) with (len f) by lia. rewrite from_reader_cut by exact L. tauto.
  - split; [|lia]. intros H. exfalso. assert (E : exists e, from_reader p g (len f) 0 = Err e).
    { unfold from_reader. cbv zeta. destruct (_ <? _); [eauto|]. rewrite N.sub_0_r. unfold read_exact_at. rewrite (proj2 (get_range_None g _ _)) by lia.
      cbn [bind]. eauto. }
    destruct E as (e & E). rewrite E in H. discriminate H.
Qed.
