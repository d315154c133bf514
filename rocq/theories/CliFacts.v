(** CliFacts.v - effects of the commands on the file system. *)
From Verif Require Import Base BaseFacts Utils Algorithms Common SchemeV2 SourceStamp Utf8 ElfInfo SigningBlock
  Zip Digest Module Signable Signer Verifier Keystore Elf Cli CliSpec.
From Coq Require Import Bool Lia.
Open Scope N_scope.

(** ** Steps *)
Lemma put_get : forall s f b, fs_data (put s f b) f = Some b.
Proof. intros. cbn. now rewrite N.eqb_refl. Qed.
Lemma put_other : forall s f b g, g <> f -> fs_data (put s f b) g = fs_data s g.
Proof. intros s f b g H. cbn. apply N.eqb_neq in H. now rewrite H. Qed.

Definition touches (f : N) (x : step) : Prop :=
  match x with Truncate g => g = f | Append g _ => g = f end.

Lemma apply_other : forall s x f g, touches f x -> g <> f -> fs_data (apply s x) g = fs_data s g.
Proof. intros s [h|h b] f g T H; cbn in T; subst h; now apply put_other. Qed.
Lemma apply_file : forall s x, fs_file (apply s x) = fs_file s.
Proof. intros s []; reflexivity. Qed.
Lemma apply_read : forall s x, fs_can_read (apply s x) = fs_can_read s.
Proof. intros s []; reflexivity. Qed.
Lemma apply_create : forall s x, fs_can_create (apply s x) = fs_can_create s.
Proof. intros s []; reflexivity. Qed.

Lemma run_perm : forall l s, fs_file (run s l) = fs_file s /\ fs_can_read (run s l) = fs_can_read s /\
  fs_can_create (run s l) = fs_can_create s.
Proof.
  intros l. induction l as [|x l IH]; intros s; cbn [run fold_left]; [auto|].
  change (fold_left apply l (apply s x)) with (run (apply s x) l).
  destruct (IH (apply s x)) as (A & B & D). now rewrite A, B, D, apply_file, apply_read, apply_create.
Qed.

Lemma reached_touch : forall f l s s', reached s l s' -> Forall (touches f) l ->
  fs_file s' = fs_file s /\ fs_can_read s' = fs_can_read s /\
  forall g, g <> f -> fs_data s' g = fs_data s g.
Proof.
  intros f l s s' R. induction R as [s l|s g b l n|s x l s' R IH]; intros F.
  - auto.
  - inversion F as [|? ? T F']; subst. cbn in T. subst g. split; [reflexivity|]. split; [reflexivity|].
    intros g H. now apply put_other.
  - inversion F as [|? ? T F']; subst. destruct (IH F') as (A & B & D).
    rewrite A, B, apply_file, apply_read. split; [reflexivity|]. split; [reflexivity|].
    intros g H. rewrite D by auto. eapply apply_other; eauto.
Qed.

Lemma reached_end : forall l s, reached s l (run s l).
Proof.
  intros l. induction l as [|x l IH]; intros s; [constructor|]. cbn [run fold_left].
  apply reached_next. apply IH.
Qed.

Lemma prefix_refl : forall a, prefix a a.
Proof. intros a. exists []. now rewrite app_nil_r. Qed.
Lemma prefix_app : forall a b, prefix a (a ++ b).
Proof. intros a b. now exists b. Qed.
Lemma prefix_take : forall n a, prefix (takeN n a) a.
Proof. intros n a. exists (dropN n a). unfold takeN, dropN. now rewrite firstn_skipn. Qed.
Lemma prefix_trans : forall a b c, prefix a b -> prefix b c -> prefix a c.
Proof. intros a b c (x & ->) (y & ->). exists (x ++ y). now rewrite app_assoc. Qed.
Lemma prefix_app_l : forall a b c, prefix b c -> prefix (a ++ b) (a ++ c).
Proof. intros a b c (x & ->). exists x. now rewrite app_assoc. Qed.
Lemma prefix_nil : forall a, prefix [] a.
Proof. intros a. now exists a. Qed.

Definition is_append (f : N) (x : step) : Prop := match x with Append g _ => g = f | _ => False end.

(** While only appends to [f] are executed, what [f] contains grows. *)
Lemma reached_appends : forall f l s s' c, reached s l s' -> Forall (is_append f) l ->
  fs_data s f = Some c ->
  exists w final, fs_data s' f = Some w /\ fs_data (run s l) f = Some final /\ prefix c w /\ prefix w final.
Proof.
  assert (G : forall f l s c, Forall (is_append f) l -> fs_data s f = Some c ->
    exists final, fs_data (run s l) f = Some final /\ prefix c final).
  { intros f l. induction l as [|x l IH]; intros s c F H; cbn [run fold_left].
    - exists c. split; [exact H|apply prefix_refl].
    - inversion F as [|? ? T F']; subst. destruct x as [g|g b]; [destruct T|]. cbn in T. subst g.
      destruct (IH (apply s (Append f b)) (c ++ b) F') as (final & H1 & H2).
      { cbn [apply]. rewrite H. apply put_get. }
      exists final. split; [exact H1|]. eapply prefix_trans; [apply prefix_app|exact H2]. }
  intros f l s s' c R F H. revert c H. induction R as [s l|s g b l n|s x l s' R IH]; intros c H.
  - destruct (G f l s c F H) as (final & H1 & H2). exists c, final. split; [exact H|]. split; [exact H1|].
    split; [apply prefix_refl|exact H2].
  - inversion F as [|? ? T F']; subst. cbn in T. subst g.
    destruct (G f l (apply s (Append f b)) (c ++ b) F') as (final & H1 & H2).
    { cbn [apply]. rewrite H. apply put_get. }
    exists (c ++ takeN n b), final. split; [cbn [apply]; rewrite H; apply put_get|]. split; [exact H1|].
    split; [apply prefix_app|]. eapply prefix_trans; [|exact H2]. apply prefix_app_l, prefix_take.
  - inversion F as [|? ? T F']; subst. destruct x as [g|g b]; [destruct T|]. cbn in T. subst g.
    destruct (IH F' (c ++ b)) as (w & final & H1 & H2 & H3 & H4).
    { cbn [apply]. rewrite H. apply put_get. }
    exists w, final. split; [exact H1|]. split; [exact H2|]. split; [|exact H4].
    eapply prefix_trans; [apply prefix_app|exact H3].
Qed.

Lemma reached_created : forall f l s s', reached s (Truncate f :: l) s' -> Forall (is_append f) l ->
  fs_data s' f = fs_data s f \/
  exists w final, fs_data s' f = Some w /\ fs_data (run s (Truncate f :: l)) f = Some final /\ prefix w final.
Proof.
  intros f l s s' R F. inversion R as [| |x l' s'' R' ]; subst.
  - now left.
  - right. destruct (reached_appends f l (apply s (Truncate f)) s' [] R' F) as (w & final & H1 & H2 & _ & H4).
    { apply put_get. }
    exists w, final. auto.
Qed.

(** ** sign *)
Lemma sign_steps : forall p C L rest clk ds s a steps r, cli_sign p C L rest clk ds s a = (steps, r) ->
  (steps = [] /\ (r <> Ok tt)) \/
  exists x b w, cli_sign_block p C L rest clk ds s a = Ok (x, b) /\ fs_can_create s (sa_output a) = true /\
    steps = [Truncate (fs_file s (sa_output a)); Append (fs_file s (sa_output a)) w] /\
    signable_write p rest x (fs_read (apply s (Truncate (fs_file s (sa_output a)))) (sa_input a)) b = (w, r).
Proof.
  intros p C L rest clk ds s a steps r H. unfold cli_sign in H.
  destruct (cli_sign_block p C L rest clk ds s a) as [(x & b)|e|] eqn:E.
  - destruct (fs_can_create s (sa_output a)) eqn:Ec.
    + right. cbv zeta in H. destruct (signable_write p rest x _ b) as (w & r') eqn:W.
      injection H as <- <-. exists x, b, w. auto.
    + injection H as <- <-. left. split; [reflexivity|discriminate].
  - injection H as <- <-. left. split; [reflexivity|discriminate].
  - injection H as <- <-. left. split; [reflexivity|discriminate].
Qed.

Lemma sign_others : forall p C L rest clk ds s a steps r s' q,
  cli_sign p C L rest clk ds s a = (steps, r) -> reached s steps s' ->
  fs_file s q <> fs_file s (sa_output a) -> fs_read s' q = fs_read s q.
Proof.
  intros p C L rest clk ds s a steps r s' q H R Hq. apply sign_steps in H.
  assert (T : Forall (touches (fs_file s (sa_output a))) steps).
  { destruct H as [(-> & _)|(x & b & w & _ & _ & -> & _)]; [constructor|repeat constructor]. }
  destruct (reached_touch _ _ _ _ R T) as (A & B & D). unfold fs_read. rewrite A, B.
  destruct (fs_can_read s q); [|reflexivity]. now apply D.
Qed.

Lemma sign_output : forall p C L rest clk ds s a steps r s',
  cli_sign p C L rest clk ds s a = (steps, r) -> reached s steps s' ->
  let out := fs_file s (sa_output a) in
  fs_data s' out = fs_data s out \/
  exists w final, fs_data s' out = Some w /\ fs_data (run s steps) out = Some final /\ prefix w final.
Proof.
  intros p C L rest clk ds s a steps r s' H R out. apply sign_steps in H.
  destruct H as [(-> & _)|(x & b & w & _ & _ & -> & _)].
  - inversion R; subst. now left.
  - apply reached_created; [exact R|]. repeat constructor.
Qed.

(** The content of the output after the whole run. *)
Lemma sign_final : forall p C L rest clk ds s a steps r x b,
  cli_sign p C L rest clk ds s a = (steps, r) -> cli_sign_block p C L rest clk ds s a = Ok (x, b) ->
  fs_can_create s (sa_output a) = true ->
  let out := fs_file s (sa_output a) in
  fs_data (run s steps) out =
    Some (fst (signable_write p rest x (fs_read (apply s (Truncate out)) (sa_input a)) b)) /\
  r = snd (signable_write p rest x (fs_read (apply s (Truncate out)) (sa_input a)) b).
Proof.
  intros p C L rest clk ds s a steps r x b H HB Hc out. unfold cli_sign in H. rewrite HB, Hc in H. cbv zeta in H.
  fold out in H. destruct (signable_write p rest x _ b) as (w & r') eqn:W. injection H as <- <-.
  split; [|reflexivity]. cbn [run fold_left apply fst]. now rewrite !put_get.
Qed.

(** The input is not the output: it is read again unchanged. *)
Lemma truncate_read : forall s f q, fs_file s q <> f -> fs_read (apply s (Truncate f)) q = fs_read s q.
Proof.
  intros s f q H. unfold fs_read. rewrite apply_read, apply_file. destruct (fs_can_read s q); [|reflexivity].
  now apply put_other.
Qed.
Lemma truncate_same : forall s f q, fs_file s q = f -> fs_can_read s q = true ->
  fs_read (apply s (Truncate f)) q = Some [].
Proof. intros s f q <- H. unfold fs_read. rewrite apply_read, apply_file, H. apply put_get. Qed.

(** ** hexadecimal output *)
Lemma b8_small : forall n, n < 256 -> Byte.to_N (b8 n) = n.
Proof. intros n H. rewrite to_N_b8. now apply N.mod_small. Qed.

Lemma hex_digit_value : forall n, n < 16 -> hex_value (hex_digit n) n.
Proof.
  intros n H. unfold hex_digit, hex_value. destruct (N.ltb_spec n 10).
  - left. split; [lia|]. rewrite b8_small; lia.
  - right. split; [lia|]. rewrite b8_small; lia.
Qed.

Lemma hex_value_fun : forall c n m, hex_value c n -> hex_value c m -> n = m.
Proof. unfold hex_value. intros c n m [(A & B)|(A & B)] [(D & E)|(D & E)]; lia. Qed.

Lemma hex_spells : forall d, spells (hex_encode d) d.
Proof.
  intros d. induction d as [|b d IH]; cbn [hex_encode flat_map app]; [constructor|].
  assert (B := to_N_lt b).
  econstructor; [apply hex_digit_value|apply hex_digit_value| |exact IH].
  - apply N.div_lt_upper_bound; lia.
  - apply N.mod_lt. lia.
  - pose proof (N.div_mod (Byte.to_N b) 16). lia.
Qed.

Lemma spells_fun : forall t d1 d2, spells t d1 -> spells t d2 -> d1 = d2.
Proof.
  intros t d1 d2 H. revert d2. induction H as [|hi lo t b d h l H1 H2 H3 H4 IH]; intros d2 G.
  - inversion G; reflexivity.
  - inversion G as [|? ? ? b' d' h' l' G1 G2 G3 G4]; subst.
    rewrite (hex_value_fun _ _ _ G1 H1) in G3. rewrite (hex_value_fun _ _ _ G2 H2) in G3.
    f_equal; [|now apply IH]. apply to_N_inj. congruence.
Qed.

Lemma hex_injective : forall d1 d2, hex_encode d1 = hex_encode d2 -> d1 = d2.
Proof. intros d1 d2 H. apply (spells_fun (hex_encode d1)); [apply hex_spells|]. rewrite H. apply hex_spells. Qed.

Lemma hex_length : forall d, len (hex_encode d) = 2 * len d.
Proof.
  intros d. unfold len. induction d as [|b d IH]; [reflexivity|].
  change (hex_encode (b :: d)) with
    (hex_digit (Byte.to_N b / 16) :: hex_digit (Byte.to_N b mod 16) :: hex_encode d). cbn [length]. lia.
Qed.
