(** BaseFacts.v - lemmas about Base.v *)
From Verif Require Import Base.
From Coq Require Export ZifyBool ZifyNat ZifyN.
Ltac Zify.zify_post_hook ::= Z.div_mod_to_equations.

Lemma len_nil {A} : len (@nil A) = 0. Proof. reflexivity. Qed.
Lemma len_cons {A} (x : A) l : len (x :: l) = 1 + len l.
Proof. unfold len; cbn [length]; lia. Qed.
Lemma len_app {A} (a b : list A) : len (a ++ b) = len a + len b.
Proof. unfold len; rewrite app_length; lia. Qed.
Lemma len_rev {A} (a : list A) : len (rev a) = len a.
Proof. unfold len; rewrite rev_length; lia. Qed.
Lemma len_map {A B} (f : A -> B) l : len (map f l) = len l.
Proof. unfold len; rewrite map_length; lia. Qed.
Lemma len_zeros n : len (zeros n) = n.
Proof. unfold len, zeros; rewrite repeat_length; lia. Qed.
Lemma len_0 {A} (l : list A) : len l = 0 -> l = [].
Proof. destruct l; [ reflexivity | rewrite len_cons; lia ]. Qed.
Lemma length_len {A} (l : list A) : length l = N.to_nat (len l).
Proof. unfold len; lia. Qed.

Lemma takeN_firstn {A} n (l : list A) : takeN n l = firstn (N.to_nat n) l.
Proof.
  unfold takeN. destruct (N.le_gt_cases n (len l)) as [H|H].
  - rewrite N.min_l by lia. reflexivity.
  - rewrite N.min_r by lia. rewrite !firstn_all2; auto; unfold len in *; lia.
Qed.
Lemma dropN_skipn {A} n (l : list A) : dropN n l = skipn (N.to_nat n) l.
Proof.
  unfold dropN. destruct (N.le_gt_cases n (len l)) as [H|H].
  - rewrite N.min_l by lia. reflexivity.
  - rewrite N.min_r by lia. rewrite !skipn_all2; auto; unfold len in *; lia.
Qed.

Lemma len_takeN {A} n (l : list A) : len (takeN n l) = N.min n (len l).
Proof. rewrite takeN_firstn; unfold len; rewrite firstn_length; lia. Qed.
Lemma len_dropN {A} n (l : list A) : len (dropN n l) = len l - n.
Proof. rewrite dropN_skipn; unfold len; rewrite skipn_length; lia. Qed.
Lemma take_drop {A} n (l : list A) : takeN n l ++ dropN n l = l.
Proof. rewrite takeN_firstn, dropN_skipn; apply firstn_skipn. Qed.
Lemma takeN_0 {A} (l : list A) : takeN 0 l = [].
Proof. rewrite takeN_firstn; reflexivity. Qed.
Lemma dropN_0 {A} (l : list A) : dropN 0 l = l.
Proof. rewrite dropN_skipn; reflexivity. Qed.
Lemma takeN_all {A} n (l : list A) : len l <= n -> takeN n l = l.
Proof. intros; rewrite takeN_firstn; apply firstn_all2; unfold len in *; lia. Qed.
Lemma dropN_all {A} n (l : list A) : len l <= n -> dropN n l = [].
Proof. intros; rewrite dropN_skipn; apply skipn_all2; unfold len in *; lia. Qed.
Lemma takeN_nil {A} n : takeN n (@nil A) = [].
Proof. rewrite takeN_firstn; apply firstn_nil. Qed.
Lemma dropN_nil {A} n : dropN n (@nil A) = [].
Proof. rewrite dropN_skipn; apply skipn_nil. Qed.

Lemma takeN_app_l {A} n (a b : list A) : n <= len a -> takeN n (a ++ b) = takeN n a.
Proof.
  intros. rewrite !takeN_firstn, firstn_app.
  replace (N.to_nat n - length a)%nat with 0%nat by (unfold len in *; lia).
  cbn; apply app_nil_r.
Qed.
Lemma takeN_app_r {A} n (a b : list A) : len a <= n -> takeN n (a ++ b) = a ++ takeN (n - len a) b.
Proof.
  intros. rewrite !takeN_firstn, firstn_app.
  rewrite firstn_all2 by (unfold len in *; lia).
  f_equal. f_equal. unfold len in *; lia.
Qed.
Lemma dropN_app_l {A} n (a b : list A) : n <= len a -> dropN n (a ++ b) = dropN n a ++ b.
Proof.
  intros. rewrite !dropN_skipn, skipn_app.
  replace (N.to_nat n - length a)%nat with 0%nat by (unfold len in *; lia).
  reflexivity.
Qed.
Lemma dropN_app_r {A} n (a b : list A) : len a <= n -> dropN n (a ++ b) = dropN (n - len a) b.
Proof.
  intros. rewrite !dropN_skipn, skipn_app.
  rewrite skipn_all2 by (unfold len in *; lia).
  cbn. f_equal. unfold len in *; lia.
Qed.
Lemma takeN_app {A} (a b : list A) : takeN (len a) (a ++ b) = a.
Proof. rewrite takeN_app_l by lia. apply takeN_all; lia. Qed.
Lemma dropN_app {A} (a b : list A) : dropN (len a) (a ++ b) = b.
Proof. rewrite dropN_app_r by lia. rewrite N.sub_diag. apply dropN_0. Qed.
Lemma takeN_app_eq {A} n (a b : list A) : n = len a -> takeN n (a ++ b) = a.
Proof. intros ->; apply takeN_app. Qed.
Lemma dropN_app_eq {A} n (a b : list A) : n = len a -> dropN n (a ++ b) = b.
Proof. intros ->; apply dropN_app. Qed.
Lemma dropN_dropN {A} n m (l : list A) : dropN n (dropN m l) = dropN (m + n) l.
Proof.
  rewrite !dropN_skipn.
  replace (N.to_nat (m + n)) with (N.to_nat n + N.to_nat m)%nat by lia.
  revert l; induction (N.to_nat m) as [|k IH]; intros l.
  - rewrite Nat.add_0_r. reflexivity.
  - rewrite Nat.add_succ_r. destruct l; cbn [skipn].
    + apply skipn_nil.
    + apply IH.
Qed.
Lemma takeN_takeN {A} n m (l : list A) : takeN n (takeN m l) = takeN (N.min n m) l.
Proof.
  rewrite !takeN_firstn, firstn_firstn. f_equal. lia.
Qed.
Lemma takeN_dropN_comm {A} n m (l : list A) : takeN n (dropN m l) = dropN m (takeN (m + n) l).
Proof.
  rewrite !takeN_firstn, !dropN_skipn.
  replace (N.to_nat (m + n)) with (N.to_nat m + N.to_nat n)%nat by lia.
  apply firstn_skipn_comm.
Qed.
Lemma takeN_add {A} n m (l : list A) : takeN (n + m) l = takeN n l ++ takeN m (dropN n l).
Proof.
  rewrite <- (take_drop n l) at 1.
  destruct (N.le_gt_cases n (len l)).
  - rewrite takeN_app_r by (rewrite len_takeN; lia).
    f_equal. f_equal. rewrite len_takeN; lia.
  - rewrite (dropN_all n l) by lia. rewrite takeN_nil, !app_nil_r.
    rewrite takeN_all; auto. rewrite len_takeN; lia.
Qed.

Lemma get_range_spec {A} (l : list A) a b d :
  get_range l a b = Some d <->
  a <= b /\ b <= len l /\ d = takeN (b - a) (dropN a l).
Proof.
  unfold get_range. destruct (a <=? b) eqn:E1, (b <=? len l) eqn:E2; cbn [andb];
    split; intros H; try discriminate; try (destruct H as (?&?&?); lia).
  - injection H as <-. repeat split; lia.
  - destruct H as (_&_&->). reflexivity.
Qed.
Lemma get_range_None {A} (l : list A) a b :
  get_range l a b = None <-> b < a \/ len l < b.
Proof.
  unfold get_range. destruct (a <=? b) eqn:E1, (b <=? len l) eqn:E2; cbn [andb];
    split; intros H; try discriminate; auto; try lia.
Qed.
Lemma get_range_len {A} (l : list A) a b d : get_range l a b = Some d -> len d = b - a.
Proof.
  intros H. apply get_range_spec in H as (?&?&->). rewrite len_takeN, len_dropN. lia.
Qed.
Lemma get_range_app {A} (l p d s : list A) a b :
  l = p ++ d ++ s -> a = len p -> b = len p + len d -> get_range l a b = Some d.
Proof.
  intros -> -> ->. apply get_range_spec. rewrite !len_app. repeat split; try lia.
  rewrite dropN_app, N.add_comm, N.add_sub, takeN_app. reflexivity.
Qed.
Lemma get_range_split {A} (l : list A) a b d :
  get_range l a b = Some d -> l = takeN a l ++ d ++ dropN b l.
Proof.
  intros H. apply get_range_spec in H as (H1&H2&->).
  rewrite <- (take_drop a l) at 1. f_equal.
  rewrite <- (take_drop (b - a) (dropN a l)) at 1. f_equal.
  rewrite dropN_dropN. f_equal. lia.
Qed.
Lemma get_range_Some {A} (l : list A) a b :
  a <= b -> b <= len l -> get_range l a b = Some (takeN (b - a) (dropN a l)).
Proof. intros; apply get_range_spec; auto. Qed.

(** byte-string equality *)
Lemma beq_eq a b : beq a b = true <-> a = b.
Proof.
  revert b; induction a as [|x a IH]; destruct b as [|y b]; cbn; split; intros H;
    try discriminate; auto.
  - apply andb_true_iff in H as [H1 H2]. apply Byte.byte_dec_bl in H1. apply IH in H2. congruence.
  - injection H as -> ->. apply andb_true_iff; split; [ apply Byte.byte_dec_lb; auto | apply IH; auto ].
Qed.
Lemma beq_refl a : beq a a = true. Proof. apply beq_eq; auto. Qed.
Lemma beq_neq a b : beq a b = false <-> a <> b.
Proof.
  split; intros H.
  - intros ->. rewrite beq_refl in H. discriminate.
  - destruct (beq a b) eqn:E; auto. apply beq_eq in E. contradiction.
Qed.

(** bytes and little-endian *)
Lemma to_N_b8 n : Byte.to_N (b8 n) = n mod 256.
Proof.
  unfold b8. destruct (Byte.of_N (n mod 256)) as [b|] eqn:E.
  - apply Byte.to_of_N in E. auto.
  - apply Byte.of_N_None_iff in E. lia.
Qed.
Lemma to_N_lt b : Byte.to_N b < 256.
Proof. pose proof (Byte.to_N_bounded b). lia. Qed.
Lemma to_N_inj a b : Byte.to_N a = Byte.to_N b -> a = b.
Proof.
  intros H. pose proof (Byte.of_to_N a) as Ha. pose proof (Byte.of_to_N b) as Hb.
  rewrite H in Ha. congruence.
Qed.
Lemma b8_to_N b : b8 (Byte.to_N b) = b.
Proof. apply to_N_inj. rewrite to_N_b8. apply N.mod_small. apply to_N_lt. Qed.

Lemma length_le k n : length (le k n) = k.
Proof. revert n; induction k; intros; cbn; auto. Qed.
Lemma len_le k n : len (le k n) = N.of_nat k.
Proof. unfold len; rewrite length_le; auto. Qed.
Lemma pow256_S k : 256 ^ N.of_nat (S k) = 256 * 256 ^ N.of_nat k.
Proof. rewrite Nat2N.inj_succ, N.pow_succ_r'; auto. Qed.
Lemma pow256_pos k : 0 < 256 ^ N.of_nat k.
Proof. apply N.neq_0_lt_0, N.pow_nonzero; lia. Qed.
Lemma un_le_le k n : un_le (le k n) = n mod 256 ^ N.of_nat k.
Proof.
  revert n; induction k as [|k IH]; intros n.
  - cbn. rewrite N.mod_1_r. reflexivity.
  - cbn [le un_le]. rewrite to_N_b8, IH, pow256_S.
    pose proof (pow256_pos k). rewrite N.mod_mul_r by lia. reflexivity.
Qed.
Lemma un_le_bound l : un_le l < 256 ^ len l.
Proof.
  induction l as [|b l IH].
  - cbn. lia.
  - cbn [un_le]. unfold len in *. cbn [length]. rewrite pow256_S.
    pose proof (to_N_lt b). set (P := 256 ^ N.of_nat (length l)) in *. clearbody P. lia.
Qed.
Lemma le_un_le l : le (length l) (un_le l) = l.
Proof.
  induction l as [|b l IH]; auto.
  cbn [length un_le le]. f_equal.
  - apply to_N_inj. rewrite to_N_b8. pose proof (to_N_lt b). lia.
  - etransitivity; [ | exact IH ]. f_equal. pose proof (to_N_lt b). lia.
Qed.
Lemma le_un_le' k l : length l = k -> le k (un_le l) = l.
Proof. intros <-; apply le_un_le. Qed.
Lemma le_inj k a b : a < 256 ^ N.of_nat k -> b < 256 ^ N.of_nat k -> le k a = le k b -> a = b.
Proof.
  intros Ha Hb H. apply (f_equal un_le) in H. rewrite !un_le_le, !N.mod_small in H by auto. auto.
Qed.
Lemma un_le_inj a b : length a = length b -> un_le a = un_le b -> a = b.
Proof. intros H1 H2. rewrite <- (le_un_le a), <- (le_un_le b), H1, H2. auto. Qed.
Lemma le_mod k n : le k (n mod 256 ^ N.of_nat k) = le k n.
Proof.
  apply un_le_inj.
  - rewrite !length_le; auto.
  - rewrite !un_le_le, N.mod_mod; auto. pose proof (pow256_pos k); lia.
Qed.
Lemma pow256_2 : 256 ^ N.of_nat 2 = U16. Proof. reflexivity. Qed.
Lemma pow256_4 : 256 ^ N.of_nat 4 = U32. Proof. reflexivity. Qed.
Lemma pow256_8 : 256 ^ N.of_nat 8 = U64. Proof. reflexivity. Qed.
Lemma un_le4 n : n < U32 -> un_le (le 4 n) = n.
Proof. intros. rewrite un_le_le, pow256_4. apply N.mod_small; auto. Qed.
Lemma un_le8 n : n < U64 -> un_le (le 8 n) = n.
Proof. intros. rewrite un_le_le, pow256_8. apply N.mod_small; auto. Qed.
Lemma un_le2 n : n < U16 -> un_le (le 2 n) = n.
Proof. intros. rewrite un_le_le, pow256_2. apply N.mod_small; auto. Qed.

(** lists *)
Lemma app_inj_len {A} (a b c d : list A) : len a = len c -> a ++ b = c ++ d -> a = c /\ b = d.
Proof.
  intros Hl H. assert (length a = length c) by (unfold len in *; lia).
  revert c Hl H H0; induction a as [|x a IH]; destruct c as [|y c]; cbn; intros; try discriminate; auto.
  injection H as -> H. injection H0 as H0.
  destruct (IH c) as [-> ->]; auto. unfold len; lia.
Qed.
Lemma flat_map_app {A B} (f : A -> list B) a b : flat_map f (a ++ b) = flat_map f a ++ flat_map f b.
Proof. induction a; cbn; auto. rewrite IHa, app_assoc. auto. Qed.
Lemma fold_left_add {A} (f : A -> N) l acc :
  fold_left (fun acc x => acc + f x) l acc = acc + fold_left (fun acc x => acc + f x) l 0.
Proof.
  revert acc; induction l as [|x l IH]; intros acc; cbn [fold_left]; [ lia | ].
  rewrite IH, (IH (0 + f x)). lia.
Qed.

(** results *)
Lemma bind_Ok {A B} (m : res A) (k : A -> res B) b :
  bind m k = Ok b <-> exists a, m = Ok a /\ k a = Ok b.
Proof.
  destruct m; cbn; split; intros H; try discriminate; eauto;
    try (destruct H as (?&H1&H2); congruence).
Qed.
Lemma bind_Panic {A B} (m : res A) (k : A -> res B) :
  bind m k = Panic <-> m = Panic \/ exists a, m = Ok a /\ k a = Panic.
Proof.
  destruct m; cbn; split; intros H; try discriminate; eauto;
    try (destruct H as [H|(?&H1&H2)]; congruence).
Qed.
Lemma usub_ok p a b : b <= a -> usub p a b = Ok (a - b).
Proof. intros. unfold usub. replace (b <=? a) with true by lia. auto. Qed.
Lemma uadd_ok p a b : a + b < U64 -> uadd p a b = Ok (a + b).
Proof. intros. unfold uadd. replace (a + b <? U64) with true by lia. auto. Qed.
Lemma of_option_Ok {A} e (o : option A) a : of_option e o = Ok a <-> o = Some a.
Proof. destruct o; cbn; split; intros H; congruence. Qed.
Lemma map_err_Ok {A} f (m : res A) a : map_err f m = Ok a <-> m = Ok a.
Proof. destruct m; cbn; split; intros H; congruence. Qed.
Lemma map_err_Panic {A} f (m : res A) : map_err f m = Panic <-> m = Panic.
Proof. destruct m; cbn; split; intros H; congruence. Qed.
