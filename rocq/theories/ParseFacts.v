(** ParseFacts.v - facts about the reader (Utils.v) and its loops *)
From Verif Require Import Base BaseFacts Utils.

(** Bytes not yet read; the reader advanced by [n]; a reader whose position is
    inside its (addressable) buffer. *)
Definition rem (r : reader) : bytes := dropN (rpos r) (rdata r).
Definition adv (r : reader) (n : N) : reader := mkReader (rdata r) (rpos r + n).
Definition rwf (r : reader) : Prop := rpos r <= rlen r /\ rlen r < U64.

Lemma rwf_new d : len d < U64 -> rwf (new_reader d).
Proof. unfold rwf, new_reader, rlen; cbn; lia. Qed.
Lemma rem_new d : rem (new_reader d) = d.
Proof. unfold rem, new_reader; cbn. apply dropN_0. Qed.
Lemma len_rem r : len (rem r) = rlen r - rpos r.
Proof. unfold rem, rlen. apply len_dropN. Qed.
Lemma adv_0 r : adv r 0 = r.
Proof. unfold adv. rewrite N.add_0_r. destruct r; auto. Qed.
Lemma adv_adv r a b : adv (adv r a) b = adv r (a + b).
Proof. unfold adv; cbn. rewrite N.add_assoc; auto. Qed.
Lemma rdata_adv r n : rdata (adv r n) = rdata r. Proof. auto. Qed.
Lemma rpos_adv r n : rpos (adv r n) = rpos r + n. Proof. auto. Qed.
Lemma rlen_adv r n : rlen (adv r n) = rlen r. Proof. auto. Qed.
Lemma rem_adv r a b : rem r = a ++ b -> rem (adv r (len a)) = b.
Proof.
  unfold rem, adv; cbn. intros H. rewrite <- dropN_dropN, H. apply dropN_app.
Qed.
Lemma rem_adv_eq r a b n : rem r = a ++ b -> n = len a -> rem (adv r n) = b.
Proof. intros H ->; eapply rem_adv; eauto. Qed.
Lemma rem_le r a b : rwf r -> rem r = a ++ b -> rpos r + len a <= rlen r.
Proof. intros [H1 H2] H. apply (f_equal len) in H. rewrite len_rem, len_app in H. lia. Qed.
Lemma rwf_adv r a b : rwf r -> rem r = a ++ b -> rwf (adv r (len a)).
Proof. intros H H1. pose proof (rem_le _ _ _ H H1). destruct H. split; cbn; auto. Qed.
Lemma rwf_adv_eq r a b n : rwf r -> rem r = a ++ b -> n = len a -> rwf (adv r n).
Proof. intros H1 H2 ->; eapply rwf_adv; eauto. Qed.

Lemma get_to_ok r d rest :
  rwf r -> rem r = d ++ rest -> get_to r (len d) = Ok (d, adv r (len d)).
Proof.
  intros H H1. pose proof (rem_le _ _ _ H H1). unfold get_to.
  destruct H. replace (U64 <=? rpos r + len d) with false by lia.
  rewrite get_range_Some by (unfold rlen in *; lia).
  replace (rpos r + len d - rpos r) with (len d) by lia.
  fold (rem r). rewrite H1, takeN_app. reflexivity.
Qed.
Lemma get_to_inv r n d r' :
  rwf r -> get_to r n = Ok (d, r') ->
  r' = adv r n /\ len d = n /\ rem r = d ++ rem r' /\ rwf r'.
Proof.
  intros H H1. unfold get_to in H1.
  destruct (U64 <=? rpos r + n); [ discriminate | ].
  destruct (get_range (rdata r) (rpos r) (rpos r + n)) as [d'|] eqn:E; [ | discriminate ].
  injection H1 as -> <-.
  pose proof (get_range_len _ _ _ _ E).
  apply get_range_spec in E as (E1&E2&E3).
  assert (Hr : rem r = d ++ rem (adv r n)).
  { unfold rem, adv; cbn. rewrite <- dropN_dropN, E3.
    replace (rpos r + n - rpos r) with n by lia. rewrite take_drop. auto. }
  split; [ reflexivity | ]. split; [ lia | ]. split; [ exact Hr | ].
  destruct H. unfold rwf, rlen in *; cbn; lia.
Qed.
Lemma get_to_fail r n :
  rwf r -> ((exists e, get_to r n = Err e) <-> rlen r - rpos r < n).
Proof.
  intros [H0 H1]. unfold get_to, rlen in *. split.
  - intros (e&H). destruct (U64 <=? rpos r + n) eqn:E; [ lia | ].
    destruct (get_range (rdata r) (rpos r) (rpos r + n)) eqn:E1; [ discriminate | ].
    apply get_range_None in E1. lia.
  - intros H. destruct (U64 <=? rpos r + n) eqn:E; [ eauto | ].
    destruct (get_range (rdata r) (rpos r) (rpos r + n)) eqn:E1; [ | eauto ].
    apply get_range_spec in E1. lia.
Qed.
Lemma get_to_no_panic r n : get_to r n <> Panic.
Proof. unfold get_to. destruct (_ <=? _); [ discriminate | ]. destruct (get_range _ _ _); discriminate. Qed.

Lemma read_le_ok k r v rest :
  rwf r -> rem r = le k v ++ rest -> v < 256 ^ N.of_nat k ->
  read_le k r = Ok (v, adv r (N.of_nat k)).
Proof.
  intros H H1 Hv. pose proof (rem_le _ _ _ H H1) as Hl. rewrite len_le in Hl.
  unfold read_le. rewrite get_range_Some by (unfold rlen in *; lia).
  replace (rpos r + N.of_nat k - rpos r) with (N.of_nat k) by lia.
  fold (rem r). rewrite H1, takeN_app_eq by (rewrite len_le; auto).
  rewrite un_le_le, N.mod_small; auto.
Qed.
Lemma read_le_inv k r v r' :
  rwf r -> read_le k r = Ok (v, r') ->
  r' = adv r (N.of_nat k) /\ v < 256 ^ N.of_nat k /\ rem r = le k v ++ rem r' /\ rwf r'.
Proof.
  intros H H1. unfold read_le in H1.
  destruct (get_range (rdata r) (rpos r) (rpos r + N.of_nat k)) as [d|] eqn:E; [ | discriminate ].
  injection H1 as <- <-.
  pose proof (get_range_len _ _ _ _ E) as Hl.
  apply get_range_spec in E as (E1&E2&E3).
  assert (Hk : length d = k) by (unfold len in *; lia).
  assert (Hr : rem r = le k (un_le d) ++ rem (adv r (N.of_nat k))).
  { rewrite le_un_le' by auto.
    unfold rem, adv; cbn. rewrite <- dropN_dropN, E3.
    replace (rpos r + N.of_nat k - rpos r) with (N.of_nat k) by lia. rewrite take_drop. auto. }
  split; [ reflexivity | ]. split; [ | split; [ exact Hr | ] ].
  - pose proof (un_le_bound d) as Hb. unfold len in Hb. rewrite Hk in Hb. auto.
  - destruct H. unfold rwf, rlen in *; cbn; lia.
Qed.
Lemma read_le_fail k r : (exists e, read_le k r = Err e) <-> rlen r < rpos r + N.of_nat k.
Proof.
  unfold read_le, rlen. destruct (get_range (rdata r) (rpos r) (rpos r + N.of_nat k)) eqn:E.
  - apply get_range_spec in E. split; [ intros (?&?); discriminate | lia ].
  - apply get_range_None in E. split; [ lia | eauto ].
Qed.
Lemma read_le_no_panic k r : read_le k r <> Panic.
Proof. unfold read_le. destruct (get_range _ _ _); discriminate. Qed.

Lemma as_slice_ok r d rest :
  rwf r -> rem r = d ++ rest -> as_slice r (len d) = Ok (new_reader d, adv r (len d)).
Proof. intros. unfold as_slice. erewrite get_to_ok by eauto. reflexivity. Qed.
Lemma as_slice_inv r n s r' :
  rwf r -> as_slice r n = Ok (s, r') ->
  exists d, s = new_reader d /\ len d = n /\ r' = adv r n /\ rem r = d ++ rem r' /\ rwf r' /\ rwf s.
Proof.
  unfold as_slice. intros H H1. apply bind_Ok in H1 as ((d&r0)&H1&H2).
  injection H2 as <- <-. apply get_to_inv in H1 as (->&H1&H2&H3); auto.
  exists d. do 4 (split; [ auto; fail | ]). split; [ exact H3 | ]. split.
  - cbn; lia.
  - unfold rlen; cbn. destruct H. apply (f_equal len) in H2. rewrite len_rem, len_app in H2. lia.
Qed.

(** ** Parsers as grammars

    A relation [R x raw] between values and the byte strings that denote them.
    [accepts p R]: wherever the unread bytes start with some [raw] denoting
    [x], [p] returns [x] and stops right after [raw].
    [only p R]: whatever [p] returns, it consumed a [raw] that denotes it. *)
Definition accepts {A} (p : reader -> res (A * reader)) (R : A -> bytes -> Prop) : Prop :=
  forall x raw r rest, R x raw -> rwf r -> rem r = raw ++ rest -> p r = Ok (x, adv r (len raw)).
Definition only {A} (p : reader -> res (A * reader)) (R : A -> bytes -> Prop) : Prop :=
  forall r x r', rwf r -> p r = Ok (x, r') ->
    exists raw, R x raw /\ r' = adv r (len raw) /\ rem r = raw ++ rem r' /\ rwf r'.
Definition recognises {A} (p : reader -> res (A * reader)) (R : A -> bytes -> Prop) : Prop :=
  accepts p R /\ only p R.

Definition sumN {A} (f : A -> N) (l : list A) : N := fold_right (fun x acc => f x + acc) 0 l.

Lemma sumN_app {A} (f : A -> N) a b : sumN f (a ++ b) = sumN f a + sumN f b.
Proof. unfold sumN. induction a as [|x a IH]; cbn [app fold_right]; auto. rewrite IH. lia. Qed.
Lemma sumN_cons {A} (f : A -> N) x l : sumN f (x :: l) = f x + sumN f l.
Proof. reflexivity. Qed.
Lemma sumN_ext {A} (f g : A -> N) l : Forall (fun x => f x = g x) l -> sumN f l = sumN g l.
Proof. unfold sumN. induction 1; cbn; congruence. Qed.
Lemma sumN_map {A B} (f : B -> N) (g : A -> B) l : sumN f (map g l) = sumN (fun x => f (g x)) l.
Proof. unfold sumN. induction l; cbn; congruence. Qed.
Lemma fold_left_sumN {A} (f : A -> N) l : fold_left (fun acc x => acc + f x) l 0 = sumN f l.
Proof.
  induction l as [|x l IH]; cbn [fold_left sumN fold_right]; auto.
  rewrite fold_left_add. unfold sumN in *. lia.
Qed.
Lemma fold_left_sumN4 {A} (f : A -> N) l :
  fold_left (fun acc x => acc + f x + 4) l 0 = sumN (fun x => f x + 4) l.
Proof.
  rewrite <- fold_left_sumN. generalize 0. induction l as [|x l IH]; intros n; cbn; auto.
  rewrite IH. f_equal. lia.
Qed.
Lemma len_concat {A} (l : list (list A)) : len (concat l) = sumN len l.
Proof. unfold sumN. induction l; cbn [concat fold_right]; auto. rewrite len_app, IHl. auto. Qed.
Lemma len_flat_map {A B} (f : A -> list B) l : len (flat_map f l) = sumN (fun x => len (f x)) l.
Proof. unfold sumN. induction l; cbn [flat_map fold_right]; auto. rewrite len_app, IHl. auto. Qed.
Lemma sumN_ge_length {A} (f : A -> N) l : Forall (fun x => 1 <= f x) l -> len l <= sumN f l.
Proof.
  unfold sumN. induction 1; cbn [fold_right]; [ rewrite len_nil; lia | ].
  rewrite len_cons. lia.
Qed.
Lemma Forall2_length {A B} (R : A -> B -> Prop) xs ys : Forall2 R xs ys -> length xs = length ys.
Proof. induction 1; cbn; congruence. Qed.
Lemma Forall2_len {A B} (R : A -> B -> Prop) xs ys : Forall2 R xs ys -> len xs = len ys.
Proof. intros H. apply Forall2_length in H. unfold len. congruence. Qed.

(** When the loop [while pos < max] stops: the total reaches [max], and no
    shorter prefix does. *)
Fixpoint stops {A} (f : A -> N) (max : N) (xs : list A) : Prop :=
  match xs with
  | [] => max = 0
  | x :: r => 0 < max /\ stops f (max - f x) r
  end.

Lemma stops_sum {A} (f : A -> N) xs : forall max, stops f max xs -> max <= sumN f xs.
Proof.
  unfold sumN. induction xs as [|x xs IH]; intros max; cbn [stops fold_right].
  - lia.
  - intros [H1 H2]. apply IH in H2. lia.
Qed.
Lemma stops_exact {A} (f : A -> N) xs : Forall (fun x => 1 <= f x) xs -> stops f (sumN f xs) xs.
Proof.
  unfold sumN. induction 1; cbn [stops fold_right]; auto. split; [ lia | ].
  replace (f x + fold_right (fun x acc => f x + acc) 0 l - f x)
    with (fold_right (fun x acc => f x + acc) 0 l) by lia. auto.
Qed.
Lemma stops_map {A B} (f : B -> N) (g : A -> B) xs : forall max,
  stops f max (map g xs) <-> stops (fun x => f (g x)) max xs.
Proof. induction xs as [|x xs IH]; intros max; cbn; [ tauto | ]. rewrite IH. tauto. Qed.

Lemma parse_while_ok {A} (p : reader -> res (A * reader)) R (Hp : accepts p R) xs :
  forall raws r rest fuel max,
  Forall2 R xs raws -> rwf r -> rem r = concat raws ++ rest ->
  stops len (max - rpos r) raws -> (length xs <= fuel)%nat ->
  parse_while fuel p max r = Ok (xs, adv r (len (concat raws))).
Proof.
  induction xs as [|x xs IH]; intros raws r rest fuel max HF Hw Hr Hs Hf.
  - inversion HF; subst. cbn [concat stops] in *. rewrite len_nil, adv_0.
    destruct fuel; cbn [parse_while]; replace (rpos r <? max) with false by lia; auto.
  - inversion HF as [|? raw ? raws' HR HF']; subst.
    cbn [concat stops] in *. rewrite <- app_assoc in Hr. destruct Hs as [Hs1 Hs2].
    destruct fuel as [|fuel]; [ cbn in Hf; lia | ].
    cbn [parse_while]. rewrite len_app.
    replace (rpos r <? max) with true by lia.
    rewrite (Hp _ _ r _ HR Hw Hr). cbn [bind].
    rewrite (IH raws' (adv r (len raw)) rest); auto.
    + cbn [bind]. rewrite adv_adv. reflexivity.
    + eapply rwf_adv; eauto.
    + eapply rem_adv; eauto.
    + cbn. replace (max - (rpos r + len raw)) with (max - rpos r - len raw) by lia. auto.
    + cbn in Hf; lia.
Qed.

Lemma parse_while_inv {A} (p : reader -> res (A * reader)) R (Hp : only p R) fuel :
  forall r max xs r',
  rwf r -> parse_while fuel p max r = Ok (xs, r') ->
  exists raws, Forall2 R xs raws /\ r' = adv r (len (concat raws)) /\
    rem r = concat raws ++ rem r' /\ rwf r' /\ stops len (max - rpos r) raws.
Proof.
  assert (base : forall r max, rwf r -> (rpos r <? max) = false ->
    exists raws, Forall2 R [] raws /\ r = adv r (len (concat raws)) /\
    rem r = concat raws ++ rem r /\ rwf r /\ stops len (max - rpos r) raws).
  { intros r max Hw E. exists []. cbn [concat stops]. rewrite len_nil, adv_0.
    split; [ constructor | ]. split; [ auto | ]. split; [ auto | ]. split; [ auto | lia ]. }
  induction fuel as [|fuel IH]; intros r max xs r' Hw H; cbn [parse_while] in H.
  - destruct (rpos r <? max) eqn:E; [ discriminate | ]. injection H as <- <-. eauto.
  - destruct (rpos r <? max) eqn:E.
    + apply bind_Ok in H as ((x&r1)&H1&H2). apply bind_Ok in H2 as ((xs'&r2)&H2&H3).
      injection H3 as <- <-.
      apply Hp in H1 as (raw&HR&->&Hrem&Hw1); auto.
      apply IH in H2 as (raws&HF&->&Hrem2&Hw2&Hs); auto.
      exists (raw :: raws). cbn [concat stops]. rewrite len_app, adv_adv in *.
      split; [ constructor; auto | ]. split; [ auto | ].
      split; [ rewrite Hrem, Hrem2, app_assoc; auto | ]. split; [ auto | ].
      split; [ lia | ].
      cbn in Hs. replace (max - rpos r - len raw) with (max - (rpos r + len raw)) by lia. auto.
    + injection H as <- <-. eauto.
Qed.

Lemma loop_fuel_enough {A} (R : A -> bytes -> Prop) xs raws r rest :
  rwf r -> rem r = concat raws ++ rest -> Forall2 R xs raws ->
  (forall x raw, R x raw -> 1 <= len raw) ->
  (length xs <= loop_fuel r)%nat.
Proof.
  intros Hw Hr HF H1. unfold loop_fuel.
  pose proof (rem_le _ _ _ Hw Hr) as H. rewrite len_concat in H.
  assert (HF1 : Forall (fun x => 1 <= len x) raws) by (clear - HF H1; induction HF; constructor; eauto).
  apply (sumN_ge_length len) in HF1. apply Forall2_length in HF.
  set (S := sumN len raws) in *. clearbody S. unfold rlen, len, bytes in *. lia.
Qed.

(** ** No panic, and no out-of-fuel *)
Fixpoint is_fuel (e : err) : bool :=
  match e with
  | EFuel => true
  | EParsingFullBlock e | EExtractingValues e | EBlockCorrupted e | ECannotSignCorrupted e => is_fuel e
  | _ => false
  end.

(** The computation finished properly: a value or a genuine error. *)
Definition fine {A} (m : res A) : Prop :=
  match m with Ok _ => True | Err e => is_fuel e = false | Panic => False end.

Lemma fine_bind {A B} (m : res A) (k : A -> res B) :
  fine m -> (forall a, m = Ok a -> fine (k a)) -> fine (bind m k).
Proof. destruct m; cbn; auto. Qed.
Lemma fine_Ok {A} (a : A) : fine (Ok a). Proof. exact I. Qed.
Lemma fine_get_to r n : fine (get_to r n).
Proof. unfold get_to. destruct (_ <=? _); cbn; auto. destruct (get_range _ _ _); cbn; auto. Qed.
Lemma fine_read_le k r : fine (read_le k r).
Proof. unfold read_le. destruct (get_range _ _ _); cbn; auto. Qed.
Lemma fine_as_slice r n : fine (as_slice r n).
Proof. unfold as_slice. apply fine_bind; [ apply fine_get_to | intros [? ?] _; exact I ]. Qed.
Lemma fine_of_option {A} e (o : option A) : is_fuel e = false -> fine (of_option e o).
Proof. destruct o; cbn; auto. Qed.
Lemma fine_usub_release a b : fine (usub Release a b).
Proof. unfold usub. destruct (_ <=? _); cbn; auto. Qed.
Lemma fine_uadd_release a b : fine (uadd Release a b).
Proof. unfold uadd. destruct (_ <? _); cbn; auto. Qed.
Lemma fine_map_err {A} f (m : res A) :
  (forall e, is_fuel (f e) = is_fuel e) -> fine m -> fine (map_err f m).
Proof. intros Hf. destruct m; cbn; auto. rewrite Hf; auto. Qed.

Lemma fine_parse_while {A} (p : reader -> res (A * reader)) R :
  only p R -> (forall x raw, R x raw -> 1 <= len raw) ->
  (forall r, rwf r -> fine (p r)) ->
  forall fuel r max, rwf r -> (N.to_nat (rlen r - rpos r) < fuel)%nat ->
  fine (parse_while fuel p max r).
Proof.
  intros Hi Hl Hf fuel; induction fuel as [|fuel IH]; intros r max Hw Hfu; [ lia | ].
  cbn [parse_while]. destruct (rpos r <? max); [ | exact I ].
  apply fine_bind; auto. intros [x r1] H1.
  destruct (Hi _ _ _ Hw H1) as (raw&HR&->&Hr&Hw1).
  apply fine_bind.
  - apply IH; auto. specialize (Hl _ _ HR).
    pose proof (rem_le _ _ _ Hw Hr). rewrite rlen_adv, rpos_adv. lia.
  - intros [xs r2] _. exact I.
Qed.
Lemma fine_parse_loop {A} (p : reader -> res (A * reader)) R :
  only p R -> (forall x raw, R x raw -> 1 <= len raw) ->
  (forall r, rwf r -> fine (p r)) ->
  forall r max, rwf r -> fine (parse_while (loop_fuel r) p max r).
Proof.
  intros Hi Hl Hf r max Hw. eapply fine_parse_while; eauto.
  unfold loop_fuel, rlen, len. lia.
Qed.

(** A parser finished properly: a value or one of the parsers' own errors. *)
Definition is_leaf (e : err) : bool :=
  match e with
  | EOutOfBounds | EPosOverflow | EInvalidAttrSize | EUtf8 | EPairTooBig | EPairTooSmall => true
  | _ => false
  end.
Definition pfine {A} (m : res A) : Prop :=
  match m with Ok _ => True | Err e => is_leaf e = true | Panic => False end.

Lemma pfine_bind {A B} (m : res A) (k : A -> res B) :
  pfine m -> (forall a, m = Ok a -> pfine (k a)) -> pfine (bind m k).
Proof. destruct m; cbn; auto. Qed.
Lemma pfine_Ok {A} (a : A) : pfine (Ok a). Proof. exact I. Qed.
Lemma pfine_get_to r n : pfine (get_to r n).
Proof. unfold get_to. destruct (_ <=? _); cbn; auto. destruct (get_range _ _ _); cbn; auto. Qed.
Lemma pfine_read_le k r : pfine (read_le k r).
Proof. unfold read_le. destruct (get_range _ _ _); cbn; auto. Qed.
Lemma pfine_as_slice r n : pfine (as_slice r n).
Proof. unfold as_slice. apply pfine_bind; [ apply pfine_get_to | intros [? ?] _; exact I ]. Qed.
Lemma pfine_of_option {A} e (o : option A) : is_leaf e = true -> pfine (of_option e o).
Proof. destruct o; cbn; auto. Qed.

Lemma pfine_parse_while {A} (p : reader -> res (A * reader)) R :
  only p R -> (forall x raw, R x raw -> 1 <= len raw) ->
  (forall r, rwf r -> pfine (p r)) ->
  forall fuel r max, rwf r -> (N.to_nat (rlen r - rpos r) < fuel)%nat ->
  pfine (parse_while fuel p max r).
Proof.
  intros Hi Hl Hf fuel; induction fuel as [|fuel IH]; intros r max Hw Hfu; [ lia | ].
  cbn [parse_while]. destruct (rpos r <? max); [ | exact I ].
  apply pfine_bind; auto. intros [x r1] H1.
  destruct (Hi _ _ _ Hw H1) as (raw&HR&->&Hr&Hw1).
  apply pfine_bind.
  - apply IH; auto. specialize (Hl _ _ HR).
    pose proof (rem_le _ _ _ Hw Hr). rewrite rlen_adv, rpos_adv. lia.
  - intros [xs r2] _. exact I.
Qed.
Lemma pfine_parse_loop {A} (p : reader -> res (A * reader)) R :
  only p R -> (forall x raw, R x raw -> 1 <= len raw) ->
  (forall r, rwf r -> pfine (p r)) ->
  forall r max, rwf r -> pfine (parse_while (loop_fuel r) p max r).
Proof.
  intros Hi Hl Hf r max Hw. eapply pfine_parse_while; eauto.
  unfold loop_fuel, rlen, len. lia.
Qed.

Lemma pfine_fine {A} (m : res A) : pfine m -> fine m.
Proof. destruct m as [a|e|]; cbn; auto. destruct e; cbn; auto; discriminate. Qed.
