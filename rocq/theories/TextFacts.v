(** TextFacts.v - the text of the commands and its lines. *)
From Coq Require Import Strings.String Lia.
From Verif Require Import Base BaseFacts Utils Algorithms Common Utf8 ElfInfo SigningBlock Zip Digest Module Signable Signer Verifier Keystore Elf
  ElfSpec Cli CliSpec Print PrintFacts InfoPrint InfoFacts SignPrint SignPrintSpec SignPrintFacts SignPrintFacts2 OptionFacts Main MainSpec Text TextSpec DecFacts.
Open Scope N_scope.
Open Scope list_scope.

(** * Lines of a text *)
Lemma one_line_app a b : one_line (a ++ b) <-> one_line a /\ one_line b.
Proof. unfold one_line. rewrite in_app_iff. tauto. Qed.
Lemma one_line_nil : one_line [].
Proof. intros []. Qed.
Lemma one_line_cons x l : one_line (x :: l) <-> x <> x0a /\ one_line l.
Proof. unfold one_line. cbn. intuition congruence. Qed.
Definition no_feed (t : bytes) : bool := forallb (fun b => negb (Byte.eqb b x0a)) t.
Lemma no_feed_ok t : no_feed t = true -> one_line t.
Proof.
  unfold no_feed. rewrite forallb_forall. intros H I. apply H in I. cbn in I. discriminate.
Qed.

Lemma text_has {A} (render : nat -> A -> bytes) keep l : forall i j x, nth_error l j = Some x -> keep x = true ->
  has_line (text_of render keep i l) (render (i + j)%nat x).
Proof.
  induction l as [|y l IH]; intros i j x H K; [destruct j; discriminate|]. cbn [text_of]. destruct j as [|j].
  - cbn in H. injection H as ->. rewrite K, Nat.add_0_r. exists [], (text_of render keep (S i) l). split; [|now left].
    now rewrite <- app_assoc.
  - cbn in H. destruct (IH (S i) j x H K) as (a & b & E & C). replace (i + S j)%nat with (S i + j)%nat by lia.
    exists ((if keep y then render i y ++ [x0a] else []) ++ a), b. split; [rewrite E; now rewrite <- app_assoc|].
    destruct C as [->|(a' & ->)].
    + rewrite app_nil_r. destruct (keep y); [right; eauto|now left].
    + right. exists ((if keep y then render i y ++ [x0a] else []) ++ a'). now rewrite app_assoc.
Qed.

Lemma first_feed a b c d : one_line a -> one_line c -> a ++ x0a :: b = c ++ x0a :: d -> a = c /\ b = d.
Proof.
  revert c. induction a as [|x a IH]; intros c H1 H2 E; destruct c as [|y c]; cbn in E.
  - injection E as E. auto.
  - injection E as <- _. exfalso. apply H2. now left.
  - injection E as -> _. exfalso. apply H1. now left.
  - injection E as -> E. apply one_line_cons in H1, H2. destruct (IH c) as [-> ->]; tauto.
Qed.

Lemma line_of_text {A} (render : nat -> A -> bytes) keep l : forall i t, one_line t ->
  (forall j x, nth_error l j = Some x -> keep x = true -> one_line (render (i + j)%nat x)) ->
  has_line (text_of render keep i l) t -> exists j x, nth_error l j = Some x /\ keep x = true /\ render (i + j)%nat x = t.
Proof.
  induction l as [|y l IH]; intros i t O F (a & b & E & C); cbn [text_of] in E.
  { destruct a; [destruct t|]; discriminate. }
  assert (F' : forall j x, nth_error l j = Some x -> keep x = true -> one_line (render (S i + j)%nat x)).
  { intros j x H K. replace (S i + j)%nat with (i + S j)%nat by lia. now apply F. }
  assert (next : has_line (text_of render keep (S i) l) t -> exists j x, nth_error (y :: l) j = Some x /\ keep x = true /\ render (i + j)%nat x = t).
  { intros H. destruct (IH (S i) t O F' H) as (j & x & H1 & H2 & H3). exists (S j), x. split; [exact H1|]. split; [exact H2|].
    now replace (i + S j)%nat with (S i + j)%nat by lia. }
  destruct (keep y) eqn:K; [|apply next; exists a, b; auto].
  assert (Fy : one_line (render i y)). { pose proof (F 0%nat y eq_refl K) as G. now rewrite Nat.add_0_r in G. }
  rewrite <- app_assoc in E. cbn [app] in E.
  assert (S : a = [] \/ exists r, a = render i y ++ x0a :: r).
  { destruct C as [->|(a' & ->)]; [now left|right]. rewrite <- app_assoc in E. cbn [app] in E.
    clear - E Fy. revert a' E. generalize (render i y) Fy. intros u. induction u as [|x u IH]; intros O a' E.
    - destruct a' as [|z a']; [now exists []|]. cbn in E. injection E as <- _. exists (a' ++ [x0a]). reflexivity.
    - destruct a' as [|z a']; cbn in E; injection E as -> E.
      + exfalso. apply O. now left.
      + apply one_line_cons in O. destruct (IH (proj2 O) a' E) as (r & R). exists r. cbn. now rewrite R. }
  destruct S as [->|(r & ->)].
  - cbn [app] in E. apply first_feed in E as [E _]; [|exact Fy|exact O]. exists 0%nat, y. rewrite Nat.add_0_r. auto.
  - rewrite <- app_assoc in E. cbn [app] in E. apply app_inv_head in E. injection E as E. apply next. exists r, b. split; [exact E|].
    destruct C as [C|(a' & C)]; [now destruct (render i y)|].
    destruct r as [|z r] using rev_ind; [now left|right]. exists r. f_equal.
    rewrite app_comm_cons, app_assoc in C. apply app_inj_tail in C as [_ ->]. reflexivity.
Qed.

Lemma line_iff {A} (render : nat -> A -> bytes) keep l x t : one_line t -> keep x = true ->
  (forall j y, nth_error l j = Some y -> keep y = true -> one_line (render j y)) ->
  (forall j, render j x = t) -> (forall j y, keep y = true -> render j y = t -> y = x) ->
  has_line (text_of render keep 0 l) t <-> In x l.
Proof.
  intros O K F R U. split.
  - intros H. apply line_of_text in H as (j & y & H1 & H2 & H3); [|exact O|exact F]. apply U in H3; [|exact H2]. subst y.
    now apply nth_error_In in H1.
  - intros H. apply In_nth_error in H as (j & H). pose proof (text_has render keep l 0 j x H K) as G. now rewrite R in G.
Qed.

(** * The parts of a line *)
Lemma dec_one_line n : one_line (dec n).
Proof. unfold dec. induction (N.to_uint n) as [|u IH|u IH|u IH|u IH|u IH|u IH|u IH|u IH|u IH|u IH]; cbn [dec_digits]; [intros []|..]; intros [H|H]; (discriminate || exact (IH H)). Qed.
Lemma hex_one_line n : one_line (hex n).
Proof.
  unfold hex. induction (N.to_hex_uint n); cbn [hex_digits]; [intros []|..]; intros [H|H]; try discriminate; auto.
Qed.
Lemma blanks_one_line n : one_line (repeat x20 n).
Proof. intros H. apply repeat_spec in H. discriminate. Qed.
Lemma zeros_one_line n : one_line (repeat x30 n).
Proof. intros H. apply repeat_spec in H. discriminate. Qed.
Lemma hex_width_one_line w n : one_line (hex_width w n).
Proof. unfold hex_width. apply one_line_app. split; [apply zeros_one_line|apply hex_one_line]. Qed.
Lemma yesno_one_line b : one_line (yesno b).
Proof. destruct b; apply no_feed_ok; vm_compute; reflexivity. Qed.
Lemma join_one_line sep l : one_line sep -> Forall one_line l -> one_line (join sep l).
Proof.
  intros S. induction 1 as [|x l H F IH]; [intros []|]. cbn. destruct l; [exact H|]. apply one_line_app. split; [exact H|].
  apply one_line_app. now split.
Qed.
Ltac literal := apply no_feed_ok; vm_compute; reflexivity.
Ltac pieces := repeat match goal with
  | |- one_line (_ ++ _) => apply one_line_app; split
  | |- one_line (bstr _) => literal
  | |- one_line [] => apply one_line_nil
  | |- one_line (dec _) => apply dec_one_line
  | |- one_line (hex _) => apply hex_one_line
  | |- one_line (hex_width _ _) => apply hex_width_one_line
  | |- one_line (yesno _) => apply yesno_one_line
  | |- one_line (blanks _) => apply blanks_one_line
  | T : tame ?t |- one_line (tx_message ?t _) => apply (tame_message _ T)
  end.
Lemma algo_one_line a : one_line (algo_text a).
Proof. unfold algo_text. destruct a; pieces. Qed.
Lemma describe_one_line T c : tame T -> one_line (describe_certificate T c).
Proof.
  intros H. unfold describe_certificate. destruct (tx_x509 T c) as [[[[s i] b] a]|] eqn:E; [|pieces].
  destruct (tame_x509 T H _ _ _ _ _ E) as (? & ? & ? & ?). pieces; assumption.
Qed.
Lemma certificate_one_line T c : tame T -> one_line (certificate_text T c).
Proof. intros H. unfold certificate_text. pieces. now apply describe_one_line. Qed.
Lemma chain_one_line T i c : tame T -> one_line (chain_text T i c).
Proof. intros H. unfold chain_text. pieces. now apply certificate_one_line. Qed.
Lemma warning_one_line T i w : tame T -> one_line (warning_text T i w).
Proof. intros H. destruct w; cbn [warning_text]; pieces. apply algo_one_line. Qed.
Lemma numbered_one_line T i n w : tame T -> one_line (numbered_warning T i n w).
Proof. intros H. unfold numbered_warning. destruct n; pieces; now apply warning_one_line. Qed.
Lemma signer_error_one_line T i b e : tame T -> one_line (signer_error_text T i b e).
Proof. intros H. destruct e, b; cbn [signer_error_text]; pieces. Qed.
Lemma verify_error_one_line T i b e : tame T -> one_line (verify_error_text T i b e).
Proof.
  intros H. destruct e; cbn [verify_error_text]; pieces. apply join_one_line; [literal|]. apply Forall_forall. intros x I.
  apply in_map_iff in I as (e & <- & _). now apply signer_error_one_line.
Qed.
Lemma reasons_one_line l : one_line (join (bstr ", ") (map reason_text l)).
Proof.
  apply join_one_line; [literal|]. apply Forall_forall. intros x I. apply in_map_iff in I as (f & <- & _). destruct f; literal.
Qed.

Definition shown_path (l : line) : option Cli.path := match l with LFile p | LCustomRoot p => Some p | _ => None end.
Lemma verify_line_one T i x : tame T ->
  (forall p, shown_path (match x with Out l | Errs l => l end) = Some p -> one_line (tx_path T p)) -> one_line (verify_line T i x).
Proof.
  intros H P. unfold verify_line. destruct x as [l|l]; destruct l; cbn [shown_path] in P; pieces;
    try (now apply P); try (now apply signer_error_one_line); try (now apply verify_error_one_line); try (now apply certificate_one_line);
    try (now apply chain_one_line); try (now apply numbered_one_line); try apply reasons_one_line;
    try (match goal with |- one_line (field_name ?f) => destruct f; literal | |- one_line (algo_name ?a) => destruct a; [literal|literal|apply one_line_nil] end).
  all: try (destruct (level =? 2)); try (destruct (level =? 4)); literal.
Qed.

(** * verify *)
Lemma wbind_forall {A B} (P : said -> Prop) (m : list said * res A) (k : A -> list said * res B) :
  Forall P (fst m) -> (forall a, Forall P (fst (k a))) -> Forall P (fst (wbind m k)).
Proof. destruct m as [l [a|e|]]; cbn; intros H K; [apply Forall_app; auto|exact H|exact H]. Qed.
Definition line_in (x : said) : line := match x with Out l | Errs l => l end.
Definition no_path (x : said) : Prop := shown_path (line_in x) = None.
Lemma no_path_digest verbose p C ds m f a ctx : Forall no_path (fst (out_digest verbose p C ds m f a ctx)).
Proof. unfold out_digest. destruct (m_digest _ _ _ _ _ _), verbose; cbn; repeat constructor. Qed.
Lemma no_path_map {A} (g : A -> said) l : (forall x, no_path (g x)) -> Forall no_path (map g l).
Proof. intros H. apply Forall_forall. intros x I. apply in_map_iff in I as (y & <- & _). apply H. Qed.
Lemma no_path_flat {A} (g : A -> list said) l : (forall x, Forall no_path (g x)) -> Forall no_path (flat_map g l).
Proof. intros H. apply Forall_flat_map. apply Forall_forall. auto. Qed.
Lemma no_path_when b l : Forall no_path l -> Forall no_path (when b l).
Proof. destruct b; cbn; auto. Qed.
Ltac no_paths := repeat match goal with
  | |- Forall no_path (_ ++ _) => apply Forall_app; split
  | |- Forall no_path (_ :: _) => constructor; [reflexivity|]
  | |- Forall no_path [] => constructor
  | |- Forall no_path (when _ _) => apply no_path_when
  | |- Forall no_path (map _ _) => apply no_path_map; intros ?; reflexivity
  | |- Forall no_path (flat_map _ _) => apply no_path_flat; intros ?
  | |- Forall no_path (match ?o with Some _ => _ | None => _ end) => destruct o
  | |- Forall no_path (if ?o then _ else _) => destruct o
  | |- Forall no_path (fst (if ?o then _ else _)) => destruct o
  | |- Forall no_path (fst (_, _)) => cbn [fst]
  end.
Lemma no_path_v2_result v : Forall no_path (fst (out_v2_result v)).
Proof. destruct v as [r|[| |]]; cbn [out_v2_result]; no_paths. Qed.
Lemma no_path_v2 verbose v : Forall no_path (fst (out_v2 verbose v)).
Proof. destruct v as [r|]; cbn [out_v2]; cbv zeta; no_paths; unfold out_signer; no_paths. Qed.
Lemma no_path_stamp v : Forall no_path (fst (out_stamp v)).
Proof. destruct v as [r|[| |]]; cbn [out_stamp]; no_paths. Qed.
Lemma no_path_end v b : Forall no_path (fst (out_end v b)).
Proof. destruct v as [r|]; cbn [out_end]; no_paths. Qed.

Lemma verify_paths verbose p C K builtin now ds s file root :
  Forall (fun x => forall q, shown_path (line_in x) = Some q -> In q (file :: optional root))
    (fst (verify_prints verbose p C K builtin now ds s file root)).
Proof.
  set (P := fun x => forall q, shown_path (line_in x) = Some q -> In q (file :: optional root)).
  assert (W : forall l, Forall no_path l -> Forall P l).
  { intros l H. eapply Forall_impl; [|exact H]. intros x E q Q. unfold no_path in E. congruence. }
  unfold verify_prints.
  repeat (apply wbind_forall; [|intros ?]).
  - cbn. constructor; [intros q Q; discriminate|]. constructor; [|constructor; [intros q Q; discriminate|constructor]].
    intros q Q. cbn in Q. injection Q as <-. now left.
  - constructor.
  - constructor.
  - apply W. repeat constructor.
  - constructor.
  - destruct root as [r|]; cbn; constructor; [|constructor]. intros q Q. cbn in Q. injection Q as <-. right. now left.
  - apply W, no_path_digest.
  - apply W, no_path_digest.
  - apply W. match goal with |- Forall no_path (fst (match ?x with [] => _ | _ :: _ => _ end)) => destruct x end; [repeat constructor|].
    cbv zeta. repeat (apply wbind_forall; [|intros ?]).
    + repeat constructor.
    + apply no_path_v2_result.
    + apply no_path_v2.
    + apply no_path_stamp.
    + apply no_path_end.
Qed.

Lemma verify_one_lines T verbose p C K builtin now ds s file root j y : tame T ->
  Forall (fun q => one_line (tx_path T q)) (file :: optional root) ->
  nth_error (fst (verify_prints verbose p C K builtin now ds s file root)) j = Some y -> one_line (verify_line T j y).
Proof.
  intros H F E. apply verify_line_one; [exact H|]. intros q Q. apply nth_error_In in E.
  pose proof (proj1 (Forall_forall _ _) (verify_paths verbose p C K builtin now ds s file root) _ E q Q) as I.
  exact (proj1 (Forall_forall _ _) F q I).
Qed.

(** The wording determines the line. *)
Fixpoint strip (t : bytes) : bytes := match t with x20 :: t => strip t | _ => t end.
Fixpoint starts (h t : bytes) : bool :=
  match h, t with [], _ => true | x :: h, y :: t => Byte.eqb x y && starts h t | _ :: _, [] => false end.
Lemma strip_blanks n t : strip (repeat x20 n ++ t) = strip t.
Proof. induction n; cbn; auto. Qed.
Lemma strip_app h t : strip h <> [] -> strip (h ++ t) = strip h ++ t.
Proof. induction h as [|x h IH]; [easy|]. destruct x; cbn [strip app]; auto. Qed.
Lemma starts_app h t : starts h (h ++ t) = true.
Proof. induction h as [|x h IH]; [reflexivity|]. cbn. rewrite IH. now destruct x. Qed.
Lemma begins n h X t : repeat x20 n ++ h ++ X = t -> strip h <> [] -> starts (strip h) (strip t) = true.
Proof. intros <- H. rewrite strip_blanks, strip_app by exact H. apply starts_app. Qed.
Definition candidates {A} (h : bytes) (l : list (A * string)) : list (A * string) :=
  filter (fun e => starts (strip h) (strip (bstr (snd e)))) l.
Lemma candidate {A} (w : list (A * string)) n h X l t : In (l, t) w -> repeat x20 n ++ h ++ X = bstr t -> strip h <> [] -> In (l, t) (candidates h w).
Proof. intros I E H. apply filter_In. split; [exact I|]. now apply (begins n h X). Qed.
Lemma candidate0 {A} (w : list (A * string)) h X l t : In (l, t) w -> h ++ X = bstr t -> strip h <> [] -> In (l, t) (candidates h w).
Proof. intros I E H. now apply (candidate w 0 h X). Qed.
Lemma candidate1 {A} (w : list (A * string)) h l t : In (l, t) w -> h = bstr t -> strip h <> [] -> In (l, t) (candidates h w).
Proof. intros I E H. apply (candidate0 w h [] l t I); [now rewrite app_nil_r|exact H]. Qed.
Ltac narrow I E :=
  match type of E with
  | repeat x20 ?n ++ ?h ++ ?X = bstr ?t => apply (candidate _ n h X _ _) in I; [|exact E|vm_compute; discriminate]
  | ?h ++ ?X = bstr ?t => apply (candidate0 _ h X _ _) in I; [|exact E|vm_compute; discriminate]
  | ?h = bstr ?t => apply (candidate1 _ h _ _) in I; [|exact E|vm_compute; discriminate]
  end;
  vm_compute in I.
Ltac crunch H := cbv -[dec hex hex_width tx_message tx_path certificate_text chain_text describe_certificate signer_error_text verify_error_text join
                       algo_text N.to_nat repeat] in H.
Ltac options I E :=
  repeat (destruct I as [I|I]; [injection I as <- <-; first [reflexivity | exfalso; crunch E; discriminate E | idtac]|]); try destruct I.
Lemma to_nat_is n k : N.to_nat n = k -> n = N.of_nat k.
Proof. lia. Qed.
Lemma verify_word T j l l' t : In (l, t) verify_wording -> verify_line T j (Out l') = bstr t -> l' = l.
Proof.
  intros I E. destruct l'; cbn [verify_line] in E; unfold blanks, algo_name, numbered_warning, field_name, yesno in E.
  all: try match goal with a : algorithms |- _ => destruct a end.
  all: try match goal with f : field, b : bool |- _ => destruct f, b end.
  all: try match goal with |- context [LCertificate ?n] => destruct (n =? 2) end.
  all: try match goal with |- LWarnings _ = _ => rewrite <- (app_nil_r (bstr "Warnings:")) in E end.
  all: try match goal with |- LBlank = _ => unfold verify_wording in I; cbn [In] in I; options I E end.
  all: try (narrow I E; options I E).
  all: try match goal with w : warning, o : option N |- _ => destruct w, o; cbn [warning_text] in E end.
  all: remember (N.to_nat level) as k eqn:K; symmetry in K; apply to_nat_is in K; subst level; destruct k as [|[|[|[|[|[|[|k]]]]]]].
  all: first [reflexivity | exfalso; crunch E; discriminate E].
Qed.
Lemma verify_wording_render T j l t : In (l, t) verify_wording -> verify_line T j (Out l) = bstr t.
Proof.
  intros I. unfold verify_wording in I. cbn [In] in I. repeat (destruct I as [I|I]; [injection I as <- <-; vm_compute; reflexivity|]). destruct I.
Qed.
Lemma wording_one_line {A} (w : list (A * string)) : forallb (fun e => no_feed (bstr (snd e))) w = true -> forall l t, In (l, t) w -> one_line (bstr t).
Proof. intros H l t I. rewrite forallb_forall in H. exact (no_feed_ok _ (H _ I)). Qed.
Lemma verify_text_lines T verbose p C K builtin now ds s file root l t : tame T ->
  Forall (fun q => one_line (tx_path T q)) (file :: optional root) -> In (l, t) verify_wording ->
  has_line (text_of (verify_line T) said_out 0 (fst (verify_prints verbose p C K builtin now ds s file root))) (bstr t) <->
  In (Out l) (fst (verify_prints verbose p C K builtin now ds s file root)).
Proof.
  intros H F I. apply line_iff; [|reflexivity|..].
  - apply (wording_one_line verify_wording) with (l := l); [vm_compute; reflexivity|exact I].
  - intros j y E _. now apply (verify_one_lines T verbose p C K builtin now ds s file root).
  - intros j. now apply verify_wording_render.
  - intros j [y|y] K' E; [|discriminate]. f_equal. now apply (verify_word T j l y t).
Qed.

(** * info *)
Definition ishown (l : iline) : option Cli.path := match l with IFile p => Some p | _ => None end.
Definition iline_in (x : isaid) : iline := match x with IOut l | IErr l => l end.
Lemma info_line_one T i x : tame T -> (forall p, ishown (iline_in x) = Some p -> one_line (tx_path T p)) -> one_line (info_line T i x).
Proof.
  intros H P. unfold info_line. destruct x as [l|l]; destruct l; cbn [ishown iline_in] in P; pieces;
    try (now apply P); try (now apply verify_error_one_line); try (now apply certificate_one_line);
    try (now apply chain_one_line); try (now apply numbered_one_line);
    match goal with |- one_line (info_field_name ?f) => destruct f; literal end.
Qed.
Definition ino_path (x : isaid) : Prop := ishown (iline_in x) = None.
Lemma ino_map {A} (g : A -> isaid) l : (forall x, ino_path (g x)) -> Forall ino_path (map g l).
Proof. intros H. apply Forall_forall. intros x I. apply in_map_iff in I as (y & <- & _). apply H. Qed.
Ltac ino := repeat match goal with
  | |- Forall ino_path (_ ++ _) => apply Forall_app; split
  | |- Forall ino_path (_ :: _) => constructor; [reflexivity|]
  | |- Forall ino_path [] => constructor
  | |- Forall ino_path (map _ _) => apply ino_map; intros ?
  | |- Forall ino_path (match ?o with Some _ => _ | None => _ end) => destruct o
  | |- Forall ino_path (match ?o with VOk _ => _ | VErr _ => _ end) => destruct o
  | |- Forall ino_path (if ?o then _ else _) => destruct o
  end.
Lemma info_paths p C K builtin now s file :
  Forall (fun x => forall q, ishown (iline_in x) = Some q -> q = file) (fst (info_prints p C K builtin now s file)).
Proof.
  assert (W : forall l, Forall ino_path l -> Forall (fun x => forall q, ishown (iline_in x) = Some q -> q = file) (IOut (IFile file) :: l)).
  { intros l H. constructor; [intros q E; cbn in E; congruence|]. eapply Forall_impl; [|exact H]. intros x E q Q. unfold ino_path in E. congruence. }
  unfold info_prints. destruct (fs_read s file) as [f|]; [|constructor]. cbv zeta.
  destruct (from_reader p f (len f) 0) as [b|e|]; cbn [fst app]; try (apply W; ino; fail).
  destruct (uadd p (bk_size_start b) 8); cbn [fst app]; apply W; ino.
  - destruct x; reflexivity.
  - unfold info_v2; ino; reflexivity.
  - unfold info_stamp; ino; reflexivity.
Qed.
Lemma info_word T j l l' t : In (l, t) info_wording -> info_line T j (IOut l') = bstr t -> l' = l.
Proof.
  intros I E. destruct l'; cbn [info_line] in E; unfold info_field_name, numbered_warning, field_name, yesno in E.
  all: try match goal with f : field, b : bool |- _ => destruct f, b end.
  all: try match goal with |- IBlank = _ => unfold info_wording in I; cbn [In] in I; options I E end.
  all: try match type of E with bstr ?x ++ bstr ?y ++ ?r = _ => change (bstr x ++ bstr y ++ r) with ((bstr x ++ bstr y) ++ r) in E end.
  all: try (narrow I E; options I E).
  destruct (dec_head n) as (d & r & D & D'). rewrite D in E. exfalso. crunch E. injection E as ->. discriminate D'.
Qed.
