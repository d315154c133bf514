(** ElfFacts.v - facts about the ELF model: codecs, name tables, the layout of
    a written file. *)
From Verif Require Import Base BaseFacts Algorithms Utf8 SigningBlock Digest Signable Elf.
Open Scope N_scope.

(** * Integers and fields *)
Lemma len_enc e k n : len (enc e k n) = N.of_nat k.
Proof. destruct e; cbn; [|rewrite len_rev]; apply len_le. Qed.
Lemma length_enc e k n : length (enc e k n) = k.
Proof. destruct e; cbn; [|rewrite rev_length]; apply length_le. Qed.
Lemma dec_enc e k n : n < 256 ^ N.of_nat k -> dec e (enc e k n) = n.
Proof. intros H. destruct e; cbn; rewrite ?rev_involutive, un_le_le; now apply N.mod_small. Qed.
Lemma dec_bound e b : dec e b < 256 ^ len b.
Proof. destruct e; cbn; [|rewrite <- len_rev]; apply un_le_bound. Qed.
Lemma enc_dec e k b : length b = k -> enc e k (dec e b) = b.
Proof.
  intros H. destruct e; cbn; [now apply le_un_le'|].
  rewrite le_un_le' by (rewrite rev_length; exact H). apply rev_involutive.
Qed.

Definition fits (ws : list nat) (vs : list N) : Prop := Forall2 (fun w v => v < 256 ^ N.of_nat w) ws vs.
Fixpoint total (ws : list nat) : nat := match ws with [] => O | w :: r => (w + total r)%nat end.

Lemma length_enc_fields e ws vs : length ws = length vs -> length (enc_fields e ws vs) = total ws.
Proof.
  revert vs. induction ws as [|w ws IH]; intros [|v vs] H; try discriminate; [reflexivity|].
  cbn. rewrite app_length, length_enc. f_equal. apply IH. now injection H.
Qed.
Lemma dec_enc_fields e ws vs r : fits ws vs -> dec_fields e ws (enc_fields e ws vs ++ r) = vs.
Proof.
  intros H. induction H as [|w v ws vs Hv H IH]; [reflexivity|]. cbn. rewrite <- app_assoc.
  rewrite firstn_app, length_enc, Nat.sub_diag, firstn_O, app_nil_r.
  rewrite firstn_all2 by (rewrite length_enc; auto). rewrite dec_enc by auto.
  rewrite skipn_app, length_enc, Nat.sub_diag. rewrite skipn_all2 by (rewrite length_enc; auto).
  cbn [skipn app]. now rewrite IH.
Qed.
Lemma fits_dec e ws b : fits ws (dec_fields e ws b).
Proof.
  revert b. induction ws as [|w ws IH]; intros b; cbn; constructor; [|apply IH].
  eapply N.lt_le_trans; [apply dec_bound|]. apply N.pow_le_mono_r; [lia|].
  unfold len. rewrite firstn_length. lia.
Qed.
Lemma length_dec e ws b : length (dec_fields e ws b) = length ws.
Proof. revert b. induction ws; intros; cbn; auto. Qed.
Lemma enc_dec_fields e ws b : (total ws <= length b)%nat ->
  enc_fields e ws (dec_fields e ws b) = firstn (total ws) b.
Proof.
  revert b. induction ws as [|w ws IH]; intros b H; cbn in *; [reflexivity|].
  rewrite enc_dec by (rewrite firstn_length; lia).
  rewrite IH by (rewrite skipn_length; lia).
  rewrite <- (firstn_skipn w (firstn (w + total ws) b)). rewrite firstn_firstn, skipn_firstn_comm.
  replace (Nat.min w (w + total ws)) with w by lia. replace (w + total ws - w)%nat with (total ws) by lia.
  reflexivity.
Qed.

Lemma Forall2_cons_inv {A B} (R : A -> B -> Prop) a l b m : Forall2 R (a :: l) (b :: m) -> R a b /\ Forall2 R l m.
Proof. now inversion 1. Qed.

(** * Header *)
Definition ehdr_ok (x : elf_ctx) (h : elf_header) : Prop :=
  len (eh_ident h) = 16 /\ ident_ctx (eh_ident h) = Some x /\
  fits (ehdr_widths (cx_class x)) (ehdr_fields h).
Lemma ehdr_total c : total (ehdr_widths c) = N.to_nat (ehdr_size c - 16).
Proof. destruct c; reflexivity. Qed.
Lemma ehdr_of_to ident h : eh_ident h = ident -> ehdr_of_fields ident (ehdr_fields h) = h.
Proof. intros <-. now destruct h. Qed.
Lemma ehdr_to_of ident l : length l = 13%nat -> ehdr_fields (ehdr_of_fields ident l) = l.
Proof. intros H. do 13 (destruct l as [|? l]; [discriminate|]). destruct l; [reflexivity|discriminate]. Qed.
Lemma len_ehdr x h : len (eh_ident h) = 16 -> len (ehdr_to_u8 x h) = ehdr_size (cx_class x).
Proof.
  intros H. unfold ehdr_to_u8. rewrite len_app, H. unfold len.
  rewrite length_enc_fields by (destruct (cx_class x); reflexivity).
  destruct (cx_class x); reflexivity.
Qed.
Lemma parse_ehdr_app x h r : ehdr_ok x h -> parse_ehdr (ehdr_to_u8 x h ++ r) = Some (x, h).
Proof.
  intros (H1 & H2 & H3). unfold parse_ehdr.
  assert (L : len (ehdr_to_u8 x h ++ r) = ehdr_size (cx_class x) + len r) by (rewrite len_app, len_ehdr; auto).
  assert (16 <= ehdr_size (cx_class x)) by (destruct (cx_class x); cbn; lia).
  replace (len (ehdr_to_u8 x h ++ r) <? 16) with false by (symmetry; apply N.ltb_ge; lia).
  assert (T : takeN 16 (ehdr_to_u8 x h ++ r) = eh_ident h).
  { unfold ehdr_to_u8. rewrite <- app_assoc. now apply takeN_app_eq. }
  rewrite T, H2.
  replace (len (ehdr_to_u8 x h ++ r) <? ehdr_size (cx_class x)) with false by (symmetry; apply N.ltb_ge; lia).
  assert (D : dropN 16 (ehdr_to_u8 x h ++ r) =
     enc_fields (cx_endian x) (ehdr_widths (cx_class x)) (ehdr_fields h) ++ r).
  { unfold ehdr_to_u8. rewrite <- app_assoc. now apply dropN_app_eq. }
  rewrite D, dec_enc_fields by auto. now rewrite ehdr_of_to.
Qed.
Lemma parse_ehdr_inv data x h : parse_ehdr data = Some (x, h) ->
  ehdr_ok x h /\ ehdr_size (cx_class x) <= len data /\ takeN (ehdr_size (cx_class x)) data = ehdr_to_u8 x h.
Proof.
  unfold parse_ehdr. destruct (len data <? 16) eqn:E1; [discriminate|]. apply N.ltb_ge in E1.
  destruct (ident_ctx (takeN 16 data)) as [x'|] eqn:E2; [|discriminate].
  destruct (len data <? ehdr_size (cx_class x')) eqn:E3; [discriminate|]. apply N.ltb_ge in E3.
  intros [= <- <-].
  assert (LI : len (takeN 16 data) = 16) by (rewrite len_takeN; lia).
  set (l := dec_fields (cx_endian x') (ehdr_widths (cx_class x')) (dropN 16 data)).
  assert (Hl : ehdr_fields (ehdr_of_fields (takeN 16 data) l) = l).
  { apply ehdr_to_of. unfold l. rewrite length_dec. destruct (cx_class x'); reflexivity. }
  split; [|split; [exact E3|]].
  - split; [exact LI|]. split; [exact E2|]. rewrite Hl. apply fits_dec.
  - unfold ehdr_to_u8. rewrite Hl. cbn [eh_ident ehdr_of_fields]. unfold l.
    assert (LD : len (dropN 16 data) = len data - 16) by apply len_dropN.
    rewrite enc_dec_fields.
    + rewrite ehdr_total. rewrite <- takeN_firstn.
      assert (16 <= ehdr_size (cx_class x')) by (destruct (cx_class x'); cbn; lia).
      replace (ehdr_size (cx_class x')) with (16 + (ehdr_size (cx_class x') - 16)) at 1 by lia.
      apply takeN_add.
    + rewrite ehdr_total, length_len, LD. lia.
Qed.
Lemma with_sections_ok x h shoff ent num : ehdr_ok x h ->
  shoff < (match cx_class x with Class32 => U32 | Class64 => U64 end) -> ent < U16 -> num < U16 ->
  ehdr_ok x (with_sections h shoff ent num).
Proof.
  intros (H1 & H2 & H3) A B D. split; [exact H1|]. split; [exact H2|].
  unfold fits in *. destruct x as [c e]. cbn [cx_class] in *.
  destruct c; unfold ehdr_widths, ehdr_fields in *;
  repeat (match goal with H : Forall2 _ (_ :: _) (_ :: _) |- _ => apply Forall2_cons_inv in H; destruct H end);
  repeat (apply Forall2_cons; [first [assumption | exact A | exact B | exact D]|]); apply Forall2_nil.
Qed.

(** * Section headers *)
Definition shdr_ok (x : elf_ctx) (s : shdr) : Prop := fits (shdr_widths (cx_class x)) (shdr_fields s).
Lemma shdr_total c : total (shdr_widths c) = N.to_nat (shdr_size c).
Proof. destruct c; reflexivity. Qed.
Lemma len_shdr x s : len (shdr_to_u8 x s) = shdr_size (cx_class x).
Proof.
  unfold shdr_to_u8, len. rewrite length_enc_fields by (destruct (cx_class x); reflexivity).
  rewrite shdr_total. lia.
Qed.
Lemma len_shdrs x l : len (flat_map (shdr_to_u8 x) l) = shdr_size (cx_class x) * len l.
Proof.
  induction l as [|s l IH]; cbn [flat_map]; [symmetry; apply N.mul_0_r|].
  rewrite len_app, len_shdr, IH, len_cons. lia.
Qed.
Lemma shdr_of_to s : shdr_of_fields (shdr_fields s) = s.
Proof. now destruct s. Qed.
Lemma read_shdr_app x pre s post : shdr_ok x s ->
  read_shdr x (pre ++ shdr_to_u8 x s ++ post) (len pre) = Some s.
Proof.
  intros H. unfold read_shdr.
  rewrite (get_range_app _ pre (shdr_to_u8 x s) post) by (rewrite ?len_shdr; auto).
  unfold shdr_to_u8. rewrite <- (app_nil_r (enc_fields _ _ _)), dec_enc_fields by exact H.
  now rewrite shdr_of_to.
Qed.
Lemma read_shdr_ok x data off s : read_shdr x data off = Some s -> shdr_ok x s.
Proof.
  unfold read_shdr. destruct (get_range _ _ _); [|discriminate]. intros [= <-]. unfold shdr_ok.
  assert (E : shdr_fields (shdr_of_fields (dec_fields (cx_endian x) (shdr_widths (cx_class x)) l)) =
    dec_fields (cx_endian x) (shdr_widths (cx_class x)) l).
  { destruct (cx_class x); reflexivity. }
  rewrite E. apply fits_dec.
Qed.
Lemma read_shdrs_app x l : forall pre post off, off = len pre -> Forall (shdr_ok x) l ->
  read_shdrs x (pre ++ flat_map (shdr_to_u8 x) l ++ post) off (length l) = Some l.
Proof.
  induction l as [|s l IH]; intros pre post off -> H; cbn [read_shdrs length flat_map]; [reflexivity|].
  apply Forall_cons_iff in H. destruct H as (H1 & H2). rewrite <- app_assoc.
  rewrite read_shdr_app by exact H1.
  rewrite app_assoc. rewrite IH; auto. rewrite len_app, len_shdr. reflexivity.
Qed.
Lemma read_shdrs_ok x data : forall n off l, read_shdrs x data off n = Some l -> Forall (shdr_ok x) l.
Proof.
  induction n as [|n IH]; intros off l; cbn; [intros [= <-]; constructor|].
  destruct (read_shdr x data off) as [s|] eqn:E; [|discriminate].
  destruct (read_shdrs _ _ _ _) as [l'|] eqn:E2; [|discriminate]. intros [= <-].
  constructor; [eapply read_shdr_ok; eauto|eauto].
Qed.
Lemma parse_shdrs_ok x data off n l : parse_shdrs x data off n = Some l -> Forall (shdr_ok x) l.
Proof.
  unfold parse_shdrs. destruct (off =? 0); [intros [= <-]; constructor|].
  destruct (read_shdr x data off) as [s|] eqn:E; [|discriminate].
  destruct (_ <? _); [discriminate|].
  destruct (read_shdrs _ _ _ _) as [l'|] eqn:E2; [|discriminate]. intros [= <-].
  constructor; [eapply read_shdr_ok; eauto|eapply read_shdrs_ok; eauto].
Qed.
Lemma shdr_size_pos c : 0 < shdr_size c. Proof. destruct c; cbn; lia. Qed.
Lemma parse_shdrs_app x pre l post : pre <> [] -> l <> [] -> Forall (shdr_ok x) l ->
  parse_shdrs x (pre ++ flat_map (shdr_to_u8 x) l ++ post) (len pre) (len l) = Some l.
Proof.
  intros Hp Hl H. unfold parse_shdrs.
  assert (len pre <> 0). { intros E. apply len_0 in E. contradiction. }
  replace (len pre =? 0) with false by (symmetry; apply N.eqb_neq; auto).
  destruct l as [|s l]; [contradiction|]. apply Forall_cons_iff in H. destruct H as (H1 & H2).
  cbn [flat_map]. rewrite <- app_assoc. rewrite read_shdr_app by exact H1.
  rewrite len_cons. replace (1 + len l =? 0) with false by (symmetry; apply N.eqb_neq; lia).
  cbv zeta. pose proof (shdr_size_pos (cx_class x)) as Hs.
  assert (LE : 1 + len l <= len (pre ++ shdr_to_u8 x s ++ flat_map (shdr_to_u8 x) l ++ post) / shdr_size (cx_class x)).
  { apply N.div_le_lower_bound; [lia|]. rewrite !len_app, len_shdr, len_shdrs. lia. }
  replace (_ <? 1 + len l) with false by (symmetry; apply N.ltb_ge; exact LE).
  replace (N.to_nat (1 + len l - 1)) with (length l) by (unfold len; lia).
  rewrite app_assoc. rewrite read_shdrs_app; auto. rewrite len_app, len_shdr. reflexivity.
Qed.

(** * Name tables *)
Lemma until_nul_app s r : until_nul s = s -> until_nul (s ++ x00 :: r) = s.
Proof.
  induction s as [|a s IH]; intros H; [reflexivity|]. cbn in *.
  destruct (Byte.eqb a x00); [discriminate|]. injection H as H. now rewrite IH.
Qed.
Lemma until_nul_le b : len (until_nul b) <= len b.
Proof. induction b as [|a b IH]; cbn [until_nul]; [apply N.le_refl|].
  destruct (Byte.eqb a x00); rewrite ?len_cons, ?len_nil; lia. Qed.
Lemma until_nul_idem b : until_nul (until_nul b) = until_nul b.
Proof. induction b as [|a b IH]; cbn; [reflexivity|]. destruct (Byte.eqb a x00) eqn:E; cbn; [reflexivity|]. now rewrite E, IH. Qed.
(** A NUL-terminated, non-empty table starts with a terminated string. *)
Lemma until_nul_split b : last b x01 = x00 -> exists r, b = until_nul b ++ x00 :: r /\ (r = [] \/ last r x01 = x00).
Proof.
  induction b as [|a b IH]; [discriminate|]. intros H. cbn [until_nul].
  destruct (Byte.eqb a x00) eqn:E.
  - apply Byte.byte_dec_bl in E. subst a. exists b. split; [reflexivity|]. destruct b; [auto|right; exact H].
  - destruct b as [|c b].
    + cbn in H. subst a. discriminate.
    + destruct (IH H) as (r & E2 & E3). exists r. split; [|exact E3]. cbn [app]. now rewrite <- E2.
Qed.

Lemma strings_fuel : forall n b i m, (length b <= n)%nat -> (length b <= m)%nat -> strings n i b = strings m i b.
Proof.
  induction n as [|n IH]; intros b i m Hn Hm.
  - destruct b; [|cbn in Hn; lia]. now destruct m.
  - destruct b as [|a b]; [now destruct m|]. destruct m as [|m]; [cbn in Hm; lia|].
    cbn [strings]. destruct (utf8_dec _); [|reflexivity].
    rewrite (IH _ _ m); [reflexivity| |].
    + rewrite length_len, len_dropN, len_cons. cbn in Hn. unfold len. lia.
    + rewrite length_len, len_dropN, len_cons. cbn in Hm. unfold len. lia.
Qed.
Lemma strings_app : forall n t i u m, (length t <= n)%nat -> (length (t ++ u) <= m)%nat ->
  (t = [] \/ last t x01 = x00) ->
  strings m i (t ++ u) =
    match strings n i t, strings (length u) (i + len t) u with
    | Some l, Some l' => Some (l ++ l')
    | _, _ => None
    end.
Proof.
  induction n as [|n IH]; intros t i u m Hn Hm Ht.
  - destruct t; [|cbn in Hn; lia]. cbn [strings app]. rewrite len_nil, N.add_0_r.
    rewrite (strings_fuel m u i (length u)); auto. cbn. destruct (strings _ _ u); reflexivity.
  - destruct t as [|a t].
    + cbn [strings app]. rewrite len_nil, N.add_0_r.
      rewrite (strings_fuel m u i (length u)); auto. cbn. destruct (strings _ _ u); reflexivity.
    + destruct Ht as [H|Ht]; [discriminate|].
      destruct (until_nul_split _ Ht) as (r & E & Er).
      destruct m as [|m]; [cbn in Hm; lia|].
      set (s := until_nul (a :: t)) in *.
      assert (E1 : until_nul ((a :: t) ++ u) = s).
      { rewrite E. rewrite <- app_assoc. cbn [app]. apply until_nul_app. apply until_nul_idem. }
      assert (Ed : dropN (len s + 1) (a :: t) = r).
      { rewrite E. change (x00 :: r) with ([x00] ++ r). rewrite app_assoc. apply dropN_app_eq. now rewrite len_app. }
      assert (Ed2 : dropN (len s + 1) ((a :: t) ++ u) = r ++ u).
      { rewrite E. change (x00 :: r) with ([x00] ++ r). rewrite app_assoc, <- app_assoc. apply dropN_app_eq. now rewrite len_app. }
      assert (El : len (a :: t) = len s + 1 + len r).
      { rewrite E, len_app, len_cons. lia. }
      change ((a :: t) ++ u) with (a :: t ++ u) in *. cbn [strings].
      rewrite E1. fold s. destruct (utf8_dec s); [|reflexivity].
      rewrite Ed, Ed2.
      assert (Hr : (length r <= n)%nat). { unfold len in *. cbn [length] in *. lia. }
      rewrite (IH r (i + len s + 1) u m Hr).
      * replace (i + len s + 1 + len r) with (i + len (a :: t)) by lia.
        destruct (strings n (i + len s + 1) r), (strings (length u) (i + len (a :: t)) u); reflexivity.
      * cbn [length] in Hm. rewrite app_length in *. unfold len in El. cbn [length] in El. lia.
      * destruct Er; auto.
Qed.

Lemma strings_start : forall n i b l, strings n i b = Some l -> Forall (fun e => i <= fst e) l.
Proof.
  induction n as [|n IH]; intros i b l H; destruct b as [|a b]; cbn [strings] in H.
  - injection H as <-. constructor.
  - discriminate.
  - injection H as <-. constructor.
  - destruct (utf8_dec (until_nul (a :: b))); [|discriminate]. destruct (strings n (i + len (until_nul (a :: b)) + 1) _) as [l'|] eqn:E; [|discriminate].
    injection H as <-. constructor; [cbn; lia|]. apply IH in E. eapply Forall_impl; [|exact E]. cbn. intros; lia.
Qed.
Lemma floor_none l off : Forall (fun e => off < fst e) l -> floor_entry l off = None.
Proof.
  intros H. destruct l as [|[b s] l]; [reflexivity|]. cbn. apply Forall_cons_iff in H. destruct H as (H & _). cbn in H.
  now replace (b <=? off) with false by (symmetry; apply N.leb_gt; auto).
Qed.
Lemma floor_app l l' off : Forall (fun e => off < fst e) l' -> floor_entry (l ++ l') off = floor_entry l off.
Proof.
  intros H. induction l as [|[b s] l IH]; cbn [app floor_entry]; [now apply floor_none|]. now rewrite IH.
Qed.
Lemma floor_last l b s off : Forall (fun e => fst e <= off) l -> b <= off -> floor_entry (l ++ [(b, s)]) off = Some (b, s).
Proof.
  intros H Hb. induction l as [|[b' s'] l IH]; cbn [app floor_entry].
  - now replace (b <=? off) with true by (symmetry; apply N.leb_le; auto).
  - apply Forall_cons_iff in H. destruct H as (H1 & H2). cbn in H1.
    replace (b' <=? off) with true by (symmetry; apply N.leb_le; auto). now rewrite IH.
Qed.
Lemma strings_bound : forall n i b l, strings n i b = Some l -> Forall (fun e => fst e < i + len b) l.
Proof.
  induction n as [|n IH]; intros i b l H; destruct b as [|a b]; cbn [strings] in H.
  - injection H as <-. constructor.
  - discriminate.
  - injection H as <-. constructor.
  - destruct (utf8_dec (until_nul (a :: b))); [|discriminate]. destruct (strings n (i + len (until_nul (a :: b)) + 1) _) as [l'|] eqn:E; [|discriminate].
    injection H as <-. constructor; [cbn [fst]; rewrite len_cons; lia|].
    destruct (N.le_gt_cases (len (until_nul (a :: b)) + 1) (len (a :: b))) as [L|L].
    + apply IH in E. eapply Forall_impl; [|exact E]. cbn beta. intros e He. rewrite len_dropN in He. lia.
    + rewrite dropN_all in E by lia. destruct n; injection E as <-; constructor.
Qed.

(** Appending a name to a terminated table. *)
Lemma parse_strtab_app t name l : parse_strtab t = Some l -> (t = [] \/ last t x01 = x00) ->
  until_nul name = name -> name <> [] -> utf8_dec name <> None ->
  parse_strtab (t ++ name ++ [x00]) = Some (l ++ [(len t, name)]).
Proof.
  intros H Ht Hn Hne Hu. unfold parse_strtab in *.
  rewrite (strings_app (length t) t 0 (name ++ [x00]) (length (t ++ name ++ [x00]))); auto. rewrite H, N.add_0_l.
  assert (E : strings (length (name ++ [x00])) (len t) (name ++ [x00]) = Some [(len t, name)]).
  { destruct name as [|a name]; [contradiction|]. cbn [app length]. cbn [strings].
    assert (E1 : until_nul (a :: name ++ [x00]) = a :: name) by (apply (until_nul_app (a :: name) []); auto).
    rewrite E1. destruct (utf8_dec (a :: name)); [|contradiction].
    replace (dropN (len (a :: name) + 1) (a :: name ++ [x00])) with (@nil byte).
    - rewrite app_length. cbn. now destruct (length name + 1)%nat.
    - symmetry. apply dropN_all. change (a :: name ++ [x00]) with ((a :: name) ++ [x00]). rewrite len_app. cbn [len length]. unfold len; cbn. lia. }
  now rewrite E.
Qed.
Lemma get_at_app t l name off : parse_strtab t = Some l -> off < len t ->
  get_at (l ++ [(len t, name)]) off = get_at l off.
Proof.
  intros H Ho. unfold get_at. rewrite floor_app; [reflexivity|]. repeat constructor. exact Ho.
Qed.
Lemma get_at_new t l name : parse_strtab t = Some l -> is_boundary name 0 = true ->
  get_at (l ++ [(len t, name)]) (len t) = Some name.
Proof.
  intros H Hb. unfold get_at. rewrite floor_last; [|eapply Forall_impl; [|eapply strings_bound; exact H]; cbn; intros; lia|lia].
  now rewrite N.sub_diag, Hb, dropN_0.
Qed.
