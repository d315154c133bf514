(** LoadFacts.v - C92: what a loader sees of a signed ELF file. *)
From Verif Require Import Base BaseFacts Algorithms Utf8 SigningBlock Digest Signable ZipSpec Elf ElfSpec ElfFacts ElfProps ElfProps2 LoadSpec.
From Coq Require Import Lia Permutation.
Open Scope N_scope.

Lemma firstn_ext {A} : forall n (l m : list A), (forall i, (i < n)%nat -> nth_error l i = nth_error m i) -> firstn n l = firstn n m.
Proof.
  induction n as [|n IH]; intros l m H; [reflexivity|]. pose proof (H 0%nat ltac:(lia)) as H0.
  destruct l as [|a l], m as [|b m]; cbn in H0; try discriminate; [reflexivity|]. injection H0 as <-. cbn. f_equal.
  apply IH. intros i Hi. apply (H (S i)). lia.
Qed.
Lemma nth_skipn {A} : forall k (l : list A) i, nth_error (skipn k l) i = nth_error l (k + i).
Proof. induction k as [|k IH]; intros [|a l] i; cbn; auto. now destruct i. Qed.
Lemma skipn_twice {A} : forall j k (l : list A), skipn j (skipn k l) = skipn (k + j) l.
Proof. induction k as [|k IH]; intros [|a l]; cbn; auto. now destruct j. Qed.
Lemma nth_firstn {A} : forall n (l : list A) i, (i < n)%nat -> nth_error (firstn n l) i = nth_error l i.
Proof. induction n as [|n IH]; intros [|a l] [|i] H; cbn; auto; try lia. apply IH. lia. Qed.

Lemma range_same (d out : bytes) o n : (forall i, o <= i < o + n -> nth_error out (N.to_nat i) = nth_error d (N.to_nat i)) ->
  takeN n (dropN o out) = takeN n (dropN o d).
Proof.
  intros H. rewrite !takeN_firstn, !dropN_skipn. apply firstn_ext. intros i Hi. rewrite !nth_skipn.
  specialize (H (o + N.of_nat i) ltac:(lia)). replace (N.to_nat (o + N.of_nat i)) with (N.to_nat o + i)%nat in H by lia. exact H.
Qed.
Lemma number_same big (d out : bytes) o n : (forall i, o <= i < o + n -> nth_error out (N.to_nat i) = nth_error d (N.to_nat i)) ->
  number big out o n = number big d o n.
Proof. intros H. unfold number. now rewrite (range_same d out o n H). Qed.

Lemma forall2_seq {A B} (R : A -> B -> Prop) (f : nat -> B) : forall l,
  (forall i s, nth_error l i = Some s -> R s (f i)) -> Forall2 R l (map f (seq 0 (List.length l))).
Proof.
  intros l. enough (G : forall k, (forall i s, nth_error l i = Some s -> R s (f (k + i)%nat)) -> Forall2 R l (map f (seq k (List.length l))))
    by exact (G 0%nat).
  induction l as [|a l IH]; intros k H; cbn; constructor.
  - rewrite <- (Nat.add_0_r k). now apply (H 0%nat).
  - apply IH. intros i s Hi. replace (S k + i)%nat with (k + S i)%nat by lia. now apply (H (S i)).
Qed.

(** The positions that signing rewrites. *)
Definition table_fields (wide : bool) (i : N) : Prop :=
  if wide then 40 <= i < 48 \/ 58 <= i < 62 else 32 <= i < 36 \/ 46 <= i < 50.

Lemma table_dec wide i : table_fields wide i \/ ~ table_fields wide i.
Proof. unfold table_fields. destruct wide; lia. Qed.

Lemma class_wide rest d e (wide big : bool) : elf_parse rest d = Ok e -> takeN 6 d = ELFMAG ++ [if wide then x02 else x01; if big then x02 else x01] ->
  cx_class (ef_ctx e) = (if wide then Class64 else Class32) /\ cx_endian (ef_ctx e) = (if big then Msb else Lsb).
Proof.
  intros H T. unfold elf_parse in H. destruct (parse_ehdr d) as [[x h]|] eqn:P; [|discriminate].
  assert (X : ef_ctx e = x).
  { destruct (parse_shdrs _ _ _ _); [|discriminate]. destruct (section_names _ _ _); [|discriminate]. destruct (rest d); [|discriminate].
    now injection H as <-. }
  rewrite X. unfold parse_ehdr in P. destruct (len d <? 16) eqn:L; [discriminate|]. apply N.ltb_ge in L.
  assert (I : ident_ctx (takeN 16 d) = Some (mkCtx (if wide then Class64 else Class32) (if big then Msb else Lsb))).
  { assert (E : takeN 16 d = takeN 6 d ++ takeN 10 (dropN 6 d)).
    { rewrite <- (take_drop 6 d) at 1. rewrite takeN_app_r; rewrite len_takeN; [|lia].
      f_equal. f_equal. lia. }
    rewrite E, T. unfold ident_ctx. generalize (takeN 10 (dropN 6 d)). intros z.
    rewrite takeN_app_l by (destruct wide, big; vm_compute; discriminate). destruct wide, big; reflexivity. }
  rewrite I in P. destruct (len d <? _); [discriminate|]. injection P as <- _. split; reflexivity.
Qed.

Lemma loads_kept (wide big : bool) d out entry phoff segs :
  len d <= len out -> (forall i, i < len d -> ~ table_fields wide i -> nth_error out (N.to_nat i) = nth_error d (N.to_nat i)) ->
  loads d wide big entry phoff segs -> segs = [] \/ (if wide then 64 else 52) <= phoff ->
  exists segs', loads out wide big entry phoff segs' /\ Forall2 (same_segment wide) segs segs'.
Proof.
  intros L B (T & Hd & E & P & N1 & S) Hp.
  assert (R : forall o n, o + n <= len d -> (forall i, o <= i < o + n -> ~ table_fields wide i) -> forall i, o <= i < o + n -> nth_error out (N.to_nat i) = nth_error d (N.to_nat i)).
  { intros o n H1 H2 i Hi. apply B; [lia|]. now apply H2. }
  assert (NS : forall o n, o + n <= len d -> (forall i, o <= i < o + n -> ~ table_fields wide i) -> number big out o n = number big d o n).
  { intros o n H1 H2. apply number_same, R; auto. }
  set (size := number big d (if wide then 54 else 42) 2) in *.
  set (k := List.length segs). exists (map (fun i => segment_at wide big out (phoff + size * N.of_nat i)) (seq 0 k)).
  assert (G : forall i s, nth_error segs i = Some s ->
    let o := phoff + size * N.of_nat i in
    sg_offset s + sg_filesz s <= len d /\ s = segment_at wide big d o /\ o + ph_size wide <= len d /\
    (forall a n, a + n <= ph_size wide -> number big out (o + a) n = number big d (o + a) n)).
  { intros i s Hi o. destruct (S i s Hi) as (S1 & S2 & S3). split; [exact S3|]. split; [exact S2|]. split; [exact S1|].
    intros a n Ha. fold o in S1. apply NS; [lia|]. intros j Hj. destruct Hp as [->|Hp]; [destruct i; discriminate|].
    unfold table_fields. destruct wide; unfold o in Hj; lia. }
  assert (SZ : forall i s, nth_error segs i = Some s -> let t := segment_at wide big out (phoff + size * N.of_nat i) in
    same_segment wide s t).
  { intros i s Hi t. destruct (G i s Hi) as (S1 & S2 & S3 & F). unfold t. rewrite S2 in S1. rewrite S2.
    unfold same_segment, segment_at in *. cbv zeta in *. cbn [sg_type sg_flags sg_offset sg_vaddr sg_paddr sg_filesz sg_memsz sg_align sg_bytes] in *.
    assert (Fo : (if wide then number big out (phoff + size * N.of_nat i + 8) 8 else number big out (phoff + size * N.of_nat i + 4) 4) =
                 (if wide then number big d (phoff + size * N.of_nat i + 8) 8 else number big d (phoff + size * N.of_nat i + 4) 4))
      by (destruct wide; apply F; cbn; lia).
    assert (Ff : (if wide then number big out (phoff + size * N.of_nat i + 32) 8 else number big out (phoff + size * N.of_nat i + 16) 4) =
                 (if wide then number big d (phoff + size * N.of_nat i + 32) 8 else number big d (phoff + size * N.of_nat i + 16) 4))
      by (destruct wide; apply F; cbn; lia).
    rewrite Fo, Ff. set (off := if wide then number big d _ 8 else number big d _ 4) in *.
    set (fsz := if wide then number big d (_ + 32) 8 else number big d (_ + 16) 4) in *.
    repeat split; try (destruct wide; apply F; cbn; lia).
    - rewrite !len_takeN, !len_dropN. lia.
    - intros j Hj. rewrite !takeN_firstn, !dropN_skipn.
      destruct (N.lt_ge_cases j fsz) as [Lj|Lj].
      + rewrite !nth_firstn by lia. rewrite !nth_skipn. replace (N.to_nat off + N.to_nat j)%nat with (N.to_nat (off + j)) by lia.
        apply B; [lia|exact Hj].
      + rewrite (proj2 (nth_error_None _ _)) by (rewrite firstn_length; lia). symmetry. apply nth_error_None. rewrite firstn_length. lia. }
  split.
  - assert (Hz : forall o n, o + n <= (if wide then 64 else 52) -> (forall i, o <= i < o + n -> ~ table_fields wide i) -> number big out o n = number big d o n).
    { intros o n H1 H2. apply NS; [lia|exact H2]. }
    unfold loads. rewrite !Hz by (destruct wide; [|]; unfold table_fields; lia).
    split; [|split; [lia|split; [exact E|split; [exact P|]]]].
    + rewrite <- T. rewrite <- (dropN_0 d), <- (dropN_0 out). apply range_same, R; [destruct wide; lia|].
      unfold table_fields. destruct wide; lia.
    + fold size. split.
      * rewrite <- N1. unfold len. rewrite map_length, seq_length. reflexivity.
      * intros i s Hi. assert (Li : (i < k)%nat).
        { assert (Hn : nth_error (map (fun i => segment_at wide big out (phoff + size * N.of_nat i)) (seq 0 k)) i <> None) by congruence.
          apply nth_error_Some in Hn. rewrite map_length, seq_length in Hn. exact Hn. }
        destruct (nth_error segs i) as [s0|] eqn:H0; [|apply nth_error_None in H0; unfold k in Li; lia].
        assert (Es : s = segment_at wide big out (phoff + size * N.of_nat i)).
        { rewrite (map_nth_error _ i _ (d := i)) in Hi; [now injection Hi as <-|].
          rewrite (nth_error_nth' _ 0%nat) by (rewrite seq_length; lia). rewrite seq_nth by lia. reflexivity. }
        destruct (G i s0 H0) as (S1 & S2 & S3 & _). destruct (SZ i s0 H0) as (_ & _ & X1 & _ & _ & X2 & _). rewrite <- Es in X1, X2.
        split; [lia|]. split; [exact Es|]. lia.
  - apply forall2_seq. exact SZ.
Qed.

Lemma loads_signed rest f b out e wide big entry phoff segs :
  elf_write_with_signature rest f b = Ok out -> elf_parse rest (el_data f) = Ok e ->
  loads (el_data f) wide big entry phoff segs -> segs = [] \/ (if wide then 64 else 52) <= phoff ->
  exists segs', loads out wide big entry phoff segs' /\ Forall2 (same_segment wide) segs segs'.
Proof.
  intros H He Hl Hp. destruct (c53_bytes _ _ _ _ _ H He) as (L & B).
  apply (loads_kept wide big (el_data f)); auto; [lia|]. intros i Hi Hn. apply B; [exact Hi|].
  destruct (class_wide _ _ _ _ _ He (proj1 Hl)) as (E & _). rewrite E. unfold table_fields, rewritten in *. now destruct wide.
Qed.
Lemma nth_ext {A} : forall (l m : list A), (forall i, nth_error l i = nth_error m i) -> l = m.
Proof.
  intros l m H. assert (E : firstn (List.length l + List.length m) l = firstn (List.length l + List.length m) m) by (apply firstn_ext; auto).
  rewrite !firstn_all2 in E by lia. exact E.
Qed.
Lemma same_equal (wide : bool) segs segs' : Forall2 (same_segment wide) segs segs' ->
  Forall (fun s => (if wide then 62 else 50) <= sg_offset s) segs -> segs' = segs.
Proof.
  induction 1 as [|s t l m (E1 & E2 & E3 & E4 & E5 & E6 & E7 & E8 & E9 & E10) F IH]; intros G; [reflexivity|].
  inversion G as [|? ? G1 G2]; subst. f_equal; [|auto]. destruct s, t; cbn in *. subst. f_equal.
  apply nth_ext. intros i. specialize (E10 (N.of_nat i)). rewrite Nat2N.id in E10. apply E10. destruct wide; lia.
Qed.

(** * What the signature depends on *)
Lemma same_at_range d d' a b : len d' = len d -> same_at d d' a (b - a) -> get_range d' a b = get_range d a b.
Proof. intros L H. unfold get_range. rewrite L. now rewrite <- H. Qed.
Lemma same_at_part d d' o n a k : same_at d d' o n -> a + k <= n -> same_at d d' (o + a) k.
Proof.
  unfold same_at. intros H L. apply range_same. intros i Hi.
  assert (G : nth_error (takeN n (dropN o d)) (N.to_nat (i - o)) = nth_error (takeN n (dropN o d')) (N.to_nat (i - o))) by now rewrite H.
  rewrite !takeN_firstn, !dropN_skipn, !nth_firstn, !nth_skipn in G by lia.
  replace (N.to_nat o + N.to_nat (i - o))%nat with (N.to_nat i) in G by lia. exact G.
Qed.
Lemma read_shdr_same x d d' off : len d' = len d -> same_at d d' off (shdr_size (cx_class x)) -> read_shdr x d' off = read_shdr x d off.
Proof.
  intros L H. unfold read_shdr. rewrite (same_at_range d d'); auto.
  replace (off + shdr_size (cx_class x) - off) with (shdr_size (cx_class x)) by lia. exact H.
Qed.
Lemma read_shdrs_same x d d' : len d' = len d -> forall n off, same_at d d' off (shdr_size (cx_class x) * N.of_nat n) ->
  read_shdrs x d' off n = read_shdrs x d off n.
Proof.
  intros L. induction n as [|n IH]; intros off H; [reflexivity|]. cbn [read_shdrs].
  rewrite (read_shdr_same x d d') by (auto; rewrite <- (N.add_0_r off); apply (same_at_part _ _ _ _ 0 _ H); lia).
  rewrite IH by (apply (same_at_part _ _ _ _ (shdr_size (cx_class x)) _ H); lia). reflexivity.
Qed.
Lemma read_shdrs_len x d : forall n off l, read_shdrs x d off n = Some l -> List.length l = n.
Proof.
  induction n as [|n IH]; cbn; intros off l H; [now injection H as <-|].
  destruct (read_shdr x d off); [|discriminate]. destruct (read_shdrs x d _ n) eqn:E; [|discriminate].
  injection H as <-. cbn. f_equal. eauto.
Qed.
Lemma parse_shdrs_same x d d' off count l : len d' = len d -> parse_shdrs x d off count = Some l ->
  same_at d d' off (shdr_size (cx_class x) * len l) -> parse_shdrs x d' off count = Some l.
Proof.
  intros L H S. unfold parse_shdrs in *. destruct (off =? 0); [exact H|]. rewrite L.
  destruct (read_shdr x d off) as [s0|] eqn:E0; [|discriminate].
  set (c := if count =? 0 then sh_size s0 else count) in *. destruct (_ <? c) eqn:EC; [discriminate|].
  destruct (read_shdrs x d (off + shdr_size (cx_class x)) (N.to_nat (c - 1))) as [r|] eqn:E1; [|discriminate]. injection H as <-.
  pose proof (read_shdrs_len _ _ _ _ _ E1) as Lr. unfold len in S. cbn [List.length] in S. rewrite Lr in S.
  rewrite (read_shdr_same x d d') by (auto; rewrite <- (N.add_0_r off); apply (same_at_part _ _ _ _ 0 _ S); nia).
  rewrite E0. fold c. rewrite EC.
  rewrite (read_shdrs_same x d d') by (auto; apply (same_at_part _ _ _ _ (shdr_size (cx_class x)) _ S); nia). now rewrite E1.
Qed.
Lemma parse_ehdr_same d d' x h : len d' = len d -> parse_ehdr d = Some (x, h) -> same_at d d' 0 16 ->
  same_at d d' (match cx_class x with Class32 => 32 | Class64 => 40 end) (match cx_class x with Class32 => 4 | Class64 => 8 end) ->
  same_at d d' (match cx_class x with Class32 => 48 | Class64 => 60 end) 4 ->
  exists h', parse_ehdr d' = Some (x, h') /\ eh_shoff h' = eh_shoff h /\ eh_shnum h' = eh_shnum h /\ eh_shstrndx h' = eh_shstrndx h.
Proof.
  intros L H S0 S1 S2. unfold parse_ehdr in *. rewrite L. destruct (len d <? 16); [discriminate|].
  unfold same_at in S0. rewrite !dropN_0 in S0. rewrite <- S0.
  destruct (ident_ctx (takeN 16 d)) as [y|] eqn:I; [|discriminate]. destruct (len d <? _); [discriminate|].
  injection H as -> <-. eexists. split; [reflexivity|].
  pose proof (same_at_part _ _ _ _ 0 2 S2 ltac:(lia)) as S3. pose proof (same_at_part _ _ _ _ 2 2 S2 ltac:(lia)) as S4.
  unfold same_at in *. rewrite !takeN_firstn, !dropN_skipn in *.
  destruct (cx_class x); cbn [ehdr_of_fields ehdr_widths dec_fields nth eh_shoff eh_shnum eh_shstrndx];
    rewrite !skipn_twice; change (N.to_nat 16) with 16%nat; cbn [Nat.add].
  all: change (N.to_nat 32) with 32%nat in *; change (N.to_nat 40) with 40%nat in *; change (N.to_nat (48 + 0)) with 48%nat in *;
    change (N.to_nat (48 + 2)) with 50%nat in *; change (N.to_nat (60 + 0)) with 60%nat in *; change (N.to_nat (60 + 2)) with 62%nat in *;
    change (N.to_nat 4) with 4%nat in *; change (N.to_nat 8) with 8%nat in *; change (N.to_nat 2) with 2%nat in *.
  all: cbn [Nat.add]; rewrite <- S1, <- S3, <- S4; auto.
Qed.
Lemma parse_same rest d d' e names : elf_parse rest d = Ok e -> len d' = len d -> rest d' = true ->
  (forall o n, examined e names o n -> same_at d d' o n) ->
  exists e', elf_parse rest d' = Ok e' /\ ef_sections e' = ef_sections e /\ ef_strtab e' = ef_strtab e.
Proof.
  intros H L R S. unfold elf_parse in H. destruct (parse_ehdr d) as [[x h]|] eqn:P; [|discriminate].
  destruct (parse_shdrs x d (eh_shoff h) (eh_shnum h)) as [l|] eqn:E1; [|discriminate].
  destruct (section_names d l (eh_shstrndx h)) as [tab|] eqn:E2; [|discriminate]. destruct (rest d); [|discriminate]. injection H as <-.
  destruct (parse_ehdr_same d d' x h L P (S _ _ (ExIdent _ _)) (S _ _ (ExTable _ _)) (S _ _ (ExCount _ _))) as (h' & P' & Q1 & Q2 & Q3).
  unfold elf_parse. rewrite P', Q1, Q2, Q3, (parse_shdrs_same x d d' _ _ l L E1 (S _ _ (ExHeaders _ _))).
  assert (E3 : section_names d' l (eh_shstrndx h) = Some tab).
  { rewrite <- E2. unfold section_names.
    destruct (if eh_shstrndx h =? SHN_XINDEX then _ else _) as [i|] eqn:I; [|reflexivity].
    destruct (nth_error l (N.to_nat (N.min i (len l)))) as [s|] eqn:Hs; [|reflexivity].
    assert (Lt : i < len l).
    { assert (Hn : nth_error l (N.to_nat (N.min i (len l))) <> None) by congruence. apply nth_error_Some in Hn. unfold len in *. lia. }
    rewrite N.min_l in Hs by lia. rewrite (same_at_range d d'); auto. replace (sh_offset s + sh_size s - sh_offset s) with (sh_size s) by lia.
    apply S. apply (ExNames _ _ (N.to_nat i)); [exact Hs|]. cbn [ef_header ef_sections]. rewrite N2Nat.id.
    destruct (eh_shstrndx h =? SHN_XINDEX) eqn:X.
    - right. apply N.eqb_eq in X. split; [exact X|]. destruct l; [discriminate|]. exact I.
    - left. congruence. }
  rewrite E3, R. eexists. split; [reflexivity|]. split; reflexivity.
Qed.
Lemma find_named e n s : find_section e n = Some s -> In s (ef_sections e) /\ get_at (ef_strtab e) (sh_name s) = Some n.
Proof.
  unfold find_section. intros H. apply find_some in H as (H1 & H2). split; [exact H1|]. unfold named in H2.
  destruct (get_at _ _); [|discriminate]. now apply beq_eq in H2 as ->.
Qed.
Lemma lookup_in e : forall names l t, lookup_sections e names = Ok l -> In t l ->
  exists n s, In n names /\ find_section e (utf8_enc n) = Some s /\ t_offset t = sh_offset s /\ t_size t = sh_size s.
Proof.
  induction names as [|n names IH]; cbn [lookup_sections]; intros l t H I; [injection H as <-; destruct I|].
  destruct (find_section e (utf8_enc n)) as [s|] eqn:F; [|discriminate].
  destruct (sh_type s =? SHT_NOBITS); [discriminate|]. destruct (sh_size s =? 0); [discriminate|].
  destruct (lookup_sections e names) as [r| |] eqn:E; try discriminate. injection H as <-. destruct I as [<-|I].
  - exists n, s. repeat split; auto. now left.
  - destruct (IH r t eq_refl I) as (m & u & I1 & I2). exists m, u. split; [now right|exact I2].
Qed.
Lemma lookup_same e e' : ef_sections e' = ef_sections e -> ef_strtab e' = ef_strtab e -> forall names, lookup_sections e' names = lookup_sections e names.
Proof.
  intros E1 E2. assert (F : forall n, find_section e' n = find_section e n) by (intros; unfold find_section; now rewrite E1, E2).
  induction names as [|n names IH]; cbn [lookup_sections]; [reflexivity|]. rewrite F, IH. reflexivity.
Qed.
Lemma signature_same rest d d' e names : elf_parse rest d = Ok e -> len d' = len d -> rest d' = true ->
  (forall o n, examined e names o n -> same_at d d' o n) ->
  (forall p, elf_get_signing_block rest p (mkElfFile d' names) = elf_get_signing_block rest p (mkElfFile d names)) /\
  (forall C a, elf_digest rest C (mkElfFile d' names) a = elf_digest rest C (mkElfFile d names) a).
Proof.
  intros H L R S. destruct (parse_same rest d d' e names H L R S) as (e' & H' & E1 & E2). split.
  - intros p. unfold elf_get_signing_block. cbn [el_data]. rewrite H, H'. cbn [bind].
    assert (F : find_section e' KSU_SIGN_SECTION = find_section e KSU_SIGN_SECTION) by (unfold find_section; now rewrite E1, E2). rewrite F.
    destruct (find_section e KSU_SIGN_SECTION) as [s|] eqn:Fs; [|reflexivity]. apply find_named in Fs as (I1 & I2).
    rewrite (same_at_range d d'); auto. replace (sh_offset s + sh_size s - sh_offset s) with (sh_size s) by lia.
    apply S. exact (ExSection _ _ s _ I1 I2 (or_introl eq_refl)).
  - intros C a. unfold elf_digest, resolved_sections, collect_sections. cbn [el_data el_signed]. rewrite H, H'. cbn [bind].
    rewrite (lookup_same e e' E1 E2). destruct (lookup_sections e names) as [l| |] eqn:E; [|reflexivity|reflexivity]. cbn [bind].
    f_equal. unfold digest_elf_sections. f_equal.
    assert (G : forall m, incl m l -> flat_map (fun t => map (elf_digest_chunk C a) (read_chunks full_reads (taken d' (t_offset t) (t_size t)))) m =
      flat_map (fun t => map (elf_digest_chunk C a) (read_chunks full_reads (taken d (t_offset t) (t_size t)))) m).
    { induction m as [|t m IH]; intros I; [reflexivity|]. cbn [flat_map]. rewrite IH by (intros u Hu; apply I; now right). f_equal. f_equal. f_equal.
      destruct (lookup_in e names l t E (I t (or_introl eq_refl))) as (n & s & J1 & J2 & J3 & J4). unfold taken. rewrite J3, J4.
      apply find_named in J2 as (J5 & J6). symmetry. apply S. apply (ExSection _ _ s _ J5 J6). right. now apply in_map. }
    apply G. intros t Ht. exact (Permutation_in t (sort_perm l) Ht).
Qed.

Lemma loads_fun d (wide big : bool) entry phoff segs (wide' big' : bool) entry' phoff' segs' :
  loads d wide big entry phoff segs -> loads d wide' big' entry' phoff' segs' ->
  wide' = wide /\ big' = big /\ entry' = entry /\ phoff' = phoff /\ segs' = segs.
Proof.
  intros (T & _ & E & P & N1 & S) (T' & _ & E' & P' & N1' & S'). rewrite T in T'.
  assert (W : wide' = wide /\ big' = big) by (destruct wide, wide', big, big'; split; try reflexivity; discriminate T'). destruct W as (-> & ->).
  subst entry entry' phoff phoff'. repeat (split; [reflexivity|]). apply nth_ext. intros i.
  assert (L : List.length segs' = List.length segs) by (unfold len in *; lia).
  destruct (nth_error segs' i) as [s'|] eqn:H'; destruct (nth_error segs i) as [s|] eqn:H.
  - destruct (S i s H) as (_ & -> & _). destruct (S' i s' H') as (_ & -> & _). reflexivity.
  - apply nth_error_None in H. assert (Hn : nth_error segs' i <> None) by congruence. apply nth_error_Some in Hn. lia.
  - apply nth_error_None in H'. assert (Hn : nth_error segs i <> None) by congruence. apply nth_error_Some in Hn. lia.
  - reflexivity.
Qed.
