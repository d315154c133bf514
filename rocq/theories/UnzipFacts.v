(** UnzipFacts.v - C91: what an unpacker sees of a module. *)
From Verif Require Import Base BaseFacts SigningBlock Zip Digest Module Signable ZipSpec ZipFacts ModuleFacts RegionSpec DumpFacts UnzipSpec.
From Coq Require Import Lia.
Open Scope N_scope.
Open Scope list_scope.

Lemma field_app a x o k : o + k <= len a -> field (a ++ x) o k = field a o k.
Proof.
  intros H. unfold field. rewrite dropN_app_l by lia. rewrite takeN_app_l; [reflexivity|]. rewrite len_dropN. lia.
Qed.

Lemma central_prefix h1 h2 x y : central h1 -> central h2 -> h1 ++ x = h2 ++ y -> h1 = h2 /\ x = y.
Proof.
  intros (_ & L1 & E1) (_ & L2 & E2) E.
  assert (F : forall o k, o + k <= 46 -> field h1 o k = field h2 o k).
  { intros o k H. rewrite <- (field_app h1 x), <- (field_app h2 y) by lia. now rewrite E. }
  rewrite !F in E1 by lia. apply app_inj_len; [lia|exact E].
Qed.

Lemma headers_inj : forall h1 h2 x y, Forall central h1 -> Forall central h2 -> len h1 = len h2 ->
  concat h1 ++ x = concat h2 ++ y -> h1 = h2.
Proof.
  induction h1 as [|a h1 IH]; intros [|b h2] x y F1 F2 L E; try reflexivity; try (unfold len in L; cbn [List.length] in L; lia).
  cbn [concat] in E. rewrite <- !app_assoc in E. inversion F1 as [|? ? Ha Fa]; inversion F2 as [|? ? Hb Fb]; subst.
  destruct (central_prefix a b _ _ Ha Hb E) as [-> E']. f_equal. apply (IH h2 x y); auto. rewrite !len_cons in L. lia.
Qed.

Lemma points_fun area h i j : points area h i -> points area h j -> i = j.
Proof.
  intros (C1 & _ & L1 & M1 & D1 & b1 & a1 & E1 & O1) (C2 & _ & L2 & M2 & D2 & b2 & a2 & E2 & O2).
  rewrite E1 in E2. apply app_inj_len in E2 as [_ E2]; [|lia].
  assert (F : forall o k, o + k <= 30 -> field (it_local i) o k = field (it_local j) o k).
  { intros o k H. rewrite <- (field_app (it_local i) (it_data i ++ a1)), <- (field_app (it_local j) (it_data j ++ a2)) by lia. now rewrite E2. }
  rewrite !F in M1 by lia. apply app_inj_len in E2 as [El E2]; [|lia]. apply app_inj_len in E2 as [Ed _]; [|lia].
  destruct i, j. cbn in *. congruence.
Qed.
Lemma points_more area x h i : points area h i -> points (area ++ x) h i.
Proof.
  intros (C1 & K & L1 & M1 & D1 & b1 & a1 & E1 & O1). repeat split; auto. exists b1, (a1 ++ x). split; [|exact O1].
  rewrite E1, <- !app_assoc. reflexivity.
Qed.
Lemma points_all area x : forall hs l, Forall2 (points area) hs l -> Forall2 (points (area ++ x)) hs l.
Proof. induction 1; constructor; auto. now apply points_more. Qed.
Lemma points_all_fun area : forall hs l1 l2, Forall2 (points area) hs l1 -> Forall2 (points area) hs l2 -> l1 = l2.
Proof.
  intros hs l1 l2 H. revert l2. induction H as [|h i hs l H1 H2 IH]; intros l2 H; inversion H; subst; [reflexivity|].
  f_equal; [|auto]. eapply points_fun; eauto.
Qed.

(** The archive an unpacker takes apart. *)
Definition reads (z : zip) (l : list item) : Prop := exists hs, z_cd z = concat hs /\
  field (z_head z) 6 2 = len hs /\ field (z_head z) 8 4 = len (concat hs) /\ Forall central hs /\ Forall2 (points (z_entries z)) hs l.

Lemma record_shift pre f o : record_at f o -> record_at (pre ++ f) (len pre + o).
Proof.
  intros (a & b & c & d & -> & <- & Hb & Hc). exists (pre ++ a), b, c, d. rewrite <- app_assoc, len_app. auto.
Qed.

Lemma unzips_split f l : unzips f l -> exists z, f = plain z /\ zip_ok z [] /\ reads z l.
Proof.
  intros (area & hs & head & comment & E & L1 & L2 & L3 & R & N1 & N2 & F1 & F2).
  assert (Ep : f = plain (mkZip area (concat hs) head comment)).
  { rewrite E. unfold plain, with_block, end_record. cbn [z_entries z_cd z_head z_comment len]. rewrite N.add_0_r. reflexivity. }
  exists (mkZip area (concat hs) head comment). split; [exact Ep|]. split.
  - unfold zip_ok. cbn [z_entries z_cd z_head z_comment]. change (len (@nil byte)) with 0. rewrite N.add_0_r.
    repeat split; auto. intros o Ho Hr. destruct R as (_ & _ & R). apply (R (len area + len (concat hs) + o)); [lia|].
    rewrite Ep. unfold plain, with_block. cbn [z_entries z_cd app]. change (len (@nil byte)) with 0. rewrite N.add_0_r.
    rewrite app_assoc. rewrite <- len_app. apply record_shift. exact Hr.
  - exists hs. cbn. auto.
Qed.
Lemma reads_unzips z l : zip_ok z [] -> reads z l -> unzips (plain z) l.
Proof.
  intros Z (hs & E & N1 & N2 & F1 & F2). pose proof (find_eocd_with_block z [] Z) as X. destruct (find_eocd_inv _ _ X) as [R _].
  cbn [zip_eocd eo_off] in R. change (len (@nil byte)) with 0 in R. rewrite !N.add_0_r in R. destruct Z as (Z1 & Z2 & Z3 & Z4).
  change (len (@nil byte)) with 0 in Z3. rewrite !N.add_0_r in Z3.
  exists (z_entries z), hs, (z_head z), (z_comment z). repeat split; auto.
  - unfold plain, with_block, end_record. change (len (@nil byte)) with 0. rewrite N.add_0_r, E. reflexivity.
  - rewrite <- E. apply R.
  - rewrite <- E. apply R.
  - rewrite <- E. apply R.
Qed.

Lemma plain_inj z1 z2 : zip_ok z1 [] -> zip_ok z2 [] -> plain z1 = plain z2 -> z1 = z2.
Proof.
  intros Z1 Z2 E. pose proof (find_eocd_with_block z1 [] Z1) as X1. pose proof (find_eocd_with_block z2 [] Z2) as X2.
  fold (plain z1) in X1. fold (plain z2) in X2. rewrite E, X2 in X1. injection X1 as O1 _ _ _ _ _ O2 O3 O4.
  change (len (@nil byte)) with 0 in *. rewrite !N.add_0_r in *.
  unfold plain, with_block, end_record in E. destruct Z1 as (L1 & _), Z2 as (L2 & _).
  apply app_inj_len in E as [E1 E]; [|lia]. cbn [app] in E. apply app_inj_len in E as [E2 E]; [|lia].
  apply app_inj_len in E as [_ E]; [|lia]. apply app_inj_len in E as [E3 E]; [|lia].
  destruct z1, z2. cbn in *. congruence.
Qed.
Lemma reads_fun z l1 l2 : reads z l1 -> reads z l2 -> l1 = l2.
Proof.
  intros (h1 & E1 & N1 & _ & F1 & P1) (h2 & E2 & N2 & _ & F2 & P2).
  assert (h1 = h2) by (apply (headers_inj h1 h2 [] []); [exact F1|exact F2|exact (eq_trans (eq_sym N1) N2)|now rewrite !app_nil_r, <- E1, <- E2]). subst h2.
  eapply points_all_fun; eauto.
Qed.

Lemma unzips_fun f l1 l2 : unzips f l1 -> unzips f l2 -> l1 = l2.
Proof.
  intros H1 H2. apply unzips_split in H1 as (z1 & E1 & Z1 & R1). apply unzips_split in H2 as (z2 & E2 & Z2 & R2).
  assert (z1 = z2) by (apply plain_inj; auto; congruence). subst z2. eapply reads_fun; eauto.
Qed.
Lemma unzips_plain z l : zip_ok z [] -> unzips (plain z) l <-> reads z l.
Proof.
  intros Z. split; [|now apply reads_unzips]. intros H. apply unzips_split in H as (z2 & E & Z2 & R).
  apply plain_inj in E; auto. now subst.
Qed.

(** Any bytes between entries and directory. *)
Definition grown (z : zip) (x : bytes) : zip := mkZip (z_entries z ++ x) (z_cd z) (z_head z) (z_comment z).
Lemma grown_plain z x : plain (grown z x) = with_block z x.
Proof. unfold plain, with_block, end_record, grown. cbn. rewrite len_app, N.add_0_r, <- app_assoc. reflexivity. Qed.
Lemma grown_ok z x : zip_ok z x <-> zip_ok (grown z x) [].
Proof.
  unfold zip_ok, grown, end_record. cbn [z_entries z_cd z_head z_comment]. change (len (@nil byte)) with 0.
  rewrite len_app, N.add_0_r. tauto.
Qed.
Lemma grown_reads z x l : reads z l -> reads (grown z x) l.
Proof. intros (hs & E & N1 & N2 & F1 & F2). exists hs. cbn. repeat split; auto. now apply points_all. Qed.

Lemma unzips_block z x l : zip_ok z [] -> zip_ok z x -> unzips (plain z) l ->
  forall l', unzips (with_block z x) l' <-> l' = l.
Proof.
  intros Z Zx H l'. apply unzips_plain in H; [|exact Z]. apply (grown_reads z x) in H.
  rewrite <- grown_plain. rewrite (unzips_plain (grown z x) l' (proj1 (grown_ok z x) Zx)). split; [|now intros ->].
  intros H'. eapply reads_fun; eauto.
Qed.

(** A file with the same bytes outside the block unpacks to the same files, or not
    at all. *)
Lemma unzips_outside p q f1 f2 e1 e2 z x l :
  f1 = with_block z x -> zip_ok z [] -> zip_ok z x -> unzips (plain z) l -> find_eocd f1 (len f1) = Ok e1 ->
  (s_get_signing_block p (module_new f1) f1 = Ok None /\ x = []) \/
  (exists b, s_get_signing_block p (module_new f1) f1 = Ok (Some b) /\ bk_start b = len (z_entries z) /\ bk_end b = len (z_entries z) + len x) ->
  find_eocd f2 (len f2) = Ok e2 -> same_outside_block p q f1 f2 e1 e2 -> forall l', unzips f2 l' -> l' = l.
Proof.
  intros E1 Z Zx U H1 HB H2 (content & m1 & m2 & cdr & h & c1 & c2 & t & R1 & R2) l' U'.
  apply unzips_plain in U; [|exact Z].
  assert (P1 : regions_of p f1 e1 (z_entries z) x (z_cd z) (EOCD_SIG ++ z_head z) (le 4 (len (z_entries z) + len x))
     (le 2 (len (z_comment z)) ++ z_comment z)).
  { pose proof (find_eocd_with_block z x Zx) as X. rewrite <- E1, H1 in X. injection X as X. rewrite X. destruct Zx as (L & _).
    unfold regions_of. cbn [zip_eocd eo_off]. repeat split.
    - rewrite E1. unfold with_block, end_record. now rewrite <- !app_assoc.
    - rewrite !len_app. lia.
    - rewrite len_app, len_sig, L. reflexivity.
    - destruct HB as [(Sb & ->)|(b & Sb & Bs & Be)]; [left|right; exists b; rewrite len_app; auto].
      cbn [zip_eocd eo_cd_offset]. change (len (@nil byte)) with 0. rewrite N.add_0_r. auto. }
  destruct (regions_of_fun _ _ _ _ _ _ _ _ _ _ _ _ _ _ _ R1 P1) as (-> & -> & -> & -> & _ & ->). clear R1 P1.
  apply unzips_split in U' as (z2 & E2 & Z2 & R). pose proof (find_eocd_with_block z2 [] Z2) as X2. fold (plain z2) in X2.
  rewrite <- E2, H2 in X2. injection X2 as X2. destruct R2 as (F2 & O2 & _ & Lc & _). rewrite X2 in O2. cbn [zip_eocd eo_off] in O2.
  change (len (@nil byte)) with 0 in O2. rewrite E2 in F2. unfold plain, with_block, end_record in F2. cbn [app] in F2.
  rewrite (app_assoc (z_entries z2)) in F2. replace (z_entries z ++ m2 ++ z_cd z ++ (EOCD_SIG ++ z_head z) ++ c2 ++ le 2 (len (z_comment z)) ++ z_comment z)
    with ((z_entries z ++ m2 ++ z_cd z) ++ EOCD_SIG ++ z_head z ++ c2 ++ le 2 (len (z_comment z)) ++ z_comment z) in F2 by now rewrite <- !app_assoc.
  apply app_inj_len in F2 as [Fa F2]; [|rewrite len_app; lia]. apply app_inj_len in F2 as [_ F2]; [|reflexivity].
  destruct Z2 as (L2 & _). destruct Z as (L1 & _).
  apply app_inj_len in F2 as [Fh F2]; [|lia].
  destruct R as (hs2 & C2 & N1 & N2 & G1 & G2). destruct U as (hs & C & M1 & M2 & K1 & K2).
  rewrite Fh in N1, N2. rewrite M1 in N1. rewrite M2 in N2. rewrite <- C2, <- C in N2.
  rewrite app_assoc in Fa. assert (El : len (z_entries z2) = len (z_entries z ++ m2)).
  { apply (f_equal len) in Fa. rewrite !len_app in Fa. rewrite len_app. lia. }
  apply app_inj_len in Fa as [Fe Fc]; [|exact El].
  assert (hs2 = hs) by (apply (headers_inj hs2 hs [] []); [exact G1|exact K1|exact (eq_sym N1)|now rewrite !app_nil_r, <- C2, <- C]). subst hs2.
  rewrite Fe in G2. eapply points_all_fun; [exact G2|]. now apply points_all.
Qed.

Lemma unzips_size f l e : unzips f l -> find_eocd f (len f) = Ok e -> eo_cd_offset e + eo_cd_size e = eo_off e.
Proof.
  intros U H. apply unzips_split in U as (z & -> & Z & hs & E & _ & N2 & _). pose proof (find_eocd_with_block z [] Z) as X.
  fold (plain z) in X. rewrite H in X. injection X as ->. cbn [zip_eocd eo_cd_offset eo_cd_size eo_off].
  change (len (@nil byte)) with 0. rewrite E, <- N2, !N.add_0_r. unfold field, sub. reflexivity.
Qed.
