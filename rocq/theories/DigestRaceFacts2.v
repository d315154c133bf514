(** DigestRaceFacts2.v - what was read if the digest is the one of the signed archive. *)
From Verif Require Import Base BaseFacts Algorithms SigningBlock Zip Digest DigestFacts Module ZipSpec ModuleFacts ModuleProps ExactFacts DigestRace DigestRaceSpec DigestRaceFacts.
From Coq Require Import Lia.
Open Scope N_scope.
Open Scope list_scope.

Lemma cut n (g : bytes) : n <= len g -> exists a b, g = a ++ b /\ len a = n.
Proof. intros H. exists (takeN n g), (dropN n g). split; [symmetry; apply take_drop|rewrite len_takeN; lia]. Qed.
Lemma regions_equal p C sched f f' a x m y t x' m' y' t' n d : fills sched -> 0 < n -> (forall v, len (hash C a v) = n) ->
  len f < I64 -> f = x ++ m ++ y ++ t -> f' = x' ++ m' ++ y' ++ t' -> 22 <= len t ->
  len x' = len x -> len m' = len m -> len y' = len y -> len t' = len t ->
  let o := mkOffsets 0 (len x) (len x + len m) (len (x ++ m ++ y)) (len (x ++ m ++ y)) (len f) in
  digest_module p C sched f o a = Ok d -> digest_module p C sched f' o a = Ok d ->
  (exists m1 m2, digest_messages (hash C a) x y (takeN 16 t ++ le 4 (len x) ++ dropN 20 t) m1 /\
     digest_messages (hash C a) x' y' (takeN 16 t' ++ le 4 (len x) ++ dropN 20 t') m2 /\ clash (hash C a) m1 m2) \/
  x' = x /\ y' = y /\ takeN 16 t' = takeN 16 t /\ dropN 20 t' = dropN 20 t.
Proof.
  intros Fs Hn Hh Hl Ef Ef' Ht Lx Lm Ly Lt o D D'.
  assert (Lf : len f' = len f) by (subst; rewrite !len_app; lia).
  assert (Eo : o = mkOffsets 0 (len x') (len x' + len m') (len (x' ++ m' ++ y')) (len (x' ++ m' ++ y')) (len f')).
  { unfold o. rewrite Lf, Lx, Lm, !len_app, Lx, Lm, Ly. reflexivity. }
  rewrite Eo, (digest_regions_ok p C sched f' a x' m' y' t') in D' by (auto; lia). unfold o in D. rewrite (digest_regions_ok p C sched f a x m y t) in D by auto.
  injection D as D. injection D' as D'. rewrite Lx in D'. rewrite <- D in D'. symmetry in D'.
  apply (tree_digest_inj _ _ _ n Hn Hh) in D'; [|rewrite !Forall_app; auto using read_chunks_lens..].
  destruct D' as [K|K]; [left|right].
  - do 2 eexists. split; [|split; [|exact K]]; do 3 eexists; (split; [|split; [|split; [|reflexivity]]]); apply read_chunks_splits; try (intros k; apply Fs); apply full_reads_full.
  - apply (f_equal (@concat _)) in K. rewrite !concat_app, !read_chunks_concat in K.
    apply app_inj_len in K as [K1 K]; [|lia]. apply app_inj_len in K as [K2 K]; [|lia]. unfold patched in K.
    apply app_inj_len in K as [K3 K]; [|rewrite !len_takeN; lia]. apply app_inj_len in K as [_ K]; [|reflexivity]. auto.
Qed.

Lemma record_cut z off : len (z_head z) = 12 -> let r := end_record z off in
  takeN 16 r = EOCD_SIG ++ z_head z /\ dropN 20 r = le 2 (len (z_comment z)) ++ z_comment z /\ 22 <= len r.
Proof.
  intros H r. unfold r, end_record. rewrite app_assoc. assert (L : len (EOCD_SIG ++ z_head z) = 16) by (rewrite len_app, H; reflexivity).
  split; [now apply takeN_app_eq|]. split.
  - rewrite app_assoc. apply dropN_app_eq. rewrite len_app, L, len_le. reflexivity.
  - rewrite !len_app, H, !len_le. change (len EOCD_SIG) with 4. lia.
Qed.
Lemma signed_binding p C sched V fuel z raw l a d n : zip_ok z raw -> zip_small z raw -> block_bytes l raw -> fills sched ->
  0 < n -> (forall v, len (hash C a v) = n) -> len (with_block z raw) < 2 ^ 63 -> in_place V (len (with_block z raw)) ->
  m_digest p C sched (module_new (with_block z raw)) (with_block z raw) a = Ok d ->
  m_digest_r p C sched V fuel (module_new (with_block z raw)) (with_block z raw) a = Some (Ok d) ->
  exists entries block cd record, let g := entries ++ block ++ cd ++ record in mixture_of V g /\
    len entries = len (z_entries z) /\ len block = len raw /\ len cd = len (z_cd z) /\ len g = len (with_block z raw) /\
    ((exists m1 m2, digest_messages (hash C a) (z_entries z) (z_cd z) (end_record z (len (z_entries z))) m1 /\
       digest_messages (hash C a) entries cd (takeN 16 record ++ le 4 (len (z_entries z)) ++ dropN 20 record) m2 /\ clash (hash C a) m1 m2) \/
     entries = z_entries z /\ cd = z_cd z /\
     takeN 16 record = EOCD_SIG ++ z_head z /\ dropN 20 record = le 2 (len (z_comment z)) ++ z_comment z).
Proof.
  intros Hz Hs Hb Fs Hn Hh Hl HL D R. destruct (signed_mixture p C sched V fuel z raw l a d Hz Hs Hb HL R) as (o & g & O & Lg & M & G).
  unfold m_digest in D. rewrite O in D. cbn [bind] in D. rewrite (offsets_signed p z raw l Hz Hs Hb) in O. injection O as <-.
  assert (H12 : len (z_head z) = 12) by apply Hz. destruct (record_cut z (len (z_entries z) + len raw) H12) as (P1 & P2 & P3).
  pose proof (record_cut z (len (z_entries z)) H12) as (Q1 & Q2 & _).
  assert (Lw : len (with_block z raw) = len (z_entries z) + (len raw + (len (z_cd z) + len (end_record z (len (z_entries z) + len raw))))) by (unfold with_block; now rewrite !len_app).
  destruct (cut (len (z_entries z)) g ltac:(lia)) as (x & g1 & E1 & L1). assert (len g = len x + len g1) by (rewrite E1; apply len_app).
  destruct (cut (len raw) g1 ltac:(lia)) as (m & g2 & E2 & L2). assert (len g1 = len m + len g2) by (rewrite E2; apply len_app).
  destruct (cut (len (z_cd z)) g2 ltac:(lia)) as (y & t & E3 & L3). assert (len g2 = len y + len t) by (rewrite E3; apply len_app).
  rewrite E3 in E2. rewrite E2 in E1. exists x, m, y, t. cbv zeta. rewrite <- E1. split; [exact M|]. do 3 (split; [assumption|]). split; [exact Lg|].
  pose proof (regions_equal p C sched (with_block z raw) g a (z_entries z) raw (z_cd z) (end_record z (len (z_entries z) + len raw)) x m y t n d
                Fs Hn Hh Hl eq_refl E1 P3 L1 L2 L3 ltac:(lia)) as K. cbv zeta in K.
  replace (len (z_entries z ++ raw ++ z_cd z)) with (len (z_entries z) + len raw + len (z_cd z)) in K by (rewrite !len_app; lia).
  specialize (K D G). rewrite P1, P2 in K. destruct K as [K|(K1 & K2 & K3 & K4)]; [left|right; auto].
  assert (EE : end_record z (len (z_entries z)) = (EOCD_SIG ++ z_head z) ++ le 4 (len (z_entries z)) ++ le 2 (len (z_comment z)) ++ z_comment z).
  { unfold end_record. now rewrite <- app_assoc. }
  rewrite EE. exact K.
Qed.
