(** DigestFacts.v - the module digest *)
From Verif Require Import Base BaseFacts ParseFacts Algorithms Zip Digest ZipSpec.

Lemma chunks_concat sched k fuel data : (length data <= fuel)%nat -> concat (chunks sched k fuel data) = data.
Proof.
  revert k data. induction fuel as [|f IH]; intros k data Hf.
  - destruct data; [ auto | cbn in Hf; lia ].
  - destruct data as [|x data]; [ auto | ]. cbn [chunks].
    set (n := N.max 1 _). cbn [concat]. rewrite IH, take_drop; auto.
    rewrite length_len, len_dropN. unfold len. cbn [length] in *. lia.
Qed.
Lemma read_chunks_concat sched data : concat (read_chunks sched data) = data.
Proof. apply chunks_concat. auto. Qed.

Lemma chunks_splits sched k fuel data : (forall k, CHUNK_SIZE <= sched k) -> (length data <= fuel)%nat ->
  splits data (chunks sched k fuel data).
Proof.
  intros Hs. revert k data. induction fuel as [|f IH]; intros k data Hf.
  - destruct data; [ constructor | cbn in Hf; lia ].
  - destruct data as [|x data]; [ constructor | ]. cbn [chunks].
    specialize (Hs k). replace (N.max 1 (N.min (sched k) CHUNK_SIZE)) with CHUNK_SIZE by (unfold CHUNK_SIZE in *; lia).
    destruct (N.le_gt_cases (len (x :: data)) CHUNK_SIZE) as [H|H].
    + rewrite takeN_all, dropN_all by auto. destruct f; cbn [chunks];
      (apply splits_last; [ rewrite len_cons; lia | exact H ]).
    + rewrite <- (take_drop CHUNK_SIZE (x :: data)) at 1. apply splits_more.
      * rewrite len_takeN. unfold CHUNK_SIZE in *. lia.
      * rewrite len_dropN. lia.
      * apply IH. rewrite length_len, len_dropN. unfold len, CHUNK_SIZE in *. cbn [length] in *. lia.
Qed.
Lemma read_chunks_splits sched data : (forall k, CHUNK_SIZE <= sched k) -> splits data (read_chunks sched data).
Proof. intros. apply chunks_splits; auto. Qed.
Lemma full_reads_full k : CHUNK_SIZE <= full_reads k. Proof. unfold full_reads. lia. Qed.

Lemma splits_nil_inv cs : splits [] cs -> cs = [].
Proof.
  intros H. remember [] as d eqn:E. destruct H as [|d H1|c d cs H1 H2]; auto.
  - subst. cbn in H1. lia.
  - apply (f_equal len) in E. rewrite len_app in E. cbn in E. lia.
Qed.
Lemma splits_fun d cs cs' : splits d cs -> splits d cs' -> cs = cs'.
Proof.
  intros H. revert cs'. induction H as [|d H1 H2|c d cs H1 H2 H3 IH]; intros cs' H'.
  - symmetry. apply splits_nil_inv. auto.
  - remember d as d' eqn:E. destruct H' as [|d' H3 H4|c d2 cs' H3 H4 H5].
    + cbn in H1. lia.
    + congruence.
    + exfalso. rewrite len_app in H2. lia.
  - remember (c ++ d) as d' eqn:E. destruct H' as [|d' H4 H5|c' d2 cs' H4 H5 H6].
    + apply (f_equal len) in E. rewrite len_app in E. cbn in E. lia.
    + apply (f_equal len) in E. rewrite len_app in E. lia.
    + apply app_inj_len in E as [-> ->]; [ | lia ]. f_equal. auto.
Qed.
Lemma splits_concat d cs : splits d cs -> concat cs = d.
Proof. induction 1; cbn [concat]; [ auto | apply app_nil_r | congruence ]. Qed.
Lemma splits_single d : 0 < len d -> len d <= 1024 * 1024 -> forall cs, splits d cs -> cs = [d].
Proof. intros H1 H2 cs H. eapply splits_fun; [ exact H | ]. constructor; auto. Qed.
Lemma splits_len d cs : splits d cs -> Forall (fun c => 0 < len c <= 1024 * 1024) cs.
Proof. induction 1; repeat constructor; auto; lia. Qed.

Lemma digest_chunk_eq C a c : digest_chunk C a c = hash C a ([xa5] ++ le 4 (len c) ++ c).
Proof. reflexivity. Qed.
Lemma digest_final_eq C a cs : digest_final C a (map (digest_chunk C a) cs) = tree_digest (hash C a) cs.
Proof.
  unfold digest_final, tree_digest. rewrite len_map. f_equal.
Qed.

(** The digest of a file whose regions are in order. *)
Lemma digest_module_ok p C sched file o a :
  len file < I64 -> fo_start_content o = 0 ->
  fo_start_cd o <= fo_stop_cd o -> fo_stop_cd o = fo_start_eocd o ->
  fo_start_eocd o + 20 <= len file -> fo_start_eocd o <= fo_stop_eocd o -> fo_stop_eocd o < I64 ->
  digest_module p C sched file o a =
  Ok (tree_digest (hash C a)
       (read_chunks (sched 0%nat) (takeN (fo_stop_content o) file) ++
        read_chunks (sched 1%nat) (sub file (fo_start_cd o) (fo_stop_cd o)) ++
        read_chunks full_reads (let r := dropN (fo_start_eocd o) file in
                                takeN 16 r ++ le 4 (fo_stop_content o) ++ dropN 20 r))).
Proof.
  intros Hl H0 H1 H2 H3 H4 H5. unfold digest_module, digest_region, digest_eocd, seek.
  rewrite H0. rewrite usub_ok by lia. cbn [bind]. change (0 <? I64) with true. cbn [bind].
  rewrite usub_ok by lia. cbn [bind]. replace (fo_start_cd o <? I64) with true by lia. cbn [bind].
  rewrite usub_ok by lia. cbn [bind]. replace (fo_start_eocd o <? I64) with true by lia. cbn [bind].
  replace (I64 <=? fo_stop_eocd o - fo_start_eocd o) with false by lia.
  rewrite len_dropN.
  replace (len file - fo_start_eocd o <? 16) with false by lia.
  replace (len file - fo_start_eocd o <? 20) with false by lia. cbn [bind]. f_equal.
  rewrite <- digest_final_eq, !map_app. unfold taken. rewrite dropN_0, N.sub_0_r. auto.
Qed.

(** Equal digests under a hash of fixed length: equal chunks or a collision. *)
Lemma tree_digest_inj H cs1 cs2 n : 0 < n -> (forall x, len (H x) = n) ->
  Forall (fun c => len c < U32) cs1 -> Forall (fun c => len c < U32) cs2 ->
  tree_digest H cs1 = tree_digest H cs2 -> clash H (tree_messages H cs1) (tree_messages H cs2) \/ cs1 = cs2.
Proof.
  intros Hn Hlen F1 F2 E. unfold tree_digest in E. unfold tree_messages, clash.
  set (h := fun c : bytes => H ([xa5] ++ le 4 (len c) ++ c)) in *.
  destruct (beq ([x5a] ++ le 4 (len cs1) ++ concat (map h cs1)) ([x5a] ++ le 4 (len cs2) ++ concat (map h cs2))) eqn:B.
  2: { apply beq_neq in B. left. do 2 eexists. split; [ left; reflexivity | ]. split; [ left; reflexivity | ].
       split; [ exact B | exact E ]. }
  enough ((exists x y, In x (map (fun c => [xa5] ++ le 4 (len c) ++ c) cs1) /\
     In y (map (fun c => [xa5] ++ le 4 (len c) ++ c) cs2) /\ x <> y /\ H x = H y) \/ cs1 = cs2) as K.
  { destruct K as [(x&y&K1&K2&K3&K4)|K]; [ left | right; exact K ]. exists x, y. cbn [In]. auto. }
  apply beq_eq in B. apply app_inv_head in B. apply app_inj_len in B as [_ B]; [ | rewrite !len_le; auto ].
  clear E. revert cs2 F2 B. induction F1 as [|c1 cs1 Hc1 F1 IH]; intros cs2 F2 B.
  - destruct cs2 as [|c2 cs2]; [ auto | ]. cbn [map concat] in B. apply (f_equal len) in B.
    rewrite len_app in B. unfold h in B. rewrite Hlen in B. cbn in B. lia.
  - destruct F2 as [|c2 cs2 Hc2 F2].
    + cbn [map concat] in B. apply (f_equal len) in B. rewrite len_app in B. unfold h in B.
      rewrite Hlen in B. cbn in B. lia.
    + cbn [map concat] in B. apply app_inj_len in B as [B1 B2]; [ | unfold h; rewrite !Hlen; auto ].
      destruct (IH cs2 F2 B2) as [(x&y&K1&K2&K3&K4)| ->]; [ left; exists x, y; cbn [map In]; auto | ].
      unfold h in B1. destruct (beq ([xa5] ++ le 4 (len c1) ++ c1) ([xa5] ++ le 4 (len c2) ++ c2)) eqn:B.
      2: { apply beq_neq in B. left. exists ([xa5] ++ le 4 (len c1) ++ c1), ([xa5] ++ le 4 (len c2) ++ c2). cbn [map In]. auto. }
      apply beq_eq in B. apply app_inv_head in B. apply app_inj_len in B as [_ ->]; [ auto | rewrite !len_le; auto ].
Qed.
