(** SizeFacts.v - length prefixes and round trips without size hypotheses (C03-C05) *)
From Verif Require Import Base BaseFacts Utils ParseFacts Algorithms Common SchemeV2 SourceStamp
  Utf8 ElfInfo SigningBlock Wire Built CodecFacts BlockFacts BuiltFacts Spec PropBlockFacts.

Lemma prefix_exact k size u8 : declares k size u8 ->
  (un_le (takeN (N.of_nat k) u8) + N.of_nat k = len u8 <-> size < 256 ^ N.of_nat k).
Proof.
  intros (body&->&Hb). rewrite takeN_app_eq by (rewrite len_le; auto).
  rewrite un_le_le, len_app, len_le, Hb.
  assert (P : 256 ^ N.of_nat k <> 0) by (apply N.pow_nonzero; discriminate).
  split; intros H.
  - assert (E : size mod 256 ^ N.of_nat k = size) by lia. rewrite <- E. apply N.mod_lt. auto.
  - rewrite N.mod_small by auto. lia.
Qed.

Lemma info_declares l : declares 8 (ei_size (info_from_tuples l)) (info_to_u8 (info_from_tuples l)).
Proof.
  unfold info_to_u8, info_from_tuples, info_new. cbn [ei_size ei_id ei_count ei_sections].
  eexists. split; [ reflexivity | ]. rewrite !len_app, !len_le.
  assert (E : forall es, len (flat_map entry_to_u8 es) = fold_right (fun e acc => entry_byte_size e + acc) 0 es).
  { induction es as [|e es IH]; cbn [flat_map fold_right]; [ auto | ].
    rewrite len_app, IH. f_equal. unfold entry_to_u8, entry_byte_size, str_len. rewrite !len_app, !len_le. lia. }
  rewrite E. lia.
Qed.

Lemma reads_only {A} p (R : A -> bytes -> Prop) x u8 : recognises p R -> len u8 < U64 ->
  reads_back p u8 x -> R x u8.
Proof.
  intros [_ Ho] Hl H. specialize (H [] []). cbn [app] in H. rewrite app_nil_r in H.
  specialize (H Hl). destruct (Ho _ _ _ (rwf_new _ Hl) H) as (raw&HR&E&Er&_).
  assert (El : len u8 = len raw).
  { apply (f_equal rpos) in E. unfold adv in E. cbn [rpos rdata] in E. change (len (@nil byte)) with 0 in E. rewrite !N.add_0_l in E. exact E. }
  unfold rem, new_reader in Er. cbn [rdata rpos] in Er. rewrite dropN_0 in Er.
  assert (Et : takeN (len raw) u8 = raw) by (rewrite Er at 1; apply takeN_app).
  rewrite takeN_all in Et by lia. congruence.
Qed.

Lemma value_exact v : built_value v -> len (value_to_u8 v) < U64 ->
  (reads_back value_parse (value_to_u8 v) v <-> value_inner_size v <= MAX_PAIR_SIZE).
Proof.
  intros Hv Hl. split.
  - intros H. apply (reads_only _ W_value) in H as (body&_&E&B&_); auto; [ lia | apply value_recognises ].
  - intros H. apply (accepts_reads value_parse W_value); [ apply value_recognises | apply built_value_W; auto ].
Qed.

Lemma value_too_big v pre post : built_value v -> MAX_PAIR_SIZE < value_inner_size v ->
  len (pre ++ value_to_u8 v ++ post) < U64 ->
  value_parse (mkReader (pre ++ value_to_u8 v ++ post) (len pre)) = Err EPairTooBig.
Proof.
  intros Hv Hs Hl. pose proof (built_value_inner v Hv) as Hi.
  assert (Hl' := Hl). rewrite !len_app in Hl'. rewrite (built_value_u8 v Hv) in *. rewrite len_pair in Hl'.
  unfold value_parse, read_size_u64, read_u64.
  rewrite (read_le_ok 8 _ (4 + len (value_body v)) ((le 4 (value_id v) ++ value_body v) ++ post)).
  - cbn [bind]. rewrite <- Hi. rewrite (proj2 (N.ltb_lt _ _) Hs). reflexivity.
  - apply reader_pre in Hl as [? ?]; auto.
  - unfold rem. cbn [rdata rpos]. rewrite dropN_app. unfold pair. rewrite <- !app_assoc. reflexivity.
  - change (256 ^ N.of_nat 8) with U64. lia.
Qed.

Lemma signers_exact s : built_signers s -> len (signers_to_u8 s) < U64 ->
  (reads_back signers_parse (signers_to_u8 s) s <-> sns_size s < U32).
Proof.
  intros Hb Hl. split; [ | apply c04_signers; auto ].
  intros H. apply (reads_only _ W_signers) in H as (?&_&_&_&B); auto. apply signers_recognises.
Qed.

Lemma stamp_exact b : built_sb b -> len (sb_to_u8 b) < U64 ->
  (reads_back sb_parse (sb_to_u8 b) b <-> sb_size b < U32).
Proof.
  intros Hb Hl. split; [ | apply c05_stamp; auto ].
  intros H. apply (reads_only _ W_sb) in H as (?&?&?&?&_&_&_&_&_&B); auto. apply sb_recognises.
Qed.
