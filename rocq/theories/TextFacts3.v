(** TextFacts3.v - what the [Display] implementations show. *)
From Coq Require Import Strings.String Lia.
From Verif Require Import Base BaseFacts Utils Algorithms Common SchemeV2 SourceStamp ElfInfo SigningBlock Text TextSpec DecFacts TextFacts.
Open Scope N_scope.
Open Scope list_scope.

Lemma bstr_head a (s : string) : bstr (String a s) = Ascii.byte_of_ascii a :: bstr s.
Proof. reflexivity. Qed.

Lemma algo_inj a b : algo_text a = algo_text b -> a = b.
Proof.
  unfold algo_text. intros H. apply app_inv_head in H.
  assert (S : forall x y r s, hex x ++ bstr " - " ++ r = hex y ++ bstr " - " ++ s -> x = y /\ r = s).
  { intros x y r s E. apply hex_split in E as [-> E]; [|reflexivity|reflexivity]. split; [reflexivity|]. now injection E. }
  apply S in H as [U H]. destruct a, b; try reflexivity; try (exfalso; revert H; clear; vm_compute; discriminate).
  cbn in U. congruence.
Qed.

Lemma value_summary v w : value_text v = value_text w <-> summary v = summary w.
Proof.
  split.
  - intros H. destruct v as [a|a|a|a], w as [b|b|b|b]; cbn [value_text summary] in *.
    all: try destruct (rw_id a =? VERITY_PADDING_BLOCK_ID) eqn:Ea; try destruct (rw_id b =? VERITY_PADDING_BLOCK_ID) eqn:Eb.
    all: try (exfalso; cbv -[dec hex_width v2_id sns_data v2_signers ss_id ei_id ei_sections rw_id rw_data len] in H; discriminate H).
    all: repeat match type of H with bstr ?x ++ _ = bstr ?x ++ _ => apply app_inv_head in H end.
    all: apply hex_width_split in H as [-> H]; [|reflexivity|reflexivity]; try reflexivity.
    all: cbn in H; injection H as H; apply dec_split in H as [-> _]; reflexivity.
  - intros H. destruct v as [a|a|a|a], w as [b|b|b|b]; cbn [summary] in H; try discriminate H; cbn [value_text]; injection H as H1; try rewrite H1; congruence.
Qed.
Lemma value_one_line v : one_line (value_text v).
Proof. destruct v; cbn [value_text]; pieces. destruct (rw_id r =? _); literal. Qed.

Lemma values_summary l : forall m i, values_text i l = values_text i m <-> map summary l = map summary m.
Proof.
  induction l as [|v l IH]; intros [|w m] i; cbn [values_text map].
  - tauto.
  - split; [intros H; vm_compute in H; discriminate H|discriminate].
  - split; [intros H; vm_compute in H; discriminate H|discriminate].
  - split.
    + intros H. do 3 apply app_inv_head in H. apply first_feed in H as [H1 H2]; [|apply value_one_line|apply value_one_line].
      apply value_summary in H1. apply IH in H2. congruence.
    + intros H. injection H as H1 H2. apply value_summary in H1. apply (IH m (i + 1)) in H2. now rewrite H1, H2.
Qed.

Lemma block_display b c : block_text b = block_text c <->
  bk_start b = bk_start c /\ bk_end b = bk_end c /\ bk_size_start b = bk_size_start c /\ bk_content_size b = bk_content_size c /\
  map summary (bk_content b) = map summary (bk_content c).
Proof.
  unfold block_text. split.
  - intros H. do 3 apply app_inv_head in H. apply dec_split in H as [-> H]; [|reflexivity|reflexivity]. split; [reflexivity|].
    change (bstr " - " ++ dec (bk_end b) ++ [x0a] ++ bstr "  Block size: " ++ dec (bk_size_start b) ++ bstr " bytes" ++ [x0a] ++ bstr "  Content size: " ++
            dec (bk_content_size b) ++ bstr " bytes" ++ [x0a] ++ bstr "  Blocks: " ++ dec (len (bk_content b)) ++ [x0a] ++ values_text 1 (bk_content b) =
            bstr " - " ++ dec (bk_end c) ++ [x0a] ++ bstr "  Block size: " ++ dec (bk_size_start c) ++ bstr " bytes" ++ [x0a] ++ bstr "  Content size: " ++
            dec (bk_content_size c) ++ bstr " bytes" ++ [x0a] ++ bstr "  Blocks: " ++ dec (len (bk_content c)) ++ [x0a] ++ values_text 1 (bk_content c)) in H.
    apply app_inv_head in H. apply dec_split in H as [-> H]; [|reflexivity|reflexivity]. split; [reflexivity|].
    injection H as H. apply dec_split in H as [-> H]; [|reflexivity|reflexivity]. split; [reflexivity|].
    injection H as H. apply dec_split in H as [-> H]; [|reflexivity|reflexivity]. split; [reflexivity|].
    injection H as H. apply dec_split in H as [_ H]; [|reflexivity|reflexivity]. injection H as H.
    now apply values_summary in H.
  - intros (-> & -> & -> & -> & H).
    assert (L : len (bk_content b) = len (bk_content c)) by (unfold len; apply (f_equal (@List.length _)) in H; rewrite !map_length in H; now rewrite H).
    apply (values_summary _ _ 1) in H. now rewrite L, H.
Qed.

(** Every value is one line. *)
Lemma feeds_app a b : feeds (a ++ b) = (feeds a + feeds b)%nat.
Proof. induction a as [|x a IH]; [reflexivity|]. cbn [app feeds]. rewrite IH. lia. Qed.
Lemma feeds_one t : one_line t -> feeds t = 0%nat.
Proof.
  induction t as [|x t IH]; [reflexivity|]. intros H. apply one_line_cons in H as [H1 H2]. cbn [feeds]. rewrite (IH H2).
  destruct (Byte.eqb x x0a) eqn:E; [|reflexivity]. destruct x; try discriminate E. now destruct H1.
Qed.
Lemma block_lines b : feeds (block_text b) = (5 + List.length (bk_content b))%nat.
Proof.
  unfold block_text. repeat rewrite feeds_app. repeat rewrite (feeds_one (dec _)) by apply dec_one_line.
  enough (G : forall l i, feeds (values_text i l) = List.length l) by (rewrite G; reflexivity).
  induction l as [|v l IH]; intros i; [reflexivity|]. cbn [values_text]. repeat rewrite feeds_app. rewrite (feeds_one (dec _)) by apply dec_one_line.
  rewrite (feeds_one (value_text v)) by apply value_one_line. rewrite IH. reflexivity.
Qed.
