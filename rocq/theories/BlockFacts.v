(** BlockFacts.v - parsers of elf_section_info.rs and signing_block/mod.rs
    recognise the grammar of Wire.v; no parser panics or runs out of fuel *)
From Verif Require Import Base BaseFacts Utils ParseFacts Algorithms Common SchemeV2 SourceStamp
  Utf8 Utf8Facts ElfInfo SigningBlock Wire CodecFacts.

Lemma entry_recognises : recognises entry_parse W_entry.
Proof.
  split.
  - intros [nl nm o s] raw r rest (->&H1&H2&H3&H4&H5) Hw Hr. prj.
    unfold entry_parse. unread. rewrite <- !app_assoc in Hr. rd. rd.
    rewrite utf8_dec_enc by auto. cbn [of_option bind]. rd. rd. fin_adv.
  - intros r x r' Hw H. unfold entry_parse in H. unread. repeat inv1.
    apply bind_Ok in H as (nm&Hn&H). apply of_option_Ok in Hn. apply utf8_dec_inv in Hn as [HF <-].
    repeat inv1.
    eexists. split.
    { split; [ reflexivity | ]. prj. split; [ assumption | ]. split; [ reflexivity | ].
      split; [ bounds | ]. split; bounds. }
    prj. split; [ fin_adv | ]. split; [ chain | assumption ].
Qed.
Lemma entry_nonempty : nonempty_raw W_entry.
Proof. intros x raw (->&_). rewrite !len_app, !len_le. lia. Qed.

Lemma entries_parse_ok xs : forall raws r rest fuel count,
  Forall2 W_entry xs raws -> rwf r -> rem r = concat raws ++ rest ->
  count = len xs -> (length xs <= fuel)%nat ->
  entries_parse fuel count r = Ok (xs, adv r (len (concat raws))).
Proof.
  induction xs as [|x xs IH]; intros raws r rest fuel count HF Hw Hr -> Hf.
  - inversion HF; subst. cbn [concat]. rewrite len_nil, adv_0. destruct fuel; reflexivity.
  - inversion HF as [|? raw ? raws' HR HF']; subst. cbn [concat] in *. rewrite <- app_assoc in Hr.
    rewrite len_cons. destruct fuel as [|fuel]; [ cbn in Hf; lia | ].
    cbn [entries_parse]. replace (1 + len xs =? 0) with false by lia.
    rewrite (proj1 entry_recognises _ _ r _ HR Hw Hr). cbn [bind].
    rewrite (IH raws' (adv r (len raw)) rest); auto.
    + cbn [bind]. rewrite len_app, adv_adv. reflexivity.
    + eapply rwf_adv; eauto.
    + eapply rem_adv; eauto.
    + lia.
    + cbn in Hf; lia.
Qed.
Lemma entries_parse_inv fuel : forall count r xs r',
  rwf r -> entries_parse fuel count r = Ok (xs, r') ->
  exists raws, Forall2 W_entry xs raws /\ count = len xs /\
    r' = adv r (len (concat raws)) /\ rem r = concat raws ++ rem r' /\ rwf r'.
Proof.
  assert (base : forall count r, rwf r -> (count =? 0) = true ->
    exists raws, Forall2 W_entry [] raws /\ count = len (@nil section_entry) /\ r = adv r (len (concat raws)) /\
    rem r = concat raws ++ rem r /\ rwf r).
  { intros count r Hw E. exists []. cbn [concat]. rewrite !len_nil, adv_0.
    split; [ constructor | ]. split; [ lia | ]. split; [ auto | ]. split; auto. }
  induction fuel as [|fuel IH]; intros count r xs r' Hw H; cbn [entries_parse] in H;
    destruct (count =? 0) eqn:E.
  - injection H as <- <-. eauto.
  - discriminate.
  - injection H as <- <-. eauto.
  - apply bind_Ok in H as ((x&r1)&H1&H2). apply bind_Ok in H2 as ((xs'&r2)&H2&H3).
    injection H3 as <- <-.
    apply (proj2 entry_recognises) in H1 as (raw&HR&->&Hrem&Hw1); auto.
    apply IH in H2 as (raws&HF&Hc&->&Hrem2&Hw2); auto.
    exists (raw :: raws). cbn [concat]. rewrite len_app, adv_adv, len_cons in *.
    split; [ constructor; auto | ]. split; [ lia | ]. split; [ auto | ].
    split; [ rewrite Hrem, Hrem2, app_assoc; auto | auto ].
Qed.
(** A count larger than the data makes an entry fail, it never exhausts the fuel. *)
Lemma pfine_entries_parse fuel : forall count r,
  (forall r, rwf r -> pfine (entry_parse r)) ->
  rwf r -> (N.to_nat (rlen r - rpos r) < fuel)%nat -> pfine (entries_parse fuel count r).
Proof.
  induction fuel as [|fuel IH]; intros count r Hfe Hw Hf; [ lia | ].
  cbn [entries_parse]. destruct (count =? 0); [ exact I | ].
  apply pfine_bind; [ auto | ]. intros [x r1] H1.
  destruct (proj2 entry_recognises _ _ _ Hw H1) as (raw&HR&->&Hr&Hw1).
  apply pfine_bind.
  - apply IH; auto. pose proof (entry_nonempty _ _ HR). pose proof (rem_le _ _ _ Hw Hr).
    rewrite rlen_adv, rpos_adv. lia.
  - intros [xs r2] _. exact I.
Qed.

Definition W_elf (size id : N) (i : elf_info) (raw : bytes) : Prop :=
  W_info i raw /\ ei_size i = size /\ ei_id i = id.

Lemma info_recognises size id : recognises (info_parse size id) (W_elf size id).
Proof.
  split.
  - intros [sz i c l] raw r rest ((raws&HF&->&H1&H2)&H3&H4) Hw Hr. prj. subst.
    unfold info_parse. unread. rewrite <- !app_assoc in Hr. rd.
    erewrite (entries_parse_ok l raws); eauto.
    + cbn [bind]. fin_adv.
    + eapply loop_fuel_enough; eauto. exact entry_nonempty.
  - intros r x r' Hw H. unfold info_parse in H. unread. repeat inv1.
    apply bind_Ok in H as ((l&r2)&H9&H). inv1.
    destruct (entries_parse_inv _ _ _ _ _ ltac:(eassumption) H9) as (raws&HF&Hc&->&Hr&Hw').
    eexists. split.
    { split; [ | split; reflexivity ]. exists raws. split; [ exact HF | ]. prj.
      split; [ reflexivity | ]. split; [ assumption | bounds ]. }
    prj. split; [ fin_adv | ]. split; [ chain | assumption ].
Qed.

Lemma len_pair id body : len (pair id body) = 12 + len body.
Proof. unfold pair. rewrite !len_app, !len_le. lia. Qed.
Lemma value_nonempty : nonempty_raw W_value.
Proof. intros x raw (b&->&_). rewrite len_pair. lia. Qed.

Lemma value_recognises : recognises value_parse W_value.
Proof.
  split.
  - intros v raw r rest (body&->&H1&H2&Hv) Hw Hr.
    unfold value_parse. unread. unfold pair in Hr. rewrite <- !app_assoc in Hr.
    assert (Hb : 4 + len body < U64) by (unfold MAX_PAIR_SIZE, U64 in *; lia).
    assert (Hid : value_id v < U32).
    { destruct v as [[? ? ?]|[? ? ?]|[? ? ?]|[? ? ? ?]]; cbn in *; destruct Hv as (Hv&Hv'); subst;
        try reflexivity; tauto. }
    rd. replace (MAX_PAIR_SIZE <? 4 + len body) with false by lia.
    rd. replace (4 + len body <? 4) with false by lia.
    rd. match goal with Hs : rwf (new_reader _) |- _ => rename Hs into Hsub end.
    unfold pair. destruct v as [[? ? ?]|[? ? ?]|[? ? ?]|[? ? ? ?]]; prj.
    + destruct Hv as (->&_&Hv1&Hv2&Hv3). apply N.eqb_neq in Hv1, Hv2, Hv3. rewrite Hv1, Hv2, Hv3.
      cbn [rdata new_reader]. subst rw_size. fin_adv.
    + destruct Hv as (->&x&j&Hx&->). subst v2_size. rewrite N.eqb_refl. unfold v2_parse.
      pose proof (rem_new (x ++ j)) as Hr'.
      rewrite (proj1 signers_recognises _ _ _ _ Hx Hsub Hr'). cbn [bind]. fin_adv.
    + destruct Hv as (->&x&j&Hx&->). subst ss_size. rewrite N.eqb_refl.
      replace (SOURCE_STAMP_BLOCK_ID =? SIGNATURE_SCHEME_V2_BLOCK_ID) with false by reflexivity.
      unfold ss_parse. pose proof (rem_new (x ++ j)) as Hr'.
      rewrite (proj1 sb_recognises _ _ _ _ Hx Hsub Hr'). cbn [bind]. fin_adv.
    + destruct Hv as (->&x&j&Hx&->). subst ei_size. rewrite N.eqb_refl.
      replace (ELF_SECTION_INFO_BLOCK_ID =? SIGNATURE_SCHEME_V2_BLOCK_ID) with false by reflexivity.
      replace (ELF_SECTION_INFO_BLOCK_ID =? SOURCE_STAMP_BLOCK_ID) with false by reflexivity.
      pose proof (rem_new (x ++ j)) as Hr'.
      erewrite (proj1 (info_recognises _ _) (mkInfo _ _ _ _) _ _ _ _ Hsub Hr').
      cbn [bind]. fin_adv.
      Unshelve. split; [ exact Hx | split; reflexivity ].
  - intros r x r' Hw H. unfold value_parse in H. unread. repeat inv1.
    destruct (MAX_PAIR_SIZE <? v) eqn:E1; [ discriminate | ].
    repeat inv1.
    destruct (v <? 4) eqn:E2; [ discriminate | ].
    repeat inv1.
    match goal with Hl : len sd = _ |- _ => rename Hl into Hlen end.
    assert (Hv : v = 4 + len sd) by lia.
    assert (Hfin : forall x' r0, Ok (x', adv (adv (adv r (N.of_nat 8)) (N.of_nat 4)) (v - 4)) = Ok (x, r0) ->
      x' = x /\ r0 = adv r (len (pair v0 sd))).
    { intros x' r0 E. injection E as -> <-. split; auto.
      rewrite len_pair. rewrite !adv_adv. f_equal. lia. }
    assert (Hfin2 : W_value x (pair v0 sd) -> r' = adv r (len (pair v0 sd)) ->
      exists raw, W_value x raw /\ r' = adv r (len raw) /\ rem r = raw ++ rem r' /\ rwf r').
    { intros Hx ->. exists (pair v0 sd). split; [ exact Hx | ]. split; [ reflexivity | ].
      assert (E : adv (adv (adv r (N.of_nat 8)) (N.of_nat 4)) (v - 4) = adv r (len (pair v0 sd))).
      { rewrite len_pair, !adv_adv. f_equal. lia. }
      rewrite E in *. split; [ | assumption ]. unfold pair at 1. rewrite <- Hv. chain. }
    match goal with Hs : rwf (new_reader _) |- _ => rename Hs into Hsub end.
    destruct (v0 =? SIGNATURE_SCHEME_V2_BLOCK_ID) eqn:EV.
    { apply N.eqb_eq in EV. unfold v2_parse in H. apply bind_Ok in H as ((x1&r1)&H9&H).
      apply Hfin in H as [<- ->].
      apply bind_Ok in H9 as ((x2&r3)&H10&H9). injection H9 as <- <-.
      apply (proj2 signers_recognises) in H10 as (raw&Hx&->&Hr2&_); [ | assumption ].
      rewrite rem_new in Hr2. apply Hfin2; auto.
      exists sd. prj. rewrite <- Hv. split; [ auto | ]. split; [ auto | ]. split; [ lia | ].
      split; [ auto | ]. eauto. }
    destruct (v0 =? SOURCE_STAMP_BLOCK_ID) eqn:ES.
    { apply N.eqb_eq in ES. unfold ss_parse in H. apply bind_Ok in H as ((x1&r1)&H9&H).
      apply Hfin in H as [<- ->].
      apply bind_Ok in H9 as ((x2&r3)&H10&H9). injection H9 as <- <-.
      apply (proj2 sb_recognises) in H10 as (raw&Hx&->&Hr2&_); [ | assumption ].
      rewrite rem_new in Hr2. apply Hfin2; auto.
      exists sd. prj. rewrite <- Hv. split; [ auto | ]. split; [ auto | ]. split; [ lia | ].
      split; [ auto | ]. eauto. }
    destruct (v0 =? ELF_SECTION_INFO_BLOCK_ID) eqn:EE.
    { apply N.eqb_eq in EE. apply bind_Ok in H as ((x1&r1)&H9&H).
      apply Hfin in H as [<- ->].
      apply (proj2 (info_recognises _ _)) in H9 as (raw&(Hx&Hx1&Hx2)&->&Hr2&_); [ | assumption ].
      rewrite rem_new in Hr2. apply Hfin2; auto.
      + exists sd. prj. rewrite <- Hv. rewrite Hx1, Hx2. split; [ auto | ]. split; [ auto | ]. split; [ lia | ].
        split; [ auto | ]. eauto. }
    apply Hfin in H as [<- ->]. apply Hfin2; auto.
    apply N.eqb_neq in EV, ES, EE.
    exists sd. prj. rewrite <- Hv. cbn [rdata new_reader].
    split; [ auto | ]. split; [ auto | ]. split; [ lia | ]. split; [ auto | ]. split; [ bounds | auto ].
Qed.

Lemma values_recognised r l : rwf r -> rpos r = 0 ->
  (extract_values r = Ok l <-> W_values l (rdata r)).
Proof.
  intros Hw H0. assert (Er : r = new_reader (rdata r)) by (destruct r; cbn in *; subst; auto).
  unfold extract_values. split.
  - intros H. apply bind_Ok in H as ((l'&r')&H&H1). injection H1 as ->.
    rewrite Er in H at 2 3. rewrite Er in Hw.
    destruct (sub_list_inv _ _ _ _ _ _ _ (proj2 value_recognises) Hw eq_refl H) as (raws&HF&E).
    exists raws. split; auto.
  - intros (raws&HF&E). rewrite Er, E.
    destruct (sub_list_ok value_parse W_value l raws (rlen (new_reader (concat raws)))) as [r' ->];
      auto using value_nonempty.
    + apply value_recognises.
    + rewrite <- E, <- Er. auto.
Qed.

(** ** Parsers never panic and never run out of fuel *)
Ltac pfine_step :=
  match goal with
  | |- pfine (Ok _) => exact I
  | |- pfine (Err _) => reflexivity
  | |- pfine (bind (read_le _ _) _) =>
      apply pfine_bind; [ apply pfine_read_le | intros [? ?] ?;
        match goal with H : read_le _ _ = Ok _ |- _ => apply read_le_inv in H as (?&?&?&?); [ | assumption ] end ]
  | |- pfine (bind (get_to _ _) _) =>
      apply pfine_bind; [ apply pfine_get_to | intros [? ?] ?;
        match goal with H : get_to _ _ = Ok _ |- _ => apply get_to_inv in H as (?&?&?&?); [ | assumption ] end ]
  | |- pfine (bind (as_slice _ _) _) =>
      apply pfine_bind; [ apply pfine_as_slice | intros [? ?] ?;
        match goal with H : as_slice _ _ = Ok _ |- _ =>
          apply as_slice_inv in H as (?&->&?&?&?&?&?); [ | assumption ] end ]
  | |- pfine (if ?b then _ else _) => destruct b eqn:?
  end.
Ltac pfine_p Hf Ho :=
  apply pfine_bind; [ apply Hf; assumption | intros [? ?] ?;
    match goal with H : _ = Ok _ |- _ => apply Ho in H as (?&?&?&?&?); [ | assumption ] end ].

Lemma digest_pfine r : rwf r -> pfine (digest_parse r).
Proof. intros. unfold digest_parse. unread. repeat pfine_step. Qed.
Lemma cert_pfine r : rwf r -> pfine (cert_parse r).
Proof. intros. unfold cert_parse. unread. repeat pfine_step. Qed.
Lemma pub_pfine r : rwf r -> pfine (pub_parse r).
Proof. intros. unfold pub_parse. unread. repeat pfine_step. Qed.
Lemma sig_pfine r : rwf r -> pfine (sig_parse r).
Proof. intros. unfold sig_parse. unread. repeat pfine_step. Qed.
Lemma attr_pfine r : rwf r -> pfine (attr_parse r).
Proof. intros. unfold attr_parse. unread. repeat pfine_step. Qed.
Lemma entry_pfine r : rwf r -> pfine (entry_parse r).
Proof.
  intros. unfold entry_parse. unread. repeat pfine_step.
  apply pfine_bind; [ apply pfine_of_option; auto | ]. intros. repeat pfine_step.
Qed.
Lemma digests_pfine r : rwf r -> pfine (digests_parse r).
Proof.
  intros. unfold digests_parse. unread. repeat pfine_step.
  apply pfine_bind; [ | intros [? ?] _; exact I ].
  eapply pfine_parse_loop; eauto using digest_nonempty, digest_pfine. apply digest_recognises.
Qed.
Lemma certs_pfine r : rwf r -> pfine (certs_parse r).
Proof.
  intros. unfold certs_parse. unread. repeat pfine_step.
  apply pfine_bind; [ | intros [? ?] _; exact I ].
  eapply pfine_parse_loop; eauto using cert_nonempty, cert_pfine. apply cert_recognises.
Qed.
Lemma attrs_pfine r : rwf r -> pfine (attrs_parse r).
Proof.
  intros. unfold attrs_parse. unread. repeat pfine_step.
  apply pfine_bind; [ | intros [? ?] _; exact I ].
  eapply pfine_parse_loop; eauto using attr_nonempty, attr_pfine. apply attr_recognises.
Qed.
Lemma sigs_pfine r : rwf r -> pfine (sigs_parse r).
Proof.
  intros. unfold sigs_parse. unread. repeat pfine_step.
  apply pfine_bind; [ | intros [? ?] _; exact I ].
  eapply pfine_parse_loop; eauto using sig_nonempty, sig_pfine. apply sig_recognises.
Qed.
Lemma sd_pfine r : rwf r -> pfine (sd_parse r).
Proof.
  intros. unfold sd_parse. unread. repeat pfine_step.
  pfine_p digests_pfine (proj2 digests_recognises). pfine_p certs_pfine (proj2 certs_recognises).
  pfine_p attrs_pfine (proj2 attrs_recognises). exact I.
Qed.
Lemma signer_pfine r : rwf r -> pfine (signer_parse r).
Proof.
  intros. unfold signer_parse. unread. repeat pfine_step.
  pfine_p sd_pfine (proj2 sd_recognises). pfine_p sigs_pfine (proj2 sigs_recognises).
  pfine_p pub_pfine (proj2 pub_recognises). exact I.
Qed.
Lemma signers_pfine r : rwf r -> pfine (signers_parse r).
Proof.
  intros. unfold signers_parse. unread. repeat pfine_step.
  apply pfine_bind; [ | intros [? ?] _; exact I ].
  eapply pfine_parse_loop; eauto using signer_nonempty, signer_pfine. apply signer_recognises.
Qed.
Lemma std_pfine r : rwf r -> pfine (std_parse r).
Proof.
  intros. unfold std_parse. unread. repeat pfine_step.
  pfine_p digests_pfine (proj2 digests_recognises). pfine_p certs_pfine (proj2 certs_recognises).
  pfine_p attrs_pfine (proj2 attrs_recognises). exact I.
Qed.
Lemma sb_pfine r : rwf r -> pfine (sb_parse r).
Proof.
  intros. unfold sb_parse. unread. repeat pfine_step.
  pfine_p std_pfine (proj2 std_recognises). pfine_p sigs_pfine (proj2 sigs_recognises).
  pfine_p pub_pfine (proj2 pub_recognises). exact I.
Qed.
Lemma info_pfine size id r : rwf r -> pfine (info_parse size id r).
Proof.
  intros. unfold info_parse. unread. repeat pfine_step.
  apply pfine_bind; [ | intros [? ?] _; exact I ].
  apply pfine_entries_parse; auto using entry_pfine. subst. unfold loop_fuel, rlen, len. lia.
Qed.
Lemma value_pfine r : rwf r -> pfine (value_parse r).
Proof.
  intros. unfold value_parse. unread. repeat pfine_step.
  - apply pfine_bind; [ | intros [? ?] _; exact I ]. unfold v2_parse.
    apply pfine_bind; [ apply signers_pfine; auto | intros [? ?] _; exact I ].
  - apply pfine_bind; [ | intros [? ?] _; exact I ]. unfold ss_parse.
    apply pfine_bind; [ apply sb_pfine; auto | intros [? ?] _; exact I ].
  - apply pfine_bind; [ apply info_pfine; auto | intros [? ?] _; exact I ].
Qed.
Lemma extract_pfine r : rwf r -> pfine (extract_values r).
Proof.
  intros. unfold extract_values. apply pfine_bind; [ | intros [? ?] _; exact I ].
  eapply pfine_parse_loop; eauto using value_nonempty, value_pfine. apply value_recognises.
Qed.

(** ** Whole blocks *)
Definition parsed_block (data : bytes) (l : list value) : signing_block :=
  mkBlock 0 (len data) (len data - 8) (len data - 32) l (len data - 8) MAGIC.

Lemma len_MAGIC : len MAGIC = 16. Proof. reflexivity. Qed.
Lemma len_block_layout pairs : len (block_layout pairs) = len pairs + 32.
Proof. unfold block_layout. rewrite !len_app, !len_le, len_MAGIC. lia. Qed.

Lemma parse_full_ok p data l :
  len data < U64 -> W_block l data -> parse_full_block p data = Ok (parsed_block data l).
Proof.
  intros Hl (pairs&HV&->). unfold parse_full_block. rewrite len_block_layout in *.
  unfold SIZE_UINT64, MAGIC_LEN.
  replace (len pairs + 32 <? 8 + 8 + 16) with false by lia.
  assert (E1 : dropN (len pairs + 32 - 16) (block_layout pairs) = MAGIC).
  { unfold block_layout. rewrite !app_assoc. apply dropN_app_eq. rewrite !len_app, !len_le. lia. }
  assert (E2 : takeN 8 (block_layout pairs) = le 8 (len pairs + 24)).
  { unfold block_layout. apply takeN_app_eq. rewrite len_le. auto. }
  assert (E3 : takeN 8 (dropN (len pairs + 32 - 16 - 8) (block_layout pairs)) = le 8 (len pairs + 24)).
  { unfold block_layout. rewrite (app_assoc (le 8 _) pairs), dropN_app_eq by (rewrite !len_app, !len_le; lia).
    apply takeN_app_eq. rewrite len_le. auto. }
  assert (E4 : takeN (len pairs + 32 - 16 - 8 - 8) (dropN 8 (block_layout pairs)) = pairs).
  { unfold block_layout. rewrite dropN_app_eq by (rewrite !len_le; lia). apply takeN_app_eq. lia. }
  rewrite E1, E2, E3, E4, beq_refl. cbn [negb]. rewrite un_le8 by lia. rewrite N.eqb_refl. cbn [negb].
  assert (E5 : debug_assert p true = Ok tt) by (destruct p; auto). rewrite E5. cbn [bind].
  replace (len pairs + 24 <? 8 + 16) with false by lia.
  rewrite uadd_ok by lia. cbn [bind].
  replace (len pairs + 32 =? len pairs + 24 + 8) with true by lia. cbn [negb].
  replace (extract_values (new_reader pairs)) with (Ok l).
  - cbn [map_err bind]. unfold parsed_block. rewrite len_block_layout. f_equal. f_equal; lia.
  - symmetry. apply values_recognised; auto. apply rwf_new. lia.
Qed.

Lemma takeN_dropN_split {A} (l : list A) a b : takeN a l ++ takeN b (dropN a l) ++ dropN (a + b) l = l.
Proof.
  rewrite <- dropN_dropN. rewrite take_drop. apply take_drop.
Qed.

Lemma parse_full_inv p data b :
  len data < U64 -> parse_full_block p data = Ok b ->
  W_block (bk_content b) data /\ b = parsed_block data (bk_content b).
Proof.
  intros Hl H. unfold parse_full_block, SIZE_UINT64, MAGIC_LEN in H.
  destruct (len data <? 8 + 8 + 16) eqn:E1; [ discriminate | ].
  destruct (beq _ MAGIC) eqn:E2; [ | discriminate ]. apply beq_eq in E2. cbn [negb] in H.
  apply bind_Ok in H as ([]&_&H).
  destruct (un_le (takeN 8 data) =? _) eqn:E3; [ | discriminate ]. apply N.eqb_eq in E3. cbn [negb] in H.
  destruct (_ <? 8 + 16) eqn:E4; [ discriminate | ].
  apply bind_Ok in H as (ex&H1&H).
  destruct (len data =? ex) eqn:E5; [ | discriminate ]. apply N.eqb_eq in E5. cbn [negb] in H.
  apply bind_Ok in H as (l&H2&H). apply (f_equal (fun x => match x with Ok y => y | _ => b end)) in H.
  cbn in H. apply map_err_Ok in H2.
  set (inner := takeN (len data - 16 - 8 - 8) (dropN 8 data)) in *.
  set (e := un_le (takeN 8 (dropN (len data - 16 - 8) data))) in *.
  assert (He : e + 8 < U64).
  { unfold uadd in H1. destruct (e + 8 <? U64) eqn:E6; [ lia | ].
    destruct p; [ discriminate | ]. injection H1 as <-.
    assert (e < U64).
    { pose proof (un_le_bound (takeN 8 (dropN (len data - 16 - 8) data))) as Hb.
      fold e in Hb. rewrite len_takeN, len_dropN in Hb.
      replace (N.min 8 (len data - (len data - 16 - 8))) with 8 in Hb by lia. exact Hb. }
    unfold U64 in *. lia. }
  rewrite uadd_ok in H1 by auto. injection H1 as <-.
  assert (Hi : len inner = len data - 32) by (unfold inner; rewrite len_takeN, len_dropN; lia).
  apply values_recognised in H2; [ | apply rwf_new; lia | auto ]. cbn [rdata new_reader] in H2.
  assert (Hd : data = block_layout inner).
  { unfold block_layout. rewrite Hi. replace (len data - 32 + 24) with e by lia.
    rewrite <- E3 at 1. unfold e.
    rewrite le_un_le' by (rewrite length_len, len_takeN; lia).
    rewrite le_un_le' by (rewrite length_len, len_takeN, len_dropN; lia).
    rewrite <- E2.
    rewrite <- (take_drop 8 data) at 1. f_equal.
    rewrite <- (take_drop (len data - 16 - 8 - 8) (dropN 8 data)) at 1. f_equal.
    rewrite dropN_dropN. replace (8 + (len data - 16 - 8 - 8)) with (len data - 16 - 8) by lia.
    rewrite <- (take_drop 8 (dropN (len data - 16 - 8) data)) at 1. f_equal.
    rewrite dropN_dropN. f_equal. lia. }
  subst b. cbn [bk_content]. split.
  - exists inner. auto.
  - unfold parsed_block. rewrite E3. f_equal; lia.
Qed.

Lemma parse_full_fine data : len data < U64 -> fine (parse_full_block Release data).
Proof.
  intros Hl. unfold parse_full_block.
  destruct (_ <? _); [ reflexivity | ]. destruct (negb _); [ reflexivity | ]. cbn [debug_assert bind].
  destruct (negb _); [ reflexivity | ]. destruct (_ <? _); [ reflexivity | ].
  apply fine_bind; [ apply fine_uadd_release | ]. intros. destruct (negb _); [ reflexivity | ].
  apply fine_bind; [ | intros; exact I ]. apply fine_map_err; auto.
  apply pfine_fine, extract_pfine. apply rwf_new. rewrite len_takeN, len_dropN. lia.
Qed.
