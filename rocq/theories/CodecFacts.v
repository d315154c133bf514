(** CodecFacts.v - every parser of common.rs, scheme_v2.rs, source_stamp.rs
    recognises exactly the grammar of Wire.v *)
From Verif Require Import Base BaseFacts Utils ParseFacts Algorithms Common SchemeV2 SourceStamp
  Utf8 ElfInfo SigningBlock Wire.

Lemma reaches_stops raws : forall size, reaches size raws <-> stops len size raws.
Proof.
  induction raws as [|x r IH]; intros size; cbn [stops].
  - split.
    + intros [H _]. cbn in H. rewrite ?len_nil in H. lia.
    + intros ->. split; [ cbn; lia | ]. intros a b H Hb.
      symmetry in H; apply app_eq_nil in H. tauto.
  - rewrite <- IH. split.
    + intros [H1 H2]. cbn [concat] in H1. rewrite len_app in H1. split.
      * specialize (H2 [] (x :: r) eq_refl ltac:(discriminate)). cbn in H2. rewrite ?len_nil in H2. lia.
      * split; [ lia | ]. intros a b -> Hb.
        specialize (H2 (x :: a) b eq_refl Hb). cbn [concat] in H2. rewrite len_app in H2. lia.
    + intros [H0 [H1 H2]]. split.
      * cbn [concat]. rewrite len_app. lia.
      * intros [|y a] b E Hb; [ cbn; rewrite ?len_nil; lia | ].
        cbn in E. injection E as <- ->. specialize (H2 a b eq_refl Hb).
        cbn [concat]. rewrite len_app. lia.
Qed.

Lemma canonical_of_u32 id : id < U32 -> canonical (algo_of_u32 id).
Proof.
  unfold algo_of_u32, canonical. intros H.
  destruct (id =? SIGNATURE_ECDSA_256) eqn:E; auto.
  destruct (id =? SIGNATURE_ECDSA_512) eqn:E2; auto.
  apply N.eqb_neq in E, E2. auto.
Qed.
Lemma u32_of_algo_of_u32 id : u32_of_algo (algo_of_u32 id) = id.
Proof.
  unfold algo_of_u32.
  destruct (id =? SIGNATURE_ECDSA_256) eqn:E; [ apply N.eqb_eq in E; auto | ].
  destruct (id =? SIGNATURE_ECDSA_512) eqn:E2; [ apply N.eqb_eq in E2; auto | ]. auto.
Qed.
Lemma algo_of_u32_of_algo a : canonical a -> algo_of_u32 (u32_of_algo a) = a.
Proof.
  destruct a; cbn; auto. intros (H1&H2&_). unfold algo_of_u32.
  apply N.eqb_neq in H1, H2. rewrite H1, H2. auto.
Qed.
Lemma u32_of_algo_bound a : canonical a -> u32_of_algo a < U32.
Proof. destruct a; cbn; [ reflexivity | reflexivity | tauto ]. Qed.

(** ** Tactics *)
Ltac bounds := first [ assumption | lia | (unfold U16, U32, U64 in *; cbn in *; lia) ].
Ltac unread := unfold read_size, read_size_u64, read_u16, read_u32, read_u64 in *.

(** forward reading *)
Ltac rd :=
  match goal with
  | Hw : rwf ?r, Hr : rem ?r = le ?k ?v ++ ?rest |- context [read_le ?k ?r] =>
      rewrite (read_le_ok k r v rest Hw Hr) by bounds; cbn [bind];
      let Hw' := fresh "Hw" in let Hr' := fresh "Hr" in
      pose proof (rwf_adv_eq r (le k v) rest (N.of_nat k) Hw Hr (eq_sym (len_le k v))) as Hw';
      pose proof (rem_adv_eq r (le k v) rest (N.of_nat k) Hr (eq_sym (len_le k v))) as Hr';
      clear Hw Hr; rename Hw' into Hw; rename Hr' into Hr
  | Hw : rwf ?r, Hr : rem ?r = ?d ++ ?rest |- context [get_to ?r ?n] =>
      replace n with (len d) by (first [ assumption | congruence | lia ]);
      rewrite (get_to_ok r d rest Hw Hr); cbn [bind];
      let Hw' := fresh "Hw" in let Hr' := fresh "Hr" in
      pose proof (rwf_adv r d rest Hw Hr) as Hw';
      pose proof (rem_adv r d rest Hr) as Hr';
      clear Hw Hr; rename Hw' into Hw; rename Hr' into Hr
  | Hw : rwf ?r, Hr : rem ?r = ?d ++ ?rest |- context [as_slice ?r ?n] =>
      replace n with (len d) by (first [ assumption | congruence | lia ]);
      rewrite (as_slice_ok r d rest Hw Hr); cbn [bind];
      let Hw' := fresh "Hw" in let Hr' := fresh "Hr" in let Hl := fresh "Hl" in
      pose proof (rem_le r d rest Hw Hr) as Hl;
      pose proof (rwf_adv r d rest Hw Hr) as Hw';
      pose proof (rem_adv r d rest Hr) as Hr';
      assert (rwf (new_reader d)) by (apply rwf_new; destruct Hw; lia);
      clear Hl;
      clear Hw Hr; rename Hw' into Hw; rename Hr' into Hr
  end.
(** use an [accepts] fact [Ha] about the parser [p], for value [x] and bytes [raw] *)
Ltac rdp Ha HR :=
  match type of HR with
  | ?R ?x ?raw =>
    match goal with
    | Hw : rwf ?r, Hr : rem ?r = raw ++ ?rest |- _ =>
      rewrite (Ha x raw r rest HR Hw Hr); cbn [bind];
      let Hw' := fresh "Hw" in let Hr' := fresh "Hr" in
      pose proof (rwf_adv r raw rest Hw Hr) as Hw';
      pose proof (rem_adv r raw rest Hr) as Hr';
      clear Hw Hr; rename Hw' into Hw; rename Hr' into Hr
    end
  end.
Ltac fin_adv := rewrite ?adv_adv; repeat f_equal; rewrite ?len_app, ?len_le; try lia.

(** backward: invert one bind *)
Ltac inv1 :=
  match goal with
  | H : bind (read_le _ _) _ = Ok _ |- _ =>
      let v := fresh "v" in let r := fresh "r" in let H1 := fresh "H" in
      apply bind_Ok in H as ((v&r)&H1&H); apply read_le_inv in H1 as (->&?&?&?); [ | assumption ]
  | H : bind (get_to _ _) _ = Ok _ |- _ =>
      let v := fresh "d" in let r := fresh "r" in let H1 := fresh "H" in
      apply bind_Ok in H as ((v&r)&H1&H); apply get_to_inv in H1 as (->&?&?&?); [ | assumption ]
  | H : bind (as_slice _ _) _ = Ok _ |- _ =>
      let v := fresh "s" in let r := fresh "r" in let d := fresh "sd" in let H1 := fresh "H" in
      apply bind_Ok in H as ((v&r)&H1&H);
      apply as_slice_inv in H1 as (d&->&?&->&?&?&?); [ | assumption ]
  | H : Ok _ = Ok _ |- _ => injection H; clear H; intros; subst
  end.
Ltac invp Ho :=
  match goal with
  | H : bind (?p ?r) _ = Ok _ |- _ =>
      let x := fresh "x" in let r' := fresh "r" in let H1 := fresh "H" in let raw := fresh "raw" in
      apply bind_Ok in H as ((x&r')&H1&H); apply Ho in H1 as (raw&?&->&?&?); [ | assumption ]
  end.

Ltac norm :=
  change (N.of_nat 4) with 4 in *; change (N.of_nat 8) with 8 in *; change (N.of_nat 2) with 2 in *;
  change (256 ^ 4) with U32 in *; change (256 ^ 8) with U64 in *; change (256 ^ 2) with U16 in *.
Ltac chain := rewrite <- ?app_assoc in *; norm; congruence.

Ltac prj := cbn [dg_size dg_algo dg_digest dgs_size dgs_data ct_size ct_data cts_size cts_data
  sg_size sg_algo sg_data sgs_size sgs_data at_size at_id at_data ats_size ats_data pk_size pk_data
  sd_size sd_digests sd_certs sd_attrs sn_size sn_data sn_sigs sn_key sns_size sns_data
  st_digests st_certs st_attrs sb_size sb_data sb_sigs sb_key en_name_len en_name en_offset en_size
  ei_size ei_id ei_count ei_sections rw_size rw_id rw_data v2_size v2_id v2_signers
  ss_size ss_id ss_block value_id value_inner_size] in *.

Lemma digest_recognises : recognises digest_parse W_digest.
Proof.
  split.
  - intros [sz a d] raw r rest (->&H1&H2&H3) Hw Hr. cbn [dg_size dg_algo dg_digest] in *.
    unfold digest_parse. unread. rewrite <- !app_assoc in Hr. pose proof (u32_of_algo_bound _ H2).
    rd. rd. rd. rd. rewrite algo_of_u32_of_algo by auto. fin_adv.
  - intros r x r' Hw H. unfold digest_parse in H. unread. repeat inv1.
    eexists. split.
    { split; [ reflexivity | ]. prj. split; [ bounds | ].
      split; [ apply canonical_of_u32; bounds | bounds ]. }
    cbn [dg_size dg_algo dg_digest]. rewrite u32_of_algo_of_u32.
    split; [ fin_adv | ]. split; [ | assumption ]. rewrite <- !app_assoc. chain.
Qed.

(** ** Lists *)
Definition nonempty_raw {A} (R : A -> bytes -> Prop) := forall x raw, R x raw -> 1 <= len raw.

Lemma Forall2_nonempty {A} (R : A -> bytes -> Prop) xs raws :
  nonempty_raw R -> Forall2 R xs raws -> Forall (fun x => 1 <= len x) raws.
Proof. intros Hn HF. induction HF; constructor; eauto. Qed.

Lemma sub_list_ok {A} (p : reader -> res (A * reader)) R xs raws max :
  accepts p R -> nonempty_raw R -> Forall2 R xs raws ->
  rwf (new_reader (concat raws)) -> max = len (concat raws) ->
  exists r', parse_while (loop_fuel (new_reader (concat raws))) p max (new_reader (concat raws)) = Ok (xs, r').
Proof.
  intros Ha Hn HF Hw ->. eexists. eapply (parse_while_ok p R Ha xs raws _ []); auto.
  - rewrite rem_new, app_nil_r; auto.
  - cbn [new_reader rpos]. rewrite N.sub_0_r, len_concat. apply stops_exact.
    eapply Forall2_nonempty; eauto.
  - eapply (loop_fuel_enough R xs raws _ []); eauto. rewrite rem_new, app_nil_r; auto.
Qed.
Lemma sub_list_inv {A} (p : reader -> res (A * reader)) R d xs r' max fuel :
  only p R -> rwf (new_reader d) -> max = len d ->
  parse_while fuel p max (new_reader d) = Ok (xs, r') ->
  exists raws, Forall2 R xs raws /\ d = concat raws.
Proof.
  intros Ho Hw -> H. eapply parse_while_inv in H as (raws&HF&->&Hr&_&Hs); eauto.
  exists raws. split; auto. rewrite rem_new in Hr.
  cbn [new_reader rpos] in Hs. rewrite N.sub_0_r in Hs. apply stops_sum in Hs.
  rewrite <- len_concat in Hs. pose proof (f_equal len Hr) as Hl. rewrite len_app in Hl.
  assert (rem (adv (new_reader d) (len (concat raws))) = []) as E by (apply len_0; lia).
  rewrite E, app_nil_r in Hr. auto.
Qed.
Lemma out_list_ok {A} (p : reader -> res (A * reader)) R xs raws r rest size :
  accepts p R -> nonempty_raw R -> Forall2 R xs raws ->
  rwf r -> rem r = concat raws ++ rest -> reaches size raws ->
  parse_while (loop_fuel r) p (rpos r + size) r = Ok (xs, adv r (len (concat raws))).
Proof.
  intros Ha Hn HF Hw Hr Hs. eapply (parse_while_ok p R Ha xs raws _ rest); auto.
  - replace (rpos r + size - rpos r) with size by lia. apply reaches_stops; auto.
  - eapply loop_fuel_enough; eauto.
Qed.
Lemma out_list_inv {A} (p : reader -> res (A * reader)) R xs r r' size fuel :
  only p R -> rwf r ->
  parse_while fuel p (rpos r + size) r = Ok (xs, r') ->
  exists raws, Forall2 R xs raws /\ reaches size raws /\
    r' = adv r (len (concat raws)) /\ rem r = concat raws ++ rem r' /\ rwf r'.
Proof.
  intros Ho Hw H. eapply parse_while_inv in H as (raws&HF&->&Hr&Hw'&Hs); eauto.
  replace (rpos r + size - rpos r) with size in Hs by lia. apply reaches_stops in Hs.
  exists raws. auto.
Qed.

Lemma digest_nonempty : nonempty_raw W_digest.
Proof. intros x raw (->&_). rewrite !len_app, !len_le. lia. Qed.
Lemma cert_nonempty : nonempty_raw W_cert.
Proof. intros x raw (->&_). rewrite !len_app, !len_le. lia. Qed.
Lemma sig_nonempty : nonempty_raw W_sig.
Proof. intros x raw (->&_). rewrite !len_app, !len_le. lia. Qed.
Lemma attr_nonempty : nonempty_raw W_attr.
Proof. intros x raw (->&_). rewrite !len_app, !len_le. lia. Qed.
Lemma signer_nonempty : nonempty_raw W_signer.
Proof. intros x raw (d&g&k&_&_&_&->&_). rewrite !len_app, !len_le. lia. Qed.

Lemma digests_recognises : recognises digests_parse W_digests.
Proof.
  split.
  - intros [sz l] raw r rest (raws&HF&->&H1&H2) Hw Hr. cbn [dgs_size dgs_data] in *.
    unfold digests_parse. unread. rewrite <- !app_assoc in Hr. rd. rd.
    destruct (sub_list_ok digest_parse W_digest l raws (rpos (new_reader (concat raws)) + len (concat raws)))
      as [r' ->]; auto using digest_nonempty.
    { apply digest_recognises. }
    cbn [bind]. rewrite ?H1. fin_adv.
  - intros r x r' Hw H. unfold digests_parse in H. unread. repeat inv1.
    apply bind_Ok in H as ((l&r2)&H9&H). inv1.
    assert (Hm : rpos (new_reader sd) + len sd = len sd) by (cbn; lia).
    destruct (sub_list_inv _ _ _ _ _ _ _ (proj2 digest_recognises) ltac:(eassumption) Hm H9) as (raws&HF&->).
    clear Hm.
    eexists. split.
    { exists raws. split; [ exact HF | ]. prj. split; [ reflexivity | ]. split; [ reflexivity | bounds ]. }
    cbn [dgs_size]. split; [ fin_adv | ]. split; [ chain | assumption ].
Qed.

Lemma cert_recognises : recognises cert_parse W_cert.
Proof.
  split.
  - intros [sz d] raw r rest (->&H1&H2) Hw Hr. cbn [ct_size ct_data] in *.
    unfold cert_parse. unread. rewrite <- !app_assoc in Hr. rd. rd. rewrite ?H1. fin_adv.
  - intros r x r' Hw H. unfold cert_parse in H. unread. repeat inv1.
    eexists. split. { split; [ reflexivity | ]. prj. split; [ reflexivity | bounds ]. }
    cbn [ct_size ct_data]. split; [ fin_adv | ]. split; [ chain | assumption ].
Qed.
Lemma pub_recognises : recognises pub_parse W_pub.
Proof.
  split.
  - intros [sz d] raw r rest (->&H1&H2) Hw Hr. cbn [pk_size pk_data] in *.
    unfold pub_parse. unread. rewrite <- !app_assoc in Hr. rd. rd. rewrite ?H1. fin_adv.
  - intros r x r' Hw H. unfold pub_parse in H. unread. repeat inv1.
    eexists. split. { split; [ reflexivity | ]. prj. split; [ reflexivity | bounds ]. }
    cbn [pk_size pk_data]. split; [ fin_adv | ]. split; [ chain | assumption ].
Qed.
Lemma sig_recognises : recognises sig_parse W_sig.
Proof.
  split.
  - intros [sz a d] raw r rest (->&H1&H2&H3) Hw Hr. cbn [sg_size sg_algo sg_data] in *.
    unfold sig_parse. unread. rewrite <- !app_assoc in Hr. pose proof (u32_of_algo_bound _ H2).
    rd. rd. rd. rd. rewrite algo_of_u32_of_algo by auto. fin_adv.
  - intros r x r' Hw H. unfold sig_parse in H. unread. repeat inv1.
    eexists. split.
    { split; [ reflexivity | ]. prj. split; [ bounds | ].
      split; [ apply canonical_of_u32; bounds | bounds ]. }
    cbn [sg_size sg_algo sg_data]. rewrite u32_of_algo_of_u32.
    split; [ fin_adv | ]. split; [ chain | assumption ].
Qed.
Lemma attr_recognises : recognises attr_parse W_attr.
Proof.
  split.
  - intros [sz a d] raw r rest (->&H1&H2&H3) Hw Hr. cbn [at_size at_id at_data] in *.
    unfold attr_parse. unread. rewrite <- !app_assoc in Hr.
    rd. rd. replace (sz <? 4) with false by lia. rd. rewrite ?H1. fin_adv.
  - intros r x r' Hw H. unfold attr_parse in H. unread. repeat inv1.
    destruct (v <? 4) eqn:E; [ discriminate | ]. repeat inv1.
    eexists. split.
    { split; [ reflexivity | ]. prj. split; [ lia | ]. split; bounds. }
    cbn [at_size at_id at_data]. split; [ fin_adv | ]. split; [ chain | assumption ].
Qed.

Lemma certs_recognises : recognises certs_parse W_certs.
Proof.
  split.
  - intros [sz l] raw r rest (raws&HF&->&H1&H2) Hw Hr. cbn [cts_size cts_data] in *.
    unfold certs_parse. unread. rewrite <- !app_assoc in Hr. rd.
    erewrite (out_list_ok cert_parse W_cert l raws); eauto using cert_nonempty; [ | apply cert_recognises ].
    cbn [bind]. fin_adv.
  - intros r x r' Hw H. unfold certs_parse in H. unread. repeat inv1.
    apply bind_Ok in H as ((l&r2)&H9&H). inv1.
    destruct (out_list_inv _ _ _ _ _ _ _ (proj2 cert_recognises) ltac:(eassumption) H9) as (raws&HF&Hs&->&Hr&Hw').
    eexists. split.
    { exists raws. split; [ exact HF | ]. prj. split; [ reflexivity | ]. split; [ assumption | bounds ]. }
    cbn [cts_size]. split; [ fin_adv | ]. split; [ chain | assumption ].
Qed.
Lemma attrs_recognises : recognises attrs_parse W_attrs.
Proof.
  split.
  - intros [sz l] raw r rest (raws&HF&->&H1&H2) Hw Hr. cbn [ats_size ats_data] in *.
    unfold attrs_parse. unread. rewrite <- !app_assoc in Hr. rd.
    erewrite (out_list_ok attr_parse W_attr l raws); eauto using attr_nonempty; [ | apply attr_recognises ].
    cbn [bind]. fin_adv.
  - intros r x r' Hw H. unfold attrs_parse in H. unread. repeat inv1.
    apply bind_Ok in H as ((l&r2)&H9&H). inv1.
    destruct (out_list_inv _ _ _ _ _ _ _ (proj2 attr_recognises) ltac:(eassumption) H9) as (raws&HF&Hs&->&Hr&Hw').
    eexists. split.
    { exists raws. split; [ exact HF | ]. prj. split; [ reflexivity | ]. split; [ assumption | bounds ]. }
    cbn [ats_size]. split; [ fin_adv | ]. split; [ chain | assumption ].
Qed.
Lemma sigs_recognises : recognises sigs_parse W_sigs.
Proof.
  split.
  - intros [sz l] raw r rest (raws&HF&->&H1&H2) Hw Hr. cbn [sgs_size sgs_data] in *.
    unfold sigs_parse. unread. rewrite <- !app_assoc in Hr. rd.
    destruct (sz =? 0) eqn:E.
    { apply N.eqb_eq in E as ->. destruct raws.
      - inversion HF; subst. cbn [concat]. fin_adv.
      - apply reaches_stops in H1. cbn in H1. lia. }
    erewrite (out_list_ok sig_parse W_sig l raws); eauto using sig_nonempty; [ | apply sig_recognises ].
    cbn [bind]. fin_adv.
  - intros r x r' Hw H. unfold sigs_parse in H. unread. repeat inv1.
    destruct (v =? 0) eqn:E.
    { apply N.eqb_eq in E as ->. inv1. exists (le 4 0). split; [ exists [] | ].
      - split; [ constructor | ]. prj. split; [ reflexivity | ]. split; [ | reflexivity ].
        apply reaches_stops. reflexivity.
      - split; [ fin_adv | ]. split; [ chain | assumption ]. }
    apply bind_Ok in H as ((l&r2)&H9&H). inv1.
    destruct (out_list_inv _ _ _ _ _ _ _ (proj2 sig_recognises) ltac:(eassumption) H9) as (raws&HF&Hs&->&Hr&Hw').
    eexists. split.
    { exists raws. split; [ exact HF | ]. prj. split; [ reflexivity | ]. split; [ assumption | bounds ]. }
    cbn [sgs_size]. split; [ fin_adv | ]. split; [ chain | assumption ].
Qed.

(** as [invp], forgetting where the reader is exactly *)
Ltac invq Ho raw r' Hd Hrem Hw' :=
  match goal with
  | H : bind (?p ?r) _ = Ok _ |- _ =>
      let x := fresh "x" in let H1 := fresh "H" in
      apply bind_Ok in H as ((x&r')&H1&H); apply Ho in H1 as (raw&Hd&_&Hrem&Hw'); [ | assumption ]
  end.

(** ** Scheme V2 *)
Lemma sd_recognises : recognises sd_parse W_sd.
Proof.
  split.
  - intros [sz sd sc sa] raw r rest (d&c&a&j&HD&HC&HA&->&H1&H2) Hw Hr. prj.
    unfold sd_parse. unread. rewrite <- app_assoc in Hr. rd. rd.
    pose proof (rem_new (d ++ c ++ a ++ j)) as Hr'. rename H into Hw'.
    rewrite (proj1 digests_recognises _ _ _ _ HD Hw' Hr'). cbn [bind].
    pose proof (rwf_adv _ _ _ Hw' Hr') as Hw2. apply rem_adv in Hr'.
    rewrite (proj1 certs_recognises _ _ _ _ HC Hw2 Hr'). cbn [bind].
    pose proof (rwf_adv _ _ _ Hw2 Hr') as Hw3. apply rem_adv in Hr'.
    rewrite (proj1 attrs_recognises _ _ _ _ HA Hw3 Hr'). cbn [bind].
    fin_adv.
  - intros r x r' Hw H. unfold sd_parse in H. unread. repeat inv1.
    invq (proj2 digests_recognises) d r1 HD Hr1 Hw1.
    invq (proj2 certs_recognises) c r2 HC Hr2 Hw2.
    invq (proj2 attrs_recognises) a r3 HA Hr3 Hw3.
    inv1. rewrite rem_new in Hr1.
    assert (E : sd = d ++ c ++ a ++ rem r3) by congruence. generalize dependent (rem r3). intros j ? E.
    clear Hr1 Hr2 Hw1 Hw2 Hw3. subst sd.
    eexists. split.
    { exists d, c, a, j. prj. do 3 (split; [ eassumption | ]). split; [ reflexivity | ].
      split; [ reflexivity | bounds ]. }
    prj. split; [ fin_adv | ]. split; [ chain | assumption ].
Qed.

Lemma signer_recognises : recognises signer_parse W_signer.
Proof.
  split.
  - intros [sz d g k] raw r rest (rd&rg&rk&HD&HG&HK&->&H2) Hw Hr. prj.
    unfold signer_parse. unread. rewrite <- !app_assoc in Hr. rd.
    rdp (proj1 sd_recognises) HD. rdp (proj1 sigs_recognises) HG. rdp (proj1 pub_recognises) HK.
    fin_adv.
  - intros r x r' Hw H. unfold signer_parse in H. unread. repeat inv1.
    invp (proj2 sd_recognises). invp (proj2 sigs_recognises). invp (proj2 pub_recognises). inv1.
    eexists. split.
    { eexists _, _, _. prj. do 3 (split; [ eassumption | ]). split; [ reflexivity | bounds ]. }
    split; [ fin_adv | ]. split; [ chain | assumption ].
Qed.

Lemma signers_recognises : recognises signers_parse W_signers.
Proof.
  split.
  - intros [sz l] raw r rest (raws&HF&->&H1&H2) Hw Hr. prj.
    unfold signers_parse. unread. rewrite <- !app_assoc in Hr. rd. rd.
    destruct (sub_list_ok signer_parse W_signer l raws (rlen (new_reader (concat raws))))
      as [r' ->]; auto using signer_nonempty.
    { apply signer_recognises. }
    cbn [bind]. fin_adv.
  - intros r x r' Hw H. unfold signers_parse in H. unread. repeat inv1.
    apply bind_Ok in H as ((l&r2)&H9&H). inv1.
    destruct (sub_list_inv _ _ _ _ _ _ _ (proj2 signer_recognises) ltac:(eassumption) eq_refl H9) as (raws&HF&->).
    eexists. split.
    { exists raws. split; [ exact HF | ]. prj. split; [ reflexivity | ]. split; [ reflexivity | bounds ]. }
    prj. split; [ fin_adv | ]. split; [ chain | assumption ].
Qed.

(** ** Source stamp *)
Lemma std_recognises : recognises std_parse W_std.
Proof.
  split.
  - intros [sd sc sa] raw r rest (d&c&a&j&HD&HC&HA&->&H1) Hw Hr. prj.
    unfold std_parse. unread. rewrite <- app_assoc in Hr. rd. rd.
    pose proof (rem_new (d ++ c ++ a ++ j)) as Hr'. rename H into Hw'.
    rewrite (proj1 digests_recognises _ _ _ _ HD Hw' Hr'). cbn [bind].
    pose proof (rwf_adv _ _ _ Hw' Hr') as Hw2. apply rem_adv in Hr'.
    rewrite (proj1 certs_recognises _ _ _ _ HC Hw2 Hr'). cbn [bind].
    pose proof (rwf_adv _ _ _ Hw2 Hr') as Hw3. apply rem_adv in Hr'.
    rewrite (proj1 attrs_recognises _ _ _ _ HA Hw3 Hr'). cbn [bind].
    fin_adv.
  - intros r x r' Hw H. unfold std_parse in H. unread. repeat inv1.
    invq (proj2 digests_recognises) d r1 HD Hr1 Hw1.
    invq (proj2 certs_recognises) c r2 HC Hr2 Hw2.
    invq (proj2 attrs_recognises) a r3 HA Hr3 Hw3.
    inv1. rewrite rem_new in Hr1.
    assert (E : sd = d ++ c ++ a ++ rem r3) by congruence. generalize dependent (rem r3). intros j ? E.
    clear Hr1 Hr2 Hw1 Hw2 Hw3. subst sd.
    eexists. split.
    { exists d, c, a, j. prj. do 3 (split; [ eassumption | ]). split; [ reflexivity | bounds ]. }
    prj. split; [ fin_adv | ]. split; [ chain | assumption ].
Qed.

Lemma sb_recognises : recognises sb_parse W_sb.
Proof.
  split.
  - intros [sz sd ss sk] raw r rest (d&g&k&j&HD&HG&HK&->&H1&H2) Hw Hr. prj.
    unfold sb_parse. unread. rewrite <- app_assoc in Hr. rd. rd.
    pose proof (rem_new (d ++ g ++ k ++ j)) as Hr'. rename H into Hw'.
    rewrite (proj1 std_recognises _ _ _ _ HD Hw' Hr'). cbn [bind].
    pose proof (rwf_adv _ _ _ Hw' Hr') as Hw2. apply rem_adv in Hr'.
    rewrite (proj1 sigs_recognises _ _ _ _ HG Hw2 Hr'). cbn [bind].
    pose proof (rwf_adv _ _ _ Hw2 Hr') as Hw3. apply rem_adv in Hr'.
    rewrite (proj1 pub_recognises _ _ _ _ HK Hw3 Hr'). cbn [bind].
    fin_adv.
  - intros r x r' Hw H. unfold sb_parse in H. unread. repeat inv1.
    invq (proj2 std_recognises) d r1 HD Hr1 Hw1.
    invq (proj2 sigs_recognises) g r2 HG Hr2 Hw2.
    invq (proj2 pub_recognises) k r3 HK Hr3 Hw3.
    inv1. rewrite rem_new in Hr1.
    assert (E : sd = d ++ g ++ k ++ rem r3) by congruence. generalize dependent (rem r3). intros j ? E.
    clear Hr1 Hr2 Hw1 Hw2 Hw3. subst sd.
    eexists. split.
    { exists d, g, k, j. prj. do 3 (split; [ eassumption | ]). split; [ reflexivity | ].
      split; [ reflexivity | bounds ]. }
    prj. split; [ fin_adv | ]. split; [ chain | assumption ].
Qed.
