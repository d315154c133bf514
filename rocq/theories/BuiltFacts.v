(** BuiltFacts.v - constructor-built values serialise to byte strings that
    denote them, of exactly the declared length *)
From Verif Require Import Base BaseFacts Utils ParseFacts Algorithms Common SchemeV2 SourceStamp
  Utf8 ElfInfo SigningBlock Wire Built CodecFacts BlockFacts.

Lemma zeros_0 : zeros 0 = []. Proof. reflexivity. Qed.
Lemma sized_exact size c : size = len c -> sized size c = le 4 size ++ c.
Proof. intros ->. unfold sized, padding. rewrite N.sub_diag, zeros_0, app_nil_r. auto. Qed.
Lemma len_sized size c : len c <= size -> len (sized size c) = 4 + size.
Proof. intros. unfold sized, padding. rewrite !len_app, len_le, len_zeros. lia. Qed.

(** Generic: a list of elements of declared size [f x], serialised in [f x + 4] bytes. *)
Lemma list_len {A} (enc : A -> bytes) (f : A -> N) l :
  Forall (fun x => len (enc x) = f x + 4) l -> len (flat_map enc l) = sumN (fun x => f x + 4) l.
Proof. intros H. rewrite len_flat_map. apply sumN_ext. auto. Qed.
Lemma In_sumN {A} (f : A -> N) l x : In x l -> f x <= sumN f l.
Proof.
  unfold sumN. induction l as [|y l IH]; cbn [In fold_right]; [ tauto | ].
  intros [->|H]; [ lia | ]. apply IH in H. lia.
Qed.
Lemma Forall2_map_W {A} (R : A -> bytes -> Prop) (enc : A -> bytes) l :
  Forall (fun x => R x (enc x)) l -> W_list R l (map enc l).
Proof. induction 1; constructor; auto. Qed.
Lemma reaches_exact raws : Forall (fun x => 1 <= len x) raws -> reaches (len (concat raws)) raws.
Proof. intros H. apply reaches_stops. rewrite len_concat. apply stops_exact. auto. Qed.
Lemma concat_map_flat {A} (enc : A -> bytes) l : concat (map enc l) = flat_map enc l.
Proof. symmetry. apply flat_map_concat_map. Qed.

Lemma digest_new_len a bs : len (digest_to_u8 (digest_new a bs)) = dg_size (digest_new a bs) + 4.
Proof.
  unfold digest_to_u8, digest_new; cbn [dg_size dg_algo dg_digest]. rewrite len_sized; [ lia | ].
  rewrite !len_app, !len_le. lia.
Qed.
Lemma digest_new_W a bs : canonical a -> 8 + len bs < U32 ->
  W_digest (digest_new a bs) (digest_to_u8 (digest_new a bs)).
Proof.
  intros Ha Hl. unfold W_digest, digest_to_u8, digest_new; cbn [dg_size dg_algo dg_digest].
  rewrite sized_exact by (rewrite !len_app, !len_le; lia).
  split; [ auto | ]. split; [ lia | ]. split; [ auto | lia ].
Qed.
Lemma cert_new_len bs : len (cert_to_u8 (cert_new bs)) = ct_size (cert_new bs) + 4.
Proof. unfold cert_to_u8, cert_new; cbn [ct_size ct_data]. rewrite len_sized; lia. Qed.
Lemma cert_new_W bs : len bs < U32 -> W_cert (cert_new bs) (cert_to_u8 (cert_new bs)).
Proof.
  intros Hl. unfold W_cert, cert_to_u8, cert_new; cbn [ct_size ct_data].
  rewrite sized_exact; auto.
Qed.
Lemma pub_new_len bs : len (pub_to_u8 (pub_new bs)) = pk_size (pub_new bs) + 4.
Proof. unfold pub_to_u8, pub_new; cbn [pk_size pk_data]. rewrite len_sized; lia. Qed.
Lemma pub_new_W bs : len bs < U32 -> W_pub (pub_new bs) (pub_to_u8 (pub_new bs)).
Proof.
  intros Hl. unfold W_pub, pub_to_u8, pub_new; cbn [pk_size pk_data].
  rewrite sized_exact; auto.
Qed.
Lemma sig_new_len a bs : len (sig_to_u8 (sig_new a bs)) = sg_size (sig_new a bs) + 4.
Proof.
  unfold sig_to_u8, sig_new; cbn [sg_size sg_algo sg_data]. rewrite len_sized; [ lia | ].
  rewrite !len_app, !len_le. lia.
Qed.
Lemma sig_new_W a bs : canonical a -> 8 + len bs < U32 ->
  W_sig (sig_new a bs) (sig_to_u8 (sig_new a bs)).
Proof.
  intros Ha Hl. unfold W_sig, sig_to_u8, sig_new; cbn [sg_size sg_algo sg_data].
  rewrite sized_exact by (rewrite !len_app, !len_le; lia).
  split; [ auto | ]. split; [ lia | ]. split; [ auto | lia ].
Qed.
Lemma attr_lit_len id bs : len (attr_to_u8 (mkAttr (4 + len bs) id bs)) = 4 + len bs + 4.
Proof.
  unfold attr_to_u8; cbn [at_size at_id at_data]. rewrite len_sized; [ lia | ].
  rewrite len_app, len_le. lia.
Qed.
Lemma attr_lit_W id bs : id < U32 -> 4 + len bs < U32 ->
  W_attr (mkAttr (4 + len bs) id bs) (attr_to_u8 (mkAttr (4 + len bs) id bs)).
Proof.
  intros Ha Hl. unfold W_attr, attr_to_u8; cbn [at_size at_id at_data].
  rewrite sized_exact by (rewrite len_app, len_le; lia). auto.
Qed.

Lemma built_digest_len d : built_digest d -> len (digest_to_u8 d) = dg_size d + 4.
Proof. intros (a&bs&_&->). apply digest_new_len. Qed.
Lemma built_cert_len d : built_cert d -> len (cert_to_u8 d) = ct_size d + 4.
Proof. intros (bs&->). apply cert_new_len. Qed.
Lemma built_sig_len d : built_sig d -> len (sig_to_u8 d) = sg_size d + 4.
Proof. intros (a&bs&_&->). apply sig_new_len. Qed.
Lemma built_attr_len d : built_attr d -> len (attr_to_u8 d) = at_size d + 4.
Proof. intros (a&bs&_&->). apply attr_lit_len. Qed.
Lemma built_pub_len d : built_pub d -> len (pub_to_u8 d) = pk_size d + 4.
Proof. intros (bs&->). apply pub_new_len. Qed.
Lemma built_digest_W d : built_digest d -> dg_size d < U32 -> W_digest d (digest_to_u8 d).
Proof. intros (a&bs&Ha&->) H. apply digest_new_W; auto. Qed.
Lemma built_cert_W d : built_cert d -> ct_size d < U32 -> W_cert d (cert_to_u8 d).
Proof. intros (bs&->) H. apply cert_new_W; auto. Qed.
Lemma built_sig_W d : built_sig d -> sg_size d < U32 -> W_sig d (sig_to_u8 d).
Proof. intros (a&bs&Ha&->) H. apply sig_new_W; auto. Qed.
Lemma built_attr_W d : built_attr d -> at_size d < U32 -> W_attr d (attr_to_u8 d).
Proof. intros (a&bs&Ha&->) H. apply attr_lit_W; auto. Qed.
Lemma built_pub_W d : built_pub d -> pk_size d < U32 -> W_pub d (pub_to_u8 d).
Proof. intros (bs&->) H. apply pub_new_W; auto. Qed.

(** Lists: common shape of [Digests], [Certificates], [Signatures], [AdditionalAttributes], [Signers]. *)
Lemma built_list_len {A} (enc : A -> bytes) (f : A -> N) (P : A -> Prop) l size :
  (forall x, P x -> len (enc x) = f x + 4) -> Forall P l ->
  size = fold_left (fun acc x => acc + f x + 4) l 0 ->
  len (flat_map enc l) = size.
Proof.
  intros H HF ->. rewrite fold_left_sumN4. apply list_len.
  eapply Forall_impl; [ | exact HF ]. auto.
Qed.
Lemma built_list_W {A} (enc : A -> bytes) (f : A -> N) (P : A -> Prop) (R : A -> bytes -> Prop) l size :
  (forall x, P x -> f x < U32 -> R x (enc x)) -> Forall P l ->
  size = fold_left (fun acc x => acc + f x + 4) l 0 -> size < U32 ->
  W_list R l (map enc l).
Proof.
  intros H HF -> Hs. rewrite fold_left_sumN4 in Hs. apply Forall2_map_W.
  apply Forall_forall. intros x Hx. apply H.
  - eapply Forall_forall in HF; eauto.
  - apply (In_sumN (fun x => f x + 4)) in Hx. cbv beta in Hx. lia.
Qed.

Lemma built_digests_len d : built_digests d -> len (digests_to_u8 d) = dgs_size d + 4.
Proof.
  intros (l&HF&->). unfold digests_to_u8, digests_new; cbn [dgs_size dgs_data].
  rewrite len_sized; [ lia | ].
  erewrite built_list_len; [ apply N.le_refl | apply built_digest_len | auto | reflexivity ].
Qed.
Lemma built_certs_len d : built_certs d -> len (certs_to_u8 d) = cts_size d + 4.
Proof.
  intros (l&HF&->). unfold certs_to_u8, certs_new; cbn [cts_size cts_data].
  rewrite len_sized; [ lia | ].
  erewrite built_list_len; [ apply N.le_refl | apply built_cert_len | auto | reflexivity ].
Qed.
Lemma built_sigs_len d : built_sigs d -> len (sigs_to_u8 d) = sgs_size d + 4.
Proof.
  intros (l&HF&->). unfold sigs_to_u8, sigs_new; cbn [sgs_size sgs_data].
  rewrite len_sized; [ lia | ].
  erewrite built_list_len; [ apply N.le_refl | apply built_sig_len | auto | reflexivity ].
Qed.
Lemma built_attrs_len d : built_attrs d -> len (attrs_to_u8 d) = ats_size d + 4.
Proof.
  intros (l&HF&->). unfold attrs_to_u8, attrs_new; cbn [ats_size ats_data].
  rewrite len_sized; [ lia | ].
  erewrite built_list_len; [ apply N.le_refl | apply built_attr_len | auto | reflexivity ].
Qed.

Lemma built_digests_W d : built_digests d -> dgs_size d < U32 -> W_digests d (digests_to_u8 d).
Proof.
  intros (l&HF&->) Hs. unfold W_digests, digests_to_u8, digests_new in *; cbn [dgs_size dgs_data] in *.
  assert (E : len (flat_map digest_to_u8 l) = fold_left (fun acc d => acc + dg_size d + 4) l 0)
    by (eapply built_list_len; [ apply built_digest_len | auto | reflexivity ]).
  exists (map digest_to_u8 l). split; [ | rewrite concat_map_flat; split; [ | split ] ]; auto.
  - eapply built_list_W; [ apply built_digest_W | eauto | reflexivity | exact Hs ].
  - apply sized_exact; auto.
Qed.
Lemma built_certs_W d : built_certs d -> cts_size d < U32 -> W_certs d (certs_to_u8 d).
Proof.
  intros (l&HF&->) Hs. unfold W_certs, certs_to_u8, certs_new in *; cbn [cts_size cts_data] in *.
  assert (E : len (flat_map cert_to_u8 l) = fold_left (fun acc d => acc + ct_size d + 4) l 0)
    by (eapply built_list_len; [ apply built_cert_len | auto | reflexivity ]).
  assert (HW : W_list W_cert l (map cert_to_u8 l))
    by (eapply built_list_W; [ apply built_cert_W | eauto | reflexivity | exact Hs ]).
  exists (map cert_to_u8 l). split; [ exact HW | ]. rewrite concat_map_flat.
  split; [ apply sized_exact; auto | ]. split; [ | auto ].
  rewrite <- E, <- concat_map_flat. apply reaches_exact. eapply Forall2_nonempty; [ apply cert_nonempty | exact HW ].
Qed.
Lemma built_sigs_W d : built_sigs d -> sgs_size d < U32 -> W_sigs d (sigs_to_u8 d).
Proof.
  intros (l&HF&->) Hs. unfold W_sigs, sigs_to_u8, sigs_new in *; cbn [sgs_size sgs_data] in *.
  assert (E : len (flat_map sig_to_u8 l) = fold_left (fun acc d => acc + sg_size d + 4) l 0)
    by (eapply built_list_len; [ apply built_sig_len | auto | reflexivity ]).
  assert (HW : W_list W_sig l (map sig_to_u8 l))
    by (eapply built_list_W; [ apply built_sig_W | eauto | reflexivity | exact Hs ]).
  exists (map sig_to_u8 l). split; [ exact HW | ]. rewrite concat_map_flat.
  split; [ apply sized_exact; auto | ]. split; [ | auto ].
  rewrite <- E, <- concat_map_flat. apply reaches_exact. eapply Forall2_nonempty; [ apply sig_nonempty | exact HW ].
Qed.
Lemma built_attrs_W d : built_attrs d -> ats_size d < U32 -> W_attrs d (attrs_to_u8 d).
Proof.
  intros (l&HF&->) Hs. unfold W_attrs, attrs_to_u8, attrs_new in *; cbn [ats_size ats_data] in *.
  assert (E : len (flat_map attr_to_u8 l) = fold_left (fun acc d => acc + at_size d + 4) l 0)
    by (eapply built_list_len; [ apply built_attr_len | auto | reflexivity ]).
  assert (HW : W_list W_attr l (map attr_to_u8 l))
    by (eapply built_list_W; [ apply built_attr_W | eauto | reflexivity | exact Hs ]).
  exists (map attr_to_u8 l). split; [ exact HW | ]. rewrite concat_map_flat.
  split; [ apply sized_exact; auto | ]. split; [ | auto ].
  rewrite <- E, <- concat_map_flat. apply reaches_exact. eapply Forall2_nonempty; [ apply attr_nonempty | exact HW ].
Qed.

Lemma built_sd_len s : built_sd s -> len (sd_to_u8 s) = sd_size s + 4.
Proof.
  intros (d&c&a&HD&HC&HA&->). unfold sd_to_u8, sd_new; cbn [sd_size sd_digests sd_certs sd_attrs].
  rewrite len_sized; [ lia | ].
  rewrite !len_app, built_digests_len, built_certs_len, built_attrs_len by auto. lia.
Qed.
Lemma built_sd_W s : built_sd s -> sd_size s < U32 -> W_sd s (sd_to_u8 s).
Proof.
  intros (d&c&a&HD&HC&HA&->) Hs. unfold W_sd, sd_to_u8, sd_new in *; cbn [sd_size sd_digests sd_certs sd_attrs] in *.
  exists (digests_to_u8 d), (certs_to_u8 c), (attrs_to_u8 a), (zeros 4).
  split; [ apply built_digests_W; auto; lia | ]. split; [ apply built_certs_W; auto; lia | ].
  split; [ apply built_attrs_W; auto; lia | ].
  assert (E : len (digests_to_u8 d ++ certs_to_u8 c ++ attrs_to_u8 a) =
    4 + dgs_size d + 4 + cts_size c + 4 + ats_size a).
  { rewrite !len_app, built_digests_len, built_certs_len, built_attrs_len by auto. lia. }
  split; [ | split; [ | auto ] ].
  - unfold sized, padding. rewrite E.
    replace (4 + dgs_size d + 4 + cts_size c + 4 + ats_size a + 4 -
             (4 + dgs_size d + 4 + cts_size c + 4 + ats_size a)) with 4 by lia.
    rewrite <- !app_assoc. reflexivity.
  - rewrite !len_app in *. rewrite len_zeros. lia.
Qed.

Lemma built_signer_len s : built_signer s -> len (signer_to_u8 s) = sn_size s + 4.
Proof.
  intros (d&g&k&HD&HG&HK&->). unfold signer_to_u8, signer_new; cbn [sn_size sn_data sn_sigs sn_key].
  rewrite len_sized; [ lia | ].
  rewrite !len_app, built_sd_len, built_sigs_len, built_pub_len by auto. lia.
Qed.
Lemma built_signer_W s : built_signer s -> sn_size s < U32 -> W_signer s (signer_to_u8 s).
Proof.
  intros (d&g&k&HD&HG&HK&->) Hs. unfold W_signer, signer_to_u8, signer_new in *; cbn [sn_size sn_data sn_sigs sn_key] in *.
  exists (sd_to_u8 d), (sigs_to_u8 g), (pub_to_u8 k).
  split; [ apply built_sd_W; auto; lia | ]. split; [ apply built_sigs_W; auto; lia | ].
  split; [ apply built_pub_W; auto; lia | ]. split; [ | auto ].
  apply sized_exact. rewrite !len_app, built_sd_len, built_sigs_len, built_pub_len by auto. lia.
Qed.
Lemma built_signers_len d : built_signers d -> len (signers_to_u8 d) = sns_size d + 4.
Proof.
  intros (l&HF&->). unfold signers_to_u8, signers_new; cbn [sns_size sns_data].
  rewrite len_sized; [ lia | ].
  erewrite built_list_len; [ apply N.le_refl | apply built_signer_len | auto | reflexivity ].
Qed.
Lemma built_signers_W d : built_signers d -> sns_size d < U32 -> W_signers d (signers_to_u8 d).
Proof.
  intros (l&HF&->) Hs. unfold W_signers, signers_to_u8, signers_new in *; cbn [sns_size sns_data] in *.
  assert (E : len (flat_map signer_to_u8 l) = fold_left (fun acc d => acc + sn_size d + 4) l 0)
    by (eapply built_list_len; [ apply built_signer_len | auto | reflexivity ]).
  exists (map signer_to_u8 l). split; [ | rewrite concat_map_flat; split; [ | split ] ]; auto.
  - eapply built_list_W; [ apply built_signer_W | eauto | reflexivity | exact Hs ].
  - apply sized_exact; auto.
Qed.

Lemma built_std_len s : built_std s -> len (std_to_u8 s) = std_size s + 4.
Proof.
  intros (d&c&a&HD&HC&HA&->). unfold std_to_u8, std_size, std_new; cbn [st_digests st_certs st_attrs].
  rewrite !len_app, len_le, built_digests_len, built_certs_len, built_attrs_len by auto. lia.
Qed.
Lemma built_std_W s : built_std s -> std_size s < U32 -> W_std s (std_to_u8 s).
Proof.
  intros (d&c&a&HD&HC&HA&->) Hs. unfold W_std, std_to_u8, std_size, std_new in *; cbn [st_digests st_certs st_attrs] in *.
  exists (digests_to_u8 d), (certs_to_u8 c), (attrs_to_u8 a), [].
  split; [ apply built_digests_W; auto; lia | ]. split; [ apply built_certs_W; auto; lia | ].
  split; [ apply built_attrs_W; auto; lia | ]. rewrite app_nil_r. split; [ reflexivity | ].
  rewrite !len_app, built_digests_len, built_certs_len, built_attrs_len by auto. lia.
Qed.
Lemma built_sb_len s : built_sb s -> len (sb_to_u8 s) = sb_size s + 4.
Proof.
  intros (d&g&k&HD&HG&HK&->). unfold sb_to_u8, sb_new; cbn [sb_size sb_data sb_sigs sb_key].
  rewrite !len_app, len_le, built_std_len, built_sigs_len, built_pub_len by auto. lia.
Qed.
Lemma built_sb_W s : built_sb s -> sb_size s < U32 -> W_sb s (sb_to_u8 s).
Proof.
  intros (d&g&k&HD&HG&HK&->) Hs. unfold W_sb, sb_to_u8, sb_new in *; cbn [sb_size sb_data sb_sigs sb_key] in *.
  exists (std_to_u8 d), (sigs_to_u8 g), (pub_to_u8 k), [].
  split; [ apply built_std_W; auto; lia | ]. split; [ apply built_sigs_W; auto; lia | ].
  split; [ apply built_pub_W; auto; lia | ]. rewrite app_nil_r. split; [ auto | ]. split; [ | auto ].
  rewrite !len_app, built_std_len, built_sigs_len, built_pub_len by auto. lia.
Qed.

Lemma built_entry_len e : built_entry e -> len (entry_to_u8 e) = entry_byte_size e.
Proof.
  intros (nm&o&s&H&_&_&->). unfold entry_to_u8, entry_byte_size, entry_new, str_len; cbn [en_name_len en_name en_offset en_size].
  rewrite !len_app, !len_le. lia.
Qed.
Lemma built_entry_W e : built_entry e -> W_entry e (entry_to_u8 e).
Proof.
  intros (nm&o&s&[H1 H2]&Ho&Hs&->). unfold W_entry, entry_to_u8, entry_new, str_len; cbn [en_name_len en_name en_offset en_size].
  rewrite N.mod_small by auto. split; [ reflexivity | ]. auto.
Qed.
Lemma fold_right_sumN {A} (f : A -> N) l : fold_right (fun e acc => f e + acc) 0 l = sumN f l.
Proof. reflexivity. Qed.
Lemma built_info_body_len i : built_info i ->
  len (le 4 (ei_count i) ++ flat_map entry_to_u8 (ei_sections i)) + 4 = ei_size i.
Proof.
  intros (l&HF&Hl&->). unfold info_new; cbn [ei_size ei_count ei_sections].
  rewrite fold_right_sumN, len_app, len_le, len_flat_map.
  rewrite (sumN_ext _ entry_byte_size); [ lia | ].
  eapply Forall_impl; [ | exact HF ]. apply built_entry_len.
Qed.
Lemma built_info_W i : built_info i ->
  W_info i (le 4 (ei_count i) ++ flat_map entry_to_u8 (ei_sections i)).
Proof.
  intros (l&HF&Hl&->). unfold W_info, info_new; cbn [ei_size ei_count ei_sections].
  rewrite N.mod_small by auto.
  exists (map entry_to_u8 l). rewrite concat_map_flat. split; [ | auto ].
  apply Forall2_map_W. eapply Forall_impl; [ | exact HF ]. apply built_entry_W.
Qed.

(** ** Values and blocks *)
(** the body of a built value *)
Definition value_body (v : value) : bytes :=
  match v with
  | V2Block x => signers_to_u8 (v2_signers x)
  | StampBlk x => sb_to_u8 (ss_block x)
  | ElfBlock i => le 4 (ei_count i) ++ flat_map entry_to_u8 (ei_sections i)
  | BaseBlock r => rw_data r
  end.

Lemma built_value_inner v : built_value v -> value_inner_size v = 4 + len (value_body v).
Proof.
  destruct v as [r|v|s|i]; cbn [built_value value_inner_size value_body].
  - intros (id&bs&_&->&_). reflexivity.
  - intros (s&Hs&->). unfold v2_new; cbn [v2_size v2_signers]. rewrite built_signers_len by auto. lia.
  - intros (b&Hb&->). unfold ss_new; cbn [ss_size ss_block]. rewrite built_sb_len by auto. lia.
  - intros Hi. rewrite <- (built_info_body_len _ Hi). lia.
Qed.
Lemma built_value_u8 v : built_value v -> value_to_u8 v = pair (value_id v) (value_body v).
Proof.
  intros Hv. pose proof (built_value_inner _ Hv) as Hi.
  destruct v as [[sz id d]|[sz id s]|[sz id b]|[sz id c l]]; cbn [built_value value_inner_size value_body value_to_u8 value_id] in *;
    prj; unfold pair.
  - unfold raw_to_u8; prj. rewrite Hi. reflexivity.
  - destruct Hv as (s'&Hs&E). injection E as -> -> ->.
    unfold v2_to_u8; prj. rewrite Hi. unfold padding.
    rewrite len_app, len_le.
    replace (4 + len (signers_to_u8 s') - (N.of_nat 4 + len (signers_to_u8 s'))) with 0 by lia.
    rewrite zeros_0, app_nil_r. reflexivity.
  - unfold ss_to_u8; prj. rewrite Hi. reflexivity.
  - unfold info_to_u8; prj. rewrite Hi. reflexivity.
Qed.
Lemma built_value_len v : built_value v -> len (value_to_u8 v) = value_size v.
Proof.
  intros Hv. rewrite built_value_u8, len_pair by auto. unfold value_size.
  rewrite built_value_inner by auto. lia.
Qed.
Lemma built_value_W v : built_value v -> value_inner_size v <= MAX_PAIR_SIZE -> W_value v (value_to_u8 v).
Proof.
  intros Hv Hm. pose proof (built_value_inner _ Hv) as Hi.
  exists (value_body v). split; [ apply built_value_u8; auto | ]. split; [ auto | ]. split; [ lia | ].
  assert (Hlt : value_inner_size v < U32) by (unfold MAX_PAIR_SIZE, U32 in *; lia).
  destruct v as [r|v|s|i]; cbn [built_value value_inner_size value_body] in *.
  - destruct Hv as (id&bs&Hid&->&?&?&?). cbn [rw_data rw_id raw_new]. auto.
  - destruct Hv as (s&Hs&->). split; [ reflexivity | ]. exists (signers_to_u8 s), [].
    unfold v2_new in *; cbn [v2_size v2_signers] in *. rewrite app_nil_r. split; [ | auto ].
    apply built_signers_W; auto. lia.
  - destruct Hv as (b&Hb&->). split; [ reflexivity | ]. exists (sb_to_u8 b), [].
    unfold ss_new in *; cbn [ss_size ss_block] in *. rewrite app_nil_r. split; [ | auto ].
    apply built_sb_W; auto. lia.
  - split; [ destruct Hv as (l&_&_&->); reflexivity | ].
    eexists _, []. rewrite app_nil_r. split; [ | reflexivity ]. apply built_info_W; auto.
Qed.

Lemma content_size_sum l : content_size l = sumN value_size l.
Proof. unfold content_size. apply fold_left_sumN. Qed.

Lemma content_len l : Forall built_value l -> len (flat_map value_to_u8 l) = content_size l.
Proof.
  intros HF. rewrite content_size_sum, len_flat_map. apply sumN_ext.
  eapply Forall_impl; [ | exact HF ]. apply built_value_len.
Qed.

(** A list of built values whose block is within the limit denotes itself. *)
Lemma built_values_W l : Forall built_value l -> content_size l <= MAX_PAIR_SIZE ->
  W_values l (flat_map value_to_u8 l).
Proof.
  intros HF Hs. exists (map value_to_u8 l). rewrite concat_map_flat. split; [ | auto ].
  apply Forall2_map_W. apply Forall_forall. intros v Hv. apply built_value_W.
  - eapply Forall_forall in HF; eauto.
  - rewrite content_size_sum in Hs. apply (In_sumN value_size) in Hv. unfold value_size at 1 in Hv. lia.
Qed.

Lemma fresh_block_u8 l : Forall built_value l ->
  block_to_u8 (fresh_block l) = block_layout (flat_map value_to_u8 l).
Proof.
  intros HF. unfold block_to_u8, fresh_block, content_to_u8, block_layout; cbn [bk_size_start bk_content bk_size_end bk_magic].
  rewrite content_len by auto. unfold SIZE_UINT64, MAGIC_LEN.
  replace (content_size l + 8 + 16) with (content_size l + 24) by lia. reflexivity.
Qed.
Lemma fresh_block_W l : Forall built_value l -> content_size l <= MAX_PAIR_SIZE ->
  W_block l (block_to_u8 (fresh_block l)).
Proof.
  intros HF Hs. rewrite fresh_block_u8 by auto. eexists. split; [ | reflexivity ].
  apply built_values_W; auto.
Qed.
Lemma fresh_block_len l : Forall built_value l ->
  len (block_to_u8 (fresh_block l)) = content_size l + 32.
Proof. intros HF. rewrite fresh_block_u8, len_block_layout, content_len by auto. lia. Qed.
Lemma fresh_block_parsed l : Forall built_value l ->
  fresh_block l = parsed_block (block_to_u8 (fresh_block l)) l.
Proof.
  intros HF. unfold parsed_block. rewrite fresh_block_len by auto.
  unfold fresh_block, SIZE_UINT64, MAGIC_LEN. f_equal; lia.
Qed.
