(** CrossProps.v - V2 signatures against stamp signatures (C65); adding a stamp
    to a block written by anyone (C66) *)
From Verif Require Import Base BaseFacts Utils ParseFacts Algorithms Common SchemeV2 SourceStamp
  Utf8 ElfInfo SigningBlock Wire Built CodecFacts BlockFacts BuiltFacts InjFacts SearchFacts Zip Digest
  Module ModuleFacts ModuleProps Signer Verifier VerifySpec VerifyFacts SignSpec SignFacts VerifyProps CrossSpec.
Open Scope N_scope.

(** * The signed messages *)
Lemma v2_message_bytes : forall s, v2_message s =
  signed_content (sd_digests (sn_data s)) (sd_certs (sn_data s)) (sd_attrs (sn_data s)) ++
  zeros (sd_size (sn_data s) -
         len (signed_content (sd_digests (sn_data s)) (sd_certs (sn_data s)) (sd_attrs (sn_data s)))).
Proof.
  intros s. unfold v2_message. change 4%nat with (N.to_nat 4). rewrite <- dropN_skipn.
  apply (sd_signed_bytes (sn_data s)).
Qed.
Lemma stamp_message_bytes : forall b, stamp_message b =
  signed_content (st_digests (sb_data b)) (st_certs (sb_data b)) (st_attrs (sb_data b)).
Proof.
  intros b. unfold stamp_message. change 4%nat with (N.to_nat 4). rewrite <- dropN_skipn.
  rewrite (std_signed_bytes (sb_data b)). apply app_nil_r.
Qed.

Lemma zeros_nil : forall n, zeros n = [] <-> n = 0.
Proof.
  intros n. split; [intros H|intros ->; reflexivity].
  pose proof (len_zeros n) as E. rewrite H in E. cbn in E. lia.
Qed.

Lemma parsed_values : forall p f b, len f < U64 -> m_get_signing_block p (module_new f) f = Ok b ->
  forall v, In v (bk_content b) -> exists raw, W_value v raw.
Proof.
  intros p f b Hf H v Hv. apply get_sb_ok in H; auto.
  destruct H as (e & raw & _ & _ & _ & ((pairs & (raws & W & _) & _) & _) & _).
  assert (F : Forall (fun v => exists raw, W_value v raw) (bk_content b))
    by (eapply Forall2_left; [exact W|eauto]).
  eapply Forall_forall in F; eauto.
Qed.
Lemma parsed_stamp : forall p f b sb, len f < U64 -> m_get_signing_block p (module_new f) f = Ok b ->
  In sb (stamps_of b) -> exists raw, W_std (sb_data sb) raw.
Proof.
  intros p f b sb Hf H Hi. unfold stamps_of in Hi. apply in_flat_map in Hi. destruct Hi as (v & Hv & Hi).
  destruct v; try contradiction. destruct Hi as [<-|[]].
  destruct (parsed_values _ _ _ Hf H _ Hv) as (raw & body & _ & _ & _ & _ & x & junk & (d & g & k & j & W & _) & _).
  eauto.
Qed.
Lemma W_signers_in : forall s raw sg, W_signers s raw -> In sg (sns_data s) -> exists r, W_sd (sn_data sg) r.
Proof.
  intros s raw sg (raws & W & _) Hi.
  assert (F : Forall (fun v => exists r, W_sd (sn_data v) r) (sns_data s)).
  { eapply Forall2_left; [exact W|]. intros v y (d & g & k & X & _). eauto. }
  eapply Forall_forall in F; eauto.
Qed.
Lemma parsed_signer : forall p f b sg, len f < U64 -> m_get_signing_block p (module_new f) f = Ok b ->
  In sg (v2_signers_of b) -> exists raw, W_sd (sn_data sg) raw.
Proof.
  intros p f b sg Hf H Hi. unfold v2_signers_of in Hi. apply in_flat_map in Hi. destruct Hi as (v & Hv & Hi).
  destruct v; try contradiction.
  destruct (parsed_values _ _ _ Hf H _ Hv) as (raw & body & _ & _ & _ & _ & x & junk & W & _).
  eapply W_signers_in; eauto.
Qed.

(** When are the two messages equal? *)
Lemma cross_exact : forall p q f g b b' sg sb, len f < U64 -> len g < U64 ->
  m_get_signing_block p (module_new f) f = Ok b -> In sg (v2_signers_of b) ->
  m_get_signing_block q (module_new g) g = Ok b' -> In sb (stamps_of b') ->
  (v2_message sg = stamp_message sb <->
   sd_digests (sn_data sg) = st_digests (sb_data sb) /\
   sd_certs (sn_data sg) = st_certs (sb_data sb) /\
   sd_attrs (sn_data sg) = st_attrs (sb_data sb) /\
   sd_size (sn_data sg) <= len (stamp_message sb)).
Proof.
  intros p q f g b b' sg sb Hf Hg H Hi H' Hi'.
  destruct (parsed_signer _ _ _ _ Hf H Hi) as (r & W). destruct (parsed_stamp _ _ _ _ Hg H' Hi') as (r' & W').
  apply W_sd_parts in W as (D1 & C1 & A1). apply W_std_parts in W' as (D2 & C2 & A2).
  rewrite v2_message_bytes, !stamp_message_bytes. split.
  - intros E. pose proof E as E'. rewrite <- (app_nil_r (signed_content _ _ (st_attrs _))) in E.
    apply triple_self in E as (E1 & E2 & E3 & E4); auto.
    apply zeros_nil in E4. rewrite E1, E2, E3 in E4. repeat split; auto. lia.
  - intros (E1 & E2 & E3 & E4). rewrite E1, E2, E3.
    rewrite (proj2 (zeros_nil _)) by lia. apply app_nil_r.
Qed.

(** * A V2 signature of the library is not a stamp signature *)
Lemma digests_of_pairs_built : forall l, Forall (fun x : algorithms * bytes => canonical (fst x)) l -> built_digests (digests_of_pairs l).
Proof.
  intros l H. eexists. split; [|reflexivity]. apply Forall_map. eapply Forall_impl; [|exact H].
  intros (a, d) Ha. exists a, d. auto.
Qed.
Lemma v2_one_sd : forall cfg l sig pub, Forall (fun x : algorithms * bytes => canonical (fst x)) l ->
  built_sd (sn_data (v2_one cfg (digests_of_pairs l) sig pub)).
Proof.
  intros cfg l sig pub H. do 3 eexists. split; [apply digests_of_pairs_built; exact H|].
  split; [|split; [|reflexivity]].
  - eexists. split; [|reflexivity].
    change (cert_new (sc_cert cfg) :: map cert_new (sc_chain cfg)) with (map cert_new (sc_cert cfg :: sc_chain cfg)).
    apply Forall_map. apply Forall_forall. intros x _. exists x. reflexivity.
  - exists []. auto.
Qed.

Lemma v2_not_stamp : forall p C cfg l v sg f b sb, len f < U64 ->
  Forall (fun x => canonical (fst x)) l -> v2_sign_pairs C cfg l = Ok v ->
  In sg (sns_data (v2_signers v)) -> len (v2_message sg) < U32 ->
  m_get_signing_block p (module_new f) f = Ok b -> In sb (stamps_of b) ->
  stamp_message sb <> v2_message sg.
Proof.
  intros p C cfg l v sg f b sb Hf Hl Hv Hi Hs H Hi' E.
  apply v2_sign_inv in Hv. destruct Hv as (sig & pub & -> & _ & _).
  destruct Hi as [<-|[]].
  pose proof (v2_one_sd cfg l sig pub Hl) as B. set (s := v2_one cfg (digests_of_pairs l) sig pub) in *.
  assert (Hsz : sd_size (sn_data s) = len (v2_message s)).
  { pose proof (built_sd_len _ B) as L.
    assert (L2 : len (v2_message s) = len (sd_to_u8 (sn_data s)) - 4).
    { unfold v2_message. change 4%nat with (N.to_nat 4). rewrite <- dropN_skipn. apply len_dropN. }
    lia. }
  assert (W : W_sd (sn_data s) (sd_to_u8 (sn_data s))) by (apply built_sd_W; auto; lia).
  destruct (parsed_stamp _ _ _ _ Hf H Hi') as (r' & W').
  apply W_sd_parts in W as (D1 & C1 & A1). apply W_std_parts in W' as (D2 & C2 & A2).
  rewrite v2_message_bytes, stamp_message_bytes in E.
  rewrite <- (app_nil_r (signed_content (st_digests _) _ _)) in E.
  apply triple_self in E as (E1 & E2 & E3 & E4); auto.
  symmetry in E4. apply zeros_nil in E4.
  destruct B as (d & c & a & BD & BC & BA & Es). rewrite Es in E4.
  unfold sd_new, signed_content in E4. cbn [sd_size sd_digests sd_certs sd_attrs] in E4.
  rewrite !len_app, built_digests_len, built_certs_len, built_attrs_len in E4 by auto. lia.
Qed.

(** * A stamp signature can be used as a V2 signature *)
Lemma transplant_message : forall sb, v2_message (transplant sb) = stamp_message sb.
Proof.
  intros sb. rewrite v2_message_bytes, stamp_message_bytes. unfold transplant.
  cbn [sn_data sd_digests sd_certs sd_attrs sd_size]. rewrite N.sub_diag. apply app_nil_r.
Qed.

Lemma transplant_good : forall C K now roots D sb, stamp_good C K now roots D sb ->
  Forall (fun g => exists d, stored_digest (dgs_data (st_digests (sb_data sb))) (sg_algo g) d) (sgs_data (sb_sigs sb)) ->
  (exists c, cts_data (st_certs (sb_data sb)) = [c]) ->
  v2_signer_good C K now roots D (transplant sb).
Proof.
  intros C K now roots D sb (H1 & H2 & leaf & rest & H3 & H4 & H5) Hd (c & Hc).
  unfold v2_signer_good. cbv zeta. rewrite transplant_message. unfold transplant.
  cbn [signer_new sn_sigs sn_key sn_data sd_digests sd_certs].
  split; [|split].
  - intros X. rewrite X in H2. inversion H2.
  - apply Forall_forall. intros g Hg.
    eapply Forall_forall in H1; [|exact Hg]. eapply Forall_forall in Hd; [|exact Hg].
    destruct H1 as (Ha & HD). destruct Hd as (d & Hd). split; [exact Ha|]. eauto.
  - rewrite Hc in H3. cbn in H3. injection H3 as H3 H3'. subst.
    exists (ct_data c), []. rewrite Hc. auto.
Qed.

(** * Adding a stamp to a block of any origin *)
Lemma faithful_len : forall v, faithful v -> len (value_to_u8 v) = value_size v.
Proof.
  intros v (body & E & Hs & _). rewrite E. unfold value_size. unfold pair.
  rewrite !len_app, !len_le. lia.
Qed.
Lemma faithful_content_len : forall l, Forall faithful l -> len (flat_map value_to_u8 l) = content_size l.
Proof.
  intros l HF. rewrite content_size_sum, len_flat_map. apply sumN_ext.
  eapply Forall_impl; [|exact HF]. apply faithful_len.
Qed.
Lemma faithful_fresh : forall q l pre, Forall faithful l ->
  content_size l + 24 <= MAX_SIGNING_BLOCK_SIZE -> len (pre ++ block_to_u8 (fresh_block l)) < U64 ->
  from_u8 q (pre ++ block_to_u8 (fresh_block l)) = Ok (fresh_block l).
Proof.
  intros q l pre HF Hm Hl. pose proof (faithful_content_len l HF) as Hc.
  assert (E : block_to_u8 (fresh_block l) = block_layout (flat_map value_to_u8 l)).
  { unfold block_to_u8, fresh_block, content_to_u8, block_layout;
      cbn [bk_size_start bk_content bk_size_end bk_magic]. rewrite Hc.
    unfold SIZE_UINT64, MAGIC_LEN. rewrite <- N.add_assoc. reflexivity. }
  assert (L : len (block_to_u8 (fresh_block l)) = content_size l + 32)
    by (rewrite E, len_block_layout, Hc; lia).
  rewrite (from_u8_ok q pre (block_to_u8 (fresh_block l)) l); auto.
  - f_equal. unfold parsed_block. rewrite L. unfold fresh_block, SIZE_UINT64, MAGIC_LEN. f_equal; lia.
  - exists (flat_map value_to_u8 l). split; [|exact E]. exists (map value_to_u8 l).
    rewrite concat_map_flat. split; [|reflexivity]. apply Forall2_map_W. exact HF.
  - lia.
Qed.

Lemma built_faithful : forall v, built_value v -> value_inner_size v <= MAX_PAIR_SIZE -> faithful v.
Proof. exact built_value_W. Qed.

Lemma finish_fresh_any : forall p m l b, ms_finish p m l = Ok b -> exists pad,
  b = fresh_block (l ++ pad) /\ content_size (l ++ pad) + 24 <= MAX_SIGNING_BLOCK_SIZE /\
  (pad = [] \/ exists n, ms_padding m = true /\ pad = [BaseBlock (raw_new VERITY_PADDING_BLOCK_ID (zeros n))]).
Proof.
  intros p m l b H. unfold ms_finish in H. destruct (ms_padding m).
  - unfold block_new_with_padding in H. destruct (existsb _ l); [discriminate|].
    set (v := (SIZE_UINT64 + content_size l + SIZE_UINT64 + MAGIC_LEN) mod 4096) in *.
    cbv zeta in H. destruct (v =? 0).
    + cbn [bind] in H. destruct (_ <? _) eqn:Em; [discriminate|].
      destruct (debug_assert _ _); try discriminate. cbn [bind] in H. injection H as <-.
      exists []. split; [reflexivity|]. unfold SIZE_UINT64, MAGIC_LEN in Em. split; [lia|auto].
    + destruct (v + 4 + 8 <=? 4096).
      * cbn [bind] in H. destruct (_ <? _) eqn:Em; [discriminate|].
        destruct (debug_assert _ _); try discriminate. cbn [bind] in H. injection H as <-.
        exists [BaseBlock (raw_new VERITY_PADDING_BLOCK_ID (zeros (4096 - (v + 4 + 8))))].
        split; [reflexivity|]. clearbody v. unfold SIZE_UINT64, MAGIC_LEN in Em. split; [lia|]. right. eauto.
      * destruct (usub p 4096 v) as [a| |]; try discriminate. cbn [bind] in H.
        destruct (usub p a 4) as [a'| |]; try discriminate. cbn [bind] in H.
        destruct (usub p a' 8); discriminate.
  - unfold block_new in H. destruct (_ <? _) eqn:Em; [discriminate|]. injection H as <-.
    exists []. rewrite app_nil_r. unfold SIZE_UINT64, MAGIC_LEN in Em. split; [reflexivity|]. split; [lia|auto].
Qed.

Lemma add_stamp_faithful : forall p q C now m b l b' pre, crypto_ok C ->
  Forall (fun x => canonical (fst x)) l -> Forall faithful (bk_content b) ->
  ms_add_source_stamp p C now m b (digests_of_pairs l) = Ok b' ->
  len (pre ++ block_to_u8 b') < U64 -> from_u8 q (pre ++ block_to_u8 b') = Ok b'.
Proof.
  intros p q C now m b l b' pre HC Hl HF H Hn.
  unfold ms_add_source_stamp in H.
  destruct (ms_stamp m) as [cfg|] eqn:Em; [|discriminate]. cbn [of_option bind] in H.
  destruct (clone_config C cfg) as [c| |] eqn:Ec; try discriminate. cbn [bind] in H.
  apply clone_config_same in Ec; auto. subst c.
  destruct (stamp_sign C now (ms_timestamp m) cfg (digests_of_pairs l)) as [s| |] eqn:Es; try discriminate. cbn [bind] in H.
  apply finish_fresh_any in H. destruct H as (pad & -> & Hsz & Hp).
  apply faithful_fresh; auto.
  assert (HV : forall v, In v ((filter keep_for_stamp (bk_content b) ++ [StampBlk s]) ++ pad) ->
     value_inner_size v <= MAX_PAIR_SIZE).
  { intros v Hv. rewrite content_size_sum in Hsz. apply (In_sumN value_size) in Hv. unfold value_size at 1 in Hv.
    unfold MAX_PAIR_SIZE, MAX_SIGNING_BLOCK_SIZE in *. lia. }
  apply Forall_forall. intros v Hv. pose proof (HV v Hv) as Hs.
  apply in_app_or in Hv. destruct Hv as [Hv|Hv]; [apply in_app_or in Hv; destruct Hv as [Hv|Hv]|].
  - apply filter_In in Hv. eapply Forall_forall in HF; [exact HF|tauto].
  - destruct Hv as [<-|[]]. apply built_faithful; auto. eapply stamp_sign_built; eauto.
  - destruct Hp as [->|(n & _ & ->)]; [destruct Hv|]. destruct Hv as [<-|[]].
    apply built_faithful; auto. exists VERITY_PADDING_BLOCK_ID, (zeros n).
    split; [reflexivity|]. split; [reflexivity|]. repeat split; discriminate.
Qed.

Lemma add_stamp_parsed : forall p q C now m f b d b', crypto_ok C -> len f < U64 ->
  m_get_signing_block q (module_new f) f = Ok b ->
  ms_add_source_stamp p C now m b d = Ok b' ->
  v2_signers_of b' = v2_signers_of b /\
  (exists s, stamps_of b' = [s]) /\
  (exists tail, bk_content b' = filter other_value (bk_content b) ++ tail) /\
  (forall C' K now' roots ctx,
     verify_v2_with_digest C' K now' roots b' ctx = verify_v2_with_digest C' K now' roots b ctx).
Proof.
  intros p q C now m f b d b' HC Hf Hb H. pose proof (parsed_id_ok _ _ _ Hf Hb) as HI.
  destruct (add_stamp_other _ _ _ _ _ _ _ HC H) as (cfg & s & pad & Em & Es & Hc & _).
  destruct (add_stamp_results _ _ _ _ _ _ _ _ _ HC H Em Es HI) as (H1 & H2).
  split; [exact H2|]. split; [eauto|]. split; [eauto|]. intros. eapply add_stamp_v2_same; eauto.
Qed.

Lemma built_block_faithful : forall b, Spec.built_block b -> Forall faithful (bk_content b).
Proof.
  intros b H. apply built_block_fresh in H as (l & HF & -> & Hs). cbn [bk_content fresh_block].
  apply Forall_forall. intros v Hv. apply built_faithful; [eapply Forall_forall in HF; eauto|].
  rewrite content_size_sum in Hs. apply (In_sumN value_size) in Hv. unfold value_size at 1 in Hv.
  unfold MAX_SIGNING_BLOCK_SIZE, MAX_PAIR_SIZE in *. lia.
Qed.
Lemma signed_faithful : forall p C now m l b, crypto_ok C -> Forall (fun x => canonical (fst x)) l ->
  ms_sign p C now m (digests_of_pairs l) = Ok b -> Forall faithful (bk_content b).
Proof. intros. eapply built_block_faithful, ms_sign_built; eauto. Qed.
