(** SignFacts.v - lemmas about the signer model. *)
From Verif Require Import Base BaseFacts Utils ParseFacts Algorithms Common SchemeV2 SourceStamp
  Utf8 ElfInfo SigningBlock Wire Built BuiltFacts CodecFacts BlockFacts Spec LimitFacts Signer Verifier VerifySpec VerifyFacts
  SignSpec.
From Coq Require Import Bool Lia.
Open Scope N_scope.

(** * Keys *)

Lemma algo_sign_ok : forall C a k data,
  (exists s, algo_sign C a k data = Ok s) <-> matches a k.
Proof.
  intros C a k data. destruct a, k; cbn; split; intros H; try contradiction; eauto;
    destruct H as [s H]; discriminate.
Qed.

Lemma algo_sign_err : forall C a k data, ~ matches a k -> algo_sign C a k data = Err EKeyMismatch.
Proof. intros C a k data. destruct a, k; cbn; tauto. Qed.

Lemma sign_accepted : forall C a k data sig pub, crypto_ok C ->
  algo_sign C a k data = Ok sig -> public_key_der C k = Ok pub -> accepted C a pub data sig.
Proof.
  intros C a k data sig pub (H256 & H384 & _) S P.
  destruct a, k; cbn in S; try discriminate; injection S as <-; cbn in P; unfold of_option in P;
    cbn [accepted hash] in *.
  - destruct (p256_public_der C k) eqn:E; [|discriminate]. injection P as <-. eapply H256; eauto.
  - destruct (p384_public_der C k) eqn:E; [|discriminate]. injection P as <-. eapply H384; eauto.
Qed.

Lemma clone_same : forall C k k', crypto_ok C -> clone_private_key C k = Ok k' -> k' = k.
Proof.
  intros C k k' (_ & _ & H256 & H384) H. destruct k; cbn in H; unfold of_option in H.
  - destruct (p256_clone C k) eqn:E; [|discriminate]. injection H as <-. now rewrite (H256 _ _ E).
  - destruct (p384_clone C k) eqn:E; [|discriminate]. injection H as <-. now rewrite (H384 _ _ E).
Qed.

Lemma clone_config_same : forall C c c', crypto_ok C -> clone_config C c = Ok c' -> c' = c.
Proof.
  intros C c c' HC H. unfold clone_config in H. destruct (clone_private_key C (sc_key c)) eqn:E; try discriminate.
  cbn in H. injection H as <-. apply clone_same in E; auto. subst. now destruct c.
Qed.

(** Cloning keeps everything but the key. *)
Lemma clone_config_inv : forall C c c', clone_config C c = Ok c' ->
  sc_cert c' = sc_cert c /\ sc_algo c' = sc_algo c /\ sc_chain c' = sc_chain c /\
  clone_private_key C (sc_key c) = Ok (sc_key c').
Proof.
  intros C c c' H. unfold clone_config in H. destruct (clone_private_key C (sc_key c)) eqn:E; try discriminate.
  cbn in H. injection H as <-. auto.
Qed.

(** * The two signers *)

Definition v2_one (cfg : signer_config) (d : digests) (sig pub : bytes) : signer :=
  signer_new (sd_new d (certs_new (cert_new (sc_cert cfg) :: map cert_new (sc_chain cfg))) (attrs_new []))
    (sigs_new [sig_new (sc_algo cfg) sig]) (pub_new pub).

Lemma v2_sign_inv : forall C cfg d v, v2_sign C cfg d = Ok v -> exists sig pub,
  let s := v2_one cfg d sig pub in
  v = v2_new (signers_new [s]) /\ algo_sign C (sc_algo cfg) (sc_key cfg) (v2_message s) = Ok sig /\
  public_key_der C (sc_key cfg) = Ok pub.
Proof.
  intros C cfg d v H. unfold v2_sign in H. rewrite get_from_4_some in H by apply sd_to_u8_min.
  cbn [of_option bind] in H.
  destruct (algo_sign _ _ _ _) as [sig| |] eqn:Es; try discriminate. cbn [bind] in H.
  destruct (public_key_der _ _) as [pub| |] eqn:Ep; try discriminate. cbn [bind] in H.
  injection H as <-. exists sig, pub. cbv zeta. split; [reflexivity|]. split; [|reflexivity]. exact Es.
Qed.

Lemma v2_sign_ok : forall C cfg d,
  (exists v, v2_sign C cfg d = Ok v) <->
  matches (sc_algo cfg) (sc_key cfg) /\ exists pub, public_key_der C (sc_key cfg) = Ok pub.
Proof.
  intros C cfg d. split.
  - intros (v & H). apply v2_sign_inv in H. destruct H as (sig & pub & _ & S & P). split; [|eauto].
    eapply algo_sign_ok. eauto.
  - intros (M & pub & P). unfold v2_sign. rewrite get_from_4_some by apply sd_to_u8_min.
    cbn [of_option bind]. match goal with |- context [algo_sign C ?a ?k ?x] =>
      destruct (proj2 (algo_sign_ok C a k x) M) as (s & ->) end.
    cbn [bind]. rewrite P. cbn. eauto.
Qed.

Definition stamp_one (cfg : signer_config) (attrs : list attribute) (d : digests) (sig pub : bytes) : stamp_block :=
  sb_new (std_new d (certs_new [cert_new (sc_cert cfg)]) (attrs_new attrs))
    (sigs_new [sig_new (sc_algo cfg) sig]) (pub_new pub).

Lemma stamp_sign_inv : forall C now ts cfg d s, stamp_sign C now ts cfg d = Ok s -> exists attrs sig pub,
  let b := stamp_one cfg attrs d sig pub in
  stamp_attrs now ts = Ok attrs /\
  s = ss_new b /\ algo_sign C (sc_algo cfg) (sc_key cfg) (stamp_message b) = Ok sig /\
  public_key_der C (sc_key cfg) = Ok pub.
Proof.
  intros C now ts cfg d v H. unfold stamp_sign in H.
  destruct (stamp_attrs now ts) as [attrs| |] eqn:Ea; try discriminate. cbn [bind] in H.
  rewrite get_from_4_some in H by apply std_to_u8_min.
  cbn [of_option bind] in H.
  destruct (algo_sign _ _ _ _) as [sig| |] eqn:Es; try discriminate. cbn [bind] in H.
  destruct (public_key_der _ _) as [pub| |] eqn:Ep; try discriminate. cbn [bind] in H.
  injection H as <-. exists attrs, sig, pub. cbv zeta. auto.
Qed.

Lemma stamp_sign_ok : forall C now ts cfg d,
  (exists v, stamp_sign C now ts cfg d = Ok v) <->
  matches (sc_algo cfg) (sc_key cfg) /\ (exists pub, public_key_der C (sc_key cfg) = Ok pub) /\
  (ts = true -> now <> None).
Proof.
  intros C now ts cfg d. split.
  - intros (v & H). apply stamp_sign_inv in H. destruct H as (attrs & sig & pub & A & _ & S & P).
    split; [|split; [eauto|]].
    + eapply algo_sign_ok. eauto.
    + intros -> ->. discriminate.
  - intros (M & (pub & P) & T). unfold stamp_sign.
    assert (exists attrs, stamp_attrs now ts = Ok attrs) as (attrs & ->).
    { unfold stamp_attrs. destruct ts; [|eauto]. destruct now; [cbn; eauto|]. now elim T. }
    cbn [bind]. rewrite get_from_4_some by apply std_to_u8_min.
    cbn [of_option bind]. match goal with |- context [algo_sign C ?a ?k ?x] =>
      destruct (proj2 (algo_sign_ok C a k x) M) as (s & ->) end.
    cbn [bind]. rewrite P. cbn. eauto.
Qed.

Lemma resize_le : forall n, resize 8 (le 8 n) = le 8 n.
Proof.
  intros n. unfold resize. rewrite len_le. change (N.of_nat 8) with 8. rewrite takeN_all by (rewrite len_le; lia).
  rewrite N.sub_diag. apply app_nil_r.
Qed.

Lemma old_stamp_same : forall C now ts k cert a chain d,
  old_stamp_sign C now (mkOldConfig k cert a ts) d = stamp_sign C now ts (mkConfig k cert a chain) d.
Proof.
  intros C now ts k cert a chain d. unfold old_stamp_sign, stamp_sign, stamp_attrs.
  cbn [oc_key oc_cert oc_algo oc_timestamp sc_key sc_cert sc_algo sc_chain].
  destruct ts; [|reflexivity]. destruct now as [t|]; [|reflexivity].
  cbn [of_option bind]. rewrite resize_le. reflexivity.
Qed.

Lemma builder_same : forall C now ts k cert a chain d,
  old_stamp_sign C now (builder_timestamp (builder_new k cert a) ts) d =
  stamp_sign C now ts (mkConfig k cert a chain) d.
Proof. intros. apply old_stamp_same. Qed.

(** * Verifying what was signed *)

Lemma certs_data_map : forall l, map ct_data (map cert_new l) = l.
Proof. induction l; cbn; congruence. Qed.

Lemma v2_single_verifies : forall C K now roots ctx idx s a sig pub cert chain dg,
  sgs_data (sn_sigs s) = [sig_new a sig] -> pk_data (sn_key s) = pub ->
  map ct_data (cts_data (sd_certs (sn_data s))) = cert :: chain ->
  accepted C a pub (v2_message s) sig ->
  spki_of K cert = Some pub ->
  stored_digest (dgs_data (sd_digests (sn_data s))) a dg ->
  exists r, verify_v2_signer C K now (configured K roots) (Some ctx) idx s = r /\
    (computed ctx a dg ->
     sr_error r = None /\ sr_signature_valid r = true /\ sr_digest_valid r = true) /\
    (~ computed ctx a dg -> sr_error r = Some SEDigest) /\
    (sr_trusted r = true <-> trusted K now roots cert chain).
Proof.
  intros C K now roots ctx idx s a sig pub cert chain dg Hg Hk Hc A B S.
  eexists. split; [reflexivity|].
  unfold verify_v2_signer. rewrite v2_raw, Hg, Hk.
  cbn [v2_sig_loop sig_new sg_algo sg_data].
  apply stored_find_digest in S. destruct S as (e & -> & <-).
  apply algo_verify_iff in A. rewrite A.
  destruct (cts_data (sd_certs (sn_data s))) as [|c cs]; [discriminate|]. cbn [map] in Hc.
  injection Hc as -> ->. rewrite (proj2 (binding_iff _ _ _) B). cbn [negb].
  destruct (verify_chain K now (configured K roots) cert chain) as [[cv t] w] eqn:Ec.
  apply chain_trusted in Ec. destruct Ec as (Et & _).
  destruct (verify_digest ctx (u32_of_algo a) (dg_digest e)) eqn:Ed;
    cbn [negb andb is_none sr_error sr_signature_valid sr_digest_valid sr_trusted].
  - apply verify_digest_iff in Ed. split; [auto|split; [contradiction|exact Et]].
  - split; [intros X; apply verify_digest_iff in X; congruence|split; [auto|exact Et]].
Qed.

Lemma stamp_single_verifies : forall C K now roots ctx b a sig pub cert chain dg,
  sgs_data (sb_sigs b) = [sig_new a sig] -> pk_data (sb_key b) = pub ->
  map ct_data (cts_data (st_certs (sb_data b))) = cert :: chain ->
  accepted C a pub (stamp_message b) sig ->
  spki_of K cert = Some pub ->
  stored_digest (dgs_data (st_digests (sb_data b))) a dg ->
  exists r, verify_stamp C K now (configured K roots) (Some ctx) (stamp_message b) b = r /\
    (computed ctx a dg ->
     sr_error r = None /\ sr_signature_valid r = true /\ sr_digest_valid r = true) /\
    (~ computed ctx a dg -> sr_error r = Some SEDigest) /\
    (sr_trusted r = true <-> trusted K now roots cert []).
Proof.
  intros C K now roots ctx b a sig pub cert chain dg Hg Hk Hc A B S.
  eexists. split; [reflexivity|].
  unfold verify_stamp. rewrite Hg, Hk.
  cbn [stamp_sig_loop sig_new sg_algo sg_data].
  apply stored_find_digest in S. destruct S as (e & -> & <-).
  apply algo_verify_iff in A. rewrite A.
  destruct (cts_data (st_certs (sb_data b))) as [|c cs]; [discriminate|]. cbn [map] in Hc.
  injection Hc as -> _. rewrite (proj2 (binding_iff _ _ _) B).
  destruct (verify_chain K now (configured K roots) cert []) as [[cv t] w] eqn:Ec.
  apply chain_trusted in Ec. destruct Ec as (Et & _).
  destruct (verify_digest ctx (u32_of_algo a) (dg_digest e)) eqn:Ed;
    cbn [negb andb is_none sr_error sr_signature_valid sr_digest_valid sr_trusted].
  - apply verify_digest_iff in Ed. split; [auto|split; [contradiction|exact Et]].
  - split; [intros X; apply verify_digest_iff in X; congruence|split; [auto|exact Et]].
Qed.

Lemma v2_results_of : forall C K now roots ctx b s,
  v2_signers_of b = [s] -> exists idx,
  v2_results C K now roots ctx (bk_content b) = [verify_v2_signer C K now roots ctx idx s].
Proof.
  intros C K now roots ctx b s. unfold v2_signers_of, v2_results.
  induction (bk_content b) as [|v l IH]; cbn [flat_map app]; [discriminate|].
  destruct v; cbn [app]; auto.
  destruct (sns_data (v2_signers v)) as [|s1 [|s2 rest]]; cbn [app verify_v2_signers]; auto.
  - intros [= -> E]. exists 0. f_equal.
    pose proof (v2_results_nil C K now roots ctx (mkBlock 0 0 0 0 l 0 [])) as X.
    unfold v2_results, v2_signers_of in X. cbn [bk_content] in X. now apply X.
  - intros [=].
Qed.

(** What the library signs verifies: signature and content flags, trust exactly
    by the roots, and a wrong file is an error. *)
Lemma v2_sign_verifies : forall C K now roots ctx cfg d v b pub dg, crypto_ok C ->
  v2_sign C cfg d = Ok v -> v2_signers_of b = sns_data (v2_signers v) ->
  public_key_der C (sc_key cfg) = Ok pub -> spki_of K (sc_cert cfg) = Some pub ->
  stored_digest (dgs_data d) (sc_algo cfg) dg ->
  (computed ctx (sc_algo cfg) dg -> exists r,
     verify_v2_with_digest C K now (configured K roots) b (Some ctx) = VOk r /\
     vr_signature_valid r = true /\ vr_digest_valid r = true /\
     (vr_trusted r = true <-> trusted K now roots (sc_cert cfg) (sc_chain cfg))) /\
  (~ computed ctx (sc_algo cfg) dg ->
     verify_v2_with_digest C K now (configured K roots) b (Some ctx) = VErr (VMultiSigner [SEDigest])).
Proof.
  intros C K now roots ctx cfg d v b pub dg HC HS HB HP HK HD.
  apply v2_sign_inv in HS. destruct HS as (sig & pub' & Hv & Hs & Hp). cbv zeta in *.
  rewrite HP in Hp. injection Hp as <-. subst v.
  assert (A := sign_accepted _ _ _ _ _ _ HC Hs HP).
  set (s := v2_one cfg d sig pub) in *. cbn [v2_new v2_signers signers_new sns_data] in HB.
  destruct (v2_results_of C K now (configured K roots) (Some ctx) b s HB) as (idx & HR).
  destruct (v2_single_verifies C K now roots ctx idx s (sc_algo cfg) sig pub (sc_cert cfg) (sc_chain cfg) dg)
    as (r & Er & Ok1 & Bad & T); auto.
  { unfold s. cbn. f_equal. apply certs_data_map. }
  unfold verify_v2_with_digest. rewrite HR, Er. split.
  - intros Hc. destruct (Ok1 Hc) as (E1 & E2 & E3). eexists. unfold verdict. cbn [flat_map].
    rewrite E1. cbn [opt_list app]. split; [reflexivity|]. cbn. rewrite E2, E3, !andb_true_r.
    split; [reflexivity|split; [reflexivity|exact T]].
  - intros Hc. unfold verdict. cbn [flat_map]. rewrite (Bad Hc). reflexivity.
Qed.

Lemma stamp_sign_verifies : forall C K now clk ts roots ctx cfg d v b rest pub dg, crypto_ok C ->
  stamp_sign C clk ts cfg d = Ok v -> stamps_of b = ss_block v :: rest ->
  public_key_der C (sc_key cfg) = Ok pub -> spki_of K (sc_cert cfg) = Some pub ->
  stored_digest (dgs_data d) (sc_algo cfg) dg ->
  (computed ctx (sc_algo cfg) dg -> exists r,
     verify_source_stamp_with_digest C K now (configured K roots) b (Some ctx) = VOk r /\
     vr_signature_valid r = true /\ vr_digest_valid r = true /\
     (vr_trusted r = true <-> trusted K now roots (sc_cert cfg) [])) /\
  (~ computed ctx (sc_algo cfg) dg ->
     verify_source_stamp_with_digest C K now (configured K roots) b (Some ctx) =
       VErr (VMultiSigner [SEDigest])).
Proof.
  intros C K now clk ts roots ctx cfg d v b rest pub dg HC HS HB HP HK HD.
  apply stamp_sign_inv in HS. destruct HS as (attrs & sig & pub' & Ha & Hv & Hs & Hp). cbv zeta in *.
  rewrite HP in Hp. injection Hp as <-. subst v.
  assert (A := sign_accepted _ _ _ _ _ _ HC Hs HP).
  set (s := stamp_one cfg attrs d sig pub) in *. cbn [ss_new ss_block] in HB.
  destruct (stamp_single_verifies C K now roots ctx s (sc_algo cfg) sig pub (sc_cert cfg) [] dg)
    as (r & Er & Ok1 & Bad & T); auto.
  unfold verify_source_stamp_with_digest. rewrite stamp_results_eq, HB, Er. split.
  - intros Hc. destruct (Ok1 Hc) as (E1 & E2 & E3). eexists. unfold verdict. cbn [flat_map].
    rewrite E1. cbn [opt_list app]. split; [reflexivity|]. cbn. rewrite E2, E3, !andb_true_r.
    split; [reflexivity|split; [reflexivity|exact T]].
  - intros Hc. unfold verdict. cbn [flat_map]. rewrite (Bad Hc). reflexivity.
Qed.

(** * Required algorithms *)
Lemma required_spec : forall m,
  NoDup (required_algorithms m) /\
  (forall a, In a (required_algorithms m) <->
     exists c, (ms_v2 m = Some c \/ ms_stamp m = Some c) /\ sc_algo c = a).
Proof.
  intros m. unfold required_algorithms. destruct (ms_v2 m) as [v|], (ms_stamp m) as [s|];
    cbn [existsb app]; rewrite ?orb_false_r.
  - destruct (algo_eqb (sc_algo s) (sc_algo v)) eqn:E.
    + apply algo_eqb_iff in E. split; [repeat constructor; intros []|]. intros a. split.
      * intros [<-|[]]. eauto.
      * intros (c & [[= <-]|[= <-]] & <-); [now left|left; congruence].
    + assert (Hne : sc_algo s <> sc_algo v). { intros X. apply algo_eqb_iff in X. congruence. }
      split.
      * constructor; [intros [X|[]]; congruence|repeat constructor; intros []].
      * intros a. split.
        -- intros [<-|[<-|[]]]; eauto.
        -- intros (c & [[= <-]|[= <-]] & <-); cbn; auto.
  - split; [repeat constructor; intros []|]. intros a. split.
    + intros [<-|[]]. eauto.
    + intros (c & [[= <-]|?] & <-); [now left|discriminate].
  - split; [repeat constructor; intros []|]. intros a. split.
    + intros [<-|[]]. eauto.
    + intros (c & [?|[= <-]] & <-); [discriminate|now left].
  - split; [constructor|]. intros a. split; [intros []|]. intros (c & [?|?] & _); discriminate.
Qed.

(** * The module signer *)

Lemma finish_content : forall p m l b, ms_finish p m l = Ok b -> exists pad,
  bk_content b = l ++ pad /\
  (pad = [] \/ exists n, ms_padding m = true /\ pad = [BaseBlock (raw_new VERITY_PADDING_BLOCK_ID (zeros n))]).
Proof.
  intros p m l b H. unfold ms_finish in H. destruct (ms_padding m).
  - unfold block_new_with_padding in H. destruct (existsb _ l); [discriminate|].
    set (v := (SIZE_UINT64 + content_size l + SIZE_UINT64 + MAGIC_LEN) mod 4096) in *.
    cbv zeta in H.
    destruct (v =? 0).
    + cbn [bind] in H. destruct (_ <? _); [discriminate|].
      destruct (debug_assert _ _); try discriminate. cbn [bind] in H. injection H as <-.
      exists []. auto.
    + destruct (v + 4 + 8 <=? 4096).
      * cbn [bind] in H. destruct (_ <? _); [discriminate|].
        destruct (debug_assert _ _); try discriminate. cbn [bind] in H. injection H as <-.
        eexists. split; [reflexivity|]. right. eauto.
      * destruct (usub p 4096 v) as [a| |]; try discriminate. cbn [bind] in H.
        destruct (usub p a 4) as [a'| |]; try discriminate. cbn [bind] in H.
        destruct (usub p a' 8); discriminate.
  - unfold block_new in H. destruct (_ <? _); [discriminate|]. injection H as <-.
    exists []. split; [symmetry; apply app_nil_r|auto].
Qed.

Definition id_ok (v : value) : Prop :=
  match v with V2Block x => v2_id x = SIGNATURE_SCHEME_V2_BLOCK_ID | _ => True end.

Lemma kept_signers : forall l, Forall id_ok l ->
  flat_map (fun v => match v with V2Block x => sns_data (v2_signers x) | _ => [] end)
    (filter keep_for_stamp l) =
  flat_map (fun v => match v with V2Block x => sns_data (v2_signers x) | _ => [] end) l.
Proof.
  intros l H. induction H as [|v l Hv H IH]; cbn [filter flat_map]; [reflexivity|].
  destruct v; cbn [keep_for_stamp value_id].
  - destruct (negb _); cbn [flat_map]; exact IH.
  - cbn in Hv. rewrite Hv. change (negb (_ =? _)) with true. cbn [flat_map]. now rewrite IH.
  - exact IH.
  - destruct (negb _); cbn [flat_map]; exact IH.
Qed.

Lemma kept_no_stamps : forall l,
  flat_map (fun v => match v with StampBlk s => [ss_block s] | _ => [] end) (filter keep_for_stamp l) = [].
Proof.
  induction l as [|v l IH]; cbn [filter flat_map]; [reflexivity|].
  destruct v; cbn [keep_for_stamp]; try (destruct (negb _)); cbn [flat_map app]; exact IH.
Qed.

Lemma add_stamp_spec : forall p C now m b d b', crypto_ok C ->
  ms_add_source_stamp p C now m b d = Ok b' -> exists cfg s pad,
  ms_stamp m = Some cfg /\ stamp_sign C now (ms_timestamp m) cfg d = Ok s /\
  bk_content b' = filter keep_for_stamp (bk_content b) ++ [StampBlk s] ++ pad /\
  (pad = [] \/ exists n, ms_padding m = true /\ pad = [BaseBlock (raw_new VERITY_PADDING_BLOCK_ID (zeros n))]).
Proof.
  intros p C now m b d b' HC H. unfold ms_add_source_stamp in H.
  destruct (ms_stamp m) as [cfg|] eqn:Em; [|discriminate]. cbn [of_option bind] in H.
  destruct (clone_config C cfg) as [c| |] eqn:Ec; try discriminate. cbn [bind] in H.
  apply clone_config_same in Ec; auto. subst c.
  destruct (stamp_sign C now (ms_timestamp m) cfg d) as [s| |] eqn:Es; try discriminate. cbn [bind] in H.
  apply finish_content in H. destruct H as (pad & Hc & Hp). exists cfg, s, pad.
  rewrite <- app_assoc in Hc. auto.
Qed.

Lemma add_stamp_results : forall p C now m b d b' cfg s, crypto_ok C ->
  ms_add_source_stamp p C now m b d = Ok b' -> ms_stamp m = Some cfg ->
  stamp_sign C now (ms_timestamp m) cfg d = Ok s -> Forall id_ok (bk_content b) ->
  stamps_of b' = [ss_block s] /\ v2_signers_of b' = v2_signers_of b.
Proof.
  intros p C now m b d b' cfg s HC H Em Es HI.
  apply add_stamp_spec in H; auto. destruct H as (cfg' & s' & pad & Em' & Es' & Hc & Hp).
  rewrite Em in Em'. injection Em' as <-. rewrite Es in Es'. injection Es' as <-.
  unfold stamps_of, v2_signers_of. rewrite Hc, !flat_map_app, kept_no_stamps, kept_signers by auto.
  cbn [flat_map app]. rewrite ?app_nil_r.
  destruct Hp as [->|(n & _ & ->)]; cbn; rewrite ?app_nil_r; auto.
Qed.

(** The V2 results depend on the V2 blocks only. *)
Definition v2_blocks_of (b : signing_block) : list scheme_v2 :=
  flat_map (fun v => match v with V2Block x => [x] | _ => [] end) (bk_content b).
Lemma v2_results_blocks : forall C K now roots ctx b,
  v2_results C K now roots ctx (bk_content b) =
  flat_map (fun v2 => verify_v2_signers C K now roots ctx 0 (sns_data (v2_signers v2))) (v2_blocks_of b).
Proof.
  intros. unfold v2_results, v2_blocks_of. induction (bk_content b) as [|v l IH]; [reflexivity|].
  cbn [flat_map]. rewrite IH, flat_map_app. destruct v; cbn; rewrite ?app_nil_r; reflexivity.
Qed.
Lemma kept_blocks : forall l, Forall id_ok l ->
  flat_map (fun v => match v with V2Block x => [x] | _ => [] end) (filter keep_for_stamp l) =
  flat_map (fun v => match v with V2Block x => [x] | _ => [] end) l.
Proof.
  intros l H. induction H as [|v l Hv H IH]; cbn [filter flat_map]; [reflexivity|].
  destruct v; cbn [keep_for_stamp value_id].
  - destruct (negb _); cbn [flat_map]; exact IH.
  - cbn in Hv. rewrite Hv. change (negb (_ =? _)) with true. cbn [flat_map]. now rewrite IH.
  - exact IH.
  - destruct (negb _); cbn [flat_map]; exact IH.
Qed.
Lemma add_stamp_v2_same : forall p C C' K now now' m b d b' roots ctx, crypto_ok C ->
  ms_add_source_stamp p C now m b d = Ok b' -> Forall id_ok (bk_content b) ->
  verify_v2_with_digest C' K now' roots b' ctx = verify_v2_with_digest C' K now' roots b ctx.
Proof.
  intros p C C' K now now' m b d b' roots ctx HC H HI. unfold verify_v2_with_digest.
  rewrite !v2_results_blocks. do 2 f_equal.
  apply add_stamp_spec in H; auto. destruct H as (cfg' & s' & pad & Em' & Es' & Hc & Hp).
  unfold v2_blocks_of. rewrite Hc, !flat_map_app, kept_blocks by auto. cbn [flat_map app].
  destruct Hp as [->|(n & _ & ->)]; cbn; rewrite ?app_nil_r; auto.
Qed.

Lemma ms_sign_inv : forall p C now m d b, crypto_ok C -> ms_sign p C now m d = Ok b -> exists v s pad,
  bk_content b = v ++ s ++ pad /\
  match ms_v2 m with
  | None => v = []
  | Some c => exists x, v2_sign C c d = Ok x /\ v = [V2Block x]
  end /\
  match ms_stamp m with
  | None => s = []
  | Some c => exists x, stamp_sign C now (ms_timestamp m) c d = Ok x /\ s = [StampBlk x]
  end /\
  (pad = [] \/ exists n, ms_padding m = true /\ pad = [BaseBlock (raw_new VERITY_PADDING_BLOCK_ID (zeros n))]) /\
  ms_finish p m (v ++ s) = Ok b /\ (ms_v2 m <> None \/ ms_stamp m <> None).
Proof.
  intros p C now m d b HC H. unfold ms_sign in H.
  assert (Hv : exists v, match ms_v2 m with
    | Some c => do c <- clone_config C c; do v <- v2_sign C c d; Ok [V2Block v]
    | None => Ok []
    end = Ok v).
  { destruct (match ms_v2 m with Some c => _ | None => _ end); try discriminate. eauto. }
  destruct Hv as (v & Ev). rewrite Ev in H. cbn [bind] in H.
  assert (Hs : exists s, match ms_stamp m with
    | Some c => do c <- clone_config C c; do s <- stamp_sign C now (ms_timestamp m) c d; Ok (v ++ [StampBlk s])
    | None => Ok v
    end = Ok s).
  { destruct (match ms_stamp m with Some c => _ | None => _ end); try discriminate. eauto. }
  destruct Hs as (vs & Es). rewrite Es in H. cbn [bind] in H.
  destruct vs as [|v0 vs0] eqn:Evs; [discriminate|]. rewrite <- Evs in *.
  assert (Hfull : exists s, vs = v ++ s /\ match ms_stamp m with
    | None => s = []
    | Some c => exists x, stamp_sign C now (ms_timestamp m) c d = Ok x /\ s = [StampBlk x]
    end).
  { destruct (ms_stamp m) as [c|].
    - destruct (clone_config C c) as [c'| |] eqn:Ec; try discriminate. cbn [bind] in Es.
      apply clone_config_same in Ec; auto. subst c'.
      destruct (stamp_sign _ _ _ _ _) as [x| |] eqn:E; try discriminate. cbn [bind] in Es.
      injection Es as <-. exists [StampBlk x]. eauto.
    - injection Es as <-. exists []. rewrite app_nil_r. auto. }
  destruct Hfull as (s & -> & Hs).
  apply finish_content in H as Hf. destruct Hf as (pad & Hc & Hp).
  exists v, s, pad. rewrite <- app_assoc in Hc.
  split; [exact Hc|]. split.
  { destruct (ms_v2 m) as [c|].
    - destruct (clone_config C c) as [c'| |] eqn:Ec; try discriminate. cbn [bind] in Ev.
      apply clone_config_same in Ec; auto. subst c'.
      destruct (v2_sign _ _ _) as [x| |] eqn:E; try discriminate. cbn [bind] in Ev.
      injection Ev as <-. eauto.
    - now injection Ev as <-. }
  split; [exact Hs|]. split; [exact Hp|]. split; [exact H|].
  destruct (ms_v2 m); [left; discriminate|]. destruct (ms_stamp m); [right; discriminate|].
  injection Ev as <-. subst s. discriminate.
Qed.

(** * Layout *)

Lemma lp_sized : forall n c, n = len c -> sized n c = lp c.
Proof. intros n c H. rewrite sized_exact by exact H. subst. reflexivity. Qed.
Lemma len_lp : forall x, len (lp x) = 4 + len x.
Proof. intros x. unfold lp. now rewrite len_app, len_le. Qed.

Lemma digest_layout : forall a d, digest_to_u8 (digest_new a d) = lp (le 4 (u32_of_algo a) ++ lp d).
Proof.
  intros a d. unfold digest_to_u8, digest_new; cbn [dg_size dg_algo dg_digest].
  rewrite lp_sized; [reflexivity|]. rewrite !len_app, !len_le. lia.
Qed.
Lemma sigitem_layout : forall a d, sig_to_u8 (sig_new a d) = lp (le 4 (u32_of_algo a) ++ lp d).
Proof.
  intros a d. unfold sig_to_u8, sig_new; cbn [sg_size sg_algo sg_data].
  rewrite lp_sized; [reflexivity|]. rewrite !len_app, !len_le. lia.
Qed.
Lemma cert_layout : forall d, cert_to_u8 (cert_new d) = lp d.
Proof. intros d. unfold cert_to_u8, cert_new; cbn [ct_size ct_data]. now apply lp_sized. Qed.
Lemma pub_layout : forall d, pub_to_u8 (pub_new d) = lp d.
Proof. intros d. unfold pub_to_u8, pub_new; cbn [pk_size pk_data]. now apply lp_sized. Qed.
Lemma attr_layout : forall id d, attr_to_u8 (mkAttr (4 + len d) id d) = lp (le 4 id ++ d).
Proof.
  intros id d. unfold attr_to_u8; cbn [at_size at_id at_data].
  apply lp_sized. rewrite len_app, len_le. lia.
Qed.

Lemma fold_size_gen : forall {A} (f : A -> N) (enc : A -> bytes) l,
  (forall x, In x l -> len (enc x) = f x + 4) ->
  fold_left (fun acc d => acc + f d + 4) l 0 = len (flat_map enc l).
Proof.
  intros A f enc l H. rewrite fold_left_sumN4. symmetry. apply list_len.
  now apply Forall_forall.
Qed.

Lemma digests_layout_eq : forall l, digests_to_u8 (digests_of_pairs l) = digests_layout l.
Proof.
  intros l. unfold digests_to_u8, digests_of_pairs, digests_new, digests_layout; cbn [dgs_size dgs_data].
  rewrite lp_sized.
  - f_equal. induction l as [|p l IH]; cbn [map flat_map]; [reflexivity|].
    now rewrite IH, digest_layout.
  - apply fold_size_gen. intros x I. apply in_map_iff in I. destruct I as (p & <- & _). apply digest_new_len.
Qed.
Lemma certs_layout_eq : forall l, certs_to_u8 (certs_new (map cert_new l)) = certs_layout l.
Proof.
  intros l. unfold certs_to_u8, certs_new, certs_layout; cbn [cts_size cts_data].
  rewrite lp_sized.
  - f_equal. induction l as [|p l IH]; cbn [map flat_map]; [reflexivity|].
    now rewrite IH, cert_layout.
  - apply fold_size_gen. intros x I. apply in_map_iff in I. destruct I as (p & <- & _). apply cert_new_len.
Qed.
Lemma attrs_layout_eq : forall l : list (N * bytes),
  attrs_to_u8 (attrs_new (map (fun p => mkAttr (4 + len (snd p)) (fst p) (snd p)) l)) = attrs_layout l.
Proof.
  intros l. unfold attrs_to_u8, attrs_new, attrs_layout; cbn [ats_size ats_data].
  rewrite lp_sized.
  - f_equal. induction l as [|p l IH]; cbn [map flat_map]; [reflexivity|].
    now rewrite IH, attr_layout.
  - apply fold_size_gen. intros x I. apply in_map_iff in I. destruct I as (p & <- & _).
    cbn [at_size]. rewrite attr_lit_len. reflexivity.
Qed.
Lemma sigs_layout_eq : forall a s, sigs_to_u8 (sigs_new [sig_new a s]) = sig_layout a s.
Proof.
  intros a s. unfold sigs_to_u8, sigs_new, sig_layout; cbn [sgs_size sgs_data].
  rewrite lp_sized.
  - cbn [flat_map]. now rewrite app_nil_r, sigitem_layout.
  - apply (fold_size_gen sg_size sig_to_u8). intros x [<-|[]]. apply sig_new_len.
Qed.

Lemma dgs_size_layout : forall l, 4 + dgs_size (digests_of_pairs l) = len (digests_layout l).
Proof.
  intros l. rewrite <- digests_layout_eq. unfold digests_to_u8. unfold digests_of_pairs at 1 2 3, digests_new; cbn [dgs_size dgs_data].
  assert (E : fold_left (fun acc d => acc + dg_size d + 4) (map (fun p => digest_new (fst p) (snd p)) l) 0 =
    len (flat_map digest_to_u8 (map (fun p => digest_new (fst p) (snd p)) l))).
  { apply fold_size_gen. intros x I. apply in_map_iff in I. destruct I as (p & <- & _). apply digest_new_len. }
  rewrite len_sized; [reflexivity|]. rewrite E. lia.
Qed.
Lemma cts_size_layout : forall l, 4 + cts_size (certs_new (map cert_new l)) = len (certs_layout l).
Proof.
  intros l. rewrite <- certs_layout_eq. unfold certs_to_u8. unfold certs_new; cbn [cts_size cts_data].
  assert (E : fold_left (fun acc d => acc + ct_size d + 4) (map cert_new l) 0 =
    len (flat_map cert_to_u8 (map cert_new l))).
  { apply fold_size_gen. intros x I. apply in_map_iff in I. destruct I as (p & <- & _). apply cert_new_len. }
  rewrite len_sized; [reflexivity|]. rewrite E. lia.
Qed.
Lemma ats_size_layout : forall l : list (N * bytes),
  4 + ats_size (attrs_new (map (fun p => mkAttr (4 + len (snd p)) (fst p) (snd p)) l)) = len (attrs_layout l).
Proof.
  intros l. rewrite <- attrs_layout_eq. unfold attrs_to_u8. unfold attrs_new; cbn [ats_size ats_data].
  assert (E : fold_left (fun acc d => acc + at_size d + 4) (map (fun p => mkAttr (4 + len (snd p)) (fst p) (snd p)) l) 0 =
    len (flat_map attr_to_u8 (map (fun p => mkAttr (4 + len (snd p)) (fst p) (snd p)) l))).
  { apply fold_size_gen. intros x I. apply in_map_iff in I. destruct I as (p & <- & _).
    cbn [at_size]. rewrite attr_lit_len. reflexivity. }
  rewrite len_sized; [reflexivity|]. rewrite E. lia.
Qed.

Lemma v2_message_layout : forall cfg l sig pub,
  sd_to_u8 (sn_data (v2_one cfg (digests_of_pairs l) sig pub)) =
  lp (v2_signed_layout l (sc_cert cfg :: sc_chain cfg)).
Proof.
  intros cfg l sig pub. unfold v2_one. cbn [signer_new sn_data].
  change (cert_new (sc_cert cfg) :: map cert_new (sc_chain cfg)) with (map cert_new (sc_cert cfg :: sc_chain cfg)).
  set (certs := sc_cert cfg :: sc_chain cfg).
  unfold sd_to_u8, sd_new. cbn [sd_size sd_digests sd_certs sd_attrs].
  rewrite digests_layout_eq, certs_layout_eq.
  pose proof (attrs_layout_eq []) as Ea. cbn [map] in Ea. rewrite Ea.
  pose proof (dgs_size_layout l) as E1. pose proof (cts_size_layout certs) as E2.
  pose proof (ats_size_layout []) as E3. cbn [map] in E3.
  unfold sized, v2_signed_layout, lp at 1.
  assert (Hpad : padding (4 + dgs_size (digests_of_pairs l) + 4 + cts_size (certs_new (map cert_new certs)) + 4 +
     ats_size (attrs_new []) + 4) (digests_layout l ++ certs_layout certs ++ attrs_layout []) = [x00; x00; x00; x00]).
  { unfold padding. rewrite !len_app. match goal with |- zeros ?x = _ => replace x with 4 by lia end. reflexivity. }
  rewrite Hpad. f_equal.
  - f_equal. rewrite !len_app. change (len [x00; x00; x00; x00]) with 4. lia.
  - now rewrite <- !app_assoc.
Qed.

Lemma v2_message_is : forall cfg l sig pub,
  v2_message (v2_one cfg (digests_of_pairs l) sig pub) = v2_signed_layout l (sc_cert cfg :: sc_chain cfg).
Proof.
  intros. unfold v2_message. rewrite v2_message_layout. unfold lp.
  change 4%nat with (N.to_nat 4). rewrite <- dropN_skipn. apply dropN_app_eq. now rewrite len_le.
Qed.

Definition attr_pairs (now : option N) (ts : bool) : option N := if ts then now else None.
Lemma stamp_attrs_pairs : forall now ts attrs, stamp_attrs now ts = Ok attrs ->
  attrs = map (fun p => mkAttr (4 + len (snd p)) (fst p) (snd p))
    (match attr_pairs now ts with Some t => [(STAMP_TIME_ATTR_ID, le 8 t)] | None => [] end).
Proof.
  intros now ts attrs H. unfold stamp_attrs, attr_pairs in *. destruct ts; [|now injection H as <-].
  destruct now as [t|]; [|discriminate]. cbn in H. injection H as <-. reflexivity.
Qed.

Lemma stamp_message_layout : forall cfg l sig pub now ts attrs, stamp_attrs now ts = Ok attrs ->
  std_to_u8 (sb_data (stamp_one cfg attrs (digests_of_pairs l) sig pub)) =
  lp (stamp_signed_layout l (sc_cert cfg) (attr_pairs now ts)).
Proof.
  intros cfg l sig pub now ts attrs H. apply stamp_attrs_pairs in H. subst attrs.
  unfold stamp_one. cbn [sb_new sb_data]. change [cert_new (sc_cert cfg)] with (map cert_new [sc_cert cfg]).
  unfold std_to_u8, std_new. cbn [st_digests st_certs st_attrs].
  now rewrite digests_layout_eq, certs_layout_eq, attrs_layout_eq.
Qed.
Lemma stamp_message_is : forall cfg l sig pub now ts attrs, stamp_attrs now ts = Ok attrs ->
  stamp_message (stamp_one cfg attrs (digests_of_pairs l) sig pub) =
  stamp_signed_layout l (sc_cert cfg) (attr_pairs now ts).
Proof.
  intros cfg l sig pub now ts attrs H. unfold stamp_message. rewrite (stamp_message_layout cfg l sig pub now ts attrs H). unfold lp.
  change 4%nat with (N.to_nat 4). rewrite <- dropN_skipn. apply dropN_app_eq. now rewrite len_le.
Qed.

Lemma signed_part : forall cfg l sig pub,
  sn_size (v2_one cfg (digests_of_pairs l) sig pub) =
  len (lp (v2_signed_layout l (sc_cert cfg :: sc_chain cfg)) ++ sig_layout (sc_algo cfg) sig ++ lp pub).
Proof.
  intros cfg l sig pub. rewrite !len_app. rewrite <- (v2_message_layout cfg l sig pub).
  rewrite <- sigs_layout_eq, <- pub_layout. unfold v2_one. cbn [signer_new sn_size sn_data].
  rewrite pub_new_len.
  assert (E : len (sigs_to_u8 (sigs_new [sig_new (sc_algo cfg) sig])) = 4 + sgs_size (sigs_new [sig_new (sc_algo cfg) sig])).
  { unfold sigs_to_u8. apply len_sized. cbn [sigs_new sgs_size sgs_data fold_left flat_map].
    rewrite app_nil_r, sig_new_len. lia. }
  rewrite E.
  assert (E2 : forall d, sd_size d = 4 + dgs_size (sd_digests d) + 4 + cts_size (sd_certs d) + 4 + ats_size (sd_attrs d) + 4 ->
     len (digests_to_u8 (sd_digests d)) = 4 + dgs_size (sd_digests d) ->
     len (certs_to_u8 (sd_certs d)) = 4 + cts_size (sd_certs d) ->
     len (attrs_to_u8 (sd_attrs d)) = 4 + ats_size (sd_attrs d) -> len (sd_to_u8 d) = 4 + sd_size d).
  { intros d H1 H2 H3 H4. unfold sd_to_u8. apply len_sized. rewrite !len_app, H2, H3, H4, H1. lia. }
  rewrite E2; [lia|reflexivity| | |]; cbn [sd_new sd_digests sd_certs sd_attrs].
  - now rewrite digests_layout_eq, dgs_size_layout.
  - change (cert_new (sc_cert cfg) :: map cert_new (sc_chain cfg)) with (map cert_new (sc_cert cfg :: sc_chain cfg)).
    now rewrite certs_layout_eq, cts_size_layout.
  - reflexivity.
Qed.

Lemma v2_value_layout : forall cfg l sig pub,
  let v := V2Block (v2_new (signers_new [v2_one cfg (digests_of_pairs l) sig pub])) in
  let body := v2_pair (v2_signed_layout l (sc_cert cfg :: sc_chain cfg)) (sc_algo cfg) sig pub in
  value_to_u8 v = body /\ value_size v = len body.
Proof.
  intros cfg l sig pub v body.
  pose proof (signed_part cfg l sig pub) as Hs. set (s := v2_one cfg (digests_of_pairs l) sig pub) in *.
  set (inner := lp (v2_signed_layout l (sc_cert cfg :: sc_chain cfg)) ++ sig_layout (sc_algo cfg) sig ++ lp pub) in *.
  assert (E1 : signer_to_u8 s = lp inner).
  { unfold signer_to_u8. rewrite Hs. unfold s at 1. rewrite v2_message_layout.
    unfold s, v2_one. cbn [signer_new sn_sigs sn_key]. rewrite sigs_layout_eq, pub_layout.
    fold inner. now apply lp_sized. }
  assert (E2 : sns_size (signers_new [s]) = len (lp inner)).
  { cbn [signers_new sns_size fold_left]. rewrite Hs, len_lp. lia. }
  assert (E3 : signers_to_u8 (signers_new [s]) = lp (lp inner)).
  { unfold signers_to_u8. rewrite E2. cbn [signers_new sns_data flat_map]. rewrite app_nil_r, E1. now apply lp_sized. }
  unfold v, body, v2_pair. fold inner. split.
  - unfold value_to_u8, v2_to_u8, pair. cbn [v2_new v2_id v2_signers v2_size]. rewrite E3, E2.
    unfold padding. rewrite len_app, len_le, (len_lp (lp inner)). change (N.of_nat 4) with 4.
    replace (4 + 4 + len (lp inner) - (4 + (4 + len (lp inner)))) with 0 by lia.
    rewrite zeros_0, app_nil_r. now rewrite <- N.add_assoc.
  - unfold value_size, value_inner_size. cbn [v2_new v2_size]. rewrite E2, len_pair, (len_lp (lp inner)). lia.
Qed.

Lemma stamp_value_layout : forall cfg l sig pub now ts attrs, stamp_attrs now ts = Ok attrs ->
  let v := StampBlk (ss_new (stamp_one cfg attrs (digests_of_pairs l) sig pub)) in
  let body := stamp_pair (stamp_signed_layout l (sc_cert cfg) (attr_pairs now ts)) (sc_algo cfg) sig pub in
  value_to_u8 v = body /\ value_size v = len body.
Proof.
  intros cfg l sig pub now ts attrs H v body.
  pose proof (stamp_message_layout cfg l sig pub now ts attrs H) as Hm.
  set (s := stamp_one cfg attrs (digests_of_pairs l) sig pub) in *.
  set (msg := stamp_signed_layout l (sc_cert cfg) (attr_pairs now ts)) in *.
  assert (Hstd : len (std_to_u8 (sb_data s)) = 4 + std_size (sb_data s)).
  { unfold std_to_u8, std_size. rewrite len_app, len_le, !len_app. unfold s, stamp_one.
    cbn [sb_new sb_data std_new st_digests st_certs st_attrs].
    apply stamp_attrs_pairs in H. subst attrs.
    change [cert_new (sc_cert cfg)] with (map cert_new [sc_cert cfg]).
    rewrite digests_layout_eq, certs_layout_eq, attrs_layout_eq.
    rewrite <- dgs_size_layout, <- cts_size_layout, <- ats_size_layout. lia. }
  assert (Hsg : len (sigs_to_u8 (sb_sigs s)) = 4 + sgs_size (sb_sigs s)).
  { unfold sigs_to_u8. apply len_sized. unfold s, stamp_one. cbn [sb_new sb_sigs sigs_new sgs_size sgs_data fold_left flat_map].
    rewrite app_nil_r, sig_new_len. lia. }
  assert (E1 : std_to_u8 (sb_data s) ++ sigs_to_u8 (sb_sigs s) ++ pub_to_u8 (sb_key s) =
     lp msg ++ sig_layout (sc_algo cfg) sig ++ lp pub).
  { rewrite Hm. unfold s, stamp_one. cbn [sb_new sb_sigs sb_key]. now rewrite sigs_layout_eq, pub_layout. }
  assert (E2 : sb_size s = len (lp msg ++ sig_layout (sc_algo cfg) sig ++ lp pub)).
  { rewrite <- E1, !len_app, Hstd, Hsg. unfold s, stamp_one. cbn [sb_new sb_size sb_data sb_sigs sb_key].
    rewrite pub_new_len. lia. }
  unfold v, body, stamp_pair. split.
  - unfold pair, value_to_u8, ss_to_u8, sb_to_u8. cbn [ss_new ss_id ss_block ss_size]. rewrite E1, E2.
    rewrite len_lp. now rewrite <- N.add_assoc.
  - unfold value_size, value_inner_size. cbn [ss_new ss_size]. rewrite E2, len_pair.
    set (x := lp msg ++ sig_layout (sc_algo cfg) sig ++ lp pub). rewrite (len_lp x). lia.
Qed.

Lemma finish_fresh : forall p m l b, ms_finish p m l = Ok b -> b = fresh_block (bk_content b).
Proof.
  intros p m l b H. unfold ms_finish in H. destruct (ms_padding m).
  - unfold block_new_with_padding in H. destruct (existsb _ l); [discriminate|].
    cbv zeta in H. apply bind_Ok in H as (pb & _ & H). destruct (_ <? _); [discriminate|].
    apply bind_Ok in H as (u & _ & H). injection H as <-. reflexivity.
  - unfold block_new in H. destruct (_ <? _); [discriminate|]. now injection H as <-.
Qed.

Lemma raw_value_layout : forall id d,
  value_to_u8 (BaseBlock (raw_new id d)) = pair id d /\ value_size (BaseBlock (raw_new id d)) = len (pair id d).
Proof.
  intros id d. split; [reflexivity|]. rewrite len_pair. unfold value_size, value_inner_size.
  cbn [raw_new rw_size]. lia.
Qed.

Lemma fresh_layout : forall l, content_size l = len (flat_map value_to_u8 l) ->
  block_to_u8 (fresh_block l) = block_layout (flat_map value_to_u8 l).
Proof.
  intros l E. unfold block_to_u8, fresh_block, content_to_u8, block_layout; cbn [bk_size_start bk_content bk_size_end bk_magic].
  rewrite E. unfold SIZE_UINT64, MAGIC_LEN. rewrite <- N.add_assoc. reflexivity.
Qed.

Lemma content_size_len : forall l, Forall (fun v => value_size v = len (value_to_u8 v)) l ->
  content_size l = len (flat_map value_to_u8 l).
Proof.
  intros l H. rewrite content_size_sum, len_flat_map. apply sumN_ext.
  eapply Forall_impl; [|exact H]. cbv beta. auto.
Qed.

Lemma ms_sign_layout : forall p C now m l b, crypto_ok C ->
  ms_sign p C now m (digests_of_pairs l) = Ok b -> exists v s pad,
  block_to_u8 b = block_layout (v ++ s ++ pad) /\
  match ms_v2 m with
  | None => v = []
  | Some c => exists sig pub,
      let msg := v2_signed_layout l (sc_cert c :: sc_chain c) in
      v = v2_pair msg (sc_algo c) sig pub /\
      algo_sign C (sc_algo c) (sc_key c) msg = Ok sig /\ public_key_der C (sc_key c) = Ok pub
  end /\
  match ms_stamp m with
  | None => s = []
  | Some c => exists sig pub,
      let msg := stamp_signed_layout l (sc_cert c) (if ms_timestamp m then now else None) in
      s = stamp_pair msg (sc_algo c) sig pub /\
      algo_sign C (sc_algo c) (sc_key c) msg = Ok sig /\ public_key_der C (sc_key c) = Ok pub
  end /\
  (pad = [] \/ exists n, ms_padding m = true /\ pad = pair VERITY_PADDING_BLOCK_ID (zeros n)).
Proof.
  intros p C now m l b HC H. apply ms_sign_inv in H; auto.
  destruct H as (v & s & pad & Hc & Hv & Hs & Hp & Hf & _).
  apply finish_fresh in Hf. rewrite Hf.
  assert (Sv : Forall (fun v => value_size v = len (value_to_u8 v)) v /\
    match ms_v2 m with
    | None => flat_map value_to_u8 v = []
    | Some c => exists sig pub,
        let msg := v2_signed_layout l (sc_cert c :: sc_chain c) in
        flat_map value_to_u8 v = v2_pair msg (sc_algo c) sig pub /\
        algo_sign C (sc_algo c) (sc_key c) msg = Ok sig /\ public_key_der C (sc_key c) = Ok pub
    end).
  { destruct (ms_v2 m) as [c|].
    - destruct Hv as (x & Hx & ->). apply v2_sign_inv in Hx. destruct Hx as (sig & pub & -> & Hsg & Hpk).
      rewrite v2_message_is in Hsg.
      destruct (v2_value_layout c l sig pub) as (E1 & E2). split.
      + constructor; [|constructor]. now rewrite E1.
      + exists sig, pub. cbv zeta. cbn [flat_map]. rewrite app_nil_r. auto.
    - subst v. split; [constructor|reflexivity]. }
  assert (Ss : Forall (fun v => value_size v = len (value_to_u8 v)) s /\
    match ms_stamp m with
    | None => flat_map value_to_u8 s = []
    | Some c => exists sig pub,
        let msg := stamp_signed_layout l (sc_cert c) (if ms_timestamp m then now else None) in
        flat_map value_to_u8 s = stamp_pair msg (sc_algo c) sig pub /\
        algo_sign C (sc_algo c) (sc_key c) msg = Ok sig /\ public_key_der C (sc_key c) = Ok pub
    end).
  { destruct (ms_stamp m) as [c|].
    - destruct Hs as (x & Hx & ->). apply stamp_sign_inv in Hx. destruct Hx as (attrs & sig & pub & Ha & -> & Hsg & Hpk).
      rewrite (stamp_message_is _ _ _ _ _ _ _ Ha) in Hsg.
      destruct (stamp_value_layout c l sig pub now (ms_timestamp m) attrs Ha) as (E1 & E2). split.
      + constructor; [|constructor]. now rewrite E1.
      + exists sig, pub. cbv zeta. cbn [flat_map]. rewrite app_nil_r. auto.
    - subst s. split; [constructor|reflexivity]. }
  assert (Sp : Forall (fun v => value_size v = len (value_to_u8 v)) pad /\
    (flat_map value_to_u8 pad = [] \/ exists n, ms_padding m = true /\
       flat_map value_to_u8 pad = pair VERITY_PADDING_BLOCK_ID (zeros n))).
  { destruct Hp as [->|(n & Hm & ->)]; [split; [constructor|now left]|].
    destruct (raw_value_layout VERITY_PADDING_BLOCK_ID (zeros n)) as (E1 & E2). split.
    - constructor; [|constructor]. now rewrite E1.
    - right. exists n. cbn [flat_map]. rewrite app_nil_r. auto. }
  destruct Sv as (Fv & Sv), Ss as (Fs & Ss), Sp as (Fp & Sp).
  exists (flat_map value_to_u8 v), (flat_map value_to_u8 s), (flat_map value_to_u8 pad).
  split; [|auto]. rewrite Hc, <- !flat_map_app. apply fresh_layout, content_size_len.
  rewrite !Forall_app. auto.
Qed.

(** Everything the module signer makes is a value built with the public
    constructors, so it is read back unchanged (C07). *)
Lemma v2_sign_built : forall C cfg l v, Forall (fun p => canonical (fst p)) l ->
  v2_sign C cfg (digests_of_pairs l) = Ok v -> built_value (V2Block v).
Proof.
  intros C cfg l v HF H. apply v2_sign_inv in H. destruct H as (sig & pub & -> & Hs & _).
  assert (Ha : canonical (sc_algo cfg)).
  { unfold algo_sign in Hs. destruct (sc_algo cfg); [exact I|exact I|discriminate]. }
  eexists. split; [|reflexivity]. eexists. split; [|reflexivity]. constructor; [|constructor].
  unfold v2_one. do 3 eexists. split; [|split; [|split; [|reflexivity]]].
  - do 3 eexists. split; [|split; [|split; [|reflexivity]]].
    + eexists. split; [|reflexivity]. apply Forall_map. eapply Forall_impl; [|exact HF].
      intros [a d] X. do 2 eexists. split; [exact X|reflexivity].
    + eexists. split; [|reflexivity].
      constructor; [eexists; reflexivity|]. apply Forall_map, Forall_forall. intros x _. eexists; reflexivity.
    + exists []. auto.
  - eexists. split; [|reflexivity]. constructor; [|constructor]. do 2 eexists. eauto.
  - eexists. reflexivity.
Qed.

Lemma stamp_sign_built : forall C now ts cfg l v, Forall (fun p => canonical (fst p)) l ->
  stamp_sign C now ts cfg (digests_of_pairs l) = Ok v -> built_value (StampBlk v).
Proof.
  intros C now ts cfg l v HF H. apply stamp_sign_inv in H. destruct H as (attrs & sig & pub & Hat & -> & Hs & _).
  assert (Ha : canonical (sc_algo cfg)).
  { unfold algo_sign in Hs. destruct (sc_algo cfg); [exact I|exact I|discriminate]. }
  eexists. split; [|reflexivity].
  unfold stamp_one. do 3 eexists. split; [|split; [|split; [|reflexivity]]].
  - do 3 eexists. split; [|split; [|split; [|reflexivity]]].
    + eexists. split; [|reflexivity]. apply Forall_map. eapply Forall_impl; [|exact HF].
      intros [a d] X. do 2 eexists. split; [exact X|reflexivity].
    + eexists. split; [|reflexivity]. constructor; [eexists; reflexivity|constructor].
    + apply stamp_attrs_pairs in Hat. subst attrs. eexists. split; [|reflexivity].
      destruct (attr_pairs now ts); cbn [map]; constructor; [|constructor].
      do 2 eexists. split; [|reflexivity]. reflexivity.
  - eexists. split; [|reflexivity]. constructor; [|constructor]. do 2 eexists. eauto.
  - eexists. reflexivity.
Qed.

Lemma finish_built : forall p m l b, Forall built_value l -> ms_finish p m l = Ok b -> built_block b.
Proof.
  intros p m l b HF H. unfold ms_finish in H. destruct (ms_padding m); exists l; split; eauto.
Qed.

Lemma ms_sign_built : forall p C now m l b, crypto_ok C -> Forall (fun p => canonical (fst p)) l ->
  ms_sign p C now m (digests_of_pairs l) = Ok b -> built_block b.
Proof.
  intros p C now m l b HC HF H. apply ms_sign_inv in H; auto.
  destruct H as (v & s & pad & Hc & Hv & Hs & Hp & Hf & _).
  eapply finish_built; [|exact Hf]. apply Forall_app. split.
  - destruct (ms_v2 m); [|subst; constructor]. destruct Hv as (x & Hx & ->).
    constructor; [|constructor]. eapply v2_sign_built; eauto.
  - destruct (ms_stamp m); [|subst; constructor]. destruct Hs as (x & Hx & ->).
    constructor; [|constructor]. eapply stamp_sign_built; eauto.
Qed.

Lemma add_stamp_built : forall p C now m b l b', crypto_ok C -> Forall (fun p => canonical (fst p)) l ->
  Forall built_value (bk_content b) ->
  ms_add_source_stamp p C now m b (digests_of_pairs l) = Ok b' -> built_block b'.
Proof.
  intros p C now m b l b' HC HF HB H. unfold ms_add_source_stamp in H.
  apply bind_Ok in H as (c & Hm & H). apply bind_Ok in H as (c' & Hcl & H).
  apply bind_Ok in H as (s & Hs & H). eapply finish_built; [|exact H].
  apply Forall_app. split.
  - apply Forall_forall. intros x I. apply filter_In in I. eapply Forall_forall in HB; [exact HB|tauto].
  - constructor; [|constructor]. eapply stamp_sign_built; eauto.
Qed.
