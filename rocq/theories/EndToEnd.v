(** EndToEnd.v - signing a module, writing it and verifying the written file;
    two accepted files with the same signatures. *)
From Verif Require Import Base BaseFacts Utils ParseFacts Algorithms Common SchemeV2 SourceStamp
  Utf8 ElfInfo SigningBlock Wire Built BuiltFacts CodecFacts BlockFacts SearchFacts InjFacts Spec Zip Digest Module
  Signable ZipSpec RegionSpec ZipFacts DigestFacts ModuleFacts ModuleProps RawFacts Signer Verifier ModuleVerify VerifySpec VerifyFacts
  SignSpec SignFacts VerifyProps.
From Coq Require Import Bool Lia.
Open Scope N_scope.

Lemma chunks_fills : forall s1 s2 z, fills s1 -> fills s2 -> zip_chunks s1 z = zip_chunks s2 z.
Proof.
  intros s1 s2 z F1 F2. unfold zip_chunks.
  assert (K : forall d i, read_chunks (s1 i) d = read_chunks (s2 i) d).
  { intros d i. eapply splits_fun; apply read_chunks_splits; intros k; [ apply F1 | apply F2 ]. }
  now rewrite !K.
Qed.

Lemma fill_context_ok : forall p C ds m file l ctx,
  (forall a, exists d, m_digest p C (ds a) m file a = Ok d) ->
  exists ctx', fill_context p C ds m file l ctx = Ok ctx'.
Proof.
  intros p C ds m file l. induction l as [|a l IH]; intros ctx H; cbn [fill_context]; [eauto|].
  destruct (get_digest ctx (u32_of_algo a)); [auto|]. destruct (H a) as (d & ->). auto.
Qed.

Lemma pairs_stored : forall l a d, In (a, d) l -> (forall d', In (a, d') l -> d' = d) ->
  stored_digest (dgs_data (digests_of_pairs l)) a d.
Proof.
  intros l a d I U.
  assert (E : exists e, find_digest (dgs_data (digests_of_pairs l)) a = Some e /\ dg_digest e = d).
  { unfold digests_of_pairs, digests_new, find_digest. cbn [dgs_data].
    induction l as [|(x & y) l IH]; [destruct I|]. cbn [map find digest_new dg_algo fst snd].
    destruct (algo_eqb x a) eqn:E.
    - apply algo_eqb_iff in E. subst x. eexists. split; [reflexivity|]. cbn. apply U. now left.
    - apply IH.
      + destruct I as [[= -> ->]|I]; [|exact I]. rewrite (proj2 (algo_eqb_iff a a) eq_refl) in E. discriminate.
      + intros d' I'. apply U. now right. }
  destruct E as (e & E & <-). now apply find_digest_stored.
Qed.

(** The credentials of a signer: its certificate is for its key. *)
Definition certified (C : crypto) (K : pki) (c : signer_config) : Prop :=
  exists pub, public_key_der C (sc_key c) = Ok pub /\ spki_of K (sc_cert c) = Some pub.

Lemma v2_signed_good : forall C K now roots D c l v s, crypto_ok C -> v2_sign C c (digests_of_pairs l) = Ok v ->
  certified C K c -> sns_data (v2_signers v) = [s] ->
  (exists d, stored_digest (dgs_data (digests_of_pairs l)) (sc_algo c) d /\ D (sc_algo c) d) ->
  (v2_signer_good C K now roots D s <-> trusted K now roots (sc_cert c) (sc_chain c)).
Proof.
  intros C K now roots D c l v s HC HS (pub & HP & HK) Hv HD.
  apply v2_sign_inv in HS. destruct HS as (sig & pub' & -> & Hs & Hp). cbv zeta in *.
  rewrite HP in Hp. injection Hp as <-. injection Hv as <-.
  assert (A := sign_accepted _ _ _ _ _ _ HC Hs HP).
  unfold v2_signer_good.
  change (sgs_data (sn_sigs (v2_one c (digests_of_pairs l) sig pub))) with [sig_new (sc_algo c) sig].
  change (pk_data (sn_key (v2_one c (digests_of_pairs l) sig pub))) with pub.
  change (dgs_data (sd_digests (sn_data (v2_one c (digests_of_pairs l) sig pub)))) with (dgs_data (digests_of_pairs l)).
  assert (Ec : map ct_data (cts_data (sd_certs (sn_data (v2_one c (digests_of_pairs l) sig pub)))) = sc_cert c :: sc_chain c).
  { cbn. f_equal. apply certs_data_map. }
  rewrite Ec. split.
  - intros (_ & _ & leaf & rest & [= <- <-] & _ & T). exact T.
  - intros T. split; [discriminate|]. split; [constructor; [|constructor]; split; auto|]. eauto.
Qed.

Lemma stamp_signed_good : forall C K now roots D clk ts c l v, crypto_ok C ->
  stamp_sign C clk ts c (digests_of_pairs l) = Ok v -> certified C K c ->
  (exists d, stored_digest (dgs_data (digests_of_pairs l)) (sc_algo c) d /\ D (sc_algo c) d) ->
  (stamp_good C K now roots D (ss_block v) <-> trusted K now roots (sc_cert c) []).
Proof.
  intros C K now roots D clk ts c l v HC HS (pub & HP & HK) HD.
  apply stamp_sign_inv in HS. destruct HS as (attrs & sig & pub' & Ha & -> & Hs & Hp). cbv zeta in *.
  rewrite HP in Hp. injection Hp as <-.
  assert (A := sign_accepted _ _ _ _ _ _ HC Hs HP).
  unfold stamp_good. cbn [ss_new ss_block].
  set (s := stamp_one c attrs (digests_of_pairs l) sig pub) in *.
  change (sgs_data (sb_sigs s)) with [sig_new (sc_algo c) sig].
  change (pk_data (sb_key s)) with pub.
  change (dgs_data (st_digests (sb_data s))) with (dgs_data (digests_of_pairs l)).
  change (map ct_data (cts_data (st_certs (sb_data s)))) with [sc_cert c].
  cbv zeta. cbn [sig_new sg_algo sg_data]. destruct HD as (d & S & X). split.
  - intros (_ & _ & leaf & rest & [= <- <-] & _ & T). exact T.
  - intros T. split; [|split].
    + constructor; [|constructor]. split; [exact A|]. cbn [sig_new sg_algo]. intros d' S'.
      now rewrite (stored_unique _ _ _ _ S' S).
    + constructor. cbn [sig_new sg_algo]. eauto.
    + eauto.
Qed.

Lemma ms_sign_signers : forall p C now m l b, crypto_ok C -> ms_sign p C now m (digests_of_pairs l) = Ok b ->
  match ms_v2 m with
  | None => v2_signers_of b = []
  | Some c => exists v s, v2_sign C c (digests_of_pairs l) = Ok v /\ sns_data (v2_signers v) = [s] /\ v2_signers_of b = [s]
  end /\
  match ms_stamp m with
  | None => stamps_of b = []
  | Some c => exists s, stamp_sign C now (ms_timestamp m) c (digests_of_pairs l) = Ok s /\ stamps_of b = [ss_block s]
  end.
Proof.
  intros p C now m l b HC H. apply ms_sign_inv in H; auto.
  destruct H as (v & s & pad & Hc & Hv & Hs & Hp & _).
  assert (P1 : flat_map (fun v => match v with V2Block x => sns_data (v2_signers x) | _ => [] end) pad = []).
  { destruct Hp as [->|(n & _ & ->)]; reflexivity. }
  assert (P2 : flat_map (fun v => match v with StampBlk s => [ss_block s] | _ => [] end) pad = []).
  { destruct Hp as [->|(n & _ & ->)]; reflexivity. }
  unfold v2_signers_of, stamps_of. rewrite Hc, !flat_map_app, P1, P2, !app_nil_r.
  destruct (ms_v2 m) as [c1|], (ms_stamp m) as [c2|].
  - destruct Hv as (x & Hx & ->), Hs as (y & Hy & ->). cbn [flat_map app]. rewrite !app_nil_r. split; [|eauto].
    pose proof (v2_sign_inv _ _ _ _ Hx) as (sig & pub & E & _). exists x. eexists. split; [exact Hx|].
    rewrite E. split; reflexivity.
  - destruct Hv as (x & Hx & ->). subst s. cbn [flat_map app]. rewrite !app_nil_r. split; [|reflexivity].
    pose proof (v2_sign_inv _ _ _ _ Hx) as (sig & pub & E & _). exists x. eexists. split; [exact Hx|].
    rewrite E. split; reflexivity.
  - destruct Hs as (y & Hy & ->). subst v. cbn [flat_map app]. split; [reflexivity|eauto].
  - subst v s. split; reflexivity.
Qed.

(** Sign with the digests of the unsigned module, write, verify the result. *)
Lemma sign_write_verify : forall p q r u C K clk now ds1 ds2 roots z m l b out, crypto_ok C ->
  zip_ok z [] -> unsigned z -> (forall a, fills (ds1 a)) -> (forall a, fills (ds2 a)) ->
  Forall (fun x => canonical (fst x)) l ->
  (forall a d, In (a, d) l -> m_digest p C (ds1 a) (module_new (plain z)) (plain z) a = Ok d) ->
  (forall a, In a (required_algorithms m) -> exists d, In (a, d) l) ->
  ms_sign q C clk m (digests_of_pairs l) = Ok b ->
  zip_ok z (block_to_u8 b) -> zip_small z (block_to_u8 b) ->
  s_write_with_signature r (module_new (plain z)) (plain z) b = (out, Ok tt) ->
  (forall c, ms_v2 m = Some c \/ ms_stamp m = Some c -> certified C K c) ->
  exists res, m_verify_with_roots u C K now ds2 (module_new out) out (configured K roots) = Ok res /\
  (has_v2 res = true <-> ms_v2 m <> None) /\ (has_source_stamp res = true <-> ms_stamp m <> None) /\
  (is_valid res = true <->
     (forall c, ms_v2 m = Some c -> trusted K now roots (sc_cert c) (sc_chain c)) /\
     (forall c, ms_stamp m = Some c -> trusted K now roots (sc_cert c) [])).
Proof.
  intros p q r u C K clk now ds1 ds2 roots z m l b out HC Hz Hu F1 F2 Hl HD HR HS Hzb Hsb HW Hcert.
  assert (HB : built_block b) by (eapply ms_sign_built; eauto).
  assert (Hsm : zip_small z []) by (eapply zip_small_plain; [exact Hsb|apply Hz]).
  assert (Dig : forall a, m_digest u C (ds2 a) (module_new out) out a = m_digest p C (ds1 a) (module_new (plain z)) (plain z) a).
  { intros a. destruct (c21_write r u u C (ds2 a) z b a out HB Hz Hu Hzb Hsb HW) as (d & D1 & D2).
    rewrite m_digest_plain in D1 |- * by auto. rewrite D2, <- D1. now rewrite (chunks_fills (ds1 a) (ds2 a)). }
  assert (DigOk : forall a, exists d, m_digest u C (ds2 a) (module_new out) out a = Ok d).
  { intros a. rewrite Dig, m_digest_plain by auto. eauto. }
  assert (HG := c20_write r u z b out HB Hz Hu Hzb Hsb HW).
  assert (Hlen : len out < U64).
  { rewrite s_write_unsigned in HW by auto. injection HW as <-. red in Hsb. unfold U64. change (2 ^ 63) with I64 in Hsb. unfold I64 in Hsb. lia. }
  assert (Same : forall a d, In (a, d) l -> stored_digest (dgs_data (digests_of_pairs l)) a d).
  { intros a d I. apply pairs_stored; [exact I|]. intros d' I'. apply HD in I. apply HD in I'. congruence. }
  set (D := fun a d => m_digest u C (ds2 a) (module_new out) out a = Ok d).
  assert (Req : forall c, ms_v2 m = Some c \/ ms_stamp m = Some c ->
    exists d, stored_digest (dgs_data (digests_of_pairs l)) (sc_algo c) d /\ D (sc_algo c) d).
  { intros c Hc. destruct (HR (sc_algo c)) as (d & I).
    { apply (proj2 (required_spec m)). eauto. }
    exists d. split; [auto|]. unfold D. rewrite Dig. auto. }
  assert (V : exists res, m_verify_with_roots u C K now ds2 (module_new out) out (configured K roots) = Ok res /\
    exists ctx, res = verify_all_with_digest C K now (configured K roots) (offset_by b (len (z_entries z))) ctx).
  { unfold m_verify_with_roots. rewrite HG.
    destruct (fill_context_ok u C ds2 (module_new out) out
                (digest_algos (bk_content (offset_by b (len (z_entries z))))) ctx_new DigOk) as (ctx & ->).
    cbn [bind]. eauto. }
  destruct V as (res & HV & ctx & HE). exists res. split; [exact HV|].
  destruct (ms_sign_signers _ _ _ _ _ _ HC HS) as (Sv & Ss).
  change (v2_signers_of b) with (v2_signers_of (offset_by b (len (z_entries z)))) in Sv.
  change (stamps_of b) with (stamps_of (offset_by b (len (z_entries z)))) in Ss.
  split; [|split].
  - rewrite HE, has_v2_iff. destruct (ms_v2 m) as [c|].
    + destruct Sv as (v & s & _ & _ & ->). split; discriminate.
    + rewrite Sv. tauto.
  - rewrite HE, has_stamp_iff. destruct (ms_stamp m) as [c|].
    + destruct Ss as (s & _ & ->). split; discriminate.
    + rewrite Ss. tauto.
  - rewrite (module_valid_iff _ _ _ _ _ _ _ _ Hlen HV).
    assert (Av : Forall (v2_signer_good C K now roots D) (v2_signers_of (offset_by b (len (z_entries z)))) <->
      forall c, ms_v2 m = Some c -> trusted K now roots (sc_cert c) (sc_chain c)).
    { destruct (ms_v2 m) as [c|].
      - destruct Sv as (v & s & Hv & Hs & ->). rewrite Forall_cons_iff.
        rewrite (v2_signed_good C K now roots D c l v s HC Hv (Hcert c (or_introl eq_refl)) Hs (Req c (or_introl eq_refl))).
        split; [intros (T & _) c' [= <-]; exact T|]. intros T. split; [apply T; reflexivity|constructor].
      - rewrite Sv. split; [discriminate|constructor]. }
    assert (As : match stamps_of (offset_by b (len (z_entries z))) with [] => True | s :: _ => stamp_good C K now roots D s end <->
      forall c, ms_stamp m = Some c -> trusted K now roots (sc_cert c) []).
    { destruct (ms_stamp m) as [c|].
      - destruct Ss as (s & Hs & ->).
        rewrite (stamp_signed_good C K now roots D clk (ms_timestamp m) c l s HC Hs (Hcert c (or_intror eq_refl)) (Req c (or_intror eq_refl))).
        split; [intros T c' [= <-]; exact T|]. intros T. apply T. reflexivity.
      - rewrite Ss. split; [discriminate|trivial]. }
    rewrite <- Av, <- As. split.
    + intros (b' & Hb' & X). rewrite HG in Hb'. injection Hb' as <-. exact X.
    + intros X. eexists. split; [exact HG|exact X].
Qed.

(** * Two accepted files that carry the same signatures *)

(** Hash values of an algorithm have a fixed positive length. *)
Definition hash_sized (C : crypto) : Prop :=
  (exists n, 0 < n /\ forall x, len (sha256 C x) = n) /\ (exists n, 0 < n /\ forall x, len (sha512 C x) = n).

Lemma hash_sized_of : forall C a key data sig, hash_sized C -> accepted C a key data sig ->
  exists n, 0 < n /\ forall x, len (hash C a x) = n.
Proof. intros C a key data sig (H1 & H2) A. destruct a; cbn [hash]; [auto | auto | destruct A]. Qed.

Lemma valid_digest : forall p C K now ds f roots r b, len f < U64 -> hash_sized C ->
  m_verify_with_roots p C K now ds (module_new f) f (configured K roots) = Ok r -> is_valid r = true ->
  m_get_signing_block p (module_new f) f = Ok b -> v2_signers_of b <> [] \/ stamps_of b <> [] ->
  forall b', bk_content b' = bk_content b -> exists a n,
  (a = ECDSA_SHA2_256 \/ a = ECDSA_SHA2_512) /\ 0 < n /\ (forall x, len (hash C a x) = n) /\
  forall q K' now' ds' f' roots' r', len f' < U64 ->
    m_verify_with_roots q C K' now' ds' (module_new f') f' (configured K' roots') = Ok r' -> is_valid r' = true ->
    m_get_signing_block q (module_new f') f' = Ok b' ->
    exists d, m_digest p C (ds a) (module_new f) f a = Ok d /\ m_digest q C (ds' a) (module_new f') f' a = Ok d.
Proof.
  intros p C K now ds f roots r b Hf HH HV Hr Hb Hne b' Hcont.
  apply (module_valid_iff _ _ _ _ _ _ _ _ Hf HV) in Hr. destruct Hr as (b0 & Hb0 & Gv & Gs).
  rewrite Hb in Hb0. injection Hb0 as <-. cbv zeta in *.
  assert (Ev : v2_signers_of b' = v2_signers_of b) by (unfold v2_signers_of; now rewrite Hcont).
  assert (Es : stamps_of b' = stamps_of b) by (unfold stamps_of; now rewrite Hcont).
  destruct (v2_signers_of b) as [|s rest].
  - destruct (stamps_of b) as [|s rest]; [destruct Hne; congruence|].
    destruct Gs as (F & E & _). apply Exists_exists in E. destruct E as (g & Ig & d & Hd).
    rewrite Forall_forall in F. destruct (F g Ig) as (A & X).
    destruct (hash_sized_of _ _ _ _ _ HH A) as (n & Hn & Hlen). exists (sg_algo g), n.
    split; [destruct (sg_algo g); [now left|now right|destruct A]|].
    split; [exact Hn|]. split; [exact Hlen|]. intros q K' now' ds' f' roots' r' Hf' HV' Hr' Hb'.
    apply (module_valid_iff _ _ _ _ _ _ _ _ Hf' HV') in Hr'. destruct Hr' as (b1 & Hb1 & _ & Gs').
    rewrite Hb' in Hb1. injection Hb1 as <-. rewrite Es in Gs'. destruct Gs' as (F' & _).
    rewrite Forall_forall in F'. destruct (F' g Ig) as (_ & X'). exists d. auto.
  - apply Forall_cons_iff in Gv. destruct Gv as (G & _). destruct G as (Hs & F & _).
    destruct (sgs_data (sn_sigs s)) as [|g gs] eqn:Eg; [contradiction|].
    apply Forall_cons_iff in F. destruct F as ((A & d & S & X) & _).
    destruct (hash_sized_of _ _ _ _ _ HH A) as (n & Hn & Hlen). exists (sg_algo g), n.
    split; [destruct (sg_algo g); [now left|now right|destruct A]|].
    split; [exact Hn|]. split; [exact Hlen|]. intros q K' now' ds' f' roots' r' Hf' HV' Hr' Hb'.
    apply (module_valid_iff _ _ _ _ _ _ _ _ Hf' HV') in Hr'. destruct Hr' as (b1 & Hb1 & Gv' & _).
    rewrite Hb' in Hb1. injection Hb1 as <-. rewrite Ev in Gv'.
    apply Forall_cons_iff in Gv'. destruct Gv' as ((_ & F' & _) & _).
    rewrite Eg in F'. apply Forall_cons_iff in F'. destruct F' as ((_ & d' & S' & X') & _).
    rewrite (stored_unique _ _ _ _ S' S) in X'. exists d. auto.
Qed.

Lemma tamper : forall p q C K1 K2 now1 now2 ds1 ds2 f1 f2 roots1 roots2 r1 r2 b1 b2 e1 e2,
  hash_sized C -> (forall a, fills (ds1 a)) -> (forall a, fills (ds2 a)) ->
  len f1 < 2 ^ 63 -> len f2 < 2 ^ 63 ->
  m_verify_with_roots p C K1 now1 ds1 (module_new f1) f1 (configured K1 roots1) = Ok r1 -> is_valid r1 = true ->
  m_verify_with_roots q C K2 now2 ds2 (module_new f2) f2 (configured K2 roots2) = Ok r2 -> is_valid r2 = true ->
  m_get_signing_block p (module_new f1) f1 = Ok b1 -> m_get_signing_block q (module_new f2) f2 = Ok b2 ->
  bk_content b2 = bk_content b1 -> v2_signers_of b1 <> [] \/ stamps_of b1 <> [] ->
  find_eocd f1 (len f1) = Ok e1 -> p = Debug \/ eo_cd_offset e1 <= eo_off e1 ->
  find_eocd f2 (len f2) = Ok e2 -> q = Debug \/ eo_cd_offset e2 <= eo_off e2 ->
  (exists a, (a = ECDSA_SHA2_256 \/ a = ECDSA_SHA2_512) /\ module_clash p q (hash C a) f1 e1 f2 e2) \/ same_outside_block p q f1 f2 e1 e2.
Proof.
  intros p q C K1 K2 now1 now2 ds1 ds2 f1 f2 roots1 roots2 r1 r2 b1 b2 e1 e2 HH F1 F2 L1 L2 V1 I1 V2 I2 B1 B2 Hc Hne
    E1 O1 E2 O2.
  assert (U1 : len f1 < U64) by (change (2 ^ 63) with I64 in L1; unfold I64, U64 in *; lia).
  assert (U2 : len f2 < U64) by (change (2 ^ 63) with I64 in L2; unfold I64, U64 in *; lia).
  destruct (valid_digest _ _ _ _ _ _ _ _ _ U1 HH V1 I1 B1 Hne b2 Hc) as (a & n & Kn & Hn & Hlen & X).
  destruct (X _ _ _ _ _ _ _ U2 V2 I2 B2) as (d & D1 & D2).
  destruct (c31 p q C (ds1 a) (ds2 a) f1 f2 e1 e2 a d n (F1 a) (F2 a) Hn Hlen L1 L2 E1 O1 E2 O2 D1 D2) as [Y|Y].
  - left. eauto.
  - right. exact Y.
Qed.
