(** VerifyFacts.v - lemmas about the verifier model. *)
From Verif Require Import Base Utils Algorithms Common SchemeV2 SourceStamp SigningBlock BaseFacts
  Signer Verifier VerifySpec.
From Coq Require Import Bool Lia.
Open Scope N_scope.

Lemma algo_eqb_iff : forall a b, algo_eqb a b = true <-> a = b.
Proof.
  intros [| |u] [| |v]; cbn; split; intros H; try congruence; try discriminate.
  - apply N.eqb_eq in H. now subst.
  - injection H as ->. apply N.eqb_refl.
Qed.

Lemma algo_verify_iff : forall C a key data sig,
  algo_verify C a key data sig = Ok tt <-> accepted C a key data sig.
Proof.
  intros C a key data sig. destruct a; cbn [algo_verify accepted hash]; unfold bind, of_option.
  - destruct (p256_pub_of_der C key) as [k|]; [destruct (p256_sig_of_der C sig) as [s|]|].
    + destruct (p256_check C k (sha256 C data) s) eqn:E; split; intros H; try discriminate; try easy.
      * now exists k, s.
      * destruct H as (k' & s' & [= <-] & [= <-] & H). congruence.
    + split; [discriminate|]. now intros (? & ? & _ & ? & _).
    + split; [discriminate|]. now intros (? & ? & ? & _).
  - destruct (p384_pub_of_der C key) as [k|]; [destruct (p384_sig_of_der C sig) as [s|]|].
    + destruct (p384_check C k (sha512 C data) s) eqn:E; split; intros H; try discriminate; try easy.
      * now exists k, s.
      * destruct H as (k' & s' & [= <-] & [= <-] & H). congruence.
    + split; [discriminate|]. now intros (? & ? & _ & ? & _).
    + split; [discriminate|]. now intros (? & ? & ? & _).
  - split; [discriminate|easy].
Qed.

Lemma algo_verify_cases : forall C a key data sig,
  algo_verify C a key data sig = Ok tt \/ exists e, algo_verify C a key data sig = Err e.
Proof.
  intros C a key data sig. destruct a; cbn [algo_verify]; unfold bind, of_option.
  - destruct (p256_pub_of_der C key); [destruct (p256_sig_of_der C sig)|]; eauto.
    destruct (p256_check _ _ _ _); eauto.
  - destruct (p384_pub_of_der C key); [destruct (p384_sig_of_der C sig)|]; eauto.
    destruct (p384_check _ _ _ _); eauto.
  - eauto.
Qed.

Lemma find_digest_stored : forall l a e,
  find_digest l a = Some e -> stored_digest l a (dg_digest e).
Proof.
  intros l a e H. induction l as [|x l IH]; [discriminate|].
  unfold find_digest in *. cbn [find] in H.
  destruct (algo_eqb (dg_algo x) a) eqn:E.
  - injection H as ->. apply algo_eqb_iff in E. exists [], e, l. repeat split; auto.
  - destruct (IH H) as (b & e' & af & -> & A & D & F).
    exists (x :: b), e', af. repeat split; auto. constructor; auto.
    intros Hx. apply algo_eqb_iff in Hx. congruence.
Qed.

Lemma find_digest_none : forall l a, find_digest l a = None <-> no_digest l a.
Proof.
  intros l a. unfold no_digest. induction l as [|x l IH]; [split; [constructor|easy]|].
  unfold find_digest in *. cbn [find]. destruct (algo_eqb (dg_algo x) a) eqn:E.
  - apply algo_eqb_iff in E. split; [discriminate|]. intros H. now inversion H.
  - rewrite IH. split; intros H.
    + constructor; auto. intros Hx. apply algo_eqb_iff in Hx. congruence.
    + now inversion H.
Qed.

Lemma stored_find_digest : forall l a d,
  stored_digest l a d -> exists e, find_digest l a = Some e /\ dg_digest e = d.
Proof.
  intros l a d (b & e & af & -> & A & D & F). exists e. split; [|assumption].
  unfold find_digest. induction F as [|x b Hx F IH]; cbn [find app].
  - rewrite (proj2 (algo_eqb_iff _ _) A). reflexivity.
  - destruct (algo_eqb (dg_algo x) a) eqn:E; [apply algo_eqb_iff in E; contradiction|]. exact IH.
Qed.

Lemma stored_unique : forall l a d d', stored_digest l a d -> stored_digest l a d' -> d = d'.
Proof.
  intros l a d d' H H'. apply stored_find_digest in H, H'.
  destruct H as (e & E & <-), H' as (e' & E' & <-). congruence.
Qed.

Lemma stored_or_none : forall l a, (exists d, stored_digest l a d) \/ no_digest l a.
Proof.
  intros l a. destruct (find_digest l a) as [e|] eqn:E.
  - left. exists (dg_digest e). now apply find_digest_stored.
  - right. now apply find_digest_none.
Qed.

Lemma stored_not_none : forall l a d, stored_digest l a d -> ~ no_digest l a.
Proof.
  intros l a d H N. apply stored_find_digest in H. destruct H as (e & E & _).
  apply find_digest_none in N. congruence.
Qed.

Lemma verify_digest_iff : forall ctx a d,
  verify_digest ctx (u32_of_algo a) d = true <-> computed ctx a d.
Proof.
  intros ctx a d. unfold verify_digest, computed.
  destruct (get_digest ctx (u32_of_algo a)) as [x|]; [|split; discriminate].
  rewrite beq_eq. split; congruence.
Qed.

Lemma get_from_4_some : forall b : bytes, 4 <= len b -> get_from_4 b = Some (skipn 4 b).
Proof.
  intros b H. unfold get_from_4. destruct (N.ltb_spec (len b) 4); [lia|].
  now rewrite dropN_skipn.
Qed.

Lemma sd_to_u8_min : forall s, 4 <= len (sd_to_u8 s).
Proof. intros s. unfold sd_to_u8, sized. rewrite len_app, len_le. change (N.of_nat 4) with 4. lia. Qed.

Lemma std_to_u8_min : forall s, 4 <= len (std_to_u8 s).
Proof. intros s. unfold std_to_u8. rewrite len_app, len_le. change (N.of_nat 4) with 4. lia. Qed.

Lemma v2_raw : forall s, get_from_4 (sd_to_u8 (sn_data s)) = Some (v2_message s).
Proof. intros s. apply get_from_4_some, sd_to_u8_min. Qed.

Lemma stamp_raw : forall b, get_from_4 (std_to_u8 (sb_data b)) = Some (stamp_message b).
Proof. intros b. apply get_from_4_some, std_to_u8_min. Qed.

(** * The signature loops *)

Definition sig_good (C : crypto) (ctx : context) (digs : list digest) (key raw : bytes)
    (g : signature) : Prop :=
  accepted C (sg_algo g) key raw (sg_data g) /\
  exists d, stored_digest digs (sg_algo g) d /\ computed ctx (sg_algo g) d.

Lemma v2_loop_error_kept : forall C ctx digs key raw l e dv w sv er dv' w',
  v2_sig_loop C ctx digs key raw l (Some e) dv w = (sv, er, dv', w') -> er <> None.
Proof.
  intros C ctx digs key raw l. induction l as [|g l IH]; intros e dv w sv er dv' w' H; cbn in H.
  - injection H as <- <- <- <-. discriminate.
  - destruct (find_digest digs (sg_algo g)); [|injection H as <- <- <- <-; discriminate].
    destruct (algo_verify _ _ _ _ _); try (injection H as <- <- <- <-; discriminate).
    destruct ctx as [c|]; [destruct (negb _)|]; eapply IH; exact H.
Qed.

Lemma v2_loop_good : forall C ctx digs key raw l er0 dv w sv er dv' w',
  v2_sig_loop C (Some ctx) digs key raw l er0 dv w = (sv, er, dv', w') ->
  (sv = true /\ er = None /\ dv' = true <->
   er0 = None /\ Forall (sig_good C ctx digs key raw) l /\ (l <> [] \/ dv = true)).
Proof.
  intros C ctx digs key raw l. induction l as [|g l IH]; intros er0 dv w sv er dv' w' H; cbn in H.
  - injection H as <- <- <- <-. split.
    + intros (_ & -> & ->). auto.
    + intros (-> & _ & [X | -> ]); [now elim X|auto].
  - destruct (find_digest digs (sg_algo g)) as [dg|] eqn:Efd.
    2:{ injection H as <- <- <- <-. split; [now intros (? & _)|].
        intros (_ & F & _). inversion F as [|? ? (_ & d & S & _) _]; subst.
        apply stored_find_digest in S. destruct S as (e & S & _). congruence. }
    destruct (algo_verify_cases C (sg_algo g) key raw (sg_data g)) as [Ev|[e Ev]]; rewrite Ev in H.
    2:{ injection H as <- <- <- <-. split; [now intros (? & _)|].
        intros (_ & F & _). inversion F as [|? ? (A & _) _]; subst.
        apply algo_verify_iff in A. congruence. }
    destruct (verify_digest ctx (u32_of_algo (sg_algo g)) (dg_digest dg)) eqn:Evd; cbn in H.
    + specialize (IH _ _ _ _ _ _ _ H). rewrite IH. split.
      * intros (-> & F & _). repeat split; [|left; discriminate].
        constructor; [|exact F]. split; [now apply algo_verify_iff|].
        exists (dg_digest dg). split; [now apply find_digest_stored|now apply verify_digest_iff].
      * intros (-> & F & _). inversion F; subst. auto.
    + pose proof (v2_loop_error_kept _ _ _ _ _ _ _ _ _ _ _ _ _ H). split.
      * now intros (_ & X & _).
      * intros (_ & F & _). inversion F as [|? ? (_ & d & S & Cp) _]; subst.
        apply stored_find_digest in S. destruct S as (e & S & <-).
        rewrite Efd in S. injection S as <-. apply verify_digest_iff in Cp. congruence.
Qed.

(** Whether an error is recorded does not depend on what the loop started with
    beyond the initial error. *)
Lemma v2_loop_bad : forall C ctx digs key raw before g after er0 dv w sv er dv' w',
  v2_sig_loop C (Some ctx) digs key raw (before ++ g :: after) er0 dv w = (sv, er, dv', w') ->
  Forall (fun x => ~ no_digest digs (sg_algo x)) (before ++ [g]) ->
  ~ accepted C (sg_algo g) key raw (sg_data g) \/
  (exists d, stored_digest digs (sg_algo g) d /\ ~ computed ctx (sg_algo g) d) ->
  er <> None.
Proof.
  intros C ctx digs key raw before. induction before as [|x before IH];
    intros g after er0 dv w sv er dv' w' H F B; cbn in H; inversion F as [|? ? Hn F']; subst.
  - destruct (find_digest digs (sg_algo g)) as [dg|] eqn:Efd.
    2:{ now apply find_digest_none in Efd. }
    destruct (algo_verify_cases C (sg_algo g) key raw (sg_data g)) as [Ev|[e Ev]]; rewrite Ev in H.
    2:{ injection H as <- <- <- <-. discriminate. }
    destruct B as [B|(d & S & B)]; [apply algo_verify_iff in Ev; contradiction|].
    apply stored_find_digest in S. destruct S as (e & S & <-).
    rewrite Efd in S. injection S as <-.
    destruct (verify_digest ctx (u32_of_algo (sg_algo g)) (dg_digest dg)) eqn:Evd; cbn in H.
    + apply verify_digest_iff in Evd. contradiction.
    + eapply v2_loop_error_kept; exact H.
  - destruct (find_digest digs (sg_algo x)) as [dg|] eqn:Efd.
    2:{ now apply find_digest_none in Efd. }
    destruct (algo_verify_cases C (sg_algo x) key raw (sg_data x)) as [Ev|[e Ev]]; rewrite Ev in H.
    2:{ injection H as <- <- <- <-. discriminate. }
    destruct (negb _); eapply IH; eauto.
Qed.

(** [signature_valid]: every signature was accepted (and had a digest). *)
Lemma v2_loop_sigs : forall C ctx digs key raw l er0 dv w sv er dv' w',
  v2_sig_loop C ctx digs key raw l er0 dv w = (sv, er, dv', w') ->
  sv = true -> Forall (fun g => accepted C (sg_algo g) key raw (sg_data g)) l.
Proof.
  intros C ctx digs key raw l. induction l as [|g l IH]; intros er0 dv w sv er dv' w' H S; cbn in H.
  - constructor.
  - destruct (find_digest digs (sg_algo g)) as [dg|]; [|injection H as <- <- <- <-; discriminate].
    destruct (algo_verify_cases C (sg_algo g) key raw (sg_data g)) as [Ev|[e Ev]]; rewrite Ev in H.
    2:{ injection H as <- <- <- <-. discriminate. }
    constructor; [now apply algo_verify_iff|].
    destruct ctx as [c|]; [destruct (negb _)|]; eapply IH; eauto.
Qed.

Lemma v2_loop_none : forall C digs key raw l er0 dv w sv er dv' w',
  v2_sig_loop C None digs key raw l er0 dv w = (sv, er, dv', w') ->
  dv = false -> dv' = false.
Proof.
  intros C digs key raw l. induction l as [|g l IH]; intros er0 dv w sv er dv' w' H D; cbn in H.
  - now injection H as <- <- <- <-.
  - destruct (find_digest digs (sg_algo g)); [|now injection H as <- <- <- <-].
    destruct (algo_verify _ _ _ _ _); try (now injection H as <- <- <- <-).
    eapply IH; [exact H|reflexivity].
Qed.

(** Stamps. *)
Definition stamp_sig_good (C : crypto) (ctx : context) (digs : list digest) (key raw : bytes)
    (g : signature) : Prop :=
  accepted C (sg_algo g) key raw (sg_data g) /\
  forall d, stored_digest digs (sg_algo g) d -> computed ctx (sg_algo g) d.

Lemma stamp_loop_error_kept : forall C ctx digs key raw l e dv df sv er dv' df',
  stamp_sig_loop C ctx digs key raw l (Some e) dv df = (sv, er, dv', df') -> er <> None.
Proof.
  intros C ctx digs key raw l. induction l as [|g l IH]; intros e dv df sv er dv' df' H; cbn in H.
  - injection H as <- <- <- <-. discriminate.
  - destruct (algo_verify _ _ _ _ _); try (injection H as <- <- <- <-; discriminate).
    destruct (find_digest digs (sg_algo g)); [destruct ctx as [c|]; [destruct (negb _)|]|];
      eapply IH; exact H.
Qed.

Lemma stamp_loop_good : forall C ctx digs key raw l er0 dv sv er dv' df',
  stamp_sig_loop C (Some ctx) digs key raw l er0 dv dv = (sv, er, dv', df') ->
  (sv = true /\ er = None /\ df' = true <->
   er0 = None /\ Forall (stamp_sig_good C ctx digs key raw) l /\
   (Exists (fun g => exists d, stored_digest digs (sg_algo g) d) l \/ dv = true)) /\
  (er = None -> dv' = df').
Proof.
  intros C ctx digs key raw l. induction l as [|g l IH]; intros er0 dv sv er dv' df' H; cbn in H.
  - injection H as <- <- <- <-. split; [|reflexivity]. split.
    + intros (_ & -> & ->). auto.
    + intros (-> & _ & [X | -> ]); [now inversion X|auto].
  - destruct (algo_verify_cases C (sg_algo g) key raw (sg_data g)) as [Ev|[e Ev]]; rewrite Ev in H.
    2:{ injection H as <- <- <- <-. split; [|discriminate]. split; [now intros (? & _)|].
        intros (_ & F & _). inversion F as [|? ? (A & _) _]; subst.
        apply algo_verify_iff in A. congruence. }
    destruct (find_digest digs (sg_algo g)) as [dg|] eqn:Efd.
    + destruct (verify_digest ctx (u32_of_algo (sg_algo g)) (dg_digest dg)) eqn:Evd; cbn in H.
      * destruct (IH _ _ _ _ _ _ H) as (IH1 & IH2). split; [|exact IH2]. rewrite IH1. split.
        -- intros (-> & F & _). repeat split.
           ++ constructor; [|exact F]. split; [now apply algo_verify_iff|].
              intros d S. rewrite (stored_unique _ _ _ _ S (find_digest_stored _ _ _ Efd)).
              now apply verify_digest_iff.
           ++ left. constructor. exists (dg_digest dg). now apply find_digest_stored.
        -- intros (-> & F & _). inversion F; subst. auto.
      * pose proof (stamp_loop_error_kept _ _ _ _ _ _ _ _ _ _ _ _ _ H). split; [|congruence]. split.
        -- now intros (_ & X & _).
        -- intros (_ & F & _). inversion F as [|? ? (_ & Cp) _]; subst.
           specialize (Cp _ (find_digest_stored _ _ _ Efd)). apply verify_digest_iff in Cp. congruence.
    + apply find_digest_none in Efd. destruct (IH _ _ _ _ _ _ H) as (IH1 & IH2).
      split; [|exact IH2]. rewrite IH1. split.
      * intros (-> & F & X). repeat split.
        -- constructor; [|exact F]. split; [now apply algo_verify_iff|].
           intros d S. now apply stored_not_none in S.
        -- destruct X; auto.
      * intros (-> & F & X). inversion F; subst. repeat split; auto.
        destruct X as [X|X]; auto. inversion X as [? ? (d & S)|]; subst; auto.
        now apply stored_not_none in S.
Qed.

Lemma stamp_loop_sigs : forall C ctx digs key raw l er0 dv df sv er dv' df',
  stamp_sig_loop C ctx digs key raw l er0 dv df = (sv, er, dv', df') ->
  sv = true -> Forall (fun g => accepted C (sg_algo g) key raw (sg_data g)) l.
Proof.
  intros C ctx digs key raw l. induction l as [|g l IH]; intros er0 dv df sv er dv' df' H S; cbn in H.
  - constructor.
  - destruct (algo_verify_cases C (sg_algo g) key raw (sg_data g)) as [Ev|[e Ev]]; rewrite Ev in H.
    2:{ injection H as <- <- <- <-. discriminate. }
    constructor; [now apply algo_verify_iff|].
    destruct (find_digest digs (sg_algo g)); [destruct ctx as [c|]; [destruct (negb _)|]|];
      eapply IH; eauto.
Qed.

(** * Roots and chains *)

Lemma configured_fold : forall K l r,
  fold_left (add_root K) l r = mkRoots (tr_roots r ++ l) (tr_anchors r ++ anchors K l).
Proof.
  intros K l. induction l as [|x l IH]; intros r; cbn.
  - rewrite !app_nil_r. now destruct r.
  - rewrite IH. unfold add_root. cbn. destruct (anchor_of K x); cbn; now rewrite <- !app_assoc.
Qed.

Lemma configured_eq : forall K l, configured K l = mkRoots l (anchors K l).
Proof. intros K l. unfold configured. now rewrite configured_fold. Qed.

Lemma direct_root_iff : forall r c, is_direct_root r c = true <-> In c (tr_roots r).
Proof.
  intros r c. unfold is_direct_root. rewrite existsb_exists. split.
  - intros (x & I & E). apply beq_eq in E. now subst.
  - intros I. exists c. split; [assumption|now apply beq_eq].
Qed.

Lemma roots_empty_iff : forall r, roots_is_empty r = true <-> tr_roots r = [].
Proof. intros [l a]. unfold roots_is_empty. cbn. destruct l; split; congruence. Qed.

Lemma chain_trusted : forall K now l leaf inter cv t w,
  verify_chain K now (configured K l) leaf inter = (cv, t, w) ->
  (t = true <-> trusted K now l leaf inter) /\ (t = true -> cv = true).
Proof.
  intros K now l leaf inter cv t w H. rewrite configured_eq in H. unfold verify_chain in H.
  unfold trusted. destruct (roots_is_empty _) eqn:Ee.
  - injection H as <- <- <-. apply roots_empty_iff in Ee. cbn in Ee. subst l.
    split; [|discriminate]. split; [discriminate|]. now intros [[]|([] & _)].
  - assert (Hne : l <> []). { intros ->. discriminate. }
    destruct (is_direct_root _ _) eqn:Ed.
    + injection H as <- <- <-. apply direct_root_iff in Ed. cbn in Ed. tauto.
    + assert (Hd : ~ In leaf l).
      { intros X. apply (direct_root_iff (mkRoots l (anchors K l))) in X. congruence. }
      destruct (ee_parse K leaf) eqn:Ep; cbn in H.
      2:{ injection H as <- <- <-. split; [|discriminate]. split; [discriminate|].
          now intros [?|(_ & ? & _)]. }
      fold (time_of now) in H.
      destruct (path K (anchors K l) leaf inter (time_of now)) eqn:Epa; injection H as <- <- <-;
        (split; [|auto; discriminate]);
        (split; [first [discriminate | intros _; right; auto] | intros [?|(_ & _ & ?)]; try easy]).
Qed.

(** * One signer *)

Definition flags (s : signer_result) : bool :=
  sr_signature_valid s && sr_digest_valid s && sr_chain_valid s && sr_trusted s && is_none (sr_error s).

Lemma is_none_iff : forall {A} (o : option A), is_none o = true <-> o = None.
Proof. intros A [a|]; cbn; split; congruence. Qed.

Lemma binding_iff : forall K key cert,
  verify_pubkey_binding K key cert = true <-> spki_of K cert = Some key.
Proof.
  intros K key cert. unfold verify_pubkey_binding. destruct (spki_of K cert) as [k|].
  - rewrite beq_eq. split; congruence.
  - split; discriminate.
Qed.

Lemma v2_signer_flags : forall C K now l ctx idx s,
  flags (verify_v2_signer C K now (configured K l) (Some ctx) idx s) = true <->
  v2_signer_good C K now l (computed ctx) s.
Proof.
  intros C K now l ctx idx s. unfold verify_v2_signer, v2_signer_good. rewrite v2_raw.
  destruct (v2_sig_loop _ _ _ _ _ _ _ _ _) as [[[sv er] dv] w] eqn:El.
  apply v2_loop_good in El.
  destruct (cts_data (sd_certs (sn_data s))) as [|c cs]; cbn [map].
  - unfold flags. cbn. rewrite ?andb_false_r. cbn. split; [discriminate|].
    intros (_ & _ & ? & ? & ? & _). discriminate.
  - destruct (verify_pubkey_binding K (pk_data (sn_key s)) (ct_data c)) eqn:Eb; cbn [negb].
    + apply binding_iff in Eb.
      destruct (verify_chain K now (configured K l) (ct_data c) (map ct_data cs)) as [[cv t] w'] eqn:Ec.
      apply chain_trusted in Ec. destruct Ec as (Et & Ecv). unfold flags. cbn.
      rewrite !andb_true_iff, !is_none_iff.
      split.
      * intros (((((-> & Her) & ->) & ->) & Ht) & _). subst er.
        destruct (proj1 El (conj eq_refl (conj eq_refl eq_refl))) as (_ & F & [N|N]); [|discriminate].
        split; [exact N|]. split; [exact F|]. exists (ct_data c), (map ct_data cs).
        split; [reflexivity|]. split; [exact Eb|]. now apply Et.
      * intros (N & F & leaf & rest & [= <- <-] & _ & T).
        destruct (proj2 El (conj eq_refl (conj F (or_introl N)))) as (-> & -> & ->).
        apply Et in T. rewrite T, (Ecv T). auto 10.
    + unfold flags. cbn. split; [discriminate|].
      intros (_ & _ & leaf & rest & [= <- <-] & B & _). apply binding_iff in B. congruence.
Qed.

Lemma stamp_flags : forall C K now l ctx b,
  flags (verify_stamp C K now (configured K l) (Some ctx) (stamp_message b) b) = true <->
  stamp_good C K now l (computed ctx) b.
Proof.
  intros C K now l ctx b. unfold verify_stamp, stamp_good.
  destruct (stamp_sig_loop _ _ _ _ _ _ _ _ _) as [[[sv er] dv] df] eqn:El.
  apply stamp_loop_good in El. destruct El as (El & Edf). cbn [is_none].
  set (pr := if negb df && is_none er then _ else _). destruct pr as [dv2 w] eqn:Epr. unfold pr in Epr.
  assert (Hdv : er = None -> dv2 = df).
  { intros He. specialize (Edf He). subst er dv. cbn in Epr. destruct df; now injection Epr as <- _. }
  destruct (cts_data (st_certs (sb_data b))) as [|c cs]; cbn [map].
  - unfold flags. cbn. rewrite ?andb_false_r. cbn. split; [discriminate|].
    intros (_ & _ & ? & ? & ? & _). discriminate.
  - destruct (verify_pubkey_binding K (pk_data (sb_key b)) (ct_data c)) eqn:Eb; cbn [negb].
    + apply binding_iff in Eb.
      destruct (verify_chain K now (configured K l) (ct_data c) []) as [[cv t] w'] eqn:Ec.
      apply chain_trusted in Ec. destruct Ec as (Et & Ecv). unfold flags. cbn.
      rewrite !andb_true_iff, !is_none_iff.
      split.
      * intros (((((-> & Her) & Hd) & ->) & Ht) & _). specialize (Hdv Her). subst er dv2.
        destruct (proj1 El (conj eq_refl (conj eq_refl Hd))) as (_ & F & [N|N]); [|discriminate].
        split; [exact F|]. split; [exact N|]. exists (ct_data c), (map ct_data cs).
        split; [reflexivity|]. split; [exact Eb|]. now apply Et.
      * intros (F & N & leaf & rest & [= <- <-] & _ & T).
        destruct (proj2 El (conj eq_refl (conj F (or_introl N)))) as (-> & Her & Hdf).
        rewrite (Hdv Her). subst er df. apply Et in T. rewrite T, (Ecv T). auto 10.
    + unfold flags. cbn. split; [discriminate|].
      intros (_ & _ & leaf & rest & [= <- <-] & B & _). apply binding_iff in B. congruence.
Qed.

(** * The verdict *)

Lemma failures_nil : forall l, flat_map (fun s => opt_list (sr_error s)) l = [] <->
  Forall (fun s => sr_error s = None) l.
Proof.
  induction l as [|s l IH]; cbn; [split; auto|]. rewrite Forall_cons_iff, <- IH.
  destruct (sr_error s); cbn; split; [discriminate|now intros (? & _)|auto|now intros (_ & ?)].
Qed.

Lemma verdict_ok_iff : forall l r,
  verdict l = VOk r <-> l <> [] /\ Forall (fun s => sr_error s = None) l /\ r = from_signers l.
Proof.
  intros l r. unfold verdict. destruct l as [|s l]; [split; [discriminate|now intros ([] & _)]|].
  rewrite <- failures_nil. destruct (flat_map _ (s :: l)) eqn:E.
  - split; [intros [= <-]; repeat split; discriminate|]. now intros (_ & _ & ->).
  - split; [discriminate|]. now intros (_ & ? & _).
Qed.

Lemma verdict_error_iff : forall l,
  (exists f, verdict l = VErr (VMultiSigner f) /\ f <> []) <-> Exists (fun s => sr_error s <> None) l.
Proof.
  intros l. rewrite Exists_exists. split.
  - intros (f & V & Hf). unfold verdict in V. destruct l as [|s l]; [discriminate|].
    destruct (flat_map _ (s :: l)) as [|e es] eqn:E; [discriminate|].
    assert (I : In e (flat_map (fun s => opt_list (sr_error s)) (s :: l))) by (rewrite E; now left).
    apply in_flat_map in I. destruct I as (x & Ix & Ie). exists x. split; [exact Ix|].
    destruct (sr_error x); [discriminate|destruct Ie].
  - intros (x & Ix & Hx). unfold verdict. destruct l as [|s l]; [destruct Ix|].
    destruct (flat_map _ (s :: l)) as [|e es] eqn:E.
    + apply failures_nil in E. rewrite Forall_forall in E. now elim (Hx (E _ Ix)).
    + exists (e :: es). split; [reflexivity|discriminate].
Qed.

Lemma verdict_vres_ok : forall l, vres_ok (verdict l) = true <-> Forall (fun s => flags s = true) l.
Proof.
  intros l. destruct l as [|s0 l0] eqn:El; [cbn; split; auto|]. rewrite <- El.
  assert (Hl : l <> []) by (subst; discriminate). clear El.
  destruct (verdict l) as [r|e] eqn:V.
  - apply verdict_ok_iff in V. destruct V as (_ & Fe & ->).
    destruct l as [|s l]; [contradiction|]. unfold vres_ok, from_signers. cbn [vr_signature_valid vr_digest_valid vr_chain_valid vr_trusted].
    rewrite !andb_true_iff, !forallb_forall. rewrite Forall_forall in Fe |- *. unfold flags.
    split.
    + intros (((A & B) & D) & E) x I. rewrite (A x I), (B x I), (D x I), (E x I), (Fe x I). reflexivity.
    + intros F. repeat split; intros x I; specialize (F x I); rewrite !andb_true_iff in F; tauto.
  - assert (vres_ok (VErr e) = false) as ->.
    { unfold verdict in V. destruct l; [contradiction|]. destruct (flat_map _ _); [discriminate|].
      now injection V as <-. }
    split; [discriminate|]. intros F.
    assert (Fe : Forall (fun s => sr_error s = None) l).
    { eapply Forall_impl; [|exact F]. intros a Ha. unfold flags in Ha. rewrite !andb_true_iff, is_none_iff in Ha. tauto. }
    assert (V' : verdict l = VOk (from_signers l)) by (apply verdict_ok_iff; auto). congruence.
Qed.

Lemma v2_signers_forall : forall C K now roots ctx (P : signer_result -> Prop) (Q : signer -> Prop),
  (forall idx s, P (verify_v2_signer C K now roots ctx idx s) <-> Q s) ->
  forall l idx, Forall P (verify_v2_signers C K now roots ctx idx l) <-> Forall Q l.
Proof.
  intros C K now roots ctx P Q H l. induction l as [|s l IH]; intros idx; cbn; [split; auto|].
  rewrite !Forall_cons_iff, H, IH. reflexivity.
Qed.

Lemma v2_results_forall : forall C K now roots ctx (P : signer_result -> Prop) (Q : signer -> Prop),
  (forall idx s, P (verify_v2_signer C K now roots ctx idx s) <-> Q s) ->
  forall b, Forall P (v2_results C K now roots ctx (bk_content b)) <-> Forall Q (v2_signers_of b).
Proof.
  intros C K now roots ctx P Q H b. unfold v2_results, v2_signers_of.
  induction (bk_content b) as [|v l IH]; cbn; [split; auto|].
  rewrite !Forall_app, IH. destruct v; try (split; intros [_ ?]; split; auto; constructor).
  now rewrite (v2_signers_forall _ _ _ _ _ _ _ H).
Qed.

Lemma v2_signers_results_map : forall C K now roots ctx l idx,
  List.length (verify_v2_signers C K now roots ctx idx l) = List.length l.
Proof. induction l as [|s l IH]; intros idx; cbn; [reflexivity|]. now rewrite IH. Qed.

Lemma v2_results_nil : forall C K now roots ctx b,
  v2_results C K now roots ctx (bk_content b) = [] <-> v2_signers_of b = [].
Proof.
  intros C K now roots ctx b. unfold v2_results, v2_signers_of.
  induction (bk_content b) as [|v l IH]; cbn; [split; auto|].
  destruct v; cbn; auto.
  destruct (sns_data (v2_signers v)); cbn; [exact IH|split; discriminate].
Qed.

Lemma stamp_results_eq : forall C K now roots ctx b,
  stamp_results C K now roots ctx (bk_content b) =
  match stamps_of b with
  | [] => []
  | sb :: _ => [verify_stamp C K now roots ctx (stamp_message sb) sb]
  end.
Proof.
  intros C K now roots ctx b. unfold stamps_of.
  induction (bk_content b) as [|v l IH]; [reflexivity|].
  destruct v; cbn [stamp_results flat_map app]; auto. now rewrite stamp_raw.
Qed.

Lemma is_valid_iff : forall C K now l b ctx,
  is_valid (verify_all_with_digest C K now (configured K l) b (Some ctx)) = true <->
  Forall (v2_signer_good C K now l (computed ctx)) (v2_signers_of b) /\
  match stamps_of b with [] => True | s :: _ => stamp_good C K now l (computed ctx) s end.
Proof.
  intros C K now l b ctx. unfold is_valid, verify_all_with_digest, verify_v2_with_digest,
    verify_source_stamp_with_digest. cbn [va_v2 va_stamp].
  rewrite andb_true_iff, !verdict_vres_ok.
  rewrite (v2_results_forall _ _ _ _ _ _ (v2_signer_good C K now l (computed ctx))).
  2:{ intros. apply v2_signer_flags. }
  rewrite stamp_results_eq. destruct (stamps_of b) as [|s ss].
  - intuition.
  - rewrite <- stamp_flags. split; intros (A & B); split; auto. now inversion B.
Qed.
