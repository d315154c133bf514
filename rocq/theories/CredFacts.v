(** CredFacts.v - proofs for PropCred.v: what loading credentials gives exactly,
    and what mismatched credentials do. *)
From Verif Require Import Base BaseFacts Utils Algorithms Common SchemeV2 SourceStamp Utf8 SigningBlock Zip Digest
  Module Signer Verifier Keystore KeySpec KeyFacts SignSpec SignFacts VerifySpec VerifyFacts VerifyProps Built RawFacts.
From Coq Require Import Lia.
Open Scope N_scope.

Lemma first_some_app {A} (l m : list (option A)) :
  first_some (l ++ m) = match first_some l with Some x => Some x | None => first_some m end.
Proof.
  unfold first_some. induction l as [|o l IH]; cbn [app fold_right]; [ reflexivity | ].
  destruct o; [ reflexivity | exact IH ].
Qed.

Lemma pem_exact L k c pw cr : load_pem_from_bytes L k c pw = Ok cr <->
  (exists s, utf8_dec k = Some s) /\
  first_some (plain_keys L k ++ match pw with Some pwd => encrypted_keys L k pwd | None => [] end) = Some (cr_key cr) /\
  cr_algo cr = algo_of_key (cr_key cr) /\
  pem_certs L c = Some (cr_cert cr :: cr_chain cr).
Proof.
  rewrite load_pem_iff, private_key_pem, first_some_app.
  destruct (utf8_dec k) as [s|]; [ | split; [ intros (H & _); discriminate | intros ((s & H) & _); discriminate ] ].
  assert (E : forall x, (Ok (x, algo_of_key x) = Ok (cr_key cr, cr_algo cr) <->
            Some x = Some (cr_key cr) /\ cr_algo cr = algo_of_key (cr_key cr))).
  { intros x. split; [ intros H; injection H as -> <-; auto | intros (H & ->); injection H as ->; reflexivity ]. }
  destruct (first_some (plain_keys L k)) as [x|].
  - rewrite E. split; [ intros ((A & B) & D); repeat split; eauto | intros (_ & A & B & D); auto ].
  - destruct pw as [pwd|].
    + destruct (first_some (encrypted_keys L k pwd)) as [x|].
      * rewrite E. split; [ intros ((A & B) & D); repeat split; eauto | intros (_ & A & B & D); auto ].
      * split; [ intros (H & _) | intros (_ & H & _) ]; discriminate.
    + cbn [first_some fold_right].
      destruct (contains _ _); (split; [ intros (H & _) | intros (_ & H & _) ]; discriminate).
Qed.

Lemma p12_exact L data pw cr : load_p12_from_bytes L data pw = Ok cr <->
  pfx_ok L data = true /\
  (exists key others, pfx_keys L data pw = Some (key :: others) /\ first_some (der_keys L key) = Some (cr_key cr)) /\
  cr_algo cr = algo_of_key (cr_key cr) /\
  pfx_certs L data pw = Some (cr_cert cr :: cr_chain cr).
Proof.
  unfold load_p12_from_bytes. destruct (pfx_ok L data); cbn [negb]; [ | split; [ discriminate | intros (H & _); discriminate ] ].
  destruct (pfx_keys L data pw) as [keys|]; [ | split; [ discriminate | intros (_ & (a & b & H & _) & _); discriminate ] ].
  destruct (pfx_certs L data pw) as [certs|]; [ | split; [ discriminate | intros (_ & _ & _ & H); discriminate ] ].
  destruct keys as [|key others].
  { split; [ discriminate | intros (_ & (a & b & H & _) & _); discriminate ]. }
  destruct certs as [|c chain]; [ split; [ discriminate | intros (_ & _ & _ & H); discriminate ] | ].
  pose proof (private_key_der L key) as R. unfold load_private_key_der in R. rewrite R.
  destruct (first_some (der_keys L key)) as [x|] eqn:F; cbn [bind].
  - split.
    + intros H. injection H as <-. cbn. split; [ auto | ]. split; [ eauto | auto ].
    + intros (_ & (a & b & H & G) & A & B). injection H as -> ->. rewrite F in G.
      destruct cr as [k1 c1 a1 ch1]; cbn in *. congruence.
  - split; [ discriminate | ]. intros (_ & (a & b & H & G) & _). injection H as -> ->. congruence.
Qed.

Lemma files_exact L key cert pw cr :
  load_pem L key cert pw = Ok cr <->
  exists k c, key = Some k /\ cert = Some c /\ (exists s, utf8_dec c = Some s) /\ load_pem_from_bytes L k c pw = Ok cr.
Proof.
  unfold load_pem, read_to_string. split.
  - destruct key as [k|]; [ | discriminate ]. destruct (utf8_dec k) as [s|]; [ | discriminate ]. cbn [bind].
    destruct cert as [c|]; [ | discriminate ]. destruct (utf8_dec c) as [t|] eqn:E; [ | discriminate ]. cbn [bind].
    intros H. exists k, c. eauto.
  - intros (k & c & -> & -> & (t & Ht) & H). rewrite Ht. pose proof H as H0. apply pem_exact in H0 as ((s & Hs) & _).
    rewrite Hs. cbn [bind]. exact H.
Qed.

Lemma p12_file_exact L file pw cr :
  load_p12 L file pw = Ok cr <-> exists data, file = Some data /\ load_p12_from_bytes L data pw = Ok cr.
Proof.
  unfold load_p12. destruct file as [d|].
  - split; [ eauto | intros (x & H & G); injection H as ->; exact G ].
  - split; [ discriminate | intros (x & H & G); discriminate ].
Qed.

Lemma cert_der_exact der c : load_certificate_der der = Ok c <-> c = der /\ der <> [].
Proof.
  unfold load_certificate_der. destruct der as [|x r].
  - split; [ discriminate | intros (_ & H); contradiction ].
  - split; [ intros H; injection H as <-; split; [ reflexivity | discriminate ] | intros (-> & _); reflexivity ].
Qed.

Lemma embedded C cr d v : v2_sign C (config_from_credentials cr) d = Ok v ->
  exists sg, sns_data (v2_signers v) = [sg] /\
    map ct_data (cts_data (sd_certs (sn_data sg))) = cr_cert cr :: cr_chain cr /\
    public_key_der C (cr_key cr) = Ok (pk_data (sn_key sg)).
Proof.
  intros H. apply v2_sign_inv in H as (sig & pub & -> & _ & Hp).
  exists (v2_one (config_from_credentials cr) d sig pub). split; [ reflexivity | ].
  split; [ cbn; f_equal; apply certs_data_map | exact Hp ].
Qed.

(** A signer whose leaf certificate is for another key. *)
Lemma binding_error C K now roots ctx idx s leaf rest :
  map ct_data (cts_data (sd_certs (sn_data s))) = leaf :: rest -> spki_of K leaf <> Some (pk_data (sn_key s)) ->
  sr_error (verify_v2_signer C K now roots ctx idx s) = Some SEBinding.
Proof.
  intros Hc Hk. unfold verify_v2_signer. rewrite v2_raw.
  destruct (v2_sig_loop _ _ _ _ _ _ _ _ _) as [[[sv er] dv] w].
  destruct (cts_data _) as [|c cs]; [ discriminate | ]. cbn [map] in Hc. injection Hc as Ec _.
  destruct (verify_pubkey_binding K (pk_data (sn_key s)) (ct_data c)) eqn:Eb; [ | reflexivity ].
  apply binding_iff in Eb. rewrite Ec in Eb. contradiction.
Qed.
Lemma verdict_failures l s e : In s l -> sr_error s = Some e ->
  exists f, verdict l = VErr (VMultiSigner f) /\ In e f.
Proof.
  intros I E. unfold verdict. destruct l as [|x l]; [ contradiction | ].
  assert (J : In e (flat_map (fun s => opt_list (sr_error s)) (x :: l))).
  { apply in_flat_map. exists s. split; [ exact I | ]. rewrite E. now left. }
  destruct (flat_map _ (x :: l)) as [|y ys] eqn:F; [ contradiction | ]. eauto.
Qed.
Lemma mismatch C K now roots ctx b s leaf rest : In s (v2_signers_of b) ->
  map ct_data (cts_data (sd_certs (sn_data s))) = leaf :: rest -> spki_of K leaf <> Some (pk_data (sn_key s)) ->
  exists failures, verify_v2_with_digest C K now roots b ctx = VErr (VMultiSigner failures) /\ In SEBinding failures.
Proof.
  intros I Hc Hk. unfold verify_v2_with_digest.
  pose proof (results_of_signers C K now roots ctx b) as F.
  assert (X : exists i, In (verify_v2_signer C K now roots ctx i s) (v2_results C K now roots ctx (bk_content b))).
  { induction F as [|x r l l' (i & Hr) F IH]; [ contradiction | ]. destruct I as [->|I].
    - exists i. left. auto.
    - destruct (IH I) as (j & J). exists j. now right. }
  destruct X as (i & X). eapply verdict_failures; [ exact X | ]. eapply binding_error; eauto.
Qed.

Lemma mismatch_signed C K now roots ctx cfg d v b pub :
  v2_sign C cfg d = Ok v -> In (V2Block v) (bk_content b) ->
  public_key_der C (sc_key cfg) = Ok pub -> spki_of K (sc_cert cfg) <> Some pub ->
  exists failures, verify_v2_with_digest C K now roots b ctx = VErr (VMultiSigner failures) /\ In SEBinding failures.
Proof.
  intros HS HB HP HK. apply v2_sign_inv in HS. destruct HS as (sig & pub' & -> & _ & Hp).
  rewrite HP in Hp. injection Hp as <-.
  apply (mismatch C K now roots ctx b (v2_one cfg d sig pub) (sc_cert cfg) (sc_chain cfg)); auto.
  - unfold v2_signers_of. apply in_flat_map. eexists. split; [exact HB|]. now left.
  - cbn. f_equal. apply certs_data_map.
Qed.

Lemma mismatch_module p C K now roots ctx sched m f a cert key m1 pub :
  m_sign_v2 p C sched m f a cert key = Ok m1 ->
  public_key_der C key = Ok pub -> spki_of K cert <> Some pub ->
  exists b failures, m_sig m1 = Some b /\
    verify_v2_with_digest C K now roots b ctx = VErr (VMultiSigner failures) /\ In SEBinding failures.
Proof.
  intros H HP HK. apply sign_v2_inv in H as (e & d & sg & pk & b & pad & _ & _ & Hpk & _ & _ & Hb & ->).
  rewrite HP in Hpk. injection Hpk as <-.
  exists (offset_by b (eo_cd_offset e)). cbn [m_sig].
  destruct (mismatch C K now roots ctx (offset_by b (eo_cd_offset e))
     (signer_new (sd_new (digests_new [digest_new a d]) (certs_new [cert_new cert]) (attrs_new []))
        (sigs_new [sig_new a sg]) (pub_new pub)) cert []) as (fs & Hf & I).
  - unfold v2_signers_of. cbn [offset_by bk_content]. rewrite Hb. now left.
  - reflexivity.
  - exact HK.
  - exists fs. auto.
Qed.
