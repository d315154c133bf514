(** KeyFacts.v - proofs of C58 and C59. *)
From Verif Require Import Base BaseFacts Algorithms Utf8 Signer Keystore KeySpec SignSpec SignFacts.
From Coq Require Import Lia.
Open Scope N_scope.

Lemma starts_iff : forall w s, starts w s = true <-> exists after, s = w ++ after.
Proof.
  induction w as [|a w IH]; intros s.
  - cbn. split; eauto.
  - destruct s as [|b s].
    + cbn. split; [discriminate|]. intros (x & H). discriminate.
    + cbn. rewrite Bool.andb_true_iff, IH. split.
      * intros (E & x & ->). apply Byte.byte_dec_bl in E. subst. eauto.
      * intros (x & H). injection H as -> ->. split; [apply Byte.byte_dec_lb; reflexivity|eauto].
Qed.
Lemma contains_iff : forall w s, contains w s = true <-> occurs w s.
Proof.
  intros w s. unfold occurs. induction s as [|b s IH].
  - cbn [contains]. rewrite Bool.orb_false_r, starts_iff. split.
    + intros (x & H). exists [], x. exact H.
    + intros (x & y & H). destruct x; [|discriminate]. exists y. exact H.
  - cbn [contains]. rewrite Bool.orb_true_iff, starts_iff, IH. split.
    + intros [(x & H)|(x & y & H)]; [exists [], x; exact H|]. exists (b :: x), y. now rewrite H.
    + intros (x & y & H). destruct x as [|c x]; [left; exists y; exact H|].
      right. injection H as -> ->. eauto.
Qed.

Lemma private_key_pem : forall L pem pw,
  parse_private_key_pem L pem pw =
  match utf8_dec pem with
  | None => Err KPem
  | Some _ =>
      match first_some (plain_keys L pem), pw with
      | Some k, _ => Ok (k, algo_of_key k)
      | None, Some pwd =>
          match first_some (encrypted_keys L pem pwd) with
          | Some k => Ok (k, algo_of_key k)
          | None => Err KInvalidPassword
          end
      | None, None => if contains ENCRYPTED pem then Err KPasswordRequired else Err KUnsupported
      end
  end.
Proof.
  intros. unfold parse_private_key_pem. destruct (utf8_dec pem); [|reflexivity].
  unfold plain_keys, encrypted_keys.
  destruct (pkcs8_pem_256 L pem); [reflexivity|]. destruct (pkcs8_pem_384 L pem); [reflexivity|].
  destruct (sec1_pem_256 L pem); [reflexivity|]. destruct (sec1_pem_384 L pem); [reflexivity|].
  destruct pw as [pwd|]; [|reflexivity].
  destruct (enc_pem_256 L pem pwd); [reflexivity|]. destruct (enc_pem_384 L pem pwd); reflexivity.
Qed.
Lemma private_key_der : forall L der,
  load_private_key_der L der =
  match first_some (der_keys L der) with Some k => Ok (k, algo_of_key k) | None => Err KUnsupported end.
Proof.
  intros. unfold load_private_key_der, parse_private_key_der, der_keys.
  destruct (pkcs8_der_256 L der); [reflexivity|]. destruct (pkcs8_der_384 L der); [reflexivity|].
  destruct (sec1_der_256 L der); [reflexivity|]. destruct (sec1_der_384 L der); reflexivity.
Qed.
Lemma algo_of_key_matches : forall k, matches (algo_of_key k) k.
Proof. intros []; exact I. Qed.

Lemma chain_pem_iff : forall L pem c rest,
  parse_certificate_chain_pem L pem = Ok (c, rest) <-> pem_certs L pem = Some (c :: rest).
Proof.
  intros. unfold parse_certificate_chain_pem, pem_certs, parse_certificate_pem.
  destruct (pem_many L pem) as [[|b l]|].
  - split; discriminate.
  - destruct (map _ _); split; try discriminate; congruence.
  - destruct (pem_one L pem) as [[tag x]|]; [|split; discriminate].
    destruct (beq tag CERT_TAG); cbn; split; try discriminate; congruence.
Qed.

Lemma load_pem_iff : forall L k c pw cr,
  load_pem_from_bytes L k c pw = Ok cr <->
  parse_private_key_pem L k pw = Ok (cr_key cr, cr_algo cr) /\
  pem_certs L c = Some (cr_cert cr :: cr_chain cr).
Proof.
  intros. unfold load_pem_from_bytes. rewrite <- chain_pem_iff.
  destruct (parse_private_key_pem L k pw) as [[k' a]| |]; cbn [bind]; [|split; [|intros []]; discriminate..].
  destruct (parse_certificate_chain_pem L c) as [[c' r]| |]; cbn [bind]; [|split; [|intros []]; discriminate..].
  split.
  - intros [= <-]. auto.
  - intros ([= -> ->] & [= -> ->]). now destruct cr.
Qed.

Lemma c58_pem : forall L k c pw cr, load_pem_from_bytes L k c pw = Ok cr ->
  cr_algo cr = algo_of_key (cr_key cr) /\ pem_certs L c = Some (cr_cert cr :: cr_chain cr).
Proof.
  intros L k c pw cr H. apply load_pem_iff in H. destruct H as (H & E). split; [|exact E].
  rewrite private_key_pem in H. destruct (utf8_dec k); [|discriminate].
  destruct (first_some _); [congruence|]. destruct pw; [|destruct (contains _ _); discriminate].
  destruct (first_some _); [congruence|discriminate].
Qed.
Lemma c58_p12 : forall L data pw cr, load_p12_from_bytes L data pw = Ok cr ->
  cr_algo cr = algo_of_key (cr_key cr) /\ pfx_certs L data pw = Some (cr_cert cr :: cr_chain cr) /\
  exists key others, pfx_keys L data pw = Some (key :: others) /\ first_some (der_keys L key) = Some (cr_key cr).
Proof.
  intros L data pw cr H. unfold load_p12_from_bytes in H. destruct (negb _); [discriminate|].
  destruct (pfx_keys L data pw) as [[|key l]|]; destruct (pfx_certs L data pw) as [[|c r]|]; try discriminate.
  change (parse_private_key_der L key) with (load_private_key_der L key) in H. rewrite private_key_der in H.
  destruct (first_some (der_keys L key)) as [k|] eqn:E; [|discriminate]. cbn in H. injection H as <-.
  cbn. eauto 6.
Qed.
Lemma c58_signs : forall C cr d, cr_algo cr = algo_of_key (cr_key cr) ->
  ((exists v, v2_sign C (config_from_credentials cr) d = Ok v) <-> exists pub, public_key_der C (cr_key cr) = Ok pub).
Proof.
  intros C cr d H. rewrite v2_sign_ok. cbn. rewrite H. pose proof (algo_of_key_matches (cr_key cr)). tauto.
Qed.
Lemma c59_plain : forall L k c pw cr, load_pem_from_bytes L k c None = Ok cr ->
  load_pem_from_bytes L k c pw = Ok cr.
Proof.
  intros L k c pw cr H. apply load_pem_iff in H. apply load_pem_iff. destruct H as (H & E). split; [|exact E].
  rewrite private_key_pem in *. destruct (utf8_dec k); [|discriminate].
  destruct (first_some _); [exact H|]. destruct (contains _ _); discriminate.
Qed.
Lemma first_none : forall A (l : list (option A)), first_some l = None <-> Forall (fun o => o = None) l.
Proof.
  intros A l. induction l as [|o l IH]; cbn.
  - split; constructor.
  - rewrite Forall_cons_iff, <- IH. destruct o; cbn; intuition congruence.
Qed.
Lemma c59_errors : forall L k c s, utf8_dec k = Some s -> Forall (fun o => o = None) (plain_keys L k) ->
  (forall pwd, Forall (fun o => o = None) (encrypted_keys L k pwd) ->
     load_pem_from_bytes L k c (Some pwd) = Err KInvalidPassword) /\
  (occurs ENCRYPTED k -> load_pem_from_bytes L k c None = Err KPasswordRequired) /\
  (~ occurs ENCRYPTED k -> load_pem_from_bytes L k c None = Err KUnsupported).
Proof.
  intros L k c s U F. apply first_none in F. unfold load_pem_from_bytes. split; [|split].
  - intros pwd G. apply first_none in G. rewrite private_key_pem, U, F, G. reflexivity.
  - intros O. apply contains_iff in O. rewrite private_key_pem, U, F, O. reflexivity.
  - intros O. rewrite <- contains_iff in O. rewrite private_key_pem, U, F.
    destruct (contains ENCRYPTED k); [congruence|reflexivity].
Qed.
Lemma c59_only : forall L k c pw,
  (load_pem_from_bytes L k c pw = Err KPasswordRequired -> pw = None /\ occurs ENCRYPTED k) /\
  (load_pem_from_bytes L k c pw = Err KInvalidPassword -> exists pwd, pw = Some pwd /\
     Forall (fun o => o = None) (plain_keys L k) /\ Forall (fun o => o = None) (encrypted_keys L k pwd)).
Proof.
  intros L k c pw. unfold load_pem_from_bytes.
  destruct (parse_private_key_pem L k pw) as [[k' a]|e|] eqn:E; cbn [bind].
  - assert (X : forall e, (do '(c0, chain) <- parse_certificate_chain_pem L c; Ok (mkCreds k' c0 a chain)) = Err e ->
        e = KCert \/ e = KPem).
    { intros e. unfold parse_certificate_chain_pem, parse_certificate_pem.
      destruct (pem_many L c) as [[|b l]|]; cbn [bind].
      - intros [= <-]; auto.
      - destruct (map _ _); cbn; [intros [= <-]; auto|discriminate].
      - destruct (pem_one L c) as [[tag x]|]; [|cbn; intros [= <-]; auto].
        destruct (beq _ _); cbn; [discriminate|intros [= <-]; auto]. }
    split; intros H; apply X in H; destruct H; discriminate.
  - rewrite private_key_pem in E. destruct (utf8_dec k); [|injection E as <-; split; discriminate].
    destruct (first_some (plain_keys L k)) eqn:F; [discriminate|]. apply first_none in F. destruct pw as [pwd|].
    + destruct (first_some (encrypted_keys L k pwd)) eqn:G; [discriminate|]. apply first_none in G.
      injection E as <-. split; [discriminate|]. eauto.
    + destruct (contains ENCRYPTED k) eqn:X; injection E as <-; (split; [|discriminate]).
      * apply contains_iff in X. auto.
      * discriminate.
  - split; discriminate.
Qed.
