(** SerdeFacts.v - proofs about Serde.v. *)
From Verif Require Import Base BaseFacts Utils Algorithms Common SchemeV2 SourceStamp Utf8 ElfInfo SigningBlock Wire Built CodecFacts BlockFacts BuiltFacts SearchFacts FindSpec GrammarFacts Serde SerdeSpec.
From Coq Require Import Lia Permutation Strings.String.
Open Scope N_scope.

(** * Lists *)
Lemma omap_map {A B} (f : A -> sval) (g : sval -> option B) (h : A -> B) l :
  Forall (fun x => g (f x) = Some (h x)) l -> omap g (map f l) = Some (map h l).
Proof. induction 1 as [|x l H _ IH]; cbn [map omap]; [reflexivity|]. rewrite H. cbn [obind]. now rewrite IH. Qed.
Lemma omap_inv {A B} (g : A -> option B) (P : B -> Prop) : (forall v x, g v = Some x -> P x) ->
  forall l r, omap g l = Some r -> Forall P r.
Proof.
  intros H l. induction l as [|v l IH]; cbn [omap]; intros r E; [injection E as <-; constructor|].
  destruct (g v) as [y|] eqn:G; cbn [obind] in E; [|discriminate].
  destruct (omap g l) as [r'|]; cbn [obind] in E; [|discriminate]. injection E as <-. constructor; eauto.
Qed.
Lemma de_list_inv {A} (g : sval -> option A) (P : A -> Prop) : (forall v x, g v = Some x -> P x) ->
  forall v r, de_list g v = Some r -> Forall P r.
Proof. intros H v r E. destruct v; try discriminate. exact (omap_inv g P H _ _ E). Qed.
Lemma de_ser_list {A} (f : A -> sval) (g : sval -> option A) (h : A -> A) (P : A -> Prop) :
  (forall x, P x -> g (f x) = Some (h x)) -> forall l, Forall P l -> de_list g (ser_list f l) = Some (map h l).
Proof.
  intros H l F. unfold ser_list, de_list. apply omap_map. eapply Forall_impl; [|exact F]. exact H.
Qed.
Lemma map_same {A} (h : A -> A) (P : A -> Prop) l : (forall x, h x = x <-> P x) -> (map h l = l <-> Forall P l).
Proof.
  intros H. induction l as [|x l IH]; cbn [map]; [split; [constructor|reflexivity]|]. rewrite Forall_cons_iff, <- IH, <- H.
  split; [intros [= E1 E2]; auto|intros (E1 & E2); congruence].
Qed.
Lemma Forall_flat {A B} (f : A -> list B) (P : B -> Prop) l : Forall P (flat_map f l) <-> Forall (fun x => Forall P (f x)) l.
Proof.
  induction l as [|x l IH]; cbn [flat_map]; [split; constructor|]. rewrite Forall_app, Forall_cons_iff, IH. reflexivity.
Qed.

Lemma map_same_typed {A} (h : A -> A) (T P : A -> Prop) : (forall x, T x -> (h x = x <-> P x)) ->
  forall l, Forall T l -> (map h l = l <-> Forall P l).
Proof.
  intros H l F. induction F as [|x l Tx _ IH]; cbn [map]; [split; [constructor|reflexivity]|].
  rewrite Forall_cons_iff, <- IH, <- (H x Tx). split; [intros [= E1 E2]; auto|intros (E1 & E2); congruence].
Qed.
Lemma flat_map_map {A B} (h : A -> A) (f : A -> list B) : (forall x, f (h x) = f x) ->
  forall l, flat_map f (map h l) = flat_map f l.
Proof. intros H l. induction l as [|x l IH]; cbn [map flat_map]; [reflexivity|]. now rewrite H, IH. Qed.

(** * Fields *)
Fixpoint distinct (l : list bytes) : bool :=
  match l with [] => true | x :: l => negb (existsb (beq x) l) && distinct l end.
Lemma beq_sym a b : beq a b = beq b a.
Proof. destruct (beq a b) eqn:E; symmetry; [apply beq_eq; apply beq_eq in E; auto|apply beq_neq; apply beq_neq in E; auto]. Qed.
Lemma not_in_filter k l : existsb (beq k) (map fst l) = false -> filter (fun e : bytes * sval => beq (fst e) k) l = [].
Proof.
  induction l as [|(x & v) l IH]; cbn [map existsb filter fst]; [reflexivity|].
  intros H. apply Bool.orb_false_iff in H. destruct H as (H1 & H2). rewrite beq_sym, H1. auto.
Qed.
Lemma distinct_repeated l k : distinct (map fst l) = true -> repeated k l = false.
Proof.
  unfold repeated. induction l as [|(x & v) l IH]; cbn [map distinct filter fst]; [reflexivity|].
  intros H. apply andb_prop in H. destruct H as (H1 & H2).
  destruct (beq x k) eqn:E; [|auto]. apply beq_eq in E. subst x. rewrite not_in_filter; [reflexivity|].
  now apply Bool.negb_true_iff.
Qed.
Lemma omap_assoc l0 l : distinct (map fst (l0 ++ l)) = true ->
  omap (fun k => assoc k (l0 ++ l)) (map fst l) = Some (map snd l).
Proof.
  revert l0. induction l as [|(x & v) l IH]; intros l0 H; cbn [map omap fst snd]; [reflexivity|].
  assert (A : assoc x (l0 ++ (x, v) :: l) = Some v).
  { clear IH. induction l0 as [|(y & w) l0 IH0]; cbn [app assoc].
    - now rewrite beq_refl.
    - cbn [app map distinct fst] in H. apply andb_prop in H. destruct H as (H1 & H2).
      destruct (beq y x) eqn:E; [|auto]. apply beq_eq in E. subst y. rewrite map_app, existsb_app in H1. cbn [map existsb fst] in H1.
      rewrite beq_refl in H1. cbn in H1. rewrite Bool.orb_true_r in H1. discriminate. }
  rewrite A. cbn [obind]. specialize (IH (l0 ++ [(x, v)])). rewrite <- app_assoc in IH. cbn [app] in IH. now rewrite IH.
Qed.
Lemma fields_ser names l : map fst l = names -> distinct names = true -> fields names (SMap l) = Some (map snd l).
Proof.
  intros <- H. unfold fields. replace (existsb _ _) with false.
  - exact (omap_assoc [] l H).
  - symmetry. apply Bool.not_true_iff_false. intros E. apply existsb_exists in E. destruct E as (k & _ & E).
    rewrite distinct_repeated in E by auto. discriminate.
Qed.

(** * Numbers, bytes, algorithms *)
Lemma de_num_ser max n : n < max -> de_num max (SNum n) = Some n.
Proof. intros H. unfold de_num. now rewrite (proj2 (N.ltb_lt n max)). Qed.
Lemma de_num_inv max v n : de_num max v = Some n -> n < max.
Proof. destruct v; cbn [de_num]; try discriminate. destruct (N.ltb_spec n0 max); [|discriminate]. now intros [= <-]. Qed.
Lemma de_byte_ser b : de_byte (ser_byte b) = Some b.
Proof.
  unfold de_byte, ser_byte. rewrite de_num_ser; [cbn [obind]; apply Byte.of_to_N|].
  pose proof (Byte.to_N_bounded b). lia.
Qed.
Lemma de_bytes_ser l : de_bytes (ser_bytes l) = Some l.
Proof.
  unfold de_bytes, ser_bytes. rewrite (de_ser_list ser_byte de_byte (fun x => x) (fun _ => True)).
  - now rewrite map_id.
  - intros x _. apply de_byte_ser.
  - induction l; constructor; auto.
Qed.
Definition norm_algo (a : algorithms) : algorithms := algo_of_u32 (u32_of_algo a).
Lemma de_algo_ser a : typed_algo a -> de_algo (ser_algo a) = Some (norm_algo a).
Proof.
  intros H. unfold de_algo, ser_algo. rewrite de_num_ser; [reflexivity|]. destruct a; [reflexivity..|exact H].
Qed.
Lemma norm_algo_id a : typed_algo a -> (norm_algo a = a <-> canonical a).
Proof.
  intros T. destruct a as [| |u]; [split; [constructor|reflexivity]..|]. unfold norm_algo. cbn [u32_of_algo canonical].
  unfold algo_of_u32. destruct (N.eqb_spec u SIGNATURE_ECDSA_256) as [E1|E1]; [split; [discriminate|tauto]|].
  destruct (N.eqb_spec u SIGNATURE_ECDSA_512) as [E2|E2]; [split; [discriminate|tauto]|]. split; auto.
Qed.
Lemma norm_algo_num a : u32_of_algo (norm_algo a) = u32_of_algo a.
Proof.
  destruct a as [| |u]; [reflexivity..|]. unfold norm_algo. cbn [u32_of_algo]. unfold algo_of_u32.
  destruct (N.eqb_spec u SIGNATURE_ECDSA_256) as [E1|E1]; [now subst|].
  destruct (N.eqb_spec u SIGNATURE_ECDSA_512) as [E2|E2]; [now subst|]. reflexivity.
Qed.
Lemma de_algo_inv v a : de_algo v = Some a -> typed_algo a /\ canonical a.
Proof.
  unfold de_algo. destruct (de_num U32 v) as [n|] eqn:E; cbn [obind]; [|discriminate]. intros [= <-].
  apply de_num_inv in E. unfold algo_of_u32.
  destruct (N.eqb_spec n SIGNATURE_ECDSA_256); [split; exact I|]. destruct (N.eqb_spec n SIGNATURE_ECDSA_512); [split; exact I|].
  cbn [typed_algo canonical]. auto.
Qed.
Lemma de_magic_ser l : len l = 16 -> de_magic (ser_bytes l) = Some l.
Proof. intros H. unfold de_magic. rewrite de_bytes_ser. cbn [obind]. now rewrite H. Qed.
Lemma de_magic_inv v l : de_magic v = Some l -> len l = 16.
Proof.
  unfold de_magic. destruct (de_bytes v) as [b|]; cbn [obind]; [|discriminate].
  destruct (N.eqb_spec (len b) 16); [|discriminate]. now intros [= <-].
Qed.

(** * The structs *)
Ltac numbers := repeat rewrite de_num_ser by assumption; rewrite ?de_bytes_ser; cbn [obind].
Ltac start n f := intros x T; unfold n, f; rewrite fields_ser by reflexivity; cbn [map snd].
Ltac unbind H := repeat match type of H with
  | obind ?m _ = Some _ => let E := fresh "E" in destruct m eqn:E; cbn [obind] in H; [|discriminate]
  end.
Ltac take5 H := match type of H with match fields ?n ?v with _ => _ end = _ =>
    destruct (fields n v) as [l|]; [|discriminate];
    repeat (destruct l as [|? l]; try discriminate) end.

Definition norm_digest (x : digest) : digest := mkDigest (dg_size x) (norm_algo (dg_algo x)) (dg_digest x).
Lemma de_ser_digest : forall x, typed_digest x -> de_digest (ser_digest x) = Some (norm_digest x).
Proof.
  start de_digest ser_digest. destruct T as (T0 & T1).
  rewrite (de_num_ser _ _ T0); cbn [obind]; rewrite (de_algo_ser _ T1); cbn [obind]; rewrite de_bytes_ser; cbn [obind].
  reflexivity.
Qed.
Lemma de_digest_inv : forall v x, de_digest v = Some x -> typed_digest x /\ Forall canonical (algos_digest x).
Proof.
  intros v x H. unfold de_digest in H. take5 H. unbind H. injection H as <-.
  repeat match goal with
  | E : de_num _ _ = Some _ |- _ => apply de_num_inv in E
  | E : de_algo _ = Some _ |- _ => apply de_algo_inv in E
  | E : de_magic _ = Some _ |- _ => apply de_magic_inv in E
  end.
  unfold typed_digest, algos_digest. cbn [dg_size dg_algo dg_digest].
  rewrite ?Forall_app, ?Forall_flat, ?Forall_cons_iff.
  intuition auto.
Qed.
Lemma norm_digest_id : forall x, typed_digest x -> (norm_digest x = x <-> Forall canonical (algos_digest x)).
Proof.
  intros x T. destruct T as (T0 & T1). unfold algos_digest. destruct x as [f0 f1 f2]. unfold norm_digest. cbn [dg_size dg_algo dg_digest] in *.
  rewrite ?Forall_app. rewrite Forall_cons_iff, <- (norm_algo_id _ T1).
  split; [intros E; injection E; intros; intuition auto|intros; intuition congruence].
Qed.
Lemma norm_digest_u8 : forall x, digest_to_u8 (norm_digest x) = digest_to_u8 x.
Proof.
  intros x. unfold digest_to_u8, norm_digest. cbn [dg_size dg_algo dg_digest]. rewrite ?norm_algo_num.
  reflexivity.
Qed.

Definition norm_digests (x : digests) : digests := mkDigests (dgs_size x) (map norm_digest (dgs_data x)).
Lemma de_ser_digests : forall x, typed_digests x -> de_digests (ser_digests x) = Some (norm_digests x).
Proof.
  start de_digests ser_digests. destruct T as (T0 & T1).
  rewrite (de_num_ser _ _ T0); cbn [obind]; rewrite (de_ser_list ser_digest de_digest norm_digest typed_digest de_ser_digest _ T1); cbn [obind].
  reflexivity.
Qed.
Lemma de_digests_inv : forall v x, de_digests v = Some x -> typed_digests x /\ Forall canonical (algos_digests x).
Proof.
  intros v x H. unfold de_digests in H. take5 H. unbind H. injection H as <-.
  repeat match goal with
  | E : de_num _ _ = Some _ |- _ => apply de_num_inv in E
  | E : de_algo _ = Some _ |- _ => apply de_algo_inv in E
  | E : de_magic _ = Some _ |- _ => apply de_magic_inv in E
  | E : de_list de_digest _ = Some _ |- _ => apply (de_list_inv de_digest (fun x => typed_digest x /\ Forall canonical (algos_digest x)) de_digest_inv) in E
  end.
  unfold typed_digests, algos_digests. cbn [dgs_size dgs_data].
  rewrite ?Forall_app, ?Forall_flat, ?Forall_cons_iff.
  match goal with E : Forall _ _ |- _ => apply Forall_and_inv in E end.
  intuition auto.
Qed.
Lemma norm_digests_id : forall x, typed_digests x -> (norm_digests x = x <-> Forall canonical (algos_digests x)).
Proof.
  intros x T. destruct T as (T0 & T1). unfold algos_digests. destruct x as [f0 f1]. unfold norm_digests. cbn [dgs_size dgs_data] in *.
  rewrite ?Forall_app. rewrite Forall_flat; rewrite <- (map_same_typed norm_digest typed_digest (fun x => Forall canonical (algos_digest x)) norm_digest_id _ T1).
  split; [intros E; injection E; intros; intuition auto|intros; intuition congruence].
Qed.
Lemma norm_digests_u8 : forall x, digests_to_u8 (norm_digests x) = digests_to_u8 x.
Proof.
  intros x. unfold digests_to_u8, norm_digests. cbn [dgs_size dgs_data]. rewrite ?norm_algo_num.
  rewrite ?(flat_map_map norm_digest _ norm_digest_u8).
  reflexivity.
Qed.

Lemma de_ser_cert : forall x, typed_cert x -> de_cert (ser_cert x) = Some (x).
Proof.
  start de_cert ser_cert. rename T into T0; red in T0.
  rewrite (de_num_ser _ _ T0); cbn [obind]; rewrite de_bytes_ser; cbn [obind].
  now destruct x.
Qed.
Lemma de_cert_inv : forall v x, de_cert v = Some x -> typed_cert x.
Proof.
  intros v x H. unfold de_cert in H. take5 H. unbind H. injection H as <-.
  repeat match goal with
  | E : de_num _ _ = Some _ |- _ => apply de_num_inv in E
  | E : de_algo _ = Some _ |- _ => apply de_algo_inv in E
  | E : de_magic _ = Some _ |- _ => apply de_magic_inv in E
  end.
  unfold typed_cert. cbn [ct_size ct_data]. auto.
Qed.

Lemma de_ser_certs : forall x, typed_certs x -> de_certs (ser_certs x) = Some (x).
Proof.
  start de_certs ser_certs. destruct T as (T0 & T1).
  rewrite (de_num_ser _ _ T0); cbn [obind]; rewrite (de_ser_list ser_cert de_cert (fun x => x) typed_cert de_ser_cert _ T1); rewrite map_id; cbn [obind].
  now destruct x.
Qed.
Lemma de_certs_inv : forall v x, de_certs v = Some x -> typed_certs x.
Proof.
  intros v x H. unfold de_certs in H. take5 H. unbind H. injection H as <-.
  repeat match goal with
  | E : de_num _ _ = Some _ |- _ => apply de_num_inv in E
  | E : de_algo _ = Some _ |- _ => apply de_algo_inv in E
  | E : de_magic _ = Some _ |- _ => apply de_magic_inv in E
  | E : de_list de_cert _ = Some _ |- _ => apply (de_list_inv de_cert typed_cert de_cert_inv) in E
  end.
  unfold typed_certs. cbn [cts_size cts_data]. auto.
Qed.

Definition norm_sig (x : signature) : signature := mkSig (sg_size x) (norm_algo (sg_algo x)) (sg_data x).
Lemma de_ser_sig : forall x, typed_sig x -> de_sig (ser_sig x) = Some (norm_sig x).
Proof.
  start de_sig ser_sig. destruct T as (T0 & T1).
  rewrite (de_num_ser _ _ T0); cbn [obind]; rewrite (de_algo_ser _ T1); cbn [obind]; rewrite de_bytes_ser; cbn [obind].
  reflexivity.
Qed.
Lemma de_sig_inv : forall v x, de_sig v = Some x -> typed_sig x /\ Forall canonical (algos_sig x).
Proof.
  intros v x H. unfold de_sig in H. take5 H. unbind H. injection H as <-.
  repeat match goal with
  | E : de_num _ _ = Some _ |- _ => apply de_num_inv in E
  | E : de_algo _ = Some _ |- _ => apply de_algo_inv in E
  | E : de_magic _ = Some _ |- _ => apply de_magic_inv in E
  end.
  unfold typed_sig, algos_sig. cbn [sg_size sg_algo sg_data].
  rewrite ?Forall_app, ?Forall_flat, ?Forall_cons_iff.
  intuition auto.
Qed.
Lemma norm_sig_id : forall x, typed_sig x -> (norm_sig x = x <-> Forall canonical (algos_sig x)).
Proof.
  intros x T. destruct T as (T0 & T1). unfold algos_sig. destruct x as [f0 f1 f2]. unfold norm_sig. cbn [sg_size sg_algo sg_data] in *.
  rewrite ?Forall_app. rewrite Forall_cons_iff, <- (norm_algo_id _ T1).
  split; [intros E; injection E; intros; intuition auto|intros; intuition congruence].
Qed.
Lemma norm_sig_u8 : forall x, sig_to_u8 (norm_sig x) = sig_to_u8 x.
Proof.
  intros x. unfold sig_to_u8, norm_sig. cbn [sg_size sg_algo sg_data]. rewrite ?norm_algo_num.
  reflexivity.
Qed.

Definition norm_sigs (x : signatures) : signatures := mkSigs (sgs_size x) (map norm_sig (sgs_data x)).
Lemma de_ser_sigs : forall x, typed_sigs x -> de_sigs (ser_sigs x) = Some (norm_sigs x).
Proof.
  start de_sigs ser_sigs. destruct T as (T0 & T1).
  rewrite (de_num_ser _ _ T0); cbn [obind]; rewrite (de_ser_list ser_sig de_sig norm_sig typed_sig de_ser_sig _ T1); cbn [obind].
  reflexivity.
Qed.
Lemma de_sigs_inv : forall v x, de_sigs v = Some x -> typed_sigs x /\ Forall canonical (algos_sigs x).
Proof.
  intros v x H. unfold de_sigs in H. take5 H. unbind H. injection H as <-.
  repeat match goal with
  | E : de_num _ _ = Some _ |- _ => apply de_num_inv in E
  | E : de_algo _ = Some _ |- _ => apply de_algo_inv in E
  | E : de_magic _ = Some _ |- _ => apply de_magic_inv in E
  | E : de_list de_sig _ = Some _ |- _ => apply (de_list_inv de_sig (fun x => typed_sig x /\ Forall canonical (algos_sig x)) de_sig_inv) in E
  end.
  unfold typed_sigs, algos_sigs. cbn [sgs_size sgs_data].
  rewrite ?Forall_app, ?Forall_flat, ?Forall_cons_iff.
  match goal with E : Forall _ _ |- _ => apply Forall_and_inv in E end.
  intuition auto.
Qed.
Lemma norm_sigs_id : forall x, typed_sigs x -> (norm_sigs x = x <-> Forall canonical (algos_sigs x)).
Proof.
  intros x T. destruct T as (T0 & T1). unfold algos_sigs. destruct x as [f0 f1]. unfold norm_sigs. cbn [sgs_size sgs_data] in *.
  rewrite ?Forall_app. rewrite Forall_flat; rewrite <- (map_same_typed norm_sig typed_sig (fun x => Forall canonical (algos_sig x)) norm_sig_id _ T1).
  split; [intros E; injection E; intros; intuition auto|intros; intuition congruence].
Qed.
Lemma norm_sigs_u8 : forall x, sigs_to_u8 (norm_sigs x) = sigs_to_u8 x.
Proof.
  intros x. unfold sigs_to_u8, norm_sigs. cbn [sgs_size sgs_data]. rewrite ?norm_algo_num.
  rewrite ?(flat_map_map norm_sig _ norm_sig_u8).
  reflexivity.
Qed.

Lemma de_ser_attr : forall x, typed_attr x -> de_attr (ser_attr x) = Some (x).
Proof.
  start de_attr ser_attr. destruct T as (T0 & T1).
  rewrite (de_num_ser _ _ T0); cbn [obind]; rewrite (de_num_ser _ _ T1); cbn [obind]; rewrite de_bytes_ser; cbn [obind].
  now destruct x.
Qed.
Lemma de_attr_inv : forall v x, de_attr v = Some x -> typed_attr x.
Proof.
  intros v x H. unfold de_attr in H. take5 H. unbind H. injection H as <-.
  repeat match goal with
  | E : de_num _ _ = Some _ |- _ => apply de_num_inv in E
  | E : de_algo _ = Some _ |- _ => apply de_algo_inv in E
  | E : de_magic _ = Some _ |- _ => apply de_magic_inv in E
  end.
  unfold typed_attr. cbn [at_size at_id at_data]. auto.
Qed.

Lemma de_ser_attrs : forall x, typed_attrs x -> de_attrs (ser_attrs x) = Some (x).
Proof.
  start de_attrs ser_attrs. destruct T as (T0 & T1).
  rewrite (de_num_ser _ _ T0); cbn [obind]; rewrite (de_ser_list ser_attr de_attr (fun x => x) typed_attr de_ser_attr _ T1); rewrite map_id; cbn [obind].
  now destruct x.
Qed.
Lemma de_attrs_inv : forall v x, de_attrs v = Some x -> typed_attrs x.
Proof.
  intros v x H. unfold de_attrs in H. take5 H. unbind H. injection H as <-.
  repeat match goal with
  | E : de_num _ _ = Some _ |- _ => apply de_num_inv in E
  | E : de_algo _ = Some _ |- _ => apply de_algo_inv in E
  | E : de_magic _ = Some _ |- _ => apply de_magic_inv in E
  | E : de_list de_attr _ = Some _ |- _ => apply (de_list_inv de_attr typed_attr de_attr_inv) in E
  end.
  unfold typed_attrs. cbn [ats_size ats_data]. auto.
Qed.

Lemma de_ser_pub : forall x, typed_pub x -> de_pub (ser_pub x) = Some (x).
Proof.
  start de_pub ser_pub. rename T into T0; red in T0.
  rewrite (de_num_ser _ _ T0); cbn [obind]; rewrite de_bytes_ser; cbn [obind].
  now destruct x.
Qed.
Lemma de_pub_inv : forall v x, de_pub v = Some x -> typed_pub x.
Proof.
  intros v x H. unfold de_pub in H. take5 H. unbind H. injection H as <-.
  repeat match goal with
  | E : de_num _ _ = Some _ |- _ => apply de_num_inv in E
  | E : de_algo _ = Some _ |- _ => apply de_algo_inv in E
  | E : de_magic _ = Some _ |- _ => apply de_magic_inv in E
  end.
  unfold typed_pub. cbn [pk_size pk_data]. auto.
Qed.

Definition norm_sd (x : signed_data) : signed_data := mkSD (sd_size x) (norm_digests (sd_digests x)) (sd_certs x) (sd_attrs x).
Lemma de_ser_sd : forall x, typed_sd x -> de_sd (ser_sd x) = Some (norm_sd x).
Proof.
  start de_sd ser_sd. destruct T as (T0 & T1 & T2 & T3).
  rewrite (de_num_ser _ _ T0); cbn [obind]; rewrite (de_ser_digests _ T1); cbn [obind]; rewrite (de_ser_certs _ T2); cbn [obind]; rewrite (de_ser_attrs _ T3); cbn [obind]; cbn [de_bool]; cbn [obind].
  reflexivity.
Qed.
Lemma de_sd_inv : forall v x, de_sd v = Some x -> typed_sd x /\ Forall canonical (algos_sd x).
Proof.
  intros v x H. unfold de_sd in H. take5 H. unbind H. injection H as <-.
  repeat match goal with
  | E : de_num _ _ = Some _ |- _ => apply de_num_inv in E
  | E : de_algo _ = Some _ |- _ => apply de_algo_inv in E
  | E : de_magic _ = Some _ |- _ => apply de_magic_inv in E
  | E : de_digests _ = Some _ |- _ => apply de_digests_inv in E
  | E : de_certs _ = Some _ |- _ => apply de_certs_inv in E
  | E : de_attrs _ = Some _ |- _ => apply de_attrs_inv in E
  end.
  unfold typed_sd, algos_sd. cbn [sd_size sd_digests sd_certs sd_attrs].
  rewrite ?Forall_app, ?Forall_flat, ?Forall_cons_iff.
  intuition auto.
Qed.
Lemma norm_sd_id : forall x, typed_sd x -> (norm_sd x = x <-> Forall canonical (algos_sd x)).
Proof.
  intros x T. destruct T as (T0 & T1 & T2 & T3). unfold algos_sd. destruct x as [f0 f1 f2 f3]. unfold norm_sd. cbn [sd_size sd_digests sd_certs sd_attrs] in *.
  rewrite ?Forall_app. rewrite <- (norm_digests_id _ T1).
  split; [intros E; injection E; intros; intuition auto|intros; intuition congruence].
Qed.
Lemma norm_sd_u8 : forall x, sd_to_u8 (norm_sd x) = sd_to_u8 x.
Proof.
  intros x. unfold sd_to_u8, norm_sd. cbn [sd_size sd_digests sd_certs sd_attrs]. rewrite ?norm_algo_num.
  rewrite ?norm_digests_u8.
  reflexivity.
Qed.

Definition norm_signer (x : signer) : signer := mkSigner (sn_size x) (norm_sd (sn_data x)) (norm_sigs (sn_sigs x)) (sn_key x).
Lemma de_ser_signer : forall x, typed_signer x -> de_signer (ser_signer x) = Some (norm_signer x).
Proof.
  start de_signer ser_signer. destruct T as (T0 & T1 & T2 & T3).
  rewrite (de_num_ser _ _ T0); cbn [obind]; rewrite (de_ser_sd _ T1); cbn [obind]; rewrite (de_ser_sigs _ T2); cbn [obind]; rewrite (de_ser_pub _ T3); cbn [obind].
  reflexivity.
Qed.
Lemma de_signer_inv : forall v x, de_signer v = Some x -> typed_signer x /\ Forall canonical (algos_signer x).
Proof.
  intros v x H. unfold de_signer in H. take5 H. unbind H. injection H as <-.
  repeat match goal with
  | E : de_num _ _ = Some _ |- _ => apply de_num_inv in E
  | E : de_algo _ = Some _ |- _ => apply de_algo_inv in E
  | E : de_magic _ = Some _ |- _ => apply de_magic_inv in E
  | E : de_sd _ = Some _ |- _ => apply de_sd_inv in E
  | E : de_sigs _ = Some _ |- _ => apply de_sigs_inv in E
  | E : de_pub _ = Some _ |- _ => apply de_pub_inv in E
  end.
  unfold typed_signer, algos_signer. cbn [sn_size sn_data sn_sigs sn_key].
  rewrite ?Forall_app, ?Forall_flat, ?Forall_cons_iff.
  intuition auto.
Qed.
Lemma norm_signer_id : forall x, typed_signer x -> (norm_signer x = x <-> Forall canonical (algos_signer x)).
Proof.
  intros x T. destruct T as (T0 & T1 & T2 & T3). unfold algos_signer. destruct x as [f0 f1 f2 f3]. unfold norm_signer. cbn [sn_size sn_data sn_sigs sn_key] in *.
  rewrite ?Forall_app. rewrite <- (norm_sd_id _ T1); rewrite <- (norm_sigs_id _ T2).
  split; [intros E; injection E; intros; intuition auto|intros; intuition congruence].
Qed.
Lemma norm_signer_u8 : forall x, signer_to_u8 (norm_signer x) = signer_to_u8 x.
Proof.
  intros x. unfold signer_to_u8, norm_signer. cbn [sn_size sn_data sn_sigs sn_key]. rewrite ?norm_algo_num.
  rewrite ?norm_sd_u8.
  rewrite ?norm_sigs_u8.
  reflexivity.
Qed.

Definition norm_signers (x : signers) : signers := mkSigners (sns_size x) (map norm_signer (sns_data x)).
Lemma de_ser_signers : forall x, typed_signers x -> de_signers (ser_signers x) = Some (norm_signers x).
Proof.
  start de_signers ser_signers. destruct T as (T0 & T1).
  rewrite (de_num_ser _ _ T0); cbn [obind]; rewrite (de_ser_list ser_signer de_signer norm_signer typed_signer de_ser_signer _ T1); cbn [obind].
  reflexivity.
Qed.
Lemma de_signers_inv : forall v x, de_signers v = Some x -> typed_signers x /\ Forall canonical (algos_signers x).
Proof.
  intros v x H. unfold de_signers in H. take5 H. unbind H. injection H as <-.
  repeat match goal with
  | E : de_num _ _ = Some _ |- _ => apply de_num_inv in E
  | E : de_algo _ = Some _ |- _ => apply de_algo_inv in E
  | E : de_magic _ = Some _ |- _ => apply de_magic_inv in E
  | E : de_list de_signer _ = Some _ |- _ => apply (de_list_inv de_signer (fun x => typed_signer x /\ Forall canonical (algos_signer x)) de_signer_inv) in E
  end.
  unfold typed_signers, algos_signers. cbn [sns_size sns_data].
  rewrite ?Forall_app, ?Forall_flat, ?Forall_cons_iff.
  match goal with E : Forall _ _ |- _ => apply Forall_and_inv in E end.
  intuition auto.
Qed.
Lemma norm_signers_id : forall x, typed_signers x -> (norm_signers x = x <-> Forall canonical (algos_signers x)).
Proof.
  intros x T. destruct T as (T0 & T1). unfold algos_signers. destruct x as [f0 f1]. unfold norm_signers. cbn [sns_size sns_data] in *.
  rewrite ?Forall_app. rewrite Forall_flat; rewrite <- (map_same_typed norm_signer typed_signer (fun x => Forall canonical (algos_signer x)) norm_signer_id _ T1).
  split; [intros E; injection E; intros; intuition auto|intros; intuition congruence].
Qed.
Lemma norm_signers_u8 : forall x, signers_to_u8 (norm_signers x) = signers_to_u8 x.
Proof.
  intros x. unfold signers_to_u8, norm_signers. cbn [sns_size sns_data]. rewrite ?norm_algo_num.
  rewrite ?(flat_map_map norm_signer _ norm_signer_u8).
  reflexivity.
Qed.

Definition norm_v2 (x : scheme_v2) : scheme_v2 := mkV2 (v2_size x) (v2_id x) (norm_signers (v2_signers x)).
Lemma de_ser_v2 : forall x, typed_v2 x -> de_v2 (ser_v2 x) = Some (norm_v2 x).
Proof.
  start de_v2 ser_v2. destruct T as (T0 & T1 & T2).
  rewrite (de_num_ser _ _ T0); cbn [obind]; rewrite (de_num_ser _ _ T1); cbn [obind]; rewrite (de_ser_signers _ T2); cbn [obind].
  reflexivity.
Qed.
Lemma de_v2_inv : forall v x, de_v2 v = Some x -> typed_v2 x /\ Forall canonical (algos_v2 x).
Proof.
  intros v x H. unfold de_v2 in H. take5 H. unbind H. injection H as <-.
  repeat match goal with
  | E : de_num _ _ = Some _ |- _ => apply de_num_inv in E
  | E : de_algo _ = Some _ |- _ => apply de_algo_inv in E
  | E : de_magic _ = Some _ |- _ => apply de_magic_inv in E
  | E : de_signers _ = Some _ |- _ => apply de_signers_inv in E
  end.
  unfold typed_v2, algos_v2. cbn [v2_size v2_id v2_signers].
  rewrite ?Forall_app, ?Forall_flat, ?Forall_cons_iff.
  intuition auto.
Qed.
Lemma norm_v2_id : forall x, typed_v2 x -> (norm_v2 x = x <-> Forall canonical (algos_v2 x)).
Proof.
  intros x T. destruct T as (T0 & T1 & T2). unfold algos_v2. destruct x as [f0 f1 f2]. unfold norm_v2. cbn [v2_size v2_id v2_signers] in *.
  rewrite ?Forall_app. rewrite <- (norm_signers_id _ T2).
  split; [intros E; injection E; intros; intuition auto|intros; intuition congruence].
Qed.
Lemma norm_v2_u8 : forall x, v2_to_u8 (norm_v2 x) = v2_to_u8 x.
Proof.
  intros x. unfold v2_to_u8, norm_v2. cbn [v2_size v2_id v2_signers]. rewrite ?norm_algo_num.
  rewrite ?norm_signers_u8.
  reflexivity.
Qed.

Definition norm_std (x : stamp_data) : stamp_data := mkStD (norm_digests (st_digests x)) (st_certs x) (st_attrs x).
Lemma de_ser_std : forall x, typed_std x -> de_std (ser_std x) = Some (norm_std x).
Proof.
  start de_std ser_std. destruct T as (T0 & T1 & T2).
  rewrite (de_ser_digests _ T0); cbn [obind]; rewrite (de_ser_certs _ T1); cbn [obind]; rewrite (de_ser_attrs _ T2); cbn [obind].
  reflexivity.
Qed.
Lemma de_std_inv : forall v x, de_std v = Some x -> typed_std x /\ Forall canonical (algos_std x).
Proof.
  intros v x H. unfold de_std in H. take5 H. unbind H. injection H as <-.
  repeat match goal with
  | E : de_num _ _ = Some _ |- _ => apply de_num_inv in E
  | E : de_algo _ = Some _ |- _ => apply de_algo_inv in E
  | E : de_magic _ = Some _ |- _ => apply de_magic_inv in E
  | E : de_digests _ = Some _ |- _ => apply de_digests_inv in E
  | E : de_certs _ = Some _ |- _ => apply de_certs_inv in E
  | E : de_attrs _ = Some _ |- _ => apply de_attrs_inv in E
  end.
  unfold typed_std, algos_std. cbn [st_digests st_certs st_attrs].
  rewrite ?Forall_app, ?Forall_flat, ?Forall_cons_iff.
  intuition auto.
Qed.
Lemma norm_std_id : forall x, typed_std x -> (norm_std x = x <-> Forall canonical (algos_std x)).
Proof.
  intros x T. destruct T as (T0 & T1 & T2). unfold algos_std. destruct x as [f0 f1 f2]. unfold norm_std. cbn [st_digests st_certs st_attrs] in *.
  rewrite ?Forall_app. rewrite <- (norm_digests_id _ T0).
  split; [intros E; injection E; intros; intuition auto|intros; intuition congruence].
Qed.
Lemma norm_std_u8 : forall x, std_to_u8 (norm_std x) = std_to_u8 x.
Proof.
  intros x. unfold std_to_u8, norm_std. cbn [st_digests st_certs st_attrs]. rewrite ?norm_algo_num.
  rewrite ?norm_digests_u8.
  reflexivity.
Qed.

Definition norm_sb (x : stamp_block) : stamp_block := mkSB (sb_size x) (norm_std (sb_data x)) (norm_sigs (sb_sigs x)) (sb_key x).
Lemma de_ser_sb : forall x, typed_sb x -> de_sb (ser_sb x) = Some (norm_sb x).
Proof.
  start de_sb ser_sb. destruct T as (T0 & T1 & T2 & T3).
  rewrite (de_num_ser _ _ T0); cbn [obind]; rewrite (de_ser_std _ T1); cbn [obind]; rewrite (de_ser_sigs _ T2); cbn [obind]; rewrite (de_ser_pub _ T3); cbn [obind].
  reflexivity.
Qed.
Lemma de_sb_inv : forall v x, de_sb v = Some x -> typed_sb x /\ Forall canonical (algos_sb x).
Proof.
  intros v x H. unfold de_sb in H. take5 H. unbind H. injection H as <-.
  repeat match goal with
  | E : de_num _ _ = Some _ |- _ => apply de_num_inv in E
  | E : de_algo _ = Some _ |- _ => apply de_algo_inv in E
  | E : de_magic _ = Some _ |- _ => apply de_magic_inv in E
  | E : de_std _ = Some _ |- _ => apply de_std_inv in E
  | E : de_sigs _ = Some _ |- _ => apply de_sigs_inv in E
  | E : de_pub _ = Some _ |- _ => apply de_pub_inv in E
  end.
  unfold typed_sb, algos_sb. cbn [sb_size sb_data sb_sigs sb_key].
  rewrite ?Forall_app, ?Forall_flat, ?Forall_cons_iff.
  intuition auto.
Qed.
Lemma norm_sb_id : forall x, typed_sb x -> (norm_sb x = x <-> Forall canonical (algos_sb x)).
Proof.
  intros x T. destruct T as (T0 & T1 & T2 & T3). unfold algos_sb. destruct x as [f0 f1 f2 f3]. unfold norm_sb. cbn [sb_size sb_data sb_sigs sb_key] in *.
  rewrite ?Forall_app. rewrite <- (norm_std_id _ T1); rewrite <- (norm_sigs_id _ T2).
  split; [intros E; injection E; intros; intuition auto|intros; intuition congruence].
Qed.
Lemma norm_sb_u8 : forall x, sb_to_u8 (norm_sb x) = sb_to_u8 x.
Proof.
  intros x. unfold sb_to_u8, norm_sb. cbn [sb_size sb_data sb_sigs sb_key]. rewrite ?norm_algo_num.
  rewrite ?norm_std_u8.
  rewrite ?norm_sigs_u8.
  reflexivity.
Qed.

Definition norm_stamp (x : source_stamp) : source_stamp := mkStamp (ss_size x) (ss_id x) (norm_sb (ss_block x)).
Lemma de_ser_stamp : forall x, typed_stamp x -> de_stamp (ser_stamp x) = Some (norm_stamp x).
Proof.
  start de_stamp ser_stamp. destruct T as (T0 & T1 & T2).
  rewrite (de_num_ser _ _ T0); cbn [obind]; rewrite (de_num_ser _ _ T1); cbn [obind]; rewrite (de_ser_sb _ T2); cbn [obind].
  reflexivity.
Qed.
Lemma de_stamp_inv : forall v x, de_stamp v = Some x -> typed_stamp x /\ Forall canonical (algos_stamp x).
Proof.
  intros v x H. unfold de_stamp in H. take5 H. unbind H. injection H as <-.
  repeat match goal with
  | E : de_num _ _ = Some _ |- _ => apply de_num_inv in E
  | E : de_algo _ = Some _ |- _ => apply de_algo_inv in E
  | E : de_magic _ = Some _ |- _ => apply de_magic_inv in E
  | E : de_sb _ = Some _ |- _ => apply de_sb_inv in E
  end.
  unfold typed_stamp, algos_stamp. cbn [ss_size ss_id ss_block].
  rewrite ?Forall_app, ?Forall_flat, ?Forall_cons_iff.
  intuition auto.
Qed.
Lemma norm_stamp_id : forall x, typed_stamp x -> (norm_stamp x = x <-> Forall canonical (algos_stamp x)).
Proof.
  intros x T. destruct T as (T0 & T1 & T2). unfold algos_stamp. destruct x as [f0 f1 f2]. unfold norm_stamp. cbn [ss_size ss_id ss_block] in *.
  rewrite ?Forall_app. rewrite <- (norm_sb_id _ T2).
  split; [intros E; injection E; intros; intuition auto|intros; intuition congruence].
Qed.
Lemma norm_stamp_u8 : forall x, ss_to_u8 (norm_stamp x) = ss_to_u8 x.
Proof.
  intros x. unfold ss_to_u8, norm_stamp. cbn [ss_size ss_id ss_block]. rewrite ?norm_algo_num.
  rewrite ?norm_sb_u8.
  reflexivity.
Qed.

Lemma de_ser_entry : forall x, typed_entry x -> de_entry (ser_entry x) = Some (x).
Proof.
  start de_entry ser_entry. destruct T as (T0 & T1 & T2).
  rewrite (de_num_ser _ _ T0); cbn [obind]; cbn [de_str]; cbn [obind]; rewrite (de_num_ser _ _ T1); cbn [obind]; rewrite (de_num_ser _ _ T2); cbn [obind].
  now destruct x.
Qed.
Lemma de_entry_inv : forall v x, de_entry v = Some x -> typed_entry x.
Proof.
  intros v x H. unfold de_entry in H. take5 H. unbind H. injection H as <-.
  repeat match goal with
  | E : de_num _ _ = Some _ |- _ => apply de_num_inv in E
  | E : de_algo _ = Some _ |- _ => apply de_algo_inv in E
  | E : de_magic _ = Some _ |- _ => apply de_magic_inv in E
  end.
  unfold typed_entry. cbn [en_name_len en_name en_offset en_size]. auto.
Qed.

Lemma de_ser_info : forall x, typed_info x -> de_info (ser_info x) = Some (x).
Proof.
  start de_info ser_info. destruct T as (T0 & T1 & T2 & T3).
  rewrite (de_num_ser _ _ T0); cbn [obind]; rewrite (de_num_ser _ _ T1); cbn [obind]; rewrite (de_num_ser _ _ T2); cbn [obind]; rewrite (de_ser_list ser_entry de_entry (fun x => x) typed_entry de_ser_entry _ T3); rewrite map_id; cbn [obind].
  now destruct x.
Qed.
Lemma de_info_inv : forall v x, de_info v = Some x -> typed_info x.
Proof.
  intros v x H. unfold de_info in H. take5 H. unbind H. injection H as <-.
  repeat match goal with
  | E : de_num _ _ = Some _ |- _ => apply de_num_inv in E
  | E : de_algo _ = Some _ |- _ => apply de_algo_inv in E
  | E : de_magic _ = Some _ |- _ => apply de_magic_inv in E
  | E : de_list de_entry _ = Some _ |- _ => apply (de_list_inv de_entry typed_entry de_entry_inv) in E
  end.
  unfold typed_info. cbn [ei_size ei_id ei_count ei_sections]. auto.
Qed.

Lemma de_ser_raw : forall x, typed_raw x -> de_raw (ser_raw x) = Some (x).
Proof.
  start de_raw ser_raw. destruct T as (T0 & T1).
  rewrite (de_num_ser _ _ T0); cbn [obind]; rewrite (de_num_ser _ _ T1); cbn [obind]; rewrite de_bytes_ser; cbn [obind].
  now destruct x.
Qed.
Lemma de_raw_inv : forall v x, de_raw v = Some x -> typed_raw x.
Proof.
  intros v x H. unfold de_raw in H. take5 H. unbind H. injection H as <-.
  repeat match goal with
  | E : de_num _ _ = Some _ |- _ => apply de_num_inv in E
  | E : de_algo _ = Some _ |- _ => apply de_algo_inv in E
  | E : de_magic _ = Some _ |- _ => apply de_magic_inv in E
  end.
  unfold typed_raw. cbn [rw_size rw_id rw_data]. auto.
Qed.

Definition norm_value (x : value) : value :=
  match x with V2Block v => V2Block (norm_v2 v) | StampBlk s => StampBlk (norm_stamp s) | _ => x end.
Lemma de_ser_value x : typed_value x -> de_value (ser_value x) = Some (norm_value x).
Proof.
  intros T. destruct x as [r|v|s|i]; cbn [typed_value norm_value] in *; unfold ser_value, de_value.
  - change (beq (bstr "BaseSigningBlock") (bstr "BaseSigningBlock")) with true. cbv iota. now rewrite de_ser_raw.
  - change (beq (bstr "SignatureSchemeV2Block") (bstr "BaseSigningBlock")) with false.
    change (beq (bstr "SignatureSchemeV2Block") (bstr "SignatureSchemeV2Block")) with true. cbv iota. now rewrite de_ser_v2.
  - change (beq (bstr "SourceStampBlock") (bstr "BaseSigningBlock")) with false.
    change (beq (bstr "SourceStampBlock") (bstr "SignatureSchemeV2Block")) with false.
    change (beq (bstr "SourceStampBlock") (bstr "SourceStampBlock")) with true. cbv iota. now rewrite de_ser_stamp.
  - change (beq (bstr "ElfSectionInfoBlock") (bstr "BaseSigningBlock")) with false.
    change (beq (bstr "ElfSectionInfoBlock") (bstr "SignatureSchemeV2Block")) with false.
    change (beq (bstr "ElfSectionInfoBlock") (bstr "SourceStampBlock")) with false.
    change (beq (bstr "ElfSectionInfoBlock") (bstr "ElfSectionInfoBlock")) with true. cbv iota. now rewrite de_ser_info.
Qed.
Lemma de_value_inv v x : de_value v = Some x -> typed_value x /\ Forall canonical (algos_value x).
Proof.
  unfold de_value. destruct v as [| | | |[|(k & v) [|? ?]]|]; try discriminate.
  destruct (beq k _); [|destruct (beq k _); [|destruct (beq k _); [|destruct (beq k _); [|discriminate]]]]; intros H; unbind H;
    injection H as <-; cbn [typed_value algos_value].
  - split; [eapply de_raw_inv; eassumption|constructor].
  - eapply de_v2_inv. eassumption.
  - eapply de_stamp_inv. eassumption.
  - split; [eapply de_info_inv; eassumption|constructor].
Qed.
Lemma norm_value_id x : typed_value x -> (norm_value x = x <-> Forall canonical (algos_value x)).
Proof.
  intros T. destruct x as [r|v|s|i]; cbn [typed_value norm_value algos_value] in *; [split; [constructor|reflexivity]|..|split; [constructor|reflexivity]].
  - rewrite <- norm_v2_id by auto. split; [now intros [= E]|congruence].
  - rewrite <- norm_stamp_id by auto. split; [now intros [= E]|congruence].
Qed.
Lemma norm_value_u8 x : value_to_u8 (norm_value x) = value_to_u8 x.
Proof. destruct x; cbn [norm_value value_to_u8]; [reflexivity|apply norm_v2_u8|apply norm_stamp_u8|reflexivity]. Qed.
Definition norm_block (x : signing_block) : signing_block := mkBlock (bk_start x) (bk_end x) (bk_size_start x) (bk_content_size x) (map norm_value (bk_content x)) (bk_size_end x) (bk_magic x).
Lemma de_ser_block : forall x, typed_block x -> de_block (ser_block x) = Some (norm_block x).
Proof.
  start de_block ser_block. destruct T as (T0 & T1 & T2 & T3 & T4 & T5 & T6).
  rewrite (de_num_ser _ _ T0); cbn [obind]; rewrite (de_num_ser _ _ T1); cbn [obind]; rewrite (de_num_ser _ _ T2); cbn [obind]; rewrite (de_num_ser _ _ T3); cbn [obind]; rewrite (de_ser_list ser_value de_value norm_value typed_value de_ser_value _ T4); cbn [obind]; rewrite (de_num_ser _ _ T5); cbn [obind]; rewrite (de_magic_ser _ T6); cbn [obind].
  reflexivity.
Qed.
Lemma de_block_inv : forall v x, de_block v = Some x -> typed_block x /\ Forall canonical (algos_block x).
Proof.
  intros v x H. unfold de_block in H. take5 H. unbind H. injection H as <-.
  repeat match goal with
  | E : de_num _ _ = Some _ |- _ => apply de_num_inv in E
  | E : de_algo _ = Some _ |- _ => apply de_algo_inv in E
  | E : de_magic _ = Some _ |- _ => apply de_magic_inv in E
  | E : de_list de_value _ = Some _ |- _ => apply (de_list_inv de_value (fun x => typed_value x /\ Forall canonical (algos_value x)) de_value_inv) in E
  end.
  unfold typed_block, algos_block. cbn [bk_start bk_end bk_size_start bk_content_size bk_content bk_size_end bk_magic].
  rewrite ?Forall_app, ?Forall_flat, ?Forall_cons_iff.
  match goal with E : Forall _ _ |- _ => apply Forall_and_inv in E end.
  intuition auto.
Qed.
Lemma norm_block_id : forall x, typed_block x -> (norm_block x = x <-> Forall canonical (algos_block x)).
Proof.
  intros x T. destruct T as (T0 & T1 & T2 & T3 & T4 & T5 & T6). unfold algos_block. destruct x as [f0 f1 f2 f3 f4 f5 f6]. unfold norm_block. cbn [bk_start bk_end bk_size_start bk_content_size bk_content bk_size_end bk_magic] in *.
  rewrite ?Forall_app. rewrite Forall_flat; rewrite <- (map_same_typed norm_value typed_value (fun x => Forall canonical (algos_value x)) norm_value_id _ T4).
  split; [intros E; injection E; intros; intuition auto|intros; intuition congruence].
Qed.
Lemma norm_block_u8 : forall x, block_to_u8 (norm_block x) = block_to_u8 x.
Proof.
  intros x. unfold block_to_u8, content_to_u8, norm_block. cbn [bk_start bk_end bk_size_start bk_content_size bk_content bk_size_end bk_magic]. rewrite ?norm_algo_num.
  rewrite ?(flat_map_map norm_value _ norm_value_u8).
  reflexivity.
Qed.


(** * The order of fields *)
Definition orel (a b : option (list sval)) : Prop :=
  match a, b with Some l, Some l' => Forall2 same l l' | None, None => True | _, _ => False end.
Definition orel1 (a b : option sval) : Prop :=
  match a, b with Some l, Some l' => same l l' | None, None => True | _, _ => False end.
Lemma Forall2_len {A B} (R : A -> B -> Prop) l l' : Forall2 R l l' -> len l = len l'.
Proof. induction 1; [reflexivity|]. rewrite !len_cons. now f_equal. Qed.
Lemma assoc_filter k l : assoc k l = match filter (fun e : bytes * sval => beq (fst e) k) l with [] => None | e :: _ => Some (snd e) end.
Proof. induction l as [|(x & v) l IH]; cbn [assoc filter fst]; [reflexivity|]. destruct (beq x k); [reflexivity|auto]. Qed.
Lemma filter_perm {A} (f : A -> bool) l l' : Permutation l l' -> Permutation (filter f l) (filter f l').
Proof.
  induction 1 as [|x l l' _ IH|x y l|l l' l'' _ IH1 _ IH2]; cbn [filter].
  - constructor.
  - destruct (f x); [now constructor|auto].
  - destruct (f x), (f y); try reflexivity. constructor.
  - etransitivity; eauto.
Qed.
Lemma filter_entries k (l m : list (bytes * sval)) :
  Forall2 (fun e e' => fst e = fst e' /\ same (snd e) (snd e')) l m ->
  Forall2 (fun e e' => fst e = fst e' /\ same (snd e) (snd e'))
    (filter (fun e => beq (fst e) k) l) (filter (fun e => beq (fst e) k) m).
Proof.
  induction 1 as [|e e' l m (H1 & H2) _ IH]; cbn [filter]; [constructor|]. rewrite H1. destruct (beq (fst e') k); [constructor; auto|auto].
Qed.
Lemma same_repeated k l m l' : Forall2 (fun e e' => fst e = fst e' /\ same (snd e) (snd e')) l m -> Permutation m l' ->
  repeated k l = repeated k l'.
Proof.
  intros H P. unfold repeated. rewrite (Forall2_len _ _ _ (filter_entries k l m H)).
  pose proof (Permutation_length (filter_perm (fun e => beq (fst e) k) m l' P)) as E. unfold len. now rewrite E.
Qed.
Lemma same_assoc k l m l' : Forall2 (fun e e' => fst e = fst e' /\ same (snd e) (snd e')) l m -> Permutation m l' ->
  repeated k l = false -> orel1 (assoc k l) (assoc k l').
Proof.
  intros H P R. unfold repeated in R. rewrite !assoc_filter. pose proof (filter_entries k l m H) as F.
  pose proof (filter_perm (fun e => beq (fst e) k) m l' P) as Q.
  inversion F as [E1 E2|e e' x y (H1 & H2) T E1 E2].
  - rewrite <- E2 in Q. apply Permutation_nil in Q. rewrite Q. exact I.
  - rewrite <- E1 in R. destruct x as [|x0 x]; [|rewrite !len_cons in R; apply N.ltb_ge in R; lia].
    inversion T. subst y. rewrite <- E2 in Q. apply Permutation_length_1_inv in Q. rewrite Q. exact H2.
Qed.
Lemma fields_same names v v' : same v v' -> orel (fields names v) (fields names v').
Proof.
  intros H. inversion H as [| | | |l l' F|l m l' F P]; subst; try exact I.
  - cbn [fields]. rewrite (Forall2_len _ _ _ F). destruct (_ =? _); [exact F|exact I].
  - cbn [fields].
    assert (X : existsb (fun k => repeated k l) names = existsb (fun k => repeated k l') names).
    { clear H. induction names as [|k names IH]; cbn [existsb]; [reflexivity|]. now rewrite IH, (same_repeated k _ _ _ F P). }
    rewrite <- X. destruct (existsb (fun k => repeated k l) names) eqn:E; [exact I|]. clear X H.
    induction names as [|k names IH]; cbn [omap orel]; [constructor|]. cbn [existsb] in E.
    apply Bool.orb_false_iff in E. destruct E as (R & E). specialize (IH E).
    pose proof (same_assoc k l m l' F P R) as A.
    destruct (assoc k l), (assoc k l'); cbn [orel1 obind] in *; try tauto.
    destruct (omap _ names), (omap (fun k => assoc k l') names); cbn [orel obind] in *; try tauto. now constructor.
Qed.
Lemma same_omap {A} (f : sval -> option A) : (forall v v', same v v' -> f v = f v') ->
  forall l l', Forall2 same l l' -> omap f l = omap f l'.
Proof. intros H l l' F. induction F as [|v v' l l' S _ IH]; cbn [omap]; [reflexivity|]. now rewrite (H _ _ S), IH. Qed.
Lemma same_list {A} (f : sval -> option A) : (forall v v', same v v' -> f v = f v') ->
  forall v v', same v v' -> de_list f v = de_list f v'.
Proof. intros H v v' S. inversion S; subst; try reflexivity. cbn [de_list]. now apply same_omap. Qed.
Lemma same_num_eq max v v' : same v v' -> de_num max v = de_num max v'.
Proof. intros S. inversion S; reflexivity. Qed.
Lemma same_bool_eq v v' : same v v' -> de_bool v = de_bool v'.
Proof. intros S. inversion S; reflexivity. Qed.
Lemma same_str_eq v v' : same v v' -> de_str v = de_str v'.
Proof. intros S. inversion S; reflexivity. Qed.
Lemma same_algo_eq v v' : same v v' -> de_algo v = de_algo v'.
Proof. intros S. unfold de_algo. now rewrite (same_num_eq _ _ _ S). Qed.
Lemma same_bytes_eq v v' : same v v' -> de_bytes v = de_bytes v'.
Proof. apply same_list. intros w w' S. unfold de_byte. now rewrite (same_num_eq _ _ _ S). Qed.
Lemma same_magic_eq v v' : same v v' -> de_magic v = de_magic v'.
Proof. intros S. unfold de_magic. now rewrite (same_bytes_eq _ _ S). Qed.
Ltac same_struct n := intros v v' S; unfold n;
  match goal with |- context [fields ?x v] => pose proof (fields_same x v v' S) as F; destruct (fields x v), (fields x v'); cbn [orel] in F; try tauto end;
  repeat (match goal with
    | F : Forall2 same ?a ?b |- _ => is_var a; inversion F; clear F; subst end; try reflexivity).
Lemma same_digest_eq : forall v v', same v v' -> de_digest v = de_digest v'.
Proof.
  same_struct de_digest.
  repeat match goal with
  | S : same ?a ?b |- context [de_num ?m ?a] => rewrite (same_num_eq m a b S)
  | S : same ?a ?b |- context [de_algo ?a] => rewrite (same_algo_eq a b S)
  | S : same ?a ?b |- context [de_bytes ?a] => rewrite (same_bytes_eq a b S)
  | S : same ?a ?b |- context [de_bool ?a] => rewrite (same_bool_eq a b S)
  | S : same ?a ?b |- context [de_str ?a] => rewrite (same_str_eq a b S)
  | S : same ?a ?b |- context [de_magic ?a] => rewrite (same_magic_eq a b S)
  end; reflexivity.
Qed.
Lemma same_digests_eq : forall v v', same v v' -> de_digests v = de_digests v'.
Proof.
  same_struct de_digests.
  repeat match goal with
  | S : same ?a ?b |- context [de_num ?m ?a] => rewrite (same_num_eq m a b S)
  | S : same ?a ?b |- context [de_algo ?a] => rewrite (same_algo_eq a b S)
  | S : same ?a ?b |- context [de_bytes ?a] => rewrite (same_bytes_eq a b S)
  | S : same ?a ?b |- context [de_bool ?a] => rewrite (same_bool_eq a b S)
  | S : same ?a ?b |- context [de_str ?a] => rewrite (same_str_eq a b S)
  | S : same ?a ?b |- context [de_magic ?a] => rewrite (same_magic_eq a b S)
  | S : same ?a ?b |- context [de_list de_digest ?a] => rewrite (same_list de_digest same_digest_eq a b S)
  end; reflexivity.
Qed.
Lemma same_cert_eq : forall v v', same v v' -> de_cert v = de_cert v'.
Proof.
  same_struct de_cert.
  repeat match goal with
  | S : same ?a ?b |- context [de_num ?m ?a] => rewrite (same_num_eq m a b S)
  | S : same ?a ?b |- context [de_algo ?a] => rewrite (same_algo_eq a b S)
  | S : same ?a ?b |- context [de_bytes ?a] => rewrite (same_bytes_eq a b S)
  | S : same ?a ?b |- context [de_bool ?a] => rewrite (same_bool_eq a b S)
  | S : same ?a ?b |- context [de_str ?a] => rewrite (same_str_eq a b S)
  | S : same ?a ?b |- context [de_magic ?a] => rewrite (same_magic_eq a b S)
  end; reflexivity.
Qed.
Lemma same_certs_eq : forall v v', same v v' -> de_certs v = de_certs v'.
Proof.
  same_struct de_certs.
  repeat match goal with
  | S : same ?a ?b |- context [de_num ?m ?a] => rewrite (same_num_eq m a b S)
  | S : same ?a ?b |- context [de_algo ?a] => rewrite (same_algo_eq a b S)
  | S : same ?a ?b |- context [de_bytes ?a] => rewrite (same_bytes_eq a b S)
  | S : same ?a ?b |- context [de_bool ?a] => rewrite (same_bool_eq a b S)
  | S : same ?a ?b |- context [de_str ?a] => rewrite (same_str_eq a b S)
  | S : same ?a ?b |- context [de_magic ?a] => rewrite (same_magic_eq a b S)
  | S : same ?a ?b |- context [de_list de_cert ?a] => rewrite (same_list de_cert same_cert_eq a b S)
  end; reflexivity.
Qed.
Lemma same_sig_eq : forall v v', same v v' -> de_sig v = de_sig v'.
Proof.
  same_struct de_sig.
  repeat match goal with
  | S : same ?a ?b |- context [de_num ?m ?a] => rewrite (same_num_eq m a b S)
  | S : same ?a ?b |- context [de_algo ?a] => rewrite (same_algo_eq a b S)
  | S : same ?a ?b |- context [de_bytes ?a] => rewrite (same_bytes_eq a b S)
  | S : same ?a ?b |- context [de_bool ?a] => rewrite (same_bool_eq a b S)
  | S : same ?a ?b |- context [de_str ?a] => rewrite (same_str_eq a b S)
  | S : same ?a ?b |- context [de_magic ?a] => rewrite (same_magic_eq a b S)
  end; reflexivity.
Qed.
Lemma same_sigs_eq : forall v v', same v v' -> de_sigs v = de_sigs v'.
Proof.
  same_struct de_sigs.
  repeat match goal with
  | S : same ?a ?b |- context [de_num ?m ?a] => rewrite (same_num_eq m a b S)
  | S : same ?a ?b |- context [de_algo ?a] => rewrite (same_algo_eq a b S)
  | S : same ?a ?b |- context [de_bytes ?a] => rewrite (same_bytes_eq a b S)
  | S : same ?a ?b |- context [de_bool ?a] => rewrite (same_bool_eq a b S)
  | S : same ?a ?b |- context [de_str ?a] => rewrite (same_str_eq a b S)
  | S : same ?a ?b |- context [de_magic ?a] => rewrite (same_magic_eq a b S)
  | S : same ?a ?b |- context [de_list de_sig ?a] => rewrite (same_list de_sig same_sig_eq a b S)
  end; reflexivity.
Qed.
Lemma same_attr_eq : forall v v', same v v' -> de_attr v = de_attr v'.
Proof.
  same_struct de_attr.
  repeat match goal with
  | S : same ?a ?b |- context [de_num ?m ?a] => rewrite (same_num_eq m a b S)
  | S : same ?a ?b |- context [de_algo ?a] => rewrite (same_algo_eq a b S)
  | S : same ?a ?b |- context [de_bytes ?a] => rewrite (same_bytes_eq a b S)
  | S : same ?a ?b |- context [de_bool ?a] => rewrite (same_bool_eq a b S)
  | S : same ?a ?b |- context [de_str ?a] => rewrite (same_str_eq a b S)
  | S : same ?a ?b |- context [de_magic ?a] => rewrite (same_magic_eq a b S)
  end; reflexivity.
Qed.
Lemma same_attrs_eq : forall v v', same v v' -> de_attrs v = de_attrs v'.
Proof.
  same_struct de_attrs.
  repeat match goal with
  | S : same ?a ?b |- context [de_num ?m ?a] => rewrite (same_num_eq m a b S)
  | S : same ?a ?b |- context [de_algo ?a] => rewrite (same_algo_eq a b S)
  | S : same ?a ?b |- context [de_bytes ?a] => rewrite (same_bytes_eq a b S)
  | S : same ?a ?b |- context [de_bool ?a] => rewrite (same_bool_eq a b S)
  | S : same ?a ?b |- context [de_str ?a] => rewrite (same_str_eq a b S)
  | S : same ?a ?b |- context [de_magic ?a] => rewrite (same_magic_eq a b S)
  | S : same ?a ?b |- context [de_list de_attr ?a] => rewrite (same_list de_attr same_attr_eq a b S)
  end; reflexivity.
Qed.
Lemma same_pub_eq : forall v v', same v v' -> de_pub v = de_pub v'.
Proof.
  same_struct de_pub.
  repeat match goal with
  | S : same ?a ?b |- context [de_num ?m ?a] => rewrite (same_num_eq m a b S)
  | S : same ?a ?b |- context [de_algo ?a] => rewrite (same_algo_eq a b S)
  | S : same ?a ?b |- context [de_bytes ?a] => rewrite (same_bytes_eq a b S)
  | S : same ?a ?b |- context [de_bool ?a] => rewrite (same_bool_eq a b S)
  | S : same ?a ?b |- context [de_str ?a] => rewrite (same_str_eq a b S)
  | S : same ?a ?b |- context [de_magic ?a] => rewrite (same_magic_eq a b S)
  end; reflexivity.
Qed.
Lemma same_sd_eq : forall v v', same v v' -> de_sd v = de_sd v'.
Proof.
  same_struct de_sd.
  repeat match goal with
  | S : same ?a ?b |- context [de_num ?m ?a] => rewrite (same_num_eq m a b S)
  | S : same ?a ?b |- context [de_algo ?a] => rewrite (same_algo_eq a b S)
  | S : same ?a ?b |- context [de_bytes ?a] => rewrite (same_bytes_eq a b S)
  | S : same ?a ?b |- context [de_bool ?a] => rewrite (same_bool_eq a b S)
  | S : same ?a ?b |- context [de_str ?a] => rewrite (same_str_eq a b S)
  | S : same ?a ?b |- context [de_magic ?a] => rewrite (same_magic_eq a b S)
  | S : same ?a ?b |- context [de_digests ?a] => rewrite (same_digests_eq a b S)
  | S : same ?a ?b |- context [de_certs ?a] => rewrite (same_certs_eq a b S)
  | S : same ?a ?b |- context [de_attrs ?a] => rewrite (same_attrs_eq a b S)
  end; reflexivity.
Qed.
Lemma same_signer_eq : forall v v', same v v' -> de_signer v = de_signer v'.
Proof.
  same_struct de_signer.
  repeat match goal with
  | S : same ?a ?b |- context [de_num ?m ?a] => rewrite (same_num_eq m a b S)
  | S : same ?a ?b |- context [de_algo ?a] => rewrite (same_algo_eq a b S)
  | S : same ?a ?b |- context [de_bytes ?a] => rewrite (same_bytes_eq a b S)
  | S : same ?a ?b |- context [de_bool ?a] => rewrite (same_bool_eq a b S)
  | S : same ?a ?b |- context [de_str ?a] => rewrite (same_str_eq a b S)
  | S : same ?a ?b |- context [de_magic ?a] => rewrite (same_magic_eq a b S)
  | S : same ?a ?b |- context [de_sd ?a] => rewrite (same_sd_eq a b S)
  | S : same ?a ?b |- context [de_sigs ?a] => rewrite (same_sigs_eq a b S)
  | S : same ?a ?b |- context [de_pub ?a] => rewrite (same_pub_eq a b S)
  end; reflexivity.
Qed.
Lemma same_signers_eq : forall v v', same v v' -> de_signers v = de_signers v'.
Proof.
  same_struct de_signers.
  repeat match goal with
  | S : same ?a ?b |- context [de_num ?m ?a] => rewrite (same_num_eq m a b S)
  | S : same ?a ?b |- context [de_algo ?a] => rewrite (same_algo_eq a b S)
  | S : same ?a ?b |- context [de_bytes ?a] => rewrite (same_bytes_eq a b S)
  | S : same ?a ?b |- context [de_bool ?a] => rewrite (same_bool_eq a b S)
  | S : same ?a ?b |- context [de_str ?a] => rewrite (same_str_eq a b S)
  | S : same ?a ?b |- context [de_magic ?a] => rewrite (same_magic_eq a b S)
  | S : same ?a ?b |- context [de_list de_signer ?a] => rewrite (same_list de_signer same_signer_eq a b S)
  end; reflexivity.
Qed.
Lemma same_v2_eq : forall v v', same v v' -> de_v2 v = de_v2 v'.
Proof.
  same_struct de_v2.
  repeat match goal with
  | S : same ?a ?b |- context [de_num ?m ?a] => rewrite (same_num_eq m a b S)
  | S : same ?a ?b |- context [de_algo ?a] => rewrite (same_algo_eq a b S)
  | S : same ?a ?b |- context [de_bytes ?a] => rewrite (same_bytes_eq a b S)
  | S : same ?a ?b |- context [de_bool ?a] => rewrite (same_bool_eq a b S)
  | S : same ?a ?b |- context [de_str ?a] => rewrite (same_str_eq a b S)
  | S : same ?a ?b |- context [de_magic ?a] => rewrite (same_magic_eq a b S)
  | S : same ?a ?b |- context [de_signers ?a] => rewrite (same_signers_eq a b S)
  end; reflexivity.
Qed.
Lemma same_std_eq : forall v v', same v v' -> de_std v = de_std v'.
Proof.
  same_struct de_std.
  repeat match goal with
  | S : same ?a ?b |- context [de_num ?m ?a] => rewrite (same_num_eq m a b S)
  | S : same ?a ?b |- context [de_algo ?a] => rewrite (same_algo_eq a b S)
  | S : same ?a ?b |- context [de_bytes ?a] => rewrite (same_bytes_eq a b S)
  | S : same ?a ?b |- context [de_bool ?a] => rewrite (same_bool_eq a b S)
  | S : same ?a ?b |- context [de_str ?a] => rewrite (same_str_eq a b S)
  | S : same ?a ?b |- context [de_magic ?a] => rewrite (same_magic_eq a b S)
  | S : same ?a ?b |- context [de_digests ?a] => rewrite (same_digests_eq a b S)
  | S : same ?a ?b |- context [de_certs ?a] => rewrite (same_certs_eq a b S)
  | S : same ?a ?b |- context [de_attrs ?a] => rewrite (same_attrs_eq a b S)
  end; reflexivity.
Qed.
Lemma same_sb_eq : forall v v', same v v' -> de_sb v = de_sb v'.
Proof.
  same_struct de_sb.
  repeat match goal with
  | S : same ?a ?b |- context [de_num ?m ?a] => rewrite (same_num_eq m a b S)
  | S : same ?a ?b |- context [de_algo ?a] => rewrite (same_algo_eq a b S)
  | S : same ?a ?b |- context [de_bytes ?a] => rewrite (same_bytes_eq a b S)
  | S : same ?a ?b |- context [de_bool ?a] => rewrite (same_bool_eq a b S)
  | S : same ?a ?b |- context [de_str ?a] => rewrite (same_str_eq a b S)
  | S : same ?a ?b |- context [de_magic ?a] => rewrite (same_magic_eq a b S)
  | S : same ?a ?b |- context [de_std ?a] => rewrite (same_std_eq a b S)
  | S : same ?a ?b |- context [de_sigs ?a] => rewrite (same_sigs_eq a b S)
  | S : same ?a ?b |- context [de_pub ?a] => rewrite (same_pub_eq a b S)
  end; reflexivity.
Qed.
Lemma same_stamp_eq : forall v v', same v v' -> de_stamp v = de_stamp v'.
Proof.
  same_struct de_stamp.
  repeat match goal with
  | S : same ?a ?b |- context [de_num ?m ?a] => rewrite (same_num_eq m a b S)
  | S : same ?a ?b |- context [de_algo ?a] => rewrite (same_algo_eq a b S)
  | S : same ?a ?b |- context [de_bytes ?a] => rewrite (same_bytes_eq a b S)
  | S : same ?a ?b |- context [de_bool ?a] => rewrite (same_bool_eq a b S)
  | S : same ?a ?b |- context [de_str ?a] => rewrite (same_str_eq a b S)
  | S : same ?a ?b |- context [de_magic ?a] => rewrite (same_magic_eq a b S)
  | S : same ?a ?b |- context [de_sb ?a] => rewrite (same_sb_eq a b S)
  end; reflexivity.
Qed.
Lemma same_entry_eq : forall v v', same v v' -> de_entry v = de_entry v'.
Proof.
  same_struct de_entry.
  repeat match goal with
  | S : same ?a ?b |- context [de_num ?m ?a] => rewrite (same_num_eq m a b S)
  | S : same ?a ?b |- context [de_algo ?a] => rewrite (same_algo_eq a b S)
  | S : same ?a ?b |- context [de_bytes ?a] => rewrite (same_bytes_eq a b S)
  | S : same ?a ?b |- context [de_bool ?a] => rewrite (same_bool_eq a b S)
  | S : same ?a ?b |- context [de_str ?a] => rewrite (same_str_eq a b S)
  | S : same ?a ?b |- context [de_magic ?a] => rewrite (same_magic_eq a b S)
  end; reflexivity.
Qed.
Lemma same_info_eq : forall v v', same v v' -> de_info v = de_info v'.
Proof.
  same_struct de_info.
  repeat match goal with
  | S : same ?a ?b |- context [de_num ?m ?a] => rewrite (same_num_eq m a b S)
  | S : same ?a ?b |- context [de_algo ?a] => rewrite (same_algo_eq a b S)
  | S : same ?a ?b |- context [de_bytes ?a] => rewrite (same_bytes_eq a b S)
  | S : same ?a ?b |- context [de_bool ?a] => rewrite (same_bool_eq a b S)
  | S : same ?a ?b |- context [de_str ?a] => rewrite (same_str_eq a b S)
  | S : same ?a ?b |- context [de_magic ?a] => rewrite (same_magic_eq a b S)
  | S : same ?a ?b |- context [de_list de_entry ?a] => rewrite (same_list de_entry same_entry_eq a b S)
  end; reflexivity.
Qed.
Lemma same_raw_eq : forall v v', same v v' -> de_raw v = de_raw v'.
Proof.
  same_struct de_raw.
  repeat match goal with
  | S : same ?a ?b |- context [de_num ?m ?a] => rewrite (same_num_eq m a b S)
  | S : same ?a ?b |- context [de_algo ?a] => rewrite (same_algo_eq a b S)
  | S : same ?a ?b |- context [de_bytes ?a] => rewrite (same_bytes_eq a b S)
  | S : same ?a ?b |- context [de_bool ?a] => rewrite (same_bool_eq a b S)
  | S : same ?a ?b |- context [de_str ?a] => rewrite (same_str_eq a b S)
  | S : same ?a ?b |- context [de_magic ?a] => rewrite (same_magic_eq a b S)
  end; reflexivity.
Qed.
Lemma same_value_eq : forall v v', same v v' -> de_value v = de_value v'.
Proof.
  intros v v' S. inversion S as [| | | |l l' F|l m l' F P]; subst; try reflexivity.
  unfold de_value. inversion F as [E1 E2|e e' x y (H1 & H2) T E1 E2]; subst.
  - apply Permutation_nil in P. subst. reflexivity.
  - inversion T as [E1 E2|e1 e1' x1 y1 T1 T2 E1 E2]; subst.
    + apply Permutation_length_1_inv in P. subst l'. destruct e as (k & v), e' as (k' & v'). cbn [fst snd] in *. subst k'.
      rewrite (same_raw_eq _ _ H2), (same_v2_eq _ _ H2), (same_stamp_eq _ _ H2), (same_info_eq _ _ H2). reflexivity.
    + apply Permutation_length in P. destruct l' as [|? [|? ?]]; try discriminate P. destruct e as (k & v).
      destruct p as (? & ?). reflexivity.
Qed.
Lemma same_block_eq : forall v v', same v v' -> de_block v = de_block v'.
Proof.
  same_struct de_block.
  repeat match goal with
  | S : same ?a ?b |- context [de_num ?m ?a] => rewrite (same_num_eq m a b S)
  | S : same ?a ?b |- context [de_algo ?a] => rewrite (same_algo_eq a b S)
  | S : same ?a ?b |- context [de_bytes ?a] => rewrite (same_bytes_eq a b S)
  | S : same ?a ?b |- context [de_bool ?a] => rewrite (same_bool_eq a b S)
  | S : same ?a ?b |- context [de_str ?a] => rewrite (same_str_eq a b S)
  | S : same ?a ?b |- context [de_magic ?a] => rewrite (same_magic_eq a b S)
  | S : same ?a ?b |- context [de_list de_value ?a] => rewrite (same_list de_value same_value_eq a b S)
  end; reflexivity.
Qed.

(** * What the readers and the constructors give *)
Lemma canonical_typed a : canonical a -> typed_algo a.
Proof. destruct a; cbn [canonical typed_algo]; tauto. Qed.
Lemma W_list_all {A} (R : A -> bytes -> Prop) (P : A -> Prop) : (forall x r, R x r -> P x) ->
  forall l rs, W_list R l rs -> Forall P l.
Proof. intros H l rs F. induction F; constructor; eauto. Qed.
Lemma lt_u32_u64 n : n < U32 -> n < U64. Proof. unfold U32, U64. lia. Qed.
Lemma lt_u16_u64 n : n < U16 -> n < U64. Proof. unfold U16, U64. lia. Qed.
Lemma W_digest_typed x r : W_digest x r -> typed_digest x /\ Forall canonical (algos_digest x).
Proof.
  intros (_ & H1 & H2 & _). unfold typed_digest, algos_digest. auto 8 using lt_u32_u64, canonical_typed.
Qed.
Lemma W_sig_typed x r : W_sig x r -> typed_sig x /\ Forall canonical (algos_sig x).
Proof.
  intros (_ & H1 & H2 & _). unfold typed_sig, algos_sig. auto 8 using lt_u32_u64, canonical_typed.
Qed.
Lemma W_cert_typed x r : W_cert x r -> typed_cert x.
Proof. intros (_ & _ & H). apply lt_u32_u64, H. Qed.
Lemma W_attr_typed x r : W_attr x r -> typed_attr x.
Proof. intros (_ & _ & H1 & H2). split; auto using lt_u32_u64. Qed.
Lemma W_pub_typed x r : W_pub x r -> typed_pub x.
Proof. intros (_ & _ & H). apply lt_u32_u64, H. Qed.
Lemma W_digests_typed x r : W_digests x r -> typed_digests x /\ Forall canonical (algos_digests x).
Proof.
  intros (rs & F & _ & _ & H). apply (W_list_all _ _ W_digest_typed) in F. apply Forall_and_inv in F. destruct F as (F1 & F2).
  unfold typed_digests, algos_digests. rewrite Forall_flat. auto using lt_u32_u64.
Qed.
Lemma W_sigs_typed x r : W_sigs x r -> typed_sigs x /\ Forall canonical (algos_sigs x).
Proof.
  intros (rs & F & _ & _ & H). apply (W_list_all _ _ W_sig_typed) in F. apply Forall_and_inv in F. destruct F as (F1 & F2).
  unfold typed_sigs, algos_sigs. rewrite Forall_flat. auto using lt_u32_u64.
Qed.
Lemma W_certs_typed x r : W_certs x r -> typed_certs x.
Proof. intros (rs & F & _ & _ & H). apply (W_list_all _ _ W_cert_typed) in F. split; auto using lt_u32_u64. Qed.
Lemma W_attrs_typed x r : W_attrs x r -> typed_attrs x.
Proof. intros (rs & F & _ & _ & H). apply (W_list_all _ _ W_attr_typed) in F. split; auto using lt_u32_u64. Qed.
Lemma W_sd_typed x r : W_sd x r -> typed_sd x /\ Forall canonical (algos_sd x).
Proof.
  intros (d & c & a & j & H1 & H2 & H3 & _ & _ & H). apply W_digests_typed in H1. apply W_certs_typed in H2. apply W_attrs_typed in H3.
  unfold typed_sd, algos_sd. intuition auto using lt_u32_u64.
Qed.
Lemma W_signer_typed x r : W_signer x r -> typed_signer x /\ Forall canonical (algos_signer x).
Proof.
  intros (d & g & k & H1 & H2 & H3 & _ & H). apply W_sd_typed in H1. apply W_sigs_typed in H2. apply W_pub_typed in H3.
  unfold typed_signer, algos_signer. rewrite Forall_app. intuition auto using lt_u32_u64.
Qed.
Lemma W_signers_typed x r : W_signers x r -> typed_signers x /\ Forall canonical (algos_signers x).
Proof.
  intros (rs & F & _ & _ & H). apply (W_list_all _ _ W_signer_typed) in F. apply Forall_and_inv in F. destruct F as (F1 & F2).
  unfold typed_signers, algos_signers. rewrite Forall_flat. auto using lt_u32_u64.
Qed.
Lemma W_std_typed x r : W_std x r -> typed_std x /\ Forall canonical (algos_std x).
Proof.
  intros (d & c & a & j & H1 & H2 & H3 & _ & H). apply W_digests_typed in H1. apply W_certs_typed in H2. apply W_attrs_typed in H3.
  unfold typed_std, algos_std. intuition auto.
Qed.
Lemma W_sb_typed x r : W_sb x r -> typed_sb x /\ Forall canonical (algos_sb x).
Proof.
  intros (d & g & k & j & H1 & H2 & H3 & _ & _ & H). apply W_std_typed in H1. apply W_sigs_typed in H2. apply W_pub_typed in H3.
  unfold typed_sb, algos_sb. rewrite Forall_app. intuition auto using lt_u32_u64.
Qed.
Lemma W_entry_typed x r : W_entry x r -> typed_entry x.
Proof. intros (_ & _ & _ & H1 & H2 & H3). unfold typed_entry. auto. Qed.
Lemma W_value_typed x r : W_value x r -> typed_value x /\ Forall canonical (algos_value x).
Proof.
  intros (body & _ & H1 & H2 & H). assert (S : value_inner_size x < U64) by (rewrite H1; unfold MAX_PAIR_SIZE, MAX_SIGNING_BLOCK_SIZE, U64 in *; lia).
  destruct x as [w|v|s|i]; cbn [typed_value algos_value value_inner_size] in *.
  - destruct H as (_ & H & _). split; [split; auto|constructor].
  - destruct H as (E & y & j & W & _). apply W_signers_typed in W. unfold typed_v2, algos_v2. rewrite E. intuition auto. reflexivity.
  - destruct H as (E & y & j & W & _). apply W_sb_typed in W. unfold typed_stamp, algos_stamp. rewrite E. intuition auto. reflexivity.
  - destruct H as (E & y & j & (rs & W & _ & _ & C) & _). apply (W_list_all _ _ W_entry_typed) in W.
    split; [|constructor]. unfold typed_info. rewrite E. repeat split; auto.
Qed.
Lemma W_block_typed l r : W_block l r -> Forall typed_value l /\ Forall canonical (flat_map algos_value l).
Proof.
  intros (ps & (rs & F & _) & _). apply (W_list_all _ _ W_value_typed) in F. apply Forall_and_inv in F.
  now rewrite Forall_flat.
Qed.

(** * C74 *)
Lemma serde_roundtrip b : typed_block b -> (de_block (ser_block b) = Some b <-> Forall canonical (algos_block b)).
Proof.
  intros T. rewrite <- norm_block_id by auto. rewrite de_ser_block by auto. split; [now intros [= E]|congruence].
Qed.
Lemma serde_bytes b : typed_block b -> exists b', de_block (ser_block b) = Some b' /\ block_to_u8 b' = block_to_u8 b /\
  typed_block b' /\ Forall canonical (algos_block b').
Proof.
  intros T. exists (norm_block b). pose proof (de_ser_block b T) as E. split; [exact E|]. split; [apply norm_block_u8|].
  exact (de_block_inv _ _ E).
Qed.
Lemma denotes_serde b s raw : denotes b s raw -> s + len raw < U64 -> de_block (ser_block b) = Some b.
Proof.
  intros (W & L & E1 & E2 & E3 & E4 & E5 & E6) B. apply W_block_typed in W. destruct W as (W1 & W2).
  apply serde_roundtrip; [|exact W2]. unfold typed_block. rewrite E1, E2, E4, E6. unfold U64 in *. repeat split; auto; try lia.
Qed.
Lemma serde_slice p data b : len data < U64 -> from_u8 p data = Ok b -> de_block (ser_block b) = Some b.
Proof.
  intros L H. apply c69_slice in H; auto. destruct H as (pre & raw & post & (E & _) & D).
  apply (denotes_serde b 0 raw D). subst data. rewrite !len_app in L. lia.
Qed.
Lemma serde_reader p f eo b : len f < U64 -> from_reader p f (len f) eo = Ok b -> de_block (ser_block b) = Some b.
Proof.
  intros L H. apply c69_reader in H; auto. destruct H as (pre & raw & post & (E & _) & _ & D).
  apply (denotes_serde b (len pre) raw D). subst f. rewrite !len_app in L. lia.
Qed.
Lemma serde_built l b : Forall built_value l -> block_new l = Ok b -> de_block (ser_block b) = Some b.
Proof.
  intros F H. unfold block_new in H. destruct (N.ltb_spec MAX_SIGNING_BLOCK_SIZE (content_size l + SIZE_UINT64 + MAGIC_LEN)) as [|Hs]; [discriminate|].
  injection H as <-. unfold MAX_SIGNING_BLOCK_SIZE, SIZE_UINT64, MAGIC_LEN in Hs.
  pose proof (fresh_block_W l F ltac:(unfold MAX_PAIR_SIZE, MAX_SIGNING_BLOCK_SIZE; lia)) as W.
  apply W_block_typed in W. destruct W as (W1 & W2).
  apply serde_roundtrip; [|exact W2]. unfold typed_block, fresh_block. cbn [bk_start bk_end bk_size_start bk_content_size bk_content bk_size_end bk_magic].
  unfold U64, SIZE_UINT64, MAGIC_LEN. repeat split; auto; lia.
Qed.
Lemma serde_injective b b' : typed_block b -> typed_block b' -> ser_block b = ser_block b' ->
  block_to_u8 b = block_to_u8 b' /\ (Forall canonical (algos_block b) -> Forall canonical (algos_block b') -> b = b').
Proof.
  intros T T' E. split.
  - rewrite <- (norm_block_u8 b), <- (norm_block_u8 b'). pose proof (de_ser_block b T) as D. rewrite E, (de_ser_block b' T') in D. congruence.
  - intros C C'. apply serde_roundtrip in C; auto. apply serde_roundtrip in C'; auto. congruence.
Qed.
Lemma serde_accepted v b : de_block v = Some b -> typed_block b /\ Forall canonical (algos_block b) /\ de_block (ser_block b) = Some b.
Proof.
  intros H. apply de_block_inv in H. destruct H as (T & C). split; [auto|]. split; [auto|]. now apply serde_roundtrip.
Qed.
Lemma serde_bytes2 b : typed_block b ->
  exists b', de_block (ser_block b) = Some b' /\ block_to_u8 b' = block_to_u8 b /\ de_block (ser_block b') = Some b'.
Proof.
  intros T. destruct (serde_bytes b T) as (b' & H1 & H2 & H3 & H4). exists b'. split; [auto|]. split; [auto|].
  now apply serde_roundtrip.
Qed.
