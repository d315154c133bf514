(** ClockFacts.v - verification while the clock runs. *)
From Verif Require Import Base BaseFacts Utils Algorithms Common SchemeV2 SourceStamp ElfInfo SigningBlock Zip Digest Module Signable Signer Verifier ModuleVerify
  VerifySpec VerifyFacts Keystore Elf Cli Clock ClockSpec.
From Coq Require Import Lia.
Open Scope N_scope.
Open Scope list_scope.

(** ** The signers with their labels, one after the other *)
Definition labelled (content : list value) : list (N * signer) :=
  flat_map (fun v => match v with V2Block x => number 0 (sns_data (v2_signers x)) | _ => [] end) content.
Fixpoint check_all C K (clk : nat -> option N) roots ctx (n : nat) (l : list (N * signer)) : list signer_result :=
  match l with [] => [] | (i, s) :: l => verify_v2_signer C K (clk n) roots ctx i s :: check_all C K clk roots ctx (S n) l end.
Lemma check_app C K clk roots ctx l l' n :
  check_all C K clk roots ctx n (l ++ l') = check_all C K clk roots ctx n l ++ check_all C K clk roots ctx (n + length l) l'.
Proof.
  revert n. induction l as [|[i s] l IH]; intros n; cbn [check_all app length].
  - now rewrite Nat.add_0_r.
  - rewrite IH. now replace (n + S (length l))%nat with (S n + length l)%nat by lia.
Qed.
Lemma number_len {A} (l : list A) : forall k, length (number k l) = length l.
Proof. induction l as [|x l IH]; intros k; cbn [number length]; [reflexivity|now rewrite IH]. Qed.
Lemma number_snd {A} (l : list A) : forall k, map snd (number k l) = l.
Proof. induction l as [|x l IH]; intros k; cbn [number map snd]; [reflexivity|now rewrite IH]. Qed.
Lemma signers_check C K clk roots ctx l : forall n i,
  verify_v2_signers_t C K clk roots ctx n i l = check_all C K clk roots ctx n (number i l).
Proof. induction l as [|s l IH]; intros n i; cbn [verify_v2_signers_t number check_all]; [reflexivity|now rewrite IH]. Qed.
Lemma results_check C K clk roots ctx content : forall n,
  v2_results_t C K clk roots ctx n content = check_all C K clk roots ctx n (labelled content).
Proof.
  induction content as [|v l IH]; intros n; [reflexivity|].
  destruct v; cbn [v2_results_t labelled flat_map app]; [apply IH| |apply IH|apply IH].
  rewrite check_app, signers_check, number_len, IH. reflexivity.
Qed.
Lemma labelled_signers b : map snd (labelled (bk_content b)) = v2_signers_of b.
Proof.
  unfold labelled, v2_signers_of. induction (bk_content b) as [|v l IH]; [reflexivity|]. cbn [flat_map]. rewrite map_app, IH. f_equal.
  destruct v; [reflexivity| |reflexivity..]. apply number_snd.
Qed.

(** ** A clock that stands still *)
Lemma signers_frozen C K now roots ctx l : forall n i,
  verify_v2_signers_t C K (fun _ => now) roots ctx n i l = verify_v2_signers C K now roots ctx i l.
Proof. induction l as [|s l IH]; intros n i; [reflexivity|]. cbn [verify_v2_signers_t verify_v2_signers]. now rewrite IH. Qed.
Lemma results_frozen C K now roots ctx content : forall n,
  v2_results_t C K (fun _ => now) roots ctx n content = v2_results C K now roots ctx content.
Proof.
  induction content as [|v l IH]; intros n; [reflexivity|]. unfold v2_results in *.
  destruct v; cbn [v2_results_t flat_map app]; [apply IH| |apply IH|apply IH]. now rewrite signers_frozen, IH.
Qed.
Lemma v2_frozen C K now roots b ctx : verify_v2_t C K (fun _ => now) roots b ctx = verify_v2_with_digest C K now roots b ctx.
Proof. unfold verify_v2_t, verify_v2_with_digest. now rewrite results_frozen. Qed.
Lemma cli_frozen p C K builtin now ds s file root :
  cli_verify_t p C K builtin (fun _ => now) now ds s file root = cli_verify p C K builtin now ds s file root.
Proof.
  unfold cli_verify_t, cli_verify. destruct (fs_read s file) as [f|]; [|reflexivity]. cbn [of_option bind]. cbv zeta.
  destruct (m_get_signing_block p (module_new f) f) as [b|?|]; [|reflexivity..]. cbn [map_err bind].
  destruct (cli_roots K builtin s root) as [rs|?|]; [|reflexivity..]. cbn [bind].
  destruct (cli_add_digest p C ds (module_new f) f ECDSA_SHA2_256 ctx_new) as [c|?|]; [|reflexivity..]. cbn [bind].
  destruct (cli_add_digest p C ds (module_new f) f ECDSA_SHA2_512 c) as [c'|?|]; [|reflexivity..]. cbn [bind].
  now rewrite v2_frozen.
Qed.

(** ** What does not depend on clock and roots *)
Lemma signer_same C K t t' roots roots' ctx i s :
  same_checks (verify_v2_signer C K t roots ctx i s) (verify_v2_signer C K t' roots' ctx i s).
Proof.
  unfold verify_v2_signer, same_checks. cbv zeta. destruct (get_from_4 _); [|auto 10]. destruct (v2_sig_loop _ _ _ _ _ _ _ _ _) as [[[sv er] dv] w].
  destruct (cts_data _) as [|c l]; [auto 10|]. destruct (negb _); [auto 10|].
  destruct (verify_chain K t roots _ _) as [[? ?] ?], (verify_chain K t' roots' _ _) as [[? ?] ?]. auto 10.
Qed.
Lemma check_same C K clk clk' roots roots' ctx l : forall n,
  Forall2 same_checks (check_all C K clk roots ctx n l) (check_all C K clk' roots' ctx n l).
Proof. induction l as [|[i s] l IH]; intros n; cbn [check_all]; constructor; [apply signer_same|apply IH]. Qed.
Lemma same_flags l l' : Forall2 same_checks l l' ->
  forallb sr_signature_valid l = forallb sr_signature_valid l' /\ forallb sr_digest_valid l = forallb sr_digest_valid l'.
Proof.
  induction 1 as [|x y l l' H F [A B]]; [auto|]. cbn [forallb]. rewrite A, B. destruct H as (_ & -> & -> & _). auto.
Qed.
Lemma same_verdict l l' : Forall2 same_checks l l' -> same_but_trust (verdict l) (verdict l').
Proof.
  intros F. assert (E : flat_map (fun s => opt_list (sr_error s)) l' = flat_map (fun s => opt_list (sr_error s)) l).
  { induction F as [|x y l l' H F IH]; [reflexivity|]. cbn [flat_map]. rewrite IH. now destruct H as (_ & _ & _ & _ & _ & ->). }
  unfold verdict. destruct F as [|x y l l' H F]; [reflexivity|]. rewrite E.
  destruct (flat_map _ (x :: l)); [|reflexivity]. cbn [same_but_trust from_signers vr_signature_valid vr_digest_valid vr_cert vr_chain vr_signers].
  destruct (same_flags (x :: l) (y :: l') (Forall2_cons x y H F)) as [-> ->].
  destruct H as (H1 & H2 & H3 & H4 & H5 & H6). repeat split; auto. constructor; [|assumption]. unfold same_checks. auto 10.
Qed.
Lemma v2_same C K clk clk' roots roots' b ctx : same_but_trust (verify_v2_t C K clk roots b ctx) (verify_v2_t C K clk' roots' b ctx).
Proof. unfold verify_v2_t. rewrite !results_check. apply same_verdict, check_same. Qed.
Lemma stamp_same C K t t' roots roots' ctx raw s : same_checks (verify_stamp C K t roots ctx raw s) (verify_stamp C K t' roots' ctx raw s).
Proof.
  unfold verify_stamp, same_checks. cbv zeta. destruct (stamp_sig_loop _ _ _ _ _ _ _ _ _) as [[[sv er] dv] dd].
  destruct (if is_none ctx then _ else _) as [dv' w].
  destruct (cts_data _) as [|c l]; [auto 10|]. destruct (negb _); [auto 10|].
  destruct (verify_chain K t roots _ _) as [[? ?] ?], (verify_chain K t' roots' _ _) as [[? ?] ?]. auto 10.
Qed.
Lemma stamps_same C K t t' roots roots' ctx l : Forall2 same_checks (stamp_results C K t roots ctx l) (stamp_results C K t' roots' ctx l).
Proof.
  induction l as [|v l IH]; [constructor|]. destruct v; cbn [stamp_results]; try exact IH.
  destruct (get_from_4 _); [|constructor; [unfold same_checks; auto 10|exact IH]]. constructor; [apply stamp_same|constructor].
Qed.
Lemma stamp_same' C K t t' roots roots' b ctx :
  same_but_trust (verify_source_stamp_with_digest C K t roots b ctx) (verify_source_stamp_with_digest C K t' roots' b ctx).
Proof. apply same_verdict, stamps_same. Qed.

(** ** Trust *)
Lemma signer_trust C K t l ctx i s : sr_error (verify_v2_signer C K t (configured K l) ctx i s) = None ->
  (sr_trusted (verify_v2_signer C K t (configured K l) ctx i s) = true <-> exists leaf others, certs_of s leaf others /\ trusted K t l leaf others).
Proof.
  unfold verify_v2_signer, certs_of. cbv zeta. destruct (get_from_4 _); [|discriminate]. destruct (v2_sig_loop _ _ _ _ _ _ _ _ _) as [[[sv er] dv] w].
  destruct (cts_data _) as [|c r]; [intros _; cbn [sr_trusted map]; split; [discriminate|intros (? & ? & [=] & _)]|].
  destruct (negb _); [discriminate|]. destruct (verify_chain K t (configured K l) (ct_data c) (map ct_data r)) as [[cv tr] e] eqn:V. intros _.
  cbn [sr_trusted map]. destruct (chain_trusted _ _ _ _ _ _ _ _ V) as [T _]. rewrite T. split.
  - intros X. exists (ct_data c), (map ct_data r). auto.
  - intros (leaf & others & [= <- <-] & X). exact X.
Qed.
Lemma check_trust C K clk l ctx ss : forall n,
  Forall (fun r => sr_error r = None) (check_all C K clk (configured K l) ctx n ss) ->
  (forallb sr_trusted (check_all C K clk (configured K l) ctx n ss) = true <->
   forall i s, nth_error (map snd ss) i = Some s -> exists leaf others, certs_of s leaf others /\ trusted K (clk (n + i)%nat) l leaf others).
Proof.
  induction ss as [|[i s] ss IH]; intros n E; cbn [check_all forallb map snd] in *.
  - split; [|reflexivity]. intros _ [|k] ? [=].
  - inversion E as [|? ? E1 E2]; subst. rewrite Bool.andb_true_iff, (signer_trust _ _ _ _ _ _ _ E1), (IH (S n) E2). split.
    + intros [A B] [|k] x; cbn [nth_error].
      * intros [= <-]. now rewrite Nat.add_0_r.
      * intros X. replace (n + S k)%nat with (S n + k)%nat by lia. now apply B.
    + intros H. split.
      * specialize (H 0%nat s eq_refl). now rewrite Nat.add_0_r in H.
      * intros k x X. replace (S n + k)%nat with (n + S k)%nat by lia. now apply H.
Qed.
Lemma no_errors l : flat_map (fun s => opt_list (sr_error s)) l = [] -> Forall (fun r => sr_error r = None) l.
Proof.
  induction l as [|x l IH]; constructor; cbn [flat_map] in H.
  - destruct (sr_error x); [discriminate|reflexivity].
  - apply IH. now destruct (sr_error x).
Qed.
Lemma verdict_ok l r : verdict l = VOk r -> l <> [] /\ r = from_signers l /\ Forall (fun r => sr_error r = None) l.
Proof.
  unfold verdict. destruct l as [|x l]; [discriminate|]. destruct (flat_map _ (x :: l)) eqn:E; [|discriminate]. intros [= <-].
  split; [discriminate|]. split; [reflexivity|]. now apply no_errors.
Qed.
Lemma from_flags l : l <> [] -> vr_signature_valid (from_signers l) = forallb sr_signature_valid l /\ vr_digest_valid (from_signers l) = forallb sr_digest_valid l /\
  vr_chain_valid (from_signers l) = forallb sr_chain_valid l /\ vr_trusted (from_signers l) = forallb sr_trusted l.
Proof. destruct l; [easy|]. intros _. repeat split. Qed.
Lemma v2_trust C K clk l b ctx r : verify_v2_t C K clk (configured K l) b ctx = VOk r ->
  (vr_trusted r = true <-> forall i s, nth_error (v2_signers_of b) i = Some s ->
     exists leaf others, certs_of s leaf others /\ trusted K (clk i) l leaf others).
Proof.
  unfold verify_v2_t. rewrite results_check. intros (N & -> & E)%verdict_ok.
  rewrite (proj2 (proj2 (proj2 (from_flags _ N)))), (check_trust _ _ _ _ _ _ 0 E), labelled_signers. reflexivity.
Qed.

(** ** Leaves that are roots themselves *)
Lemma signer_direct C K t t' l ctx i s : (exists leaf others, certs_of s leaf others /\ In leaf l) ->
  verify_v2_signer C K t (configured K l) ctx i s = verify_v2_signer C K t' (configured K l) ctx i s.
Proof.
  intros (leaf & others & E & I). unfold verify_v2_signer. cbv zeta. destruct (get_from_4 _); [|reflexivity].
  destruct (v2_sig_loop _ _ _ _ _ _ _ _ _) as [[[sv er] dv] w]. unfold certs_of in E. destruct (cts_data _) as [|c r]; [discriminate|].
  destruct (negb _); [reflexivity|]. cbn [map] in E. injection E as E <-. unfold verify_chain. rewrite E, configured_eq.
  destruct (roots_is_empty _); [reflexivity|]. replace (is_direct_root _ _) with true; [reflexivity|]. symmetry. now apply direct_root_iff.
Qed.
Lemma v2_direct C K clk clk' l b ctx : (forall s, In s (v2_signers_of b) -> exists leaf others, certs_of s leaf others /\ In leaf l) ->
  verify_v2_t C K clk (configured K l) b ctx = verify_v2_t C K clk' (configured K l) b ctx.
Proof.
  unfold verify_v2_t. rewrite !results_check, <- labelled_signers. intros H. f_equal. generalize 0%nat as n.
  induction (labelled (bk_content b)) as [|[i s] ss IH]; intros n; [reflexivity|]. cbn [check_all map snd] in *. f_equal.
  - apply signer_direct, H. now left.
  - apply IH. intros x X. apply H. now right.
Qed.

(** ** Between two moments *)
Definition chain_ok (x : bool * bool * option warning) : bool := let '(cv, t, _) := x in cv && t.
Lemma chain_between K t1 t2 t roots ee inter : no_gaps K -> reads_between t1 t2 t ->
  chain_ok (verify_chain K (Some t1) roots ee inter) = true -> chain_ok (verify_chain K (Some t2) roots ee inter) = true ->
  chain_ok (verify_chain K t roots ee inter) = true.
Proof.
  intros G B. unfold verify_chain, chain_ok. destruct (roots_is_empty _); [auto|]. destruct (is_direct_root _ _); [auto|]. destruct (negb _); [auto|].
  cbv zeta. fold (time_of t). unfold reads_between in B.
  destruct (Verifier.path K _ _ _ t1) eqn:P1; try discriminate; [|rewrite Bool.andb_false_r; discriminate]. intros _.
  destruct (Verifier.path K _ _ _ t2) eqn:P2; try discriminate; [|rewrite Bool.andb_false_r; discriminate]. intros _.
  now rewrite (G _ _ _ _ _ _ B P1 P2).
Qed.
Definition signer_ok (r : signer_result) : bool := sr_chain_valid r && sr_trusted r.
Lemma signer_between C K t1 t2 t roots ctx i s : no_gaps K -> reads_between t1 t2 t ->
  signer_ok (verify_v2_signer C K (Some t1) roots ctx i s) = true -> signer_ok (verify_v2_signer C K (Some t2) roots ctx i s) = true ->
  signer_ok (verify_v2_signer C K t roots ctx i s) = true.
Proof.
  intros G B. unfold verify_v2_signer. cbv zeta. destruct (get_from_4 _); [|auto]. destruct (v2_sig_loop _ _ _ _ _ _ _ _ _) as [[[sv er] dv] w].
  destruct (cts_data _) as [|c r]; [auto|]. destruct (negb _); [auto|].
  pose proof (chain_between K t1 t2 t roots (ct_data c) (map ct_data r) G B) as H.
  destruct (verify_chain K (Some t1) roots _ _) as [[? ?] ?], (verify_chain K (Some t2) roots _ _) as [[? ?] ?], (verify_chain K t roots _ _) as [[? ?] ?]. exact H.
Qed.
Lemma stamp_between C K t1 t2 t roots ctx raw s : no_gaps K -> reads_between t1 t2 t ->
  signer_ok (verify_stamp C K (Some t1) roots ctx raw s) = true -> signer_ok (verify_stamp C K (Some t2) roots ctx raw s) = true ->
  signer_ok (verify_stamp C K t roots ctx raw s) = true.
Proof.
  intros G B. unfold verify_stamp. cbv zeta. destruct (stamp_sig_loop _ _ _ _ _ _ _ _ _) as [[[sv er] dv] dd].
  destruct (if is_none ctx then _ else _) as [dv' w].
  destruct (cts_data _) as [|c r]; [auto|]. destruct (negb _); [auto|].
  pose proof (chain_between K t1 t2 t roots (ct_data c) [] G B) as H.
  destruct (verify_chain K (Some t1) roots _ _) as [[? ?] ?], (verify_chain K (Some t2) roots _ _) as [[? ?] ?], (verify_chain K t roots _ _) as [[? ?] ?]. exact H.
Qed.
Lemma check_between C K t1 t2 clk roots ctx l : no_gaps K -> (forall n, reads_between t1 t2 (clk n)) -> forall n,
  forallb signer_ok (check_all C K (fun _ => Some t1) roots ctx n l) = true -> forallb signer_ok (check_all C K (fun _ => Some t2) roots ctx n l) = true ->
  forallb signer_ok (check_all C K clk roots ctx n l) = true.
Proof.
  intros G B. induction l as [|[i s] l IH]; intros n; [reflexivity|]. cbn [check_all forallb]. rewrite !Bool.andb_true_iff. intros [A1 A2] [B1 B2].
  split; [exact (signer_between C K t1 t2 (clk n) roots ctx i s G (B n) A1 B1)|exact (IH (S n) A2 B2)].
Qed.
Lemma stamps_between C K t1 t2 t roots ctx l : no_gaps K -> reads_between t1 t2 t ->
  forallb signer_ok (stamp_results C K (Some t1) roots ctx l) = true -> forallb signer_ok (stamp_results C K (Some t2) roots ctx l) = true ->
  forallb signer_ok (stamp_results C K t roots ctx l) = true.
Proof.
  intros G B. induction l as [|v l IH]; [reflexivity|]. destruct v; cbn [stamp_results]; try exact IH.
  destruct (get_from_4 _); [|cbn [forallb signer_ok sr_chain_valid]; discriminate]. cbn [forallb]. rewrite !Bool.andb_true_r. now apply stamp_between.
Qed.
Lemma ok_split l : forallb signer_ok l = true <-> forallb sr_chain_valid l = true /\ forallb sr_trusted l = true.
Proof. induction l as [|x l IH]; cbn [forallb]; [tauto|]. unfold signer_ok at 1. rewrite !Bool.andb_true_iff, IH. tauto. Qed.
(** A verdict with all flags. *)
Definition fine (x : vres) : bool := match x with VOk r => vr_signature_valid r && vr_digest_valid r && vr_chain_valid r && vr_trusted r | VErr _ => false end.
Lemma fine_results l : fine (verdict l) = true -> forallb signer_ok l = true.
Proof.
  destruct (verdict l) as [r|] eqn:V; [|discriminate]. apply verdict_ok in V as (N & -> & _). destruct (from_flags _ N) as (A & B & C & D).
  cbn [fine]. rewrite !Bool.andb_true_iff, C, D. intros [[_ X] Y]. now apply ok_split.
Qed.
Lemma fine_same l l' : Forall2 same_checks l l' -> fine (verdict l) = true -> forallb signer_ok l' = true -> fine (verdict l') = true.
Proof.
  intros F X Y. pose proof (same_verdict _ _ F) as S. destruct (verdict l) as [r|]; [|discriminate].
  destruct (verdict l') as [r'|] eqn:V'; [|contradiction]. destruct S as (A & B & _). cbn [fine] in *.
  apply verdict_ok in V' as (N & -> & _). destruct (from_flags _ N) as (A' & B' & C' & D'). apply ok_split in Y as [Y1 Y2].
  rewrite !Bool.andb_true_iff in *. rewrite C', D', Y1, Y2. rewrite <- A, <- B. tauto.
Qed.
Lemma conclusion_fine v2 st : cli_conclusion v2 st = Ok tt <-> fine v2 = true /\ (fine st = true \/ st = VErr VNoSignature).
Proof.
  unfold cli_conclusion, fine. destruct v2 as [r|[]]; [|split; [discriminate|intros [[=] _]]..].
  destruct (vr_signature_valid r); cbn [negb andb]; [|split; [discriminate|intros [[=] _]]].
  destruct (vr_digest_valid r); cbn [negb andb]; [|split; [discriminate|intros [[=] _]]].
  destruct (vr_chain_valid r); cbn [negb andb]; [|split; [discriminate|intros [[=] _]]].
  destruct (vr_trusted r); cbn [negb]; [|split; [discriminate|intros [[=] _]]].
  destruct st as [r'|[]].
  - destruct (_ && _); split; auto; try discriminate. intros [_ [[=]|[=]]].
  - split; auto.
  - split; [discriminate|]. intros [_ [[=]|[=]]].
  - split; [discriminate|]. intros [_ [[=]|[=]]].
Qed.
Lemma v2_between C K t1 t2 clk roots b ctx : no_gaps K -> (forall n, reads_between t1 t2 (clk n)) ->
  fine (verify_v2_with_digest C K (Some t1) roots b ctx) = true -> fine (verify_v2_with_digest C K (Some t2) roots b ctx) = true ->
  fine (verify_v2_t C K clk roots b ctx) = true.
Proof.
  intros G B. rewrite <- !v2_frozen. unfold verify_v2_t. rewrite !results_check. intros X Y.
  refine (fine_same _ _ (check_same C K (fun _ => Some t1) clk roots roots ctx _ 0) X _).
  apply (check_between C K t1 t2); auto using fine_results.
Qed.
Lemma stamp_between' C K t1 t2 t roots b ctx : no_gaps K -> reads_between t1 t2 t ->
  fine (verify_source_stamp_with_digest C K (Some t1) roots b ctx) = true -> fine (verify_source_stamp_with_digest C K (Some t2) roots b ctx) = true ->
  fine (verify_source_stamp_with_digest C K t roots b ctx) = true.
Proof.
  intros G B X Y. refine (fine_same _ _ (stamps_same C K (Some t1) t roots roots ctx _) X _).
  apply (stamps_between C K t1 t2); auto using fine_results.
Qed.
Lemma cli_between p C K builtin t1 t2 clk clk_stamp ds s file root : no_gaps K -> (forall n, reads_between t1 t2 (clk n)) -> reads_between t1 t2 clk_stamp ->
  cli_verify p C K builtin (Some t1) ds s file root = Ok tt -> cli_verify p C K builtin (Some t2) ds s file root = Ok tt ->
  cli_verify_t p C K builtin clk clk_stamp ds s file root = Ok tt.
Proof.
  intros G B B'. unfold cli_verify_t, cli_verify. destruct (fs_read s file) as [f|]; [|discriminate]. cbn [of_option bind]. cbv zeta.
  destruct (m_get_signing_block p (module_new f) f) as [b|?|]; [|discriminate..]. cbn [map_err bind].
  destruct (cli_roots K builtin s root) as [rs|?|]; [|discriminate..]. cbn [bind].
  destruct (cli_add_digest p C ds (module_new f) f ECDSA_SHA2_256 ctx_new) as [c|?|]; [|discriminate..]. cbn [bind].
  destruct (cli_add_digest p C ds (module_new f) f ECDSA_SHA2_512 c) as [c'|?|]; [|discriminate..]. cbn [bind].
  assert (W : cli_conclusion (verify_v2_with_digest C K (Some t1) rs b (Some c')) (verify_source_stamp_with_digest C K (Some t1) rs b (Some c')) = Ok tt ->
    cli_conclusion (verify_v2_with_digest C K (Some t2) rs b (Some c')) (verify_source_stamp_with_digest C K (Some t2) rs b (Some c')) = Ok tt ->
    cli_conclusion (verify_v2_t C K clk rs b (Some c')) (verify_source_stamp_with_digest C K clk_stamp rs b (Some c')) = Ok tt).
  { rewrite !conclusion_fine. intros [X1 Y1] [X2 Y2]. split; [now apply (v2_between C K t1 t2)|].
    pose proof (stamp_same' C K (Some t1) clk_stamp rs rs b (Some c')) as S. pose proof (stamp_same' C K (Some t1) (Some t2) rs rs b (Some c')) as S2.
    destruct Y1 as [Y1|Y1].
    - left. destruct Y2 as [Y2|Y2]; [now apply (stamp_between' C K t1 t2)|]. rewrite Y2 in S2.
      destruct (verify_source_stamp_with_digest C K (Some t1) rs b (Some c')); [contradiction|discriminate].
    - right. rewrite Y1 in S. destruct (verify_source_stamp_with_digest C K clk_stamp rs b (Some c')); [contradiction|]. cbn [same_but_trust] in S. now subst. }
  destruct c'; [discriminate|exact W].
Qed.

(** ** The verification methods of the library *)
Lemma module_frozen p C K now ds m f roots :
  m_verify_with_roots_t p C K (fun _ => now) now ds m f roots = m_verify_with_roots p C K now ds m f roots.
Proof.
  unfold m_verify_with_roots_t, m_verify_with_roots. destruct (m_get_signing_block p m f) as [b|?|]; [|reflexivity..].
  destruct (fill_context _ _ _ _ _ _ _) as [c|?|]; [|reflexivity..]. cbn [bind]. unfold verify_all_t. now rewrite v2_frozen.
Qed.
Lemma same_err e : same_but_trust (VErr e) (VErr e).
Proof. reflexivity. Qed.
Lemma module_same p C K clk clk' t t' ds m f roots roots' :
  same_report (m_verify_with_roots_t p C K clk t ds m f roots) (m_verify_with_roots_t p C K clk' t' ds m f roots').
Proof.
  unfold m_verify_with_roots_t. destruct (m_get_signing_block p m f) as [b|e|]; [|split; apply same_err|exact I].
  destruct (fill_context _ _ _ _ _ _ _) as [c|?|]; [|reflexivity|exact I]. cbn [bind]. split; [apply v2_same|apply stamp_same'].
Qed.
Lemma vres_fine x : vres_ok x = true <-> fine x = true \/ x = VErr VNoSignature.
Proof. destruct x as [r|[]]; cbn [vres_ok fine]; split; auto; try discriminate; intros [H|H]; auto; discriminate. Qed.
Lemma all_between C K t1 t2 clk t roots b ctx : no_gaps K -> (forall n, reads_between t1 t2 (clk n)) -> reads_between t1 t2 t ->
  is_valid (verify_all_with_digest C K (Some t1) roots b ctx) = true -> is_valid (verify_all_with_digest C K (Some t2) roots b ctx) = true ->
  is_valid (verify_all_t C K clk t roots b ctx) = true.
Proof.
  intros G B B'. unfold is_valid, verify_all_with_digest, verify_all_t. cbn [va_v2 va_stamp]. rewrite !Bool.andb_true_iff, !vres_fine.
  intros [X1 Y1] [X2 Y2]. split.
  - pose proof (v2_same C K (fun _ => Some t1) clk roots roots b ctx) as S. pose proof (v2_same C K (fun _ => Some t1) (fun _ => Some t2) roots roots b ctx) as S2.
    rewrite v2_frozen in S. rewrite !v2_frozen in S2. destruct X1 as [X1|X1].
    + left. destruct X2 as [X2|X2]; [now apply (v2_between C K t1 t2)|]. rewrite X2 in S2.
      destruct (verify_v2_with_digest C K (Some t1) roots b ctx); [contradiction|discriminate].
    + right. rewrite X1 in S. destruct (verify_v2_t C K clk roots b ctx); [contradiction|]. cbn [same_but_trust] in S. now subst.
  - pose proof (stamp_same' C K (Some t1) t roots roots b ctx) as S. pose proof (stamp_same' C K (Some t1) (Some t2) roots roots b ctx) as S2.
    destruct Y1 as [Y1|Y1].
    + left. destruct Y2 as [Y2|Y2]; [now apply (stamp_between' C K t1 t2)|]. rewrite Y2 in S2.
      destruct (verify_source_stamp_with_digest C K (Some t1) roots b ctx); [contradiction|discriminate].
    + right. rewrite Y1 in S. destruct (verify_source_stamp_with_digest C K t roots b ctx); [contradiction|]. cbn [same_but_trust] in S. now subst.
Qed.
Lemma module_between p C K t1 t2 clk t ds m f roots a1 a2 : no_gaps K -> (forall n, reads_between t1 t2 (clk n)) -> reads_between t1 t2 t ->
  m_verify_with_roots p C K (Some t1) ds m f roots = Ok a1 -> is_valid a1 = true ->
  m_verify_with_roots p C K (Some t2) ds m f roots = Ok a2 -> is_valid a2 = true ->
  exists a, m_verify_with_roots_t p C K clk t ds m f roots = Ok a /\ is_valid a = true.
Proof.
  intros G B B'. unfold m_verify_with_roots_t, m_verify_with_roots. destruct (m_get_signing_block p m f) as [b|?|]; [|intros [= <-]; discriminate|discriminate].
  destruct (fill_context _ _ _ _ _ _ _) as [c|?|]; [|discriminate..]. cbn [bind]. intros [= <-] V1 [= <-] V2. eexists. split; [reflexivity|].
  now apply (all_between C K t1 t2).
Qed.
