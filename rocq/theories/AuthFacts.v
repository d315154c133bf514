(** AuthFacts.v - proofs for C94 *)
From Verif Require Import Base BaseFacts Utils ParseFacts Algorithms Common SchemeV2 SourceStamp Utf8 ElfInfo SigningBlock
  Wire Built CodecFacts BlockFacts BuiltFacts InjFacts SearchFacts Zip Digest DigestFacts Module Signable ZipSpec ZipFacts RegionSpec ModuleFacts ModuleProps
  Signer Verifier ModuleVerify VerifySpec VerifyFacts SignSpec SignFacts VerifyProps EndToEnd CrossSpec CrossProps
  Elf ElfSpec ElfFacts ElfProps2 ElfVerifySpec ElfVerifyFacts Keystore Cli CliSpec CliFacts CliProps CliProps2 AuthSpec.
Open Scope N_scope.

(** * Equal digests *)
Lemma clash_sym H m1 m2 : clash H m1 m2 -> clash H m2 m1.
Proof. intros (x & y & I1 & I2 & N & E). exists y, x. repeat split; auto. Qed.
Lemma collide_sym C x y : collide C x y -> collide C y x.
Proof. intros (a & m1 & m2 & Kn & A & B & K). exists a, m2, m1. split; [exact Kn|]. split; [exact B|]. split; [exact A|]. now apply clash_sym. Qed.
Lemma same_content_sym x y : same_content x y -> same_content y x.
Proof.
  intros ((b & A & B) & K). split; [eauto|]. destruct x, y; auto.
  destruct K as (content & m1 & m2 & cdr & h & c1 & c2 & t & R1 & R2). unfold same_outside_block. eauto 12.
Qed.

Lemma splits_u32 d cs : splits d cs -> Forall (fun c => len c < U32) cs.
Proof. intros H. apply splits_len in H. eapply Forall_impl; [|exact H]. cbn beta. unfold U32. lia. Qed.

Lemma archive_sections C a n p f e rest g names d : a = ECDSA_SHA2_256 \/ a = ECDSA_SHA2_512 -> 0 < n -> (forall x, len (hash C a x) = n) ->
  proper (Archive p f e) -> digest_of C (Archive p f e) a d -> digest_of C (Sections rest g names) a d ->
  collide C (Archive p f e) (Sections rest g names) \/ same_content (Archive p f e) (Sections rest g names).
Proof.
  intros Kn Hn Hlen (P1 & P2 & P3) (sched & Hs & D1) D2. cbn [digest_of] in D2.
  destruct (c29 _ _ _ _ _ _ _ Hs P1 P2 P3 D1) as (content & mid & cdr & h & off & t & R & c1 & c2 & c3 & S1 & S2 & S3 & E1).
  destruct (c55_is_digest _ _ _ _ _ D2) as (ts & cs & Hr & Hc & E2). cbn [el_data] in Hc.
  assert (U : Forall (fun c => len c < U32) cs).
  { destruct Hc as (css & F & ->). clear Hr E2. induction F as [|x y l css X F IH]; cbn [concat]; [constructor|]. apply Forall_app. split; [|exact IH].
    eapply splits_u32; eauto. }
  rewrite E1 in E2. apply (tree_digest_inj _ _ _ n) in E2; auto.
  2:{ repeat (apply Forall_app; split); eapply splits_u32; eauto. }
  destruct E2 as [K|K].
  - left. exists a, (tree_messages (hash C a) (c1 ++ c2 ++ c3)), (tree_messages (hash C a) cs).
    split; [exact Kn|]. split; [|split; [|exact K]].
    + do 6 eexists. split; [exact R|]. do 3 eexists. split; [exact S1|]. split; [exact S2|]. split; [exact S3|reflexivity].
    + do 2 eexists. split; [exact Hr|]. split; [exact Hc|reflexivity].
  - right. split; [|exact I]. eexists. split; [apply (about_archive _ _ _ _ _ _ _ _ _ R)|].
    pose proof (about_sections _ _ _ _ Hr) as A. rewrite <- (section_chunks_concat _ _ _ Hc), <- K in A.
    rewrite !concat_app, (splits_concat _ _ S1), (splits_concat _ _ S2), (splits_concat _ _ S3) in A. exact A.
Qed.

Lemma same_digest C a n x y d : a = ECDSA_SHA2_256 \/ a = ECDSA_SHA2_512 -> 0 < n -> (forall z, len (hash C a z) = n) -> proper x -> proper y ->
  digest_of C x a d -> digest_of C y a d -> collide C x y \/ same_content x y.
Proof.
  intros Kn Hn Hlen Px Py Dx Dy. destruct x as [p f e|rest f names], y as [q g e'|rest' g names'].
  - destruct Px as (P1 & P2 & P3), Py as (Q1 & Q2 & Q3), Dx as (s1 & F1 & D1), Dy as (s2 & F2 & D2).
    destruct (c31 p q C s1 s2 f g e e' a d n F1 F2 Hn Hlen P1 Q1 P2 P3 Q2 Q3 D1 D2) as [(m1 & m2 & K)|K].
    + left. exists a, m1, m2. split; [exact Kn|exact K].
    + right. split; [|exact K]. destruct K as (content & m1 & m2 & cdr & h & c1 & c2 & t & R1 & R2).
      eexists. split; eapply about_archive; eauto.
  - eapply archive_sections; eauto.
  - destruct (archive_sections C a n q g e' rest f names d Kn Hn Hlen Py Dy Dx) as [K|K];
      [left; now apply collide_sym|right; now apply same_content_sym].
  - cbn [digest_of] in Dx, Dy.
    destruct (c55_is_digest _ _ _ _ _ Dx) as (t1 & cs1 & R1 & _). destruct (c55_is_digest _ _ _ _ _ Dy) as (t2 & cs2 & R2 & _).
    destruct (c55_binding _ _ _ _ _ _ _ _ _ _ Hn Hlen Dx Dy R1 R2) as [(c1 & c2 & K1 & K2 & K)|(K & _)].
    + left. do 3 eexists. split; [exact Kn|]. split; [|split; [|exact K]]; do 2 eexists; eauto.
    + right. split; [|exact I]. eexists. split; [eapply about_sections; exact R1|]. cbn [el_data] in K. rewrite K.
      eapply about_sections; exact R2.
Qed.

(** * What the message says *)
Lemma time_attrs_built now ts attrs : stamp_attrs now ts = Ok attrs -> built_attrs (attrs_new attrs).
Proof.
  unfold stamp_attrs. destruct ts.
  - destruct now as [t|]; cbn [of_option bind]; [|discriminate]. intros E. injection E as <-.
    exists [time_attr t]. split; [|reflexivity]. constructor; [|constructor]. exists STAMP_TIME_ATTR_ID, (le 8 t).
    split; [reflexivity|reflexivity].
  - intros E. injection E as <-. exists []. auto.
Qed.
Lemma stamp_one_std cfg attrs l sig pub now ts : Forall (fun x : algorithms * bytes => canonical (fst x)) l ->
  stamp_attrs now ts = Ok attrs -> built_std (sb_data (stamp_one cfg attrs (digests_of_pairs l) sig pub)).
Proof.
  intros H Ha. do 3 eexists. split; [apply digests_of_pairs_built; exact H|]. split; [|split; [|reflexivity]].
  - exists [cert_new (sc_cert cfg)]. split; [|reflexivity]. constructor; [|constructor]. eexists. reflexivity.
  - eapply time_attrs_built; eauto.
Qed.
Lemma digests_of_canonical C x l : digests_of C x l -> Forall (fun y => canonical (fst y)) l.
Proof. intros H. eapply Forall_impl; [|exact H]. cbn beta. tauto. Qed.

(** Any use of the key for [x] signs digests of [x], then certificates and
    attributes; a stamp's message ends there, a module's message goes on. *)
Lemma signed_shape C pub x k m : has_signed C pub x k m -> exists l c a z,
  digests_of C x l /\ ok_digests (digests_of_pairs l) /\ ok_certs c /\ ok_attrs a /\
  m = signed_content (digests_of_pairs l) c a ++ z /\ (k = ForModule -> z <> []).
Proof.
  intros H. destruct H as [cfg l v sg Hp Hd Hv Hi Hs|now ts cfg l st Hp Hd Hv Hs|now cfg l st Hp Hd Hv Hs].
  - pose proof (digests_of_canonical _ _ _ Hd) as Hc. apply v2_sign_inv in Hv. destruct Hv as (sig & pub' & -> & _ & _).
    destruct Hi as [<-|[]]. pose proof (v2_one_sd cfg l sig pub' Hc) as B.
    set (s := v2_one cfg (digests_of_pairs l) sig pub') in *.
    assert (Hsz : sd_size (sn_data s) = len (v2_message s)).
    { pose proof (built_sd_len _ B) as L.
      assert (L2 : len (v2_message s) = len (sd_to_u8 (sn_data s)) - 4).
      { unfold v2_message. change 4%nat with (N.to_nat 4). rewrite <- dropN_skipn. apply len_dropN. }
      lia. }
    assert (W : W_sd (sn_data s) (sd_to_u8 (sn_data s))) by (apply built_sd_W; auto; unfold U32; lia).
    apply W_sd_parts in W as (D1 & C1 & A1).
    exists l, (sd_certs (sn_data s)), (sd_attrs (sn_data s)). eexists. split; [exact Hd|]. split; [exact D1|].
    split; [exact C1|]. split; [exact A1|]. split; [apply v2_message_bytes|].
    intros _ E. apply zeros_nil in E. destruct B as (d & c & a & BD & BC & BA & Es). rewrite Es in E.
    unfold sd_new, signed_content in E. cbn [sd_size sd_digests sd_certs sd_attrs] in E.
    rewrite !len_app, built_digests_len, built_certs_len, built_attrs_len in E by auto. lia.
  - pose proof (digests_of_canonical _ _ _ Hd) as Hc. apply stamp_sign_inv in Hv. destruct Hv as (attrs & sig & pub' & Ha & -> & _ & _).
    cbn [ss_block ss_new] in *. pose proof (stamp_one_std cfg attrs l sig pub' _ _ Hc Ha) as B.
    set (s := stamp_one cfg attrs (digests_of_pairs l) sig pub') in *.
    assert (Hsz : std_size (sb_data s) = len (stamp_message s)).
    { pose proof (built_std_len _ B) as L.
      assert (L2 : len (stamp_message s) = len (std_to_u8 (sb_data s)) - 4).
      { unfold stamp_message. change 4%nat with (N.to_nat 4). rewrite <- dropN_skipn. apply len_dropN. }
      lia. }
    assert (W : W_std (sb_data s) (std_to_u8 (sb_data s))) by (apply built_std_W; auto; unfold U32; lia).
    apply W_std_parts in W as (D1 & C1 & A1).
    exists l, (st_certs (sb_data s)), (st_attrs (sb_data s)), []. split; [exact Hd|]. split; [exact D1|].
    split; [exact C1|]. split; [exact A1|]. split; [rewrite app_nil_r; apply stamp_message_bytes|discriminate].
  - destruct cfg as [key cert al ts]. unfold old_stamp_sign_pairs in Hv. rewrite (old_stamp_same _ _ _ _ _ _ []) in Hv.
    pose proof (digests_of_canonical _ _ _ Hd) as Hc. apply stamp_sign_inv in Hv. destruct Hv as (attrs & sig & pub' & Ha & -> & _ & _).
    cbn [ss_block ss_new] in *. pose proof (stamp_one_std (mkConfig key cert al []) attrs l sig pub' _ _ Hc Ha) as B.
    set (s := stamp_one (mkConfig key cert al []) attrs (digests_of_pairs l) sig pub') in *.
    assert (Hsz : std_size (sb_data s) = len (stamp_message s)).
    { pose proof (built_std_len _ B) as L.
      assert (L2 : len (stamp_message s) = len (std_to_u8 (sb_data s)) - 4).
      { unfold stamp_message. change 4%nat with (N.to_nat 4). rewrite <- dropN_skipn. apply len_dropN. }
      lia. }
    assert (W : W_std (sb_data s) (std_to_u8 (sb_data s))) by (apply built_std_W; auto; unfold U32; lia).
    apply W_std_parts in W as (D1 & C1 & A1).
    exists l, (st_certs (sb_data s)), (st_attrs (sb_data s)), []. split; [exact Hd|]. split; [exact D1|].
    split; [exact C1|]. split; [exact A1|]. split; [rewrite app_nil_r; apply stamp_message_bytes|discriminate].
Qed.

Lemma stored_of_pairs C x l a d : digests_of C x l -> stored_digest (dgs_data (digests_of_pairs l)) a d -> digest_of C x a d.
Proof.
  intros H (b & e & af & E & E1 & E2 & _). unfold digests_of_pairs, digests_new in E. cbn [dgs_data] in E.
  assert (I : In e (map (fun p => digest_new (fst p) (snd p)) l)) by (rewrite E; apply in_elt).
  apply in_map_iff in I. destruct I as ((a' & d') & <- & I). cbn in E1, E2. subst a' d'.
  eapply Forall_forall in H; [|exact I]. exact (proj2 H).
Qed.

(** * What was signed is what is there *)
Lemma v2_signed C K now roots (D : algorithms -> bytes -> Prop) x y sg raw pub k : hash_sized C -> proper x -> proper y ->
  (forall a d, a = ECDSA_SHA2_256 \/ a = ECDSA_SHA2_512 -> D a d -> digest_of C x a d) ->
  W_sd (sn_data sg) raw -> v2_signer_good C K now roots D sg -> has_signed C pub y k (v2_message sg) ->
  collide C x y \/ same_content x y.
Proof.
  intros HH Px Py HD W (Hs & G & _) S.
  destruct (sgs_data (sn_sigs sg)) as [|g gs]; [contradiction|].
  apply Forall_cons_iff in G. destruct G as ((A & d & Sd & X) & _).
  destruct (hash_sized_of _ _ _ _ _ HH A) as (n & Hn & Hlen).
  apply HD in X; [|eapply accepted_known; eauto].
  destruct (signed_shape _ _ _ _ _ S) as (l & c & at' & z & Hl & O1 & O2 & O3 & E & _).
  apply W_sd_parts in W as (W1 & W2 & W3). rewrite v2_message_bytes in E.
  apply triple_self in E as (E1 & _); auto. rewrite E1 in Sd.
  eapply (same_digest C (sg_algo g) n); eauto; [exact (accepted_known _ _ _ _ _ A)|]. eapply stored_of_pairs; eauto.
Qed.
Lemma stamp_signed C K now roots (D : algorithms -> bytes -> Prop) x y sb raw pub k : hash_sized C -> proper x -> proper y ->
  (forall a d, a = ECDSA_SHA2_256 \/ a = ECDSA_SHA2_512 -> D a d -> digest_of C x a d) ->
  W_std (sb_data sb) raw -> stamp_good C K now roots D sb -> has_signed C pub y k (stamp_message sb) ->
  k = ForStamp /\ (collide C x y \/ same_content x y).
Proof.
  intros HH Px Py HD W (G & X & _) S.
  destruct (signed_shape _ _ _ _ _ S) as (l & c & at' & z & Hl & O1 & O2 & O3 & E & Hk).
  apply W_std_parts in W as (W1 & W2 & W3). rewrite stamp_message_bytes in E.
  rewrite <- (app_nil_r (signed_content (st_digests _) _ _)) in E.
  apply triple_self in E as (E1 & _ & _ & E4); auto. split.
  { destruct k; [|reflexivity]. exfalso. apply Hk; auto. }
  apply Exists_exists in X. destruct X as (g & I & d & Sd). rewrite Forall_forall in G. destruct (G g I) as (A & G').
  destruct (hash_sized_of _ _ _ _ _ HH A) as (n & Hn & Hlen).
  pose proof (G' d Sd) as X. apply HD in X; [|eapply accepted_known; eauto]. rewrite E1 in Sd.
  eapply (same_digest C (sg_algo g) n); eauto; [exact (accepted_known _ _ _ _ _ A)|]. eapply stored_of_pairs; eauto.
Qed.
