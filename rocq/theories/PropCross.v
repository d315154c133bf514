(** PropCross.v - C65 (V2 signatures against stamp signatures) and C66 (adding a
    stamp to a block of any origin).  Vocabulary: VerifySpec.v, CrossSpec.v. *)
From Verif Require Import Base BaseFacts Utils Algorithms Common SchemeV2 SourceStamp Utf8 ElfInfo
  SigningBlock Wire Built Spec Zip Digest Module Signable ZipSpec ZipFacts
  Toy Signer Verifier ModuleVerify VerifySpec SignSpec SignFacts VerifyProps EndToEnd ToyVerify
  Keystore Elf ToyElf Cli ToyCli CrossSpec CrossProps.
From Coq Require Import Strings.String.
Open Scope N_scope.

(** * C65 - module signatures and source stamps *)
(** The two signed messages are equal exactly if digests, certificates and
    attributes are equal and the signed data of the V2 signer does not declare
    more bytes than its content has. *)
Theorem C65_exact : forall p q f g b b' sg sb, len f < U64 -> len g < U64 ->
  m_get_signing_block p (module_new f) f = Ok b -> In sg (v2_signers_of b) ->
  m_get_signing_block q (module_new g) g = Ok b' -> In sb (stamps_of b') ->
  (v2_message sg = stamp_message sb <->
   sd_digests (sn_data sg) = st_digests (sb_data sb) /\
   sd_certs (sn_data sg) = st_certs (sb_data sb) /\
   sd_attrs (sn_data sg) = st_attrs (sb_data sb) /\
   sd_size (sn_data sg) <= len (stamp_message sb)).
Proof. exact cross_exact. Qed.
Print Assumptions C65_exact.

(** What the library signs for a module is never the message of a stamp, in any
    file: the library's V2 message ends with four zero bytes that no stamp
    message can account for. *)
Theorem C65_v2_not_stamp : forall p C cfg l v sg f b sb, len f < U64 ->
  Forall (fun x => canonical (fst x)) l -> v2_sign_pairs C cfg l = Ok v ->
  In sg (sns_data (v2_signers v)) -> len (v2_message sg) < U32 ->
  m_get_signing_block p (module_new f) f = Ok b -> In sb (stamps_of b) ->
  stamp_message sb <> v2_message sg.
Proof. exact v2_not_stamp. Qed.
Print Assumptions C65_v2_not_stamp.

Definition has_stamp (r : res signing_block) : bool :=
  match r with Ok b => match stamps_of b with [] => false | _ => true end | _ => false end.
Definition has_signer (r : res scheme_v2) : bool :=
  match r with Ok v => match sns_data (v2_signers v) with [s] => len (v2_message s) <? U32 | _ => false end | _ => false end.
Lemma has_stamp_ex : forall r, has_stamp r = true -> exists b sb, r = Ok b /\ In sb (stamps_of b).
Proof.
  intros [b|?|] H; try discriminate. cbn [has_stamp] in H. destruct (stamps_of b) as [|sb l] eqn:E; [discriminate|].
  exists b, sb. split; [reflexivity|]. rewrite E. now left.
Qed.
Lemma has_signer_ex : forall r, has_signer r = true ->
  exists v sg, r = Ok v /\ In sg (sns_data (v2_signers v)) /\ len (v2_message sg) < U32.
Proof.
  intros [v|?|] H; try discriminate. cbn [has_signer] in H.
  destruct (sns_data (v2_signers v)) as [|sg [|? ?]] eqn:E; try discriminate.
  exists v, sg. split; [reflexivity|]. rewrite E. split; [now left|]. now apply N.ltb_lt.
Qed.
Example C65_example :
  (exists v sg, v2_sign_pairs toyC cfg1 zip_pairs = Ok v /\ In sg (sns_data (v2_signers v)) /\ len (v2_message sg) < U32) /\
  (exists b sb, m_get_signing_block Debug (module_new zip_signed) zip_signed = Ok b /\ In sb (stamps_of b)) /\
  Forall (fun x : algorithms * bytes => canonical (fst x)) zip_pairs.
Proof.
  split; [|split].
  - apply has_signer_ex. vm_compute. reflexivity.
  - apply has_stamp_ex. vm_compute. reflexivity.
  - apply Forall_map. repeat apply Forall_cons; [exact I|exact I|apply Forall_nil].
Qed.

(** The other direction is false.  Every valid stamp with one certificate whose
    signatures all have a digest can be copied into a V2 signer, which is then
    valid: the stamp's signatures are accepted for the module. *)
Theorem C65_transplant : forall C K now roots D sb, stamp_good C K now roots D sb ->
  Forall (fun g => exists d, stored_digest (dgs_data (st_digests (sb_data sb))) (sg_algo g) d) (sgs_data (sb_sigs sb)) ->
  (exists c, cts_data (st_certs (sb_data sb)) = [c]) ->
  v2_signer_good C K now roots D (transplant sb).
Proof. exact transplant_good. Qed.
Print Assumptions C65_transplant.

(** An archive with only a stamp (made by the library) is refused by verify; the
    same archive with the stamp copied into a V2 signer is accepted, although no
    module signature was ever made. *)
Definition stamp_signer : module_signer := ms_set_padding (ms_stamp_only cfg2) false.
Definition stamp_block_only : signing_block :=
  get_ok dummy_block (ms_sign Debug toyC (Some 500) stamp_signer (digests_of_pairs zip_pairs)).
Definition stamp_file : bytes := with_block ex_zip (block_to_u8 stamp_block_only).
Definition copied_block : signing_block :=
  get_ok dummy_block (block_new [V2Block (v2_new (signers_new (map transplant (stamps_of stamp_block_only))))]).
Definition copied_file : bytes := with_block ex_zip (block_to_u8 copied_block).
Definition res_is_ok {A} (r : res A) : bool := match r with Ok _ => true | _ => false end.
Lemma is_ok_ex : forall A (r : res A), res_is_ok r = true -> exists x, r = Ok x.
Proof. intros A [x|?|] H; try discriminate. eauto. Qed.

Theorem C65_refuted :
  (exists b, ms_sign Debug toyC (Some 500) stamp_signer (digests_of_pairs zip_pairs) = Ok b) /\
  cli_verify Debug toyC toyK [] (Some 500) fr2 (toy_fs stamp_file) (bstr "in") (Some (bstr "root")) <> Ok tt /\
  cli_verify Debug toyC toyK [] (Some 500) fr2 (toy_fs copied_file) (bstr "in") (Some (bstr "root")) = Ok tt.
Proof.
  split; [apply is_ok_ex; vm_compute; reflexivity|]. split; [|vm_compute; reflexivity].
  assert (H : forall r, res_is_ok r = false -> r <> Ok tt) by (intros [x|?|] H; discriminate).
  apply H. vm_compute. reflexivity.
Qed.
Print Assumptions C65_refuted.

(** * C66 - adding a source stamp to a parsed block *)
(** Values: everything but stamps and padding is kept, in order; one stamp; the V2 outcome
    is the same for every certificate world, clock, roots and digests. *)
Theorem C66_parsed : forall p q C now m f b d b', crypto_ok C -> len f < U64 ->
  m_get_signing_block q (module_new f) f = Ok b ->
  ms_add_source_stamp p C now m b d = Ok b' ->
  v2_signers_of b' = v2_signers_of b /\
  (exists s, stamps_of b' = [s]) /\
  (exists tail, bk_content b' = filter other_value (bk_content b) ++ tail) /\
  (forall C' K now' roots ctx,
     verify_v2_with_digest C' K now' roots b' ctx = verify_v2_with_digest C' K now' roots b ctx).
Proof. exact add_stamp_parsed. Qed.
Print Assumptions C66_parsed.

(** Bytes: if the library's own encoding of every value denotes that value (it
    does for values the library built), then writing the new block and reading
    it again gives the new block. *)
Theorem C66_readable : forall p q C now m b l b' pre, crypto_ok C ->
  Forall (fun x => canonical (fst x)) l -> Forall faithful (bk_content b) ->
  ms_add_source_stamp p C now m b (digests_of_pairs l) = Ok b' ->
  len (pre ++ block_to_u8 b') < U64 -> from_u8 q (pre ++ block_to_u8 b') = Ok b'.
Proof. exact add_stamp_faithful. Qed.
Print Assumptions C66_readable.
Theorem C66_built_faithful : forall v, built_value v -> value_inner_size v <= MAX_PAIR_SIZE -> faithful v.
Proof. exact built_faithful. Qed.
Print Assumptions C66_built_faithful.
Theorem C66_library_blocks : forall p C now m l b, crypto_ok C -> Forall (fun x => canonical (fst x)) l ->
  ms_sign p C now m (digests_of_pairs l) = Ok b -> Forall faithful (bk_content b).
Proof. exact signed_faithful. Qed.
Print Assumptions C66_library_blocks.

(** A V2 block by another writer: the size field of its digest entry is one too
    large (the parser does not look at it); its signature is made over the bytes
    this library hashes. *)
Definition zip_digest : bytes := match zip_pairs with (_, d) :: _ => d | [] => [] end.
Definition odd_certs : certificates := certs_new [cert_new leaf_cert; cert_new inter_cert].
Definition odd_attrs : attributes := attrs_new [].
Definition odd_list : bytes :=
  le 4 44 ++ le 4 (8 + 32 + 1) ++ le 4 0x0201 ++ le 4 32 ++ zip_digest.
Definition odd_content : bytes := odd_list ++ certs_to_u8 odd_certs ++ attrs_to_u8 odd_attrs.
Definition odd_sd : signed_data :=
  mkSD (len odd_content) (mkDigests 44 [mkDigest (8 + 32 + 1) ECDSA_SHA2_256 zip_digest]) odd_certs odd_attrs.
Definition odd_signer : signer :=
  signer_new odd_sd
    (sigs_new [sig_new ECDSA_SHA2_256 (bstr "key1" ++ toy_hash (skipn 4 (sd_to_u8 odd_sd)))])
    (pub_new (bstr "key1")).
Definition odd_signer_bytes : bytes :=
  le 4 (sn_size odd_signer) ++ (le 4 (len odd_content) ++ odd_content) ++
  sigs_to_u8 (sn_sigs odd_signer) ++ pub_to_u8 (sn_key odd_signer).
Definition odd_file : bytes :=
  with_block ex_zip (block_layout (pair SIGNATURE_SCHEME_V2_BLOCK_ID (le 4 (len odd_signer_bytes) ++ odd_signer_bytes))).
Definition odd_block : signing_block :=
  get_ok dummy_block (m_get_signing_block Debug (module_new odd_file) odd_file).
Definition odd_stamped : signing_block :=
  get_ok dummy_block (ms_add_source_stamp Debug toyC (Some 500) (ms_set_padding (ms_stamp_only cfg2) false) odd_block (digests_of_pairs zip_pairs)).
Definition odd_stamped_file : bytes := with_block ex_zip (block_to_u8 odd_stamped).


(** The odd file verifies; its block accepts a stamp, and the V2 outcome of the
    new block in memory is unchanged (C66_parsed); but the file with the new
    block can no longer be read. *)
Lemma refuse_ok : forall A (r : res A), res_is_ok r = false -> forall x, r <> Ok x.
Proof. intros A [x|?|] H; discriminate. Qed.
Theorem C66_refuted : forall p,
  cli_verify p toyC toyK [] (Some 500) fr2 (toy_fs odd_file) (bstr "in") (Some (bstr "root")) = Ok tt /\
  (exists b', ms_add_source_stamp p toyC (Some 500) (ms_set_padding (ms_stamp_only cfg2) false) odd_block
                (digests_of_pairs zip_pairs) = Ok b' /\
     block_to_u8 b' = block_to_u8 odd_stamped) /\
  (forall b, m_get_signing_block p (module_new odd_stamped_file) odd_stamped_file <> Ok b) /\
  cli_verify p toyC toyK [] (Some 500) fr2 (toy_fs odd_stamped_file) (bstr "in") (Some (bstr "root")) <> Ok tt.
Proof.
  intros p. split; [destruct p; vm_compute; reflexivity|]. split; [|split].
  - assert (H : forall (r : res signing_block) X, (do b <- r; Ok (block_to_u8 b)) = Ok X ->
      exists b', r = Ok b' /\ block_to_u8 b' = X).
    { intros [b|?|] X E; try discriminate. injection E as E. eauto. }
    apply H. destruct p; vm_compute; reflexivity.
  - apply refuse_ok. destruct p; vm_compute; reflexivity.
  - apply refuse_ok. destruct p; vm_compute; reflexivity.
Qed.
Print Assumptions C66_refuted.

Lemma ok_get_ok : forall A (d : A) (r : res A), res_is_ok r = true -> r = Ok (get_ok d r).
Proof. intros A d [x|?|] H; try discriminate. reflexivity. Qed.
Example C66_example : crypto_ok toyC /\
  (exists b, m_get_signing_block Debug (module_new zip_signed) zip_signed = Ok b /\
     exists b', ms_add_source_stamp Debug toyC (Some 500) (ms_stamp_only cfg2) b (digests_of_pairs zip_pairs) = Ok b') /\
  Forall faithful (bk_content zip_block).
Proof.
  split; [apply toy_crypto_ok|]. split.
  - assert (H : forall (r : res signing_block) (k : signing_block -> res signing_block),
      res_is_ok (do b <- r; k b) = true -> exists b, r = Ok b /\ exists b', k b = Ok b').
    { intros [b|?|] k H; try discriminate. cbn [bind] in H. apply is_ok_ex in H. eauto. }
    apply H. vm_compute. reflexivity.
  - apply signed_faithful with (p := Debug) (C := toyC) (now := Some 500) (m := signer12) (l := zip_pairs).
    + apply toy_crypto_ok.
    + apply Forall_map. repeat apply Forall_cons; [exact I|exact I|apply Forall_nil].
    + apply ok_get_ok. vm_compute. reflexivity.
Qed.
