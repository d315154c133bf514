(** PropIgnored.v - C71 (what in a signing block is not authenticated) and the
    exact meaning of the flags of C45.  Vocabulary: IgnoredSpec.v, VerifySpec.v,
    SignSpec.v, Wire.v, ZipSpec.v. *)
From Verif Require Import Base BaseFacts Utils Algorithms Common SchemeV2 SourceStamp Utf8 ElfInfo
  SigningBlock Wire Built Spec Zip Digest Module Signable ZipSpec ZipFacts
  Toy Signer Verifier ModuleVerify VerifySpec SignSpec EndToEnd ToyVerify IgnoredSpec IgnoredFacts FlagFacts ModuleProps.
From Coq Require Import Strings.String.
Open Scope N_scope.

(** * C71 - unauthenticated parts of the block *)
(** Two files that differ in their signing block only ([raw1], [raw2], denoting
    the values [l1], [l2]) get the same result, with all flags, certificates,
    warnings and errors, if the V2 signers and the first stamp agree. *)
Theorem C71_same_result : forall p C K now ds z raw1 raw2 l1 l2 roots,
  zip_ok z raw1 -> zip_small z raw1 -> zip_ok z raw2 -> zip_small z raw2 ->
  W_block l1 raw1 -> len raw1 <= MAX_SIGNING_BLOCK_SIZE + 8 ->
  W_block l2 raw2 -> len raw2 <= MAX_SIGNING_BLOCK_SIZE + 8 ->
  v2_part l1 = v2_part l2 -> stamp_part l1 = stamp_part l2 ->
  exists r,
    m_verify_with_roots p C K now ds (module_new (with_block z raw1)) (with_block z raw1) roots = Ok r /\
    m_verify_with_roots p C K now ds (module_new (with_block z raw2)) (with_block z raw2) roots = Ok r.
Proof. exact ignored. Qed.
Print Assumptions C71_same_result.

(** In particular no other value (padding, section info, unknown ids) counts. *)
Theorem C71_other_values : forall p C K now ds z raw1 raw2 l1 l2 roots,
  zip_ok z raw1 -> zip_small z raw1 -> zip_ok z raw2 -> zip_small z raw2 ->
  W_block l1 raw1 -> len raw1 <= MAX_SIGNING_BLOCK_SIZE + 8 ->
  W_block l2 raw2 -> len raw2 <= MAX_SIGNING_BLOCK_SIZE + 8 ->
  signature_values l1 = signature_values l2 ->
  exists r,
    m_verify_with_roots p C K now ds (module_new (with_block z raw1)) (with_block z raw1) roots = Ok r /\
    m_verify_with_roots p C K now ds (module_new (with_block z raw2)) (with_block z raw2) roots = Ok r.
Proof.
  intros p C K now ds z raw1 raw2 l1 l2 roots Z1 S1 Z2 S2 W1 M1 W2 M2 E.
  apply (ignored p C K now ds z raw1 raw2 l1 l2); auto.
  - now rewrite (v2_part_values l1), (v2_part_values l2), E.
  - now rewrite (stamp_part_values l1), (stamp_part_values l2), E.
Qed.
Print Assumptions C71_other_values.

(** The last four bytes of the signed data of a library-made V2 signature, which
    are zero, can be replaced by any four bytes [j]. *)
Theorem C71_v2_tail : forall p q C K clk now ds z m l b c j roots,
  crypto_ok C -> Forall (fun p : algorithms * bytes => canonical (fst p)) l ->
  ms_sign p C clk m (digests_of_pairs l) = Ok b -> ms_v2 m = Some c -> len j = 4 ->
  zip_ok z (block_to_u8 b) -> zip_small z (block_to_u8 b) ->
  exists sig pub rest,
    let d := digests_layout l ++ certs_layout (sc_cert c :: sc_chain c) ++ attrs_layout [] in
    let changed := block_layout (v2_pair (d ++ j) (sc_algo c) sig pub ++ rest) in
    block_to_u8 b = block_layout (v2_pair (d ++ [x00; x00; x00; x00]) (sc_algo c) sig pub ++ rest) /\
    exists r,
      m_verify_with_roots q C K now ds (module_new (with_block z (block_to_u8 b))) (with_block z (block_to_u8 b)) roots = Ok r /\
      m_verify_with_roots q C K now ds (module_new (with_block z changed)) (with_block z changed) roots = Ok r.
Proof. exact v2_tail_ignored. Qed.
Print Assumptions C71_v2_tail.

(** To the signed data of a library-made stamp any bytes [j] can be appended. *)
Theorem C71_stamp_tail : forall p q C K clk now ds z m l b c j roots,
  crypto_ok C -> Forall (fun p : algorithms * bytes => canonical (fst p)) l ->
  ms_sign p C clk m (digests_of_pairs l) = Ok b -> ms_stamp m = Some c ->
  zip_ok z (block_to_u8 b) -> zip_small z (block_to_u8 b) ->
  exists sig pub first rest,
    let d := stamp_signed_layout l (sc_cert c) (if ms_timestamp m then clk else None) in
    let changed := block_layout (first ++ stamp_pair (d ++ j) (sc_algo c) sig pub ++ rest) in
    block_to_u8 b = block_layout (first ++ stamp_pair d (sc_algo c) sig pub ++ rest) /\
    (len (block_to_u8 b) + len j <= MAX_SIGNING_BLOCK_SIZE + 8 -> zip_ok z changed -> zip_small z changed ->
    exists r,
      m_verify_with_roots q C K now ds (module_new (with_block z (block_to_u8 b))) (with_block z (block_to_u8 b)) roots = Ok r /\
      m_verify_with_roots q C K now ds (module_new (with_block z changed)) (with_block z changed) roots = Ok r).
Proof. exact stamp_tail_ignored. Qed.
Print Assumptions C71_stamp_tail.

(** The example archive signed by both signers is accepted, and so is the file
    in which four bytes of the signed area are overwritten. *)
Definition patched (f : bytes) (o : N) (j : bytes) : bytes :=
  takeN o f ++ j ++ dropN (o + len j) f.
Definition tail_offset : N :=
  len (z_entries ex_zip) + 8 + 12 + 4 + 4 +
  (4 + len (v2_signed_layout zip_pairs (sc_cert cfg1 :: sc_chain cfg1))) - 4.
Definition tail_changed : bytes := patched zip_signed tail_offset (bstr "evil").
Example C71_example :
  ms_sign Debug toyC (Some 500) signer12 (digests_of_pairs zip_pairs) = Ok zip_block /\
  ms_v2 signer12 = Some cfg1 /\ ms_stamp signer12 = Some cfg2 /\
  crypto_ok toyC /\ Forall (fun p : algorithms * bytes => canonical (fst p)) zip_pairs /\
  zip_ok ex_zip (block_to_u8 zip_block) /\ zip_small ex_zip (block_to_u8 zip_block) /\
  get_range zip_signed tail_offset (tail_offset + 4) = Some [x00; x00; x00; x00] /\
  get_range tail_changed tail_offset (tail_offset + 4) = Some (bstr "evil") /\
  len tail_changed = len zip_signed /\
  (let verify f := m_verify_with_roots Debug toyC toyK (Some 500) (fun _ _ => full_reads) (module_new f) f
                     (configured toyK [root_cert]) in
   verify tail_changed = verify zip_signed /\
   match verify tail_changed with Ok r => is_valid r && has_v2 r && has_source_stamp r | _ => false end = true /\
   (* further ahead in the signed data nothing may change *)
   match verify (patched zip_signed (tail_offset - 16) (bstr "evil")) with Ok r => is_valid r | _ => false end = false).
Proof.
  split; [vm_compute; reflexivity|]. split; [reflexivity|]. split; [reflexivity|]. split; [apply toy_crypto_ok|].
  split; [apply Forall_map; repeat apply Forall_cons; [exact I|exact I|apply Forall_nil]|].
  split; [apply zip_ok_short; [apply ex_zip_ok|reflexivity|vm_compute; reflexivity]|].
  split; [vm_compute; reflexivity|]. split; [vm_compute; reflexivity|]. split; [vm_compute; reflexivity|].
  split; [vm_compute; reflexivity|]. cbv zeta. split; [vm_compute; reflexivity|]. split; vm_compute; reflexivity.
Qed.
Definition extra_value : value := BaseBlock (raw_new 0x1234 (bstr "anything")).
Example C71_other_example :
  signature_values (bk_content zip_block ++ [extra_value]) = signature_values (bk_content zip_block) /\
  v2_part (bk_content zip_block ++ [extra_value]) = v2_part (bk_content zip_block) /\
  len (v2_part (bk_content zip_block)) = 1 /\ stamp_part (bk_content zip_block) <> None.
Proof.
  split; [vm_compute; reflexivity|]. split; [vm_compute; reflexivity|]. split; [vm_compute; reflexivity|].
  intros H. assert (E : is_none (stamp_part (bk_content zip_block)) = false) by (vm_compute; reflexivity).
  rewrite H in E. discriminate.
Qed.

(** * C45 - the flags of a successful result, exactly *)
Theorem C45_exact : forall C K now roots b ctx r,
  verify_v2_with_digest C K now roots b ctx = VOk r ->
  Forall2 (fun s r => let digs := dgs_data (sd_digests (sn_data s)) in
    (sr_signature_valid r = true <->
       Forall (fun g => accepted C (sg_algo g) (pk_data (sn_key s)) (v2_message s) (sg_data g) /\
                        ~ no_digest digs (sg_algo g)) (sgs_data (sn_sigs s))) /\
    (sr_digest_valid r = true <->
       ctx <> None /\ exists g rest, sgs_data (sn_sigs s) = g :: rest /\ ~ no_digest digs (sg_algo g)))
    (v2_signers_of b) (vr_signers r).
Proof. exact v2_flags_ok. Qed.
Print Assumptions C45_exact.
Theorem C45_stamp_exact : forall C K now roots b ctx r,
  verify_source_stamp_with_digest C K now roots b ctx = VOk r -> exists s rest,
  stamps_of b = s :: rest /\ vr_signature_valid r = true /\
  Forall (fun g => accepted C (sg_algo g) (pk_data (sb_key s)) (stamp_message s) (sg_data g))
    (sgs_data (sb_sigs s)) /\
  (vr_digest_valid r = true <->
     ctx <> None /\ Exists (fun g => ~ no_digest (dgs_data (st_digests (sb_data s))) (sg_algo g)) (sgs_data (sb_sigs s))).
Proof. exact stamp_flags_ok. Qed.
Print Assumptions C45_stamp_exact.
Example C45_exact_example :
  (exists r, verify_v2_with_digest toyC toyK (Some 500) (configured toyK [root_cert]) both_block (Some ex_ctx) = VOk r) /\
  (exists r, verify_v2_with_digest toyC toyK (Some 500) (configured toyK [root_cert]) no_digest_block (Some ex_ctx) = VOk r /\
     vr_signature_valid r = false) /\
  (exists r, verify_source_stamp_with_digest toyC toyK (Some 500) (configured toyK [root_cert]) both_block None = VOk r /\
     vr_signature_valid r = true /\ vr_digest_valid r = false).
Proof.
  split; [eexists; vm_compute; reflexivity|].
  split; (eexists; split; [vm_compute; reflexivity|]); [vm_compute; reflexivity|split; vm_compute; reflexivity].
Qed.
