(** PropFind.v - properties C69 and C70, and the full strength of C25: which
    bytes of a file are its signing block, and what signing does with a block that
    does not stand right before the directory.

    Vocabulary: FindSpec.v, Wire.v, ZipSpec.v, RegionSpec.v. *)
From Verif Require Import Base BaseFacts Utils Algorithms Common SchemeV2 SourceStamp Utf8 ElfInfo
  SigningBlock Wire Built CodecFacts BuiltFacts Spec Zip Digest Module Signable ZipSpec RegionSpec ZipFacts DigestFacts
  ModuleFacts ModuleProps RawFacts Toy PropModule FindSpec GrammarFacts GapFacts.
From Coq Require Import Strings.String Lia.
Open Scope N_scope.

(** * C69 - what counts as a signing block *)
(** A module: the bytes of the format (Wire.v) that end at the last magic before
    the directory, if that is in the 16 MiB before the directory, and nothing
    else. *)
Theorem C69_module : forall p f e b, len f < U64 -> find_eocd f (len f) = Ok e ->
  (m_get_signing_block p (module_new f) f = Ok b <->
   exists pre raw post, ends_last f (N.min (eo_cd_offset e) (len f)) pre raw post /\
     N.min (eo_cd_offset e) (len f) + 24 <= len (pre ++ raw) + 16 * 1024 * 1024 /\
     denotes b (len pre) raw).
Proof. exact c69_module. Qed.
Print Assumptions C69_module.

(** Any file and any end offset. *)
Theorem C69_reader : forall p f eo b, len f < U64 ->
  (from_reader p f (len f) eo = Ok b <->
   exists pre raw post, ends_last f (len f - eo) pre raw post /\
     len f - eo + 24 <= len (pre ++ raw) + 16 * 1024 * 1024 /\
     denotes b (len pre) raw).
Proof. exact c69_reader. Qed.
Print Assumptions C69_reader.

(** A byte string: no limit on what follows, and offsets count from the start of
    the block. *)
Theorem C69_slice : forall p data b, len data < U64 ->
  (from_u8 p data = Ok b <->
   exists pre raw post, ends_last data (len data) pre raw post /\ denotes b 0 raw).
Proof. exact c69_slice. Qed.
Print Assumptions C69_slice.

(** A module is reported as unsigned exactly if there is no magic before its
    directory. *)
Theorem C69_none : forall p f e, len f < U64 -> find_eocd f (len f) = Ok e ->
  (s_get_signing_block p (module_new f) f = Ok None <->
   24 <= len (takeN (eo_cd_offset e) f) /\ no_block_magic (takeN (eo_cd_offset e) f)).
Proof. exact c69_none. Qed.
Print Assumptions C69_none.

Example C69_example : len ex_signed < U64 /\ (exists e, find_eocd ex_signed (len ex_signed) = Ok e) /\
  m_get_signing_block Debug (module_new ex_signed) ex_signed = Ok (offset_by ex_block 36) /\
  from_u8 Debug (bstr "before" ++ block_to_u8 ex_block ++ bstr "after") = Ok ex_block /\
  len (plain ex_zip) < U64 /\ s_get_signing_block Debug (module_new (plain ex_zip)) (plain ex_zip) = Ok None.
Proof.
  split; [ vm_compute; reflexivity | ]. split; [ eexists; vm_compute; reflexivity | ].
  do 3 (split; [ vm_compute; reflexivity | ]). vm_compute. reflexivity.
Qed.

(** * C25 - no signing over a corrupted block *)
(** The last magic before the directory ends no signing block: no other block
    further up is taken instead, the module does not count as unsigned, and
    nothing is written. *)
Theorem C25_broken : forall p f b e x y, len f < U64 -> find_eocd f (len f) = Ok e ->
  takeN (eo_cd_offset e) f = x ++ MAGIC ++ y ->
  8 + (len (x ++ MAGIC ++ y) - N.min (len (x ++ MAGIC ++ y)) (16 * 1024 * 1024)) <= len x ->
  (forall x' y', takeN (eo_cd_offset e) f = x' ++ MAGIC ++ y' -> len x' <= len x) ->
  no_block_ends (x ++ MAGIC) ->
  (forall b0, m_get_signing_block p (module_new f) f <> Ok b0) /\
  s_get_signing_block p (module_new f) f <> Ok None /\
  exists r, s_write_with_signature p (module_new f) f b = ([], r) /\ r <> Ok tt.
Proof. exact c25_broken. Qed.
Print Assumptions C25_broken.
(** A module with a whole block, then text, then a stray magic. *)
Definition stray : bytes := z_entries ex_zip ++ block_to_u8 ex_block ++ bstr "and some text".
Definition stray_zip : zip := mkZip (stray ++ MAGIC) (z_cd ex_zip) (z_head ex_zip) (z_comment ex_zip).
Example C25_broken_example : let f := plain stray_zip in exists e, len f < U64 /\ find_eocd f (len f) = Ok e /\
  takeN (eo_cd_offset e) f = stray ++ MAGIC ++ [] /\
  8 + (len (stray ++ MAGIC ++ []) - N.min (len (stray ++ MAGIC ++ [])) (16 * 1024 * 1024)) <= len stray /\
  (forall x' y', takeN (eo_cd_offset e) f = x' ++ MAGIC ++ y' -> len x' <= len stray) /\
  no_block_ends (stray ++ MAGIC).
Proof.
  cbv zeta. eexists. split; [ vm_compute; reflexivity | ]. split; [ vm_compute; reflexivity | ].
  split; [ vm_compute; reflexivity | ]. split; [ vm_compute; discriminate | ]. split.
  - intros x' y' E. apply (f_equal (@len byte)) in E. rewrite !len_app in E.
    match type of E with ?l = _ => let n := eval vm_compute in l in change l with n in E end.
    change (len MAGIC) with 16 in E. let n := eval vm_compute in (len stray) in change (len stray) with n. lia.
  - apply no_block_check. vm_compute. reflexivity.
Qed.

(** * C70 - signing again when something stands between block and directory *)
(** The new file is the archive with the gap after its entries, and the new
    block after the gap. *)
Theorem C70_written : forall p q z raw gap b0 b, zip_ok z (raw ++ gap) -> zip_small z (raw ++ gap) ->
  zip_ok (with_gap z gap) [] ->
  let f := with_block z (raw ++ gap) in
  m_get_signing_block p (module_new f) f = Ok b0 ->
  bk_start b0 = len (z_entries z) -> bk_end b0 = len (z_entries z) + len raw ->
  s_write_with_signature q (module_new f) f b = (with_block (with_gap z gap) (block_to_u8 b), Ok tt).
Proof. exact gap_write. Qed.
Print Assumptions C70_written.

(** The digest that signing computed is not that of the file it wrote, or two
    different messages hashed for the two digests have the same hash. *)
Theorem C70_digest : forall p q C s1 s2 z raw gap b0 b a d1 d2 n e1 e2, fills s1 -> fills s2 ->
  0 < n -> (forall x, len (hash C a x) = n) ->
  zip_ok z (raw ++ gap) -> zip_small z (raw ++ gap) -> gap <> [] ->
  let f := with_block z (raw ++ gap) in
  m_get_signing_block p (module_new f) f = Ok b0 ->
  bk_start b0 = len (z_entries z) -> bk_end b0 = len (z_entries z) + len raw ->
  let out := with_block (with_gap z gap) (block_to_u8 b) in
  built_block b -> zip_ok (with_gap z gap) (block_to_u8 b) -> zip_small (with_gap z gap) (block_to_u8 b) ->
  m_digest p C s1 (module_new f) f a = Ok d1 -> m_digest q C s2 (module_new out) out a = Ok d2 ->
  find_eocd f (len f) = Ok e1 -> find_eocd out (len out) = Ok e2 ->
  d1 = d2 -> module_clash p q (hash C a) f e1 out e2.
Proof. exact gap_digest. Qed.
Print Assumptions C70_digest.

(** Without a gap the digest stays, whoever wrote the old block. *)
Theorem C70_adjacent : forall p q r C sched z raw b0 b a, zip_ok z raw -> zip_small z raw ->
  let f := with_block z raw in
  m_get_signing_block p (module_new f) f = Ok b0 ->
  bk_start b0 = len (z_entries z) -> bk_end b0 = len (z_entries z) + len raw ->
  built_block b -> zip_ok z (block_to_u8 b) -> zip_small z (block_to_u8 b) ->
  exists d, m_digest q C sched (module_new f) f a = Ok d /\
    m_digest r C sched (module_new (with_block z (block_to_u8 b))) (with_block z (block_to_u8 b)) a = Ok d.
Proof. exact adjacent_digest. Qed.
Print Assumptions C70_adjacent.

Definition ex_gap : bytes := bstr "gap".
Definition gap_file : bytes := with_block ex_zip (block_to_u8 ex_block ++ ex_gap).
Definition gap_out : bytes := with_block (with_gap ex_zip ex_gap) (block_to_u8 ex_block2).
Example C70_example :
  zip_ok ex_zip (block_to_u8 ex_block ++ ex_gap) /\ zip_small ex_zip (block_to_u8 ex_block ++ ex_gap) /\
  zip_ok (with_gap ex_zip ex_gap) [] /\ zip_ok (with_gap ex_zip ex_gap) (block_to_u8 ex_block2) /\
  (exists b0, m_get_signing_block Debug (module_new gap_file) gap_file = Ok b0 /\
     bk_start b0 = len (z_entries ex_zip) /\ bk_end b0 = len (z_entries ex_zip) + len (block_to_u8 ex_block)) /\
  s_write_with_signature Debug (module_new gap_file) gap_file ex_block2 = (gap_out, Ok tt) /\
  exists d1 d2, m_digest Debug toyC fr (module_new gap_file) gap_file ECDSA_SHA2_256 = Ok d1 /\
    m_digest Debug toyC fr (module_new gap_out) gap_out ECDSA_SHA2_256 = Ok d2 /\ beq d1 d2 = false.
Proof.
  split; [ zip_ok_tac | ]. split; [ vm_compute; reflexivity | ]. split; [ zip_ok_tac | ]. split; [ zip_ok_tac | ].
  split; [ exists (offset_by ex_block 36); split; [ vm_compute; reflexivity | split; [ vm_compute; reflexivity | vm_compute; reflexivity ] ] | ].
  split; [ vm_compute; reflexivity | ].
  eexists. eexists. split; [ vm_compute; reflexivity | ]. split; [ vm_compute; reflexivity | ]. vm_compute. reflexivity.
Qed.
