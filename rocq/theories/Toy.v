(** Toy.v - concrete archives, blocks and cryptographic functions used to show
    that the hypotheses of the theorems can be met, and as counterexamples.
    Nothing here is part of the model. *)
From Verif Require Import Base BaseFacts Utils Algorithms Common SchemeV2 SourceStamp Utf8 ElfInfo
  SigningBlock Zip Digest Module Signable ZipSpec ZipFacts ModuleFacts RawFacts ModuleProps DigestFacts.
From Coq Require Import Strings.String.
Open Scope N_scope.

(** A toy signature scheme (a signature is the key followed by the message)
    over a given hash. *)
Definition toy_crypto (h : bytes -> bytes) : crypto :=
  mkCrypto h h
    Some Some Some Some
    (fun k d s => beq s (k ++ d)) (fun k d s => beq s (k ++ d))
    (fun k d => k ++ d) (fun k d => k ++ d)
    Some Some Some Some.

(** A hash with 32-byte results. *)
Definition toy_hash (x : bytes) : bytes :=
  le 32 (fold_left (fun acc b => N.land (acc * 257 + to_N b + 1) 0xffffff) x 7).
Lemma toy_hash_len x : len (toy_hash x) = 32.
Proof. unfold toy_hash. apply len_le. Qed.
Definition toyC : crypto := toy_crypto toy_hash.
(** The identity as hash: has no collision. *)
Definition idC : crypto := toy_crypto (fun x => x).

(** A small archive with a two-byte comment. *)
Definition ex_entries : bytes := bstr "PK" ++ [x03; x04] ++ zeros 20 ++ bstr "hello, world".
Definition ex_zip : zip :=
  mkZip ex_entries (bstr "PK" ++ [x01; x02] ++ zeros 10)
    (le 2 0 ++ le 2 0 ++ le 2 1 ++ le 2 1 ++ le 4 14) (bstr "hi").

Lemma no_magic_check entries :
  forallb (fun o => negb (beq (sub entries (N.of_nat o) (N.of_nat o + 16)) MAGIC)) (seq 0 (List.length entries)) = true ->
  no_block_magic entries.
Proof.
  intros H a b E. exfalso. rewrite forallb_forall in H.
  assert (Hl : len entries = len a + 16 + len b) by (rewrite E, !len_app; change (len MAGIC) with 16; lia).
  assert (K : In (N.to_nat (len a)) (seq 0 (List.length entries))) by (apply in_seq; rewrite length_len; lia).
  apply H in K. rewrite N2Nat.id in K. rewrite E in K.
  rewrite sub_app in K; [ | auto | change (len MAGIC) with 16; auto ]. rewrite beq_refl in K. discriminate.
Qed.

Ltac zip_ok_tac := split; [ reflexivity | split; [ reflexivity | split; [ reflexivity | apply only_record_check; vm_compute; reflexivity ] ] ].

Lemma ex_zip_ok : zip_ok ex_zip [].
Proof. zip_ok_tac. Qed.
Lemma ex_unsigned : unsigned ex_zip.
Proof. split; [ vm_compute; discriminate | apply no_magic_check; vm_compute; reflexivity ]. Qed.
Lemma ex_small : zip_small ex_zip [].
Proof. vm_compute. reflexivity. Qed.

(** Blocks. *)
Definition ex_block : signing_block :=
  match block_new [BaseBlock (raw_new 0x1234 [x01; x02; x03])] with Ok b => b | _ => mkBlock 0 0 0 0 [] 0 [] end.
Definition ex_block2 : signing_block :=
  match block_new [BaseBlock (raw_new 0x1234 []); BaseBlock (raw_new 0x99 [xff])] with Ok b => b | _ => mkBlock 0 0 0 0 [] 0 [] end.
Definition empty_block : signing_block :=
  match block_new [] with Ok b => b | _ => mkBlock 0 0 0 0 [] 0 [] end.

Definition ex_signed : bytes := with_block ex_zip (block_to_u8 ex_block).
(** The same file with another central directory offset. *)
Definition ex_moved : bytes :=
  z_entries ex_zip ++ block_to_u8 ex_block ++ z_cd ex_zip ++
  end_record ex_zip (len (z_entries ex_zip ++ block_to_u8 ex_block) + 7).

Lemma c32_refuted : ex_moved <> ex_signed /\ forall p C sched a,
  s_get_signing_block p (module_new ex_moved) ex_moved = s_get_signing_block p (module_new ex_signed) ex_signed /\
  m_digest p C sched (module_new ex_moved) ex_moved a = m_digest p C sched (module_new ex_signed) ex_signed a /\
  exists e b, find_eocd ex_moved (len ex_moved) = Ok e /\
    s_get_signing_block p (module_new ex_moved) ex_moved = Ok (Some b) /\ eo_cd_offset e = bk_end b + 7.
Proof.
  split; [ vm_compute; discriminate | ]. intros p C sched a. split; [ destruct p; vm_compute; reflexivity | ].
  split.
  - assert (O1 : m_get_offsets p (module_new ex_moved) ex_moved = Ok (mkOffsets 0 (len (z_entries ex_zip))
      (len (z_entries ex_zip) + len (block_to_u8 ex_block))
      (len (z_entries ex_zip ++ block_to_u8 ex_block ++ z_cd ex_zip))
      (len (z_entries ex_zip ++ block_to_u8 ex_block ++ z_cd ex_zip)) (len ex_moved)))
      by (destruct p; vm_compute; reflexivity).
    assert (O2 : m_get_offsets p (module_new ex_signed) ex_signed = Ok (mkOffsets 0 (len (z_entries ex_zip))
      (len (z_entries ex_zip) + len (block_to_u8 ex_block))
      (len (z_entries ex_zip ++ block_to_u8 ex_block ++ z_cd ex_zip))
      (len (z_entries ex_zip ++ block_to_u8 ex_block ++ z_cd ex_zip)) (len ex_signed)))
      by (destruct p; vm_compute; reflexivity).
    unfold m_digest. rewrite O1, O2. cbn [bind].
    rewrite (digest_regions_ok p C sched ex_moved a (z_entries ex_zip) (block_to_u8 ex_block) (z_cd ex_zip)
      (end_record ex_zip (len (z_entries ex_zip ++ block_to_u8 ex_block) + 7)));
      [ | reflexivity | reflexivity | vm_compute; discriminate ].
    rewrite (digest_regions_ok p C sched ex_signed a (z_entries ex_zip) (block_to_u8 ex_block) (z_cd ex_zip)
      (end_record ex_zip (len (z_entries ex_zip) + len (block_to_u8 ex_block))));
      [ | reflexivity | reflexivity | vm_compute; discriminate ].
    do 5 f_equal.
  - do 2 eexists. split; [ vm_compute; reflexivity | ].
    split; [ destruct p; vm_compute; reflexivity | reflexivity ].
Qed.
