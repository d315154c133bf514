(** PropSerde.v - C74: signing blocks survive serde.

    [ser_block]/[de_block] model the serde implementations (Serde.v); [typed_block b]
    says that [b]'s numbers fit their Rust types, [algos_block b] lists the
    algorithms in [b] and [same v v'] says that two trees differ only in the
    order of map entries (SerdeSpec.v).  [canonical a]: [a] is not [Unknown] of an
    identifier that has a name (Wire.v). *)
From Verif Require Import Base BaseFacts Utils Algorithms Common SchemeV2 SourceStamp Utf8 ElfInfo
  SigningBlock Wire Built Zip Digest Module Signable ZipSpec Toy Signer Verifier ModuleVerify VerifySpec SignSpec EndToEnd
  ToyVerify Serde SerdeSpec SerdeFacts.
From Coq Require Import Strings.String Permutation.
Open Scope N_scope.

(** Reading back what was written gives the same block exactly if no algorithm in it
    is an [Unknown] that has a name. *)
Theorem C74_roundtrip : forall b, typed_block b ->
  (de_block (ser_block b) = Some b <-> Forall canonical (algos_block b)).
Proof. exact serde_roundtrip. Qed.
Print Assumptions C74_roundtrip.

(** Every block that was parsed from bytes or from a file, or built by the
    constructors, comes back unchanged. *)
Theorem C74_slice : forall p data b, len data < U64 -> from_u8 p data = Ok b -> de_block (ser_block b) = Some b.
Proof. exact serde_slice. Qed.
Print Assumptions C74_slice.
Theorem C74_reader : forall p f eo b, len f < U64 -> from_reader p f (len f) eo = Ok b -> de_block (ser_block b) = Some b.
Proof. exact serde_reader. Qed.
Print Assumptions C74_reader.
Theorem C74_built : forall l b, Forall built_value l -> block_new l = Ok b -> de_block (ser_block b) = Some b.
Proof. exact serde_built. Qed.
Print Assumptions C74_built.

(** In every case the block that comes back has the same bytes, and writing and
    reading it once more changes nothing. *)
Theorem C74_same_bytes : forall b, typed_block b ->
  exists b', de_block (ser_block b) = Some b' /\ block_to_u8 b' = block_to_u8 b /\ de_block (ser_block b') = Some b'.
Proof. exact serde_bytes2. Qed.
Print Assumptions C74_same_bytes.

(** Whatever tree is read, the result fits the Rust types and has canonical algorithms. *)
Theorem C74_accepted : forall v b, de_block v = Some b ->
  typed_block b /\ Forall canonical (algos_block b) /\ de_block (ser_block b) = Some b.
Proof. exact serde_accepted. Qed.
Print Assumptions C74_accepted.

(** Blocks written alike have the same bytes and, with canonical algorithms, are equal. *)
Theorem C74_injective : forall b b', typed_block b -> typed_block b' -> ser_block b = ser_block b' ->
  block_to_u8 b = block_to_u8 b' /\ (Forall canonical (algos_block b) -> Forall canonical (algos_block b') -> b = b').
Proof. exact serde_injective. Qed.
Print Assumptions C74_injective.

(** The order of fields does not matter, at any depth. *)
Theorem C74_order : forall v v', same v v' -> de_block v = de_block v'.
Proof. exact same_block_eq. Qed.
Print Assumptions C74_order.

(** * Examples *)
(** A signed block with a V2 signer and a stamp: it is typed, is read back, also with
    the entries of the outermost map reversed. *)
Example C74_example : from_u8 Debug (block_to_u8 both_block) = Ok both_block /\
  de_block (ser_block both_block) = Some both_block /\
  exists l, ser_block both_block = SMap l /\ len l = 7 /\ de_block (SMap (rev l)) = Some both_block.
Proof.
  split; [vm_compute; reflexivity|]. split; [vm_compute; reflexivity|].
  exists (match ser_block both_block with SMap l => l | _ => [] end).
  split; [reflexivity|]. split; vm_compute; reflexivity.
Qed.

(** The names that are written. *)
Example C74_names : ser_sig (sig_new ECDSA_SHA2_512 [x01]) =
  SMap [(bstr "size", SNum 9); (bstr "signature_algorithm_id", SNum 0x202); (bstr "signature", SSeq [SNum 1])].
Proof. reflexivity. Qed.

(** Not every block comes back unchanged: [Unknown(0x0201)] turns into the named
    algorithm. With it the signature, which was
    invalid before, is valid. *)
Definition rename_sigs (s : signer) : signer :=
  mkSigner (sn_size s) (sn_data s)
    (mkSigs (sgs_size (sn_sigs s)) (map (fun g => mkSig (sg_size g) (Unknown 0x201) (sg_data g)) (sgs_data (sn_sigs s)))) (sn_key s).
Definition unknown_block : signing_block :=
  get_ok dummy_block (block_new [V2Block (v2_new (signers_new (map rename_sigs good_signers)))]).
Theorem C74_roundtrip_refuted : exists C K now roots b b', typed_block b /\ de_block (ser_block b) = Some b' /\ b' <> b /\
  (exists r, verify_v2_with_digest C K now (configured K roots) b None = VOk r /\ vr_signature_valid r = false) /\
  (exists r, verify_v2_with_digest C K now (configured K roots) b' None = VOk r /\ vr_signature_valid r = true).
Proof.
  exists toyC, toyK, (Some 500), [root_cert]. let b := eval vm_compute in unknown_block in exists b.
  exists (get_ok dummy_block (block_new [V2Block (v2_new (signers_new good_signers))])).
  split.
  { repeat match goal with
      | |- _ /\ _ => split | |- Forall _ [] => constructor | |- Forall _ (_ :: _) => constructor
      | |- _ < _ => reflexivity | |- _ = _ => reflexivity | |- True => exact I | |- _ => progress (red; cbn -[N.lt len]) end. }
  split; [vm_compute; reflexivity|]. split; [vm_compute; discriminate|].
  split; eexists; (split; [vm_compute; reflexivity|reflexivity]).
Qed.
Print Assumptions C74_roundtrip_refuted.

(** Reading a tree checks no size: the result can be a block whose bytes are not a
    signing block. *)
Definition odd_block : signing_block := mkBlock 7 3 1 99 [BaseBlock (mkRaw 0 SIGNATURE_SCHEME_V2_BLOCK_ID [x00])] 2 (repeat x00 16).
Theorem C74_valid_refuted : exists v b, de_block v = Some b /\
  bk_size_start b <> bk_size_end b /\ (exists e, from_u8 Debug (block_to_u8 b) = Err e).
Proof. exists (ser_block odd_block), odd_block. split; [vm_compute; reflexivity|]. split; [vm_compute; discriminate|]. eexists. vm_compute. reflexivity. Qed.
Print Assumptions C74_valid_refuted.

(** A number that does not fit, a missing and a repeated field are errors; an unknown
    field is ignored. *)
Example C74_errors :
  de_sig (SMap [(bstr "size", SNum 9); (bstr "signature_algorithm_id", SNum U32); (bstr "signature", SSeq [SNum 1])]) = None /\
  de_sig (SMap [(bstr "size", SNum 9); (bstr "signature_algorithm_id", SNum 1); (bstr "signature", SSeq [SNum 256])]) = None /\
  de_sig (SMap [(bstr "size", SNum 9); (bstr "signature", SSeq [SNum 1])]) = None /\
  de_sig (SMap [(bstr "size", SNum 9); (bstr "size", SNum 9); (bstr "signature_algorithm_id", SNum 1); (bstr "signature", SSeq [SNum 1])]) = None /\
  de_sig (SMap [(bstr "note", SOther); (bstr "signature", SSeq [SNum 1]); (bstr "size", SNum 9); (bstr "signature_algorithm_id", SNum 1)]) =
    Some (mkSig 9 (Unknown 1) [x01]).
Proof. repeat split. Qed.
