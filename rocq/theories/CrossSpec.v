(** CrossSpec.v - vocabulary of C65 and C66 *)
From Verif Require Import Base Utils Algorithms Common SchemeV2 SourceStamp Utf8 ElfInfo SigningBlock Wire VerifySpec.
Open Scope N_scope.

(** What both kinds of signature are made over: digests, certificates and
    attributes, one after the other. *)
Definition signed_content (d : digests) (c : certificates) (a : attributes) : bytes :=
  digests_to_u8 d ++ certs_to_u8 c ++ attrs_to_u8 a.

(** A stamp copied into a V2 signer: same digests, certificates, attributes,
    signatures and key; the declared size of the signed data is the length of
    its content. *)
Definition transplant (sb : stamp_block) : signer :=
  signer_new
    (mkSD (len (signed_content (st_digests (sb_data sb)) (st_certs (sb_data sb)) (st_attrs (sb_data sb))))
       (st_digests (sb_data sb)) (st_certs (sb_data sb)) (st_attrs (sb_data sb)))
    (sb_sigs sb) (sb_key sb).

(** The bytes the library writes for [v] are an encoding of [v] in the grammar
    of Wire.v. *)
Definition faithful (v : value) : Prop := W_value v (value_to_u8 v).
