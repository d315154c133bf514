(** RegionSpec.v - the parts of a module file, signed or not. *)
From Verif Require Import Base SigningBlock Zip Digest Module Signable ZipSpec.

(** The file is [content ++ mid ++ cdr ++ h ++ off ++ t], where the end record
    starts with [h] and [off] is its directory offset field.  [mid] is the
    signing block, from its start to its end; in an unsigned file it is empty and
    [content] ends at the recorded directory offset. *)
Definition regions_of (p : profile) (f : bytes) (e : eocd) (content mid cdr h off t : bytes) : Prop :=
  f = content ++ mid ++ cdr ++ h ++ off ++ t /\
  len (content ++ mid ++ cdr) = eo_off e /\ len h = 16 /\ len off = 4 /\
  ((s_get_signing_block p (module_new f) f = Ok None /\ mid = [] /\ len content = eo_cd_offset e) \/
   (exists b, s_get_signing_block p (module_new f) f = Ok (Some b) /\
      bk_start b = len content /\ bk_end b = len (content ++ mid))).

(** Two files that differ at most in their signing blocks and their directory
    offset fields. *)
Definition same_outside_block (p q : profile) (f1 f2 : bytes) (e1 e2 : eocd) : Prop :=
  exists content m1 m2 cdr h c1 c2 t,
    regions_of p f1 e1 content m1 cdr h c1 t /\ regions_of q f2 e2 content m2 cdr h c2 t.

(** The messages hashed when the module is digested. *)
Definition module_messages (p : profile) (H : bytes -> bytes) (f : bytes) (e : eocd) (ms : list bytes) : Prop :=
  exists content mid cdr h off t, regions_of p f e content mid cdr h off t /\
    digest_messages H content cdr (h ++ le 4 (len content) ++ t) ms.

(** Digesting the two files hashes two different messages to the same value. *)
Definition module_clash (p q : profile) (H : bytes -> bytes) (f1 : bytes) (e1 : eocd) (f2 : bytes) (e2 : eocd) : Prop :=
  exists m1 m2, module_messages p H f1 e1 m1 /\ module_messages q H f2 e2 m2 /\ clash H m1 m2.
