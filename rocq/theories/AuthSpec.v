(** AuthSpec.v - vocabulary of C94: what the owner of a key has signed with the
    library. *)
From Verif Require Import Base Algorithms Common SchemeV2 SourceStamp Utf8 SigningBlock Wire Zip Digest Module Signable
  ZipSpec RegionSpec Signer VerifySpec Elf ElfSpec.
Open Scope N_scope.

(** Something to be signed: a module file with its end record, or sections of an
    ELF file. *)
Inductive subject :=
| Archive (p : profile) (f : bytes) (e : eocd)
| Sections (rest : bytes -> bool) (f : bytes) (names : list rstring).

(** [e] is the end record that the library finds, and the file is not too long
    for a file. *)
Definition proper (x : subject) : Prop :=
  match x with
  | Archive p f e => len f < 2 ^ 63 /\ find_eocd f (len f) = Ok e /\ (p = Debug \/ eo_cd_offset e <= eo_off e)
  | Sections _ _ _ => True
  end.

(** The library computes [d] as the digest of [x]. *)
Definition digest_of (C : crypto) (x : subject) (a : algorithms) (d : bytes) : Prop :=
  match x with
  | Archive p f e => exists sched, fills sched /\ m_digest p C sched (module_new f) f a = Ok d
  | Sections rest f names => elf_digest rest C (mkElfFile f names) a = Ok d
  end.
Definition digests_of (C : crypto) (x : subject) (l : list (algorithms * bytes)) : Prop :=
  Forall (fun y => canonical (fst y) /\ digest_of C x (fst y) (snd y)) l.

(** With the key whose public key is [pub], the library has been used to sign
    the message [m], over digests of [x] - for a module signature or for a stamp. *)
Inductive purpose := ForModule | ForStamp.
Inductive has_signed (C : crypto) (pub : bytes) (x : subject) : purpose -> bytes -> Prop :=
| signed_v2 cfg l v sg :
    public_key_der C (sc_key cfg) = Ok pub -> digests_of C x l ->
    v2_sign_pairs C cfg l = Ok v -> In sg (sns_data (v2_signers v)) -> len (v2_message sg) < 2 ^ 32 ->
    has_signed C pub x ForModule (v2_message sg)
| signed_stamp clock timestamp cfg l st :
    public_key_der C (sc_key cfg) = Ok pub -> digests_of C x l ->
    stamp_sign_pairs C clock timestamp cfg l = Ok st -> len (stamp_message (ss_block st)) < 2 ^ 32 ->
    has_signed C pub x ForStamp (stamp_message (ss_block st))
| signed_old_stamp clock cfg l st :
    public_key_der C (oc_key cfg) = Ok pub -> digests_of C x l ->
    old_stamp_sign_pairs C clock cfg l = Ok st -> len (stamp_message (ss_block st)) < 2 ^ 32 ->
    has_signed C pub x ForStamp (stamp_message (ss_block st)).

(** The bytes that a digest is about, one after the other: a module without its
    signing block and with the directory offset it has without the block; or the
    contents of the sections. *)
Inductive about : subject -> bytes -> Prop :=
| about_archive p f e content mid cdr h off t : regions_of p f e content mid cdr h off t ->
    about (Archive p f e) (content ++ cdr ++ h ++ le 4 (len content) ++ t)
| about_sections rest f names ts : resolved_sections rest (mkElfFile f names) = Ok ts ->
    about (Sections rest f names) (flat_map (section_bytes f) ts).

(** The same content.  For two modules: they differ in their signing blocks and
    directory offset fields only. *)
Definition same_content (x y : subject) : Prop :=
  (exists b, about x b /\ about y b) /\
  match x, y with
  | Archive p f e, Archive q g e' => same_outside_block p q f g e e'
  | _, _ => True
  end.

(** The messages that are hashed to digest [x]; two different ones with the same
    hash. *)
Definition hashed (H : bytes -> bytes) (x : subject) (ms : list bytes) : Prop :=
  match x with
  | Archive p f e => module_messages p H f e ms
  | Sections rest f names => exists ts cs, resolved_sections rest (mkElfFile f names) = Ok ts /\
      section_chunks f ts cs /\ ms = tree_messages H cs
  end.
Definition collide (C : crypto) (x y : subject) : Prop :=
  exists a m1 m2, (a = ECDSA_SHA2_256 \/ a = ECDSA_SHA2_512) /\
    hashed (hash C a) x m1 /\ hashed (hash C a) y m2 /\ clash (hash C a) m1 m2.
