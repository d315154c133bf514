(** PropDigestAlgo.v - C29 and C55: which hash function the digests use.

    C29_digest and C55_is_digest are stated with the model's [hash C a].  The
    theorems here name the hash function of each algorithm, so that they fail
    if the functions are exchanged or an unknown algorithm hashes something.
    Vocabulary: ZipSpec.v ([fills], [is_digest], [tree_digest]) and
    RegionSpec.v ([regions_of]). *)
From Verif Require Import Base BaseFacts Utils Algorithms Zip Digest Module ZipSpec RegionSpec
  DigestFacts ModuleFacts ModuleProps PropModule Elf ElfSpec PropElf Toy.
Open Scope N_scope.

(** * C29 - modules *)
Theorem C29_sha256 : forall p C sched f e d, fills sched -> len f < 2 ^ 63 -> find_eocd f (len f) = Ok e ->
  p = Debug \/ eo_cd_offset e <= eo_off e -> m_digest p C sched (module_new f) f ECDSA_SHA2_256 = Ok d ->
  exists content mid cdr h off t, regions_of p f e content mid cdr h off t /\
    is_digest (sha256 C) content cdr (h ++ le 4 (len content) ++ t) d.
Proof. intros p C sched f e d Hs Hf He Hp H. exact (C29_digest p C sched f e ECDSA_SHA2_256 d Hs Hf He Hp H). Qed.
Print Assumptions C29_sha256.
Theorem C29_sha512 : forall p C sched f e d, fills sched -> len f < 2 ^ 63 -> find_eocd f (len f) = Ok e ->
  p = Debug \/ eo_cd_offset e <= eo_off e -> m_digest p C sched (module_new f) f ECDSA_SHA2_512 = Ok d ->
  exists content mid cdr h off t, regions_of p f e content mid cdr h off t /\
    is_digest (sha512 C) content cdr (h ++ le 4 (len content) ++ t) d.
Proof. intros p C sched f e d Hs Hf He Hp H. exact (C29_digest p C sched f e ECDSA_SHA2_512 d Hs Hf He Hp H). Qed.
Print Assumptions C29_sha512.
(** An unknown algorithm gives the empty digest, for every file, module and
    read schedule. *)
Theorem C29_unknown : forall p C sched m f u d, m_digest p C sched m f (Unknown u) = Ok d -> d = [].
Proof.
  intros p C sched m f u d H. unfold m_digest in H.
  destruct (m_get_offsets p m f) as [o| |]; try discriminate. cbn [bind] in H. unfold digest_module in H.
  repeat (match type of H with bind ?x _ = _ => destruct x; try discriminate; cbn [bind] in H end).
  unfold digest_final in H. cbn [hash] in H. congruence.
Qed.
Print Assumptions C29_unknown.
Example C29_algorithms_example :
  (exists d, m_digest Debug toyC fr (module_new ex_signed) ex_signed ECDSA_SHA2_512 = Ok d /\ d <> []) /\
  m_digest Debug toyC fr (module_new ex_signed) ex_signed (Unknown 7) = Ok [].
Proof.
  split; [ | vm_compute; reflexivity ].
  eexists. split; [ vm_compute; reflexivity | discriminate ].
Qed.

(** * C55 - ELF files *)
Theorem C55_sha256 : forall rest C f d, elf_digest rest C f ECDSA_SHA2_256 = Ok d ->
  exists ts cs, resolved_sections rest f = Ok ts /\ section_chunks (el_data f) ts cs /\ d = tree_digest (sha256 C) cs.
Proof. intros rest C f d H. exact (C55_is_digest rest C f ECDSA_SHA2_256 d H). Qed.
Print Assumptions C55_sha256.
Theorem C55_sha512 : forall rest C f d, elf_digest rest C f ECDSA_SHA2_512 = Ok d ->
  exists ts cs, resolved_sections rest f = Ok ts /\ section_chunks (el_data f) ts cs /\ d = tree_digest (sha512 C) cs.
Proof. intros rest C f d H. exact (C55_is_digest rest C f ECDSA_SHA2_512 d H). Qed.
Print Assumptions C55_sha512.
Theorem C55_unknown : forall rest C f u d, elf_digest rest C f (Unknown u) = Ok d -> d = [].
Proof.
  intros rest C f u d H. destruct (C55_is_digest rest C f (Unknown u) d H) as (ts & cs & _ & _ & ->). reflexivity.
Qed.
Print Assumptions C55_unknown.
