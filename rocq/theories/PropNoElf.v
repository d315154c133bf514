(** PropNoElf.v - C90: builds with and without ELF support (cargo feature [elf]).

    [from_reader], [m_digest], ... are the functions of the default build;
    [from_reader_w value_parse_n], [m_digest_w value_parse_n], ... (NoElf.v) those of a
    build without ELF support.  [same_block b c] (NoElfSpec.v): [c] is [b] with its
    section lists kept as bytes; [no_list v]: [v] has the identifier of section lists
    and is none. *)
From Verif Require Import Base BaseFacts Utils Algorithms Common SchemeV2 SourceStamp ElfInfo Wire SigningBlock Zip Digest Module Signable ZipSpec
  Toy Signer Verifier ModuleVerify VerifySpec ToyVerify ToyElf Cli SigningBlock NoElf NoElfSpec NoElfFacts.

Open Scope N_scope.
Open Scope list_scope.

(** * C90 *)
(** NoElf.v with the parser of the default build is the default build. *)
Theorem C90_default : forall p f n eo d m C sched a b K now ds roots,
  from_reader_w value_parse p f n eo = from_reader p f n eo /\ from_u8_w value_parse p d = from_u8 p d /\
  m_get_signing_block_w value_parse p m f = m_get_signing_block p m f /\
  m_digest_w value_parse p C sched m f a = m_digest p C sched m f a /\
  m_get_raw_module_w value_parse p m f = m_get_raw_module p m f /\
  s_write_with_signature_w value_parse p m f b = s_write_with_signature p m f b /\
  m_verify_with_roots_w value_parse p C K now ds m f roots = m_verify_with_roots p C K now ds m f roots.
Proof.
  intros. repeat split; [apply reader_default|apply u8_default|apply sb_default|apply digest_default|apply raw_default|apply write_default|apply verify_default].
Qed.
Print Assumptions C90_default.

(** Reading a block, from a file and from bytes: what the build with ELF support reads
    the other reads as well; the other reads more, exactly the blocks with a value that
    claims to be a section list and is none. *)
Theorem C90_read : forall p f n eo, len f < 2 ^ 64 ->
  let x := from_reader p f n eo in let y := from_reader_w value_parse_n p f n eo in
  (forall b, x = Ok b -> exists c, y = Ok c /\ same_block b c) /\
  (forall c, y = Ok c -> (exists b, x = Ok b) <-> ~ Exists no_list (bk_content c)) /\
  ((exists e, y = Err e) -> exists e, x = Err e) /\ (y = Panic <-> x = Panic).
Proof. intros. now apply alike_words, reader_alike. Qed.
Print Assumptions C90_read.
Theorem C90_read_bytes : forall p d, len d < 2 ^ 64 ->
  let x := from_u8 p d in let y := from_u8_w value_parse_n p d in
  (forall b, x = Ok b -> exists c, y = Ok c /\ same_block b c) /\
  (forall c, y = Ok c -> (exists b, x = Ok b) <-> ~ Exists no_list (bk_content c)) /\
  ((exists e, y = Err e) -> exists e, x = Err e) /\ (y = Panic <-> x = Panic).
Proof. intros. now apply alike_words, u8_alike. Qed.
Print Assumptions C90_read_bytes.

(** Unless the build with ELF support fails on its own to read the block of a module,
    both compute the same digest, recover the same unsigned module, write the same
    bytes and come to the same verdict. *)
Theorem C90_same : forall p f, len f < 2 ^ 64 ->
  (forall e, m_get_signing_block p (module_new f) f = Err e -> m_get_signing_block_w value_parse_n p (module_new f) f = Err e) ->
  (forall C sched a, m_digest_w value_parse_n p C sched (module_new f) f a = m_digest p C sched (module_new f) f a) /\
  m_get_raw_module_w value_parse_n p (module_new f) f = m_get_raw_module p (module_new f) f /\
  (forall b, s_write_with_signature_w value_parse_n p (module_new f) f b = s_write_with_signature p (module_new f) f b) /\
  (forall C K now ds roots, m_verify_with_roots_w value_parse_n p C K now ds (module_new f) f roots =
     m_verify_with_roots p C K now ds (module_new f) f roots).
Proof.
  intros p f Hl H. repeat split; intros; [now apply digest_same|now apply raw_same|now apply write_same|now apply verify_same].
Qed.
Print Assumptions C90_same.

(** If it does, it computes no digest, writes nothing and reports an invalid signature. *)
Theorem C90_refuses : forall p f e, len f < 2 ^ 64 ->
  m_get_signing_block p (module_new f) f = Err e -> m_get_signing_block_w value_parse_n p (module_new f) f <> Err e ->
  (forall C sched a, m_digest p C sched (module_new f) f a = Err (EBlockCorrupted e)) /\
  (forall b, s_write_with_signature p (module_new f) f b = ([], Err (ECannotSignCorrupted e))) /\
  (forall C K now ds roots, m_verify_with_roots p C K now ds (module_new f) f roots =
     Ok (mkAll (VErr (VInvalidSignature e)) (VErr VNoSignature))).
Proof. exact refuses. Qed.
Print Assumptions C90_refuses.

(** Opening: files that do not start like an ELF file open alike; a file that starts
    like one opens as a module exactly if it has an end record. *)
Theorem C90_open : forall rest f, (forall t, f <> ELFMAG ++ t) -> signable_open rest (Some f) = do m <- open_n f; Ok (SModule m).
Proof. exact open_same. Qed.
Print Assumptions C90_open.
Theorem C90_open_elf : forall t, let f := ELFMAG ++ t in
  (open_n f = Ok (module_new f) <-> exists e, find_eocd f (len f) = Ok e) /\ (forall m, open_n f = Ok m -> m = module_new f).
Proof. exact open_elf. Qed.
Print Assumptions C90_open_elf.

(** ** Examples *)
(** The signed archive with one more value: a section list, and none. *)
Definition listed_block (v : value) : signing_block := fresh_block (takeN 2 (bk_content zip_block) ++ [v]).
Definition good_list : value := ElfBlock (info_from_tuples [([46; 116], 64, 7)]).
Definition bad_list : value := BaseBlock (raw_new ELF_SECTION_INFO_BLOCK_ID [x01]).
Definition with_list (v : value) : bytes := with_block ex_zip (block_to_u8 (listed_block v)).
Example C90_same_example : let f := with_list good_list in exists b c,
  m_get_signing_block Debug (module_new f) f = Ok b /\ m_get_signing_block_w value_parse_n Debug (module_new f) f = Ok c /\ b <> c /\
  bk_content c = takeN 2 (bk_content b) ++ [BaseBlock (raw_new ELF_SECTION_INFO_BLOCK_ID (dropN 12 (value_to_u8 good_list)))] /\
  exists r, m_verify_with_roots Debug toyC toyK (Some 500) (fun _ _ => full_reads) (module_new f) f (configured toyK [root_cert]) = Ok r /\
    is_valid r = true /\
    m_verify_with_roots_w value_parse_n Debug toyC toyK (Some 500) (fun _ _ => full_reads) (module_new f) f (configured toyK [root_cert]) = Ok r.
Proof.
  eexists. eexists. split; [vm_compute; reflexivity|]. split; [vm_compute; reflexivity|]. split; [discriminate|]. split; [vm_compute; reflexivity|].
  eexists. split; [vm_compute; reflexivity|]. split; vm_compute; reflexivity.
Qed.
(** The module the two builds disagree about: valid for one, unreadable for the other. *)
Example C90_refuses_example : let f := with_list bad_list in
  (exists e, m_get_signing_block Debug (module_new f) f = Err e) /\ (exists b, m_get_signing_block_w value_parse_n Debug (module_new f) f = Ok b /\ Exists no_list (bk_content b)) /\
  (exists r, m_verify_with_roots_w value_parse_n Debug toyC toyK (Some 500) (fun _ _ => full_reads) (module_new f) f (configured toyK [root_cert]) = Ok r /\
    is_valid r = true) /\
  exists r, m_verify_with_roots Debug toyC toyK (Some 500) (fun _ _ => full_reads) (module_new f) f (configured toyK [root_cert]) = Ok r /\ is_valid r = false.
Proof.
  intros f. repeat split.
  - eexists. vm_compute. reflexivity.
  - eexists. split; [vm_compute; reflexivity|]. right. right. left. eexists. split; [reflexivity|]. split; [reflexivity|].
    intros i [used [more [E [raws [_ [-> _]]]]]]. discriminate E.
  - eexists. split; vm_compute; reflexivity.
  - eexists. split; vm_compute; reflexivity.
Qed.

(** An archive with the first bytes of an ELF file in front, and one without. *)
Example C90_open_example :
  let f := ELFMAG ++ plain ex_zip in open_n f = Ok (module_new f) /\
  (forall t, plain ex_zip <> ELFMAG ++ t) /\ open_n (plain ex_zip) = Ok (module_new (plain ex_zip)).
Proof. split; [vm_compute; reflexivity|]. split; [intros t; discriminate|vm_compute; reflexivity]. Qed.
