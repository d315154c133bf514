(** PropRace.v - C73: the sign and verify commands while other processes change
    the files.

    [H : moments] gives the file system at each step of the sign command
    (Race.v); nothing is assumed about how they are related.  [V : vmoments]
    is the same for verify.  Vocabulary: ZipSpec.v, RegionSpec.v, VerifySpec.v,
    CliSpec.v. *)
From Verif Require Import Base BaseFacts Utils Algorithms Common SchemeV2 SourceStamp Utf8 ElfInfo
  SigningBlock Wire Built BuiltFacts Spec Zip Digest Module Signable ZipSpec RegionSpec ZipFacts DigestFacts ModuleFacts
  ModuleProps RawFacts Toy Signer Verifier ModuleVerify VerifySpec VerifyFacts SignSpec SignFacts VerifyProps
  EndToEnd ToyVerify Keystore Elf ElfSpec ElfFacts ToyElf Cli CliSpec CliFacts CliProps CliProps2 ToyCli Race RaceFacts.
From Coq Require Import Strings.String.
Open Scope N_scope.

(** Without other processes the model is that of C49-C52. *)
Theorem C73_undisturbed : forall p C L rest clk ds s a,
  cli_sign p C L rest clk ds s a =
  let r := cli_sign_race p C L rest clk ds (undisturbed s (sa_output a)) a in (steps_of (fst r), snd r).
Proof. exact no_race. Qed.
Print Assumptions C73_undisturbed.
Theorem C73_verify_undisturbed : forall p C K builtin now ds s file root,
  cli_verify_race p C K builtin now ds (mkVMoments s s s (fun _ => s)) file root =
  cli_verify p C K builtin now ds s file root.
Proof. exact verify_no_race. Qed.
Print Assumptions C73_verify_undisturbed.

(** A block that signs any digests [l] whatever, inserted in an unsigned module:
    the result is valid exactly if the digests are those of that module and the
    certificates are trusted. *)
Theorem C73_library : forall q u C K clk now ds roots z m l b, crypto_ok C ->
  zip_ok z [] -> unsigned z -> Forall (fun x => canonical (fst x)) l -> NoDup (map fst l) ->
  (forall a, In a (required_algorithms m) -> In a (map fst l)) ->
  ms_sign q C clk m (digests_of_pairs l) = Ok b ->
  zip_ok z (block_to_u8 b) -> zip_small z (block_to_u8 b) ->
  (forall c, ms_v2 m = Some c \/ ms_stamp m = Some c -> certified C K c) ->
  let out := with_block z (block_to_u8 b) in
  exists res, m_verify_with_roots u C K now ds (module_new out) out (configured K roots) = Ok res /\
  (is_valid res = true <->
     (forall a d, In a (required_algorithms m) -> In (a, d) l ->
        m_digest u C (ds a) (module_new (plain z)) (plain z) a = Ok d) /\
     (forall c, ms_v2 m = Some c -> trusted K now roots (sc_cert c) (sc_chain c)) /\
     (forall c, ms_stamp m = Some c -> trusted K now roots (sc_cert c) [])).
Proof. exact sign_any_verify. Qed.
Print Assumptions C73_library.

(** The sign command exited with 0 and wrote [w]; when it read the input for
    writing, that was the unsigned module [z].  Whatever the input was before:
    verify accepts [w] exactly if every digest that was signed, computed from
    what the input was at that moment, is the digest of [z], and the
    certificates are trusted. *)
Theorem C73_sign : forall p q C K L rest builtin clk now ds1 ds2 H a f w z signer s' file root pem r f0,
  crypto_ok C ->
  cli_sign_race p C L rest clk ds1 H a = (Some (f, w), Ok tt) ->
  cli_signer L (at_keys H) a = Ok signer ->
  (forall c, ms_v2 signer = Some c \/ ms_stamp signer = Some c -> certified C K c) ->
  (forall t, fs_read (at_detect H) (sa_input a) <> Some (ELFMAG ++ t)) ->
  fs_read (at_open H) (sa_input a) = Some f0 ->
  fs_read (at_read H) (sa_input a) = Some (plain z) -> zip_ok z [] -> unsigned z ->
  (forall blk, len blk <= 16392 -> zip_ok z blk /\ zip_small z blk) ->
  len f0 = len (plain z) \/ (forall x y, plain z <> x ++ MAGIC ++ y) ->
  fs_read s' file = Some w -> fs_read s' root = Some pem -> pem_parse K pem = Some (CERTIFICATE_TAG, r) ->
  (cli_verify q C K builtin now ds2 s' file (Some root) = Ok tt <->
     (forall i x, nth_error (required_algorithms signer) i = Some x -> exists d,
        m_digest p C (ds1 x) (module_new f0) (now_content (fs_read (at_digest H i) (sa_input a))) x = Ok d /\
        m_digest q C (ds2 x) (module_new (plain z)) (plain z) x = Ok d) /\
     (forall c, ms_v2 signer = Some c -> trusted K now [r] (sc_cert c) (sc_chain c)) /\
     (forall c, ms_stamp signer = Some c -> trusted K now [r] (sc_cert c) [])).
Proof. exact race_sign_verify. Qed.
Print Assumptions C73_sign.

(** So if verify accepts what was written, the input was, whenever it was
    digested, the same as what was written, or two different messages hashed on
    the way have the same hash. *)
Theorem C73_content : forall p q C K L rest builtin clk now ds1 ds2 H a f w z signer s' file root pem r f0 i x g e,
  crypto_ok C -> hash_sized C -> (forall y, fills (ds1 y)) -> (forall y, fills (ds2 y)) ->
  cli_sign_race p C L rest clk ds1 H a = (Some (f, w), Ok tt) ->
  cli_signer L (at_keys H) a = Ok signer ->
  (forall c, ms_v2 signer = Some c \/ ms_stamp signer = Some c -> certified C K c) ->
  (forall t, fs_read (at_detect H) (sa_input a) <> Some (ELFMAG ++ t)) ->
  fs_read (at_open H) (sa_input a) = Some f0 ->
  fs_read (at_read H) (sa_input a) = Some (plain z) -> zip_ok z [] -> unsigned z ->
  (forall blk, len blk <= 16392 -> zip_ok z blk /\ zip_small z blk) ->
  len f0 = len (plain z) \/ (forall x y, plain z <> x ++ MAGIC ++ y) ->
  fs_read s' file = Some w -> fs_read s' root = Some pem -> pem_parse K pem = Some (CERTIFICATE_TAG, r) ->
  cli_verify q C K builtin now ds2 s' file (Some root) = Ok tt ->
  nth_error (required_algorithms signer) i = Some x ->
  fs_read (at_digest H i) (sa_input a) = Some g -> len g = len f0 -> len g < 2 ^ 63 ->
  find_eocd g (len g) = Ok e -> p = Debug \/ eo_cd_offset e <= eo_off e ->
  let e' := zip_eocd z (len (z_entries z) + len (z_cd z)) (len (z_entries z)) in
  module_clash p q (hash C x) g e (plain z) e' \/ same_outside_block p q g (plain z) e e'.
Proof. exact race_binding. Qed.
Print Assumptions C73_content.

(** An ELF file is read once: the run is that of an undisturbed command on the
    file as it was when it was opened. *)
Theorem C73_elf : forall p C L rest clk ds H a s t t',
  fs_read (at_detect H) (sa_input a) = Some (ELFMAG ++ t) ->
  fs_read (at_open H) (sa_input a) = Some (ELFMAG ++ t') ->
  fs_read s (sa_input a) = Some (ELFMAG ++ t') -> cli_signer L s a = cli_signer L (at_keys H) a ->
  fs_can_create s (sa_output a) = fs_can_create (at_create H) (sa_output a) ->
  fs_file s (sa_output a) = fs_file (at_create H) (sa_output a) ->
  let r := cli_sign_race p C L rest clk ds H a in
  cli_sign p C L rest clk ds s a = (steps_of (fst r), snd r).
Proof. exact race_elf. Qed.
Print Assumptions C73_elf.

(** verify: the block is checked against the digests of what the file was when
    each of them was computed. *)
Theorem C73_verify : forall p C K builtin now ds V file root,
  cli_verify_race p C K builtin now ds V file root = Ok tt <->
  exists f b roots, fs_read (v_open V) file = Some f /\
    m_get_signing_block p (module_new f) (now_content (fs_read (v_block V) file)) = Ok b /\
    roots_given K builtin (v_root V) root roots /\
    let dig := fun a => m_digest p C (ds a) (module_new f) (now_content (fs_read (v_digest V a) file)) a in
    let D := fun a d => dig a = Ok d in
    dig ECDSA_SHA2_256 <> Panic /\ dig ECDSA_SHA2_512 <> Panic /\
    v2_signers_of b <> [] /\ Forall (v2_signer_good C K now roots D) (v2_signers_of b) /\
    match stamps_of b with [] => True | st :: _ => stamp_good C K now roots D st end.
Proof. exact verify_race. Qed.
Print Assumptions C73_verify.

(** Examples: another module of the same length. *)
Definition swapped_zip : zip := mkZip (rev (z_entries ex_zip)) (z_cd ex_zip) (z_head ex_zip) (z_comment ex_zip).
Definition race_at (opened digested : bytes) (written : bytes) : moments :=
  mkMoments (toy_fs opened) (toy_fs opened) (toy_fs opened) (toy_fs opened) (fun _ => toy_fs digested)
    (toy_fs digested) (toy_fs opened) (toy_fs written).
Definition race_toy (H : moments) : option (N * bytes) * res unit :=
  cli_sign_race Debug toyC toyKL all_ok (Some 500) fr2 H toy_args.
Definition left_by (r : option (N * bytes) * res unit) : fs := run (toy_fs []) (steps_of (fst r)).
Definition toy_accepts (s : fs) : bool :=
  match cli_verify Debug toyC toyK [] (Some 500) fr2 s (bstr "out") (Some (bstr "root")) with Ok _ => true | _ => false end.
Definition exit_0 (r : option (N * bytes) * res unit) : bool :=
  match r with (Some _, Ok _) => true | _ => false end.

(** The module was replaced between digesting and writing: exit status 0, but
    what was written is refused.  It was replaced before digesting: it is
    accepted, as what is now in the file is what was signed. *)
Example C73_example :
  (let r := race_toy (race_at (plain ex_zip) (plain ex_zip) (plain swapped_zip)) in exit_0 r && negb (toy_accepts (left_by r))) = true /\
  (let r := race_toy (race_at (plain ex_zip) (plain swapped_zip) (plain swapped_zip)) in exit_0 r && toy_accepts (left_by r)) = true.
Proof. split; vm_compute; reflexivity. Qed.
(** The hypotheses about the archive are met by both. *)
Example C73_example_hypotheses : len (plain ex_zip) = len (plain swapped_zip) /\ plain ex_zip <> plain swapped_zip /\
  zip_ok swapped_zip [] /\ unsigned swapped_zip /\
  (forall blk, len blk <= 16392 -> zip_ok swapped_zip blk /\ zip_small swapped_zip blk) /\
  cli_signer toyKL (at_keys (race_at (plain ex_zip) (plain swapped_zip) (plain swapped_zip))) toy_args = Ok signer12.
Proof.
  split; [vm_compute; reflexivity|]. split; [vm_compute; discriminate|].
  assert (Z : zip_ok swapped_zip []) by zip_ok_tac. split; [exact Z|].
  split; [split; [vm_compute; discriminate|apply no_magic_check; vm_compute; reflexivity]|].
  split; [apply blocks_fit; [exact Z|vm_compute; reflexivity..]|]. reflexivity.
Qed.
(** A signed file that is emptied after its block was read, and one that is
    replaced by the unsigned module only for the second digest. *)
Definition late (a2 a5 : fs) : vmoments :=
  mkVMoments signed_fs signed_fs signed_fs (fun a => match a with ECDSA_SHA2_256 => a2 | _ => a5 end).
Example C73_verify_example :
  cli_verify_race Debug toyC toyK [] (Some 500) fr2 (late signed_fs signed_fs) (bstr "out") (Some (bstr "root")) = Ok tt /\
  cli_verify_race Debug toyC toyK [] (Some 500) fr2 (late (put signed_fs 2 []) (put signed_fs 2 [])) (bstr "out") (Some (bstr "root")) <> Ok tt /\
  cli_verify_race Debug toyC toyK [] (Some 500) fr2 (late signed_fs (put signed_fs 2 (plain ex_zip))) (bstr "out") (Some (bstr "root")) <> Ok tt.
Proof. split; [vm_compute; reflexivity|split; vm_compute; discriminate]. Qed.
