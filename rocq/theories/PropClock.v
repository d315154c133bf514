(** PropClock.v - C96: what the clock and the configured roots can change.

    [verify_v2_t], [cli_verify_t] (Clock.v) read the clock anew for every certificate
    chain: [clk i] is the reading for the [i]-th V2 signer, any function at all.
    ClockSpec.v: [same_but_trust], [certs_of], [no_gaps], [reads_between];
    VerifySpec.v: [trusted K now roots leaf others], [configured K roots]. *)
From Verif Require Import Base BaseFacts Utils Algorithms Common SchemeV2 SourceStamp ElfInfo SigningBlock Zip Digest Module Signable ZipSpec
  Toy Signer Verifier ModuleVerify VerifySpec ToyVerify Keystore Elf ToyElf Cli ToyCli CliSpec Clock ClockSpec ClockFacts ClockFacts2.
From Coq Require Import Strings.String Lia.
Open Scope N_scope.
Open Scope list_scope.

(** * C96 *)
(** A clock that stands still gives the verification of Verifier.v and Cli.v. *)
Theorem C96_frozen : forall p C K builtin now ds s file root roots b ctx,
  verify_v2_t C K (fun _ => now) roots b ctx = verify_v2_with_digest C K now roots b ctx /\
  cli_verify_t p C K builtin (fun _ => now) now ds s file root = cli_verify p C K builtin now ds s file root.
Proof. intros. split; [apply v2_frozen|apply cli_frozen]. Qed.
Print Assumptions C96_frozen.

(** Neither the clock nor the roots change the errors, the signature and digest flags
    and the certificates reported, of the module signature and of the stamp. *)
Theorem C96_checks : forall C K clk clk' t t' roots roots' b ctx,
  same_but_trust (verify_v2_t C K clk roots b ctx) (verify_v2_t C K clk' roots' b ctx) /\
  same_but_trust (verify_source_stamp_with_digest C K t roots b ctx) (verify_source_stamp_with_digest C K t' roots' b ctx).
Proof. intros. split; [apply v2_same|apply stamp_same']. Qed.
Print Assumptions C96_checks.

(** A module signature is trusted if and only if the chain of every signer is trusted
    at the moment that signer is checked. *)
Theorem C96_trust : forall C K clk roots b ctx r, verify_v2_t C K clk (configured K roots) b ctx = VOk r ->
  (vr_trusted r = true <-> forall i s, nth_error (v2_signers_of b) i = Some s ->
     exists leaf others, certs_of s leaf others /\ trusted K (clk i) roots leaf others).
Proof. exact v2_trust. Qed.
Print Assumptions C96_trust.

(** What the verify command accepts at two moments it accepts with a clock that runs
    anywhere between them. *)
Theorem C96_between : forall p C K builtin t1 t2 clk clk_stamp ds s file root, no_gaps K ->
  (forall n, reads_between t1 t2 (clk n)) -> reads_between t1 t2 clk_stamp ->
  cli_verify p C K builtin (Some t1) ds s file root = Ok tt -> cli_verify p C K builtin (Some t2) ds s file root = Ok tt ->
  cli_verify_t p C K builtin clk clk_stamp ds s file root = Ok tt.
Proof. exact cli_between. Qed.
Print Assumptions C96_between.

(** If the leaf of every signer is itself a configured root, the clock does not matter
    at all: such a certificate does not expire. *)
Theorem C96_direct : forall C K clk clk' roots b ctx,
  (forall s, In s (v2_signers_of b) -> exists leaf others, certs_of s leaf others /\ In leaf roots) ->
  verify_v2_t C K clk (configured K roots) b ctx = verify_v2_t C K clk' (configured K roots) b ctx.
Proof. exact v2_direct. Qed.
Print Assumptions C96_direct.

(** The same for the verification methods of the library. *)
Theorem C96_library : forall p C K clk clk' t t' ds m f roots roots',
  m_verify_with_roots_t p C K (fun _ => t) t ds m f roots = m_verify_with_roots p C K t ds m f roots /\
  same_report (m_verify_with_roots_t p C K clk t ds m f roots) (m_verify_with_roots_t p C K clk' t' ds m f roots').
Proof. intros. split; [apply module_frozen|apply module_same]. Qed.
Print Assumptions C96_library.

Theorem C96_library_between : forall p C K t1 t2 clk clk_stamp ds m f roots a1 a2, no_gaps K ->
  (forall n, reads_between t1 t2 (clk n)) -> reads_between t1 t2 clk_stamp ->
  m_verify_with_roots p C K (Some t1) ds m f roots = Ok a1 -> is_valid a1 = true ->
  m_verify_with_roots p C K (Some t2) ds m f roots = Ok a2 -> is_valid a2 = true ->
  exists a, m_verify_with_roots_t p C K clk clk_stamp ds m f roots = Ok a /\ is_valid a = true.
Proof. intros p C K t1 t2 clk clk_stamp ds m f roots a1 a2 G B B'. exact (module_between p C K t1 t2 clk clk_stamp ds m f roots a1 a2 G B B'). Qed.
Print Assumptions C96_library_between.

(** Exactly when verification with a running clock accepts: every signer and the stamp
    are good ([accepts_at], ClockSpec.v), each at the moment its own chain is checked. *)
Theorem C96_exact : forall p C K builtin clk clk_stamp ds s file root,
  cli_verify_t p C K builtin clk clk_stamp ds s file root = Ok tt <->
  exists f b roots, fs_read s file = Some f /\ m_get_signing_block p (module_new f) f = Ok b /\ roots_given K builtin s root roots /\
    v2_signers_of b <> [] /\ accepts_at C K clk clk_stamp roots (fun a d => m_digest p C (ds a) (module_new f) f a = Ok d) b.
Proof. exact cli_exact. Qed.
Print Assumptions C96_exact.

Theorem C96_library_exact : forall p C K clk clk_stamp ds f roots r, len f < U64 ->
  m_verify_with_roots_t p C K clk clk_stamp ds (module_new f) f (configured K roots) = Ok r ->
  (is_valid r = true <-> exists b, m_get_signing_block p (module_new f) f = Ok b /\
     accepts_at C K clk clk_stamp roots (fun a d => m_digest p C (ds a) (module_new f) f a = Ok d) b).
Proof. exact module_exact. Qed.
Print Assumptions C96_library_exact.

(** ** Examples *)
Lemma toy_no_gaps : no_gaps toyK.
Proof.
  intros roots leaf others t1 t t2 B. cbn [Verifier.path toyK]. unfold toy_path.
  destruct (N.ltb_spec 1000 t1); [discriminate|]. destruct (N.ltb_spec 1000 t2); [discriminate|].
  destruct (N.ltb_spec 1000 t); [lia|auto].
Qed.
(** The block of the example with its module signature twice, checked while time
    passes; the chain expires at 1000. *)
Definition twice_block : signing_block :=
  let c := bk_content zip_block in fresh_block (takeN 1 c ++ c).
Definition twice_ctx : context := map (fun p => (u32_of_algo (fst p), snd p)) zip_pairs.
Definition at_times (t0 t1 : N) (n : nat) : option N := match n with O => Some t0 | _ => Some t1 end.
Definition trust_at (t0 t1 : N) (roots : list bytes) : option (nat * bool * bool) :=
  match verify_v2_t toyC toyK (at_times t0 t1) (configured toyK roots) twice_block (Some twice_ctx) with
  | VOk r => Some (List.length (vr_signers r), vr_signature_valid r && vr_digest_valid r, vr_trusted r)
  | VErr _ => None
  end.
Example C96_example :
  trust_at 400 600 [root_cert] = Some (2%nat, true, true) /\ trust_at 400 2000 [root_cert] = Some (2%nat, true, false) /\
  trust_at 400 600 [] = Some (2%nat, true, false).
Proof. split; [vm_compute; reflexivity|]. split; vm_compute; reflexivity. Qed.
(** The leaf as a root: trusted for ever. *)
Example C96_direct_example :
  (forall s, In s (v2_signers_of twice_block) -> exists leaf others, certs_of s leaf others /\ In leaf [leaf_cert]) /\
  trust_at 400 2000 [leaf_cert] = Some (2%nat, true, true).
Proof.
  split; [|vm_compute; reflexivity].
  assert (F : forallb (fun s => match map ct_data (cts_data (sd_certs (sn_data s))) with l :: _ => beq l leaf_cert | [] => false end)
                (v2_signers_of twice_block) = true) by (vm_compute; reflexivity).
  intros s I. pose proof (proj1 (forallb_forall _ _) F s I) as E. clear F. cbv beta in E. unfold certs_of.
  destruct (map ct_data (cts_data (sd_certs (sn_data s)))) as [|l r]; [discriminate|]. apply beq_eq in E. subst l. exists leaf_cert, r. split; [reflexivity|left; reflexivity].
Qed.
(** The verify command, started at 400 and finished at 600. *)
Example C96_between_example :
  cli_verify Debug toyC toyK [] (Some 400) fr2 signed_fs (bstr "out") (Some (bstr "root")) = Ok tt /\
  cli_verify Debug toyC toyK [] (Some 600) fr2 signed_fs (bstr "out") (Some (bstr "root")) = Ok tt /\
  cli_verify_t Debug toyC toyK [] (at_times 400 550) (Some 600) fr2 signed_fs (bstr "out") (Some (bstr "root")) = Ok tt /\
  cli_verify_t Debug toyC toyK [] (at_times 400 550) (Some 2000) fr2 signed_fs (bstr "out") (Some (bstr "root")) = Err (ECli 14).
Proof.
  split; [vm_compute; reflexivity|]. split; [vm_compute; reflexivity|]. split; vm_compute; reflexivity.
Qed.

(** The library on the same file: valid while the clock stays below 1000, not valid
    (but otherwise the same) if it passes it before the stamp is checked. *)
Definition lib_valid (clk : nat -> option N) (t : option N) : option (bool * bool * bool) :=
  match fs_read signed_fs (bstr "out") with
  | Some f => match m_verify_with_roots_t Debug toyC toyK clk t fr2 (module_new f) f (configured toyK [root_cert]) with
              | Ok a => Some (is_valid a, has_v2 a, has_source_stamp a) | _ => None end
  | None => None
  end.
Example C96_library_example :
  lib_valid (at_times 400 400) (Some 400) = Some (true, true, true) /\ lib_valid (at_times 600 600) (Some 600) = Some (true, true, true) /\
  lib_valid (at_times 400 550) (Some 600) = Some (true, true, true) /\ lib_valid (at_times 400 550) (Some 2000) = Some (false, true, true).
Proof. split; [vm_compute; reflexivity|]. split; [vm_compute; reflexivity|]. split; vm_compute; reflexivity. Qed.
