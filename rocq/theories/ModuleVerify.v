(** ModuleVerify.v - model of the verification methods of
    /repo/src/file_formats/module/mod.rs. *)
From Verif Require Import Base Utils Algorithms Common SchemeV2 SourceStamp SigningBlock Zip Digest
  Module Signer Verifier.
Open Scope N_scope.

(** The algorithms of the digest entries in the order in which the loops of
    src/file_formats/module/mod.rs:135-167 (= 206-238) meet them. *)
Definition digest_algos (content : list value) : list algorithms :=
  flat_map (fun v => match v with
    | V2Block v2 =>
        flat_map (fun s => map dg_algo (dgs_data (sd_digests (sn_data s)))) (sns_data (v2_signers v2))
    | StampBlk s => map dg_algo (dgs_data (st_digests (sb_data (ss_block s))))
    | _ => []
    end) content.

(** src/file_formats/module/mod.rs:144-148, 158-162, 215-219, 229-233: compute if not already present,
    skip errors.  [dsched a] is the read schedule of [self.digest(a)]. *)
Fixpoint fill_context (p : profile) (C : crypto) (dsched : algorithms -> nat -> nat -> N)
    (m : module) (file : bytes) (l : list algorithms) (ctx : context) : res context :=
  match l with
  | [] => Ok ctx
  | a :: l =>
      match get_digest ctx (u32_of_algo a) with
      | Some _ => fill_context p C dsched m file l ctx
      | None =>
          match m_digest p C (dsched a) m file a with
          | Ok d => fill_context p C dsched m file l (add_digest ctx (u32_of_algo a) d)
          | Err _ => fill_context p C dsched m file l ctx
          | Panic => Panic
          end
      end
  end.

(** src/file_formats/module/mod.rs:182-242 [verify_with_roots]. *)
Definition m_verify_with_roots (p : profile) (C : crypto) (K : pki) (now : option N)
    (dsched : algorithms -> nat -> nat -> N) (m : module) (file : bytes) (roots : trusted_roots)
  : res verify_all :=
  match m_get_signing_block p m file with
  | Ok b =>
      do ctx <- fill_context p C dsched m file (digest_algos (bk_content b)) ctx_new;
      Ok (verify_all_with_digest C K now roots b (Some ctx))
  | Err e => Ok (mkAll (VErr (VInvalidSignature e)) (VErr VNoSignature))
  | Panic => Panic
  end.

(** src/file_formats/module/mod.rs:114-171 [verify_full]: the same with the built-in roots. *)
Definition m_verify_full p C K now dsched m file (builtin : bytes) : res verify_all :=
  m_verify_with_roots p C K now dsched m file (roots_with_builtin K builtin).
