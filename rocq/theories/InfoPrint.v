(** InfoPrint.v - what the info command prints: /repo/src/cli/info.rs, line by line.

    As in Print.v a line is a constructor with the values that are printed in it;
    the wording, the description of a certificate (src/cli/cert.rs) and the
    messages of errors are not modelled.  The line "Error: ..." of src/main.rs:9 is
    printed for every [Err] and is not repeated here. *)
From Verif Require Import Base Utils Algorithms SchemeV2 SourceStamp ElfInfo SigningBlock Module Signer Verifier Cli Print.
Open Scope N_scope.

Inductive iline :=
| IFile (p : Cli.path) | IFileSize (n : N) | IBlank                            (* 26-28 *)
| IFound | ILocation (from to : N) | IBlockSize (n : N)                        (* 32-37 *)
| IContents                                                                    (* 42 *)
| IV2 | IStamp | IElf (n : N) | IUnknown (id : N)                              (* 46-56 *)
| IV2Details                                                                   (* 71 *)
| IField (f : field) (b : bool)                                                (* 72-75, 111-113 *)
| ILeaf (cert : bytes)                                                         (* 77-81 *)
| IChain (n : N) | IChainCert (i : N) (cert : bytes) | INoChain                (* 84-93 *)
| IWarnings | IWarning (n : N) (w : warning)                                   (* 96-99 *)
| IUnavailable (e : verify_error)                                              (* 104 *)
| IStampDetails | IStampCert (cert : bytes)                                    (* 110-119 *)
| ICannotParse | IParseError (e : err).                                        (* 128-129 *)
Inductive isaid := IOut (l : iline) | IErr (l : iline).

(** src/cli/info.rs:43-59: one entry of the block. *)
Definition info_entry (v : value) : isaid :=
  IOut (match v with
        | V2Block _ => IV2
        | StampBlk _ => IStamp
        | ElfBlock i => IElf (ei_count i)
        | BaseBlock r => IUnknown (rw_id r)
        end).

(** src/cli/info.rs:68-106. *)
Definition info_v2 (r : vres) : list isaid :=
  match r with
  | VOk r =>
      [IOut IBlank; IOut IV2Details; IOut (IField FSignature (vr_signature_valid r));
       IOut (IField FDigest (vr_digest_valid r)); IOut (IField FChain (vr_chain_valid r));
       IOut (IField FTrusted (vr_trusted r))] ++
      match vr_cert r with Some c => [IOut (ILeaf c)] | None => [] end ++
      (if nonempty (vr_chain r) then
         IOut (IChain (len (vr_chain r))) ::
         map (fun e => IOut (IChainCert (fst e) (snd e))) (numbered 0 (vr_chain r))
       else [IOut INoChain]) ++
      (if nonempty (vr_warnings r) then
         IOut IWarnings :: map (fun w => IOut (IWarning (fst w) (snd w))) (vr_warnings r)
       else [])
  | VErr e => [IOut IBlank; IOut (IUnavailable e)]
  end.

(** src/cli/info.rs:108-123. *)
Definition info_stamp (r : vres) : list isaid :=
  match r with
  | VOk r =>
      if vr_signature_valid r then
        [IOut IBlank; IOut IStampDetails; IOut (IField FSignature (vr_signature_valid r));
         IOut (IField FChain (vr_chain_valid r)); IOut (IField FTrusted (vr_trusted r))] ++
        match vr_cert r with Some c => [IOut (IStampCert c)] | None => [] end
      else []
  | VErr _ => []
  end.

(** src/cli/info.rs:20-133 [execute]: the lines printed and the exit status. *)
Definition info_prints (p : profile) (C : crypto) (K : pki) (builtin : bytes) (now : option N)
    (s : fs) (file : Cli.path) : list isaid * res unit :=
  match fs_read s file with
  | None => ([], Err (ECli 15))
  | Some f =>
      let head := [IOut (IFile file); IOut (IFileSize (len f)); IOut IBlank] in
      match from_reader p f (len f) 0 with
      | Panic => (head, Panic)
      | Err e => (head ++ [IErr ICannotParse; IErr (IParseError e)], Err e)
      | Ok b =>
          let head := head ++ [IOut IFound; IOut (ILocation (bk_start b) (bk_end b))] in
          match uadd p (bk_size_start b) 8 with
          | Ok n =>
              let roots := roots_with_builtin K builtin in
              (head ++ [IOut (IBlockSize n); IOut IBlank] ++
               (if nonempty (bk_content b) then IOut IContents :: map info_entry (bk_content b) else []) ++
               info_v2 (verify_v2_with_digest C K now roots b None) ++
               info_stamp (verify_source_stamp C K now roots b), Ok tt)
          | Err e => (head, Err e)
          | Panic => (head, Panic)
          end
      end
  end.
