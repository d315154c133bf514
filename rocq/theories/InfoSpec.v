(** InfoSpec.v - vocabulary of C77: the lines of the info command and what they
    say about the bytes of the file. *)
From Verif Require Import Base Utils Algorithms SchemeV2 SourceStamp ElfInfo SigningBlock Wire Module Signer Verifier Cli Print PrintSpec InfoPrint.
Open Scope N_scope.

(** The lines about single entries of the block. *)
Definition about_entry (x : isaid) : bool :=
  match x with IOut IV2 | IOut IStamp | IOut (IElf _) | IOut (IUnknown _) => true | _ => false end.

(** What such a line says about an entry (id and body) of the block. *)
Definition tells (e : N * bytes) (x : isaid) : Prop :=
  match x with
  | IOut IV2 => fst e = 0x7109871a
  | IOut IStamp => fst e = 0x6dff800d
  | IOut (IElf n) => fst e = 0x4c45534b /\ exists rest, snd e = le 4 n ++ rest
  | IOut (IUnknown id) => id = fst e /\ id <> 0x7109871a /\ id <> 0x6dff800d /\ id <> 0x4c45534b
  | _ => False
  end.

(** The lines that depend on the file around the block. *)
Definition about_file (x : isaid) : bool :=
  match x with IOut (IFile _) | IOut (IFileSize _) | IOut (ILocation _ _) => true | _ => false end.

(** A block of these entries. *)
Definition block_bytes (entries : list (N * bytes)) : bytes :=
  block_layout (concat (map (fun e => pair (fst e) (snd e)) entries)).

(** A line of the V2 section with this heading. *)
Definition v2_section (out : list isaid) (sig digest chain trusted : bool) : Prop :=
  exists a b, out = a ++ [IOut IV2Details; IOut (IField FSignature sig); IOut (IField FDigest digest);
                          IOut (IField FChain chain); IOut (IField FTrusted trusted)] ++ b.
Definition stamp_section (out : list isaid) (sig chain trusted : bool) : Prop :=
  exists a b, out = a ++ [IOut IStampDetails; IOut (IField FSignature sig);
                          IOut (IField FChain chain); IOut (IField FTrusted trusted)] ++ b.

(** The lines of the command, each with the condition under which it is printed.
    [v2] and [st] are what the verifier reports for the block without digests. *)
Inductive block_line (b : signing_block) (v2 st : vres) : isaid -> Prop :=
| bl_found : block_line b v2 st (IOut IFound)
| bl_location : block_line b v2 st (IOut (ILocation (bk_start b) (bk_end b)))
| bl_size : block_line b v2 st (IOut (IBlockSize (bk_size_start b + 8)))
| bl_contents : bk_content b <> [] -> block_line b v2 st (IOut IContents)
| bl_v2 : forall x, In (V2Block x) (bk_content b) -> block_line b v2 st (IOut IV2)
| bl_stamp : forall x, In (StampBlk x) (bk_content b) -> block_line b v2 st (IOut IStamp)
| bl_elf : forall x, In (ElfBlock x) (bk_content b) -> block_line b v2 st (IOut (IElf (ei_count x)))
| bl_unknown : forall x, In (BaseBlock x) (bk_content b) -> block_line b v2 st (IOut (IUnknown (rw_id x)))
| bl_details : forall r, v2 = VOk r -> block_line b v2 st (IOut IV2Details)
| bl_field : forall r f, v2 = VOk r -> block_line b v2 st (IOut (IField f (reported f r)))
| bl_leaf : forall r c, v2 = VOk r -> vr_cert r = Some c -> block_line b v2 st (IOut (ILeaf c))
| bl_chain : forall r, v2 = VOk r -> vr_chain r <> [] -> block_line b v2 st (IOut (IChain (len (vr_chain r))))
| bl_chain_cert : forall r i c, v2 = VOk r -> nth_error (vr_chain r) i = Some c -> block_line b v2 st (IOut (IChainCert (N.of_nat i) c))
| bl_no_chain : forall r, v2 = VOk r -> vr_chain r = [] -> block_line b v2 st (IOut INoChain)
| bl_warnings : forall r, v2 = VOk r -> vr_warnings r <> [] -> block_line b v2 st (IOut IWarnings)
| bl_warning : forall r n w, v2 = VOk r -> In (n, w) (vr_warnings r) -> block_line b v2 st (IOut (IWarning n w))
| bl_unavailable : forall e, v2 = VErr e -> block_line b v2 st (IOut (IUnavailable e))
| bl_stamp_details : forall r, st = VOk r -> vr_signature_valid r = true -> block_line b v2 st (IOut IStampDetails)
| bl_stamp_field : forall r f, st = VOk r -> vr_signature_valid r = true -> f <> FDigest ->
    block_line b v2 st (IOut (IField f (reported f r)))
| bl_stamp_cert : forall r c, st = VOk r -> vr_signature_valid r = true -> vr_cert r = Some c -> block_line b v2 st (IOut (IStampCert c)).

Definition info_line p C K builtin now (s : fs) (file : Cli.path) (x : isaid) : Prop :=
  exists f, fs_read s file = Some f /\
    (x = IOut (IFile file) \/ x = IOut (IFileSize (len f)) \/ x = IOut IBlank \/
     (exists e, from_reader p f (len f) 0 = Err e /\ (x = IErr ICannotParse \/ x = IErr (IParseError e))) \/
     (exists b, from_reader p f (len f) 0 = Ok b /\
        block_line b (verify_v2_with_digest C K now (roots_with_builtin K builtin) b None)
                     (verify_source_stamp C K now (roots_with_builtin K builtin) b) x)).
