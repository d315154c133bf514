(** MainSpec.v - vocabulary of C86: the files that a command line names, and the
    files on which a debug build stops. *)
From Verif Require Import Base SigningBlock Zip Module Cli Main.
Open Scope N_scope.

(** The file that a command may create or change. *)
Definition output_of (c : command) : option path :=
  match c with CSign a => Some (sa_output a) | CDigest a => da_dump a | CVerify _ _ | CInfo _ => None end.

(** The files that it reads. *)
Definition optional {A} (o : option A) : list A := match o with Some x => [x] | None => [] end.
Definition key_files (k : key_args) : list path := optional (ka_p12 k) ++ optional (ka_key k) ++ optional (ka_cert k).
Definition inputs_of (c : command) : list path :=
  match c with
  | CSign a => sa_input a :: key_files (sa_v2 a) ++ key_files (sa_stamp a)
  | CVerify file root => file :: optional root
  | CInfo file => [file]
  | CDigest a => [da_input a]
  end.

(** The block that a reader finds from the given distance to the end of the file
    declares two different sizes. *)
Definition sizes_differ (f : bytes) (from_end : N) : Prop :=
  from_reader Release f (len f) from_end = Err (EParsingFullBlock ESizesDiffer).
(** Modules on which a debug build stops: the sizes differ, or the block (without
    block: the directory) would be behind the end record. *)
Definition block_of (f : bytes) (e : eocd) : res signing_block := from_reader Release f (len f) (len f - eo_cd_offset e).
Definition stops_block (f : bytes) : Prop := exists e, find_eocd f (len f) = Ok e /\ sizes_differ f (len f - eo_cd_offset e).
Definition stops_signed (f : bytes) : Prop := exists e b, find_eocd f (len f) = Ok e /\ block_of f e = Ok b /\ eo_off e < bk_end b.
Definition stops_unsigned (f : bytes) : Prop :=
  exists e x, find_eocd f (len f) = Ok e /\ block_of f e = Err x /\ maybe_missing_signature x = true /\ eo_off e < eo_cd_offset e.

(** Two file systems that give the same to a command: the files it reads have the
    same content, and the output can be created in both or in neither and is one
    of the input files in both or in neither. *)
Definition same_inputs (s1 s2 : fs) (c : command) : Prop := Forall (fun q => fs_read s1 q = fs_read s2 q) (inputs_of c).
Definition same_output (s1 s2 : fs) (c : command) : Prop :=
  forall o, output_of c = Some o -> fs_can_create s1 o = fs_can_create s2 o /\
    Forall (fun q => fs_file s1 q = fs_file s1 o <-> fs_file s2 q = fs_file s2 o) (inputs_of c).
