(** ToyCli.v - a toy file system for the examples of PropCli.v.  Nothing here is
    part of the model. *)
From Verif Require Import Base BaseFacts Utils Algorithms Common SchemeV2 SourceStamp Utf8 ElfInfo
  SigningBlock Zip Digest Module Signable ZipSpec ZipFacts Toy Signer Verifier ModuleVerify VerifySpec SignSpec EndToEnd ToyVerify
  Keystore Elf ElfSpec ToyElf Cli CliSpec.
From Coq Require Import Strings.String.
Open Scope N_scope.

(** Keys are "8" + P-256 key or "9" + P-384 key; certificates are separated by
    line feeds. *)
Definition after (x : byte) (s : bytes) : option bytes :=
  match s with y :: r => if Byte.eqb x y then Some r else None | [] => None end.
Fixpoint lines (s : bytes) : list bytes :=
  match s with
  | [] => [[]]
  | x :: r => if Byte.eqb x x0a then [] :: lines r else
              match lines r with l :: ls => (x :: l) :: ls | [] => [[x]] end
  end.
Definition toyKL : keylib :=
  mkKeylib (after x38) (after x39) (fun _ => None) (fun _ => None) (fun _ _ => None) (fun _ _ => None)
    (after x38) (after x39) (fun _ => None) (fun _ => None)
    (fun s => Some (CERT_TAG, s)) (fun s => Some (map (fun l => (CERT_TAG, l)) (lines s)))
    (fun _ => true) (fun d _ => Some [d]) (fun _ _ => Some [bstr "ZSkey2"]).

(** The file names; "link" is the same file as "in". *)
Definition toy_files : list (path * N) :=
  [(bstr "in", 1); (bstr "out", 2); (bstr "key1", 3); (bstr "cert1", 4); (bstr "key2", 5); (bstr "cert2", 6);
   (bstr "root", 7); (bstr "link", 1)].
Fixpoint lookup {A} (k : bytes) (l : list (bytes * A)) : option A :=
  match l with [] => None | (x, a) :: r => if beq x k then Some a else lookup k r end.
Definition file_no (p : path) : N := match lookup p toy_files with Some n => n | None => 99 end.

(** "in" holds [data], "out" holds an older file. *)
Definition toy_fs (data : bytes) : fs :=
  mkFs file_no (fun n =>
    match n with
    | 1 => Some data
    | 2 => Some (bstr "old")
    | 3 => Some (bstr "8key1") | 4 => Some (leaf_cert ++ [x0a] ++ inter_cert)
    | 5 => Some (bstr "9key2") | 6 => Some (bstr "ZSkey2")
    | 7 => Some (x50 :: root_cert)
    | _ => None
    end) (fun _ => true) (fun _ => true).

Definition key1 : key_args := mkKeyArgs None (Some (bstr "key1")) (Some (bstr "cert1")) None.
Definition key2 : key_args := mkKeyArgs None (Some (bstr "key2")) (Some (bstr "cert2")) None.
Definition no_key : key_args := mkKeyArgs None None None None.
Definition toy_args : sign_args := mkSignArgs (bstr "in") (bstr "out") key1 key2 [].
Definition in_place (p : path) : sign_args := mkSignArgs (bstr "in") p key1 key2 [].

Lemma toy_signer : forall data, cli_signer toyKL (toy_fs data) toy_args = Ok signer12.
Proof. reflexivity. Qed.

Definition fr2 : algorithms -> nat -> nat -> N := fun _ _ => full_reads.
(** Signing the example archive. *)
Definition toy_run : list step * res unit :=
  cli_sign Debug toyC toyKL all_ok (Some 500) fr2 (toy_fs (plain ex_zip)) toy_args.
Definition signed_fs : fs := run (toy_fs (plain ex_zip)) (fst toy_run).

(** The example archive with a whole signing block in its comment. *)
Definition comment_zip : zip :=
  mkZip (z_entries ex_zip) (z_cd ex_zip) (z_head ex_zip) (block_to_u8 ex_block).

(** An ELF file whose header gives the index of the name table in the first
    section header ([e_shstrndx] = 0xffff). *)
Definition toy_xindex : bytes :=
  let h := ehdr_size Class64 in
  let pre := toy_names ++ toy_text ++ toy_rodata in
  ehdr_to_u8 x64 (mkEhdr (ident_of x64) 1 62 1 0 0 (h + len pre) 0 h 0 0 64 4 65535) ++
  pre ++ flat_map (shdr_to_u8 x64)
    [mkShdr 0 0 0 0 0 0 3 0 0 0; text_at x64 toy_names; rodata_at x64 toy_names;
     mkShdr 15 3 0 0 h (len toy_names) 0 0 1 0].

(** As [toy_fs], with another first certificate. *)
Definition cert_fs (data cert : bytes) : fs :=
  mkFs file_no (fun n => if n =? 4 then Some cert else fs_data (toy_fs data) n) (fun _ => true) (fun _ => true).
