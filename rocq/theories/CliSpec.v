(** CliSpec.v - vocabulary of the properties about the command-line tool:
    intermediate states of a run, prefixes, hexadecimal digits. *)
From Verif Require Import Base Algorithms Utf8 Verifier Signable Elf Cli.
Open Scope N_scope.

(** The states of the file system that can be observed, or left behind by a
    crash, a kill or a failing write, while [l] is being executed: after some of
    the steps, or in the middle of an [Append] of which any number of bytes have
    arrived. *)
Inductive reached (s : fs) : list step -> fs -> Prop :=
| reached_start l : reached s l s
| reached_cut f b l n : reached s (Append f b :: l) (apply s (Append f (takeN n b)))
| reached_next x l s' : reached (apply s x) l s' -> reached s (x :: l) s'.

(** [a] is an initial part of [b]. *)
Definition prefix (a b : bytes) : Prop := exists c, b = a ++ c.

(** The value of a lower-case hexadecimal digit. *)
Definition hex_value (c : byte) (n : N) : Prop :=
  (n < 10 /\ Byte.to_N c = 48 + n) \/ (10 <= n < 16 /\ Byte.to_N c = 97 + (n - 10)).

(** The text spells the bytes, two digits each, high half first. *)
Inductive spells : bytes -> bytes -> Prop :=
| spells_nil : spells [] []
| spells_cons hi lo text b data h l :
    hex_value hi h -> hex_value lo l -> Byte.to_N b = 16 * h + l ->
    spells text data -> spells (hi :: lo :: text) (b :: data).

(** ** Regions *)
(** [size] bytes from offset [off]. *)
Definition slice (file : bytes) (off size : N) : bytes := takeN size (dropN off file).

(** A region that can be copied. *)
Definition region_in (file : bytes) (g : region) : Prop :=
  rg_offset g < 2 ^ 63 /\ (rg_size g = 0 \/ rg_offset g + rg_size g <= len file).
(** Their bytes, in order, and their total size. *)
Definition region_bytes (file : bytes) (l : list region) : bytes :=
  List.concat (map (fun g => slice file (rg_offset g) (rg_size g)) l).
Definition sizes (l : list region) : N := fold_right (fun g n => rg_size g + n) 0 l.

(** ** Roots *)
(** [roots] are the certificates that the command trusts: the certificate in
    the given PEM file, or the built-in one if no file is given. *)
Definition roots_given (K : pki) (builtin : bytes) (s : fs) (root : option path) (roots : list bytes) : Prop :=
  match root with
  | Some q => exists pem cert, fs_read s q = Some pem /\ pem_parse K pem = Some (CERTIFICATE_TAG, cert) /\ roots = [cert]
  | None => match pem_parse K builtin with
            | Some (tag, cert) => if beq tag CERTIFICATE_TAG then roots = [cert] else roots = []
            | None => roots = []
            end
  end.

(** ** Section lists *)
(** A Rust [String]: a sequence of Unicode scalar values. *)
Definition scalars (n : rstring) : Prop := Forall (fun c => is_scalar c = true) n.
Definition name_of (t : tuple) : rstring := fst (fst t).
(** The bytes that the list of signed sections takes in a signing block: 16, and
    for every section 18 more than its name. *)
Definition info_bytes (ts : list tuple) : N := 16 + fold_right (fun t n => 18 + len (utf8_enc (name_of t)) + n) 0 ts.
