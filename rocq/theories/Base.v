(** Base.v - machine integers, byte strings, outcomes.

    Shared vocabulary of the model.  Definitions only; facts about them are in
    [BaseFacts.v].  Nothing here models a particular file of /repo, except
    where a comment says so. *)

From Coq Require Export List NArith ZArith Lia Bool.
From Coq Require Export Strings.Byte.
From Coq Require Import Strings.String.
Export ListNotations.
Global Open Scope N_scope.

(** A byte string ([Vec<u8>], [&[u8]], the content of a file). *)
Definition bytes := list byte.

(** [len l] is [l.len()] as a usize.  Lengths are unbounded naturals: that a
    real [Vec] has at most [isize::MAX] elements is not used. *)
Definition len {A} (l : list A) : N := N.of_nat (List.length l).

(** First [n] / all but the first [n] elements (total; clamped to the list so
    that huge [n] stay computable). *)
Definition takeN {A} (n : N) (l : list A) : list A := firstn (N.to_nat (N.min n (len l))) l.
Definition dropN {A} (n : N) (l : list A) : list A := skipn (N.to_nat (N.min n (len l))) l.

(** [slice.get(a..b)]: [None] when [a > b] or [b > len]. *)
Definition get_range {A} (l : list A) (a b : N) : option (list A) :=
  if (a <=? b) && (b <=? len l) then Some (takeN (b - a) (dropN a l)) else None.

(** [n] zero bytes ([vec![0; n]]). *)
Definition zeros (n : N) : bytes := repeat x00 (N.to_nat n).

(** Equality test on byte strings. *)
Fixpoint beq (a b : bytes) : bool :=
  match a, b with
  | [], [] => true
  | x :: a', y :: b' => Byte.eqb x y && beq a' b'
  | _, _ => false
  end.

(** The byte with value [n mod 256]. *)
Definition b8 (n : N) : byte :=
  match Byte.of_N (n mod 256) with Some b => b | None => x00 end.

(** Little-endian: [le k n] is the [k]-byte encoding of [n] (of [n] reduced
    modulo [256^k], as an [as u32]/[as u16] cast followed by [to_le_bytes]);
    [un_le] is [from_le_bytes]. *)
Fixpoint le (k : nat) (n : N) : bytes :=
  match k with
  | O => []
  | S k' => b8 n :: le k' (n / 256)
  end.
Fixpoint un_le (l : bytes) : N :=
  match l with
  | [] => 0
  | b :: r => Byte.to_N b + 256 * un_le r
  end.

Definition U16 : N := 65536.
Definition U32 : N := 4294967296.
Definition U64 : N := 18446744073709551616.

(** Byte string of an ASCII literal. *)
Definition bstr (s : string) : bytes := list_byte_of_string s.

(** Why an operation failed.  The Rust code uses [String]/[io::Error]; only
    the distinctions that the code itself makes on messages are observable
    (see [is_missing_signature] in Signable.v), the rest is for readability.
    Wrapping errors keep the wrapped error, as [format!("...: {}", e)] does. *)
Inductive err : Type :=
| EOutOfBounds | EPosOverflow | EInvalidAttrSize | EUtf8
| EPairTooBig | EPairTooSmall
| EGeneratedTooLarge | EPaddingExists | EPaddingGap
| EFileTooSmall | EBlockTooBig | EBlockExceedsFile | EBlockLargerThanData
| ECannotExtract | EParsingFullBlock (e : err)
| EFullTooShort | EFullMagicNotFound | ESizesDiffer | EBlockSizeTooSmall
| EBlockLenInconsistent | EExtractingValues (e : err)
| EU8TooShort | EU8Bounds | EU8MagicNotFound | EReaderMagicNotFound
| EIoEof | EIoSeek
| EZipTooSmall | EEocdNotFound | EEocdInvalid
| EModuleIsRaw | EBlockCorrupted (e : err) | EInvalidStartSig | EInvalidEndSig
| ESigExceedsCdOffset | EOffsetOverflow
| ECannotSignCorrupted (e : err) | EInvalidCdOffset | ERangeOut
| EUnknownAlgorithm | EBadPublicKey | EBadSignatureFormat | EInvalidSignature
| EKeyMismatch | EPublicKeyDer | EKeyClone | EClock | ENoSigner
| EInvalidFormat | EElf (n : N) | ECli (n : N) | EKey (n : N)
| EInvalidSignedData
| EFuel.

(** Outcome of a Rust computation: a value, an [Err], or a panic. *)
Inductive res (A : Type) : Type :=
| Ok (a : A)
| Err (e : err)
| Panic.
Arguments Ok {A} a.
Arguments Err {A} e.
Arguments Panic {A}.

Definition bind {A B} (m : res A) (k : A -> res B) : res B :=
  match m with Ok a => k a | Err e => Err e | Panic => Panic end.
Definition map_err {A} (f : err -> err) (m : res A) : res A :=
  match m with Ok a => Ok a | Err e => Err (f e) | Panic => Panic end.
Definition of_option {A} (e : err) (o : option A) : res A :=
  match o with Some a => Ok a | None => Err e end.

Notation "'do' x <- m ; k" := (bind m (fun x => k))
  (at level 200, x name, m at level 100, k at level 200).
Notation "'do' ' x <- m ; k" := (bind m (fun x => k))
  (at level 200, x strict pattern, m at level 100, k at level 200).

(** Build profile: [Debug] has overflow checks and debug assertions on,
    [Release] wraps around and ignores [debug_assert!]. *)
Inductive profile := Debug | Release.

(** usize subtraction [a - b] (usize is 64 bits). *)
Definition usub (p : profile) (a b : N) : res N :=
  if b <=? a then Ok (a - b)
  else match p with Debug => Panic | Release => Ok (a + U64 - b) end.

(** usize addition [a + b]. *)
Definition uadd (p : profile) (a b : N) : res N :=
  if a + b <? U64 then Ok (a + b)
  else match p with Debug => Panic | Release => Ok ((a + b) mod U64) end.

(** [debug_assert!(b)]. *)
Definition debug_assert (p : profile) (b : bool) : res unit :=
  match p with
  | Debug => if b then Ok tt else Panic
  | Release => Ok tt
  end.
