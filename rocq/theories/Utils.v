(** Utils.v - model of /repo/src/utils.rs *)
From Verif Require Import Base.

(** src/utils.rs:5-10 [struct MyReader { data, pos }].
    The Rust reader is mutated in place; here every operation returns the new
    reader next to its result.  When an operation fails the caller always
    propagates the error with [?], so the state after a failure is not
    returned (it is unchanged in Rust: src/utils.rs:47, 95, 117, 139). *)
Record reader := mkReader { rdata : bytes; rpos : N }.

(** src/utils.rs:14-19 [MyReader::new]. *)
Definition new_reader (data : bytes) : reader := mkReader data 0.

(** src/utils.rs:22-24 [MyReader::len]. *)
Definition rlen (r : reader) : N := len (rdata r).

(** src/utils.rs:39-57 [MyReader::get_to]. *)
Definition get_to (r : reader) (n : N) : res (bytes * reader) :=
  if U64 <=? rpos r + n then Err EPosOverflow
  else match get_range (rdata r) (rpos r) (rpos r + n) with
       | Some d => Ok (d, mkReader (rdata r) (rpos r + n))
       | None => Err EOutOfBounds
       end.

(** src/utils.rs:62-67 [MyReader::as_slice]: a fresh reader over the next [n]
    bytes; the outer reader advances past them. *)
Definition as_slice (r : reader) (n : N) : res (reader * reader) :=
  do '(d, r') <- get_to r n;
  Ok (new_reader d, r').

(** src/utils.rs:80-97, 102-119, 124-143 [read_u16], [read_u32], [read_u64].
    Simplification: [self.pos + 2/4/8] is not checked for overflow because
    [pos <= data.len() <= isize::MAX] in every reachable state. *)
Definition read_le (k : nat) (r : reader) : res (N * reader) :=
  match get_range (rdata r) (rpos r) (rpos r + N.of_nat k) with
  | Some d => Ok (un_le d, mkReader (rdata r) (rpos r + N.of_nat k))
  | None => Err EOutOfBounds
  end.
Definition read_u16 := read_le 2.
Definition read_u32 := read_le 4.
Definition read_u64 := read_le 8.

(** src/utils.rs:72-75 [read_size] and src/utils.rs:148-151 [read_size_u64]
    (u32/u64 to 64-bit usize is the identity). *)
Definition read_size := read_u32.
Definition read_size_u64 := read_u64.

(** The recurring Rust loop [while data.get_pos() < max { v.push(p(data)?) }].
    [fuel] bounds the iterations; [EFuel] is shown unreachable with the fuel
    used by the callers ([S (length data)]), see [ParseFacts.v]. *)
Fixpoint parse_while {A} (fuel : nat) (p : reader -> res (A * reader)) (max : N)
    (r : reader) : res (list A * reader) :=
  if rpos r <? max then
    match fuel with
    | O => Err EFuel
    | S fuel' =>
        do '(x, r1) <- p r;
        do '(xs, r2) <- parse_while fuel' p max r1;
        Ok (x :: xs, r2)
    end
  else Ok ([], r).

Definition loop_fuel (r : reader) : nat := S (length (rdata r)).
