(** Utf8.v - Rust [String] values as lists of Unicode scalar values, and their
    UTF-8 encoding ([String::as_bytes], [String::from_utf8]).  This is library
    code of the Rust standard library, modelled from the Unicode definition of
    well-formed UTF-8 (shortest form, no surrogates, at most U+10FFFF). *)
From Verif Require Import Base.

Definition rstring := list N.

(** Unicode scalar values ([char]). *)
Definition is_scalar (c : N) : bool := (c <? 0xD800) || ((0xE000 <=? c) && (c <? 0x110000)).

Definition utf8_enc1 (c : N) : bytes :=
  if c <? 0x80 then [b8 c]
  else if c <? 0x800 then [b8 (0xC0 + c / 64); b8 (0x80 + c mod 64)]
  else if c <? 0x10000 then
    [b8 (0xE0 + c / 4096); b8 (0x80 + (c / 64) mod 64); b8 (0x80 + c mod 64)]
  else
    [b8 (0xF0 + c / 262144); b8 (0x80 + (c / 4096) mod 64);
     b8 (0x80 + (c / 64) mod 64); b8 (0x80 + c mod 64)].

(** [as_bytes]. *)
Definition utf8_enc (s : rstring) : bytes := flat_map utf8_enc1 s.

Definition is_cont (b : byte) : bool := (0x80 <=? Byte.to_N b) && (Byte.to_N b <? 0xC0).
Definition cont_val (b : byte) : N := Byte.to_N b - 0x80.

(** One code point: (value, remaining bytes). *)
Definition utf8_dec1 (l : bytes) : option (N * bytes) :=
  match l with
  | [] => None
  | b0 :: r =>
      let v := Byte.to_N b0 in
      if v <? 0x80 then Some (v, r)
      else if (0xC0 <=? v) && (v <? 0xE0) then
        match r with
        | b1 :: r' =>
            let c := (v - 0xC0) * 64 + cont_val b1 in
            if is_cont b1 && (0x80 <=? c) then Some (c, r') else None
        | _ => None
        end
      else if (0xE0 <=? v) && (v <? 0xF0) then
        match r with
        | b1 :: b2 :: r' =>
            let c := (v - 0xE0) * 4096 + cont_val b1 * 64 + cont_val b2 in
            if is_cont b1 && is_cont b2 && (0x800 <=? c) && is_scalar c then Some (c, r') else None
        | _ => None
        end
      else if (0xF0 <=? v) && (v <? 0xF8) then
        match r with
        | b1 :: b2 :: b3 :: r' =>
            let c := (v - 0xF0) * 262144 + cont_val b1 * 4096 + cont_val b2 * 64 + cont_val b3 in
            if is_cont b1 && is_cont b2 && is_cont b3 && (0x10000 <=? c) && is_scalar c
            then Some (c, r') else None
        | _ => None
        end
      else None
  end.

(** [String::from_utf8].  The fuel is the byte length; each step consumes at
    least one byte. *)
Fixpoint utf8_dec_fuel (fuel : nat) (l : bytes) : option rstring :=
  match l with
  | [] => Some []
  | _ :: _ =>
      match fuel with
      | O => None
      | S fuel' =>
          match utf8_dec1 l with
          | Some (c, r) =>
              match utf8_dec_fuel fuel' r with Some s => Some (c :: s) | None => None end
          | None => None
          end
      end
  end.
Definition utf8_dec (l : bytes) : option rstring := utf8_dec_fuel (length l) l.

(** [String::len] (in bytes). *)
Definition str_len (s : rstring) : N := len (utf8_enc s).
