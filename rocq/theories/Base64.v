(** The base64 output of the digest command. *)
From Verif Require Import Base.
From Coq Require Import Strings.String.
Open Scope N_scope.

(** The standard alphabet (RFC 4648, section 4). *)
Definition b64_alphabet : bytes := bstr "ABCDEFGHIJKLMNOPQRSTUVWXYZabcdefghijklmnopqrstuvwxyz0123456789+/".
Definition b64_digit (n : N) : byte := nth (N.to_nat n) b64_alphabet Byte.x00.

(** src/cli/digest.rs:113-115: [general_purpose::STANDARD.encode], that is the
    base64 crate's encoding with the standard alphabet and with padding. *)
Fixpoint b64_encode (d : bytes) : bytes :=
  match d with
  | [] => []
  | [a] =>
      let n := Byte.to_N a * 16 in
      [b64_digit (n / 64); b64_digit (n mod 64); "="%byte; "="%byte]
  | [a; b] =>
      let n := (Byte.to_N a * 256 + Byte.to_N b) * 4 in
      [b64_digit (n / 64 / 64); b64_digit (n / 64 mod 64); b64_digit (n mod 64); "="%byte]
  | a :: b :: c :: d =>
      let n := (Byte.to_N a * 256 + Byte.to_N b) * 256 + Byte.to_N c in
      b64_digit (n / 64 / 64 / 64) :: b64_digit (n / 64 / 64 mod 64) :: b64_digit (n / 64 mod 64) ::
      b64_digit (n mod 64) :: b64_encode d
  end.
