(** DumpSpec.v - vocabulary of the properties about the digest command's output:
    base64 digits, and the arguments with and without [--dump]. *)
From Verif Require Import Base Cli.
From Coq Require Import Strings.String.
Open Scope N_scope.

(** The [n]-th character of the base64 alphabet of RFC 4648: A-Z, a-z, 0-9, +, /. *)
Definition b64_value (c : byte) (n : N) : Prop :=
  (n < 26 /\ Byte.to_N c = 65 + n) \/
  (26 <= n < 52 /\ Byte.to_N c = 97 + (n - 26)) \/
  (52 <= n < 62 /\ Byte.to_N c = 48 + (n - 52)) \/
  (n = 62 /\ Byte.to_N c = 43) \/
  (n = 63 /\ Byte.to_N c = 47).

(** The text spells the bytes: four digits for three bytes, most significant
    first; at the end three digits and a "=" for two bytes, two digits and two "="
    for one, the bits left over being zero. *)
Inductive b64_spells : bytes -> bytes -> Prop :=
| b64_nil : b64_spells [] []
| b64_one c1 c2 a v1 v2 :
    b64_value c1 v1 -> b64_value c2 v2 ->
    v1 * 64 + v2 = Byte.to_N a * 16 ->
    b64_spells [c1; c2; "="%byte; "="%byte] [a]
| b64_two c1 c2 c3 a b v1 v2 v3 :
    b64_value c1 v1 -> b64_value c2 v2 -> b64_value c3 v3 ->
    v1 * 4096 + v2 * 64 + v3 = (Byte.to_N a * 256 + Byte.to_N b) * 4 ->
    b64_spells [c1; c2; c3; "="%byte] [a; b]
| b64_three c1 c2 c3 c4 a b c v1 v2 v3 v4 text data :
    b64_value c1 v1 -> b64_value c2 v2 -> b64_value c3 v3 -> b64_value c4 v4 ->
    v1 * 262144 + v2 * 4096 + v3 * 64 + v4 = Byte.to_N a * 65536 + Byte.to_N b * 256 + Byte.to_N c ->
    b64_spells text data ->
    b64_spells (c1 :: c2 :: c3 :: c4 :: text) (a :: b :: c :: data).

(** The same call without [--dump]. *)
Definition without_dump (a : digest_args) : digest_args :=
  mkDigestArgs (da_input a) (da_sha512 a) None (da_sections a) (da_format a).
