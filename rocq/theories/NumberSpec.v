(** Decimal numbers as text. *)
From Coq Require Import String Ascii ZArith NArith.
Local Open Scope string_scope.

(** One or more decimal digits, with their value *)
Inductive numeral : string -> Z -> Prop :=
| nu_one : forall c, (48 <= N_of_ascii c <= 57)%N -> numeral (String c "") (Z.of_N (N_of_ascii c) - 48)
| nu_more : forall s n c, numeral s n -> (48 <= N_of_ascii c <= 57)%N -> numeral (s ++ String c "") (10 * n + (Z.of_N (N_of_ascii c) - 48)).

(** Text of a 64-bit integer: digits after an optional sign *)
Definition int64_text (s : string) (z : Z) : Prop :=
  (exists t n, numeral t n /\ ((s = t /\ z = n) \/ (s = String "+" t /\ z = n) \/ (s = String "-" t /\ z = (- n)%Z))) /\
  (- 2 ^ 63 <= z < 2 ^ 63)%Z.
