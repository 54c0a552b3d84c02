(** Vocabulary for statements about what the text of an address says; uses no function that writes addresses. *)
From Coq Require Import String Ascii List Bool NArith Arith.
From Verif Require Import GoStr IprexSpec.
Import ListNotations.
Local Open Scope string_scope.

(** The value of a hexadecimal digit (RFC 4291, section 2.2). *)
Definition digit_value (c : ascii) : N :=
  let n := N_of_ascii c in
  if (n <=? 57)%N then n - 48 else if (n <=? 70)%N then n - 55 else n - 87.

(** The number a group stands for, from left to right. *)
Fixpoint group_value (acc : N) (g : string) : N :=
  match g with
  | EmptyString => acc
  | String c g' => group_value (16 * acc + digit_value c) g'
  end.

(** Which address a text stands for (RFC 4291, section 2.2): eight groups; fewer, with zeros in place of the
    double colon; or, for a client that came over IPv4, four octets. *)
Inductive names : string -> list N -> Prop :=
| names_full : forall ws, List.length ws = 8 -> Forall is_group ws -> names (full_v6 ws) (map (group_value 0) ws)
| names_short : forall bs cs k, List.length bs + k + List.length cs = 8 -> 1 <= k -> Forall is_group bs -> Forall is_group cs ->
    names (compressed_v6 bs cs) (map (group_value 0) bs ++ repeat 0%N k ++ map (group_value 0) cs)
| names_octets : forall a b c d, is_octet a -> is_octet b -> is_octet c -> is_octet d ->
    names (dotted a b c d) [0; 0; 0; 0; 0; 65535; 256 * a + b; 256 * c + d]%N.
