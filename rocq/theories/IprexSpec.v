(** Vocabulary for statements about addresses in log messages; does not use regular expressions. *)
From Coq Require Import String Ascii List Bool NArith Arith.
From Verif Require Import GoStr.
Import ListNotations.
Local Open Scope string_scope.

(** Dotted decimal form of an IPv4 address. *)
Definition dotted (a b c d : N) : string :=
  itoa a ++ "." ++ itoa b ++ "." ++ itoa c ++ "." ++ itoa d.

Definition is_octet (n : N) : Prop := (n < 256)%N.

Definition is_digit (c : ascii) : bool := N_in 48 57 (N_of_ascii c).

Definition is_hex (c : ascii) : bool :=
  (N_in 48 57 (N_of_ascii c) || N_in 97 102 (N_of_ascii c) || N_in 65 70 (N_of_ascii c))%bool.

Fixpoint all_chars (P : ascii -> bool) (s : string) : bool :=
  match s with
  | EmptyString => true
  | String c s' => (P c && all_chars P s')%bool
  end.

Fixpoint count_chars (P : ascii -> bool) (s : string) : nat :=
  match s with
  | EmptyString => 0
  | String c s' => (if P c then 1 else 0) + count_chars P s'
  end.

(** The string is empty or its first character fails [P]. *)
Definition head_not (P : ascii -> bool) (s : string) : bool :=
  match s with EmptyString => true | String c _ => negb (P c) end.

(** Some colon is followed by one or more digits and then a dot. *)
Definition colon_digits_dot (s : string) : Prop :=
  exists a ds b, s = a ++ ":" ++ ds ++ "." ++ b /\ ds <> "" /\ all_chars is_digit ds = true.

(** A message in which nothing looks like an IPv6 address. *)
Definition no_v6_lookalike (s : string) : Prop :=
  contains s "::" = false /\ contains s "%" = false /\
  count_chars (Ascii.eqb ":") s < 7 /\ ~ colon_digits_dot s.

(** A group of an IPv6 address: one to four hexadecimal digits. *)
Definition is_group (g : string) : Prop :=
  all_chars is_hex g = true /\ 1 <= String.length g <= 4.

(** The full form: eight groups separated by colons. *)
Definition full_v6 (gs : list string) : string := join ":" gs.

(** The compressed form with groups before and after the double colon. *)
Definition compressed_v6 (before after : list string) : string :=
  join ":" before ++ "::" ++ join ":" after.

(** Valid texts of IPv6 addresses without embedded IPv4 part or zone (RFC 4291, section 2.2). *)
Inductive ipv6_text : string -> Prop :=
| v6_full : forall gs, List.length gs = 8 -> Forall is_group gs -> ipv6_text (full_v6 gs)
| v6_compressed : forall bs cs, List.length bs + List.length cs <= 7 ->
    Forall is_group bs -> Forall is_group cs -> ipv6_text (compressed_v6 bs cs).
