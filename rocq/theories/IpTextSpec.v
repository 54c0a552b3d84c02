(** Vocabulary for statements about addresses of clients; uses neither regular expressions nor the functions
    that write addresses. *)
From Coq Require Import String Ascii List Bool NArith Arith.
From Verif Require Import GoStr IprexSpec.
Import ListNotations.
Local Open Scope string_scope.

(** Eight groups of sixteen bits. *)
Definition address (gs : list N) : Prop := List.length gs = 8 /\ Forall (fun g => (g < 65536)%N) gs.

(** The groups from [s] on, [l] of them, are zero. *)
Definition zero_run (gs : list N) (s l : nat) : Prop :=
  s + l <= List.length gs /\ forall i, s <= i < s + l -> nth i gs 1%N = 0%N.

(** What a double colon stands for (RFC 5952, section 4.2): the first of the longest runs of zeros, of which
    there are at least two. *)
Definition abbreviated (gs : list N) (s l : nat) : Prop :=
  2 <= l /\ zero_run gs s l /\
  (forall s' l', zero_run gs s' l' -> l' <= l) /\
  (forall s', zero_run gs s' l -> s <= s').

(** Addresses of IPv4 clients that come over IPv6 sockets (RFC 4291, section 2.5.5.2). *)
Definition mapped (gs : list N) : Prop := exists x y, gs = [0; 0; 0; 0; 0; 65535; x; y]%N.

(** The addresses that are logged as they are: IPv4, nothing to abbreviate, or a double colon at one of the
    ends, or one behind at most four groups and before at most three. *)
Definition legible (gs : list N) : Prop :=
  mapped gs \/
  (forall i, i < 7 -> ~ (nth i gs 1%N = 0%N /\ nth (S i) gs 1%N = 0%N)) \/
  exists s l, abbreviated gs s l /\ (s = 0 \/ s + l = 8 \/ s <= 4 /\ 5 <= s + l).

(** The same for texts: what may stand before and after the double colon. *)
Inductive legible_text : string -> Prop :=
| legible_full : forall gs, List.length gs = 8 -> Forall is_group gs -> legible_text (full_v6 gs)
| legible_mid : forall bs cs, 1 <= List.length bs <= 4 -> 1 <= List.length cs <= 3 ->
    Forall is_group bs -> Forall is_group cs -> legible_text (compressed_v6 bs cs)
| legible_leading : forall cs, List.length cs <= 7 -> Forall is_group cs -> legible_text (compressed_v6 [] cs)
| legible_trailing : forall bs, List.length bs <= 7 -> Forall is_group bs -> legible_text (compressed_v6 bs []).
