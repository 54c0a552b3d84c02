(** Vocabulary for statements about one draw from the generator (C115): its calls of Int63. *)
From Coq Require Import ZArith.
From Verif Require Import Balance.
Local Open Scope Z_scope.

(** The generator after [n] calls *)
Fixpoint after_calls (G : rng) (n : nat) (g : g_state G) : g_state G :=
  match n with O => g | S n' => after_calls G n' (fst (g_int63 G g)) end.

(** What the call after [n] others gives *)
Definition call_gives (G : rng) (g : g_state G) (n : nat) : Z := snd (g_int63 G (after_calls G n g)).

(** Int63 gives numbers of 63 bits. *)
Definition bits63 (G : rng) : Prop := forall g, 0 <= snd (g_int63 G g) < 2 ^ 63.
