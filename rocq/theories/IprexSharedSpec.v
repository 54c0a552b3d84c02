(** Vocabulary for statements about calls that look for addresses at the same time. *)
From Coq Require Import String List.
From Verif Require Import Iprex IprexShared.
Import ListNotations.

(** The state after some moves *)
Definition searched (ms : list move) (s : finder) : Prop := finder_run finder_init ms = Some s.

(** The number of times call [i] has moved *)
Fixpoint turns (i : nat) (ms : list move) : nat :=
  match ms with
  | [] => 0
  | Goes k :: ms' => (if Nat.eqb k i then 1 else 0) + turns i ms'
  | Begin _ :: ms' => turns i ms'
  end.

(** What the next move of a call reads or writes *)
Definition about_to_read (s : finder) (i : nat) (x : slot) : Prop :=
  exists c, nth_error (fi_calls s) i = Some c /\ (ca_at c = Test x \/ ca_at c = Match x).
Definition about_to_write (s : finder) (i : nat) (x : slot) : Prop :=
  exists c, nth_error (fi_calls s) i = Some c /\ ca_at c = Make x.

(** Two goroutines are about to access the same field, one of them to write it, and either can go first: a data race
    (The Go Memory Model), since nothing but their own order orders their accesses. *)
Definition racing (s : finder) : Prop :=
  exists i k x, i <> k /\ about_to_write s i x /\ (about_to_read s k x \/ about_to_write s k x).
