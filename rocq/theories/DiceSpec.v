(** Vocabulary for statements about binary64 weights. *)
From Coq Require Import String List Bool ZArith QArith Qabs Floats.SpecFloat.
From Verif Require Import GoStr Policy PolicySpec Dice Config Decode DecodeSpec.
Import ListNotations.

(** The number a binary64 value stands for. *)
Definition value (x : f64) : Q :=
  match x with
  | S754_finite s m e => (if s then -1 else 1) * inject_Z (Z.pos m) * Qpower 2 e
  | _ => 0
  end.

(** A finite number that is not negative, in the form IEEE 754 prescribes. *)
Definition weighty (x : f64) : Prop :=
  match x with
  | S754_zero _ => True
  | S754_finite s m e => s = false /\ bounded 53 1024 m e = true
  | _ => False
  end.

Definition within (eps a b : Q) : Prop := Qabs (a - b) <= eps.

(** Half a unit in the last place of numbers between 1/2 and 1. *)
Definition half_ulp : Q := Qpower 2 (-54).

(** The weights of a policy are the stated ones up to [theta]. *)
Definition states (theta : Q) (p : fpolicy) (stated : qpolicy) : Prop :=
  Forall2 (fun w s => lw_label w = lw_label s /\ weighty (lw_weight w) /\ 0 <= lw_weight s /\ within theta (value (lw_weight w)) (lw_weight s)) p stated.

(** N values of a dice, spread evenly over the numbers below 1 up to [eps]. *)
Definition spread (N : nat) (eps : Q) (dice : nat -> f64) : Prop :=
  forall k, (k < N)%nat -> weighty (dice k) /\ within eps (value (dice k)) (frac k N).

(** For how many of the N values [f] holds. *)
Definition how_many (N : nat) (f : nat -> bool) : nat := List.length (filter f (seq 0 N)).

(** The number of values of the dice that a policy resolves to a label. *)
Definition resolved (N : nat) (srt : fpolicy -> fpolicy) (dice : nat -> f64) (p : fpolicy) (L : string) : nat :=
  how_many N (fun k => String.eqb (fst (resolve_f srt (dice k) p)) L).

Definition of_nat (n : nat) : Q := inject_Z (Z.of_nat n).

(** The values of Int63 that are not drawn anew are those below 2^63 - 512. *)
Definition go_values : nat := Z.to_nat (2 ^ 63 - 512).
Definition go_dice (k : nat) : f64 := float64_of (Z.of_nat k).

(** An entry of a policy in the document: its label, and a weight that is the one stated up to rounding. *)
Definition weight_stated (float : string -> option f64) (e : doc) (s : label_weight Q) : Prop :=
  text_for "label" e (lw_label s) /\
  exists text x, holds "weight" e (DNum text) /\ float text = Some x /\ weighty x /\ 0 <= lw_weight s /\ within half_ulp (value x) (lw_weight s).
