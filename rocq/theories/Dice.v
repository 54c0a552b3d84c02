(** policy.go:30: rand.Float64 of math/rand. *)
From Coq Require Import List ZArith Floats.SpecFloat.
From Verif Require Import GoStr Stats Policy.
Import ListNotations.
Local Open Scope Z_scope.

(** math/rand rand.go, Rand.Float64 (Go 1.15): [float64(r.Int63()) / (1 << 63)] for one value of Int63. *)
Definition float64_of (i : Z) : f64 := SFdiv 53 1024 (of_uint64 i) (of_uint64 (2 ^ 63)).

(** The same function: a value that is rounded to 1 is drawn anew.  The argument is what Int63 gives, call by call. *)
Fixpoint draw (is : list Z) : option f64 :=
  match is with
  | [] => None
  | i :: rest => if SFeqb (float64_of i) (of_uint64 1) then draw rest else Some (float64_of i)
  end.
