(** Vocabulary for statements about what the process tells of itself (C138). *)
From Coq Require Import String Ascii List ZArith NArith QArith.
From Coq Require Import Floats.SpecFloat.
From Verif Require Import GoStr NumberSpec Startup LogText.
Import ListNotations.
Local Open Scope string_scope.

(** The number that a finite float stands for *)
Definition value_of (x : spec_float) : option Q :=
  match x with
  | S754_zero _ => Some 0%Q
  | S754_finite s m e => Some ((if s then -1 else 1) * inject_Z (Z.pos m) * Qpower 2 e)%Q
  | _ => None
  end.

(** [s] is a decimal number with [p] digits after the point, [n] times ten to the power of minus [p]. *)
Definition decimal (p : nat) (s : string) (n : Z) : Prop :=
  exists a b w f, numeral w a /\ numeral f b /\ String.length f = p /\
    ((s = w ++ "." ++ f /\ n = (a * 10 ^ Z.of_nat p + b)%Z) \/ (s = "-" ++ w ++ "." ++ f /\ n = (- (a * 10 ^ Z.of_nat p + b))%Z)).

(** [n] is the integer nearest to [v] times ten to the power of [p], the even one half way. *)
Definition nearest (p : nat) (v : Q) (n : Z) : Prop :=
  let d := (v * inject_Z (10 ^ Z.of_nat p) - inject_Z n)%Q in
  (- (1 # 2) <= d /\ d <= 1 # 2)%Q /\ ((d == 1 # 2 \/ d == - (1 # 2))%Q -> Z.even n = true).

(** The text [s] tells [x] to [p] decimals. *)
Definition rounded (p : nat) (x : spec_float) (s : string) : Prop :=
  exists v n, value_of x = Some v /\ decimal p s n /\ nearest p v n.

(** The operator asked for lines at level debug. *)
Definition asked_for_debug (h : host) : Prop := In (to_upper (h_env h "LOGLEVEL")) ["DEBUG"; "TRACE"].

(** There is just one member called [k], and it is [v]. *)
Definition reads (ms : list (string * lvalue)) (k : string) (v : lvalue) : Prop := filter (fun m => String.eqb (fst m) k) ms = [(k, v)].

(** There is just one member called [k], and it tells [x] to two decimals. *)
Definition shares (ms : list (string * lvalue)) (k : string) (x : spec_float) : Prop := exists s, reads ms k (VStr s) /\ rounded 2 x s.
