(** Which tokens that are in time are refused nevertheless (C41). *)
From Coq Require Import ZArith.
From Verif Require Import GoStr Jwt JwtSpec.

(** The skew as a duration in nanoseconds is an int64: it is at most 292 years. *)
Definition expressible (skew : Z) : Prop := (0 <= skew /\ skew * 1000000000 <= int64_max)%Z.

(** A date of a token that is in the future, but no later than skew milliseconds would be if they were
    seconds since 1970, gets no skew; nor does an expiry in 1970's first second or before. *)
Definition unskewed (now skew : Z) (c : claims) : Prop :=
  (exists t, (cl_iat c = Some t \/ cl_nbf c = Some t) /\ (now < t <= skew * 1000)%Z) \/
  (exists t, cl_exp c = Some t /\ (t <= 1 /\ t <= now)%Z).
