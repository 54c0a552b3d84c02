(** What C46 means. *)
From Coq Require Import List Bool ZArith.
From Verif Require Import JwksRate.
Import ListNotations.

(** A refresh is running from TryAcquire to Release. *)
Definition refreshing (p : gpc) : Prop := match p with GFetch | GTest | GSleep _ | GCount | GRelease => True | GTry | GEnd => False end.

Definition at_most_one (s : rate) : Prop :=
  forall i j p q, nth_error (r_gs s) i = Some p -> nth_error (r_gs s) j = Some q -> refreshing p -> refreshing q -> i = j.

(** Ten seconds apart: of all starts but the first, given latest first. *)
Definition ten_seconds_apart (starts : list Z) : Prop :=
  forall a t1 b t2 c first, starts = (a ++ t1 :: b ++ t2 :: c ++ [first])%list -> (t2 + 10000000000 <= t1)%Z.
