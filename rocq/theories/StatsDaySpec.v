(** What it means that growth is reported (C131). *)
From Coq Require Import List Bool ZArith.
From Verif Require Import Stats StatsSpec.
Import ListNotations.

(** Times go up, each by more than [p] ... *)
Fixpoint more_apart (p : Z) (ts : list Z) : Prop :=
  match ts with
  | [] => True
  | t :: rest => match rest with [] => True | u :: _ => (p < u - t)%Z end /\ more_apart p rest
  end.
(** ... or by at most [p]. *)
Fixpoint at_most_apart (p : Z) (ts : list Z) : Prop :=
  match ts with
  | [] => True
  | t :: rest => match rest with [] => True | u :: _ => (0 < u - t <= p)%Z end /\ at_most_apart p rest
  end.

(** A measurement of a process, of a size that float64 holds exactly *)
Definition sound_sample (s : sample) : Prop := s_pid s <> 0%Z /\ (0 < s_rss s < 2 ^ 53)%Z.

(** The sample [j] of all samples in order, which are an hour apart, is at least twice the sample [i] before
    it, of at most 23 hours ago ... *)
Definition doubles (l : list sample) (i j : nat) : Prop :=
  i < j /\ j <= i + 23 /\ exists s u, nth_error l i = Some s /\ nth_error l j = Some u /\ doubled s u.
(** ... and by the last sample these 23 hours are over, unless [i] is the first of all. *)
Definition over (l : list sample) (i : nat) : Prop := i = 0 \/ i + 23 < length l.
