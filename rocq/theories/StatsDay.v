(** Model of stats.go:114-131 over time: when samples are kept and when the history is reported.

    Simplifications: appending a sample and making a report take no time and do not overlap (for what happens
    if they do, see C66); the times of both are given, as those depend on how long sleeping and measuring take. *)
From Coq Require Import List Bool ZArith.
From Verif Require Import Stats.
Import ListNotations.

(** procHistory at time [t], stats.go:115-123: the first sample fills it, and of the samples kept since,
    given with the time of being appended, those before [t] are there. *)
Definition history_at (first : sample) (kept : list (Z * sample)) (t : Z) : list sample :=
  history first (map snd (filter (fun k => Z.ltb (fst k) t) kept)).

(** Whether the report at time [t], stats.go:129, logs the message of 75-78 *)
Definition message_at (first : sample) (kept : list (Z * sample)) (t : Z) : bool :=
  snd (log_samples (history_at first kept t)).
