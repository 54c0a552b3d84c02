(** Vocabulary for statements about time. *)
From Coq Require Import String List Bool ZArith.
From Verif Require Import GoStr Header Exchange Machine MachineSpec Timing.
Import ListNotations.

(** What happens in a run, without the times. *)
Fixpoint acts (xs : list tlabel) : list label :=
  match xs with [] => [] | Tick _ :: xs' => acts xs' | Do l :: xs' => l :: acts xs' end.

(** [xs] is a run of a request from the moment it is handled, and leads to [ts]. *)
Definition runs (k : clock) (c : conf) (xs : list tlabel) (ts : tstate) : Prop := texec k c (tinit k) xs = Some ts.

(** In run [xs] upstream request number [i], counting from 0, is sent at time [t]. *)
Definition sent_at (k : clock) (c : conf) (xs : list tlabel) (i : nat) (t : Z) : Prop :=
  exists xs1 x xs2 ts ts', xs = (xs1 ++ x :: xs2)%list /\ runs k c xs1 ts /\ tstep k c ts x = Some ts' /\
    length (s_sent (t_st ts)) = i /\ length (s_sent (t_st ts')) = S i /\ t_now ts = t.

(** In run [xs] response [r] is written at time [t]. *)
Definition answered_at (k : clock) (c : conf) (xs : list tlabel) (r : response) (t : Z) : Prop :=
  exists xs1 x xs2 ts ts', xs = (xs1 ++ x :: xs2)%list /\ runs k c xs1 ts /\ tstep k c ts x = Some ts' /\
    s_out (t_st ts) = [] /\ s_out (t_st ts') = [r] /\ t_now ts = t.

(** How many upstream requests there can be. *)
Definition most (c : conf) : Z := Z.max 1 (c_max c).

(** In run [xs] attempt number [i], counting from 0, has failed by time [t]. *)
Definition failed_by (k : clock) (c : conf) (xs : list tlabel) (i : nat) (t : Z) : Prop :=
  exists xs1 xs2 ts, xs = (xs1 ++ xs2)%list /\ runs k c xs1 ts /\ (t_now ts <= t)%Z /\ failed_attempt (acts xs1) i.
