(** Vocabulary for statements about logged durations. *)
From Coq Require Import String List Bool ZArith.
From Verif Require Import GoStr Header Exchange Machine MachineSpec AttemptLog AttemptLogSpec AccessLog Timing TimingSpec Elapsed.
Import ListNotations.
Local Open Scope Z_scope.

(** [v] microseconds and no more have passed between times [a] and [b]. *)
Definition lasted (v a b : Z) : Prop := a + 1000 * v <= b < a + 1000 * (v + 1).

(** At time [t] of run [xs] attempt number [n], counting from 0, lasts [v] microseconds: since its request was sent,
    apart from a delay. *)
Definition attempt_lasted (k : clock) (c : conf) (xs : list tlabel) (n : nat) (v t : Z) : Prop :=
  exists b u, sent_at k c xs n u /\ b <= u <= b + k_delay k /\ u <= t /\ lasted v b t.

(** Lines without their durations *)
Definition attempt_part (L : list (Z * eline)) : list aline :=
  flat_map (fun e => match snd e with EAttempt a _ _ => [a] | EResponse _ _ _ => [] end) L.
Definition response_part (L : list (Z * eline)) : list entry :=
  flat_map (fun e => match snd e with EAttempt _ _ _ => [] | EResponse e _ _ => [e] end) L.

(** Lines that tell of the read timeout of an attempt, and of the round trip timeout *)
Definition read_timeout_line (a : aline) : Prop := al_message a = HeaderTimeout \/ al_message a = BodyTimeout.
Definition round_trip_line (a : aline) : Prop := al_message a = HeaderAborted \/ al_message a = BodyAborted \/ al_message a = PriorAborted.

(** The messages of responses that tell of the two timeouts *)
Definition round_trip_text : string := "gateway timeout triggered by downstream event".
Definition read_timeout_text : string := "gateway timeout triggered by upstream attempt".
