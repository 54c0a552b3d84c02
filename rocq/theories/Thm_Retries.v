(** C108: when attempts are made. *)
From Coq Require Import String List Bool ZArith.
From Verif Require Import GoStr Header Exchange Machine MachineSpec MachineRaces Timing TimingSpec TimingSystem TimingRetries.
Import ListNotations.
Local Open Scope Z_scope.

(** C108: the first attempt is made at once.  A further one is made within the read timeout after the one before it,
    and not once the round trip timeout is over, apart from the delays of the steps in between. *)
Theorem C108_first : forall k c xs t, 0 <= k_delay k -> sent_at k c xs 0 t -> k_entered k <= t <= k_entered k + k_delay k.
Proof. exact first_when. Qed.
Print Assumptions C108_first.

Theorem C108_not_late : forall k c xs i t, 0 <= k_delay k -> sent_at k c xs (S i) t ->
  (exists u, sent_at k c xs i u /\ u <= t <= u + Z.max 0 (k_read k) + 25 * k_delay k) /\
  t <= Z.max (k_entered k) (k_arrived k + Z.max 0 (k_round k)) + 2 * k_delay k.
Proof. exact retry_when. Qed.
Print Assumptions C108_not_late.

(** If goroutines write on time, a further attempt is made only once the one before it has failed or its read timeout
    is over ... *)
Theorem C108_not_early_partial : forall k c xs i t, 0 <= k_delay k -> on_time c init (acts xs) -> sent_at k c xs (S i) t ->
  failed_by k c xs i t \/ exists u, sent_at k c xs i u /\ u + Z.max 0 (k_read k) <= t.
Proof. exact retry_why_timely. Qed.
Print Assumptions C108_not_early_partial.

(** ... and in any case only once the one before it has failed or the read timeout of some attempt is over. *)
Theorem C108_some_timeout_partial : forall k c xs i t, 0 <= k_delay k -> sent_at k c xs (S i) t ->
  failed_by k c xs i t \/ exists j u, (j <= i)%nat /\ sent_at k c xs j u /\ u + Z.max 0 (k_read k) <= t.
Proof. exact retry_why. Qed.
Print Assumptions C108_some_timeout_partial.

(** Full C108 is false: an attempt that is answered in full and in time can be repeated, because the response of an
    earlier attempt, given up by then, replaces its own. *)
Theorem C108_refuted : exists k c xs i t u rs body, 0 <= k_delay k /\ c_ok c = true /\
  sent_at k c xs (S i) t /\ sent_at k c xs i u /\ t < u + Z.max 0 (k_read k) /\
  ~ failed_attempt (acts xs) i /\ answered (acts xs) i rs /\ ur_status rs = 201 /\ In (LRead i body true) (acts xs).
Proof. exact needless. Qed.
Print Assumptions C108_refuted.

(** A first attempt that times out, and one that fails. *)
Example C108_case :
  (sent_at clock0 (gets 2) slow 1 6 /\ sent_at clock0 (gets 2) slow 0 1 /\ on_time (gets 2) init (acts slow)) /\
  (sent_at clock0 (gets 2) quick 1 3 /\ sent_at clock0 (gets 2) quick 0 1 /\ failed_by clock0 (gets 2) quick 0 3).
Proof. exact (conj slow_sends quick_sends). Qed.
