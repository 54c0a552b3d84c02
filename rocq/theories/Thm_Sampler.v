(** C95. *)
From Coq Require Import List Bool ZArith.
From Verif Require Import Stats StatsSpec Sampler SamplerSpec SamplerProofs.
Import ListNotations.

(** C95 fails: one failed measurement ends the process. *)
Theorem C95_refuted : forall pid time, exists ls s, sampler_exec pid time sampler_init ls = Some s /\ sm_panic s = true.
Proof. exact sampling_ends. Qed.
Print Assumptions C95_refuted.

(** It ends in no other way: exactly when a sample is made of a measurement that failed. *)
Theorem C95_ends_partial : forall pid time ls s, sampler_exec pid time sampler_init ls = Some s ->
  (sm_panic s = true <-> In None (used Logging ls) \/ In None (used Keeping ls)).
Proof. exact panics_iff. Qed.
Print Assumptions C95_ends_partial.

(** As long as measurements succeed both goroutines get to their next one, whatever happened before, ... *)
Theorem C95_goes_on_partial : forall pid time ls s w, sampler_exec pid time sampler_init ls = Some s ->
  (forall m, In m (readings Logging ls ++ readings Keeping ls) -> m <> None) ->
  forall x, exists ls' s', sampler_exec pid time s ls' = Some s' /\ at_place s' w = Measured (Some x) /\
    (forall m, In m (readings Logging ls' ++ readings Keeping ls') -> m <> None).
Proof. exact sampling_goes_on. Qed.
Print Assumptions C95_goes_on_partial.

(** ... one at a time, ... *)
Theorem C95_exclusive : forall pid time ls s, sampler_exec pid time sampler_init ls = Some s ->
  ~ (measuring s Logging /\ measuring s Keeping).
Proof. exact exclusive. Qed.
Print Assumptions C95_exclusive.

(** ... the history holds the last 24 sizes that the second goroutine measured, after 24 times the first, and
    what the first goroutine measured is logged and nothing else. *)
Theorem C95_history : forall pid time ls s sizes, sampler_exec pid time sampler_init ls = Some s ->
  used Keeping ls = map Some sizes -> sm_history s = kept_history pid time sizes.
Proof. exact history_right. Qed.
Print Assumptions C95_history.

Theorem C95_logged : forall pid time ls s sizes, sampler_exec pid time sampler_init ls = Some s ->
  used Logging ls = map Some sizes -> sm_logged s = sizes.
Proof. exact logged_right. Qed.
Print Assumptions C95_logged.

Example C95_case : let ls := [Do Keeping ALock; Do Keeping (AMeasure (Some 5)); Do Keeping AUnlock; Do Logging ALock; Do Keeping AUse;
    Do Logging (AMeasure (Some 6)); Do Logging AUnlock; Do Keeping ALock; Do Keeping (AMeasure (Some 7)); Do Logging AUse; Do Keeping AUnlock; Do Keeping AUse]%Z in
  used Keeping ls = map Some [5; 7]%Z /\ used Logging ls = map Some [6]%Z /\
  option_map (fun s => (option_map (map s_rss) (sm_history s), sm_logged s)) (sampler_exec 1 0 sampler_init ls) = Some (Some (repeat 5 23 ++ [7])%list, [6])%Z.
Proof. cbv zeta. split; [|split]; vm_compute; reflexivity. Qed.
