(** Many requests at once: C35, C90 and C114 for a process. *)
From Coq Require Import String List Bool ZArith.
From Verif Require Import GoStr Header Config Exchange Jwt Machine MachineSpec MachineRaces Handler HandlerCases SystemSpec Startup Process ProcessSpec ProcessProofs ProcessCases
  SequentialSpec ConcurrentSpec ConcurrentProofs ConcurrentCases.
Import Verif.Startup Verif.Process Verif.ProcessSpec ListNotations.

(** C35: at any time all requests that are in progress can be brought to an end, each by its own steps and
    timers, whatever became of the others; no upstream has to answer for that. *)
Theorem C35_all : forall m es p, after m es p -> p_dead p = false ->
  exists es' p', after m (es ++ es') p' /\ (forall e, In e es' -> exists k l, e = Go k l /\ own_step l = true) /\ same_otherwise p p' /\
    forall v, In v (p_visits p') -> settled v.
Proof. exact all_settle. Qed.
Print Assumptions C35_all.

Example C35_all_case : after daemon0 pair_in (state_after pair_in) /\ p_dead (state_after pair_in) = false /\ length (p_visits (state_after pair_in)) = 2.
Proof. split; [exact pair_after|]. split; vm_compute; reflexivity. Qed.

(** C90: only what each request does counts, not the order among them.  Whatever order their steps come in, all can be
    taken and lead to the same state. *)
Theorem C90_order : forall m es0 p es es' p1, after m es0 p -> executes m p es = Some p1 -> p_dead p = false -> only_requests p es -> only_requests p es' ->
  (forall k, labels_of k es = labels_of k es') -> executes m p es' = Some p1.
Proof. exact order_free_after. Qed.
Print Assumptions C90_order.

Example C90_order_case : let es := [Go 0 (LMain 0); Go 1 (LMain 0)] in let es' := [Go 1 (LMain 0); Go 0 (LMain 0)] in
  (exists p1, executes daemon0 (state_after pair_in) es = Some p1) /\ p_dead (state_after pair_in) = false /\
  only_requests (state_after pair_in) es /\ only_requests (state_after pair_in) es' /\ forall k, labels_of k es = labels_of k es'.
Proof. exact pair_orders. Qed.

(** C114: each response a process gives is one of a proxy that serves this request alone, attempt by attempt.  Missing: late
    goroutines, as in C114_sound_partial. *)
Theorem C114_process_sound_partial : forall m k i ch es1 es es2 p v c n r, comes_in k i ch es1 es es2 -> after m es p ->
  nth_error (p_visits p) k = Some v -> v_out v = Upstream c -> on_time c init (labels_of k es2) -> further c n -> s_out (v_state v) = [r] ->
  exists fs, sequential c n fs r /\ happened (labels_of k es2) fs /\ s_sent (v_state v) = repeat (c_request c) (length fs).
Proof. exact request_sequential. Qed.
Print Assumptions C114_process_sound_partial.

Example C114_process_sound_case : after daemon0 single (state_after single) /\ comes_in 0 plain_get (chance_at 1600000000) [] single (tl single) /\
  exists v c, nth_error (p_visits (state_after single)) 0 = Some v /\ v_out v = Upstream c /\
    on_time c init (labels_of 0 (tl single)) /\ further c 3 /\ exists r, s_out (v_state v) = [r].
Proof. split; [exact (proj1 (proj2 mixed_single))|]. split; [split; reflexivity|exact single_on_time]. Qed.

(** C114: whatever such proxies would do for the requests that have come in, one process can do for all of them. *)
Theorem C114_process_complete : forall m es p (plan : nat -> list fate * response), after m es p -> p_dead p = false ->
  (forall k v c, nth_error (p_visits p) k = Some v -> v_out v = Upstream c ->
     v_state v = init /\ c_ok c = true /\ valid_fates (fst (plan k)) /\ exists n, further c n /\ sequential c n (fst (plan k)) (snd (plan k))) ->
  exists es' p', after m (es ++ es') p' /\ only_requests p es' /\ same_otherwise p p' /\
    forall k v c, nth_error (p_visits p') k = Some v -> v_out v = Upstream c ->
      s_pc (v_state v) = PDone /\ s_out (v_state v) = [snd (plan k)] /\ s_sent (v_state v) = repeat (c_request c) (length (fst (plan k))) /\
      happened (labels_of k es') (fst (plan k)) /\ on_time c init (labels_of k es').
Proof. exact requests_possible. Qed.
Print Assumptions C114_process_complete.

Example C114_process_complete_case : after daemon0 pair_in (state_after pair_in) /\ p_dead (state_after pair_in) = false /\
  (forall k, k = 0 \/ k = 1 -> exists v, nth_error (p_visits (state_after pair_in)) k = Some v /\ v_out v = Upstream (conf_at k)) /\
  forall k v c, nth_error (p_visits (state_after pair_in)) k = Some v -> v_out v = Upstream c ->
    v_state v = init /\ c_ok c = true /\ valid_fates (fst (fates k)) /\ exists n, further c n /\ sequential c n (fst (fates k)) (snd (fates k)).
Proof. split; [exact pair_after|]. split; [vm_compute; reflexivity|]. split; [exact pair_upstream|exact pair_planned]. Qed.
