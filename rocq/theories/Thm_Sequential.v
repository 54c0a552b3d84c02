(** C114: the handler with its goroutines and timers does what a proxy does that makes one attempt after
    the other. *)
From Coq Require Import String List Bool ZArith.
From Verif Require Import GoStr Header Exchange ExchangeProofs Machine MachineSpec MachineRaces SequentialSpec SequentialProofs.
Import ListNotations.
Local Open Scope string_scope.

(** Every response of a run in which goroutines write on time is one of the sequential proxy, with the
    fates of that run's attempts, and exactly these attempts are sent upstream.  Missing: runs in which
    they write late, where the claim is false. *)
Theorem C114_sound_partial : forall c k ls s r, exec c init ls = Some s -> on_time c init ls -> s_out s = [r] -> further c k ->
  exists fs, sequential c k fs r /\ happened ls fs /\ s_sent s = repeat (c_request c) (length fs).
Proof. exact run_sequential. Qed.
Print Assumptions C114_sound_partial.

(** Whatever the sequential proxy does is done by the handler in some run, which ends. *)
Theorem C114_complete : forall c k fs r, c_ok c = true -> further c k -> valid_fates fs -> sequential c k fs r ->
  exists ls s, exec c init ls = Some s /\ on_time c init ls /\ s_pc s = PDone /\ s_out s = [r] /\
    s_sent s = repeat (c_request c) (length fs) /\ happened ls fs.
Proof. exact run_exists. Qed.
Print Assumptions C114_complete.

(** A GET with up to three attempts: the first fails, the second times out and the third is answered. *)
Example C114_case : further (gets 3) 2 /\ valid_fates [Fails; TimesOut; Good created "ok"] /\
  sequential (gets 3) 2 [Fails; TimesOut; Good created "ok"] (proxied toy 0 get_down created "ok") /\
  rp_status (proxied toy 0 get_down created "ok") = 201%Z.
Proof.
  split; [|split; [|split]].
  - split; [reflexivity|]. intros N. destruct N. now left.
  - intros rs body [E|[E|[E|[]]]]; [discriminate E|discriminate E|]. injection E as <- <-. discriminate.
  - apply sq_again; [now left|]. apply sq_again; [now right|]. exact (sq_good (gets 3) 0 created "ok" 0 eq_refl).
  - reflexivity.
Qed.

(** Without the condition on time it is false: a late goroutine leads to a response no sequential proxy gives. *)
Theorem C114_late_refuted : exists c ls s r, exec c init ls = Some s /\ c_ok c = true /\ s_out s = [r] /\ forall k fs, ~ sequential c k fs r.
Proof. exact late_not_sequential. Qed.
Print Assumptions C114_late_refuted.

(** Of C28: no goroutine closes a channel that is closed already, on any schedule, so that the panics
    recovered in proxyhandler.go:160-168 and 208-216 never happen. *)
Theorem C28_closed_once : forall c ls s i, exec c init ls = Some s ->
  (step c s (LCloseHdr i) <> None -> a_hdr (s_att s i) = false) /\ (step c s (LCloseBody i) <> None -> a_bdy (s_att s i) = false).
Proof. exact closed_once. Qed.
Print Assumptions C28_closed_once.

Example C28_closed_once_case : exists s, exec (gets 1) init [LMain 0; LDo 0 None; LSetResp 0] = Some s /\ step (gets 1) s (LCloseHdr 0) <> None.
Proof. eexists. split; [reflexivity|]. discriminate. Qed.
