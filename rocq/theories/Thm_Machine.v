(** Attempts, retries, timeouts and races of one request (C19, C21, C25 to C28, C33 to C36).

    A run is a list [ls] of labels with [exec c init ls = Some s]: any interleaving of the handler, the
    goroutines of all attempts, and the timers. *)
From Coq Require Import String Ascii List Bool ZArith NArith.
From Verif Require Import GoStr Header Exchange ExchangeProofs Machine MachineSpec MachineProofs MachineTimely MachineRaces.
Import ListNotations.
Local Open Scope string_scope.

(** * Attempts *)

(** C19: every attempt sends the same request, so the same body. *)
Theorem C19_attempts : forall c ls s, exec c init ls = Some s -> forall r, In r (s_sent s) -> r = c_request c.
Proof. exact attempts_same. Qed.
Print Assumptions C19_attempts.

(** C21 *)
Theorem C21_bound : forall c ls s, exec c init ls = Some s ->
  (Z.of_nat (length (s_sent s)) <= Z.max 1 (c_max c))%Z.
Proof. exact attempts_bound. Qed.
Print Assumptions C21_bound.

Theorem C21_once : forall c ls s, ~ repeatable c -> exec c init ls = Some s -> length (s_sent s) <= 1.
Proof. exact attempts_once. Qed.
Print Assumptions C21_once.

(** Two attempts out of two; the bound is reached. *)
Example C21_case : option_map (fun s => length (s_sent s)) (exec (gets 2) init (late_status (UpResp 503 []))) = Some 2.
Proof. vm_compute. reflexivity. Qed.

(** * Responses *)

(** C25: never two responses ... *)
Theorem C25_at_most_one : forall c ls s, exec c init ls = Some s ->
  length (s_out s) <= 1 /\ (s_pc s = PDone -> length (s_out s) = 1).
Proof. exact one_response. Qed.
Print Assumptions C25_at_most_one.

(** ... but possibly none, if the handler panics (C28). *)
Theorem C25_none_refuted : exists c ls s, exec c init ls = Some s /\ c_ok c = true /\ finished s /\ s_out s = [].
Proof. exact no_answer. Qed.
Print Assumptions C25_none_refuted.

(** C25 with C28: exactly one response if goroutines write on time. *)
Theorem C25_exactly_one_partial : forall c ls s, exec c init ls = Some s -> on_time c init ls -> c_ok c = true ->
  (forall i rs, answered ls i rs -> (100 <= ur_status rs <= 999)%Z) -> finished s -> length (s_out s) = 1.
Proof. exact exactly_one. Qed.
Print Assumptions C25_exactly_one_partial.

Example C25_case :
  let ls := (answer created "ok" ++ repeat (LMain 0) 16)%list in
  outcome (exec (gets 1) init ls) = Some (PDone, [proxied toy 0 get_down created "ok"]) /\ on_time (gets 1) init ls.
Proof. split; [vm_compute; reflexivity | vm_compute; tauto]. Qed.

(** Goroutines write on time, meaning while their attempt is the current one, unless an upstream timer
    has fired, a retry has followed and the timed-out attempt's goroutine still runs. *)
Theorem C27_on_time : forall c ls s, exec c init ls = Some s ->
  (forall i, ~ In (LUpTimer i) ls) \/ (c_max c <= 1)%Z \/ ~ repeatable c -> on_time c init ls.
Proof. exact on_time_if. Qed.
Print Assumptions C27_on_time.

Theorem C27_late : forall c ls s l s', exec c init ls = Some s -> step c s l = Some s' ->
  timely s l \/ exists i, i < s_cur s /\ In (LUpTimer i) ls /\ (l = LSetResp i \/ l = LStatus i \/ l = LGz i).
Proof. exact late_write. Qed.
Print Assumptions C27_late.

(** C26 on every schedule: 502, 504, or a status some attempt was answered with ... *)
Theorem C26_any_partial : forall c ls s r, exec c init ls = Some s -> s_out s = [r] ->
  rp_status r = 502%Z \/ rp_status r = 504%Z \/ exists i rs, answered ls i rs /\ rp_status r = ur_status rs.
Proof. exact status_any. Qed.
Print Assumptions C26_any_partial.

(** ... below 500 if goroutines write on time ... *)
Theorem C26_on_time_partial : forall c ls s r, exec c init ls = Some s -> on_time c init ls -> s_out s = [r] ->
  rp_status r = 502%Z \/ rp_status r = 504%Z \/
  exists i rs, answered ls i rs /\ rp_status r = ur_status rs /\ (ur_status rs < 500)%Z.
Proof. exact status_on_time. Qed.
Print Assumptions C26_on_time_partial.

(** ... but not in general: the 503 of an abandoned attempt can be sent with a later answer. *)
Theorem C26_late_refuted : exists c ls s r, exec c init ls = Some s /\ c_ok c = true /\ s_out s = [r] /\
  rp_status r = 503%Z /\ (forall i rs, answered ls i rs -> (100 <= ur_status rs <= 999)%Z) /\
  ~ (rp_status r = 502%Z \/ rp_status r = 504%Z \/
     exists i rs, answered ls i rs /\ rp_status r = ur_status rs /\ (ur_status rs < 500)%Z).
Proof. exact wrong_status. Qed.
Print Assumptions C26_late_refuted.

(** C27: on time, a response is made from one upstream answer or from none. *)
Theorem C27_one_attempt_partial : forall c ls s r, exec c init ls = Some s -> on_time c init ls -> s_out s = [r] ->
  (exists dice, r = gave_up_downstream c dice \/ r = gave_up_upstream c dice \/ r = gave_up_error c dice) \/
  exists i dice rs body, answered ls i rs /\ In (LRead i body true) ls /\ r = proxied (c_env c) dice (c_down c) rs body.
Proof. exact one_attempt. Qed.
Print Assumptions C27_one_attempt_partial.

(** C27 fails in general: the status of one attempt with headers and body of another ... *)
Theorem C27_status_refuted : exists c ls s r, exec c init ls = Some s /\ c_ok c = true /\ s_out s = [r] /\
  (forall i rs, answered ls i rs -> ur_status rs = 200%Z \/ ur_status rs = 201%Z) /\
  ~ exists i dice rs body, answered ls i rs /\ In (LRead i body true) ls /\ r = proxied (c_env c) dice (c_down c) rs body.
Proof. exact mixed_status. Qed.
Print Assumptions C27_status_refuted.

(** ... and the compression state of one with the body of another, which is then mangled. *)
Theorem C27_gzip_refuted : exists c ls s r, exec c init ls = Some s /\ c_ok c = true /\ s_out s = [r] /\
  (forall i rs, answered ls i rs -> values "Content-Encoding" (ur_header rs) = []) /\
  In (LRead 1 "plain" true) ls /\ rp_status r = 200%Z /\ rp_body r = "ain".
Proof. exact mixed_gzip. Qed.
Print Assumptions C27_gzip_refuted.

(** C28: no panic on time, for upstream statuses that are HTTP statuses ... *)
Theorem C28_on_time_partial : forall c ls s, exec c init ls = Some s -> on_time c init ls -> c_ok c = true ->
  (forall i rs, answered ls i rs -> (100 <= ur_status rs <= 999)%Z) -> s_pc s <> PPanic.
Proof. exact no_panic. Qed.
Print Assumptions C28_on_time_partial.

(** All of it on time with a retry: a 503, then a 201 *)
Example C26_case :
  let ls := (answer (UpResp 503 []) "no" ++ repeat (LMain 0) 6 ++ [LDo 1 (Some created); LSetResp 1; LCloseHdr 1; LSel CComplete; LMain 0; LMain 0;
     LStatus 1; LRead 1 "ok" true; LGz 1; LCloseBody 1; LSel CComplete] ++ repeat (LMain 0) 16)%list in
  outcome (exec (gets 2) init ls) = Some (PDone, [proxied toy 0 get_down created "ok"]) /\ on_time (gets 2) init ls /\
  c_ok (gets 2) = true /\ (forall i, ~ In (LUpTimer i) ls) /\ (forall i rs, answered ls i rs -> (100 <= ur_status rs <= 999)%Z).
Proof.
  split; [vm_compute; reflexivity|]. split; [vm_compute; tauto|]. split; [reflexivity|].
  split; [intros i H; cbn in H; in_cases H|].
  intros i rs H. unfold answered in H. cbn in H. in_cases H; injection H as <- <-; vm_compute; split; congruence.
Qed.

(** ... but a late error makes the handler dereference nil ... *)
Theorem C28_late_refuted : exists c ls s, exec c init ls = Some s /\ c_ok c = true /\
  (forall i rs, answered ls i rs -> (100 <= ur_status rs <= 999)%Z) /\ s_pc s = PPanic /\ s_out s = [].
Proof. exact late_panic. Qed.
Print Assumptions C28_late_refuted.

(** ... and so does an upstream status below 100, without any timer. *)
Theorem C28_code_refuted : exists c ls s, exec c init ls = Some s /\ on_time c init ls /\ c_ok c = true /\ c_max c = 1%Z /\
  (forall i rs, answered ls i rs -> ur_status rs = 42%Z) /\ s_pc s = PPanic /\ s_out s = [].
Proof. exact code_panic. Qed.
Print Assumptions C28_code_refuted.

(** * Timeouts *)

(** C33 *)
Theorem C33_downstream : forall c ls1 s1 ls2 s2, exec c init ls1 = Some s1 -> undecided s1 -> In LDwnTimer ls1 ->
  exec c s1 ls2 = Some s2 ->
  (s_out s2 = [] \/ exists dice, s_out s2 = [gave_up_downstream c dice]) /\
  (s_pc s2 = PDone -> exists dice, s_out s2 = [gave_up_downstream c dice]) /\
  length (s_sent s2) <= S (length (s_sent s1)) /\
  (s_pc s2 = PPanic -> s_out s2 = [] -> c_ok c = false).
Proof. exact dwn_timeout_run. Qed.
Print Assumptions C33_downstream.

(** The timer fires while the handler waits for headers; the upstream answers all the same. *)
Example C33_case :
  let ls1 := [LMain 0; LDwnTimer] in
  let ls2 := [LDo 0 (Some created); LSetResp 0; LCloseHdr 0; LSel CComplete; LMain 0; LMain 0; LStatus 0; LRead 0 "ok" true;
              LGz 0; LCloseBody 0; LSel CComplete; LMain 0; LMain 0; LMain 0; LMain 0; LMain 0; LMain 0; LMain 0] in
  (exists s1, exec (gets 2) init ls1 = Some s1 /\ undecided s1) /\
  outcome (exec (gets 2) init (ls1 ++ ls2)) = Some (PDone, [gave_up_downstream (gets 2) 0]).
Proof. split; [eexists; split; [vm_compute; reflexivity | exact I] | vm_compute; reflexivity]. Qed.

(** C34: if the upstream timer of the last permitted attempt fires before the handler has judged the
    attempt, and the downstream timer does not fire, the response is the upstream 504 ... *)
Theorem C34_timeout : forall c ls1 s1 ls2 s2, exec c init ls1 = Some s1 -> unjudged s1 -> In (LUpTimer (s_cur s1)) ls1 ->
  (repeatable c -> (c_max c <= Z.of_nat (S (s_cur s1)))%Z) -> ~ In LDwnTimer ls1 -> ~ In LDwnTimer ls2 -> exec c s1 ls2 = Some s2 ->
  (s_out s2 = [] /\ ~ finished s2) \/ exists dice, s_out s2 = [gave_up_upstream c dice].
Proof. exact up_timeout. Qed.
Print Assumptions C34_timeout.

(** ... if another attempt is permitted it is made ... *)
Theorem C34_retry : forall c ls1 s1 ls2 s2, exec c init ls1 = Some s1 -> unjudged s1 -> s_pc s1 <> PFin1 -> s_pc s1 <> PFin2 ->
  In (LUpTimer (s_cur s1)) ls1 -> repeatable c -> (Z.of_nat (S (s_cur s1)) < c_max c)%Z -> ~ In LDwnTimer ls1 -> ~ In LDwnTimer ls2 ->
  exec c s1 ls2 = Some s2 -> s_cur s1 < s_cur s2 \/ (s_out s2 = [] /\ ~ finished s2).
Proof. exact up_retry. Qed.
Print Assumptions C34_retry.

(** ... and without timers, the response to a request whose last attempt fails is 502, all attempts
    have failed, and no more were permitted ... *)
Theorem C34_error : forall c ls s r, exec c init ls = Some s -> (forall i, ~ In (LUpTimer i) ls) -> ~ In LDwnTimer ls ->
  s_out s = [r] -> failed_attempt ls (Nat.pred (length (s_sent s))) ->
  (exists dice, r = gave_up_error c dice) /\ (repeatable c -> (c_max c <= Z.of_nat (length (s_sent s)))%Z) /\
  forall i, i < length (s_sent s) -> failed_attempt ls i.
Proof. exact all_fail. Qed.
Print Assumptions C34_error.

(** ... while the first attempt that succeeds is the last one made, and its answer is the response. *)
Theorem C34_success : forall c ls s r n rs body, exec c init ls = Some s -> (forall i, ~ In (LUpTimer i) ls) -> ~ In LDwnTimer ls ->
  s_out s = [r] -> answered ls n rs -> In (LRead n body true) ls -> (ur_status rs < 500)%Z ->
  n = Nat.pred (length (s_sent s)) /\ (exists dice, r = proxied (c_env c) dice (c_down c) rs body) /\
  forall i, i < n -> failed_attempt ls i.
Proof. exact first_success. Qed.
Print Assumptions C34_success.

(** C34 with timers: what any response written on time says about all attempts. *)
Theorem C34_in_order : forall c ls s r, exec c init ls = Some s -> on_time c init ls -> s_out s = [r] ->
  s_cur s = Nat.pred (length (s_sent s)) /\ in_order c ls (s_cur s) r.
Proof. exact whole_run. Qed.
Print Assumptions C34_in_order.

Example C34_case :
  outcome (exec (gets 1) init [LMain 0; LUpTimer 0; LSel CUp; LMain 0; LMain 0; LMain 0; LMain 0; LMain 0; LMain 0])
    = Some (PDone, [gave_up_upstream (gets 1) 0]) /\
  outcome (exec (gets 1) init [LMain 0; LDo 0 None; LSetResp 0; LCloseHdr 0; LSel CComplete; LMain 0; LMain 0; LMain 0; LMain 0; LMain 0; LMain 0])
    = Some (PDone, [gave_up_error (gets 1) 0]) /\
  outcome (exec (gets 2) init ([LMain 0; LDo 0 None; LSetResp 0; LCloseHdr 0; LSel CComplete; LMain 0; LMain 0; LMain 0; LMain 0;
      LDo 1 (Some created); LSetResp 1; LCloseHdr 1; LSel CComplete; LMain 0; LMain 0; LStatus 1; LRead 1 "ok" true;
      LGz 1; LCloseBody 1; LSel CComplete] ++ repeat (LMain 0) 16))
    = Some (PDone, [proxied toy 0 get_down created "ok"]).
Proof. repeat split; vm_compute; reflexivity. Qed.

(** * Progress *)

(** C35: the handler makes fewer than 24 steps per permitted attempt ... *)
Theorem C35_bound : forall c ls s, exec c init ls = Some s -> (Z.of_nat (main_count ls) < 24 * Z.max 1 (c_max c))%Z.
Proof. exact handler_bound. Qed.
Print Assumptions C35_bound.

(** ... is never stuck beyond the expiry of the current upstream timer ... *)
Theorem C35_progress : forall c ls s, exec c init ls = Some s -> finished s \/
  (exists s', step c s (LMain 0) = Some s') \/
  (exists s', step c s (LSel CUp) = Some s') \/
  (exists s1 s', step c s (LUpTimer (s_cur s)) = Some s1 /\ step c s1 (LSel CUp) = Some s').
Proof. exact progress. Qed.
Print Assumptions C35_progress.

(** ... and can always finish with its own steps and timer expiries alone. *)
Theorem C35_finish : forall c ls s, exec c init ls = Some s ->
  exists ls' s', forallb own_step ls' = true /\ exec c s ls' = Some s' /\ finished s'.
Proof. exact always_finishes. Qed.
Print Assumptions C35_finish.

Example C35_case : exists s, exec (gets 2) init [LMain 0] = Some s /\ ~ finished s.
Proof. eexists. split; [vm_compute; reflexivity|]. intros [H|H]; discriminate H. Qed.

(** C36 *)
Theorem C36_none_running : forall c ls s, exec c init ls = Some s -> s_out s <> [] -> s_pc s <> PPanic ->
  forall i, i <= s_cur s -> a_ctx (s_att s i) = true \/ In (LDo i None) ls \/ exists b ok, In (LRead i b ok) ls.
Proof. exact none_running. Qed.
Print Assumptions C36_none_running.

Example C36_case : exists s, exec (gets 2) init (late_status (UpResp 503 [])) = Some s /\ s_out s <> [] /\ s_pc s <> PPanic /\ s_cur s = 1.
Proof.
  destruct (outcome_some (exec (gets 2) init (late_status (UpResp 503 []))) _ _ ltac:(vm_compute; reflexivity)) as (s & E1 & E2 & E3).
  exists s. rewrite E2, E3. repeat split; [exact E1 | discriminate | discriminate |].
  assert (N : option_map s_cur (exec (gets 2) init (late_status (UpResp 503 []))) = Some 1) by (vm_compute; reflexivity).
  rewrite E1 in N. now injection N.
Qed.
