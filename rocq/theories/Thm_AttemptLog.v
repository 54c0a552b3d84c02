(** Theorems about the bodies of upstream responses and the lines about attempts: C98 and C99.

    [closed_bodies c init ls] are the attempts, counted from 0, whose bodies the handler closes in run [ls];
    [attempt_lines c ls] are the lines about attempts. *)
From Coq Require Import String Ascii List Bool ZArith NArith.
From Verif Require Import GoStr Header Exchange ExchangeProofs Machine MachineSpec MachineRaces Startup StartupCases
  AttemptLog AttemptLogSpec AttemptLogProofs AttemptLogCases.
Import ListNotations.
Local Open Scope string_scope.

(** C98: when the handler is done, the body of every response that an attempt got is closed by the handler,
    unless the context of that attempt was cancelled, after which net/http closes it ... *)
Theorem C98_released : forall c ls s, exec c init ls = Some s -> finished s ->
  forall i rs, answered ls i rs -> In i (closed_bodies c init ls) \/ (a_ctx (s_att s i) = true /\ (In (LUpTimer i) ls \/ In LDwnTimer ls)).
Proof. exact released. Qed.
Print Assumptions C98_released.

(** ... and no body is closed twice or without a response. *)
Theorem C98_once : forall c ls s, exec c init ls = Some s ->
  NoDup (closed_bodies c init ls) /\ forall i, In i (closed_bodies c init ls) -> exists rs, answered ls i rs.
Proof. exact closed_once. Qed.
Print Assumptions C98_once.

(** Two attempts that answer, a timeout before the second, and one that answers after its timeout *)
Example C98_case : (exists s, exec (gets 2) init second_wins = Some s /\ finished s) /\ closed_bodies (gets 2) init second_wins = [0; 1] /\
  answered second_wins 0 (UpResp 200 []) /\ answered second_wins 1 created /\
  (exists s, exec (gets 1) init too_late = Some s /\ finished s) /\ closed_bodies (gets 1) init too_late = [] /\ answered too_late 0 created.
Proof. exact bodies_case. Qed.

(** C99: every line has the id of the request and the number of an attempt made ... *)
Theorem C99_lines_partial : forall c ls s, exec c init ls = Some s -> s_pc s = PDone -> forall e, In e (attempt_lines c ls) ->
  al_id e = w_id (c_down c) /\ exists n, 1 <= n <= length (s_sent s) /\ of_attempt c n e.
Proof. exact each_line. Qed.
Print Assumptions C99_lines_partial.

(** ... there is one line for the begin and one for the outcome of each attempt ... *)
Theorem C99_attempts_partial : forall c ls s, exec c init ls = Some s -> s_pc s = PDone -> forall n, 1 <= n <= length (s_sent s) ->
  exactly_one (fun e => of_attempt c n e /\ begins e) (attempt_lines c ls) /\
  exactly_one (fun e => of_attempt c n e /\ (succeeds e \/ fails e)) (attempt_lines c ls).
Proof. exact each_attempt. Qed.
Print Assumptions C99_attempts_partial.

(** ... in the order of attempts, also while the request is being handled ... *)
Theorem C99_order : forall c ls s, exec c init ls = Some s -> forall a e1 b e2 d n1 n2, attempt_lines c ls = (a ++ e1 :: b ++ e2 :: d)%list ->
  of_attempt c n1 e1 -> of_attempt c n2 e2 -> n1 <= n2.
Proof. exact in_turn. Qed.
Print Assumptions C99_order.

(** ... and either the last attempt, and no other, is called successful with the status of its response, or one
    line says that retries stopped and the response is an error of the proxy. *)
Theorem C99_outcome_partial : forall c ls s, exec c init ls = Some s -> s_pc s = PDone ->
  let L := attempt_lines c ls in
  (exactly_one succeeds L /\ (forall e, In e L -> ~ stops e) /\
   exists e rs, In e L /\ of_attempt c (length (s_sent s)) e /\ al_message e = Successful (ur_status rs) /\ answered ls (s_cur s) rs) \/
  (exactly_one stops L /\ (forall e, In e L -> ~ succeeds e) /\
   exists r dice, s_out s = [r] /\ (r = gave_up_downstream c dice \/ r = gave_up_upstream c dice \/ r = gave_up_error c dice)).
Proof. exact ends_well_or_not. Qed.
Print Assumptions C99_outcome_partial.

(** On time, the status of a success is the one sent ... *)
Theorem C99_code_partial : forall c ls s, exec c init ls = Some s -> on_time c init ls -> s_pc s = PDone ->
  forall e code, In e (attempt_lines c ls) -> al_message e = Successful code -> exists r, s_out s = [r] /\ rp_status r = code.
Proof. exact code_sent. Qed.
Print Assumptions C99_code_partial.

Example C99_case : (exists s, exec (gets 2) init second_wins = Some s /\ on_time (gets 2) init second_wins /\ s_pc s = PDone) /\
  map (fun e => (al_attempt e, al_message e)) (attempt_lines (gets 2) second_wins) =
    [("1/2", Initialized); ("1/2", HeaderProcessed); ("1/2", BodyTimeout); ("1/2", Unsuccessful (Some 200%Z));
     ("2/2", Initialized); ("2/2", HeaderProcessed); ("2/2", BodyProcessed); ("2/2", Successful 201); ("2/2", AsIs)] /\
  (exists s, exec (gets 1) init too_late = Some s /\ s_pc s = PDone) /\
  map (fun e => (al_attempt e, al_message e)) (attempt_lines (gets 1) too_late) =
    [("1/1", Initialized); ("1/1", HeaderTimeout); ("1/1", Unsuccessful None); ("1/1", RetriesStopped)].
Proof. exact lines_case. Qed.

(** ... but a late goroutine can make the handler log a status other than the one it sends ... *)
Theorem C99_code_refuted : exists c ls s e r, exec c init ls = Some s /\ c_ok c = true /\ s_pc s = PDone /\
  In e (attempt_lines c ls) /\ al_message e = Successful 201 /\ s_out s = [r] /\ rp_status r = 200%Z.
Proof. exact other_code. Qed.
Print Assumptions C99_code_refuted.

(** ... and a handler that panics leaves an attempt without outcome. *)
Theorem C99_attempts_refuted : exists c ls s, exec c init ls = Some s /\ c_ok c = true /\ finished s /\ length (s_sent s) = 2 /\
  forall e, In e (attempt_lines c ls) -> of_attempt c 2 e -> ~ (succeeds e \/ fails e).
Proof. exact no_outcome. Qed.
Print Assumptions C99_attempts_refuted.

(** The lines leave the process if LOGLEVEL is TRACE, or if it is DEBUG and the request asks for them, and in no
    other case. *)
Theorem C99_level : forall h q c ls,
  let l := to_upper (h_env h "LOGLEVEL") in
  (l = "TRACE" \/ (l = "DEBUG" /\ asks q) -> written_lines h q c ls = attempt_lines c ls) /\
  (~ (l = "TRACE" \/ (l = "DEBUG" /\ asks q)) -> written_lines h q c ls = []).
Proof. exact lines_written. Qed.
Print Assumptions C99_level.

Example C99_level_case :
  let q := Req "GET" "/a" "/a" [("X-Request-Debug", "True")] 0 "" true in
  asks q /\ to_upper (h_env (host0 "" "LOGLEVEL" "debug") "LOGLEVEL") = "DEBUG" /\
  length (written_lines (host0 "" "LOGLEVEL" "debug") q (gets 1) too_late) = 4 /\
  written_lines (host0 "" "LOGLEVEL" "info") q (gets 1) too_late = [].
Proof. exact level_case. Qed.
