(** The text of log lines (C137). *)
From Coq Require Import String Ascii List Bool ZArith NArith.
From Verif Require Import GoStr Json JsonSpec Config ConfigProofs Jwt JwtSpec Handler HandlerSpec HandlerCases SystemSpec AccessLog AccessLogSpec TraceLog TraceLogSpec
  LogText LogTextSpec LogTextProofs LogForgeProofs LogTextCases.
Import ListNotations.
Local Open Scope string_scope.

(** C137: whatever is logged, it is one line. *)
Theorem C137_line : forall srv time e d u, time_text time ->
  exists body, log_text srv time (access_event e d u) = body ++ String (ascii_of_N 10) "" /\ legible_line body.
Proof. exact access_one_line. Qed.
Print Assumptions C137_line.

Theorem C137_any_line : forall srv time e, time_text time -> Forall (fun p => timed (snd p)) (v_fields e) ->
  exists body, log_text srv time e = body ++ String (ascii_of_N 10) "" /\ legible_line body.
Proof. exact event_one_line. Qed.
Print Assumptions C137_any_line.

(** The line is a JSON object with just the members of the event, whose strings are read as they are if they are UTF-8. *)
Theorem C137_members : forall srv time e, time_text time -> Forall (fun p => utf8 (fst p) /\ timed (snd p)) (v_fields e) ->
  exists ms, read_line (log_text srv time e) = Some ms /\
    Forall2 read_as (("level", VStr (v_level e)) :: ("srvId", VStr srv) :: v_fields e ++ ("time", VTime time) ::
      match v_message e with EmptyString => [] | m => [("message", VStr m)] end)%list ms.
Proof. exact event_members. Qed.
Print Assumptions C137_members.

(** That about a response has these members and, as their names differ, no others that a client could add. *)
Theorem C137_read : forall srv time e down up, time_text time ->
  exists ms, read_line (log_text srv time (access_event e down up)) = Some ms /\ NoDup (map fst ms) /\
    says ms "level" (VStr (if l_warn e then "warn" else "info")) /\ says ms "srvId" (VStr srv) /\ says ms "time" (VTime time) /\
    says_if ms "message" (if String.eqb (l_text e) "" then None else Some (VStr (l_text e))) /\
    says_if ms "dwnResErrMsg" (option_map VStr (l_error e)) /\
    says ms "dwnReqPath" (VStr (l_path e)) /\ says ms "dwnReqRemoteAddr" (VStr (l_addr e)) /\ says ms "dwnReqMethod" (VStr (l_method e)) /\
    says ms "dwnReqUserAgent" (VStr (l_agent e)) /\ says ms "dwnHttpVer" (VStr (l_http e)) /\ says ms "dwnResCode" (VInt (l_status e)) /\
    says ms "dwnResContentEnc" (VStr (l_encoding e)) /\ says ms "dwnElapsedMicros" (VInt down) /\ says ms "X-Request-Id" (VStr (l_id e)) /\
    says_if ms "dwnTlsVer" (option_map VStr (l_tls e)) /\
    says_if ms "upReqURI" (option_map (fun u => VStr (ue_uri u)) (l_up e)) /\ says_if ms "upLabel" (option_map (fun u => VStr (ue_label u)) (l_up e)) /\
    says_if ms "upAtmptResCode" (option_map (fun u => VInt (ue_status u)) (l_up e)) /\
    says_if ms "upAtmptElapsedMicros" (option_map (fun _ => VInt up) (l_up e)) /\
    says_if ms "upAtmptAbort" (option_map (fun u => VFlag (ue_abort u)) (l_up e)) /\ says_if ms "upAtmpt" (option_map (fun u => VStr (ue_count u)) (l_up e)).
Proof. exact access_read. Qed.
Print Assumptions C137_read.

(** Lines that are the same are about the same, if all is UTF-8. *)
Theorem C137_apart_partial : forall srv srv' time time' e e' d d' u u', time_text time -> time_text time' -> utf8 srv -> utf8 srv' -> utf8_entry e -> utf8_entry e' ->
  log_text srv time (access_event e d u) = log_text srv' time' (access_event e' d' u') ->
  srv = srv' /\ time = time' /\ e = e' /\ d = d' /\ (l_up e <> None -> u = u').
Proof. exact access_apart. Qed.
Print Assumptions C137_apart_partial.

(** Otherwise clients that say different things look the same. *)
Theorem C137_bytes_refuted : exists t t' x e e', logs t x [e] /\ logs t' x [e'] /\ l_agent e <> l_agent e' /\
  forall srv time d u, log_text srv time (access_event e d u) = log_text srv time (access_event e' d u).
Proof. exact agents_alike. Qed.
Print Assumptions C137_bytes_refuted.

(** In colour, lines about responses are single lines as well, ... *)
Theorem C137_colour_partial : forall q head srv time e d u ms, (forall s, unbroken (q s)) -> unbroken head -> time_text time ->
  utf8 (l_text e) -> unbroken (l_text e) -> read_line (log_text srv time (access_event e d u)) = Some ms ->
  exists body, console_text q head ms = body ++ String (ascii_of_N 10) "" /\ unbroken body.
Proof. exact console_access. Qed.
Print Assumptions C137_colour_partial.

(** ... and so are those whose messages are, ... *)
Theorem C137_colour_any_partial : forall q head srv time e ms, (forall s, unbroken (q s)) -> unbroken head -> time_text time ->
  Forall (fun p => utf8 (fst p) /\ unbroken (fst p) /\ timed (snd p) /\ fst p <> "message") (v_fields e) -> utf8 (v_message e) -> unbroken (v_message e) ->
  read_line (log_text srv time e) = Some ms ->
  exists body, console_text q head ms = body ++ String (ascii_of_N 10) "" /\ unbroken body.
Proof. exact console_event. Qed.
Print Assumptions C137_colour_any_partial.

(** ... but at level debug there is a message with what the client says: any line at all can be put into the log by
    a request that is refused with 401. *)
Theorem C137_colour_refuted : forall l, utf8 l -> exists t x ls id p n k, in_use key_source isort_routes site (t_cfg t) /\ honest (t_lib t) /\ answered_with t 401 /\
  traces t x ls /\ In (TLine id (TRotate p n k)) ls /\
  forall srv time q head, time_text time -> exists ms, read_line (log_text srv time (rotate_event p n id k)) = Some ms /\ line_of l (console_text q head ms).
Proof. exact forged. Qed.
Print Assumptions C137_colour_refuted.

(** The agent tries to end the line and to start another one. *)
Example C137_case : logs (greeting sly) from_afar [greeted sly] /\ time_text stamp /\ utf8_entry (greeted sly) /\ (forall s, unbroken (bare_quote s)) /\
  log_text "0a1b2c3d" stamp (access_event (greeted sly) 57 0) =
  "{""level"":""info"",""srvId"":""0a1b2c3d"",""dwnReqPath"":""/about"",""dwnReqRemoteAddr"":""10.1.2.3"",""dwnReqMethod"":""GET"",""dwnReqUserAgent"":""x\"",\""dwnResCode\"":500}\n{\""level\"":\""info" ++
  String (ascii_of_N 195) (String (ascii_of_N 188) (""",""dwnHttpVer"":""1.1"",""dwnResCode"":200,""dwnResContentEnc"":""identity"",""dwnElapsedMicros"":57,""X-Request-Id"":""XR-unknown-uuid"",""dwnTlsVer"":""none"",""time"":""2020-09-13T12:26:40Z"",""message"":""downstream response served""}" ++ String (ascii_of_N 10) "")).
Proof.
  split; [apply greeting_logged|]. split; [exact stamp_fine|]. split; [apply greeted_utf8; [exact sly_utf8|discriminate]|]. split; [exact bare_unbroken|exact sly_text].
Qed.
