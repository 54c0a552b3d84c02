(** Cases for Thm_LogText. *)
From Coq Require Import String Ascii List Bool ZArith NArith Lia.
From Verif Require Import GoStr Header HeaderSpec Json JsonSpec Policy Config ConfigSpec ConfigProofs Routing Exchange ExchangeProofs Jwt JwtSpec JwtCases Machine MachineSpec MachineRaces
  Handler HandlerSpec HandlerCases SystemSpec SystemCases AccessLog AccessLogSpec AccessLogCases LogText LogTextSpec LogTextProofs.
Import ListNotations.
Local Open Scope string_scope.

(** A question to the program itself by a client that calls itself [agent] *)
Definition greeting (agent : string) : setting :=
  Setting toy lib always live chance0 (Incoming (Req "GET" "/about" "/about" [("User-Agent", agent)] 0 "" true) "/about") [].
Definition from_afar : wire := Wire "/about" "10.1.2.3:51000" 1 1 None.
Definition greeted (agent : string) : entry := about_entry toy from_afar (ch_fresh chance0) (t_req (greeting agent)).

Lemma greeting_logged : forall agent, logs (greeting agent) from_afar [greeted agent].
Proof. intros agent. apply lines_of_logs. reflexivity. Qed.

(** Two clients that are not told apart *)
Definition ff : string := String (ascii_of_N 255) "".
Definition fe : string := String (ascii_of_N 254) "".

Lemma agents_alike : exists t t' x e e', logs t x [e] /\ logs t' x [e'] /\ l_agent e <> l_agent e' /\
  forall srv time d u, log_text srv time (access_event e d u) = log_text srv time (access_event e' d u).
Proof.
  exists (greeting ff), (greeting fe), from_afar, (greeted ff), (greeted fe). split; [apply greeting_logged|]. split; [apply greeting_logged|]. split; [discriminate|].
  intros srv time d u. reflexivity.
Qed.

(** An agent with a quote, a line end, a character of two bytes and members of its own *)
Definition sly : string := "x"",""dwnResCode"":500}" ++ String (ascii_of_N 10) ("{""level"":""info" ++ String (ascii_of_N 195) (String (ascii_of_N 188) "")).

Definition stamp : string := "2020-09-13T12:26:40Z".

Lemma stamp_fine : time_text stamp.
Proof. repeat split; first [left; split; discriminate | right; cbn [In]; tauto]. Qed.

Lemma sly_utf8 : utf8 sly.
Proof. repeat (apply utf8_1; [reflexivity|]). apply utf8_2; [reflexivity|reflexivity|constructor]. Qed.

Lemma sly_text : log_text "0a1b2c3d" stamp (access_event (greeted sly) 57 0) =
  "{""level"":""info"",""srvId"":""0a1b2c3d"",""dwnReqPath"":""/about"",""dwnReqRemoteAddr"":""10.1.2.3"",""dwnReqMethod"":""GET"",""dwnReqUserAgent"":""x\"",\""dwnResCode\"":500}\n{\""level\"":\""info" ++
  String (ascii_of_N 195) (String (ascii_of_N 188) (""",""dwnHttpVer"":""1.1"",""dwnResCode"":200,""dwnResContentEnc"":""identity"",""dwnElapsedMicros"":57,""X-Request-Id"":""XR-unknown-uuid"",""dwnTlsVer"":""none"",""time"":""2020-09-13T12:26:40Z"",""message"":""downstream response served""}" ++ String (ascii_of_N 10) "")).
Proof. vm_compute. reflexivity. Qed.

Lemma greeted_utf8 : forall agent, utf8 agent -> agent <> "" -> utf8_entry (greeted agent).
Proof.
  intros agent U N. unfold greeted, about_entry, log_entry, utf8_entry. cbn [l_text l_error l_path l_addr l_method l_agent l_http l_encoding l_id l_tls l_up].
  assert (A : user_agent (t_req (greeting agent)) = agent).
  { unfold user_agent. change (get "User-Agent" (q_header (t_req (greeting agent)))) with agent. destruct (String.eqb_spec agent ""); [contradiction|reflexivity]. }
  rewrite A. repeat split; try exact U; vm_compute; repeat (apply utf8_1; [reflexivity|]); apply utf8_nil.
Qed.

Definition bare_quote (s : string) : string := """" ++ log_escape s ++ """".
Lemma bare_unbroken : forall s, unbroken (bare_quote s).
Proof.
  intros s. unfold bare_quote. cbn [append unbroken]. split; [discriminate|]. apply unbroken_app. split; [|split; [discriminate|exact I]].
  apply legible_unbroken. exact (proj1 (log_escape_reads _ s (le_n _))).
Qed.
