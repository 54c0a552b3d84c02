(** Theorems about the lines logged for responses: C71 to C74.

    [t] is a setting of SystemSpec and [x] what else the line shows of the request; [logs t x es] says
    which lines are logged. *)
From Coq Require Import String Ascii List Bool ZArith NArith.
From Verif Require Import GoStr Header HeaderSpec IprexSpec Iprex Json JsonSpec Exchange ExchangeSpec Jwt Machine MachineSpec MachineRaces
  Handler HandlerSpec HandlerCases SystemSpec SystemProofs SystemCases AccessLog AccessLogSpec AccessLogProofs AccessLogCases.
Import ListNotations.
Local Open Scope string_scope.

(** C71: in every run there is at most one line, never one without a response, and it agrees with
    the request and the response ... *)
Theorem C71_line_partial : forall t x es, logs t x es -> sized (t_req t) ->
  length es <= 1 /\ (forall e, In e es -> exists r, replies t r) /\ (forall e r, In e es -> replies t r -> tells t x r e).
Proof. exact lines. Qed.
Print Assumptions C71_line_partial.

(** ... and if no goroutine writes late, every response of a finished run has its line. *)
Theorem C71_logged_partial : forall t x es r, logs t x es -> replies t r -> sized (t_req t) -> timely_run t -> over t -> exists e, es = [e].
Proof. exact line_for_each. Qed.
Print Assumptions C71_logged_partial.

Example C71_case : exists e r, logs visit from_home [e] /\ replies visit r /\ sized (t_req visit) /\ timely_run visit /\ over visit /\
  (l_status e, l_id e, l_method e, l_addr e, l_warn e, l_encoding e) = (201%Z, "mine", "GET", "10.1.2.3", false, "identity").
Proof.
  destruct visit_line as (e & H1 & H2 & _). destruct visit_relayed as (r & _ & H3). exists e, r.
  split; [exact H1|]. split; [exact H3|]. split; [exact visit_sized|]. split; [exact visit_timely|]. split; [exact visit_over|exact H2].
Qed.

(** The address logged is that of an IPv4 client. *)
Theorem C71_address_partial : forall t x e a b c d port, logs t x [e] -> sized (t_req t) ->
  is_octet a -> is_octet b -> is_octet c -> is_octet d ->
  x_addr x = dotted a b c d ++ ":" ++ itoa port -> l_addr e = dotted a b c d.
Proof. exact line_address. Qed.
Print Assumptions C71_address_partial.

(** Full C71 is false: a late goroutine can make the handler panic between response and line. *)
Theorem C71_refuted : exists t x r, replies t r /\ rp_status r = 201%Z /\ over t /\ logs t x [].
Proof. exact no_line. Qed.
Print Assumptions C71_refuted.

(** C72: the line of an error has the message of the error document, if no goroutine writes late. *)
Theorem C72_message_partial : forall t x e r, logs t x [e] -> replies t r -> sized (t_req t) -> timely_run t ->
  utf8 (e_id (t_env t)) -> utf8 (e_version (t_env t)) -> no_gzip_client (t_req t) -> (400 <= rp_status r)%Z ->
  exists dice m, l_error e = Some m /\
    read_object (rp_body r) = Some [("j8a", JStr (random_huttese dice)); ("ServerID", JStr (e_id (t_env t)));
      ("Version", JStr (e_version (t_env t))); ("Code", JInt (rp_status r)); ("Message", JStr m)].
Proof. exact line_message. Qed.
Print Assumptions C72_message_partial.

Example C72_case : exists e r, logs refused from_home [e] /\ replies refused r /\ sized (t_req refused) /\ timely_run refused /\
  utf8 (e_id (t_env refused)) /\ utf8 (e_version (t_env refused)) /\ no_gzip_client (t_req refused) /\ rp_status r = 503%Z /\
  l_error e = Some "unable to map upstream resource".
Proof. exact refused_case. Qed.

(** Full C72 is false: after a late write the line says "none" and the body is the upstream's. *)
Theorem C72_refuted : exists t x e r, logs t x [e] /\ replies t r /\ (400 <= rp_status r)%Z /\ no_gzip_client (t_req t) /\
  l_error e = Some "none" /\ rp_body r = "ok".
Proof. exact late_message. Qed.
Print Assumptions C72_refuted.

(** C73: the encoding logged is the one sent, for a body passed on from an upstream. *)
Theorem C73_relayed_partial : forall t x e r rs body, logs t x [e] -> relayed t r rs body -> sized (t_req t) -> timely_run t ->
  canonical_keys (ur_header rs) -> ~ (400 <= ur_status rs < 500)%Z -> rp_body r <> "" ->
  values "Content-Encoding" (rp_header r) = [l_encoding e].
Proof. exact relayed_encoding. Qed.
Print Assumptions C73_relayed_partial.

Example C73_case : exists e r, logs visit from_home [e] /\ relayed visit r created "ok" /\ canonical_keys (ur_header created) /\
  ~ (400 <= ur_status created < 500)%Z /\ rp_body r = "ok".
Proof. exact visit_body. Qed.

(** Full C73 is false for the about page, for error documents, for 4xx answers of an upstream and for
    empty bodies. *)
Theorem C73_about_refuted : exists t x e r, logs t x [e] /\ replies t r /\ rp_status r = 200%Z /\
  values "Content-Encoding" (rp_header r) = ["gzip"] /\ l_encoding e = "identity".
Proof. exact about_encoding. Qed.
Print Assumptions C73_about_refuted.

Theorem C73_error_refuted : exists t x e r, logs t x [e] /\ replies t r /\ rp_status r = 503%Z /\
  values "Content-Encoding" (rp_header r) = [] /\ l_encoding e = "gzip".
Proof. exact refused_encoding. Qed.
Print Assumptions C73_error_refuted.

Theorem C73_client_error_refuted : exists t x e r, logs t x [e] /\ replies t r /\ rp_status r = 404%Z /\
  values "Content-Encoding" (rp_header r) = [] /\ l_encoding e = "br".
Proof. exact br_encoding. Qed.
Print Assumptions C73_client_error_refuted.

Theorem C73_empty_refuted : exists t x e r, logs t x [e] /\ replies t r /\ rp_status r = 204%Z /\
  values "Content-Encoding" (rp_header r) = [] /\ l_encoding e = "gzip".
Proof. exact empty_encoding. Qed.
Print Assumptions C73_empty_refuted.

(** C74: an attempt in the line was made, to that URI and as the last of that many, in every run ... *)
Theorem C74_attempt_partial : forall t x e u, logs t x [e] -> l_up e = Some u -> sized (t_req t) ->
  exists ys, sends t ys /\ ys <> [] /\ (forall y, In y ys -> uq_uri y = ue_uri u) /\
    ue_count u = itoa_Z (Z.of_nat (length ys)) ++ "/" ++ itoa_Z (Config.up_max_attempts (Config.c_up (t_cfg t))).
Proof. exact attempt_line. Qed.
Print Assumptions C74_attempt_partial.

(** ... and for a response passed on the line has the attempt and its status. *)
Theorem C74_relayed_partial : forall t x e r rs body, logs t x [e] -> relayed t r rs body -> sized (t_req t) -> timely_run t ->
  exists u, l_up e = Some u /\ ue_status u = ur_status rs /\ ue_abort u = false.
Proof. exact relayed_attempt. Qed.
Print Assumptions C74_relayed_partial.

Example C74_case : exists e, logs visit from_home [e] /\
  l_up e = Some (UpEntry "http://localhost:60083/x?y=1" "default" 201 false "2/4").
Proof. destruct visit_line as (e & H1 & _ & H2). now exists e. Qed.

(** Full C74 is false: the line of a request whose attempts all failed has no attempt. *)
Theorem C74_refuted : exists t x e ys, logs t x [e] /\ timely_run t /\ over t /\ sends t ys /\ length ys = 4 /\ l_up e = None.
Proof. exact unmentioned. Qed.
Print Assumptions C74_refuted.
