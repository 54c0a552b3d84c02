(** A request from the listener to the last byte: what serving it (Handler) and the run it may start
    (Machine) send to upstreams and to the client. *)
From Coq Require Import String Ascii List Bool ZArith NArith.
From Verif Require Import GoStr Header HeaderSpec Policy Config ConfigSpec Exchange ExchangeSpec Jwt Machine MachineSpec Handler HandlerSpec.
Import ListNotations.
Local Open Scope string_scope.

(** Where and how a request is served: process values, jwx, http.NewRequest, configuration, the chances
    of this request, the request, and the schedule of the run *)
Record setting := Setting {
  t_env : env; t_lib : library; t_new : string -> string -> bool; t_cfg : config jwt; t_chance : chance;
  t_in : incoming; t_run : list label }.

Definition t_req (t : setting) : request := i_req (t_in t).

Definition t_serve (t : setting) : outcome := serve (t_env t) (t_lib t) (t_new t) (t_cfg t) (t_chance t) (t_in t).

(** The run started by the request ends in state [s]. *)
Definition ran (t : setting) (c : conf) (s : state) : Prop := t_serve t = Upstream c /\ exec c init (t_run t) = Some s.

(** The requests sent upstream *)
Definition sends (t : setting) (rs : list up_request) : Prop := exists c s, ran t c s /\ s_sent s = rs.
Definition asks (t : setting) (r : up_request) : Prop := exists rs, sends t rs /\ In r rs.

(** The responses sent to the client *)
Definition replies (t : setting) (r : response) : Prop :=
  t_serve t = About r \/ t_serve t = Answered r \/ exists c s, ran t c s /\ In r (s_out s).

(** The process values are those of the configuration. *)
Definition configured (t : setting) : Prop :=
  e_max_body (t_env t) = d_max_body (Config.c_down (t_cfg t)) /\
  (e_tls (t_env t) = true <-> d_mode (Config.c_down (t_cfg t)) = "TLS").

(** Goroutines write on time in the run, if there is one. *)
Definition timely_run (t : setting) : Prop := forall c s, ran t c s -> on_time c init (t_run t).

(** The request id: the client's, or a new one *)
Definition id_of (t : setting) (id : string) : Prop :=
  match values "X-Request-Id" (q_header (t_req t)) with
  | v :: _ => (v <> "" -> id = v) /\ (v = "" -> id = "XR-" ++ e_id (t_env t) ++ "-" ++ ch_fresh (t_chance t))
  | [] => id = "XR-" ++ e_id (t_env t) ++ "-" ++ ch_fresh (t_chance t)
  end.

(** Upstream answers in the run have canonical header names. *)
Definition canonical_answers (ls : list label) : Prop := forall i rs, answered ls i rs -> canonical_keys (ur_header rs).

(** Text of a server's URL *)
Definition base_url (u : url) : string := u_scheme u ++ "://" ++ u_host u ++ ":" ++ itoa (u_port u).

(** [u] is the server configured as [u0]: the scheme is made http or https if it names either. *)
Definition server_of (u0 u : url) : Prop :=
  u_host u = u_host u0 /\ u_port u = u_port u0 /\
  (known_scheme (u_scheme u0) -> u_scheme u = "http" \/ u_scheme u = "https") /\
  (known_scheme (u_scheme u0) -> (u_scheme u = "https" <-> exists a b, u_scheme u0 = a ++ "https" ++ b)) /\
  (~ known_scheme (u_scheme u0) -> u_scheme u = u_scheme u0).

(** The request is in origin form: net/url keeps the URI. *)
Definition origin_form (q : request) : Prop := q_uri q = q_raw_uri q.

(** * Responses *)

(** A request gets response [r] after its last attempt was answered with [rs] and [body]. *)
Definition relayed (t : setting) (r : response) (rs : up_response) (body : string) : Prop :=
  exists c s, ran t c s /\ s_out s = [r] /\ ~ In (rp_status r) [502; 504]%Z /\
    answered (t_run t) (Nat.pred (length (s_sent s))) rs /\ In (LRead (Nat.pred (length (s_sent s))) body true) (t_run t).

(** The proxy's own error responses: what they say, apart from the size limit in the first *)
Definition own_error (E : env) (status : Z) (message : string) : Prop :=
  (status, message) = (413%Z, "http request entity too large, limit is " ++ itoa_Z (e_max_body E) ++ " bytes") \/
  In (status, message)
    [(400, "bad or malformed request"); (401, "jwt bearer token missing, invalid, expired or unauthorized");
     (404, "upstream resource not found"); (503, "unable to map upstream resource");
     (504, "gateway timeout triggered by downstream event"); (504, "gateway timeout triggered by upstream attempt");
     (502, "bad gateway triggered. unable to process upstream response")]%Z.
