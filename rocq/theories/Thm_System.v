(** Theorems about whole requests, from the listener over any run of attempts to what is sent upstream
    and to the client: C15, C16, C18 to C26, C29 to C32, C38, C63, C70.

    [t] is a setting of SystemSpec: process, configuration, request and schedule. *)
From Coq Require Import String Ascii List Bool ZArith NArith.
From Verif Require Import GoStr Header HeaderSpec RegexSpec Config ConfigSpec ConfigProofs Json JsonSpec Exchange ExchangeSpec ExchangeProofs Jwt JwtSpec Machine MachineSpec MachineRaces
  Handler HandlerSpec HandlerCases SystemSpec SystemProofs SystemCases.
Import ListNotations.
Local Open Scope string_scope.

(** * Requests sent upstream *)

(** C15 with C01 and C13 (and C16 for a literal path starting with a slash): whatever is sent goes to a
    server of the matching route with the longest path, the first one or one with the chosen label, and
    to the URI of the request or, with a transform, to that with the path replaced. *)
Theorem C15_sent : forall so srt cfg0 t x, in_use so srt cfg0 (t_cfg t) -> asks t x -> sized (t_req t) ->
  exists r0 ms m u rest,
    (In r0 (c_routes cfg0) /\ route_matches r0 (q_raw_uri (t_req t)) /\
     forall r1, In r1 (c_routes cfg0) -> route_matches r1 (q_raw_uri (t_req t)) ->
       (String.length (slashed (r_path r1)) <= String.length (slashed (r_path r0)))%nat) /\
    (lookup (r_resource r0) (c_resources cfg0) = Some (Some ms) /\ In m ms /\ server_of (rm_url m) u) /\
    ((r_policy r0 = "" /\ hd_error ms = Some m) \/
     (r_policy r0 <> "" /\
      In (ch_label (t_chance t) (match lookup (r_policy r0) (c_policies (t_cfg t)) with Some p => p | None => [] end)) (rm_labels m))) /\
    uq_uri x = base_url u ++ rest /\
    (r_transform r0 = "" -> rest = q_uri (t_req t)) /\
    (r_transform r0 <> "" -> literal (r_path r0) = true -> (exists y, r_path r0 = "/" ++ y) -> origin_form (t_req t) ->
     exists tail, q_raw_uri (t_req t) = r_path r0 ++ tail /\
       rest = (if String.eqb (r_transform r0) "/" then "" else r_transform r0) ++ tail).
Proof. exact asks_where. Qed.
Print Assumptions C15_sent.

(** C18: over the configured limit with an honest length: 413, and nothing is sent. *)
Theorem C18_sent_partial : forall t, proxied_request (t_cfg t) (t_in t) -> honest_length (t_req t) -> configured t ->
  (0 <= d_max_body (Config.c_down (t_cfg t)) < Z.of_nat (String.length (q_data (t_req t))))%Z ->
  (exists r, t_serve t = Answered r /\ rp_status r = 413%Z) /\ forall x, ~ asks t x.
Proof. exact too_large_413. Qed.
Print Assumptions C18_sent_partial.

Example C18_sent_case : proxied_request (t_cfg upload) (t_in upload) /\ honest_length (t_req upload) /\ configured upload /\
  (0 <= d_max_body (Config.c_down (t_cfg upload)) < Z.of_nat (String.length (q_data (t_req upload))))%Z.
Proof. exact upload_case. Qed.

(** C19: every request sent has the whole body or none ... *)
Theorem C19_sent_partial : forall t x, asks t x -> sized (t_req t) -> uq_body x = q_data (t_req t) \/ uq_body x = "".
Proof. exact asks_body. Qed.
Print Assumptions C19_sent_partial.

(** ... and all of it below the limit. *)
Theorem C19_sent_within_partial : forall t x, asks t x -> sized (t_req t) -> honest_length (t_req t) \/ chunked (t_req t) ->
  (0 < e_max_body (t_env t))%Z -> (Z.of_nat (String.length (q_data (t_req t))) < e_max_body (t_env t))%Z ->
  uq_body x = q_data (t_req t).
Proof. exact asks_whole_body. Qed.
Print Assumptions C19_sent_within_partial.

(** C20: the method sent is the client's, and one of eight. *)
Theorem C20_sent : forall t x, asks t x -> sized (t_req t) ->
  uq_method x = to_upper (q_method (t_req t)) /\ In (uq_method x) known_methods.
Proof. exact asks_method. Qed.
Print Assumptions C20_sent.

(** C21: at most the configured number of requests, and one for methods that may not be repeated *)
Theorem C21_sent : forall so srt cfg0 t xs, in_use so srt cfg0 (t_cfg t) -> sends t xs -> sized (t_req t) ->
  (Z.of_nat (length xs) <= Z.max 1 (up_max_attempts (c_up cfg0)))%Z /\
  (~ In (to_upper (q_method (t_req t))) ["GET"; "HEAD"; "OPTIONS"; "TRACE"; "PUT"; "DELETE"] -> length xs <= 1).
Proof. exact asks_count. Qed.
Print Assumptions C21_sent.

(** C22 *)
Theorem C22_sent : forall t x id k, asks t x -> sized (t_req t) -> canonical_keys (q_header (t_req t)) -> id_of t id ->
  values k (uq_header x) =
  if String.eqb k "X-Request-Id" then [id]
  else if existsb (String.eqb k) never_copied then [] else values k (q_header (t_req t)).
Proof. exact asks_header. Qed.
Print Assumptions C22_sent.

(** C23: one id in all requests sent and in every response, on any schedule *)
Theorem C23_everywhere : forall t id, sized (t_req t) -> id_of t id ->
  (canonical_keys (q_header (t_req t)) -> forall x, asks t x -> values "X-Request-Id" (uq_header x) = [id]) /\
  (canonical_answers (t_run t) -> forall r, replies t r -> hd_error (values "X-Request-Id" (rp_header r)) = Some id).
Proof. exact one_id. Qed.
Print Assumptions C23_everywhere.

(** For C15 to C23: a request with a transform whose first attempt fails *)
Example C15_sent_case : in_use key_source isort_routes site (t_cfg visit) /\ sized (t_req visit) /\ id_of visit "mine" /\
  canonical_answers (t_run visit) /\ canonical_keys (q_header (t_req visit)) /\
  exists x, asks visit x /\ uq_uri x = "http://localhost:60083/x?y=1".
Proof.
  split; [exact live_in_use|]. split; [exact visit_sized|]. split; [split; [reflexivity|discriminate]|].
  split; [exact (proj1 visit_canonical)|]. split; [exact (proj2 visit_canonical)|exact visit_asks].
Qed.

(** * Responses *)

(** C26 for whole requests: 200 from the about page, 400, 401, 404, 413 or 503 without an attempt, 502 or
    504 after attempts, or the status of the last attempt's answer, which is below 500 *)
Theorem C26_replies_partial : forall t r, replies t r -> sized (t_req t) -> timely_run t ->
  (t_serve t = About r /\ rp_status r = 200%Z) \/
  (t_serve t = Answered r /\ In (rp_status r) [400; 401; 404; 413; 503]%Z) \/
  ((exists c, t_serve t = Upstream c) /\
   (In (rp_status r) [502; 504]%Z \/ exists rs body, relayed t r rs body /\ rp_status r = ur_status rs /\ (ur_status rs < 500)%Z)).
Proof. exact statuses. Qed.
Print Assumptions C26_replies_partial.

(** C24 *)
Theorem C24_relayed_partial : forall t r rs body k, relayed t r rs body -> sized (t_req t) -> timely_run t -> canonical_keys (ur_header rs) ->
  (values "Server" (rp_header r) = ["j8a " ++ e_version (t_env t) ++ " " ++ e_id (t_env t)] /\
   values "Date" (rp_header r) = [] /\ values "Transfer-Encoding" (rp_header r) = []) /\
  (~ (400 <= ur_status rs < 500)%Z -> ~ In k own_headers -> ~ In k never_copied -> values k (rp_header r) = values k (ur_header rs)).
Proof. exact relayed_headers. Qed.
Print Assumptions C24_relayed_partial.

(** C29 *)
Theorem C29_relayed_partial : forall t dec r rs body x, relayed t r rs body -> sized (t_req t) -> timely_run t ->
  codec (t_env t) dec -> canonical_keys (ur_header rs) -> ~ (400 <= ur_status rs < 500)%Z ->
  let ce := values "Content-Encoding" (ur_header rs) in
  content_of dec ce body = Some x ->
  (((ce = [] \/ ce = ["identity"]) /\ ~ gzip_start body) \/
   (ce = ["gzip"] /\ x <> "") \/
   (no_gzip_client (t_req t) /\ ~ gzip_start body)) ->
  content_of dec (values "Content-Encoding" (rp_header r)) (rp_body r) = Some x.
Proof. exact relayed_content. Qed.
Print Assumptions C29_relayed_partial.

(** C30 *)
Theorem C30_relayed : forall t r rs body, relayed t r rs body -> sized (t_req t) -> timely_run t -> canonical_keys (ur_header rs) ->
  ~ (400 <= ur_status rs < 500)%Z -> ur_status rs <> 204%Z -> ~ (100 <= ur_status rs < 200)%Z ->
  to_upper (q_method (t_req t)) <> "HEAD" -> to_upper (q_method (t_req t)) <> "CONNECT" ->
  values "Content-Length" (rp_header r) = [itoa_Z (Z.of_nat (String.length (rp_body r)))].
Proof. exact relayed_length. Qed.
Print Assumptions C30_relayed.

(** C30 on any schedule: a response that says how long it is tells the truth. *)
Theorem C30_any : forall t r, replies t r -> sized (t_req t) -> canonical_answers (t_run t) ->
  rp_status r <> 204%Z -> ~ (100 <= rp_status r < 200)%Z ->
  to_upper (q_method (t_req t)) <> "HEAD" -> to_upper (q_method (t_req t)) <> "CONNECT" ->
  values "Content-Length" (rp_header r) = [] \/
  values "Content-Length" (rp_header r) = [itoa_Z (Z.of_nat (String.length (rp_body r)))].
Proof. exact length_any. Qed.
Print Assumptions C30_any.

(** C70: every response in TLS mode tells the client to stay with it; in other modes only upstreams do. *)
Theorem C70_hsts : forall t r, replies t r -> sized (t_req t) -> configured t -> canonical_answers (t_run t) ->
  let h := values "Strict-Transport-Security" (rp_header r) in
  (d_mode (Config.c_down (t_cfg t)) = "TLS" -> hd_error h = Some "max-age=31536000") /\
  (d_mode (Config.c_down (t_cfg t)) <> "TLS" ->
     h = [] \/ exists i rs, answered (t_run t) i rs /\ h = values "Strict-Transport-Security" (ur_header rs)).
Proof. exact hsts. Qed.
Print Assumptions C70_hsts.

Example C70_case : configured upload /\ sized (t_req upload) /\ canonical_answers (t_run upload) /\
  exists r, replies upload r /\ rp_status r = 413%Z.
Proof. exact upload_reply. Qed.

(** C31: every error of the proxy is a JSON document that repeats the status and says which error it is,
    for clients that do not mention gzip. *)
Theorem C31_replies_partial : forall t r dec, replies t r -> sized (t_req t) -> timely_run t ->
  utf8 (e_id (t_env t)) -> utf8 (e_version (t_env t)) -> no_gzip_client (t_req t) ->
  t_serve t = About r \/ (exists rs body, relayed t r rs body) \/
  exists status m dice text, own_error (t_env t) status m /\ rp_status r = status /\
    values "Content-Type" (rp_header r) = ["application/json"] /\
    content_of dec (values "Content-Encoding" (rp_header r)) (rp_body r) = Some text /\
    read_object text = Some [("j8a", JStr (random_huttese dice)); ("ServerID", JStr (e_id (t_env t)));
      ("Version", JStr (e_version (t_env t))); ("Code", JInt status); ("Message", JStr m)].
Proof. exact errors_readable. Qed.
Print Assumptions C31_replies_partial.

(** C32 *)
Theorem C32_relayed_partial : forall t r rs body, relayed t r rs body -> sized (t_req t) -> timely_run t -> no_gzip_client (t_req t) ->
  ~ (400 <= ur_status rs < 500)%Z -> (gzip_start body -> rp_body r = e_gunzip (t_env t) body) /\ (~ gzip_start body -> rp_body r = body).
Proof. exact relayed_plain. Qed.
Print Assumptions C32_relayed_partial.

(** C38, for clients that do not mention gzip *)
Theorem C38_relayed : forall t r rs body, relayed t r rs body -> sized (t_req t) -> timely_run t ->
  utf8 (e_id (t_env t)) -> utf8 (e_version (t_env t)) -> (400 <= ur_status rs < 500)%Z -> no_gzip_client (t_req t) ->
  rp_status r = ur_status rs /\
  (forall k, ~ In k ["Server"; "X-Request-Id"; "Strict-Transport-Security"; "Connection"; "Content-Type"] -> values k (rp_header r) = []) /\
  exists dice, read_object (rp_body r) = Some [("j8a", JStr (random_huttese dice)); ("ServerID", JStr (e_id (t_env t)));
    ("Version", JStr (e_version (t_env t))); ("Code", JInt (ur_status rs)); ("Message", JStr (with_code (ur_status rs)))].
Proof. exact relayed_4xx. Qed.
Print Assumptions C38_relayed.

(** C25 and C63: exactly one response to every request that reaches the proxy handler *)
Theorem C63_once_partial : forall so srt cfg0 t, in_use so srt cfg0 (t_cfg t) -> honest (t_lib t) -> proxied_request (t_cfg t) (t_in t) -> sized (t_req t) ->
  no_empty_resource cfg0 -> readable (t_lib t) (get "Authorization" (q_header (t_req t))) ->
  (forall c, t_serve t = Upstream c -> t_new t (uq_method (c_request c)) (uq_uri (c_request c)) = true) -> timely_run t ->
  (forall i rs, answered (t_run t) i rs -> (100 <= ur_status rs <= 999)%Z) ->
  (exists r, t_serve t = Answered r) \/
  exists c, t_serve t = Upstream c /\ forall s, exec c init (t_run t) = Some s -> finished s -> exists r, s_out s = [r].
Proof. exact answered_once. Qed.
Print Assumptions C63_once_partial.

Example C26_replies_case : (exists r, relayed visit r created "ok" /\ replies visit r) /\ sized (t_req visit) /\ timely_run visit /\
  proxied_request (t_cfg visit) (t_in visit).
Proof.
  split; [exact visit_relayed|]. split; [exact visit_sized|]. split; [exact visit_timely|]. vm_compute. reflexivity.
Qed.
