(** From the start of the process to the listener (C75 to C83), and claims about requests restated for a
    process that has started. *)
From Coq Require Import String Ascii List Bool ZArith NArith.
From Verif Require Import GoStr Header HeaderSpec Iprex IprexSpec IprexProofs Policy ConfigSpec ConfigProofs Exchange ExchangeSpec Jwt JwtSpec Json JsonSpec
  Machine MachineSpec Handler HandlerSpec HandlerCases SystemSpec SystemCases Tls TlsProofs AccessLog AccessLogSpec AccessLogProofs AccessLogCases Config Startup StartupSpec StartupProofs StartupCases.
Import ListNotations.
Local Open Scope string_scope.

(** C75: the process listens exactly if the configuration it is told to use can be used. *)
Theorem C75_listens : forall p h, sorts_routes (pl_sort p) ->
  ((exists l, listens p h l) <-> exists c0, told (pl_parse p) h c0 /\ can_start p c0).
Proof. exact listens_iff. Qed.
Print Assumptions C75_listens.

(** ... and then that configuration is in use. *)
Theorem C75_in_use : forall p h l c0, sorts_routes (pl_sort p) -> listens p h l -> told (pl_parse p) h c0 ->
  (forall name j, In (name, Some j) (c_jwt c0) -> blank j) -> in_use (pl_source p) (pl_sort p) c0 (li_config l).
Proof. exact started_in_use. Qed.
Print Assumptions C75_in_use.

Example C75_case : sorts_routes (pl_sort ground) /\ exists l, listens ground (host0 "tls" "VERSION" "v1") l /\
  told parse0 (host0 "tls" "VERSION" "v1") (site_as "tls" "C" "K" 0 10) /\ sv_addr (li_server l) = ":443".
Proof. split; [apply isort_sorts|]. destruct started_tls as [l [H1 [H2 [_ [H3 _]]]]]. exists l. split; [exact H1|]. split; [exact H2|exact H3]. Qed.

(** C76: address and timeouts, as long as the seconds fit into a duration ... *)
Theorem C76_timeouts_partial : forall p h l c0, listens p h l -> told (pl_parse p) h c0 ->
  let d := c_down c0 in let v := li_server l in
  address c0 (sv_addr v) /\
  (fits (d_read_timeout d) -> lasts (d_read_timeout d) 120 (sv_read v) /\ sv_read_header v = sv_read v) /\
  (fits (d_idle_timeout d) -> lasts (d_idle_timeout d) 120 (sv_idle v)) /\
  (fits (d_roundtrip_timeout d) -> lasts (d_roundtrip_timeout d) 240 (sv_write v - 1000000000)).
Proof. exact listener_timeouts. Qed.
Print Assumptions C76_timeouts_partial.

(** ... which is not checked: a timeout can come out as none. *)
Theorem C76_refuted : exists p h l c0, sorts_routes (pl_sort p) /\ listens p h l /\ told (pl_parse p) h c0 /\
  (0 < d_read_timeout (c_down c0))%Z /\ (sv_read (li_server l) <= 0)%Z.
Proof. exact started_long. Qed.
Print Assumptions C76_refuted.

Example C76_case : exists l, listens ground (host0 "tls" "VERSION" "v1") l /\ fits 240 /\ sv_write (li_server l) = 241000000000%Z.
Proof. destruct started_tls as [l [H1 [_ [_ [_ [H3 _]]]]]]. exists l. split; [exact H1|]. split; [split; discriminate|exact H3]. Qed.

(** C77: TLS exactly if the mode says so, in any case; then at least TLS 1.2, with the configured
    certificate, which verified ... *)
Theorem C77_tls_partial : forall p h l c0, listens p h l -> told (pl_parse p) h c0 ->
  (li_tls l <> None <-> wants_tls c0) /\ (e_tls (li_env l) = true <-> wants_tls c0) /\
  forall q, li_tls l = Some q -> (771 <= tp_min q)%Z /\
    exists leaf rest, tp_chain q = map Some (leaf :: rest) /\ pl_pair p (d_cert (c_down c0)) (d_key (c_down c0)) = Some (tp_chain q) /\
      presentable (pl_pair p) (pl_verify p) (c_down c0) leaf.
Proof. exact listens_tls. Qed.
Print Assumptions C77_tls_partial.

(** ... but with a mode that means nothing, "HTTPS", a certificate is not used and requests are served
    without TLS. *)
Theorem C77_unknown_refuted : exists p h l c0, sorts_routes (pl_sort p) /\ listens p h l /\ told (pl_parse p) h c0 /\
  ~ In (to_upper (d_mode (c_down c0))) [""; "HTTP"; "TLS"] /\
  (exists leaf, presentable (pl_pair p) (pl_verify p) (c_down c0) leaf) /\ li_tls l = None.
Proof. exact started_https. Qed.
Print Assumptions C77_unknown_refuted.

Example C77_case : exists l q, listens ground (host0 "tls" "VERSION" "v1") l /\ wants_tls (site_as "tls" "C" "K" 0 10) /\ li_tls l = Some q.
Proof.
  destruct started_tls as [l [H1 [_ [H2 [_ [_ [H3 _]]]]]]]. destruct (li_tls l) as [q|] eqn:E; [|discriminate H3].
  exists l, q. split; [exact H1|]. split; [exact H2|exact E].
Qed.

(** C78: the client for upstream servers *)
Theorem C78_client_partial : forall p h l c0, listens p h l -> told (pl_parse p) h c0 ->
  let u := c_up c0 in let k := li_client l in
  (fits (up_socket_timeout u) -> lasts (up_socket_timeout u) 3 (cl_dial k) /\ cl_handshake k = cl_dial k) /\
  (fits (up_idle_timeout u) -> lasts (up_idle_timeout u) 120 (cl_idle k)) /\
  filled (up_pool u) 32768 (cl_idle_conns k) /\ cl_idle_per_host k = cl_idle_conns k /\
  cl_skip_verify k = up_skip_verify u.
Proof. exact client_params. Qed.
Print Assumptions C78_client_partial.

(** C78 does not hold for more than 292 years: connections time out before they are tried. *)
Theorem C78_refuted : exists p h l c0, sorts_routes (pl_sort p) /\ listens p h l /\ told (pl_parse p) h c0 /\
  (0 < up_socket_timeout (c_up c0))%Z /\ (cl_dial (li_client l) < 0)%Z.
Proof. exact started_patient. Qed.
Print Assumptions C78_refuted.

Example C78_case : exists l, listens ground (host0 "tls" "VERSION" "v1") l /\ fits 3 /\ cl_skip_verify (li_client l) = false.
Proof. destruct started_tls as [l [H1 [_ [_ [_ [_ [_ [_ H3]]]]]]]]. exists l. split; [exact H1|]. split; [split; discriminate|exact H3]. Qed.

(** C79: the keep-alive intervals after which the system gives up are the idle timeout, up to rounding. *)
Theorem C79_keep_alive : forall p h l c0 os n s, listens p h l -> told (pl_parse p) h c0 -> system_of h os -> probes os n ->
  filled (up_idle_timeout (c_up c0)) 120 s -> (0 < s < 8589934592)%Z ->
  let i := cl_keep_alive (li_client l) in
  (2 ^ 50 * (n * i) <= (2 ^ 50 + 1) * (s * 1000000000) /\ (2 ^ 50 - 1) * (s * 1000000000) <= 2 ^ 50 * (n * (i + 1)))%Z /\
  (s <= 1125899 -> n * i <= s * 1000000000 <= n * (i + 1))%Z.
Proof. exact keep_alive_interval. Qed.
Print Assumptions C79_keep_alive.

Example C79_case : exists l, listens ground (host0 "tls" "VERSION" "v1") l /\ system_of (host0 "tls" "VERSION" "v1") "linux" /\ probes "linux" 9 /\
  cl_keep_alive (li_client l) = 13333333333%Z.
Proof.
  destruct started_tls as [l [H1 [_ [_ [_ [_ [_ [H3 _]]]]]]]]. exists l. split; [exact H1|]. split; [now right|]. split; [|exact H3].
  right. right. split; [|reflexivity]. intros [H|[H|[H|[H|[]]]]]; discriminate.
Qed.

(** C80: the server id is eight hexadecimal digits and depends on host name and version only ... *)
Theorem C80_id_partial : forall h, (forall s, String.length (h_md5 h s) = 16) ->
  String.length (server_id h) = 8 /\ forall c, In c (list_ascii_of_string (server_id h)) -> lower_hex c.
Proof. exact id_hex. Qed.
Print Assumptions C80_id_partial.

Theorem C80_same_partial : forall h h' n v, named_as h n -> named_as h' n -> versioned h v -> versioned h' v ->
  (forall s, h_md5 h s = h_md5 h' s) -> server_id h = server_id h'.
Proof. exact id_same. Qed.
Print Assumptions C80_same_partial.

(** ... but does not tell all pairs of them apart, whatever the hash. *)
Theorem C80_refuted : forall md5, exists h h' n n' v v', named_as h n /\ versioned h v /\ named_as h' n' /\ versioned h' v' /\
  h_md5 h = md5 /\ h_md5 h' = md5 /\ n <> n' /\ v <> v' /\ server_id h = server_id h'.
Proof. exact same_id. Qed.
Print Assumptions C80_refuted.

Example C80_case : (forall s, String.length (md5_0 s) = 16) /\ named_as (host0 "" "VERSION" "v1") "box" /\ versioned (host0 "" "VERSION" "v1") "v1" /\
  server_id (host0 "" "VERSION" "v1") = "626f7876".
Proof.
  split; [exact md5_0_length|]. split; [now right|]. split; [left; split; [discriminate|reflexivity]|vm_compute; reflexivity].
Qed.

(** C81: the line of a response is written unless the level is WARN and the response is no error. *)
Theorem C81_written : forall h t x r e, tells t x r e ->
  (written (log_level h) (line_level (l_warn e)) = false <-> (rp_status r < 400)%Z /\ to_upper (h_env h "LOGLEVEL") = "WARN").
Proof. exact access_written. Qed.
Print Assumptions C81_written.

Example C81_case : exists e r, tells visit from_home r e /\ l_status e = 201%Z /\ l_warn e = false /\
  log_level (host0 "" "LOGLEVEL" "warn") = VWarn /\ log_level (host0 "" "LOGLEVEL" "error") = VInfo.
Proof.
  destruct visit_line as (e & H1 & H2 & _). destruct visit_relayed as (r & _ & H3). exists e, r.
  split; [exact (proj2 (proj2 (lines visit from_home [e] H1 visit_sized)) e r (or_introl eq_refl) H3)|].
  injection H2 as H4 _ _ _ H5 _. split; [exact H4|]. split; [exact H5|]. split; reflexivity.
Qed.

(** C82: TLS handshake errors are written with the address of the client at any level ... *)
Theorem C82_handshake_partial : forall h a b c d rest,
  is_octet a -> is_octet b -> is_octet c -> is_octet d -> head_not is_digit rest = true ->
  no_v6_lookalike ("http: TLS handshake error from " ++ dotted a b c d ++ rest) ->
  exists v, net_event ("http: TLS handshake error from " ++ dotted a b c d ++ rest) = (v, dotted a b c d) /\ written (log_level h) v = true.
Proof. exact handshake_logged. Qed.
Print Assumptions C82_handshake_partial.

Theorem C82_handshake_v6_partial : forall h addr rest, found_v6 addr -> no_v6_lookalike rest ->
  ~ colon_digits_dot ("http: TLS handshake error from [" ++ addr ++ "]" ++ rest) ->
  exists v, net_event ("http: TLS handshake error from [" ++ addr ++ "]" ++ rest) = (v, addr) /\ written (log_level h) v = true.
Proof. exact handshake_logged_v6. Qed.
Print Assumptions C82_handshake_v6_partial.

(** ... except for some IPv6 addresses. *)
Theorem C82_v6_refuted : exists addr, ipv6_text addr /\ snd (net_event ("http: TLS handshake error from [" ++ addr ++ "]:443: EOF")) <> addr.
Proof. exact v6_handshake. Qed.
Print Assumptions C82_v6_refuted.

Example C82_case : net_event "http: TLS handshake error from 192.168.0.255:51712: EOF" = (VWarn, "192.168.0.255") /\
  head_not is_digit ":51712: EOF" = true /\ no_v6_lookalike ("http: TLS handshake error from " ++ dotted 192 168 0 255 ++ ":51712: EOF").
Proof. split; [vm_compute; reflexivity|]. split; [reflexivity|apply lookalike_dec; vm_compute; reflexivity]. Qed.

(** C83 does not hold: a request whose handler panics gets no line of its own, and what net/http says
    about it is written at level TRACE only, ... *)
Theorem C83_refuted : exists so srt cfg0 t x, in_use so srt cfg0 (t_cfg t) /\ proxied_request (t_cfg t) (t_in t) /\
  t_serve t = Panicked /\ (forall es, logs t x es -> es = []) /\
  forall h addr text, to_upper (h_env h "LOGLEVEL") <> "TRACE" ->
    (forall a b, "http: panic serving " ++ addr ++ ": " ++ text <> a ++ "TLS handshake error" ++ b) ->
    written (log_level h) (fst (net_event ("http: panic serving " ++ addr ++ ": " ++ text))) = false.
Proof. exact panic_unseen. Qed.
Print Assumptions C83_refuted.

(** ... like everything else net/http reports, handshake errors apart. *)
Theorem C83_others_partial : forall h msg, (forall a b, msg <> a ++ "TLS handshake error" ++ b) ->
  (written (log_level h) (fst (net_event msg)) = true <-> to_upper (h_env h "LOGLEVEL") = "TRACE").
Proof. exact others_hidden. Qed.
Print Assumptions C83_others_partial.

Example C83_case : fst (net_event "http: panic serving 10.0.0.1:4711: runtime error: index out of range [0] with length 0") = VTrace /\
  contains "http: panic serving 10.0.0.1:4711: runtime error: index out of range [0] with length 0" "TLS handshake error" = false.
Proof. split; vm_compute; reflexivity. Qed.

(** * Requests served by a started process *)

(** C18 *)
Theorem C18_started_partial : forall p h t c0 limit, serves p h t -> told (pl_parse p) h c0 ->
  filled (d_max_body (c_down c0)) 2097152 limit -> proxied_request (t_cfg t) (t_in t) -> honest_length (t_req t) ->
  (0 <= limit < Z.of_nat (String.length (q_data (t_req t))))%Z ->
  (exists r, t_serve t = Answered r /\ rp_status r = 413%Z) /\ forall x, ~ asks t x.
Proof. exact started_too_large. Qed.
Print Assumptions C18_started_partial.

(** C70 *)
Theorem C70_started : forall p h t c0 r, serves p h t -> told (pl_parse p) h c0 -> replies t r -> sized (t_req t) -> canonical_answers (t_run t) ->
  let s := values "Strict-Transport-Security" (rp_header r) in
  (wants_tls c0 -> hd_error s = Some "max-age=31536000") /\
  (~ wants_tls c0 -> s = [] \/ exists i rs, answered (t_run t) i rs /\ s = values "Strict-Transport-Security" (ur_header rs)).
Proof. exact started_hsts. Qed.
Print Assumptions C70_started.

(** C31 *)
Theorem C31_started_partial : forall p h t r dec, serves p h t -> (forall s, String.length (h_md5 h s) = 16) -> utf8 (h_env h "VERSION") ->
  replies t r -> sized (t_req t) -> timely_run t -> no_gzip_client (t_req t) ->
  t_serve t = About r \/ (exists rs body, relayed t r rs body) \/
  exists status m dice text v, own_error (t_env t) status m /\ rp_status r = status /\ versioned h v /\
    values "Content-Type" (rp_header r) = ["application/json"] /\
    content_of dec (values "Content-Encoding" (rp_header r)) (rp_body r) = Some text /\
    read_object text = Some [("j8a", JStr (random_huttese dice)); ("ServerID", JStr (server_id h));
      ("Version", JStr v); ("Code", JInt status); ("Message", JStr m)].
Proof. exact started_errors. Qed.
Print Assumptions C31_started_partial.

Example C18_started_case : serves ground (host0 "tls" "VERSION" "v1") tls_visit /\ told parse0 (host0 "tls" "VERSION" "v1") (site_as "tls" "C" "K" 0 10) /\
  filled (d_max_body (c_down (site_as "tls" "C" "K" 0 10))) 2097152 10 /\ proxied_request (t_cfg tls_visit) (t_in tls_visit) /\ honest_length (t_req tls_visit) /\
  (0 <= 10 < Z.of_nat (String.length (q_data (t_req tls_visit))))%Z.
Proof. exact tls_visit_case. Qed.

Example C70_started_case : wants_tls (site_as "tls" "C" "K" 0 10) /\ sized (t_req tls_visit) /\ canonical_answers (t_run tls_visit) /\ timely_run tls_visit /\
  no_gzip_client (t_req tls_visit) /\ utf8 (h_env (host0 "tls" "VERSION" "v1") "VERSION") /\ exists r, replies tls_visit r /\ rp_status r = 413%Z.
Proof. exact tls_visit_reply. Qed.
