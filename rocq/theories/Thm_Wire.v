(** C127 to C130. *)
From Coq Require Import String Ascii List Bool ZArith NArith Lia.
From Verif Require Import GoStr Header HeaderSpec Config ConfigSpec ConfigProofs Exchange ExchangeSpec ExchangeProofs Jwt Machine MachineSpec
  Handler HandlerSpec HandlerCases SystemSpec ConformCases Url UrlSpec UrlCases Wire WireSpec WireProofs WireCases.
Import ListNotations.
Local Open Scope string_scope.

(** C127 *)
Theorem C127_framed : forall t x h, gets_lines t x h -> sized (t_req t) -> framed h (uq_body x).
Proof. exact upstream_framed. Qed.
Print Assumptions C127_framed.

Example C127_case : exists t x h, gets_lines t x h /\ sized (t_req t) /\ q_method (t_req t) = "POST" /\
  values "Transfer-Encoding" (q_header (t_req t)) = ["chunked"] /\ values "Content-Length" (q_header (t_req t)) = ["7"] /\ values "Content-Length" h = ["0"].
Proof.
  destruct (first_lines (calling "POST" [("Transfer-Encoding", "chunked"); ("Content-Length", "7")])
    [("Host", "localhost:60083"); ("User-Agent", "Go-http-client/1.1"); ("Content-Length", "0"); ("X-Request-Id", "XR-" ++ e_id toy ++ "-uuid"); ("Accept-Encoding", "gzip")]) as [x Hx]; [vm_compute; reflexivity|reflexivity|].
  exists (calling "POST" [("Transfer-Encoding", "chunked"); ("Content-Length", "7")]), x. eexists. split; [exact Hx|]. split; [apply calling_sized|]. now repeat split.
Qed.

(** C128 for all lines but the two *)
Theorem C128_kept_partial : forall t x h k, gets_lines t x h -> sized (t_req t) -> canonical_keys (q_header (t_req t)) ->
  ~ In k rewritten -> k <> "User-Agent" -> k <> "Accept-Encoding" -> values k h = values k (q_header (t_req t)).
Proof. exact lines_kept. Qed.
Print Assumptions C128_kept_partial.

(** What becomes of the two *)
Theorem C128_agent : forall t x h, gets_lines t x h -> sized (t_req t) -> canonical_keys (q_header (t_req t)) ->
  told_agent (values "User-Agent" (q_header (t_req t))) (values "User-Agent" h).
Proof. exact lines_agent. Qed.
Print Assumptions C128_agent.

Theorem C128_codings : forall t x h, gets_lines t x h -> sized (t_req t) -> canonical_keys (q_header (t_req t)) ->
  (open_to_gzip t -> values "Accept-Encoding" h = (values "Accept-Encoding" (q_header (t_req t)) ++ ["gzip"])%list) /\
  (~ open_to_gzip t -> values "Accept-Encoding" h = values "Accept-Encoding" (q_header (t_req t))).
Proof. exact lines_codings. Qed.
Print Assumptions C128_codings.

(** The lines of the proxy *)
Theorem C128_own : forall so srt cfg0 t x h p query frag id,
  in_use so srt cfg0 (t_cfg t) -> gets_lines t x h -> sized (t_req t) -> canonical_keys (q_header (t_req t)) -> by_net_http t ->
  plain_servers cfg0 -> untransformed cfg0 (q_raw_uri (t_req t)) -> origin (q_raw_uri (t_req t)) p query frag -> id_of t id ->
  (exists hp, host_port (uq_uri x) hp /\ values "Host" h = [hp]) /\ values "X-Request-Id" h = [id] /\
  values "Date" h = [] /\ values "Server" h = [] /\ values "Trailer" h = [].
Proof. exact lines_own. Qed.
Print Assumptions C128_own.

Example C128_case : exists x h, gets_lines (calling "GET" [("Te", "trailers"); ("User-Agent", "a"); ("User-Agent", "b")]) x h /\
  by_net_http (calling "GET" [("Te", "trailers"); ("User-Agent", "a"); ("User-Agent", "b")]) /\
  values "Te" h = ["trailers"] /\ values "User-Agent" h = ["a"] /\ values "Host" h = ["localhost:60083"] /\ ~ In "Te" rewritten.
Proof.
  destruct (first_lines (calling "GET" [("Te", "trailers"); ("User-Agent", "a"); ("User-Agent", "b")])
    [("Host", "localhost:60083"); ("User-Agent", "a"); ("Te", "trailers"); ("X-Request-Id", "XR-" ++ e_id toy ++ "-uuid"); ("Accept-Encoding", "gzip")]) as [x Hx]; [vm_compute; reflexivity|reflexivity|].
  exists x. eexists. split; [exact Hx|]. split; [apply calling_http; vm_compute; discriminate|]. do 3 (split; [reflexivity|]). intros H. repeat (destruct H as [H|H]; [discriminate H|]). exact H.
Qed.

(** C128 does not hold: a User-Agent for a client without one *)
Theorem C128_agent_refuted : exists t x h, gets_lines t x h /\ sized (t_req t) /\ canonical_keys (q_header (t_req t)) /\
  values "User-Agent" (q_header (t_req t)) = [] /\ values "User-Agent" h = ["Go-http-client/1.1"].
Proof. exact agent_added. Qed.
Print Assumptions C128_agent_refuted.

(** C128 does not hold: a coding for a client that wants none *)
Theorem C128_coding_refuted : exists t x h, gets_lines t x h /\ sized (t_req t) /\ canonical_keys (q_header (t_req t)) /\
  values "Accept-Encoding" (q_header (t_req t)) = [""] /\ values "Accept-Encoding" h = [""; "gzip"].
Proof. exact coding_added. Qed.
Print Assumptions C128_coding_refuted.

(** C129 for methods that net/http does not repeat by itself, unless the client gives them a key *)
Theorem C129_once_partial : forall so srt cfg0 t yss, in_use so srt cfg0 (t_cfg t) -> tried t yss -> sized (t_req t) -> canonical_keys (q_header (t_req t)) ->
  ~ In (to_upper (q_method (t_req t))) ["GET"; "HEAD"; "OPTIONS"; "TRACE"] -> ~ keyed (q_header (t_req t)) ->
  (Z.of_nat (all_copies yss) <= Z.max 1 (up_max_attempts (c_up cfg0)))%Z /\
  (~ In (to_upper (q_method (t_req t))) ["PUT"; "DELETE"] -> all_copies yss <= 1).
Proof. exact tried_once. Qed.
Print Assumptions C129_once_partial.

(** For all methods, the connections from the pool that fail come on top. *)
Theorem C129_bound_partial : forall so srt cfg0 t yss, in_use so srt cfg0 (t_cfg t) -> tried t yss -> sized (t_req t) ->
  (Z.of_nat (all_copies yss) <= Z.max 1 (up_max_attempts (c_up cfg0)) + Z.of_nat (all_lost yss))%Z.
Proof. exact tried_bound. Qed.
Print Assumptions C129_bound_partial.

Example C129_case : exists t, tried t [[Try true Unwritten; Try true Unwritten; Try true ReadFailed]] /\ q_method (t_req t) = "POST" /\ ~ keyed (q_header (t_req t)) /\
  all_copies [[Try true Unwritten; Try true Unwritten; Try true ReadFailed]] = 1.
Proof.
  exists (calling "POST" []). split; [|split; [reflexivity|]; split; [intros [H|H]; apply H; reflexivity|reflexivity]].
  assert (F : exists x, first_of (calling "POST" []) = Some x /\ trip x [Try true Unwritten; Try true Unwritten; Try true ReadFailed] = true) by (eexists; split; [vm_compute; reflexivity|reflexivity]).
  destruct F as (x & F & T). exists [x]. split; [now apply first_sent|]. constructor; [exact T|constructor].
Qed.

(** C129 does not hold: one attempt of a GET, or of a POST with a key, makes any number of copies. *)
Theorem C129_refuted : forall n method h, In (method, h) [("GET", []); ("POST", [("Idempotency-Key", "1")])] ->
  exists so srt cfg0 t yss, in_use so srt cfg0 (t_cfg t) /\ tried t yss /\ sized (t_req t) /\ canonical_keys (q_header (t_req t)) /\
    q_method (t_req t) = method /\ q_header (t_req t) = h /\ List.length yss = 1 /\ all_copies yss = S n.
Proof. intros n method h H. destruct (copied method h n H) as (t & yss & C). exists key_source, isort_routes, gate, t, yss. exact C. Qed.
Print Assumptions C129_refuted.

(** C130 for content that does not look like gzip itself, and as C29 for the rest *)
Theorem C130_content_partial : forall dec t r rs body x, delivered dec t r rs body -> sized (t_req t) -> canonical_keys (q_header (t_req t)) -> timely_run t ->
  codec (t_env t) dec -> canonical_keys (ur_header rs) -> ~ (400 <= ur_status rs < 500)%Z ->
  let ce := values "Content-Encoding" (ur_header rs) in content_of dec ce body = Some x ->
  (((ce = [] \/ ce = ["identity"]) /\ ~ gzip_start body) \/ (ce = ["gzip"] /\ open_to_gzip t /\ ~ gzip_start x) \/
   (ce = ["gzip"] /\ ~ open_to_gzip t /\ x <> "") \/ (no_gzip_client (t_req t) /\ ~ gzip_start body)) ->
  content_of dec (values "Content-Encoding" (rp_header r)) (rp_body r) = Some x.
Proof. exact delivered_content. Qed.
Print Assumptions C130_content_partial.

Example C130_case : (exists r, delivered toy_dec fetch_empty r archive_answer (packed "")) /\ open_to_gzip fetch_empty /\ timely_run fetch_empty /\
  content_of toy_dec ["gzip"] (packed "") = Some "".
Proof. split; [exact empty_delivered|]. split; [split; [exact I|split; [exact I|discriminate]]|]. split; [exact fetch_empty_timely|reflexivity]. Qed.

(** C130 does not hold: of an archive compressed on the wire one client gets the archive, and another what is in it. *)
Theorem C130_archive_refuted : exists dec t1 t2 r1 r2 rs body x y, codec (t_env t1) dec /\ t_env t1 = t_env t2 /\ t_cfg t1 = t_cfg t2 /\
  q_method (t_req t1) = "GET" /\ q_method (t_req t2) = "GET" /\ q_raw_uri (t_req t1) = q_raw_uri (t_req t2) /\
  values "Accept-Encoding" (q_header (t_req t1)) = [] /\ values "Accept-Encoding" (q_header (t_req t2)) = ["gzip"] /\
  (sized (t_req t1) /\ timely_run t1 /\ delivered dec t1 r1 rs body) /\ (sized (t_req t2) /\ timely_run t2 /\ delivered dec t2 r2 rs body) /\
  values "Content-Encoding" (ur_header rs) = ["gzip"] /\ content_of dec ["gzip"] body = Some x /\
  content_of dec (values "Content-Encoding" (rp_header r1)) (rp_body r1) = Some y /\ y <> x /\
  content_of dec (values "Content-Encoding" (rp_header r2)) (rp_body r2) = Some x.
Proof. exact unpacked_twice. Qed.
Print Assumptions C130_archive_refuted.
