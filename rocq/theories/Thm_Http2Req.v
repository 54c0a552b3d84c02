(** C141: requests over HTTP/2. *)
From Coq Require Import String Ascii List Bool ZArith NArith Lia.
From Verif Require Import GoStr RegexSpec NumberSpec TextSpec Header HeaderSpec Config ConfigSpec ConfigProofs Routing Exchange ExchangeSpec Jwt Machine Handler HandlerSpec HandlerCases
  SystemSpec Url UrlSpec UrlCases Http2 Http2Spec Http2Req Http2ReqSpec Http2ReqProofs Http2ReqBody Http2ReqCases.
Import ListNotations.
Local Open Scope string_scope.

(** The handler sees exactly the well-formed requests. *)
Theorem C141_served : forall s, (exists i, h2_read s = H2Served i) <->
  formed (hs_fields s) /\ unconnected (hs_fields s) /\
  exists m target, request_for (hs_fields s) m target /\ (m = "HEAD" -> hs_ended s = true) /\ (m <> "CONNECT" -> read_target m target <> None).
Proof. exact served_iff. Qed.
Print Assumptions C141_served.

Example C141_served_case :
  (exists i, h2_read h2_cookies = H2Served i) /\ h2_read (H2Sent (pseudo "GET" "/a" ++ [("Upgrade", "h2c")])%list true [] true) = H2Reset /\
  h2_read (H2Sent (pseudo "GET" "/a" ++ [("upgrade", "h2c")])%list true [] true) = H2Bad /\
  h2_read (H2Sent (pseudo "HEAD" "/a") false [] true) = H2Reset /\ h2_read (H2Sent [(":method", "GET"); (":path", "/a")] true [] true) = H2Reset.
Proof. split; [rewrite cookies_served; now eexists|exact refused_some]. Qed.

(** It sees their method and target, as over HTTP/1.1 except for CONNECT. *)
Theorem C141_target : forall s i, h2_read s = H2Served i -> request_for (hs_fields s) (q_method (i_req i)) (q_raw_uri (i_req i)) /\
  (q_method (i_req i) <> "CONNECT" -> arrives i) /\ (q_method (i_req i) = "CONNECT" -> q_uri (i_req i) = "/" /\ i_path i = "").
Proof. intros s i H. split; [exact (served_for s i H)|exact (served_arrives s i H)]. Qed.
Print Assumptions C141_target.

(** And their fields: cookies are joined. *)
Theorem C141_fields : forall s i, h2_read s = H2Served i -> canonical_keys (q_header (i_req i)) /\
  (forall k, field_name k -> ~ In k dropped_names -> values (canon k) (q_header (i_req i)) = field_values k (hs_fields s)) /\
  (field_values "cookie" (hs_fields s) = [] -> values "Cookie" (q_header (i_req i)) = []) /\
  (field_values "cookie" (hs_fields s) <> [] -> exists v, values "Cookie" (q_header (i_req i)) = [v] /\ joined "; " (field_values "cookie" (hs_fields s)) v) /\
  (forall v vs, field_values "expect" (hs_fields s) = v :: vs -> values "Expect" (q_header (i_req i)) = if String.eqb v "100-continue" then [] else v :: vs) /\
  values "Trailer" (q_header (i_req i)) = [].
Proof. exact served_header. Qed.
Print Assumptions C141_fields.

(** And their bodies, whose length is the declared one.  [sized] is what theorems about requests ask for. *)
Theorem C141_body : forall s i, h2_read s = H2Served i -> let q := i_req i in
  (hs_ended s = true -> q_length q = 0%Z /\ q_data q = "" /\ q_data_ok q = true) /\
  (hs_ended s = false -> q_data_ok q = true -> hs_complete s = true /\ q_data q = total (hs_frames s)) /\
  (hs_ended s = false -> hs_complete s = true -> field_values "content-length" (hs_fields s) = [] -> q_length q = (-1)%Z /\ q_data_ok q = true) /\
  (hs_ended s = false -> hs_complete s = true -> forall v vs n, field_values "content-length" (hs_fields s) = v :: vs -> numeral v n ->
     q_length q = Z.min n 9223372036854775807 /\
     (q_data_ok q = true <-> Z.of_nat (String.length (total (hs_frames s))) = Z.min n 9223372036854775807)) /\
  ((forall v vs, field_values "content-length" (hs_fields s) = v :: vs -> String.prefix "-" v = false) -> sized q).
Proof. exact served_body. Qed.
Print Assumptions C141_body.

(** A request with two cookies and two frames *)
Example C141_case : h2_read h2_cookies =
  H2Served (Incoming (Req "POST" "/a%2fb?c" "/a%2fb?c" [("Te", "trailers"); ("X-F", "g"); ("Content-Length", "3"); ("Cookie", "d=1; e=2")] 3 "abc" true) "/a/b") /\
  field_name "x-f" /\ numeral "3" 3.
Proof. split; [exact cookies_served|]. split; [apply wire_name_iff; reflexivity|]. change 3%Z with (Z.of_N (N_of_ascii "3") - 48)%Z. apply nu_one. now split. Qed.

(** Unlike over HTTP/1.1 (C62) no hop-by-hop header of a client reaches an upstream. *)
Theorem C141_hop : forall s t x, h2_read s = H2Served (t_in t) -> asks t x -> sized (t_req t) ->
  (forall k, In k ["Connection"; "Keep-Alive"; "Proxy-Connection"; "Transfer-Encoding"; "Upgrade"; "Trailer"] -> values k (uq_header x) = []) /\
  In (values "Te" (uq_header x)) [[]; ["trailers"]; [""]].
Proof. exact hop_free. Qed.
Print Assumptions C141_hop.

(** Upstreams get the bodies, if they are smaller than allowed. *)
Theorem C141_body_sent : forall s t x, h2_read s = H2Served (t_in t) -> asks t x -> hs_ended s = false -> hs_complete s = true ->
  (field_values "content-length" (hs_fields s) = [] \/ exists v vs, field_values "content-length" (hs_fields s) = v :: vs /\ numeral v (Z.of_nat (String.length (total (hs_frames s))))) ->
  (Z.of_nat (String.length (total (hs_frames s))) < e_max_body (t_env t))%Z -> (e_max_body (t_env t) <= 9223372036854775807)%Z ->
  uq_body x = total (hs_frames s).
Proof. exact body_sent. Qed.
Print Assumptions C141_body_sent.

Theorem C141_no_body : forall s t x, h2_read s = H2Served (t_in t) -> asks t x -> hs_ended s = true -> uq_body x = "".
Proof. exact body_none. Qed.
Print Assumptions C141_no_body.

Example C141_sent_case : h2_read (h2_post "3") = H2Served (t_in (posting_whole [LMain 0])) /\
  exists x, asks (posting_whole [LMain 0]) x /\ uq_body x = "abc" /\ wire_line x = Some "POST /a HTTP/1.1".
Proof. exact whole_sent. Qed.

(** A length that is no number: net/http serves the request, and the upstream gets it without its body. *)
Theorem C141_body_refuted : exists so srt cfg0 s t x, in_use so srt cfg0 (t_cfg t) /\ h2_read s = H2Served (t_in t) /\ asks t x /\
  field_values "content-length" (hs_fields s) = ["x"] /\ total (hs_frames s) = "abc" /\ uq_body x = "".
Proof. exact unread. Qed.
Print Assumptions C141_body_refuted.

(** Lengths below -1 are handed to the handler. *)
Theorem C141_sized_refuted : exists s i, h2_read s = H2Served i /\ field_values "content-length" (hs_fields s) = ["-7"] /\ ~ sized (i_req i).
Proof. exact below. Qed.
Print Assumptions C141_sized_refuted.

(** The first line of a request sent upstream has three parts if the target came without spaces, as all do over HTTP/1.1. *)
Theorem C141_line_partial : forall so srt cfg0 t x p query frag, in_use so srt cfg0 (t_cfg t) -> asks t x -> sized (t_req t) -> by_net_http t -> plain_servers cfg0 ->
  untransformed cfg0 (q_raw_uri (t_req t)) -> origin (q_raw_uri (t_req t)) p query frag -> has_char " " (q_raw_uri (t_req t)) = false ->
  exists line w, wire_line x = Some line /\ wire_target (uq_uri x) = Some w /\ request_line line (to_upper (q_method (t_req t))) w.
Proof. exact line_clean. Qed.
Print Assumptions C141_line_partial.

(** In general it does exactly if there is no space in the query, ... *)
Theorem C141_line_exact : forall so srt cfg0 t x p query frag, in_use so srt cfg0 (t_cfg t) -> asks t x -> sized (t_req t) -> by_net_http t -> plain_servers cfg0 ->
  untransformed cfg0 (q_raw_uri (t_req t)) -> origin (q_raw_uri (t_req t)) p query frag ->
  exists line p', wire_line x = Some line /\ sent_path p p' /\ (request_line line (uq_method x) (p' ++ query) <-> has_char " " query = false).
Proof. exact line_exact. Qed.
Print Assumptions C141_line_exact.

(** ... and what follows a space there is read as the version. *)
Theorem C141_split : forall so srt cfg0 t x p a b frag, in_use so srt cfg0 (t_cfg t) -> asks t x -> sized (t_req t) -> by_net_http t -> plain_servers cfg0 ->
  untransformed cfg0 (q_raw_uri (t_req t)) -> origin (q_raw_uri (t_req t)) p ("?" ++ a ++ " " ++ b) frag -> has_char " " a = false ->
  exists line p', wire_line x = Some line /\ sent_path p p' /\ reads line (uq_method x) (p' ++ "?" ++ a) (b ++ " HTTP/1.1").
Proof. exact line_split. Qed.
Print Assumptions C141_split.

(** Over HTTP/2 there can be one. *)
Theorem C141_line_refuted : exists so srt cfg0 s t x line, in_use so srt cfg0 (t_cfg t) /\ h2_read s = H2Served (t_in t) /\ asks t x /\ sized (t_req t) /\ by_net_http t /\
  plain_servers cfg0 /\ untransformed cfg0 (q_raw_uri (t_req t)) /\ q_raw_uri (t_req t) = "/a?b HTTP/1.0" /\ wire_line x = Some line /\
  reads line "GET" "/a?b" "HTTP/1.0 HTTP/1.1".
Proof. exact injected. Qed.
Print Assumptions C141_line_refuted.

(** A proper line, and the parts of the one above *)
Example C141_line_case : request_line "GET /a?b HTTP/1.1" "GET" "/a?b" /\ origin "/a?b HTTP/1.0" "/a" ("?" ++ "b" ++ " " ++ "HTTP/1.0") "".
Proof.
  split; [split; [reflexivity|split; reflexivity]|]. split; [reflexivity|]. split; [reflexivity|]. split; [reflexivity|]. right. exists "b HTTP/1.0".
  split; [reflexivity|]. split; [reflexivity|now left].
Qed.

(** CONNECT is not passed on over HTTP/2: net/http answers it. *)
Theorem C141_connect : forall so srt cfg0 s t, in_use so srt cfg0 (t_cfg t) -> h2_read s = H2Served (t_in t) -> q_method (t_req t) = "CONNECT" ->
  (t_serve t = ByLibrary TNotFound \/ t_serve t = ByLibrary TBad) /\ forall x, ~ asks t x.
Proof. exact connect_found. Qed.
Print Assumptions C141_connect.

Example C141_connect_case : h2_read h2_connect = H2Served (Incoming (Req "CONNECT" "/free" "/" [] 0 "" true) "").
Proof. exact connect_served. Qed.
