(** Cases for Thm_Http2Req. *)
From Coq Require Import String Ascii List Bool ZArith NArith Lia.
From Verif Require Import GoStr RegexSpec Header HeaderSpec Config ConfigSpec ConfigProofs Routing Exchange ExchangeSpec ExchangeProofs Jwt JwtSpec JwtCases Machine MachineSpec
  Handler HandlerSpec HandlerProofs HandlerCases SystemSpec SystemProofs Url UrlSpec UrlProofs UrlCases Http2 Http2Spec Http2Req Http2ReqSpec Http2ReqProofs.
Import ListNotations.
Local Open Scope string_scope.

Definition pseudo (method path : string) : list (string * string) := [(":method", method); (":scheme", "https"); (":authority", "a"); (":path", path)].
Definition h2_get (path : string) : h2_sent := H2Sent (pseudo "GET" path) true [] true.

(** A space in a query *)
Lemma injected : exists so srt cfg0 s t x line, in_use so srt cfg0 (t_cfg t) /\ h2_read s = H2Served (t_in t) /\ asks t x /\ sized (t_req t) /\ by_net_http t /\
  plain_servers cfg0 /\ untransformed cfg0 (q_raw_uri (t_req t)) /\ q_raw_uri (t_req t) = "/a?b HTTP/1.0" /\ wire_line x = Some line /\
  reads line "GET" "/a?b" "HTTP/1.0 HTTP/1.1".
Proof.
  destruct (visiting_asks "/a?b HTTP/1.0" "http://localhost:60083/a?b HTTP/1.0") as (x & Hx & U); [vm_compute; reflexivity|].
  assert (M := proj1 (asks_method _ x Hx (visiting_sized _ _))).
  exists key_source, isort_routes, gate, (h2_get "/a?b HTTP/1.0"), (visiting "/a?b HTTP/1.0" [LMain 0]), x, "GET /a?b HTTP/1.0 HTTP/1.1".
  split; [exact gate_in_use|]. split; [vm_compute; reflexivity|]. split; [exact Hx|]. split; [apply visiting_sized|]. split; [apply visiting_http; vm_compute; discriminate|].
  split; [exact gate_plain|]. split; [apply gate_untransformed|]. split; [reflexivity|]. split.
  - unfold wire_line. rewrite U, M. vm_compute. reflexivity.
  - split; [reflexivity|]. split; reflexivity.
Qed.

(** CONNECT, which gets to the handler only over HTTP/1.1 *)
Definition h2_connect : h2_sent := H2Sent [(":method", "CONNECT"); (":authority", "/free")] true [] true.
Lemma connect_served : h2_read h2_connect = H2Served (Incoming (Req "CONNECT" "/free" "/" [] 0 "" true) "").
Proof. vm_compute. reflexivity. Qed.

(** A length that is no number *)
Definition h2_post (len : string) : h2_sent := H2Sent (pseudo "POST" "/a" ++ [("content-length", len)])%list false ["ab"; "c"] true.
Definition posting (ls : list label) : setting :=
  Setting toy lib new_request gate_live chance0 (Incoming (Req "POST" "/a" "/a" [("Content-Length", "x")] 0 "" false) "/a") ls.

Lemma unread : exists so srt cfg0 s t x, in_use so srt cfg0 (t_cfg t) /\ h2_read s = H2Served (t_in t) /\ asks t x /\
  field_values "content-length" (hs_fields s) = ["x"] /\ total (hs_frames s) = "abc" /\ uq_body x = "".
Proof.
  assert (A : exists x, asks (posting [LMain 0]) x /\ uq_body x = "").
  { assert (V : match t_serve (posting []) with Upstream c => match main_step c 0 init with Some s => Some (map uq_body (s_sent s)) | None => None end | _ => None end
                = Some [""]) by (vm_compute; reflexivity).
    destruct (t_serve (posting [])) as [| | |c|] eqn:E; try discriminate V. destruct (main_step c 0 init) as [s|] eqn:Es; [|discriminate V].
    injection V as V. destruct (s_sent s) as [|x l] eqn:El; [discriminate V|]. destruct l; [|discriminate V]. injection V as V.
    exists x. split; [|exact V]. exists [x]. split; [|now left]. exists c, s. split; [|exact El]. split; [exact E|]. cbn [t_run posting exec step]. now rewrite Es. }
  destruct A as (x & Hx & B). exists key_source, isort_routes, gate, (h2_post "x"), (posting [LMain 0]), x.
  split; [exact gate_in_use|]. split; [vm_compute; reflexivity|]. split; [exact Hx|]. split; [reflexivity|]. split; [reflexivity|exact B].
Qed.

(** A length that is right *)
Definition posting_whole (ls : list label) : setting :=
  Setting toy lib new_request gate_live chance0 (Incoming (Req "POST" "/a" "/a" [("Content-Length", "3")] 3 "abc" true) "/a") ls.
Lemma whole_sent : h2_read (h2_post "3") = H2Served (t_in (posting_whole [LMain 0])) /\
  exists x, asks (posting_whole [LMain 0]) x /\ uq_body x = "abc" /\ wire_line x = Some "POST /a HTTP/1.1".
Proof.
  split; [vm_compute; reflexivity|].
  assert (V : match t_serve (posting_whole []) with Upstream c => match main_step c 0 init with Some s => Some (map (fun x => (uq_body x, wire_line x)) (s_sent s)) | None => None end | _ => None end
                = Some [("abc", Some "POST /a HTTP/1.1")]) by (vm_compute; reflexivity).
  destruct (t_serve (posting_whole [])) as [| | |c|] eqn:E; try discriminate V. destruct (main_step c 0 init) as [s|] eqn:Es; [|discriminate V].
  injection V as V. destruct (s_sent s) as [|x l] eqn:El; [discriminate V|]. destruct l; [|discriminate V]. injection V as V W.
  exists x. split; [|now split]. exists [x]. split; [|now left]. exists c, s. split; [|exact El]. split; [exact E|]. cbn [t_run posting_whole exec step]. now rewrite Es.
Qed.

Lemma below : exists s i, h2_read s = H2Served i /\ field_values "content-length" (hs_fields s) = ["-7"] /\ ~ sized (i_req i).
Proof.
  eexists (h2_post "-7"), _. split; [vm_compute; reflexivity|]. split; [reflexivity|]. unfold sized. cbn [i_req q_length]. lia.
Qed.

(** A request with several cookies *)
Definition h2_cookies : h2_sent :=
  H2Sent (pseudo "POST" "/a%2fb?c" ++ [("cookie", "d=1"); ("te", "trailers"); ("cookie", "e=2"); ("x-f", "g"); ("expect", "100-continue"); ("content-length", "3")])%list false ["ab"; "c"] true.
Lemma cookies_served : h2_read h2_cookies =
  H2Served (Incoming (Req "POST" "/a%2fb?c" "/a%2fb?c" [("Te", "trailers"); ("X-F", "g"); ("Content-Length", "3"); ("Cookie", "d=1; e=2")] 3 "abc" true) "/a/b").
Proof. vm_compute. reflexivity. Qed.

Lemma refused_some : h2_read (H2Sent (pseudo "GET" "/a" ++ [("Upgrade", "h2c")])%list true [] true) = H2Reset /\
  h2_read (H2Sent (pseudo "GET" "/a" ++ [("upgrade", "h2c")])%list true [] true) = H2Bad /\
  h2_read (H2Sent (pseudo "HEAD" "/a") false [] true) = H2Reset /\ h2_read (H2Sent [(":method", "GET"); (":path", "/a")] true [] true) = H2Reset.
Proof. vm_compute. repeat split. Qed.
