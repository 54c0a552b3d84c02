(** Theorems about the lines logged at level trace and debug: C110 to C113.

    [t] is a setting of SystemSpec, [x] is what else a line shows of the request, and [traces t x ls] says
    that [ls] are the lines. *)
From Coq Require Import String List Bool ZArith Lia.
From Verif Require Import GoStr Header HeaderSpec KidSpec Policy Config ConfigSpec ConfigProofs Exchange Jwt JwtSpec JwtCases Machine Handler HandlerSpec HandlerCases
  SystemSpec SystemCases AccessLog AccessLogCases PrivacySpec PrivacyProofs TraceLog TraceLogSpec TraceLogProofs TraceLogServer TraceLogCases.
Import ListNotations.
Local Open Scope string_scope.

(** C110: every line has the id of the request. *)
Theorem C110_id : forall t x ls l, traces t x ls -> In l ls -> id_of t (tl_id l).
Proof. exact traced_id. Qed.
Print Assumptions C110_id.

(** The first line tells what became of the body, the second the bytes kept of it; there is no other of
    either kind. *)
Theorem C110_body : forall t x ls, traces t x ls -> handled t -> sized (t_req t) ->
  exists b n rest, events ls = TBody b :: TParsed (x_path x) (to_upper (q_method (t_req t))) n :: rest /\
    body_told (t_env t) (t_req t) b n /\ forall e, In e rest -> ~ opening e.
Proof. exact traced_body. Qed.
Print Assumptions C110_body.

(** They are the bytes, and the method, that upstream servers get. *)
Theorem C110_sent : forall t x ls r p m n, traces t x ls -> asks t r -> sized (t_req t) -> In (TParsed p m n) (events ls) ->
  p = x_path x /\ m = uq_method r /\ n = size (uq_body r).
Proof. exact traced_sent. Qed.
Print Assumptions C110_sent.

(** A body is logged as refused just if the client gets a 413. *)
Theorem C110_refused : forall t x ls, traces t x ls -> proxied_request (t_cfg t) (t_in t) -> sized (t_req t) ->
  ((exists n m, In (TBody (BRefused n m)) (events ls)) <-> answered_with t 413).
Proof. exact traced_refused. Qed.
Print Assumptions C110_refused.

Example C110_case : (exists ls, traces (secret_visit "old" "id=1" "xyz") at_admin ls /\
    events ls = [TBody (BRead 3 3); TParsed "/admin" "PUT" 3; TJwt (JwtEntry "/admin" None (Some (DateClaims None None None)) None);
      TDefault "/admin" "http://localhost:60083"; TUri "/admin" "http://localhost:60083/admin"]) /\
  sized (t_req (secret_visit "old" "id=1" "xyz")) /\ handled (secret_visit "old" "id=1" "xyz") /\
  (exists y, asks (secret_visit "old" "id=1" "xyz") y /\ uq_uri y = "http://localhost:60083/admin" /\ uq_body y = "xyz") /\
  (exists ls, traces upload at_admin ls /\ events ls = [TBody (BRefused 11 10); TParsed "/admin" "PUT" 0]) /\ answered_with upload 413.
Proof.
  split; [exact token_trace|]. split; [apply secret_sized|]. split; [eexists; split; [vm_compute; reflexivity|now right]|].
  split; [exact secret_asks|]. split; [exact upload_trace|exact upload_413].
Qed.

(** C111: the line about a token says that it was rejected just if the client gets a 401. *)
Theorem C111_verdict : forall t x ls e, traces t x ls -> sized (t_req t) -> In (TJwt e) (events ls) ->
  je_path e = x_path x /\ (je_cause e <> None <-> answered_with t 401) /\
  exists r, routed t r /\ r_jwt r <> "".
Proof. exact traced_verdict. Qed.
Print Assumptions C111_verdict.

(** There is one such line for each request on a route with a jwt, unless the handler panics. *)
Theorem C111_line_partial : forall t x ls r, traces t x ls -> routed t r -> r_jwt r <> "" -> t_serve t <> Panicked ->
  exists a e b, events ls = (a ++ TJwt e :: b)%list /\ (forall e', ~ In (TJwt e') (a ++ b)%list).
Proof. exact traced_jwt_there. Qed.
Print Assumptions C111_line_partial.

Theorem C111_line_refuted : exists so srt cfg0 t x ls r, in_use so srt cfg0 (t_cfg t) /\ honest (t_lib t) /\ traces t x ls /\ routed t r /\ r_jwt r <> "" /\
  forall e, ~ In (TJwt e) (events ls).
Proof. exact junk_unlogged. Qed.
Print Assumptions C111_line_refuted.

(** The key id and the dates in it are those of the token; an accepted token shows its dates. *)
Theorem C111_contents : forall t x ls e auth, traces t x ls -> sized (t_req t) -> honest (t_lib t) -> In (TJwt e) (events ls) -> auth_of t auth ->
  (forall k, je_kid e = Some k -> exists token, bearer auth token /\ k <> "" /\ names_kid token k) /\
  (forall d, je_dates e = Some d -> exists token c, bearer auth token /\ lib_parse (t_lib t) token = Some c /\ dates_shown c d) /\
  (je_cause e = None -> je_dates e <> None).
Proof. exact traced_contents. Qed.
Print Assumptions C111_contents.

(** The dates of an accepted token are in time. *)
Theorem C111_in_time : forall so srt cfg0 t x ls e, traces t x ls -> sized (t_req t) -> in_use so srt cfg0 (t_cfg t) -> honest (t_lib t) ->
  (0 <= ch_now (t_chance t))%Z -> In (TJwt e) (events ls) -> je_cause e = None ->
  exists r j0 skew d, routed t r /\ lookup (r_jwt r) (c_jwt cfg0) = Some (Some j0) /\ skew_configured (j_skew j0) skew /\
    je_dates e = Some d /\ shown_in_time (ch_now (t_chance t)) skew d.
Proof. exact traced_in_time. Qed.
Print Assumptions C111_in_time.

(** The cause given for a rejected token is true of it. *)
Theorem C111_cause : forall so srt cfg0 t x ls e auth cs, traces t x ls -> sized (t_req t) -> in_use so srt cfg0 (t_cfg t) -> honest (t_lib t) ->
  auth_of t auth -> In (TJwt e) (events ls) -> je_cause e = Some cs ->
  exists r j0 j skew, routed t r /\ lookup (r_jwt r) (c_jwt cfg0) = Some (Some j0) /\ lookup (r_jwt r) (c_jwt (t_cfg t)) = Some (Some j) /\
    skew_configured (j_skew j0) skew /\ reason (t_lib t) (ch_now (t_chance t)) skew j (j_alg j0) auth cs.
Proof. exact traced_cause. Qed.
Print Assumptions C111_cause.

(** A check for new keys is logged just for the tokens that name an unknown key. *)
Theorem C111_rotation : forall so srt cfg0 t x ls auth p n k, traces t x ls -> sized (t_req t) -> in_use so srt cfg0 (t_cfg t) -> auth_of t auth ->
  (In (TRotate p n k) (events ls) <->
   exists r j0 j token sigs, routed t r /\ r_jwt r <> "" /\ p = r_path r /\ n = r_jwt r /\
     lookup n (c_jwt cfg0) = Some (Some j0) /\ In (j_alg j0) signing /\ j_url j0 <> "" /\ lookup n (c_jwt (t_cfg t)) = Some (Some j) /\
     bearer auth token /\ lib_signatures (t_lib t) token = Some (S sigs) /\ k <> "" /\ names_kid token k /\ ~ known j k).
Proof. exact traced_rotation. Qed.
Print Assumptions C111_rotation.

(** The dates in the line do not always show why a token was rejected for its dates. *)
Theorem C111_dates_refuted : exists so srt cfg0 t x ls e r j0 skew d, in_use so srt cfg0 (t_cfg t) /\ honest (t_lib t) /\ traces t x ls /\ sized (t_req t) /\
  In (TJwt e) (events ls) /\ routed t r /\ lookup (r_jwt r) (c_jwt cfg0) = Some (Some j0) /\ skew_configured (j_skew j0) skew /\
  je_cause e = Some CDates /\ je_dates e = Some d /\ shown_in_time (ch_now (t_chance t)) skew d.
Proof. exact expired_unshown. Qed.
Print Assumptions C111_dates_refuted.

Example C111_case : in_use key_source isort_routes site (t_cfg (secret_visit old_k9 "id=1" "xyz")) /\ honest lib /\ sized (t_req (secret_visit old_k9 "id=1" "xyz")) /\
  (exists r, routed (secret_visit old_k9 "id=1" "xyz") r /\ r_path r = "/admin" /\ r_jwt r = "auth") /\
  (exists ls, traces (secret_visit old_k9 "id=1" "xyz") at_admin ls /\
    events ls = [TBody (BRead 3 3); TParsed "/admin" "PUT" 3; TRotate "/admin" "auth" "k9";
      TJwt (JwtEntry "/admin" (Some "k9") (Some (DateClaims None None None)) None);
      TDefault "/admin" "http://localhost:60083"; TUri "/admin" "http://localhost:60083/admin"]) /\
  (exists ls, traces (secret_visit "new" "id=1" "xyz") at_admin ls /\
    events ls = [TBody (BRead 3 3); TParsed "/admin" "PUT" 3; TJwt (JwtEntry "/admin" None None (Some CParse))]) /\
  answered_with (secret_visit "new" "id=1" "xyz") 401.
Proof.
  split; [exact live_in_use|]. split; [apply small_honest|]. split; [apply secret_sized|]. split; [apply secret_routed|].
  split; [exact rotation_trace|]. split; [exact reject_trace|exact reject_401].
Qed.

(** C112: the server a request is sent to is logged once, with the label and the policy it was chosen by. *)
Theorem C112_server : forall t x ls y, traces t x ls -> asks t y -> sized (t_req t) ->
  exists r e u a b, routed t r /\ server_told t r e u /\ events ls = (a ++ e :: b)%list /\ (forall e', In e' (a ++ b)%list -> ~ of_server e') /\
    exists rest, uq_uri y = base_url u ++ rest.
Proof. exact traced_server. Qed.
Print Assumptions C112_server.

(** A route is logged as not mapped just if the client gets a 503 although the resource is configured. *)
Theorem C112_unmapped_partial : forall t x ls r, traces t x ls -> routed t r ->
  (In (TUnmapped (r_path r)) (events ls) <-> answered_with t 503 /\ has_resource t r).
Proof. exact traced_unmapped. Qed.
Print Assumptions C112_unmapped_partial.

(** Full C112 is false: nothing is logged about a server if the resource is not configured. *)
Theorem C112_unmapped_refuted : exists so srt cfg0 t x ls r, in_use so srt cfg0 (t_cfg t) /\ traces t x ls /\ routed t r /\ answered_with t 503 /\
  forall e, In e (events ls) -> ~ of_server e.
Proof. exact unmapped_silent. Qed.
Print Assumptions C112_unmapped_refuted.

(** Each request sent to an upstream server is logged with its URI, in this order and nothing else; one
    more if the request could not be built, which ends the handler. *)
Theorem C112_uri : forall t x ls ys, traces t x ls -> sends t ys ->
  uris (events ls) = map (fun y => TUri (x_path x) (uq_uri y)) ys \/
  (ys = [] /\ exists c s, ran t c s /\ t_new t (uq_method (c_request c)) (uq_uri (c_request c)) = false /\ s_pc s = PPanic /\
    uris (events ls) = [TUri (x_path x) (uq_uri (c_request c))]).
Proof. exact traced_uris. Qed.
Print Assumptions C112_uri.

Example C112_case : (exists r, routed (labelled "default") r /\ r_path r = "/" /\ r_policy r = "split" /\ has_resource (labelled "default") r) /\
  (exists ls, traces (labelled "default") from_home ls /\
    events ls = [TBody BNone; TParsed "/mse6/x" "GET" 0; TMapped "/" "http://two:80" "default" "split"; TUri "/mse6/x" "http://two:80/x"; TUri "/mse6/x" "http://two:80/x"]) /\
  (exists ls, traces (labelled "green") from_home ls /\ events ls = [TBody BNone; TParsed "/mse6/x" "GET" 0; TUnmapped "/"]) /\
  answered_with (labelled "green") 503.
Proof.
  split; [apply labelled_routed|]. split; [exact mapped_trace|]. split; [exact unmapped_trace|exact unmapped_503].
Qed.

(** C113: of the headers, the token and the body, lines show no more than the id, sizes, and what jwx and
    the key id tell: two requests alike in these leave the same lines. *)
Theorem C113_lines : forall t t' x ls, twins t t' -> alike_auth t t' -> (traces t x ls <-> traces t' x ls).
Proof. exact kept_traces. Qed.
Print Assumptions C113_lines.

(** So do requests with the same token. *)
Theorem C113_same_token : forall t t' x ls, twins t t' -> same_token t t' -> (traces t x ls <-> traces t' x ls).
Proof. exact same_token_traces. Qed.
Print Assumptions C113_same_token.

Example C113_case : twins (trusted "old" "id=1" "xyz") (trusted "new" "id=2" "uvw") /\ alike_auth (trusted "old" "id=1" "xyz") (trusted "new" "id=2" "uvw") /\
  exists ls, traces (trusted "old" "id=1" "xyz") at_admin ls /\
    events ls = [TBody (BRead 3 3); TParsed "/admin" "PUT" 3; TJwt (JwtEntry "/admin" None (Some (DateClaims None None None)) None);
      TDefault "/admin" "http://localhost:60083"; TUri "/admin" "http://localhost:60083/admin"].
Proof.
  split; [|split; [exact trusted_alike|exact trusted_trace]]. split; try reflexivity. intros x [<-|[<-|[<-|[]]]]; reflexivity.
Qed.
