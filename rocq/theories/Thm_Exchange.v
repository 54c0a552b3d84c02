(** Requests and responses of one exchange (C18, C19, C22 to C24, C29 to C32, C38, C61, C62). *)
From Coq Require Import String Ascii List Bool ZArith NArith.
From Verif Require Import GoStr NumberSpec Header HeaderSpec Json JsonSpec Exchange ExchangeSpec ExchangeProofs.
Import ListNotations.
Local Open Scope string_scope.

(** * Request bodies *)

(** C18 fails for bodies without a declared length: for every limit there is one over the limit that
    is not rejected.  It is forwarded with an empty body instead. *)
Theorem C18_chunked_refuted : forall E fresh, (0 <= e_max_body E)%Z ->
  exists q, chunked q /\ (e_max_body E < Z.of_nat (String.length (q_data q)))%Z /\
    w_too_large (parse_incoming E fresh q) = false /\ w_body (parse_incoming E fresh q) = "" /\ q_data q <> "".
Proof. exact chunked_not_rejected. Qed.
Print Assumptions C18_chunked_refuted.

(** C18 fails at the limit: a body of exactly the limit is rejected when its length is declared. *)
Theorem C18_exact_refuted : forall E fresh, (0 < e_max_body E)%Z ->
  exists q, honest_length q /\ Z.of_nat (String.length (q_data q)) = e_max_body E /\
    w_too_large (parse_incoming E fresh q) = true.
Proof. exact exact_rejected. Qed.
Print Assumptions C18_exact_refuted.

(** C18, the part that holds: over the limit with a declared length is rejected ... *)
Theorem C18_declared_partial : forall E fresh q, (0 <= e_max_body E)%Z -> honest_length q ->
  (e_max_body E < Z.of_nat (String.length (q_data q)))%Z -> w_too_large (parse_incoming E fresh q) = true.
Proof. exact declared_rejected. Qed.
Print Assumptions C18_declared_partial.

(** ... and below the limit nothing is rejected or lost. *)
Theorem C18_within_partial : forall E fresh q, (0 < e_max_body E)%Z -> honest_length q \/ chunked q ->
  (Z.of_nat (String.length (q_data q)) < e_max_body E)%Z ->
  w_too_large (parse_incoming E fresh q) = false /\ w_body (parse_incoming E fresh q) = q_data q.
Proof. exact within_accepted. Qed.
Print Assumptions C18_within_partial.

(** Without a declared length a body of exactly the limit is accepted too. *)
Theorem C18_chunked_partial : forall E fresh q, chunked q ->
  (Z.of_nat (String.length (q_data q)) <= e_max_body E)%Z ->
  w_too_large (parse_incoming E fresh q) = false /\ w_body (parse_incoming E fresh q) = q_data q.
Proof. exact chunked_accepted. Qed.
Print Assumptions C18_chunked_partial.

Example C18_case :
  honest_length (Req "PUT" "/a" "/a" [] 11 "hello world" true) /\ (e_max_body toy < 11)%Z /\
  chunked (Req "PUT" "/a" "/a" [] (-1) "0123456789" true) /\ e_max_body toy = 10%Z /\
  w_body (parse_incoming toy "u" (Req "PUT" "/a" "/a" [] 5 "hello" true)) = "hello".
Proof. repeat split; vm_compute; congruence. Qed.

(** C19: an upstream request carries the whole body or none of it, never a part. *)
Theorem C19_whole_partial : forall E fresh q uri,
  uq_body (scaffold_request (parse_incoming E fresh q) uri) = q_data q \/
  uq_body (scaffold_request (parse_incoming E fresh q) uri) = "".
Proof. exact whole_or_empty. Qed.
Print Assumptions C19_whole_partial.

(** C19: below the limit it is the whole body.  That all attempts carry the same request is
    C19_attempts (Thm_Machine). *)
Theorem C19_within_partial : forall E fresh q uri, (0 < e_max_body E)%Z -> honest_length q \/ chunked q ->
  (Z.of_nat (String.length (q_data q)) < e_max_body E)%Z ->
  uq_body (scaffold_request (parse_incoming E fresh q) uri) = q_data q.
Proof. exact within_forwarded. Qed.
Print Assumptions C19_within_partial.

Example C19_case :
  honest_length (Req "PUT" "/a" "/a" [] 5 "hello" true) /\ (0 < 5 < e_max_body toy)%Z /\
  uq_body (scaffold_request (parse_incoming toy "u" (Req "PUT" "/a" "/a" [] 5 "hello" true)) "http://up/a") = "hello".
Proof. repeat split; vm_compute; congruence. Qed.

(** C19 fails: for every limit some accepted request loses its body. *)
Theorem C19_dropped_refuted : forall E fresh uri, (0 <= e_max_body E)%Z ->
  exists q, chunked q /\ w_too_large (parse_incoming E fresh q) = false /\
    uq_body (scaffold_request (parse_incoming E fresh q) uri) = "" /\ q_data q <> "".
Proof. exact body_dropped. Qed.
Print Assumptions C19_dropped_refuted.

(** * Request headers *)

(** C22: every header reaches the upstream with the same values in the same order, except that
    Date, Content-Length, Transfer-Encoding and Server do not and X-Request-Id is the proxy's. *)
Theorem C22_headers : forall E fresh q uri k, canonical_keys (q_header q) ->
  values k (uq_header (scaffold_request (parse_incoming E fresh q) uri)) =
  if String.eqb k "X-Request-Id" then [w_id (parse_incoming E fresh q)]
  else if existsb (String.eqb k) never_copied then [] else values k (q_header q).
Proof. exact headers_upstream. Qed.
Print Assumptions C22_headers.

Example C22_case :
  let q := Req "GET" "/a" "/a" [("Cookie", "a=1"); ("Server", "me"); ("Cookie", "b=2")] 0 "" true in
  canonical_keys (q_header q) /\
  values "Cookie" (uq_header (scaffold_request (parse_incoming toy "u" q) "http://h/a")) = ["a=1"; "b=2"].
Proof.
  split; [|reflexivity]. intros k v [H|[H|[H|[]]]]; injection H as <- <-; reflexivity.
Qed.

(** C23: the id is the client's first X-Request-Id if that is not empty, otherwise a new one. *)
Theorem C23_choice : forall E fresh q,
  w_id (parse_incoming E fresh q) =
  match values "X-Request-Id" (q_header q) with
  | v :: _ => if String.eqb v "" then "XR-" ++ e_id E ++ "-" ++ fresh else v
  | [] => "XR-" ++ e_id E ++ "-" ++ fresh
  end.
Proof. exact request_id_choice. Qed.
Print Assumptions C23_choice.

(** C23: it is the only id sent upstream. *)
Theorem C23_upstream : forall w uri, canonical_keys (w_req_header w) ->
  values "X-Request-Id" (uq_header (scaffold_request w uri)) = [w_id w].
Proof. exact request_id_upstream. Qed.
Print Assumptions C23_upstream.

(** C23: it is the only id of an error response ... *)
Theorem C23_error : forall E dice w status m,
  values "X-Request-Id" (rp_header (send_status E dice w status m)) = [w_id w].
Proof. exact request_id_error. Qed.
Print Assumptions C23_error.

(** ... and the first id of a proxied response. *)
Theorem C23_proxied : forall E dice fresh q rs body, canonical_keys (ur_header rs) ->
  hd_error (values "X-Request-Id" (rp_header (proxied E dice (parse_incoming E fresh q) rs body))) =
  Some (w_id (parse_incoming E fresh q)).
Proof. exact id_proxied. Qed.
Print Assumptions C23_proxied.

Example C23_case :
  w_id (parse_incoming toy "u-1" (Req "GET" "/" "/" [("X-Request-Id", "mine")] 0 "" true)) = "mine" /\
  w_id (parse_incoming toy "u-1" (Req "GET" "/" "/" [("X-Request-Id", "")] 0 "" true)) = "XR-unknown-u-1".
Proof. now split. Qed.

(** C62 fails: hop-by-hop headers are forwarded, for every server. *)
Theorem C62_forwarded_refuted : forall E fresh uri, exists q, canonical_keys (q_header q) /\
  forall k, In k ["Connection"; "Upgrade"; "Te"] ->
    values k (uq_header (scaffold_request (parse_incoming E fresh q) uri)) <> [].
Proof. exact hop_exists. Qed.
Print Assumptions C62_forwarded_refuted.

(** C62 fails in every case, in fact: all of them are copied as they are, except Transfer-Encoding. *)
Theorem C62_all_refuted : forall w uri k, canonical_keys (w_req_header w) -> In k hop_by_hop ->
  values k (uq_header (scaffold_request w uri)) = values k (w_req_header w).
Proof. exact hop_forwarded. Qed.
Print Assumptions C62_all_refuted.

(** * Response headers *)

(** C24: headers the proxy has no say in reach the client with the same values in the same order. *)
Theorem C24_headers_partial : forall E dice fresh q rs body k,
  canonical_keys (ur_header rs) -> ~ (400 <= ur_status rs < 500)%Z -> ~ In k own_headers -> ~ In k never_copied ->
  values k (rp_header (proxied E dice (parse_incoming E fresh q) rs body)) = values k (ur_header rs).
Proof. exact headers_proxied. Qed.
Print Assumptions C24_headers_partial.

(** C24: the Server header is the proxy's own, and the upstream's Date and Transfer-Encoding are
    not passed on. *)
Theorem C24_server : forall E dice fresh q rs body, canonical_keys (ur_header rs) ->
  let r := proxied E dice (parse_incoming E fresh q) rs body in
  values "Server" (rp_header r) = ["j8a " ++ e_version E ++ " " ++ e_id E] /\
  values "Date" (rp_header r) = [] /\ values "Transfer-Encoding" (rp_header r) = [].
Proof. exact server_proxied. Qed.
Print Assumptions C24_server.

(** C24 fails for two headers: an upstream X-Request-Id or Strict-Transport-Security reaches the
    client beside the proxy's own. *)
Theorem C24_request_id_refuted : forall E fresh q,
  exists rs, canonical_keys (ur_header rs) /\
    values "X-Request-Id"
      (rp_header (assemble E (parse_incoming E fresh q) (Draft rs 200 false rs false rs) "")) =
    [w_id (parse_incoming E fresh q); "other"] /\ values "X-Request-Id" (ur_header rs) = ["other"].
Proof. exact id_duplicated. Qed.
Print Assumptions C24_request_id_refuted.

Theorem C24_hsts_refuted : forall E fresh q, e_tls E = true ->
  exists rs, canonical_keys (ur_header rs) /\
    values "Strict-Transport-Security" (ur_header rs) = ["max-age=60"] /\
    values "Strict-Transport-Security"
      (rp_header (assemble E (parse_incoming E fresh q) (Draft rs 200 false rs false rs) "")) =
    ["max-age=31536000"; "max-age=60"].
Proof. exact hsts_duplicated. Qed.
Print Assumptions C24_hsts_refuted.

Example C24_case :
  let rs := UpResp 302 [("Location", "/b"); ("Set-Cookie", "a"); ("Server", "up"); ("Set-Cookie", "b")] in
  let r := proxied toy 3 (parse_incoming toy "u" (Req "GET" "/" "/" [] 0 "" true)) rs "moved" in
  canonical_keys (ur_header rs) /\ ~ In "Set-Cookie" own_headers /\ ~ In "Set-Cookie" never_copied /\
  values "Set-Cookie" (rp_header r) = ["a"; "b"] /\ values "Server" (rp_header r) = ["j8a v0.7.2 unknown"].
Proof.
  cbv zeta. split; [|split; [|split; [|now split]]].
  - intros k v [H|[H|[H|[H|[]]]]]; injection H as <- <-; reflexivity.
  - cbn. intuition discriminate.
  - cbn. intuition discriminate.
Qed.

(** * Content coding *)

(** C29: the content is preserved when the upstream sends it plain (and it does not look like gzip),
    or gzip coded and not empty, or in any coding to a client that did not mention gzip (provided the
    coded bytes do not look like gzip). *)
Theorem C29_content_partial : forall E dec dice fresh q rs body x,
  codec E dec -> canonical_keys (ur_header rs) -> ~ (400 <= ur_status rs < 500)%Z ->
  let ce := values "Content-Encoding" (ur_header rs) in
  content_of dec ce body = Some x ->
  (((ce = [] \/ ce = ["identity"]) /\ ~ gzip_start body) \/
   (ce = ["gzip"] /\ x <> "") \/
   (no_gzip_client q /\ ~ gzip_start body)) ->
  let r := proxied E dice (parse_incoming E fresh q) rs body in
  content_of dec (values "Content-Encoding" (rp_header r)) (rp_body r) = Some x.
Proof. exact content_same. Qed.
Print Assumptions C29_content_partial.

(** C29 fails for other codings and a client that accepts gzip: the coded bytes are compressed again
    and the original coding is no longer announced, so the client ends up with the coded bytes. *)
Theorem C29_brotli_refuted : forall E dec fresh, codec E dec -> forall body x, body <> "" -> ~ gzip_start body ->
  dec "br" body = Some x -> x <> body ->
  exists q rs, canonical_keys (ur_header rs) /\ allows "gzip" (values "Accept-Encoding" (q_header q)) = true /\
    content_of dec (values "Content-Encoding" (ur_header rs)) body = Some x /\
    let r := proxied E 0 (parse_incoming E fresh q) rs body in
    content_of dec (values "Content-Encoding" (rp_header r)) (rp_body r) = Some body.
Proof. exact br_double. Qed.
Print Assumptions C29_brotli_refuted.

(** C29 fails for gzip archives sent as plain content: every client receives the unpacked archive. *)
Theorem C29_archive_refuted : forall E dec fresh, codec E dec -> forall s, s <> "" -> e_gzip E s <> s ->
  forall q, canonical_keys (q_header q) ->
  let body := e_gzip E s in
  let rs := UpResp 200 [("Content-Type", "application/gzip")] in
  let r := proxied E 0 (parse_incoming E fresh q) rs body in
  content_of dec (values "Content-Encoding" (ur_header rs)) body = Some body /\
  content_of dec (values "Content-Encoding" (rp_header r)) (rp_body r) = Some s.
Proof. exact archive_unpacked. Qed.
Print Assumptions C29_archive_refuted.

(** C29 fails for empty gzip content and a client that does not accept gzip: the body becomes empty
    but is still announced as gzip, which it is not. *)
Theorem C29_empty_refuted : forall E dec fresh, codec E dec ->
  exists q rs, canonical_keys (ur_header rs) /\ values "Accept-Encoding" (q_header q) = [] /\
    content_of dec (values "Content-Encoding" (ur_header rs)) (e_gzip E "") = Some "" /\
    let r := proxied E 0 (parse_incoming E fresh q) rs (e_gzip E "") in
    content_of dec (values "Content-Encoding" (rp_header r)) (rp_body r) = None.
Proof. exact empty_gzip. Qed.
Print Assumptions C29_empty_refuted.

(** The codec contract can be met, with both "gzip" and "br". *)
Example C29_case : codec toy toy_dec /\ toy_dec "br" "Bhello" = Some "hello" /\ ~ gzip_start "Bhello" /\
  let r := proxied toy 0 (parse_incoming toy "u" (Req "GET" "/" "/" [("Accept-Encoding", "gzip")] 0 "" true))
                   (UpResp 200 []) "hello" in
  values "Content-Encoding" (rp_header r) = ["gzip"] /\ toy_dec "gzip" (rp_body r) = Some "hello".
Proof. split; [exact toy_codec|]. split; [reflexivity|]. split; [intros [t H]; discriminate H|]. now split. Qed.

(** C30: Content-Length is the number of bytes written. *)
Theorem C30_true : forall E dice fresh q rs body,
  canonical_keys (ur_header rs) -> ~ (400 <= ur_status rs < 500)%Z ->
  ur_status rs <> 204%Z -> ~ (100 <= ur_status rs < 200)%Z ->
  to_upper (q_method q) <> "HEAD" -> to_upper (q_method q) <> "CONNECT" ->
  let r := proxied E dice (parse_incoming E fresh q) rs body in
  values "Content-Length" (rp_header r) = [itoa_Z (Z.of_nat (String.length (rp_body r)))].
Proof. exact length_proxied. Qed.
Print Assumptions C30_true.

(** C30: for HEAD it is the upstream's, if that is a number. *)
Theorem C30_head : forall E dice fresh q rs body,
  canonical_keys (ur_header rs) -> ~ (400 <= ur_status rs < 500)%Z ->
  ur_status rs <> 204%Z -> ~ (100 <= ur_status rs < 200)%Z -> to_upper (q_method q) = "HEAD" ->
  let r := proxied E dice (parse_incoming E fresh q) rs body in
  (forall v vs n, values "Content-Length" (ur_header rs) = v :: vs -> int64_text v n -> values "Content-Length" (rp_header r) = [v]) /\
  ((forall v vs n, values "Content-Length" (ur_header rs) = v :: vs -> ~ int64_text v n) -> values "Content-Length" (rp_header r) = ["0"]).
Proof. exact length_proxied_head. Qed.
Print Assumptions C30_head.

Example C30_case :
  let rs := UpResp 200 [("Content-Length", "5")] in
  canonical_keys (ur_header rs) /\
  values "Content-Length" (rp_header (proxied toy 0
    (parse_incoming toy "u" (Req "get" "/" "/" [("Accept-Encoding", "gzip")] 0 "" true)) rs "hello")) = ["7"] /\
  values "Content-Length" (rp_header (proxied toy 0
    (parse_incoming toy "u" (Req "HEAD" "/" "/" [] 0 "" true)) rs "")) = ["5"].
Proof. split; [|now split]. intros k v [H|[]]; injection H as <- <-; reflexivity. Qed.

(** C31 fails for clients that accept gzip: the error document is compressed and nothing says so. *)
Theorem C31_gzip_refuted : forall E dec dice fresh, codec E dec ->
  exists q,
  let r := send_status E dice (parse_incoming E fresh q) 404 "upstream resource not found" in
  exists text, content_of dec (values "Content-Encoding" (rp_header r)) (rp_body r) = Some text /\ read_object text = None.
Proof. exact error_exists. Qed.
Print Assumptions C31_gzip_refuted.

(** C31 for clients that do not mention gzip. *)
Theorem C31_plain_partial : forall E dec dice fresh q status m,
  utf8 (e_id E) -> utf8 (e_version E) -> utf8 m -> m <> "" -> m <> "none" -> no_gzip_client q ->
  let r := send_status E dice (parse_incoming E fresh q) status m in
  rp_status r = status /\ values "Content-Type" (rp_header r) = ["application/json"] /\
  exists text, content_of dec (values "Content-Encoding" (rp_header r)) (rp_body r) = Some text /\
    read_object text = Some [("j8a", JStr (random_huttese dice)); ("ServerID", JStr (e_id E));
      ("Version", JStr (e_version E)); ("Code", JInt status); ("Message", JStr m)].
Proof. exact error_readable. Qed.
Print Assumptions C31_plain_partial.

Example C31_case :
  let q := Req "GET" "/none" "/none" [("Accept-Encoding", "deflate, br")] 0 "" true in
  no_gzip_client q /\
  rp_body (send_status toy 3 (parse_incoming toy "u" q) 404 "upstream resource not found") =
  "{""j8a"":""Chuba!"",""ServerID"":""unknown"",""Version"":""v0.7.2"",""Code"":404,""Message"":""upstream resource not found""}".
Proof. split; [|vm_compute; reflexivity]. intros v [<-|[]]. reflexivity. Qed.

(** C32: a client that does not mention gzip gets no body compressed by the proxy, and gzip bodies
    are decompressed for it. *)
Theorem C32_plain_partial : forall E dice fresh q rs body, no_gzip_client q ->
  let w := parse_incoming E fresh q in
  (~ (400 <= ur_status rs < 500)%Z ->
   (gzip_start body -> rp_body (proxied E dice w rs body) = e_gunzip E body) /\
   (~ gzip_start body -> rp_body (proxied E dice w rs body) = body)) /\
  (forall status m, rp_body (send_status E dice w status m) =
     status_json (random_huttese dice) (e_id E) (e_version E) status (status_message status m)).
Proof. exact no_gzip_body. Qed.
Print Assumptions C32_plain_partial.

(** C32 fails for a client that refuses gzip by name. *)
Theorem C32_weight_refuted : forall E dec fresh, codec E dec -> forall body, body <> "" -> ~ gzip_start body ->
  exists q, allows "gzip" (values "Accept-Encoding" (q_header q)) = false /\
  let r := proxied E 0 (parse_incoming E fresh q) (UpResp 200 []) body in
  rp_body r = e_gzip E body /\ values "Content-Encoding" (rp_header r) = ["gzip"].
Proof. exact q0_exists. Qed.
Print Assumptions C32_weight_refuted.

Example C32_case :
  allows "gzip" ["br, gzip;q=0.5"] = true /\ allows "gzip" ["br;q=1, gzip;q=0"] = false /\
  rp_body (proxied toy 0 (parse_incoming toy "u" (Req "GET" "/" "/" [] 0 "" true)) (UpResp 200 []) (e_gzip toy "hello")) = "hello".
Proof. now repeat split. Qed.

(** * Upstream errors and the about page *)

(** C38: an upstream 4xx gives the client the same code, none of the upstream's headers and the
    document for that code. *)
Theorem C38_replaced : forall E dice fresh q rs body, utf8 (e_id E) -> utf8 (e_version E) ->
  (400 <= ur_status rs < 500)%Z ->
  let w := parse_incoming E fresh q in
  let r := proxied E dice w rs body in
  rp_status r = ur_status rs /\
  (forall k, ~ In k ["Server"; "X-Request-Id"; "Strict-Transport-Security"; "Connection"; "Content-Type"] ->
     values k (rp_header r) = []) /\
  exists text, (rp_body r = text \/ rp_body r = e_gzip E text) /\
    (w_send_gzip w = false -> rp_body r = text) /\
    read_object text = Some [("j8a", JStr (random_huttese dice)); ("ServerID", JStr (e_id E));
      ("Version", JStr (e_version E)); ("Code", JInt (ur_status rs)); ("Message", JStr (with_code (ur_status rs)))].
Proof. exact client_error_json. Qed.
Print Assumptions C38_replaced.

(** C38: nor does anything else of the upstream's answer matter. *)
Theorem C38_independent : forall E dice w rs rs' body body', (400 <= ur_status rs < 500)%Z ->
  ur_status rs' = ur_status rs -> proxied E dice w rs body = proxied E dice w rs' body'.
Proof. exact client_error_same. Qed.
Print Assumptions C38_independent.

Example C38_case :
  let r := proxied toy 3 (parse_incoming toy "u" (Req "GET" "/" "/" [] 0 "" true)) (UpResp 418 [("Set-Cookie", "a")]) "secret" in
  rp_status r = 418%Z /\ values "Set-Cookie" (rp_header r) = [] /\
  rp_body r = "{""j8a"":""Chuba!"",""ServerID"":""unknown"",""Version"":""v0.7.2"",""Code"":418,""Message"":""i'm a teapot""}".
Proof. vm_compute. now repeat split. Qed.

(** C61 *)
Theorem C61_about : forall E dec dice fresh q, codec E dec -> utf8 (e_id E) -> utf8 (e_version E) ->
  let r := about_page E dice fresh q in
  rp_status r = 200%Z /\ values "Content-Type" (rp_header r) = ["application/json"] /\
  values "Content-Length" (rp_header r) = [itoa_Z (Z.of_nat (String.length (rp_body r)))] /\
  ((forall v, In v (values "Accept-Encoding" (q_header q)) -> contains v "gzip" = false) ->
     values "Content-Encoding" (rp_header r) = ["identity"]) /\
  exists text, content_of dec (values "Content-Encoding" (rp_header r)) (rp_body r) = Some text /\
    read_object text = Some [("j8a", JStr (random_huttese dice)); ("ServerID", JStr (e_id E)); ("Version", JStr (e_version E))].
Proof. exact about_response. Qed.
Print Assumptions C61_about.

Example C61_case :
  let r := about_page toy 3 "u" (Req "GET" "/about" "/about" [("Accept-Encoding", "br"); ("Accept-Encoding", "gzip")] 0 "" true) in
  values "Content-Encoding" (rp_header r) = ["gzip"] /\ values "Content-Length" (rp_header r) = ["58"].
Proof. vm_compute. now split. Qed.
