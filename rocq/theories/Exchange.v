(** One exchange with the client: what is read from its request (proxy.go), what is sent upstream
    (proxyhandler.go) and how responses are put together (proxy.go, server.go, responses.go). *)
From Coq Require Import String Ascii List Bool ZArith NArith.
From Verif Require Import GoStr Header Json.
Import ListNotations.
Local Open Scope string_scope.

(** Process-wide values.  [e_gzip] and [e_gunzip] are Gzip and Gunzip of gzip.go:31-57; Gunzip ignores
    errors and returns what it could decode.  [e_max_body] is maxBodyBytes. *)
Record env := Env {
  e_version : string; e_id : string; e_tls : bool; e_max_body : Z;
  e_gzip : string -> string; e_gunzip : string -> string }.

(** The part of http.Request the code reads.  [q_raw_uri] is RequestURI, [q_uri] is URL.RequestURI(),
    [q_length] is ContentLength (-1 if unknown).  [q_data] are the body bytes net/http delivers before
    end of file ([q_data_ok]) or before a read error. *)
Record request := Req {
  q_method : string; q_raw_uri : string; q_uri : string; q_header : header;
  q_length : Z; q_data : string; q_data_ok : bool }.

Definition zlen (s : string) : Z := Z.of_nat (String.length s).

(** ioutil.ReadAll of http.MaxBytesReader with limit [max]: the bytes read and whether reading ended
    without error.  At most [max] bytes are delivered; a further byte is an error. *)
Definition read_limited (max : Z) (data : string) (ok : bool) : string * bool :=
  if Z.leb (zlen data) max then (data, ok) else (substring 0 (Z.to_nat max) data, false).

(** Dwn.Body, Dwn.ReqTooLarge and whether the limit of MaxBytesReader was hit (which makes net/http
    add "Connection: close" to the response). *)
Record parsed_body := PB { pb_body : string; pb_too_large : bool; pb_close : bool }.

(** proxy.go:231-282 *)
Definition parse_body (max : Z) (q : request) : parsed_body :=
  if Z.eqb (q_length q) 0 then PB "" false false
  else if Z.geb (q_length q) max then PB "" true false
  else
    let (buf, ok) := read_limited max (q_data q) (q_data_ok q) in
    let close := negb (Z.leb (zlen (q_data q)) max) in
    if Z.gtb (zlen buf) max then PB "" true close
    else if negb ok then PB "" false close
    else PB buf false close.

(** The fields of Proxy and Proxy.Dwn used later. *)
Record down := Dwn {
  w_id : string; w_method : string; w_uri : string; w_body : string; w_too_large : bool;
  w_send_gzip : bool; w_req_header : header; w_header : header }.

(** proxy.go:319-327; [fresh] is the new uuid. *)
Definition create_request_id (E : env) (fresh : string) (q : request) : string :=
  let xr := get x_request_id (q_header q) in
  if String.eqb xr "" then "XR-" ++ e_id E ++ "-" ++ fresh else xr.

(** proxy.go:196-229 after setOutgoing (proxy.go:329-334).  [w_header] is the response header map. *)
Definition parse_incoming (E : env) (fresh : string) (q : request) : down :=
  let b := parse_body (e_max_body E) q in
  Dwn (create_request_id E fresh q) (to_upper (q_method q)) (q_uri q) (pb_body b) (pb_too_large b)
      (contains (get "Accept-Encoding" (q_header q)) "gzip") (q_header q)
      (if pb_close b then [("Connection", "close")] else []).

(** proxy.go:41-48 *)
Definition repeatable_methods : list string := ["GET"; "HEAD"; "OPTIONS"; "TRACE"; "PUT"; "DELETE"].
Definition legal_methods : list string := (repeatable_methods ++ ["POST"; "CONNECT"])%list.

(** proxy.go:500-507 *)
Definition legal_method (w : down) : bool := mem_str (w_method w) legal_methods.

(** proxyhandler.go:78-81 *)
Definition validate (w : down) : bool := legal_method w && negb (w_too_large w).

(** http.Request as sent upstream by one attempt.  net/http may still add headers of its own, such as
    User-Agent, when they are missing. *)
Record up_request := UpReq { uq_method : string; uq_uri : string; uq_header : header; uq_body : string }.

(** proxyhandler.go:105-144 with proxy.go:336-341, for the resolved URI.  A new reader over the whole
    body is made each time; an empty body is sent as no body. *)
Definition scaffold_request (w : down) (uri : string) : up_request :=
  UpReq (w_method w) uri (set x_request_id (w_id w) (copy_headers (w_req_header w) [])) (w_body w).

(** * Responses *)

(** http.Response of an upstream server, without its body. *)
Record up_response := UpResp { ur_status : Z; ur_header : header }.

(** What is written to the client: one WriteHeader call and the bytes written. *)
Record response := Response { rp_status : Z; rp_header : header; rp_body : string }.

(** server.go:163-173 *)
Definition standard_headers (E : env) (w : down) (h : header) : header :=
  let h1 := set "Server" ("j8a " ++ e_version E ++ " " ++ e_id E) h in
  let h2 := if e_tls E then set "Strict-Transport-Security" "max-age=31536000" h1 else h1 in
  set x_request_id (w_id w) h2.

(** server.go:221-229 *)
Definition status_message (status : Z) (message : string) : string :=
  if String.eqb message "" || String.eqb message "none" then with_code status else message.

(** server.go:214-238.  writeContentEncodingHeader (proxy.go:391-395) does nothing here: the content
    length it tests is set only on the way to a proxied response. *)
Definition send_status (E : env) (dice : nat) (w : down) (status : Z) (message : string) : response :=
  let json := status_json (random_huttese dice) (e_id E) (e_version E) status (status_message status message) in
  Response status (set "Content-Type" "application/json" (standard_headers E w (w_header w)))
           (if w_send_gzip w then e_gzip E json else json).

(** gzip.go:12 *)
Definition gzip_magic : string := String (ascii_of_N 31) (String (ascii_of_N 139) "").

(** proxyhandler.go:206.  The slice [0:2] of a body shorter than two bytes stays within the capacity
    of the buffer ioutil.ReadAll returns, where the missing bytes are zero. *)
Definition is_gzip (body : string) : bool := String.prefix gzip_magic body.

(** proxy.go:407-432 with 509-515 *)
Definition encode_body (E : env) (w : down) (gz : bool) (body : string) : string :=
  if String.eqb body "" then ""
  else if w_send_gzip w && negb gz then e_gzip E body
  else if negb (w_send_gzip w) && gz then e_gunzip E body
  else body.

(** proxy.go:434-446 for an attempt with a response. *)
Definition content_encoding (w : down) (gz : bool) (rs : up_response) : string :=
  if w_send_gzip w then "gzip"
  else if negb (negb (w_send_gzip w) && gz) then
    match values content_encoding_key (ur_header rs) with
    | [] => "identity"
    | ce => join " " ce
    end
  else "identity".

(** proxy.go:453-479 *)
Definition content_length (w : down) (h : header) (status : Z) (body : string) (rs : up_response) : string :=
  if negb (String.eqb (get transfer_encoding_key h) "") || Z.eqb status 204 ||
     (Z.leb 100 status && Z.ltb status 200) || String.eqb (w_method w) "CONNECT" then "0"
  else if String.eqb (w_method w) "HEAD" then
    let cl := get content_length_key (ur_header rs) in
    if negb (String.eqb cl "") && match atoi cl with Some _ => true | None => false end then cl else "0"
  else itoa_Z (zlen body).

(** What processUpstreamResponse reads from the current attempt while it writes the response, in
    order: response (copied headers), status, gzip flag (body), response (length), gzip flag and
    response (encoding header).  Other goroutines may write in between, so each is read separately. *)
Record draft := Draft {
  df_headers : up_response; df_status : Z; df_gz_body : bool; df_length : up_response;
  df_gz_header : bool; df_encoding : up_response }.

(** proxyhandler.go:255-262 *)
Definition assemble (E : env) (w : down) (d : draft) (body : string) : response :=
  let h1 := copy_headers (ur_header (df_headers d)) (standard_headers E w (w_header w)) in
  let body' := encode_body E w (df_gz_body d) body in
  let h2 := set content_length_key (content_length w h1 (df_status d) body' (df_length d)) h1 in
  let h3 := if Z.gtb (zlen body') 0
            then set content_encoding_key (content_encoding w (df_gz_header d) (df_encoding d)) h2 else h2 in
  Response (df_status d) h3 body'.

(** proxyhandler.go:273-275 *)
Definition client_error (status : Z) : bool := Z.gtb status 399 && Z.ltb status 500.

(** proxyhandler.go:251-264 when everything read belongs to one upstream answer. *)
Definition proxied (E : env) (dice : nat) (w : down) (rs : up_response) (body : string) : response :=
  if client_error (ur_status rs) then send_status E dice w (ur_status rs) "none"
  else assemble E w (Draft rs (ur_status rs) (is_gzip body) rs (is_gzip body) rs) body.

(** responses.go:154-184.  setOutgoing comes after parseIncoming here, which resets SendGzip; the
    page looks at all Accept-Encoding values itself.  No status is written, so net/http sends 200. *)
Definition about_page (E : env) (dice : nat) (fresh : string) (q : request) : response :=
  let w := parse_incoming E fresh q in
  let h := set "Content-Type" "application/json" (standard_headers E w []) in
  let json := about_json (random_huttese dice) (e_id E) (e_version E) in
  let ae := values "Accept-Encoding" (q_header q) in
  let (ce, body) :=
    match ae with
    | [] => ("identity", json)
    | _ => if contains (join " " ae) "gzip" then ("gzip", e_gzip E json) else ("identity", json)
    end in
  Response 200 (set content_length_key (itoa_Z (zlen body)) (set content_encoding_key ce h)) body.
