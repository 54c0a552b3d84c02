(** What net/http's client (Go 1.15) makes of the requests it gets from proxyhandler.go:150-160: the header lines it
    writes (Request.write, transferWriter, persistConn.roundTrip) and the connections it tries (Transport.roundTrip).  The
    transport is the one of httpclient.go:27-40, so compression is not switched off and only HTTP/1.1 is spoken.  Not
    modelled: names of servers in other scripts and zones (see [plain_server]), proxies from the environment, which this transport does not
    use, and the order of the lines. *)
From Coq Require Import String Ascii List Bool NArith.
From Verif Require Import GoStr Header Exchange Url.
Import ListNotations.
Local Open Scope string_scope.

(** * Header lines *)

(** reqWriteExcludeHeader *)
Definition written_apart : list string := ["Host"; "User-Agent"; "Content-Length"; "Transfer-Encoding"; "Trailer"].

(** The first User-Agent of the request, which may be empty, or the client's own *)
Definition user_agent_line (h : header) : header :=
  match values "User-Agent" h with
  | [] => [("User-Agent", "Go-http-client/1.1")]
  | v :: _ => if String.eqb v "" then [] else [("User-Agent", v)]
  end.

(** transferWriter.shouldSendContentLength.  Bodies are read from bytes.Reader (proxy.go:336-341), so that their lengths are known. *)
Definition length_line (x : up_request) : header :=
  if negb (String.eqb (uq_body x) "") then [("Content-Length", itoa (N.of_nat (String.length (uq_body x))))]
  else if String.eqb (uq_method x) "POST" || String.eqb (uq_method x) "PUT" then [("Content-Length", "0")]
  else [].

(** persistConn.roundTrip *)
Definition asks_gzip (x : up_request) : bool :=
  String.eqb (get "Accept-Encoding" (uq_header x)) "" && String.eqb (get "Range" (uq_header x)) "" && negb (String.eqb (uq_method x) "HEAD").
Definition gzip_line (x : up_request) : header := if asks_gzip x then [("Accept-Encoding", "gzip")] else [].

Definition lines (host : string) (x : up_request) : header :=
  ([("Host", host)] ++ user_agent_line (uq_header x) ++ length_line x ++
   filter (fun p => negb (existsb (String.eqb (fst p)) written_apart)) (uq_header x) ++ gzip_line x)%list.

(** The host is that of the URL. *)
Definition wire_header (x : up_request) : option header := option_map (fun g => lines (g_host g) x) (parse_url (uq_uri x)).

(** * Connections *)

(** What becomes of a request on a connection: answered; nothing of it was written; the server's end failed before
    an answer began; the server had closed the connection; other errors, the end of the context among them *)
Inductive fate := Replied | Unwritten | ReadFailed | ClosedIdle | Failed.

(** A connection from the pool or a new one *)
Record try := Try { y_reused : bool; y_fate : fate }.

(** Request.isReplayable; the body can always be read again. *)
Definition replayable (x : up_request) : bool :=
  existsb (String.eqb (uq_method x)) ["GET"; "HEAD"; "OPTIONS"; "TRACE"] ||
  match values "Idempotency-Key" (uq_header x), values "X-Idempotency-Key" (uq_header x) with [], [] => false | _, _ => true end.

(** persistConn.shouldRetryRequest *)
Definition tries_again (x : up_request) (y : try) : bool :=
  y_reused y &&
  match y_fate y with
  | Unwritten => true
  | ReadFailed | ClosedIdle => replayable x
  | Replied | Failed => false
  end.

(** Transport.roundTrip: the connections tried, if it ends with the last of them *)
Fixpoint trip (x : up_request) (ys : list try) : bool :=
  match ys with
  | [] => false
  | [y] => negb (tries_again x y)
  | y :: ys' => tries_again x y && trip x ys'
  end.

(** * Answers *)

(** persistConn.readLoop: the answer that the client hands over.  If it was the transport that asked for gzip, coded
    bodies are decoded on reading, and the handler does not learn that they were; [gunzip] is compress/gzip, without a
    result where it reports an error, which the handler sees as a body that cannot be read.  An empty body without Content-Length, of which only the headers
    would change, is left alone here. *)
Definition taken (gunzip : string -> option string) (x : up_request) (rs : up_response) (body : string) : option (up_response * string) :=
  if asks_gzip x && equal_fold (get content_encoding_key (ur_header rs)) "gzip" && negb (String.eqb body "") then
    match gunzip body with
    | Some s => Some (UpResp (ur_status rs) (filter (fun p => negb (existsb (String.eqb (fst p)) [content_encoding_key; content_length_key])) (ur_header rs)), s)
    | None => None
    end
  else Some (rs, body).
