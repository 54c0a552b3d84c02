(** What net/http (Go 1.15) takes from a request over HTTP/1 for the response of [h1_write]: shouldClose, Request.wantsClose and
    Request.wantsHttp10KeepAlive of request.go and transfer.go, HeaderValuesContainsToken of golang.org/x/net/http/httpguts.
    The proxy itself does not look at these headers (proxy.go:200-230). *)
From Coq Require Import String Ascii List Bool ZArith NArith.
From Verif Require Import GoStr Header Exchange Http1.
Import ListNotations.
Local Open Scope string_scope.

(** trimOWS *)
Definition ows (c : ascii) : bool := Ascii.eqb c " " || Ascii.eqb c "009".
Fixpoint trim_left (v : string) : string := match v with "" => "" | String c v' => if ows c then trim_left v' else v end.
Fixpoint trim_right (v : string) : string :=
  match v with
  | "" => ""
  | String c v' => let r := trim_right v' in if ows c && String.eqb r "" then "" else String c r
  end.

(** headerValueContainsToken, for a token in capitals *)
Definition contains_token (tok v : string) : bool := existsb (fun e => String.eqb (to_upper (trim_right (trim_left e))) tok) (split "," v).

(** hasToken(v, "keep-alive") of header.go, as [close_token] *)
Fixpoint keep_token (at_start : bool) (v : string) : bool :=
  match v with
  | "" => false
  | String c v' =>
      at_start && String.eqb (to_upper (substring 0 10 v)) "KEEP-ALIVE" && match String.get 10 v with None => true | Some c' => token_boundary c' end
      || keep_token (token_boundary c) v'
  end.

(** The request came over HTTP/1.1 if [v11], else over HTTP/1.0. *)
Definition client_of (v11 unread : bool) (q : request) : h1_client :=
  let conn := values "Connection" (q_header q) in
  let listed tok := existsb (contains_token tok) conn in
  let first := get "Connection" (q_header q) in
  H1Client v11 (listed "CLOSE" || negb v11 && negb (listed "KEEP-ALIVE") || close_token true first) (negb v11 && keep_token true first)
    (String.eqb (q_method q) "HEAD") unread.
