(** How net/http (Go 1.15, server.go) writes the responses of proxy.go:391-440 and 481-497, server.go:214-238 and
    responses.go:154-184 on HTTP/1 connections. *)
From Coq Require Import String Ascii List Bool ZArith NArith.
From Verif Require Import GoStr Header Exchange Http2.
Import ListNotations.
Local Open Scope string_scope.

(** The status, the header lines, the bytes that follow the header, and whether the connection is closed after them *)
Record h1_message := H1Message { h1_status : Z; h1_lines : header; h1_bytes : string; h1_close : bool }.

(** What net/http knows about the request: HTTP/1.1 rather than 1.0, Connection: close, Connection: keep-alive, method HEAD, and
    a body so long that the rest of it is not read *)
Record h1_client := H1Client { hc_11 : bool; hc_close : bool; hc_keep : bool; hc_head : bool; hc_unread : bool }.

(** hasToken(v, "close") of header.go; [at_start] if the byte before is a boundary, or there is none *)
Definition token_boundary (c : ascii) : bool := Ascii.eqb c " " || Ascii.eqb c "," || Ascii.eqb c "009".
Fixpoint close_token (at_start : bool) (v : string) : bool :=
  match v with
  | "" => false
  | String c v' =>
      at_start && String.eqb (to_upper (substring 0 5 v)) "CLOSE" && match String.get 5 v with None => true | Some c' => token_boundary c' end
      || close_token (token_boundary c) v'
  end.

(** %x *)
Definition hex_ascii (n : N) : ascii := ascii_of_N (if N.ltb n 10 then 48 + n else 87 + n).
Fixpoint hex_digits (fuel : nat) (n : N) (acc : string) : string :=
  match fuel with
  | O => acc
  | S fuel' => let acc' := String (hex_ascii (n mod 16)) acc in if N.eqb (n / 16) 0 then acc' else hex_digits fuel' (n / 16) acc'
  end.
Definition hex_text (n : N) : string := hex_digits (S (N.to_nat n)) n "".

Definition crlf : string := String "013" (String "010" "").

(** chunkWriter.Write and chunkWriter.close without trailers, which only responses that the handler sized can have: see
    [h1_write].  The whole body is one chunk: it is written at once. *)
Definition chunks (p : string) : string :=
  (if String.eqb p "" then "" else hex_text (N.of_nat (String.length p)) ++ crlf ++ p ++ crlf) ++ "0" ++ crlf ++ crlf.

(** response.WriteHeader, response.write, chunkWriter.writeHeader and response.shouldReuseConnection for a handler that
    sets headers, writes a status and the whole body, if any, and returns.  [sniff] is http.DetectContentType, [now] the text of the
    time.  Bodies of more than 2048 bytes reach the chunkWriter before the handler has ended.  Not modelled: header names
    that begin with Trailer: (names have no colon), the reset of closeAfterReply for a client of HTTP/1.0 that keeps the
    connection (it is only set before together with the header Connection: close), Server.SetKeepAlivesEnabled and
    shutdown, which the proxy does not use. *)
Definition h1_write (sniff : string -> string) (now : string) (c : h1_client) (r : response) : h1_message :=
  let h := rp_header r in
  let code := rp_status r in
  let allowed := body_allowed code in
  let te := get "Transfer-Encoding" h in
  let has_te := negb (String.eqb te "") in
  let declared := get "Content-Length" h in
  let announced := match atoi declared with Some z => if Z.leb 0 z then Some z else None | None => None end in
  let written := if allowed then zlen (rp_body r) else 0%Z in
  let p := if negb allowed || match announced with Some z => Z.ltb z written | None => false end then "" else rp_body r in
  let counted := Z.leb (zlen p) 2048 && match values "Trailer" h with [] => true | _ => false end && negb has_te && allowed &&
                 String.eqb declared "" && (negb (hc_head c) || negb (String.eqb p "")) in
  let has_cl := match announced with Some _ => true | None => counted end in
  let kept := hc_keep c && negb (hc_11 c) && (hc_head c || has_cl || negb allowed) in
  let close1 := (if kept then false else negb (hc_11 c) || hc_close c) || String.eqb (get "Connection" h) "close" || hc_unread c in
  let ctype := if allowed && String.eqb (get "Content-Encoding" h) "" && match values "Content-Type" h with [] => true | _ => false end &&
                  negb has_te && negb (String.eqb p "") then sniff p else "" in
  let date := match values "Date" h with [] => now | _ => "" end in
  let sized := has_cl && negb (has_te && negb (String.eqb te "identity")) in
  let unsized := negb (hc_head c) && allowed && negb sized in
  let chunking := unsized && hc_11 c && negb (String.eqb te "identity") in
  let close2 := close1 || unsized && negb chunking in
  let told := close2 && negb (close_token true (get "Connection" h)) in
  let dropped :=
    ((if allowed then [] else if Z.eqb code 304 then ["Content-Type"; "Content-Length"; "Transfer-Encoding"] else ["Content-Length"; "Transfer-Encoding"]) ++
     (if has_cl && negb sized || chunking then ["Content-Length"] else []) ++
     (if negb (hc_head c) && allowed && sized || chunking && String.eqb te "chunked" || unsized && negb (hc_11 c) then ["Transfer-Encoding"] else []) ++
     (if told then ["Connection"] else []))%list in
  let line k (v : string) := if String.eqb v "" then [] else [(k, v)] in
  H1Message code
    (filter (fun q => negb (existsb (String.eqb (fst q)) dropped)) h ++
     line "Date" date ++ line "Content-Length" (if counted then itoa_Z (zlen p) else "") ++ line "Content-Type" ctype ++
     line "Connection" (if told && hc_11 c then "close" else if kept && match values "Connection" h with [] => true | _ => false end then "keep-alive" else "") ++
     line "Transfer-Encoding" (if chunking then "chunked" else ""))%list
    (if hc_head c then "" else if chunking then chunks p else p)
    (close2 || negb (hc_head c) && allowed && match announced with Some z => negb (Z.eqb z written) | None => false end).
