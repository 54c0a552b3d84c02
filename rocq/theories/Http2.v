(** HTTP/2, which net/http (Go 1.15) speaks with clients in TLS mode without being told to: server.go:100-122 sets no
    TLSNextProto and uses ListenAndServeTLS.  What its http2 server makes of the responses the handler writes. *)
From Coq Require Import String Ascii List Bool ZArith NArith.
From Verif Require Import GoStr Header Exchange Startup.
Import ListNotations.
Local Open Scope string_scope.

(** * Whether HTTP/2 is offered *)

(** http2.ConfigureServer, called by ListenAndServeTLS, for the suites of server.go:199-207; [bad] is isBadCipher, RFC
    7540 appendix A.  An error makes ListenAndServeTLS fail. *)
Fixpoint suites_in_order (bad : Z -> bool) (saw_bad : bool) (suites : list Z) : bool :=
  match suites with
  | [] => true
  | s :: suites' => if bad s then suites_in_order bad true suites' else negb saw_bad && suites_in_order bad saw_bad suites'
  end.
Definition configure_http2 (bad : Z -> bool) (suites : list Z) : bool :=
  suites_in_order bad false suites && existsb (fun s => Z.eqb s 49199 || Z.eqb s 49195) suites.

(** * Responses *)

(** The fields of the HEADERS frame in order, the bytes in DATA frames, and whether the connection is wound down: a
    GOAWAY frame is sent, and the connection is closed once its streams have ended.  Not modelled: the block of
    trailers after a response with a Trailer header, which repeats fields. *)
Record h2_message := H2Message { hm_fields : list (string * string); hm_data : string; hm_goaway : bool }.

(** lowerHeader, for ASCII.  Two letters beyond it, the Kelvin sign and the dotted I, have lower case letters in it;
    names with them are left out here, as are all others beyond ASCII. *)
Fixpoint lower_text (s : string) : string := match s with EmptyString => "" | String c s' => String (lower c) (lower_text s') end.

(** validWireHeaderFieldName *)
Definition wire_name (k : string) : bool :=
  negb (String.eqb k "") && all_chars (fun c => token_char c && negb (N_in 65 90 (N_of_ascii c))) k.

(** httpguts.ValidHeaderFieldValue: no control characters but tabs *)
Definition wire_value (v : string) : bool :=
  all_chars (fun c => let n := N_of_ascii c in N.eqb n 9 || negb (N.ltb n 32 || N.eqb n 127)) v.

(** encodeHeaders; keys are sorted there *)
Definition encode_headers (h : header) : list (string * string) :=
  concat (map (fun p =>
    let k := lower_text (fst p) in
    if wire_name k && wire_value (snd p) && negb (String.eqb k "transfer-encoding" && negb (String.eqb (snd p) "trailers"))
    then [(k, snd p)] else []) h).

Definition without_key (k : string) (h : header) : header := filter (fun p => negb (String.eqb (fst p) k)) h.

(** bodyAllowedForStatus *)
Definition body_allowed (status : Z) : bool := negb (Z.leb 100 status && Z.leb status 199 || Z.eqb status 204 || Z.eqb status 304).

(** responseWriterState.writeHeader and writeChunk and writeResHeaders, for a handler that writes a status from 100 to
    999, then the body at once, if any, and returns.  Bodies of more than 4096 bytes are written before the handler
    has ended.  [sniff] is http.DetectContentType, [now] the text of the time.  The header Connection: close that net/http
    adds over HTTP/1 for bodies over the limit (see [parse_body]) is not added over HTTP/2. *)
Definition h2_write (sniff : string -> string) (now : string) (head : bool) (r : response) : h2_message :=
  let h := rp_header r in
  let allowed := body_allowed (rp_status r) in
  let p := if allowed then rp_body r else "" in
  let declared := get "Content-Length" h in
  let valid := match atoi declared with Some z => Z.leb 0 z | None => false end in
  let clen :=
    if negb (String.eqb declared "") && valid then declared
    else if Nat.leb (String.length p) 4096 && allowed && (negb (String.eqb p "") || negb head) then itoa (N.of_nat (String.length p))
    else "" in
  let h1 := if String.eqb declared "" then h else without_key "Content-Length" h in
  let ctype :=
    match values "Content-Type" h with
    | [] => if String.eqb (get "Content-Encoding" h) "" && allowed && negb (String.eqb p "") then sniff p else ""
    | _ => ""
    end in
  let date := match values "Date" h with [] => now | _ => "" end in
  let some_field k v := if String.eqb v "" then [] else [(k, v)] in
  H2Message
    ([(":status", itoa_Z (rp_status r))] ++ encode_headers (without_key "Connection" h1) ++
     some_field "content-type" ctype ++ some_field "content-length" clen ++ some_field "date" date)%list
    (if head then "" else p)
    (String.eqb (get "Connection" h) "close").
