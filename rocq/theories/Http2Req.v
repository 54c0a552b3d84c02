(** How net/http (Go 1.15, h2_bundle.go) reads the requests of HTTP/2 connections, which the servers of server.go:89-105
    offer in TLS mode (see [configure_http2]), and the first line that its client writes for the requests of
    proxyhandler.go:119-122.  Not modelled: flow control, priorities, trailers and the limit on the size of all fields. *)
From Coq Require Import String Ascii List Bool ZArith NArith.
From Verif Require Import GoStr Header Exchange Handler Url Http2.
Import ListNotations.
Local Open Scope string_scope.

(** What a client sends on a stream: fields, whether the stream ended with them, frames of data otherwise, and whether the stream
    was ended after them rather than reset *)
Record h2_sent := H2Sent { hs_fields : list (string * string); hs_ended : bool; hs_frames : list string; hs_complete : bool }.

(** What becomes of it: the stream is reset, net/http answers 400, or the handler is called *)
Inductive h2_fate := H2Reset | H2Bad | H2Served (i : incoming).

(** MetaHeadersFrame.PseudoFields and RegularFields *)
Fixpoint split_fields (l : list (string * string)) : list (string * string) * list (string * string) :=
  match l with
  | p :: l' => if String.prefix ":" (fst p) then let (a, b) := split_fields l' in (p :: a, b) else ([], l)
  | [] => ([], [])
  end.

(** Framer.readMetaFrame and checkPseudos.  The pseudo-field :status is let through there, but a request with it is refused
    because it is mixed with others or because :method is missing. *)
Definition valid_fields (l : list (string * string)) : bool :=
  let (pseudo, regular) := split_fields l in
  forallb (fun p => wire_value (snd p)) l && forallb (fun p => wire_name (fst p)) regular &&
  forallb (fun p => existsb (String.eqb (fst p)) [":method"; ":path"; ":scheme"; ":authority"]) pseudo && distinct (map fst pseudo).

(** MetaHeadersFrame.PseudoValue *)
Definition pseudo_value (k : string) (l : list (string * string)) : string :=
  match List.find (fun p => String.eqb (fst p) k) (fst (split_fields l)) with Some p => snd p | None => "" end.

(** strconv.ParseUint and ParseInt in base 10 for 64 bits: the value, whatever the error *)
Fixpoint uint_from (n : Z) (s : string) : Z :=
  match s with
  | "" => n
  | String c s' =>
      match digit_val c with
      | None => 0
      | Some d => let n' := (n * 10 + d)%Z in if Z.ltb 18446744073709551615 n' then 18446744073709551615%Z else uint_from n' s'
      end
  end.
Definition parse_int (s : string) : Z :=
  let (neg, r) := match s with
                  | String c s' => if Ascii.eqb c "-" then (true, s') else if Ascii.eqb c "+" then (false, s') else (false, s)
                  | "" => (false, "")
                  end in
  let n := uint_from 0 r in
  if neg then if Z.ltb 9223372036854775808 n then (-9223372036854775808)%Z else (- n)%Z
  else if Z.leb 9223372036854775808 n then 9223372036854775807%Z else n.

(** serverConn.processData and stream.endStream: the data a handler reads if [declared] bytes were announced (-1 if none
    were), and whether it then finds the end *)
Fixpoint receive (declared got : Z) (frames : list string) (complete : bool) : string * bool :=
  match frames with
  | [] => ("", complete && (Z.eqb declared (-1) || Z.eqb declared got))
  | f :: frames' =>
      let got' := (got + Z.of_nat (String.length f))%Z in
      if negb (Z.eqb declared (-1)) && Z.ltb declared got' then ("", false)
      else let (d, ok) := receive declared got' frames' complete in (f ++ d, ok)
  end.

(** serverConn.newWriterAndRequest and newWriterAndRequestNoBody: the fields of the request *)
Definition h2_header (regular : list (string * string)) : header :=
  let h := map (fun p => (canon (fst p), snd p)) regular in
  let h1 := if String.eqb (get "Expect" h) "100-continue" then without_key "Expect" h else h in
  let h2 := match values "Cookie" h1 with _ :: _ :: _ => set "Cookie" (join "; " (values "Cookie" h1)) h1 | _ => h1 end in
  without_key "Trailer" h2.

(** checkValidHTTP2RequestHeaders *)
Definition h2_acceptable (h : header) : bool :=
  forallb (fun k => match values k h with [] => true | _ => false end) ["Connection"; "Keep-Alive"; "Proxy-Connection"; "Transfer-Encoding"; "Upgrade"] &&
  match values "Te" h with [] => true | [v] => String.eqb v "trailers" || String.eqb v "" | _ => false end.

(** The URL and RequestURI of a request *)
Definition h2_target (method path authority : string) : option (gourl * string) :=
  if String.eqb method "CONNECT" then Some (GoUrl "" "" false authority "" "" false "", authority)
  else option_map (fun g => (g, path)) (parse_go true path).

(** serverConn.processHeaders and newWriterAndRequest *)
Definition h2_read (s : h2_sent) : h2_fate :=
  let l := hs_fields s in
  let method := pseudo_value ":method" l in
  let scheme := pseudo_value ":scheme" l in
  let authority := pseudo_value ":authority" l in
  let path := pseudo_value ":path" l in
  if negb (valid_fields l) then H2Reset
  else if (if String.eqb method "CONNECT" then negb (String.eqb path "") || negb (String.eqb scheme "") || String.eqb authority ""
           else String.eqb method "" || String.eqb path "" || negb (String.eqb scheme "https") && negb (String.eqb scheme "http"))
  then H2Reset
  else if String.eqb method "HEAD" && negb (hs_ended s) then H2Reset
  else
    let h := h2_header (snd (split_fields l)) in
    match h2_target method path authority with
    | None => H2Reset
    | Some (g, raw) =>
        if negb (h2_acceptable h) then H2Bad
        else
          let len := if hs_ended s then 0%Z else match values "Content-Length" h with [] => (-1)%Z | v :: _ => parse_int v end in
          let (data, ok) := if hs_ended s then ("", true) else receive len 0 (hs_frames s) (hs_complete s) in
          H2Served (Incoming (Req method raw (request_uri g) h len data ok) (g_path g))
    end.

(** Request.write: the first line.  The case of CONNECT with an empty path does not occur: URLs of upstreams end in the
    URI of a request, unless a transform shortens them (see [resolve_upstream_uri]). *)
Definition wire_line (x : up_request) : option string :=
  match wire_target (uq_uri x) with
  | Some w => if has_ctl w then None else Some (uq_method x ++ " " ++ w ++ " HTTP/1.1")
  | None => None
  end.
