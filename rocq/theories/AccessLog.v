(** The line logged for every response: proxyhandler.go:308-343, with proxy.go:67-69 (print),
    284-317 (what is read from the request) and 434-446 (contentEncoding).

    Simplification.  Elapsed times are left out.  The fields of the current attempt that follow the
    content encoding in the line are read together with the last of what contentEncoding reads. *)
From Coq Require Import String Ascii List Bool ZArith NArith.
From Verif Require Import GoStr Header Iprex Json Policy Config Routing Exchange Jwt Machine Handler.
Import ListNotations.
Local Open Scope string_scope.

(** What else the code reads of http.Request: URL.EscapedPath(), RemoteAddr, the HTTP version and, on
    a TLS connection, its version. *)
Record wire := Wire { x_path : string; x_addr : string; x_major : Z; x_minor : Z; x_tls : option Z }.

(** proxy.go:288-294 *)
Definition user_agent (q : request) : string :=
  let ua := get "User-Agent" (q_header q) in if String.eqb ua "" then "unknown" else ua.

(** proxy.go:296-298 *)
Definition http_version (x : wire) : string := itoa_Z (x_major x) ++ "." ++ itoa_Z (x_minor x).

(** proxy.go:305-317; 0x0303 and 0x0304 are tls.VersionTLS12 and tls.VersionTLS13. *)
Definition tls_version (x : wire) : string :=
  match x_tls x with
  | None => "none"
  | Some v => if Z.eqb v 771 then "TLS1.2" else if Z.eqb v 772 then "TLS1.3" else "unknown"
  end.

(** The part about the last attempt, proxyhandler.go:333-340; [ue_count] is upAtmpt. *)
Record up_entry := UpEntry { ue_uri : string; ue_label : string; ue_status : Z; ue_abort : bool; ue_count : string }.

(** A line; the message of the line is fixed by its level. *)
Record entry := Entry {
  l_warn : bool; l_text : string; l_error : option string; l_path : string; l_addr : string; l_method : string;
  l_agent : string; l_http : string; l_status : Z; l_encoding : string; l_id : string; l_tls : option string;
  l_up : option up_entry }.

(** proxyhandler.go:308-343 *)
Definition log_entry (E : env) (x : wire) (q : request) (w : down) (status : Z) (message encoding : string) (up : option up_entry) : entry :=
  let bad := Z.gtb status 399 in
  Entry bad (if bad then "downstream error response served" else "downstream response served")
        (if bad then Some message else None)
        (x_path x) (extract_addr (x_addr x)) (w_method w) (user_agent q) (http_version x) status encoding (w_id w)
        (if e_tls E then Some (tls_version x) else None) up.

(** contentEncoding (proxy.go:434-446) before any attempt *)
Definition no_attempt_encoding (send_gzip : bool) : string := if send_gzip then "gzip" else "identity".

(** * Lines of requests that are not passed on *)

(** responses.go:154-184: [w_send_gzip] has been reset by setOutgoing. *)
Definition about_entry (E : env) (x : wire) (fresh : string) (q : request) : entry :=
  log_entry E x q (parse_incoming E fresh q) 200 "ok" (no_attempt_encoding false) None.

(** What proxyHandler decides, with the status and message of an answer and the label of an attempt;
    [Handler.proxy_handler] is the same with the response (AccessLogProofs.decided). *)
Inductive decision := Refuse (status : Z) (message : string) | Attempt (c : conf) (label : string) | Burst.

(** proxyhandler.go:33-76 *)
Definition decide (E : env) (L : library) (new_request : string -> string -> bool) (cfg : config jwt) (ch : chance) (q : request) : decision :=
  let w := parse_incoming E (ch_fresh ch) q in
  if negb (validate w) then
    if w_too_large w then Refuse 413 ("http request entity too large, limit is " ++ itoa_Z (e_max_body E) ++ " bytes")
    else Refuse 400 "bad or malformed request"
  else
    match select_route (c_routes cfg) (q_raw_uri q) with
    | None => Refuse 404 "upstream resource not found"
    | Some r =>
        match (if has_jwt r then check_jwt L cfg (ch_now ch) r (get "Authorization" (q_header q)) else Valid) with
        | Crash => Burst
        | Invalid => Refuse 401 "jwt bearer token missing, invalid, expired or unauthorized"
        | Valid =>
            match map_url (ch_label ch) cfg r with
            | MapPanic => Burst
            | Unmapped => Refuse 503 "unable to map upstream resource"
            | Mapped u label =>
                let uri := resolve_upstream_uri r u (w_uri w) in
                Attempt (Conf E w (scaffold_request w uri) (new_request (w_method w) uri) (up_max_attempts (c_up cfg))) label
            end
        end
    end.

(** server.go:237 with Resp.Message as left by server.go:226-229 *)
Definition refusal_entry (E : env) (x : wire) (q : request) (w : down) (status : Z) (message : string) : entry :=
  log_entry E x q w status (status_message status message) (no_attempt_encoding (w_send_gzip w)) None.

(** * Lines of requests with attempts *)

(** Resp.Message once the step of the handler from [s] is made, if that step writes the response:
    server.go:226-229, proxy.go:487, proxyhandler.go:95-99. *)
Definition message_of (s : state) : option string :=
  match s_pc s with
  | PErr => Some (status_message (a_status (cur s)) "none")
  | PBuild StWrite _ _ => Some "none"
  | PFin1 => if dwn_aborted s then Some "gateway timeout triggered by downstream event" else None
  | PFin2 => Some (if up_aborted s then "gateway timeout triggered by upstream attempt"
                   else "bad gateway triggered. unable to process upstream response")
  | _ => None
  end.

(** proxy.go:434-446 in its three steps; the result of the last of them *)
Definition encoding_of (c : conf) (s : state) : option string :=
  match s_pc s with
  | PLog1 => if w_send_gzip (c_down c) then Some "gzip"
             else match a_resp (cur s) with None => Some "identity" | Some _ => None end
  | PLog2 => if a_gz (cur s) then Some "identity" else None
  | PLog3 => match a_resp (cur s) with
             | None => None
             | Some rs => Some match values content_encoding_key (ur_header rs) with [] => "identity" | ce => join " " ce end
             end
  | _ => None
  end.

(** proxyhandler.go:333-340 with proxy.go:191-193 and 67-69 *)
Definition attempt_entry (c : conf) (label : string) (s : state) : option up_entry :=
  match a_resp (cur s) with
  | None => None
  | Some _ => Some (UpEntry (uq_uri (c_request c)) label (a_status (cur s)) (a_flag (cur s))
                            (itoa_Z (Z.of_nat (S (s_cur s))) ++ "/" ++ itoa_Z (c_max c)))
  end.

(** Runs with the message and the lines logged so far. *)
Record lstate := LSt { ls_state : state; ls_message : string; ls_lines : list entry }.

Section Lines.
  Variable c : conf.
  Variable label : string.
  Variable x : wire.
  Variable q : request.

  Definition line (s : state) (message : string) (encoding : string) : entry :=
    log_entry (c_env c) x q (c_down c) (match s_out s with r :: _ => rp_status r | [] => 0 end) message encoding (attempt_entry c label s).

  Definition lstep (ls : lstate) (l : Machine.label) : option lstate :=
    let s := ls_state ls in
    match step c s l with
    | None => None
    | Some s' =>
        Some (match l with
              | LMain _ =>
                  LSt s' (match message_of s with Some m => m | None => ls_message ls end)
                      (match encoding_of c s with
                       | Some e => ls_lines ls ++ [line s (ls_message ls) e]
                       | None => ls_lines ls
                       end)
              | _ => LSt s' (ls_message ls) (ls_lines ls)
              end)
    end.

  Fixpoint lexec (ls : lstate) (run : list Machine.label) : option lstate :=
    match run with
    | [] => Some ls
    | l :: run' => match lstep ls l with Some ls' => lexec ls' run' | None => None end
    end.
End Lines.

(** No message and no line so far *)
Definition linit : lstate := LSt init "" [].
