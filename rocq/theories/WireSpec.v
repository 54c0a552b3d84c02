(** What C127 to C129 mean. *)
From Coq Require Import String Ascii List Bool ZArith NArith.
From Verif Require Import GoStr Header Exchange Machine Handler HandlerSpec SystemSpec Url UrlSpec Wire.
Import ListNotations.
Local Open Scope string_scope.

(** The lines with which an upstream gets a request *)
Definition gets_lines (t : setting) (x : up_request) (h : header) : Prop := asks t x /\ wire_header x = Some h.

(** The values of the lines with a name, whatever the case of its letters *)
Definition field (k : string) (h : header) : list string := map snd (filter (fun p => String.eqb (to_upper (fst p)) (to_upper k)) h).

(** The end of a message without chunks (RFC 7230 section 3.3.3): its length is in its only Content-Length, or there is
    no body. *)
Definition framed (h : header) (body : string) : Prop :=
  field "Transfer-Encoding" h = [] /\
  (field "Content-Length" h = [itoa (N.of_nat (String.length body))] \/ field "Content-Length" h = [] /\ body = "").

(** What a gateway changes: framing, the host, its own id, and Date and Server, which C22 is about *)
Definition rewritten : list string := ["Host"; "Content-Length"; "Transfer-Encoding"; "Trailer"; "X-Request-Id"; "Date"; "Server"].

(** The User-Agent and the codings that an upstream is told *)
Definition told_agent (vs : list string) (agent : list string) : Prop :=
  match vs with [] => agent = ["Go-http-client/1.1"] | v :: _ => (v = "" -> agent = []) /\ (v <> "" -> agent = [v]) end.
Definition no_value (vs : list string) : Prop := match vs with [] => True | v :: _ => v = "" end.
Definition open_to_gzip (t : setting) : Prop :=
  no_value (values "Accept-Encoding" (q_header (t_req t))) /\ no_value (values "Range" (q_header (t_req t))) /\ to_upper (q_method (t_req t)) <> "HEAD".

(** The copies of a request that may have reached a server, for the connections tried *)
Definition reaches (y : try) : nat := match y_fate y with Unwritten => 0 | _ => 1 end.
Definition copies (ys : list try) : nat := list_sum (map reaches ys).

(** The connections tried for the attempts of a request *)
Definition tried (t : setting) (yss : list (list try)) : Prop := exists xs, sends t xs /\ Forall2 (fun x ys => trip x ys = true) xs yss.
Definition all_copies (yss : list (list try)) : nat := list_sum (map copies yss).

(** Connections from the pool that failed after something had been written *)
Definition lost (y : try) : nat := if y_reused y then match y_fate y with ReadFailed | ClosedIdle => 1 | _ => 0 end else 0.
Definition all_lost (yss : list (list try)) : nat := list_sum (map (fun ys => list_sum (map lost ys)) yss).

(** The client calls the request repeatable. *)
Definition keyed (h : header) : Prop := values "Idempotency-Key" h <> [] \/ values "X-Idempotency-Key" h <> [].

(** The request gets response [r] after an upstream has answered its last attempt with [rs] and [body], as they are
    on the wire. *)
Definition delivered (dec : string -> string -> option string) (t : setting) (r : response) (rs : up_response) (body : string) : Prop :=
  exists x rs' body', asks t x /\ taken (dec "gzip") x rs body = Some (rs', body') /\ relayed t r rs' body'.
