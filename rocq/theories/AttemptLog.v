(** What else happens along a run of [handle]: the response bodies it closes and the lines about attempts
    (scaffoldUpAttemptLog, proxyhandler.go:293-306), which are logged at level trace, or at level debug if the
    client asks for it.

    Simplifications.  Elapsed times are left out.  The lines after a recovered panic (proxyhandler.go:157-167 and
    210-215) are left out: each channel is closed once.  A line belongs to the step of the handler after which it
    is written. *)
From Coq Require Import String Ascii List Bool ZArith NArith.
From Verif Require Import GoStr Header Exchange Machine Startup.
Import ListNotations.
Local Open Scope string_scope.

(** * Bodies *)

(** proxyhandler.go:84-87: the attempt whose response body is closed once [handle] returns or panics.  The
    response has a body, as those of net/http do. *)
Definition deferred (s : state) (l : label) : list nat :=
  match s_pc s, l with
  | PRetHdr, LMain _ => match h_seen (a_h (cur s)) with Some (Some _) => [s_cur s] | _ => [] end
  | _, _ => []
  end.

Fixpoint closed_bodies (c : conf) (s : state) (ls : list label) : list nat :=
  match ls with
  | [] => []
  | l :: ls' => match step c s l with Some s' => (deferred s l ++ closed_bodies c s' ls')%list | None => [] end
  end.

(** * Lines about attempts *)

(** Messages, with the number of seconds (upReadTimeoutSecs) left out and with upAtmptResCode *)
Inductive message :=
| Initialized                     (* proxy.go:360-361 and 386-387 *)
| HeaderTimeout                   (* proxyhandler.go:180-182 *)
| HeaderAborted                   (* proxyhandler.go:186-187 *)
| HeaderProcessed                 (* proxyhandler.go:189-190 *)
| BodyTimeout                     (* proxyhandler.go:226-228 *)
| BodyAborted                     (* proxyhandler.go:232-233 *)
| BodyProcessed                   (* proxyhandler.go:235-236 *)
| PriorAborted                    (* proxy.go:146-147 *)
| Successful (code : Z)           (* proxyhandler.go:345-349 *)
| Unsuccessful (code : option Z)  (* proxyhandler.go:351-357 *)
| RetriesStopped                  (* proxy.go:184-185 *)
| Reencoding | Redecoding | AsIs | EmptyBody. (* proxy.go:412-430 *)

(** A line: X-Request-Id, upAtmpt and the message *)
Record aline := ALine { al_id : string; al_attempt : string; al_message : message }.

(** proxyhandler.go:301-305 with proxy.go:67-69, while the current attempt is number [n], counting from 0 *)
Definition attempt_line (c : conf) (n : nat) (m : message) : aline :=
  ALine (w_id (c_down c)) (itoa_Z (Z.of_nat (S n)) ++ "/" ++ itoa_Z (c_max c)) m.

(** The code that proxyhandler.go:353-355 adds *)
Definition code_of (o : option (option up_response)) : option Z :=
  match o with Some (Some rs) => if Z.gtb (ur_status rs) 0 then Some (ur_status rs) else None | _ => None end.

(** The messages of one step of the handler; [upstreamResponse] is what [h_seen] gives for the current attempt. *)
Definition messages (c : conf) (s : state) (l : label) : list message :=
  match s_pc s, l with
  | PSelHdr, LSel CUp => [HeaderTimeout]
  | PSelHdr, LSel CDwn => (repeat PriorAborted (S (s_cur s)) ++ [HeaderAborted])%list
  | PSelHdr, LSel CComplete => [HeaderProcessed]
  | PSelBody, LSel CUp => [BodyTimeout]
  | PSelBody, LSel CDwn => (repeat PriorAborted (S (s_cur s)) ++ [BodyAborted])%list
  | PSelBody, LSel CComplete => [BodyProcessed]
  | PProc o, LMain _ =>
      match o with
      | Some (Some rs) => if up_aborted s then [Unsuccessful (code_of o)] else []
      | _ => [Unsuccessful None]
      end
  | PCheck1 _ _, LMain _ => if dwn_aborted s then [Unsuccessful (code_of (h_seen (a_h (cur s))))] else []
  | PCheck2 _ _, LMain _ => if up_aborted s then [Unsuccessful (code_of (h_seen (a_h (cur s))))] else []
  | PCheck3 _ ok, LMain _ =>
      match a_resp (cur s) with
      | None => if ok then [] else [Unsuccessful (code_of (h_seen (a_h (cur s))))]
      | Some rs =>
          if ok && Z.ltb (ur_status rs) 500
          then match h_seen (a_h (cur s)) with Some (Some up) => [Successful (ur_status up)] | _ => [] end
          else [Unsuccessful (code_of (h_seen (a_h (cur s))))]
      end
  | PBuild StBody body _, LMain _ =>
      if String.eqb body "" then [EmptyBody]
      else if w_send_gzip (c_down c) && negb (a_gz (cur s)) then [Reencoding]
      else if negb (w_send_gzip (c_down c)) && a_gz (cur s) then [Redecoding]
      else [AsIs]
  | PRetry, LMain _ => if may_retry c s && negb (dwn_aborted s) then [] else [RetriesStopped]
  | _, _ => []
  end.

(** The lines of a step; nextAttempt logs with the new attempt (proxy.go:382-387). *)
Definition step_lines (c : conf) (s : state) (l : label) (s' : state) : list aline :=
  (map (attempt_line c (s_cur s)) (messages c s l) ++
   (if Nat.ltb (s_cur s) (s_cur s') then [attempt_line c (s_cur s') Initialized] else []))%list.

Fixpoint run_lines (c : conf) (s : state) (ls : list label) : list aline :=
  match ls with
  | [] => []
  | l :: ls' => match step c s l with Some s' => (step_lines c s l s' ++ run_lines c s' ls')%list | None => [] end
  end.

(** All lines; the first comes from firstAttempt (proxy.go:357-361). *)
Definition attempt_lines (c : conf) (ls : list label) : list aline :=
  attempt_line c 0 Initialized :: run_lines c init ls.

(** * Level *)

(** ASCII part of strings.ToLower *)
Fixpoint to_lower (s : string) : string :=
  match s with EmptyString => EmptyString | String c s' => String (lower c) (to_lower s') end.

(** proxy.go:300-303 *)
Definition parse_debug (q : request) : bool :=
  let h := get "X-REQUEST-DEBUG" (q_header q) in
  Nat.ltb 0 (String.length h) && String.eqb (to_lower h) "true".

(** proxyhandler.go:294-299 *)
Definition attempt_level (q : request) : verbosity := if parse_debug q then VDebug else VTrace.

(** The lines that leave the process *)
Definition written_lines (h : host) (q : request) (c : conf) (ls : list label) : list aline :=
  if written (log_level h) (attempt_level q) then attempt_lines c ls else [].
