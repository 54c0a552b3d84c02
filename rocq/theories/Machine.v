(** One request on its way through [handle] (proxyhandler.go:83-282), as a state machine: the handler
    itself, two goroutines for each upstream attempt, and the timers.  A step is one access to the
    state they share, so every interleaving of these accesses is a run.

    Simplifications.  The shared fields are read and written atomically and in program order, which
    Go does not promise for data races.  [nextAttempt] (proxy.go:366-389) is one step: an access that
    falls in the middle of it either uses the old attempt, whose fields are not read again, or the
    new one.  The two results of [httpClient.Do] become visible together (they are never both nil or
    both non-nil, since redirects are not followed, httpclient.go:44-46).  Logging is left out except
    where it can panic. *)
From Coq Require Import String Ascii List Bool ZArith NArith.
From Verif Require Import GoStr Header Exchange.
Import ListNotations.
Local Open Scope string_scope.

(** First goroutine of an attempt, proxyhandler.go:153-172: not started, waiting for [Do], results
    visible to the handler, response stored, finished.  The response is [None] for an error. *)
Inductive h_phase :=
| HIdle | HDoing | HGot (o : option up_response) | HSet (o : option up_response) | HEnd (o : option up_response).

(** The variables upstreamResponse and upstreamError of performUpstreamRequest
    (proxyhandler.go:150-151); [None] while both are nil. *)
Definition h_seen (p : h_phase) : option (option up_response) :=
  match p with HIdle | HDoing => None | HGot o | HSet o | HEnd o => Some o end.

(** Second goroutine, proxyhandler.go:203-221: not started, about to store the status, reading the
    body, body (and whether reading it succeeded) visible to the handler, gzip flag stored, finished. *)
Inductive b_phase :=
| BIdle | BStart (rs : up_response) | BReading | BGot (body : string) (ok : bool)
| BFlag (body : string) (ok : bool) | BEnd (body : string) (ok : bool).

(** The variables upstreamResponseBody and bodyError (proxyhandler.go:197-198); nil and nil at first. *)
Definition b_seen (p : b_phase) : option (string * bool) :=
  match p with BIdle | BStart _ | BReading => None | BGot b ok | BFlag b ok | BEnd b ok => Some (b, ok) end.

(** Atmpt (proxy.go:51-65).  [a_ctx] tells whether the channel Aborted is closed, [a_hdr] and [a_bdy]
    whether CompleteHeader and CompleteBody are. *)
Record att := Att {
  a_resp : option up_response; a_status : Z; a_gz : bool; a_flag : bool; a_ctx : bool;
  a_hdr : bool; a_bdy : bool; a_h : h_phase; a_b : b_phase }.

Definition with_resp o a := Att o (a_status a) (a_gz a) (a_flag a) (a_ctx a) (a_hdr a) (a_bdy a) (a_h a) (a_b a).
Definition with_status z a := Att (a_resp a) z (a_gz a) (a_flag a) (a_ctx a) (a_hdr a) (a_bdy a) (a_h a) (a_b a).
Definition with_gz g a := Att (a_resp a) (a_status a) g (a_flag a) (a_ctx a) (a_hdr a) (a_bdy a) (a_h a) (a_b a).
Definition with_flag f a := Att (a_resp a) (a_status a) (a_gz a) f (a_ctx a) (a_hdr a) (a_bdy a) (a_h a) (a_b a).
Definition with_ctx x a := Att (a_resp a) (a_status a) (a_gz a) (a_flag a) x (a_hdr a) (a_bdy a) (a_h a) (a_b a).
Definition with_hdr x a := Att (a_resp a) (a_status a) (a_gz a) (a_flag a) (a_ctx a) x (a_bdy a) (a_h a) (a_b a).
Definition with_bdy x a := Att (a_resp a) (a_status a) (a_gz a) (a_flag a) (a_ctx a) (a_hdr a) x (a_h a) (a_b a).
Definition with_h p a := Att (a_resp a) (a_status a) (a_gz a) (a_flag a) (a_ctx a) (a_hdr a) (a_bdy a) p (a_b a).
Definition with_b p a := Att (a_resp a) (a_status a) (a_gz a) (a_flag a) (a_ctx a) (a_hdr a) (a_bdy a) (a_h a) p.

(** proxy.go:344-355 and 367-381 *)
Definition new_att : att := Att None 0 false false false false false HIdle BIdle.

(** While a response is put together, what is read next from the attempt; see [draft]. *)
Inductive stage := StHeader | StStatus | StBody | StLength | StEnc1 | StEnc2 | StEnc3 | StWrite.

(** Where the handler is. *)
Inductive pc :=
| PStart                                  (* performUpstreamRequest, proxyhandler.go:146 *)
| PSelHdr                                 (* select, proxyhandler.go:175 *)
| PRetHdr                                 (* return, proxyhandler.go:193 *)
| PProc (o : option (option up_response)) (* processUpstreamResponse, proxyhandler.go:244 *)
| PSelBody                                (* select, proxyhandler.go:223 *)
| PRetBody                                (* return, proxyhandler.go:239 *)
| PCheck1 (body : string) (ok : bool)     (* hasDownstreamAborted, proxyhandler.go:278 *)
| PCheck2 (body : string) (ok : bool)     (* hasUpstreamAttemptAborted, proxyhandler.go:279 *)
| PCheck3 (body : string) (ok : bool)     (* bodyError and resp.StatusCode, proxyhandler.go:280-281 *)
| PKind (body : string)                   (* isUpstreamClientError, proxyhandler.go:251 *)
| PErr                                    (* proxyhandler.go:252-253 *)
| PBuild (st : stage) (body : string) (d : draft) (* proxyhandler.go:255-262 *)
| PRetry                                  (* shouldRetryUpstreamAttempt, proxyhandler.go:90 *)
| PFin1                                   (* hasDownstreamAborted, proxyhandler.go:94 *)
| PFin2                                   (* hasUpstreamAttemptAborted, proxyhandler.go:96 *)
| PLog1 | PLog2 | PLog3                   (* contentEncoding for the log, proxyhandler.go:324 *)
| PDone                                   (* handle has returned *)
| PPanic.                                 (* handle has panicked; net/http drops the connection *)

(** [s_att] maps attempt numbers to attempts (proxy.Up.Atmpts); proxy.Up.Atmpt is number [s_cur].
    [s_dwn] tells whether the channel Dwn.Aborted is closed, [s_flag] is Dwn.AbortedFlag. *)
Record state := St {
  s_att : nat -> att; s_cur : nat; s_dwn : bool; s_flag : bool; s_pc : pc;
  s_sent : list up_request; s_out : list response }.

(** What a request brings along: the upstream request (with [c_ok] false if
    http.NewRequestWithContext rejects it) and maxAttempts. *)
Record conf := Conf { c_env : env; c_down : down; c_request : up_request; c_ok : bool; c_max : Z }.

(** proxy.go:343-364 *)
Definition init : state := St (fun _ => new_att) 0 false false PStart [] [].

Definition upd (i : nat) (f : att -> att) (m : nat -> att) : nat -> att :=
  fun j => if Nat.eqb j i then f (m j) else m j.

Definition cur (s : state) : att := s_att s (s_cur s).
Definition go (p : pc) (s : state) : state :=
  St (s_att s) (s_cur s) (s_dwn s) (s_flag s) p (s_sent s) (s_out s).
Definition with_atts (m : nat -> att) (s : state) : state :=
  St m (s_cur s) (s_dwn s) (s_flag s) (s_pc s) (s_sent s) (s_out s).
Definition with_s_flag (b : bool) (s : state) : state :=
  St (s_att s) (s_cur s) (s_dwn s) b (s_pc s) (s_sent s) (s_out s).
Definition at_cur (f : att -> att) (s : state) : state := with_atts (upd (s_cur s) f (s_att s)) s.
Definition write (r : response) (s : state) : state :=
  St (s_att s) (s_cur s) (s_dwn s) (s_flag s) (s_pc s) (s_sent s) (s_out s ++ [r]).

(** proxy.go:115-127; the returned value and the new state. *)
Definition dwn_aborted (s : state) : bool := s_dwn s || s_flag s.
Definition check_dwn (s : state) : state := with_s_flag (dwn_aborted s) s.

(** proxy.go:152-160 *)
Definition up_aborted (s : state) : bool := a_ctx (cur s) || a_flag (cur s).
Definition check_up (s : state) : state := at_cur (with_flag (up_aborted s)) s.

(** proxy.go:163-189 before the check of the downstream timer.  Atmpt.Count is the number of the
    attempt, counting from one. *)
Definition may_retry (c : conf) (s : state) : bool :=
  mem_str (w_method (c_down c)) repeatable_methods && Z.ltb (Z.of_nat (S (s_cur s))) (c_max c).

(** http.ResponseWriter.WriteHeader panics for other codes. *)
Definition valid_code (z : Z) : bool := Z.leb 100 z && Z.leb z 999.

Definition nil_response : up_response := UpResp 0 [].
Definition new_draft : draft := Draft nil_response 0 false nil_response false nil_response.

(** Whether setContentLengthHeader looks at the response (proxy.go:456-468). *)
Definition looks_at_length (E : env) (w : down) (d : draft) : bool :=
  let h := copy_headers (ur_header (df_headers d)) (standard_headers E w (w_header w)) in
  negb (negb (String.eqb (get transfer_encoding_key h) "") || Z.eqb (df_status d) 204 ||
        (Z.leb 100 (df_status d) && Z.ltb (df_status d) 200) || String.eqb (w_method w) "CONNECT") &&
  String.eqb (w_method w) "HEAD".

(** Steps of the handler other than its two selects.  [dice] is the random number used if a JSON
    document is written. *)
Definition main_step (c : conf) (dice : nat) (s : state) : option state :=
  let E := c_env c in
  let w := c_down c in
  let a := cur s in
  let panic := Some (go PPanic s) in
  match s_pc s with
  | PStart =>
      if c_ok c
      then Some (St (upd (s_cur s) (with_h HDoing) (s_att s)) (s_cur s) (s_dwn s) (s_flag s) PSelHdr
                    (s_sent s ++ [c_request c]) (s_out s))
      else panic
  | PRetHdr => Some (go (PProc (h_seen (a_h a))) s)
  | PProc o =>
      match o with
      | Some (Some rs) =>
          let s1 := check_up s in
          if up_aborted s then Some (go PRetry s1)
          else Some (go PSelBody (at_cur (with_b (BStart rs)) s1))
      | _ => Some (go PRetry s)
      end
  | PRetBody =>
      let (body, ok) := match b_seen (a_b a) with Some bo => bo | None => ("", true) end in
      Some (go (PCheck1 body ok) s)
  | PCheck1 body ok => Some (go (if dwn_aborted s then PRetry else PCheck2 body ok) (check_dwn s))
  | PCheck2 body ok => Some (go (if up_aborted s then PRetry else PCheck3 body ok) (check_up s))
  | PCheck3 body ok =>
      if negb ok then Some (go PRetry s)
      else match a_resp a with
           | None => panic
           | Some rs => Some (go (if Z.ltb (ur_status rs) 500 then PKind body else PRetry) s)
           end
  | PKind body => Some (go (if client_error (a_status a) then PErr else PBuild StHeader body new_draft) s)
  | PErr =>
      if valid_code (a_status a) then Some (go PLog1 (write (send_status E dice w (a_status a) "none") s)) else panic
  | PBuild StHeader body d =>
      match a_resp a with
      | None => panic
      | Some rs => Some (go (PBuild StStatus body (Draft rs (df_status d) (df_gz_body d) (df_length d) (df_gz_header d) (df_encoding d))) s)
      end
  | PBuild StStatus body d =>
      Some (go (PBuild StBody body (Draft (df_headers d) (a_status a) (df_gz_body d) (df_length d) (df_gz_header d) (df_encoding d))) s)
  | PBuild StBody body d =>
      Some (go (PBuild StLength body (Draft (df_headers d) (df_status d) (a_gz a) (df_length d) (df_gz_header d) (df_encoding d))) s)
  | PBuild StLength body d =>
      match a_resp a with
      | None => if looks_at_length E w d then panic else Some (go (PBuild StEnc1 body d) s)
      | Some rs => Some (go (PBuild StEnc1 body (Draft (df_headers d) (df_status d) (df_gz_body d) rs (df_gz_header d) (df_encoding d))) s)
      end
  | PBuild StEnc1 body d =>
      if w_send_gzip w || String.eqb (encode_body E w (df_gz_body d) body) "" then Some (go (PBuild StWrite body d) s)
      else match a_resp a with
           | None => Some (go (PBuild StWrite body d) s)
           | Some _ => Some (go (PBuild StEnc2 body d) s)
           end
  | PBuild StEnc2 body d =>
      Some (go (PBuild (if a_gz a then StWrite else StEnc3) body
                  (Draft (df_headers d) (df_status d) (df_gz_body d) (df_length d) (a_gz a) (df_encoding d))) s)
  | PBuild StEnc3 body d =>
      match a_resp a with
      | None => panic
      | Some rs => Some (go (PBuild StWrite body (Draft (df_headers d) (df_status d) (df_gz_body d) (df_length d) (df_gz_header d) rs)) s)
      end
  | PBuild StWrite body d =>
      if valid_code (df_status d) then Some (go PLog1 (write (assemble E w d body) s)) else panic
  | PRetry =>
      let s1 := check_dwn s in
      if may_retry c s && negb (dwn_aborted s)
      then Some (St (upd (S (s_cur s)) (fun _ => new_att) (s_att s1)) (S (s_cur s)) (s_dwn s1) (s_flag s1) PStart
                    (s_sent s1) (s_out s1))
      else Some (go PFin1 s1)
  | PFin1 =>
      let s1 := check_dwn s in
      if dwn_aborted s
      then Some (go PLog1 (write (send_status E dice w 504 "gateway timeout triggered by downstream event") s1))
      else Some (go PFin2 s1)
  | PFin2 =>
      let s1 := check_up s in
      if up_aborted s
      then Some (go PLog1 (write (send_status E dice w 504 "gateway timeout triggered by upstream attempt") s1))
      else Some (go PLog1 (write (send_status E dice w 502 "bad gateway triggered. unable to process upstream response") s1))
  | PLog1 =>
      if w_send_gzip w then Some (go PDone s)
      else match a_resp a with None => Some (go PDone s) | Some _ => Some (go PLog2 s) end
  | PLog2 => Some (go (if a_gz a then PDone else PLog3) s)
  | PLog3 => match a_resp a with None => panic | Some _ => Some (go PDone s) end
  | PSelHdr | PSelBody | PDone | PPanic => None
  end.

(** The cases of the two selects, proxyhandler.go:175-191 and 223-237. *)
Inductive branch := CUp | CDwn | CComplete.

(** proxy.go:141-150 cancels every context (the flags it sets are those of copies). *)
Definition abort_all (s : state) : state :=
  with_s_flag true (with_atts (fun j => with_ctx true (s_att s j)) s).

Definition sel_step (s : state) (b : branch) : option state :=
  let a := cur s in
  match s_pc s, b with
  | PSelHdr, CUp =>
      if a_ctx a then Some (go PRetHdr (at_cur (fun x => with_status 0 (with_flag true x)) s)) else None
  | PSelHdr, CDwn => if s_dwn s then Some (go PRetHdr (abort_all s)) else None
  | PSelHdr, CComplete => if a_hdr a then Some (go PRetHdr s) else None
  | PSelBody, CUp => if a_ctx a then Some (go PRetBody (at_cur (with_flag true) s)) else None
  | PSelBody, CDwn => if s_dwn s then Some (go PRetBody (abort_all s)) else None
  | PSelBody, CComplete => if a_bdy a then Some (go PRetBody s) else None
  | _, _ => None
  end.

(** Steps: of the handler ([LMain], [LSel]); of the goroutines of attempt [i], in program order; and
    of the timers (proxyhandler.go:113-115, proxy.go:203-205). *)
Inductive label :=
| LMain (dice : nat) | LSel (b : branch)
| LDo (i : nat) (o : option up_response) | LSetResp (i : nat) | LCloseHdr (i : nat)
| LStatus (i : nat) | LRead (i : nat) (body : string) (ok : bool) | LGz (i : nat) | LCloseBody (i : nat)
| LUpTimer (i : nat) | LDwnTimer.

(** proxyhandler.go:153-172 and 203-221: [proxy.Up.Atmpt] is the attempt current at the time of the
    step, not the one the goroutine was started for. *)
Definition goroutine_step (s : state) (l : label) : option state :=
  match l with
  | LDo i o =>
      match a_h (s_att s i) with
      | HDoing => Some (with_atts (upd i (with_h (HGot o)) (s_att s)) s)
      | _ => None
      end
  | LSetResp i =>
      match a_h (s_att s i) with
      | HGot o => Some (at_cur (with_resp o) (with_atts (upd i (with_h (HSet o)) (s_att s)) s))
      | _ => None
      end
  | LCloseHdr i =>
      match a_h (s_att s i) with
      | HSet o =>
          let close := negb (a_flag (s_att s i)) && negb (s_flag s) in
          Some (with_atts (upd i (fun x => with_hdr (a_hdr x || close) (with_h (HEnd o) x)) (s_att s)) s)
      | _ => None
      end
  | LStatus i =>
      match a_b (s_att s i) with
      | BStart rs => Some (at_cur (with_status (ur_status rs)) (with_atts (upd i (with_b BReading) (s_att s)) s))
      | _ => None
      end
  | LRead i body ok =>
      match a_b (s_att s i) with
      | BReading => Some (with_atts (upd i (with_b (BGot body ok)) (s_att s)) s)
      | _ => None
      end
  | LGz i =>
      match a_b (s_att s i) with
      | BGot body ok =>
          let s1 := with_atts (upd i (with_b (BFlag body ok)) (s_att s)) s in
          Some (if is_gzip body then at_cur (with_gz true) s1 else s1)
      | _ => None
      end
  | LCloseBody i =>
      match a_b (s_att s i) with
      | BFlag body ok =>
          let close := negb (a_flag (cur s)) && negb (s_flag s) in
          Some (with_atts (upd i (fun x => with_bdy (a_bdy x || close) (with_b (BEnd body ok) x)) (s_att s)) s)
      | _ => None
      end
  | LUpTimer i =>
      match a_h (s_att s i) with
      | HIdle => None
      | _ => if a_ctx (s_att s i) then None else Some (with_atts (upd i (with_ctx true) (s_att s)) s)
      end
  | LDwnTimer =>
      if s_dwn s then None else Some (St (s_att s) (s_cur s) true (s_flag s) (s_pc s) (s_sent s) (s_out s))
  | LMain _ | LSel _ => None
  end.

Definition step (c : conf) (s : state) (l : label) : option state :=
  match l with
  | LMain dice => main_step c dice s
  | LSel b => sel_step s b
  | _ => goroutine_step s l
  end.

Fixpoint exec (c : conf) (s : state) (ls : list label) : option state :=
  match ls with
  | [] => Some s
  | l :: ls' => match step c s l with Some s' => exec c s' ls' | None => None end
  end.
