(** The durations in the lines about attempts and responses: dwnElapsedMicros and upAtmptElapsedMicros
    (proxyhandler.go:303-304, 309, 326 and 337), along a timed run ([Timing]).

    Simplification.  A line is written within the step of the handler it belongs to, so all that is read for it is
    read at one time; the exception is the line about a response, whose first duration is read at the begin of
    logHandledDownstreamRoundtrip. *)
From Coq Require Import String List Bool ZArith.
From Verif Require Import GoStr Header Exchange Machine AttemptLog AccessLog Timing.
Import ListNotations.
Local Open Scope Z_scope.

(** time.Duration.Microseconds of a duration in nanoseconds *)
Definition micros (d : Z) : Z := Z.quot d 1000.

(** A line about an attempt with upAtmptElapsedMicros and dwnElapsedMicros, and the line about a response with
    dwnElapsedMicros and, if it tells about an attempt, upAtmptElapsedMicros. *)
Inductive eline := EAttempt (a : aline) (up dwn : Z) | EResponse (e : entry) (dwn : Z) (up : option Z).

(** [es_message] is Resp.Message as in [AccessLog], [es_start] is startDate of the current attempt (proxy.go:354 and
    380), [es_elapsed] the variable of proxyhandler.go:309. *)
Record estate := ESt { es_ts : tstate; es_message : string; es_start : Z; es_elapsed : Z }.

Section Elapsed.
  Variable k : clock.
  Variable c : conf.
  Variable label : string.
  Variable x : wire.
  Variable q : request.

  (** firstAttempt (proxy.go:343-364) is called right before [handle]. *)
  Definition einit : estate := ESt (tinit k) "" (k_entered k) 0.

  (** proxyhandler.go:303-304 at time [now] *)
  Definition about_attempt (now start : Z) (a : aline) : Z * eline :=
    (now, EAttempt a (micros (now - start)) (micros (now - k_arrived k))).

  (** proxyhandler.go:326 and 337 at time [now] *)
  Definition about_response (now start elapsed : Z) (e : entry) : Z * eline :=
    (now, EResponse e (micros elapsed) (match l_up e with Some _ => Some (micros (now - start)) | None => None end)).

  (** The state after a step of the machine, and the lines of the step with the times at which they are written *)
  Definition eafter (es : estate) (l : Machine.label) (ts' : tstate) : estate :=
    let s := t_st (es_ts es) in
    let now := t_now (es_ts es) in
    ESt ts'
      (match l with LMain _ => match message_of s with Some m => m | None => es_message es end | _ => es_message es end)
      (if Nat.ltb (s_cur s) (s_cur (t_st ts')) then now else es_start es)
      (match s_pc s, l with PLog1, LMain _ => now - k_arrived k | _, _ => es_elapsed es end).

  Definition elines (es : estate) (l : Machine.label) (ts' : tstate) : list (Z * eline) :=
    let s := t_st (es_ts es) in
    let now := t_now (es_ts es) in
    let es' := eafter es l ts' in
    (map (fun m => about_attempt now (es_start es) (attempt_line c (s_cur s) m)) (messages c s l) ++
     (if Nat.ltb (s_cur s) (s_cur (t_st ts'))
      then [about_attempt now (es_start es') (attempt_line c (s_cur (t_st ts')) Initialized)] else []) ++
     match l with
     | LMain _ => match encoding_of c s with
                  | Some e => [about_response now (es_start es') (es_elapsed es') (line c label x q s (es_message es) e)]
                  | None => []
                  end
     | _ => []
     end)%list.

  Fixpoint erun (es : estate) (xs : list tlabel) : option (estate * list (Z * eline)) :=
    match xs with
    | [] => Some (es, [])
    | y :: xs' =>
        match tstep k c (es_ts es) y with
        | None => None
        | Some ts' =>
            let (es', new) := match y with
                              | Tick _ => (ESt ts' (es_message es) (es_start es) (es_elapsed es), [])
                              | Do l => (eafter es l ts', elines es l ts')
                              end in
            match erun es' xs' with Some (es2, rest) => Some (es2, (new ++ rest)%list) | None => None end
        end
    end.

  (** All lines of run [xs], the first from firstAttempt (proxy.go:360-361) *)
  Definition durations (xs : list tlabel) : option (list (Z * eline)) :=
    match erun einit xs with
    | Some (_, lines) => Some (about_attempt (k_entered k) (k_entered k) (attempt_line c 0 Initialized) :: lines)
    | None => None
    end.
End Elapsed.
