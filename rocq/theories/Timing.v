(** Time: the machine of one request ([Machine]) with a clock.  Times and durations are in nanoseconds.

    Simplifications.  The handler is taken to make a step within [k_delay] once it can, and timers to fire
    within [k_delay] once they are due; this is a property of the Go scheduler, of the machine and of the
    client, as writing the response is one of the steps.  Nothing is said about the goroutines, which wait for
    upstream servers. *)
From Coq Require Import String List Bool ZArith.
From Verif Require Import GoStr Header Exchange Machine Config.
Import ListNotations.
Local Open Scope Z_scope.

(** When the request arrived (parseIncoming, proxy.go:197) and when [handle] was entered
    (proxyhandler.go:62), the durations of the two timers, and the delay. *)
Record clock := Clock { k_arrived : Z; k_entered : Z; k_round : Z; k_read : Z; k_delay : Z }.

(** proxy.go:203 with config.go:260-262, and proxyhandler.go:113 *)
Definition clock_of (d : downstream) (u : upstream) (arrived entered delay : Z) : clock :=
  Clock arrived entered (roundtrip_duration d) (seconds (up_read_timeout u)) delay.

(** When the downstream timer and that of each attempt are due, and since when the handler has been able to
    make its next step. *)
Record tstate := Timed { t_now : Z; t_st : state; t_dwn : Z; t_up : nat -> Z; t_since : Z }.

(** time.AfterFunc; a negative duration is none. *)
Definition after (now d : Z) : Z := now + Z.max 0 d.

(** The downstream timer may have fired before [handle] is entered; it is then due on entry. *)
Definition tinit (k : clock) : tstate :=
  Timed (k_entered k) init (Z.max (k_entered k) (after (k_arrived k) (k_round k))) (fun _ => 0) (k_entered k).

(** Whether the handler can make a step: it waits only in its two selects (proxyhandler.go:175-191 and
    223-237). *)
Definition can_move (s : state) : bool :=
  match s_pc s with
  | PSelHdr => a_ctx (cur s) || s_dwn s || a_hdr (cur s)
  | PSelBody => a_ctx (cur s) || s_dwn s || a_bdy (cur s)
  | PDone | PPanic => false
  | _ => true
  end.

(** The timer of attempt [i] has been started and its context is not done. *)
Definition running (s : state) (i : nat) : bool :=
  match a_h (s_att s i) with HIdle => false | _ => negb (a_ctx (s_att s i)) end.

(** Nothing is late at time [t]. *)
Definition may_wait (k : clock) (ts : tstate) (t : Z) : bool :=
  let s := t_st ts in
  (negb (can_move s) || (t <=? t_since ts + k_delay k)) &&
  (s_dwn s || (t <=? t_dwn ts + k_delay k)) &&
  forallb (fun i => negb (running s i) || (t <=? t_up ts i + k_delay k)) (seq 0 (S (s_cur s))).

(** Timers do not fire early. *)
Definition due (ts : tstate) (l : label) : bool :=
  match l with LUpTimer i => t_up ts i <=? t_now ts | LDwnTimer => t_dwn ts <=? t_now ts | _ => true end.

(** scaffoldUpstreamRequest (proxyhandler.go:105-115) is part of the first step of an attempt. *)
Definition begins (s : state) (l : label) : bool :=
  match s_pc s, l with PStart, LMain _ => true | _, _ => false end.

Definition by_handler (l : label) : bool := match l with LMain _ | LSel _ => true | _ => false end.

(** Time passes, or something happens. *)
Inductive tlabel := Tick (d : Z) | Do (l : label).

Definition tstep (k : clock) (c : conf) (ts : tstate) (x : tlabel) : option tstate :=
  match x with
  | Tick d =>
      if (0 <=? d) && may_wait k ts (t_now ts + d)
      then Some (Timed (t_now ts + d) (t_st ts) (t_dwn ts) (t_up ts) (t_since ts)) else None
  | Do l =>
      if due ts l
      then match step c (t_st ts) l with
           | Some s' =>
               Some (Timed (t_now ts) s' (t_dwn ts)
                 (if begins (t_st ts) l
                  then fun j => if Nat.eqb j (s_cur (t_st ts)) then after (t_now ts) (k_read k) else t_up ts j
                  else t_up ts)
                 (if by_handler l || negb (can_move (t_st ts)) then t_now ts else t_since ts))
           | None => None
           end
      else None
  end.

Fixpoint texec (k : clock) (c : conf) (ts : tstate) (xs : list tlabel) : option tstate :=
  match xs with
  | [] => Some ts
  | x :: xs' => match tstep k c ts x with Some ts' => texec k c ts' xs' | None => None end
  end.
