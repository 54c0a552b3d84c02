(** The lock and the slow-down of LoadJwks (jwt.go:170-255), for one jwt definition: any number of
    goroutines run it, one from config.go:249 at boot and one for each proxy.go:625.

    Simplification: the semaphore is a flag, the keys are left out (see Jwt), and jwt.updateCount is
    read and written in one step each.  A fetch may take any time. *)
From Coq Require Import List Bool ZArith Lia.
Import ListNotations.

(** Where a goroutine is: before TryAcquire (jwt.go:174), fetching and installing keys (175-239), at the
    test of the count (242), asleep until some time (243), at the increment (245), before Release (247),
    and returned. *)
Inductive gpc := GTry | GFetch | GTest | GSleep (until : Z) | GCount | GRelease | GEnd.

Record rate := Rate { r_now : Z; r_locked : bool; r_count : nat; r_gs : list gpc; r_starts : list Z }.

(** jwt.go:81, in nanoseconds *)
Definition slow_wait : Z := 10000000000.

Definition rate_init (now : Z) : rate := Rate now false 0 [] [].

Inductive rlabel :=
| Call                   (* LoadJwks is called *)
| Run (i : nat)          (* goroutine i goes on *)
| Pass (d : Z).          (* time passes *)

Fixpoint set_nth {A} (i : nat) (x : A) (l : list A) : list A :=
  match l, i with
  | [], _ => []
  | _ :: l', O => x :: l'
  | y :: l', S i' => y :: set_nth i' x l'
  end.

Definition moved (s : rate) (i : nat) (p : gpc) : rate :=
  Rate (r_now s) (r_locked s) (r_count s) (set_nth i p (r_gs s)) (r_starts s).

Definition rate_step (s : rate) (l : rlabel) : option rate :=
  match l with
  | Call => Some (Rate (r_now s) (r_locked s) (r_count s) (r_gs s ++ [GTry]) (r_starts s))
  | Pass d => if Z.leb 0 d then Some (Rate (r_now s + d) (r_locked s) (r_count s) (r_gs s) (r_starts s)) else None
  | Run i =>
      match nth_error (r_gs s) i with
      | Some GTry =>
          if r_locked s then Some (moved s i GEnd)
          else Some (Rate (r_now s) true (r_count s) (set_nth i GFetch (r_gs s)) (r_now s :: r_starts s))
      | Some GFetch => Some (moved s i GTest)
      | Some GTest => Some (moved s i (if Nat.ltb 0 (r_count s) then GSleep (r_now s + slow_wait) else GCount))
      | Some (GSleep t) => if Z.leb t (r_now s) then Some (moved s i GCount) else None
      | Some GCount => Some (Rate (r_now s) (r_locked s) (S (r_count s)) (set_nth i GRelease (r_gs s)) (r_starts s))
      | Some GRelease => Some (Rate (r_now s) false (r_count s) (set_nth i GEnd (r_gs s)) (r_starts s))
      | Some GEnd | None => None
      end
  end.

Fixpoint rate_exec (s : rate) (ls : list rlabel) : option rate :=
  match ls with
  | [] => Some s
  | l :: ls' => match rate_step s l with Some s' => rate_exec s' ls' | None => None end
  end.
