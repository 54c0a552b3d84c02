(** The goroutines that take process samples (stats.go:86-124) and their lock.  The goroutine that logs the
    history (126-131) is in Stats.

    Simplification: cpu and memory percentages are left out, as in Stats; failing to take them is ignored
    (stats.go:89-90).  All samples have the same process id and time. *)
From Coq Require Import List Bool ZArith.
From Verif Require Import Stats.
Import ListNotations.

(** The goroutine of stats.go:107-112, which logs its samples, and that of 114-124, which keeps them. *)
Inductive goroutine := Logging | Keeping.

(** Where one is: before Lock (stats.go:87), before MemoryInfo (91), before Unlock (93) with what it
    returned, before the values are taken from it (94-102), asleep (110, 122).  MemoryInfo returns nil with
    an error: None. *)
Inductive place := Before | Inside | Measured (m : option Z) | After (m : option Z) | Asleep.

Record sampler := Sampler {
  sm_locked : bool; sm_logging : place; sm_keeping : place;
  sm_history : option (list sample);      (* procHistory once it is filled, stats.go:115-119 *)
  sm_logged : list Z;                     (* the sizes logged, stats.go:109 *)
  sm_panic : bool }.

Definition sampler_init : sampler := Sampler false Before Before None [] false.

Inductive action := ALock | AMeasure (m : option Z) | AUnlock | AUse | AWake.
Inductive slabel := Do (w : goroutine) (a : action).

Definition at_place (s : sampler) (w : goroutine) : place := match w with Logging => sm_logging s | Keeping => sm_keeping s end.

Definition to_place (s : sampler) (w : goroutine) (locked : bool) (p : place) : sampler :=
  match w with
  | Logging => Sampler locked p (sm_keeping s) (sm_history s) (sm_logged s) (sm_panic s)
  | Keeping => Sampler locked (sm_logging s) p (sm_history s) (sm_logged s) (sm_panic s)
  end.

Section Sampler.
Variable pid time : Z.

(** stats.go:94-102, then 109-110 or 116-122.  The first sample kept fills the history, without a pause
    after it. *)
Definition use (s : sampler) (w : goroutine) (m : option Z) : sampler :=
  match m with
  | None => Sampler (sm_locked s) (sm_logging s) (sm_keeping s) (sm_history s) (sm_logged s) true
  | Some rss =>
      match w with
      | Logging => Sampler (sm_locked s) Asleep (sm_keeping s) (sm_history s) (sm_logged s ++ [rss]) (sm_panic s)
      | Keeping =>
          match sm_history s with
          | None => Sampler (sm_locked s) (sm_logging s) Before (Some (repeat (Sample pid rss time) history_max)) (sm_logged s) (sm_panic s)
          | Some h => Sampler (sm_locked s) (sm_logging s) Asleep (Some (append_sample h (Sample pid rss time))) (sm_logged s) (sm_panic s)
          end
      end
  end.

Definition sampler_step (s : sampler) (l : slabel) : option sampler :=
  if sm_panic s then None else
  match l with
  | Do w a =>
      match at_place s w, a with
      | Before, ALock => if sm_locked s then None else Some (to_place s w true Inside)
      | Inside, AMeasure m => Some (to_place s w (sm_locked s) (Measured m))
      | Measured m, AUnlock => Some (to_place s w false (After m))
      | After m, AUse => Some (use s w m)
      | Asleep, AWake => Some (to_place s w (sm_locked s) Before)
      | _, _ => None
      end
  end.

Fixpoint sampler_exec (s : sampler) (ls : list slabel) : option sampler :=
  match ls with
  | [] => Some s
  | l :: ls' => match sampler_step s l with Some s' => sampler_exec s' ls' | None => None end
  end.

End Sampler.
