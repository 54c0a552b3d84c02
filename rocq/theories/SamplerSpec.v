(** What the claims about taking process samples (C95) mean. *)
From Coq Require Import List Bool ZArith.
From Verif Require Import Stats StatsSpec Sampler.
Import ListNotations.

Definition same (w w' : goroutine) : bool :=
  match w, w' with Logging, Logging | Keeping, Keeping => true | _, _ => false end.

(** What a goroutine measured in a history, in order, and how often it made a sample of it *)
Definition readings (w : goroutine) (ls : list slabel) : list (option Z) :=
  flat_map (fun l => match l with Do w' (AMeasure m) => if same w w' then [m] else [] | _ => [] end) ls.
Definition uses (w : goroutine) (ls : list slabel) : nat :=
  length (filter (fun l => match l with Do w' AUse => same w w' | _ => false end) ls).
Definition used (w : goroutine) (ls : list slabel) : list (option Z) := firstn (uses w ls) (readings w ls).

(** The history for the sizes kept so far *)
Definition kept_history (pid time : Z) (sizes : list Z) : option (list sample) :=
  match sizes with
  | [] => None
  | first :: later => Some (map (fun rss => Sample pid rss time) (last_of 24 (repeat first 24 ++ later)))
  end.

(** Between Lock and Unlock *)
Definition measuring (s : sampler) (w : goroutine) : Prop :=
  match at_place s w with Inside | Measured _ => True | _ => False end.
