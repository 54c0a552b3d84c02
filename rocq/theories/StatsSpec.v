(** What the claims about process statistics (C57, C58, C66) mean. *)
From Coq Require Import List Bool ZArith.
From Verif Require Import Stats.
Import ListNotations.

(** C57: the last [n] elements *)
Definition last_of {A} (n : nat) (l : list A) : list A := skipn (length l - n) l.

(** C58 *)
Definition uint64 (x : Z) : Prop := (0 <= x < 2 ^ 64)%Z.
Definition present (h : list sample) : Prop := forall s, In s h -> s_pid s <> 0%Z.
Definition doubled (oldest s : sample) : Prop := (2 * s_rss oldest <= s_rss s)%Z.

(** C66: goroutines take turns such that no sample is appended in the middle of a report. *)
Fixpoint reports_whole (w : world) (ts : list turn) : Prop :=
  match ts with
  | [] => True
  | t :: ts' =>
      match t with
      | TAppend _ => w_log w = LIdle
      | TLog => w_app w = AIdle
      end /\ reports_whole (turn_step w t) ts'
  end.

Definition crashed (w : world) : Prop := w_log w = LCrash.

(** The rates that a report ends with; those not computed are zero. *)
Definition reported (n : nat) (rates : list (nat * growth_rate)) : list growth_rate :=
  match rates with [] => repeat no_growth n | _ => map snd rates end.
