(** Model of stats.go: the history of process samples and what is made of it. *)
From Coq Require Import List Bool ZArith Arith.
From Coq Require Import Floats.SpecFloat.
Import ListNotations.

(** stats.go:13-21.  Cpu, memory percentage, vms and swap are only printed and left out. *)
Record sample := Sample { s_pid : Z; s_rss : Z; s_time : Z }.

(** The zero value *new(sample), stats.go:49 *)
Definition no_sample : sample := Sample 0 0 0.

(** stats.go:33 *)
Definition history_max : nat := 24.

(** stats.go:46-53.  Zeroing the element that is dropped is not visible in the slice. *)
Definition append_sample (h : list sample) (s : sample) : list sample :=
  ((if Nat.leb history_max (length h) then tl h else h) ++ [s])%list.

(** stats.go:115-124: the history starts with copies of a first sample, then one sample an hour is added *)
Definition history (first : sample) (later : list sample) : list sample :=
  fold_left append_sample later (repeat first history_max).

(** * Growth *)

(** float64(x) of an unsigned integer, and / and >= of float64, are those of IEEE 754 binary64 with
    rounding to nearest even. *)
Definition of_uint64 (x : Z) : spec_float := binary_normalize 53 1024 x 0 false.
Definition divide64 : spec_float -> spec_float -> spec_float := SFdiv 53 1024.
Definition at_least64 (x y : spec_float) : bool := SFleb y x.

(** stats.go:34 *)
Definition threshold : spec_float := of_uint64 2.

(** stats.go:23-26 *)
Record growth_rate := Growth { g_v : spec_float; g_high : bool }.
(** The zero value *)
Definition no_growth : growth_rate := Growth (S754_zero false) false.

(** stats.go:66-69, for one sample *)
Definition growth (oldest s : sample) : growth_rate :=
  let v := divide64 (of_uint64 (s_rss s)) (of_uint64 (s_rss oldest)) in Growth v (at_least64 v threshold).

(** stats.go:55-84; the message of 74-80 is logged if the second component is true *)
Definition log_samples (h : list sample) : list growth_rate * bool :=
  let rates :=
    if existsb (fun s => Z.eqb (s_pid s) 0) h then map (fun _ => no_growth) h
    else match h with [] => [] | o :: _ => map (growth o) h end in
  (rates, existsb g_high rates).

(** * Both goroutines at once *)

(** stats.go:113-124 appends and 126-131 logs in another goroutine, without a lock.  The statements
    of both in order; each touches the history once.  The logger's loops go down from an index, which they
    take from the length of the history once per loop.  The loop of 73-81 is left out. *)
Inductive appender := AIdle | AZero (s : sample) | ASlice (s : sample) | AAppend (s : sample).
Inductive logger :=
  | LIdle
  | LMade (n : nat)                                     (* growthRates has n elements *)
  | LCheck (n k : nat)                                  (* elements below k are to be checked *)
  | LChecked (n : nat)
  | LRate (n k : nat) (rates : list (nat * growth_rate)) (* elements below k are to be rated *)
  | LDone (n : nat) (rates : list (nat * growth_rate))
  | LCrash.

Record world := World { w_hist : list sample; w_app : appender; w_log : logger }.

Inductive turn := TAppend (s : sample) | TLog.

(** stats.go:46-53 and 121-124, [s] being the sample taken if one is *)
Definition append_step (w : world) (s : sample) : world :=
  match w_app w with
  | AIdle => World (w_hist w) (if Nat.leb history_max (length (w_hist w)) then AZero s else AAppend s) (w_log w)
  | AZero s => World (match w_hist w with [] => [] | _ :: h => no_sample :: h end) (ASlice s) (w_log w)
  | ASlice s => World (tl (w_hist w)) (AAppend s) (w_log w)
  | AAppend s => World (w_hist w ++ [s])%list AIdle (w_log w)
  end.

(** stats.go:55-71 and 126-131.  An index beyond the history or the rates is a panic that nobody recovers. *)
Definition log_step (w : world) : world :=
  let go l := World (w_hist w) (w_app w) l in
  match w_log w with
  | LIdle => go (LMade (length (w_hist w)))
  | LMade n => go (LCheck n (length (w_hist w)))
  | LCheck n 0 => go (LChecked n)
  | LCheck n (S k) =>
      match nth_error (w_hist w) k with
      | None => go LCrash
      | Some s => if Z.eqb (s_pid s) 0 then go (LDone n []) else go (LCheck n k)
      end
  | LChecked n => go (LRate n (length (w_hist w)) [])
  | LRate n 0 rates => go (LDone n rates)
  | LRate n (S k) rates =>
      match nth_error (w_hist w) k, w_hist w with
      | Some s, o :: _ => if Nat.ltb k n then go (LRate n k ((k, growth o s) :: rates)) else go LCrash
      | _, _ => go LCrash
      end
  | LDone _ _ => go LIdle
  | LCrash => w
  end.

Definition turn_step (w : world) (t : turn) : world :=
  match w_log w with
  | LCrash => w
  | _ => match t with TAppend s => append_step w s | TLog => log_step w end
  end.

Definition run (w : world) (ts : list turn) : world := fold_left turn_step ts w.
