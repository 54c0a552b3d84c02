(** stats.go: what the process tells of itself, as lines of the log.  The taking of samples is in Sampler, the history
    in Stats, the uptime in CertText. *)
From Coq Require Import String Ascii List Bool ZArith NArith.
From Coq Require Import Floats.SpecFloat.
From Verif Require Import GoStr Stats CertText Startup LogText.
Import ListNotations.
Local Open Scope string_scope.

(** * Numbers with a fixed number of decimals *)

(** strconv's decimal.Round for [m] * 2^[e] * 10^[p]: to the nearest integer, to an even one half way.  strconv keeps
    the decimal digits of the number, all of them unless they are more than 800, which 767 suffice for. *)
Definition scaled (p : nat) (m : positive) (e : Z) : Z :=
  let n := (Z.pos m * 10 ^ Z.of_nat p)%Z in
  if Z.leb 0 e then (n * 2 ^ e)%Z
  else
    let d := (2 ^ (- e))%Z in
    let q := (n / d)%Z in
    match Z.compare (2 * (n mod d)) d with
    | Lt => q
    | Gt => (q + 1)%Z
    | Eq => if Z.even q then q else (q + 1)%Z
    end.

(** The last [k] decimal digits of [n] *)
Fixpoint last_digits (k : nat) (n : Z) : string :=
  match k with
  | O => ""
  | S k' => last_digits k' (n / 10) ++ String (ascii_of_N (48 + Z.to_N (n mod 10))) ""
  end.

(** fmt.Sprintf("%.pf", x), [p] not 0.  A float32 is the same number as a float64. *)
Definition fixed_text (p : nat) (x : spec_float) : string :=
  let text n := itoa_Z (n / 10 ^ Z.of_nat p) ++ "." ++ last_digits p n in
  match x with
  | S754_nan => "NaN"
  | S754_infinity s => if s then "-Inf" else "+Inf"
  | S754_zero s => (if s then "-" else "") ++ text 0%Z
  | S754_finite s m e => (if s then "-" else "") ++ text (scaled p m e)
  end.

(** * The lines *)

(** stats.go:13-21 in full but for the time, which is not told *)
Record measure := Measure { me_pid : Z; me_cpu : spec_float; me_mem : spec_float; me_rss : Z; me_vms : Z; me_swap : Z }.

(** stats.go:39-44 *)
Definition sample_event (m : measure) : levent :=
  LEvent "debug"
    [("pid", VInt (me_pid m)); ("cpuCorePct", VStr (fixed_text 2 (me_cpu m))); ("memPct", VStr (fixed_text 2 (me_mem m)));
     ("rssBytes", VInt (me_rss m)); ("vmsBytes", VInt (me_vms m)); ("swapBytes", VInt (me_swap m))]
    "server performance".

(** stats.go:74-79, logged if [log_samples] says so *)
Definition growth_event : levent :=
  LEvent "debug" []
    ("RSS memory increase for previous " ++ durafmt 1 (1000000000 * 3600 * Z.of_nat history_max) ++ " with high factor >=" ++
     fixed_text 1 threshold ++ ", monitor actively.").

(** stats.go:140-142.  The text of the uptime is used as a format; it has no percent sign. *)
Definition uptime_event (line : Z * string) : levent := LEvent "debug" [("uptimeMicros", VInt (fst line))] (snd line).

(** The verbosity of an event of log.Trace, log.Debug, log.Info or log.Warn *)
Definition level_of (e : levent) : verbosity :=
  if String.eqb (v_level e) "trace" then VTrace
  else if String.eqb (v_level e) "debug" then VDebug
  else if String.eqb (v_level e) "info" then VInfo
  else VWarn.

(** What is written for an event by a process on the host [h] *)
Definition output (h : host) (time : string) (e : levent) : string :=
  if written (log_level h) (level_of e) then log_text (server_id h) time e else "".

(** stats.go:109, 129 and 136-143: what the three loops write in one turn *)
Definition sample_output (h : host) (time : string) (m : measure) : string := output h time (sample_event m).
Definition growth_output (h : host) (time : string) (hist : list sample) : string :=
  if snd (log_samples hist) then output h time growth_event else "".
Definition uptime_output (h : host) (time : string) (start now : Z) : string :=
  match uptime_line start now with Some l => output h time (uptime_event l) | None => "" end.
