(** tls.go, stats.go: the words in which durations and dates are told, the message about the certificate
    chain and the line about the uptime. *)
From Coq Require Import String Ascii List Bool ZArith NArith.
From Verif Require Import GoStr Tls TlsReport.
Import ListNotations.
Local Open Scope string_scope.

(** * Durations *)

(** durafmt's units, in microseconds *)
Definition units : list (string * Z) :=
  [("year", 31536000000000%Z); ("week", 604800000000%Z); ("day", 86400000000%Z); ("hour", 3600000000%Z);
   ("minute", 60000000%Z); ("second", 1000000%Z); ("millisecond", 1000%Z); ("microsecond", 1%Z)].

(** How many of each unit: durafmt divides what is left by one after the other. *)
Fixpoint counts (us : Z) (l : list (string * Z)) : list (Z * string) :=
  match l with
  | [] => []
  | (u, size) :: l' => (Z.quot us size, u) :: counts (us - Z.quot us size * size) l'
  end.

(** The words for one unit, none for a count that is not positive *)
Definition words (c : Z * string) : list string :=
  let (v, u) := c in
  if Z.ltb 1 v then [itoa_Z v; u ++ "s"] else if Z.eqb v 1 then [itoa_Z v; u] else [].

(** durafmt.Parse(d).LimitFirstN(n).String() (stats.go:77, 139; tls.go:20), [n] not 0.  durafmt builds a
    string and splits it at blanks to limit it; here the words are limited before they are joined.  The
    negation of the least duration overflows, as in Go. *)
Definition durafmt (n : nat) (d : Z) : string :=
  if Z.eqb d 0 then "0 seconds"
  else
    let a := if Z.ltb d 0 then wrap64 (- d) else d in
    (if Z.ltb d 0 then "-" else "") ++ join " " (firstn (2 * n) (concat (map words (counts (Z.quot a 1000) units)))).

(** tls.go:19-21 *)
Definition as_string (d : Z) : string := durafmt 2 d.

(** * Dates *)

(** The days of a year before each of its months, without a leap day (time.daysBefore) *)
Definition days_before : list Z := [0; 31; 59; 90; 120; 151; 181; 212; 243; 273; 304; 334; 365]%Z.

Definition is_leap (y : Z) : bool :=
  (Z.eqb (y mod 4) 0 && (negb (Z.eqb (y mod 100) 0) || Z.eqb (y mod 400) 0))%Z.

(** The end of time.absDate: month and day for the day [yday] of a year, counted from 0 *)
Definition month_day (leap : bool) (yday : Z) : Z * Z :=
  if leap && Z.eqb yday 59 then (2, 29)%Z
  else
    let day := if leap && Z.ltb 59 yday then (yday - 1)%Z else yday in
    let month := Z.quot day 31 in
    let finish := nth (Z.to_nat (month + 1)) days_before 0%Z in
    if Z.leb finish day then (month + 2, day - finish + 1)%Z
    else (month + 1, day - nth (Z.to_nat month) days_before 0 + 1)%Z.

(** time.absDate, for a number of days since 1 January 1970.  It counts from the year 1, which is as good
    as Go's absolute zero: the difference is a multiple of 400 years. *)
Definition date_of (days : Z) : Z * Z * Z :=
  (let d := days + 719162 in
   let n4 := d / 146097 in
   let d := d - 146097 * n4 in
   let n3 := d / 36524 in
   let n3 := n3 - n3 / 4 in
   let d := d - 36524 * n3 in
   let n2 := d / 1461 in
   let d := d - 1461 * n2 in
   let n1 := d / 365 in
   let n1 := n1 - n1 / 4 in
   let d := d - 365 * n1 in
   let year := 400 * n4 + 100 * n3 + 4 * n2 + n1 + 1 in
   (year, fst (month_day (is_leap year) d), snd (month_day (is_leap year) d)))%Z.

Fixpoint zeros (n : nat) : string := match n with O => "" | S n => String "0"%char (zeros n) end.
Definition pad (w : nat) (n : Z) : string := let s := itoa_Z n in zeros (w - String.length s) ++ s.

(** Format("2006-01-02") (tls.go:137) for years that are not negative *)
Definition date_text (t : Z) : string :=
  let '(y, m, d) := date_of (t / day)%Z in pad 4 y ++ "-" ++ pad 2 m ++ "-" ++ pad 2 d.

(** * The message about the chain *)

(** tls.go:142-152 *)
Definition remark_text (r : remark) : string :=
  match r with
  | AboveMax days max => "Total validity period of " ++ itoa_Z days ++ " days is above legal browser max " ++ itoa_Z max ++ ". "
  | Disruption rest => "You may experience disruption in " ++ as_string rest ++ ". "
  | GraceExpired since => "Validity grace period expired " ++ as_string since ++ " ago, update now. "
  end.

(** tls.go:132-166; names in brackets are those of fmt for a list of strings *)
Definition entry_text (e : entry) : string :=
  let head := "[" ++ itoa (N.of_nat (en_pos e)) ++ "/" ++ itoa (N.of_nat (en_of e)) ++ "] " in
  match en_kind e with
  | Site dns issued issuer marked rs =>
      head ++ "TLS cert #" ++ en_serial e ++ " for DNS names [" ++ join " " dns ++ "], issued on " ++ date_text issued ++
      ", signed by [" ++ issuer ++ "], expires in " ++ as_string (en_remaining e) ++
      (if marked then ", which is the earliest in your chain" else "") ++ ". " ++ join "" (map remark_text rs)
  | Authority root subject issuer =>
      head ++ (if root then "Root" else "Intermediate") ++ " CA #" ++ en_serial e ++ " Common name [" ++ subject ++
      "], signed by [" ++ issuer ++ "], expires in " ++ as_string (en_remaining e) ++ ". "
  end.

(** tls.go:125-182: the messages and their levels; [None] is a panic *)
Definition cert_messages (links : list link) : option (list (level * string)) :=
  match report links with
  | None => None
  | Some (es, levels) =>
      let text := "Snapshot of your cert chain size " ++ itoa (N.of_nat (length links)) ++ " explained. " ++ join "" (map entry_text es) in
      Some (map (fun l => (l, text)) levels)
  end.

(** * The uptime *)

(** stats.go:134-147: the line for one turn of the loop at [now], of a process started at [start] *)
Definition uptime_line (start now : Z) : option (Z * string) :=
  let up := time_sub now start in
  if Z.ltb 10000000000 up then Some (Z.quot up 1000, "server uptime is " ++ durafmt 1 up) else None.

(** The lines of the loop, whose turns are at [turns] *)
Fixpoint uptime_lines (start : Z) (turns : list Z) : list (Z * (Z * string)) :=
  match turns with
  | [] => []
  | t :: turns' =>
      match uptime_line start t with Some l => [(t, l)] | None => [] end ++ uptime_lines start turns'
  end.
