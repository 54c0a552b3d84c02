(** What it means to tell durations and dates truly (C132).  Times are in nanoseconds. *)
From Coq Require Import String Ascii List Bool ZArith NArith.
From Verif Require Import GoStr.
Import ListNotations.
Local Open Scope string_scope.

(** * Durations *)

Inductive unit_of_time := Year | Week | Day | Hour | Minute | Second | Milli | Micro.

Definition name_of (u : unit_of_time) : string :=
  match u with
  | Year => "year" | Week => "week" | Day => "day" | Hour => "hour"
  | Minute => "minute" | Second => "second" | Milli => "millisecond" | Micro => "microsecond"
  end.

Definition lasting (u : unit_of_time) : Z :=
  (match u with
   | Year => 365 * (24 * 3600 * 1000000000) | Week => 7 * (24 * 3600 * 1000000000) | Day => 24 * 3600 * 1000000000
   | Hour => 3600 * 1000000000 | Minute => 60 * 1000000000 | Second => 1000000000 | Milli => 1000000 | Micro => 1000
   end)%Z.

(** "3 weeks", "1 day" *)
Definition phrase (p : Z * unit_of_time) : string :=
  itoa_Z (fst p) ++ " " ++ name_of (snd p) ++ (if Z.eqb (fst p) 1 then "" else "s").

Fixpoint amount (ps : list (Z * unit_of_time)) : Z :=
  match ps with [] => 0%Z | (k, u) :: ps' => (k * lasting u + amount ps')%Z end.

(** Longer units first *)
Fixpoint falling (ps : list (Z * unit_of_time)) : Prop :=
  match ps with
  | [] => True
  | (_, u) :: ps' => match ps' with [] => True | (_, v) :: _ => (lasting v < lasting u)%Z end /\ falling ps'
  end.

(** The duration [d] is told by at most [n] numbers of units: no more than it is, and less by less than the
    last unit told, or by less than a microsecond if there is room for more. *)
Definition tells_truly (n : nat) (ps : list (Z * unit_of_time)) (d : Z) : Prop :=
  1 <= length ps <= n /\ Forall (fun p => (1 <= fst p)%Z) ps /\ falling ps /\
  exists front k u, ps = (front ++ [(k, u)])%list /\
    (amount ps <= d < amount ps + (if Nat.eqb (length ps) n then lasting u else 1000))%Z.

(** * Dates *)

Definition leap (y : Z) : Prop := (y mod 4 = 0 /\ (y mod 100 <> 0 \/ y mod 400 = 0))%Z.

Definition length_of (y m n : Z) : Prop :=
  (In m [1; 3; 5; 7; 8; 10; 12] /\ n = 31 \/ In m [4; 6; 9; 11] /\ n = 30 \/ m = 2 /\ (leap y /\ n = 29 \/ ~ leap y /\ n = 28))%Z.

(** The day after *)
Definition tomorrow (x x' : Z * Z * Z) : Prop :=
  let '(y, m, d) := x in
  exists n, length_of y m n /\ (1 <= d)%Z /\
    ((d < n)%Z /\ x' = (y, m, d + 1)%Z \/ d = n /\ m <> 12%Z /\ x' = (y, m + 1, 1)%Z \/ d = n /\ m = 12%Z /\ x' = (y + 1, 1, 1)%Z).

(** The date [n] days after 1 January 1970 *)
Inductive dated : Z -> Z * Z * Z -> Prop :=
| da_epoch : dated 0 (1970, 1, 1)%Z
| da_after : forall n x x', dated n x -> tomorrow x x' -> dated (n + 1) x'
| da_before : forall n x x', dated n x -> tomorrow x' x -> dated (n - 1) x'.

(** [s] is [n] in decimal with at least [w] digits. *)
Definition in_digits (w : nat) (n : Z) (s : string) : Prop :=
  w <= String.length s /\ exists z, s = z ++ itoa_Z n /\ (forall i c, String.get i z = Some c -> c = "0"%char) /\ (z = "" \/ String.length s = w).

(** "2021-02-28" *)
Definition written_date (x : Z * Z * Z) (s : string) : Prop :=
  let '(y, m, d) := x in exists a b c, s = a ++ "-" ++ b ++ "-" ++ c /\ in_digits 4 y a /\ in_digits 2 m b /\ in_digits 2 d c.

(** * Turns of a daily loop *)

(** Each turn at least a day after the one before *)
Fixpoint daily (turns : list Z) : Prop :=
  match turns with
  | [] => True
  | t :: turns' => match turns' with [] => True | t' :: _ => (t + 24 * 3600 * 1000000000 <= t')%Z end /\ daily turns'
  end.
