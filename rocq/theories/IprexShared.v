(** iprex.go:20-58 for several goroutines: the patterns are compiled on first use and kept in one variable
    (proxyhandler.go:31), which the handlers of all requests share (proxyhandler.go:320). *)
From Coq Require Import String Ascii List Bool NArith.
From Verif Require Import GoStr Regex Iprex.
Import ListNotations.
Local Open Scope string_scope.

(** The fields of the variable: iprex.go:6-18 *)
Inductive slot := SlotS | Slot6 | SlotE | Slot4.
Record patterns := Patterns { pt_s : option re; pt_6 : option re; pt_e : option re; pt_4 : option re }.

Definition get_slot (x : slot) (p : patterns) : option re :=
  match x with SlotS => pt_s p | Slot6 => pt_6 p | SlotE => pt_e p | Slot4 => pt_4 p end.
Definition set_slot (x : slot) (r : re) (p : patterns) : patterns :=
  match x with
  | SlotS => Patterns (Some r) (pt_6 p) (pt_e p) (pt_4 p)
  | Slot6 => Patterns (pt_s p) (Some r) (pt_e p) (pt_4 p)
  | SlotE => Patterns (pt_s p) (pt_6 p) (Some r) (pt_4 p)
  | Slot4 => Patterns (pt_s p) (pt_6 p) (pt_e p) (Some r)
  end.

(** Where a call is: before the test of a field (iprex.go:22, 26, 30, 34), before the assignment (24, 28, 32, 36),
    before a match (38, 42, 46, 50), or at its end.  A match with a pattern that is nil panics. *)
Inductive point :=
| Test (x : slot) | Make (x : slot) | Match (x : slot) | Returned (addr : string) | Crashed.

(** iprex.go:23, 27, 31, 35; the patterns compile. *)
Definition made (x : slot) : re :=
  match x with SlotS => compiled pat_ipv6s | Slot6 => compiled pat_ipv6 | SlotE => compiled pat_ipv64e | Slot4 => compiled pat_ipv4 end.

(** What comes behind the code for a field: iprex.go:22-38 *)
Definition after_slot (x : slot) : point :=
  match x with SlotS => Test Slot6 | Slot6 => Test SlotE | SlotE => Test Slot4 | Slot4 => Match SlotE end.
(** What comes if there is no match: iprex.go:41-57 *)
Definition after_miss (x : slot) : point :=
  match x with SlotE => Match SlotS | SlotS => Match Slot6 | Slot6 => Match Slot4 | Slot4 => Returned "not found" end.

(** One access to the variable and what follows it up to the next.  Accesses take effect in one order for all
    goroutines; what Go's memory model allows beyond that, since they are not synchronised, is left out. *)
Definition advance (msg : string) (at_ : point) (p : patterns) : option (point * patterns) :=
  match at_ with
  | Test x => Some (match get_slot x p with None => Make x | Some _ => after_slot x end, p)
  | Make x => Some (after_slot x, set_slot x (made x) p)
  | Match x =>
      Some (match get_slot x p with
            | None => Crashed
            | Some r => match find r msg with Some a => Returned a | None => after_miss x end
            end, p)
  | Returned _ | Crashed => None
  end.

Record call := Call { ca_msg : string; ca_at : point }.
Record finder := Finder { fi_patterns : patterns; fi_calls : list call }.

(** The variable and the calls so far: proxyhandler.go:31, 320.  A call begins with its message, or the call with that number goes on. *)
Inductive move := Begin (msg : string) | Goes (i : nat).

Definition finder_init : finder := Finder (Patterns None None None None) [].

Fixpoint put {A} (i : nat) (x : A) (l : list A) : list A :=
  match l, i with [], _ => [] | _ :: l', 0 => x :: l' | y :: l', S i' => y :: put i' x l' end.

Definition finder_step (s : finder) (m : move) : option finder :=
  match m with
  | Begin msg => Some (Finder (fi_patterns s) (fi_calls s ++ [Call msg (Test SlotS)])%list)
  | Goes i =>
      match nth_error (fi_calls s) i with
      | None => None
      | Some c =>
          match advance (ca_msg c) (ca_at c) (fi_patterns s) with
          | None => None
          | Some (a, p) => Some (Finder p (put i (Call (ca_msg c) a) (fi_calls s)))
          end
      end
  end.

Fixpoint finder_run (s : finder) (ms : list move) : option finder :=
  match ms with
  | [] => Some s
  | m :: ms' => match finder_step s m with Some s' => finder_run s' ms' | None => None end
  end.
