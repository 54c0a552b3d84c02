(** policy.go: weighted choice of a label. *)
From Coq Require Import String List Bool ZArith QArith Floats.SpecFloat.
From Verif Require Import GoStr.
Import ListNotations.
Local Open Scope string_scope.
Local Open Scope list_scope.

(** policy.go:9-12.  [num] is the type of weights: rationals for exact statements, IEEE binary64
    for statements about rounding. *)
Record label_weight (num : Type) := LW { lw_label : string; lw_weight : num }.
Arguments LW {num}.
Arguments lw_label {num}.
Arguments lw_weight {num}.

Section Resolve.
  Variable num : Type.
  Variable zero : num.
  Variable add : num -> num -> num.
  Variable lt : num -> num -> bool.

  (** policy.go:34-40: [cw[i-1]] is the sum of the first [i] weights, added from the left. *)
  Definition cumulative (p : list (label_weight num)) : list num :=
    map (fun i => fold_left add (map lw_weight (firstn i p)) zero) (seq 1 (List.length p)).

  (** policy.go:43-48: the first position whose cumulative weight exceeds the dice. *)
  Fixpoint pick (dice : num) (cw : list num) (p : list (label_weight num)) : string :=
    match cw, p with
    | c :: cw', l :: p' => if lt dice c then lw_label l else pick dice cw' p'
    | _, _ => "default"
    end.

  (** policy.go:29-49 without the sort; policy.go:31 sorts the shared slice in place, so the caller
      passes the sorted policy and keeps it as the new one. *)
  Definition resolve_sorted (dice : num) (p : list (label_weight num)) : string :=
    pick dice (cumulative p) p.

  (** policy.go:29-49: [srt] is the effect of sort.Sort on the slice.  Returns the label and the
      policy as it is afterwards. *)
  Definition resolve_label (srt : list (label_weight num) -> list (label_weight num))
    (dice : num) (p : list (label_weight num)) : string * list (label_weight num) :=
    let p' := srt p in (resolve_sorted dice p', p').
End Resolve.

(** ** Rational weights *)
Definition qlt (a b : Q) : bool := match Qcompare a b with Lt => true | _ => false end.
Definition qpolicy := list (label_weight Q).
Definition resolve_q := resolve_label Q 0%Q Qplus qlt.

(** ** Binary64 weights, as in the code ([float64]) *)
Definition f64 := spec_float.
Definition f64_add : f64 -> f64 -> f64 := SFadd 53 1024.
Definition f64_lt (a b : f64) : bool := SFltb a b.
Definition f64_zero : f64 := S754_zero false.
Definition fpolicy := list (label_weight f64).
Definition resolve_f := resolve_label f64 f64_zero f64_add f64_lt.

(** ** The global random generator

    policy.go:30 draws from math/rand's global source.  responses.go:149-152 (randomHuttese, called
    for every error and about response, responses.go:111-143) reseeds that same source with the
    current second and draws one number. *)
Section Generator.
  Variables (st num : Type).
  Variable seed : Z -> st.
  Variable next : st -> st * num.

  Inductive event :=
  | Reply (second : Z)          (* an error or about response is rendered *)
  | Choose.                     (* a label is resolved *)

  (** The dice values drawn by the [Choose] events of a history. *)
  Fixpoint dice_of (g : st) (h : list event) : list num :=
    match h with
    | [] => []
    | Reply t :: h' => dice_of (fst (next (seed t))) h'
    | Choose :: h' => let (g', d) := next g in d :: dice_of g' h'
    end.
End Generator.

(** ** Two requests sorting the same slice

    sort.Sort on fewer than 12 elements is an insertion sort (Go standard library, sort.go,
    insertionSort); policy.go:21-26 gives its Less and Swap.  Here each goroutine runs it on shared
    memory.  Swap ([policy[i], policy[j] = policy[j], policy[i]]) loads two elements and stores
    two.  Simplification: one element is loaded or stored atomically. *)
Section Race.
  Variable num : Type.
  Variable lt : num -> num -> bool.
  Variable dflt : label_weight num.

  Notation elt := (label_weight num).

  Inductive pc :=
  | PTest (i j : nat)                          (* inner loop test: j > 0 && Less(j, j-1) *)
  | PLoad1 (i j : nat)                         (* load policy[j-1] *)
  | PLoad2 (i j : nat) (x : elt)               (* load policy[j] *)
  | PStore1 (i j : nat) (x y : elt)            (* store policy[j] := old policy[j-1] *)
  | PStore2 (i j : nat) (y : elt)              (* store policy[j-1] := old policy[j] *)
  | PDone.

  Definition mem := list elt.

  Fixpoint set_nth (n : nat) (x : elt) (m : mem) : mem :=
    match n, m with
    | O, _ :: m' => x :: m'
    | S n', y :: m' => y :: set_nth n' x m'
    | _, [] => []
    end.

  (** One step of one goroutine. *)
  Definition sort_step (m : mem) (p : pc) : mem * pc :=
    match p with
    | PTest i j =>
        if (List.length m <=? i)%nat then (m, PDone)
        else match j with
             | O => (m, PTest (S i) (S i))
             | S j' =>
                 if lt (lw_weight (nth j m dflt)) (lw_weight (nth j' m dflt))
                 then (m, PLoad1 i j) else (m, PTest (S i) (S i))
             end
    | PLoad1 i j => (m, PLoad2 i j (nth (pred j) m dflt))
    | PLoad2 i j x => (m, PStore1 i j x (nth j m dflt))
    | PStore1 i j x y => (set_nth j x m, PStore2 i j y)
    | PStore2 i j y => (set_nth (pred j) y m, PTest i (pred j))
    | PDone => (m, PDone)
    end.

  Definition sort_start : pc := PTest 1 1.

  (** Any number of goroutines; the schedule names the one that moves. *)
  Fixpoint upd_pc (n : nat) (x : pc) (l : list pc) : list pc :=
    match n, l with
    | O, _ :: l' => x :: l'
    | S n', y :: l' => y :: upd_pc n' x l'
    | _, [] => []
    end.

  Fixpoint run_sorts (m : mem) (ps : list pc) (sched : list nat) : mem * list pc :=
    match sched with
    | [] => (m, ps)
    | t :: sched' =>
        let (m', p') := sort_step m (nth t ps PDone) in
        run_sorts m' (upd_pc t p' ps) sched'
    end.
End Race.
