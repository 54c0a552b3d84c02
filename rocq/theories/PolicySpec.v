(** Vocabulary for statements about policies. *)
From Coq Require Import String List Bool ZArith QArith Permutation.
From Verif Require Import GoStr Policy.
Import ListNotations.
Local Open Scope string_scope.

(** Total weight a policy gives to a label, and the number of its entries for the label. *)
Fixpoint weight_of (L : string) (p : qpolicy) : Q :=
  match p with
  | [] => 0
  | l :: p' => if String.eqb (lw_label l) L then lw_weight l + weight_of L p' else weight_of L p'
  end.

Fixpoint entries_of (L : string) (p : qpolicy) : nat :=
  match p with
  | [] => 0
  | l :: p' => if String.eqb (lw_label l) L then S (entries_of L p') else entries_of L p'
  end.

Fixpoint total_weight (p : qpolicy) : Q :=
  match p with [] => 0 | l :: p' => lw_weight l + total_weight p' end.

Definition nonneg (p : qpolicy) : Prop := Forall (fun l => 0 <= lw_weight l) p.

(** The dice value k/N. *)
Definition frac (k N : nat) : Q := Z.of_nat k # Pos.of_nat N.

(** In how many of the N equally likely cases [f] gives [L]. *)
Definition cases (N : nat) (f : Q -> string) (L : string) : nat :=
  List.length (filter (fun k => String.eqb (f (frac k N)) L) (seq 0 N)).

(** A sorting routine may only reorder. *)
Definition reorders {A} (srt : list A -> list A) : Prop := forall l, Permutation (srt l) l.

(** Goroutines that are in the middle of exchanging two elements. *)
Definition swapping {num} (p : pc num) : bool :=
  match p with PLoad2 _ _ _ _ | PStore1 _ _ _ _ _ | PStore2 _ _ _ _ => true | _ => false end.

Definition swappers {num} (ps : list (pc num)) : nat := List.length (filter swapping ps).

(** Every intermediate state of a run has at most one goroutine exchanging elements. *)
Fixpoint exclusive (num : Type) (lt : num -> num -> bool) (dflt : label_weight num)
  (m : mem num) (ps : list (pc num)) (sched : list nat) : Prop :=
  (swappers ps <= 1)%nat /\
  match sched with
  | [] => True
  | t :: sched' =>
      let (m', p') := sort_step num lt dflt m (nth t ps (PDone num)) in
      exclusive num lt dflt m' (upd_pc num t p' ps) sched'
  end.
