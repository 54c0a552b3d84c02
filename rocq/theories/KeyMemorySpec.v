(** Vocabulary for statements about keys in memory. *)
From Coq Require Import String List.
From Verif Require Import Jwt IprexShared KeyMemory.
Import ListNotations.

Definition reached (l : list access) (s : memory) : Prop := memory_run memory_init l = Some s.

(** The pairs loaded, oldest first *)
Fixpoint loaded (l : list access) : list (string * key) :=
  match l with [] => [] | Upsert kp _ :: l' => kp :: loaded l' | _ :: l' => loaded l' end.

(** The set that a sequence of pairs makes, as Jwt.v has it *)
Definition set_of (kps : list (string * key)) : keyset := fold_left upsert kps [].

(** A request sees one state of the set if it has copied the length of the set after some of the loads so far, and what
    it has accessed are the first pairs of that set. *)
Definition sees_a_set (l : list access) (r : reader) : Prop :=
  exists kps rest, loaded l = (kps ++ rest)%list /\ r_len r = Some (List.length (set_of kps)) /\
    r_seen r = map Got (firstn (List.length (r_seen r)) (set_of kps)).

(** The order of accesses in which nothing goes wrong: the length is stored behind the pointer and copied before it. *)
Definition orderly (s : memory) (a : access) : Prop :=
  match a with
  | Store WLen => forall h ws, m_new s = Some (h, ws) -> ~ In WPtr ws
  | CopyPtr i => forall r, nth_error (m_readers s) i = Some r -> r_len r <> None
  | _ => True
  end.
Definition all_orderly (l : list access) : Prop :=
  forall l1 a l2 s, l = (l1 ++ a :: l2)%list -> reached l1 s -> orderly s a.
