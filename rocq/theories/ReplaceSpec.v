(** What a transform does to any URI (C16). *)
From Coq Require Import String.
Local Open Scope string_scope.

(** [p] is in [s] first between [a] and [b]. *)
Definition first_in (p s a b : string) : Prop :=
  s = a ++ p ++ b /\ forall a' b', s = a' ++ p ++ b' -> String.length a <= String.length a'.
Definition not_in (p s : string) : Prop := forall a b, s <> a ++ p ++ b.
