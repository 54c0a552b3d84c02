(** What a document says whose settings are written more than once, in capitals and small letters. *)
From Coq Require Import String Ascii List Bool ZArith NArith.
From Verif Require Import GoStr TextSpec Config Decode DecodeSpec.
Import ListNotations.
Local Open Scope string_scope.

(** The last of the members called [n] whose value has the right type, or [zero] if none has *)
Definition last_said {A} (is : doc -> A -> Prop) (zero : A) (n : string) (ms : list (string * doc)) (x : A) : Prop :=
  (exists a k v b, ms = (a ++ (k, v) :: b)%list /\ same_letters n k /\ is v x /\ forall k' v' y, In (k', v') b -> same_letters n k' -> ~ is v' y) \/
  ((forall k v y, In (k, v) ms -> same_letters n k -> ~ is v y) /\ x = zero).

Definition route_last (e : doc) (r : route) : Prop :=
  forall ms n f, e = DObj ms -> In (n, f) route_settings -> last_said text_doc "" n ms (f r).
