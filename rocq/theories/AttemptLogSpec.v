(** Vocabulary for statements about bodies and lines of attempts. *)
From Coq Require Import String Ascii List Bool ZArith NArith.
From Verif Require Import GoStr Header Exchange Machine MachineSpec AttemptLog.
Import ListNotations.
Local Open Scope string_scope.

(** How attempt [n], counting from 1, is called in lines *)
Definition numbered (c : conf) (n : nat) : string := itoa_Z (Z.of_nat n) ++ "/" ++ itoa_Z (c_max c).

(** Exactly one line has property [P]. *)
Definition exactly_one (P : aline -> Prop) (L : list aline) : Prop :=
  exists a e b, L = (a ++ e :: b)%list /\ P e /\ (forall x, In x a -> ~ P x) /\ (forall x, In x b -> ~ P x).

Definition begins (e : aline) : Prop := al_message e = Initialized.
Definition succeeds (e : aline) : Prop := exists code, al_message e = Successful code.
Definition fails (e : aline) : Prop := exists code, al_message e = Unsuccessful code.
Definition stops (e : aline) : Prop := al_message e = RetriesStopped.
Definition of_attempt (c : conf) (n : nat) (e : aline) : Prop := al_attempt e = numbered c n.

(** The request asks for lines about its attempts: its first X-Request-Debug header spells "true". *)
Definition asks (q : request) : Prop :=
  exists v vs, values "X-Request-Debug" (q_header q) = v :: vs /\
    String.length v = 4 /\ forall i x, String.get i v = Some x ->
      (i = 0 -> x = "t"%char \/ x = "T"%char) /\ (i = 1 -> x = "r"%char \/ x = "R"%char) /\
      (i = 2 -> x = "u"%char \/ x = "U"%char) /\ (i = 3 -> x = "e"%char \/ x = "E"%char).
