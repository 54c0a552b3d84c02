(** Capital letters, substrings, lists of fields and header names, without the functions of the model. *)
From Coq Require Import String Ascii List.
Import ListNotations.
Local Open Scope string_scope.

(** [c] is character number [i] of [s]. *)
Definition at_index (s : string) (i : nat) (c : ascii) : Prop := String.get i s = Some c.
Definition char_of (s : string) (c : ascii) : Prop := exists i, at_index s i c.

Definition small_letters : string := "abcdefghijklmnopqrstuvwxyz".
Definition big_letters : string := "ABCDEFGHIJKLMNOPQRSTUVWXYZ".

(** [d] is [c], as a capital if it is a small letter. *)
Definition capital (c d : ascii) : Prop :=
  (exists i, at_index small_letters i c /\ at_index big_letters i d) \/ (~ char_of small_letters c /\ d = c).

(** [t] is [s] in capitals. *)
Fixpoint capitals (s t : string) : Prop :=
  match s, t with
  | EmptyString, EmptyString => True
  | String c s', String d t' => capital c d /\ capitals s' t'
  | _, _ => False
  end.

(** [s] and [t] differ at most in the case of letters. *)
Definition same_letters (s t : string) : Prop := exists u, capitals s u /\ capitals t u.

Definition occurs (sub s : string) : Prop := exists a b, s = a ++ sub ++ b.

(** [s] consists of the fields [fs] with [sep] between them. *)
Inductive joined (sep : string) : list string -> string -> Prop :=
| joined_none : joined sep [] ""
| joined_one : forall f, joined sep [f] f
| joined_more : forall f g fs s, joined sep (g :: fs) s -> joined sep (f :: g :: fs) (f ++ sep ++ s).

(** Bytes of header names (RFC 7230, tchar) *)
Definition name_char (c : ascii) : Prop := char_of (small_letters ++ big_letters ++ "0123456789" ++ "!#$%&'*+-.^_`|~") c.

(** The spelling net/http uses: capitals at the start and after a hyphen, small letters elsewhere;
    names with other bytes are left as they are. *)
Definition well_spelled (k : string) : Prop :=
  (exists c, char_of k c /\ ~ name_char c) \/
  forall i c, at_index k i c ->
    (i = 0 \/ (exists j, i = S j /\ at_index k j "-") -> ~ char_of small_letters c) /\
    (i <> 0 -> ~ at_index k (Nat.pred i) "-" -> ~ char_of big_letters c).
