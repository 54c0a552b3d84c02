(** Regular expressions as they are documented (https://golang.org/s/re2syntax, the part of it that Regex
    covers): how they are written and what they mean.  Nothing here refers to a parser or a matcher. *)
From Coq Require Import String Ascii List Bool NArith.
Import ListNotations.
Local Open Scope string_scope.

Inductive rx :=
| XEmpty
| XLit (c : ascii)                                 (* c *)
| XAny                                             (* . *)
| XStart                                           (* ^ *)
| XEnd                                             (* $ *)
| XSet (neg : bool) (rs : list (ascii * ascii))    (* [a-z], [^a-z] *)
| XSeq (a b : rx)                                  (* ab *)
| XAlt (a b : rx)                                  (* a|b *)
| XRep (a : rx) (lo : nat) (hi : option nat).      (* a{lo,hi} *)

(** * Meaning *)

(** [c] is one of the characters from [lo] to [hi]. *)
Definition between (lo hi c : ascii) : Prop :=
  (N_of_ascii lo <= N_of_ascii c /\ N_of_ascii c <= N_of_ascii hi)%N.

Definition in_set (rs : list (ascii * ascii)) (c : ascii) : Prop :=
  exists lo hi, In (lo, hi) rs /\ between lo hi c.

(** [P] matches [n] times in a row. *)
Fixpoint times (P : string -> string -> string -> Prop) (n : nat) (pre m post : string) : Prop :=
  match n with
  | O => m = ""
  | S n' => exists x y, m = x ++ y /\ P pre x (y ++ post) /\ times P n' (pre ++ x) y post
  end.

(** Inside the text [pre ++ m ++ post] the expression matches exactly the part [m]. *)
Fixpoint means (r : rx) (pre m post : string) : Prop :=
  match r with
  | XEmpty => m = ""
  | XLit c => m = String c ""
  | XAny => exists c, m = String c "" /\ c <> "010"%char
  | XStart => m = "" /\ pre = ""
  | XEnd => m = "" /\ post = ""
  | XSet neg rs => exists c, m = String c "" /\ (if neg then ~ in_set rs c else in_set rs c)
  | XSeq a b => exists x y, m = x ++ y /\ means a pre x (y ++ post) /\ means b (pre ++ x) y post
  | XAlt a b => means a pre m post \/ means b pre m post
  | XRep a lo hi =>
      exists n, (lo <= n)%nat /\ match hi with Some h => (n <= h)%nat | None => True end /\ times (means a) n pre m post
  end.

(** The text contains a match. *)
Definition found (r : rx) (s : string) : Prop := exists pre m post, s = pre ++ m ++ post /\ means r pre m post.

(** The text begins with a match. *)
Definition leads (r : rx) (s : string) : Prop := exists m post, s = m ++ post /\ means r "" m post.

(** * Writing *)

(** Characters that are not written as themselves *)
Definition special : list ascii := ["\"; "("; ")"; "["; "."; "^"; "$"; "*"; "+"; "?"; "|"]%char.

Definition digit (c : ascii) : Prop := between "0" "9" c.
Definition letter (c : ascii) : Prop := between "a" "z" c \/ between "A" "Z" c.

(** Characters that a backslash makes ordinary *)
Definition escapable (c : ascii) : Prop := (N_of_ascii c < 128)%N /\ ~ digit c /\ ~ letter c.

(** [\d], [\w] and [\s] *)
Definition digits_set : list (ascii * ascii) := [("0", "9")]%char.
Definition word_set : list (ascii * ascii) := [("0", "9"); ("A", "Z"); ("_", "_"); ("a", "z")]%char.
Definition space_set : list (ascii * ascii) := [("009", "010"); ("012", "013"); (" ", " ")]%char.

Inductive shorthand : bool -> list (ascii * ascii) -> ascii -> Prop :=
| sh_d : shorthand false digits_set "d"
| sh_D : shorthand true digits_set "D"
| sh_w : shorthand false word_set "w"
| sh_W : shorthand true word_set "W"
| sh_s : shorthand false space_set "s"
| sh_S : shorthand true space_set "S".

(** ** Counts *)

Fixpoint all_chars (P : ascii -> Prop) (s : string) : Prop :=
  match s with EmptyString => True | String c s' => P c /\ all_chars P s' end.

Fixpoint value (acc : nat) (s : string) : nat :=
  match s with
  | EmptyString => acc
  | String c s' => value (10 * acc + N.to_nat (N_of_ascii c - 48)) s'
  end.

(** [s] is [n] in decimal, without leading zeros. *)
Definition numeral (s : string) (n : nat) : Prop :=
  s <> "" /\ all_chars digit s /\ (forall t, s = String "0" t -> t = "") /\ value 0 s = n.

(** [{n}], [{n,}] and [{n,m}] *)
Inductive count : string -> nat -> option nat -> Prop :=
| count_exact : forall s n, numeral s n -> count ("{" ++ s ++ "}") n (Some n)
| count_from : forall s n, numeral s n -> count ("{" ++ s ++ ",}") n None
| count_range : forall s n t m, numeral s n -> numeral t m -> count ("{" ++ s ++ "," ++ t ++ "}") n (Some m).

(** Counts go up to 1000. *)
Definition allowed (n : nat) (h : option nat) : Prop :=
  (n <= 1000)%nat /\ match h with Some m => (n <= m <= 1000)%nat | None => True end.

(** The text begins with a count. *)
Definition counted (s : string) : Prop := exists u n h t, count u n h /\ s = u ++ t.

Inductive operator : string -> nat -> option nat -> Prop :=
| op_star : operator "*" 0 None
| op_plus : operator "+" 1 None
| op_opt : operator "?" 0 (Some 1)
| op_count : forall s n h, count s n h -> allowed n h -> operator s n h.

(** ** Sets *)

(** A character inside brackets *)
Inductive set_char : ascii -> string -> Prop :=
| sc_plain : forall c, c <> "\"%char -> set_char c (String c "")
| sc_escaped : forall c, escapable c -> set_char c (String "\" (String c "")).

(** What is between the brackets.  A closing bracket stands for itself in the first place only, a dash in the
    last place or where no range can be; "[:" is not covered. *)
Inductive set_body : bool -> list (ascii * ascii) -> string -> Prop :=
| sb_end : set_body false [] ""
| sb_shorthand : forall first rs c rs' t, shorthand false rs c -> set_body false rs' t ->
    set_body first (rs ++ rs') (String "\" (String c t))
| sb_char : forall first c s rs t, set_char c s -> (s = "]" -> first = true) ->
    (forall d u, t <> String "-" (String d u)) -> (forall u, s ++ t <> String "[" (String ":" u)) ->
    set_body false rs t -> set_body first ((c, c) :: rs) (s ++ t)
| sb_range : forall first lo hi s u rs t, set_char lo s -> (s = "]" -> first = true) -> set_char hi u -> u <> "]" ->
    (N_of_ascii lo <= N_of_ascii hi)%N ->
    set_body false rs t -> set_body first ((lo, hi) :: rs) (s ++ "-" ++ u ++ t).

(** ** Expressions: alternatives, sequences of items, items with an operator or without *)
Inductive written : rx -> string -> Prop :=
| w_one : forall x s, sequence x s -> written x s
| w_alt : forall x y s t, sequence x s -> written y t -> written (XAlt x y) (s ++ "|" ++ t)
with sequence : rx -> string -> Prop :=
| q_end : sequence XEmpty ""
| q_item : forall x y s t, item x s -> sequence y t -> ~ counted (s ++ t) -> sequence (XSeq x y) (s ++ t)
with item : rx -> string -> Prop :=
| i_atom : forall x s, atom x s -> item x s
| i_rep : forall x s o n h, atom x s -> operator o n h -> item (XRep x n h) (s ++ o)
with atom : rx -> string -> Prop :=
| a_lit : forall c, ~ In c special -> atom (XLit c) (String c "")
| a_escaped : forall c, escapable c -> atom (XLit c) (String "\" (String c ""))
| a_shorthand : forall neg rs c, shorthand neg rs c -> atom (XSet neg rs) (String "\" (String c ""))
| a_any : atom XAny "."
| a_start : atom XStart "^"
| a_end : atom XEnd "$"
| a_set : forall rs s, set_body true rs s -> (forall t, s <> String "^" t) -> atom (XSet false rs) ("[" ++ s ++ "]")
| a_negated : forall rs s, set_body true rs s -> atom (XSet true rs) ("[^" ++ s ++ "]")
| a_group : forall x s, written x s -> atom x ("(" ++ s ++ ")")
| a_noncapturing : forall x s, written x s -> atom x ("(?:" ++ s ++ ")").
