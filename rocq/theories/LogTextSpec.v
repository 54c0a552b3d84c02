(** Vocabulary for statements about the text of log lines (C137): a reader for flat JSON objects (RFC 8259) on a line
    of their own, with strings, integers and booleans, made from the parts of JsonSpec. *)
From Coq Require Import String Ascii List Bool ZArith NArith.
From Verif Require Import JsonSpec AccessLog LogText.
Import ListNotations.
Local Open Scope string_scope.

Definition read_lvalue (s : string) : option (lvalue * string) :=
  match read_value s with
  | Some (JStr v, rest) => Some (VStr v, rest)
  | Some (JInt z, rest) => Some (VInt z, rest)
  | None =>
      if String.prefix "true" s then Some (VFlag true, String.substring 4 (String.length s) s)
      else if String.prefix "false" s then Some (VFlag false, String.substring 5 (String.length s) s)
      else None
  end.

(** [n] more members at most, then a brace, the end of the line and the end of the text *)
Fixpoint read_record (n : nat) (s : string) : option (list (string * lvalue)) :=
  match n with
  | O => None
  | S n' =>
      match read_string s with
      | None => None
      | Some (k, s1) =>
          match expect 58 s1 with
          | None => None
          | Some s2 =>
              match read_lvalue s2 with
              | None => None
              | Some (v, s3) =>
                  match expect 44 s3 with
                  | Some s4 => match read_record n' s4 with Some ms => Some ((k, v) :: ms) | None => None end
                  | None => if String.eqb s3 ("}" ++ String (ascii_of_N 10) "") then Some [(k, v)] else None
                  end
              end
          end
      end
  end.

Definition read_line (s : string) : option (list (string * lvalue)) :=
  match expect 123 s with Some s1 => read_record (String.length s1) s1 | None => None end.

(** What is read is what was logged, as far as it is UTF-8. *)
Definition kept (v w : lvalue) : Prop :=
  match v with
  | VStr s => exists s', w = VStr s' /\ (utf8 s -> s' = s)
  | VTime s => w = VStr s
  | _ => w = v
  end.

(** A member and what it is read as *)
Definition read_as (p m : string * lvalue) : Prop := fst m = fst p /\ kept (snd p) (snd m).

(** There is just one member called [k], and it is read as [v]. *)
Definition says (ms : list (string * lvalue)) (k : string) (v : lvalue) : Prop :=
  exists w, filter (fun m => String.eqb (fst m) k) ms = [(k, w)] /\ kept v w.
Definition silent_on (ms : list (string * lvalue)) (k : string) : Prop := ~ In k (map fst ms).
Definition says_if (ms : list (string * lvalue)) (k : string) (v : option lvalue) : Prop :=
  match v with Some v => says ms k v | None => silent_on ms k end.

(** No byte of [s] is a control character. *)
Fixpoint legible_line (s : string) : Prop :=
  match s with EmptyString => True | String c s' => (32 <= N_of_ascii c)%N /\ legible_line s' end.

(** No byte of [s] ends a line. *)
Fixpoint unbroken (s : string) : Prop :=
  match s with EmptyString => True | String c s' => N_of_ascii c <> 10%N /\ unbroken s' end.

(** Times in RFC 3339 are made of these. *)
Fixpoint time_text (s : string) : Prop :=
  match s with
  | EmptyString => True
  | String c s' => ((48 <= N_of_ascii c <= 57)%N \/ In c ["-"; ":"; "T"; "Z"; "+"; "."]%char) /\ time_text s'
  end.

(** Texts of times in an event are texts of times. *)
Definition timed (v : lvalue) : Prop := match v with VTime s => time_text s | _ => True end.

(** All texts of an entry are UTF-8. *)
Definition utf8_if (o : option string) : Prop := match o with Some s => utf8 s | None => True end.
Definition utf8_entry (e : entry) : Prop :=
  utf8 (l_text e) /\ utf8_if (l_error e) /\ utf8 (l_path e) /\ utf8 (l_addr e) /\ utf8 (l_method e) /\ utf8 (l_agent e) /\
  utf8 (l_http e) /\ utf8 (l_encoding e) /\ utf8 (l_id e) /\ utf8_if (l_tls e) /\
  match l_up e with Some u => utf8 (ue_uri u) /\ utf8 (ue_label u) /\ utf8 (ue_count u) | None => True end.

(** [l] is one of the lines of the text [s]. *)
Definition line_of (l s : string) : Prop :=
  exists before after, s = before ++ l ++ String (ascii_of_N 10) after /\ (before = "" \/ exists b, before = b ++ String (ascii_of_N 10) "").
