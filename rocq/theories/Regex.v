(** The part of Go's package regexp that the code relies on: a parser for a subset of the RE2
    syntax, and a leftmost-first matcher (Go's Regexp without Longest).

    Subset: literals, [.], [^], [$], classes with ranges and negation, [\d \w \s] and escaped
    punctuation, groups [( )] and [(?: )], alternation, and the greedy operators [* + ? {n} {n,} {n,m}].
    Simplifications: bytes instead of UTF-8 runes; syntax outside the subset (lazy operators,
    flags, named groups, Unicode and POSIX classes, \b) is reported as a compile error, which is
    stricter than Go.  Go also refuses nested counts whose product exceeds 1000, and expressions that
    are no UTF-8; these are accepted here. *)
From Coq Require Import String Ascii List Bool NArith Arith Lia.
From Verif Require Import GoStr.
Import ListNotations.
Local Open Scope string_scope.

(** Regular expressions after simplification. *)
Inductive re :=
| REps
| RCls (neg : bool) (rs : list (N * N))
| RCat (a b : re)
| RAlt (a b : re)
| RStar (a : re)
| RBol
| REol.

Definition cls_match (neg : bool) (rs : list (N * N)) (c : ascii) : bool :=
  xorb neg (existsb (fun p => N_in (fst p) (snd p) (N_of_ascii c)) rs).

(** All ways to match [r] at the front of [s], as the remaining strings, best first.  [total] is the
    length of the whole text, so that [^] can tell whether it is at the start.  A star iteration
    must consume something. *)
Fixpoint bt (total : nat) (r : re) (s : string) : list string :=
  match r with
  | REps => [s]
  | RCls neg rs =>
      match s with
      | String c s' => if cls_match neg rs c then [s'] else []
      | EmptyString => []
      end
  | RCat a b => flat_map (bt total b) (bt total a s)
  | RAlt a b => (bt total a s ++ bt total b s)%list
  | RStar a =>
      (fix loop (fuel : nat) (s : string) : list string :=
         match fuel with
         | O => [s]
         | S f =>
             (flat_map (fun s' => if Nat.ltb (String.length s') (String.length s) then loop f s' else [])
                       (bt total a s) ++ [s])%list
         end) (String.length s) s
  | RBol => if Nat.eqb (String.length s) total then [s] else []
  | REol => match s with EmptyString => [s] | _ => [] end
  end.

Fixpoint star_loop (total : nat) (a : re) (fuel : nat) (s : string) : list string :=
  match fuel with
  | O => [s]
  | S f =>
      (flat_map (fun s' => if Nat.ltb (String.length s') (String.length s) then star_loop total a f s' else [])
                (bt total a s) ++ [s])%list
  end.

(** The first [n] bytes: [s[:n]]. *)
Fixpoint take (n : nat) (s : string) : string :=
  match n, s with
  | S n', String c s' => String c (take n' s')
  | _, _ => EmptyString
  end.

(** Leftmost-first search: [FindStringSubmatch(s)[0]]. *)
Fixpoint find_from (total : nat) (r : re) (s : string) : option string :=
  match bt total r s with
  | t :: _ => Some (take (String.length s - String.length t) s)
  | [] => match s with
          | EmptyString => None
          | String _ s' => find_from total r s'
          end
  end.

Definition find (r : re) (s : string) : option string := find_from (String.length s) r s.

(** [Regexp.MatchString(s)]. *)
Definition match_string (r : re) (s : string) : bool :=
  match find r s with Some _ => true | None => false end.

(* ------------------------------------------------------------------ *)
(** * Parser *)

Definition chr (c : ascii) : re := RCls false [(N_of_ascii c, N_of_ascii c)].

(** [r{n}] *)
Fixpoint rpow (r : re) (n : nat) : re :=
  match n with O => REps | S n' => RCat r (rpow r n') end.

(** up to [n] copies, greedy: [(r(r(r)?)?)?] *)
Fixpoint ropt (r : re) (n : nat) : re :=
  match n with O => REps | S n' => RAlt (RCat r (ropt r n')) REps end.

Definition digit_cls : list (N * N) := [(48, 57)]%N.
Definition word_cls : list (N * N) := [(48, 57); (65, 90); (95, 95); (97, 122)]%N.
Definition space_cls : list (N * N) := [(9, 10); (12, 13); (32, 32)]%N.

(** Punctuation may always be escaped; letters and digits are escapes of their own, and bytes beyond ASCII
    cannot be escaped. *)
Definition is_alnum (c : ascii) : bool :=
  let n := N_of_ascii c in (N_in 48 57 n || N_in 65 90 n || N_in 97 122 n)%bool.
Definition is_punct (c : ascii) : bool := (N.ltb (N_of_ascii c) 128 && negb (is_alnum c))%bool.

Definition parse_escape (c : ascii) : option re :=
  if Ascii.eqb c "d" then Some (RCls false digit_cls)
  else if Ascii.eqb c "D" then Some (RCls true digit_cls)
  else if Ascii.eqb c "w" then Some (RCls false word_cls)
  else if Ascii.eqb c "W" then Some (RCls true word_cls)
  else if Ascii.eqb c "s" then Some (RCls false space_cls)
  else if Ascii.eqb c "S" then Some (RCls true space_cls)
  else if is_punct c then Some (chr c)
  else None.

(** Decimal number at the front of [s]; Go refuses counts above 1000. *)
Fixpoint parse_num (acc : option nat) (s : string) : option nat * string :=
  match s with
  | String c s' =>
      if N_in 48 57 (N_of_ascii c)
      then let d := N.to_nat (N_of_ascii c - 48) in
           parse_num (Some (match acc with Some a => if Nat.ltb 1000 a then a else 10 * a + d | None => d end)) s'
      else (acc, s)
  | EmptyString => (acc, s)
  end.

(** parseInt: leading zeros are not allowed. *)
Definition parse_int (s : string) : option nat * string :=
  match s with
  | String c (String d _) =>
      if (Ascii.eqb c "0" && N_in 48 57 (N_of_ascii d))%bool then (None, s) else parse_num None s
  | _ => parse_num None s
  end.

(** Result of looking for a repetition operator: none, an operator, or an error. *)
Inductive quant := QNone | QRep (min : nat) (max : option nat) (rest : string) | QErr.

(** [{n}], [{n,}] or [{n,m}] after the opening brace; anything else makes the brace a literal. *)
Definition parse_braces (s : string) : quant :=
  match parse_int s with
  | (Some n, String c s1) =>
      if Ascii.eqb c "}" then (if Nat.ltb 1000 n then QErr else QRep n (Some n) s1)
      else if Ascii.eqb c "," then
        match parse_int s1 with
        | (Some m, String d s2) =>
            if Ascii.eqb d "}" then
              if (Nat.ltb 1000 n || Nat.ltb 1000 m || Nat.ltb m n)%bool then QErr else QRep n (Some m) s2
            else QNone
        | (None, String d s2) =>
            if Ascii.eqb d "}" then (if Nat.ltb 1000 n then QErr else QRep n None s2) else QNone
        | _ => QNone
        end
      else QNone
  | _ => QNone
  end.

Definition parse_quant1 (s : string) : quant :=
  match s with
  | String c s' =>
      if Ascii.eqb c "*" then QRep 0 None s'
      else if Ascii.eqb c "+" then QRep 1 None s'
      else if Ascii.eqb c "?" then QRep 0 (Some 1) s'
      else if Ascii.eqb c "{" then parse_braces s'
      else QNone
  | EmptyString => QNone
  end.

Definition apply_rep (r : re) (mn : nat) (mx : option nat) : re :=
  match mx with
  | None => RCat (rpow r mn) (RStar r)
  | Some m => RCat (rpow r mn) (ropt r (m - mn))
  end.

(** One optional operator; a second operator is an error ([**]) or outside the subset ([*?]). *)
Definition parse_quant (r : re) (s : string) : option (re * string) :=
  match parse_quant1 s with
  | QNone => Some (r, s)
  | QErr => None
  | QRep mn mx rest =>
      match parse_quant1 rest with
      | QNone => Some (apply_rep r mn mx, rest)
      | _ => None
      end
  end.

(** One character of a class: a literal or escaped punctuation. *)
Definition parse_cls_char (s : string) : option (ascii * string) :=
  match s with
  | String c s' =>
      if Ascii.eqb c "\" then
        match s' with
        | String d s'' => if is_punct d then Some (d, s'') else None
        | EmptyString => None
        end
      else Some (c, s')
  | EmptyString => None
  end.

(** [s] without its first byte, if that byte is [c]. *)
Definition peek (c : ascii) (s : string) : option string :=
  match s with
  | String d s' => if Ascii.eqb d c then Some s' else None
  | EmptyString => None
  end.

Definition peek2 (c d : ascii) (s : string) : option string :=
  match peek c s with Some s' => peek d s' | None => None end.

(** A class escape inside brackets. *)
Definition cls_escape (s : string) : option (list (N * N) * string) :=
  match peek2 "\" "d" s with
  | Some s2 => Some (digit_cls, s2)
  | None =>
      match peek2 "\" "w" s with
      | Some s2 => Some (word_cls, s2)
      | None => match peek2 "\" "s" s with Some s2 => Some (space_cls, s2) | None => None end
      end
  end.

(** One item of a class: an escape, a range or a character.  A dash before the closing bracket is
    a character.  [[:] starts a POSIX class. *)
Definition cls_item (s : string) : option (list (N * N) * string) :=
  match cls_escape s with
  | Some r => Some r
  | None =>
      match (match peek2 "[" ":" s with Some _ => None | None => parse_cls_char s end) with
      | None => None
      | Some (lo, s1) =>
          let single := Some ([(N_of_ascii lo, N_of_ascii lo)], s1) in
          match peek "-" s1 with
          | None => single
          | Some s2 =>
              match peek "]" s2 with
              | Some _ => single
              | None =>
                  match parse_cls_char s2 with
                  | None => None
                  | Some (hi, s3) =>
                      if N.ltb (N_of_ascii hi) (N_of_ascii lo) then None
                      else Some ([(N_of_ascii lo, N_of_ascii hi)], s3)
                  end
              end
          end
      end
  end.

(** Items of a class up to the closing bracket, which is a character in the first position. *)
Fixpoint parse_cls (fuel : nat) (first : bool) (acc : list (N * N)) (s : string)
  : option (list (N * N) * string) :=
  match fuel with
  | O => None
  | S f =>
      match (if first then None else peek "]" s) with
      | Some rest => Some (acc, rest)
      | None =>
          match cls_item s with
          | Some (rs, rest) => parse_cls f false (acc ++ rs)%list rest
          | None => None
          end
      end
  end.

Definition parse_class (s : string) : option (re * string) :=
  match peek "^" s with
  | Some s' =>
      match parse_cls (S (String.length s')) true [] s' with
      | Some (rs, rest) => Some (RCls true rs, rest)
      | None => None
      end
  | None =>
      match parse_cls (S (String.length s)) true [] s with
      | Some (rs, rest) => Some (RCls false rs, rest)
      | None => None
      end
  end.

Definition strip_noncapture (s : string) : option string :=
  match peek2 "?" ":" s with
  | Some s' => Some s'
  | None => match peek "?" s with Some _ => None | None => Some s end
  end.

(** Recursive descent: alternatives, sequences, atoms.  Parts return what is left of the text. *)
Fixpoint p_alt (fuel : nat) (s : string) : option (re * string) :=
  match fuel with
  | O => None
  | S f =>
      match p_cat f s with
      | None => None
      | Some (a, rest) =>
          match rest with
          | String c rest' =>
              if Ascii.eqb c "|" then
                match p_alt f rest' with
                | Some (b, rest'') => Some (RAlt a b, rest'')
                | None => None
                end
              else Some (a, rest)
          | EmptyString => Some (a, rest)
          end
      end
  end
with p_cat (fuel : nat) (s : string) : option (re * string) :=
  match fuel with
  | O => None
  | S f =>
      match s with
      | EmptyString => Some (REps, s)
      | String c _ =>
          if (Ascii.eqb c "|" || Ascii.eqb c ")")%bool then Some (REps, s)
          else
            match p_atom f s with
            | None => None
            | Some (a, rest) =>
                match parse_quant a rest with
                | None => None
                | Some (q, rest') =>
                    match p_cat f rest' with
                    | Some (b, rest'') => Some (RCat q b, rest'')
                    | None => None
                    end
                end
            end
      end
  end
with p_atom (fuel : nat) (s : string) : option (re * string) :=
  match fuel with
  | O => None
  | S f =>
      match s with
      | EmptyString => None
      | String c s' =>
          if Ascii.eqb c "(" then
            match strip_noncapture s' with
            | None => None
            | Some s1 =>
                match p_alt f s1 with
                | Some (a, rest) => match peek ")" rest with Some rest' => Some (a, rest') | None => None end
                | None => None
                end
            end
          else if Ascii.eqb c "[" then parse_class s'
          else if Ascii.eqb c "." then Some (RCls true [(10, 10)%N], s')
          else if Ascii.eqb c "^" then Some (RBol, s')
          else if Ascii.eqb c "$" then Some (REol, s')
          else if Ascii.eqb c "\" then
            match s' with
            | String d s'' => match parse_escape d with Some r => Some (r, s'') | None => None end
            | EmptyString => None
            end
          else if (Ascii.eqb c "*" || Ascii.eqb c "+" || Ascii.eqb c "?")%bool then None
          else if Ascii.eqb c "{" then match parse_braces s' with QNone => Some (chr c, s') | _ => None end
          else Some (chr c, s')
      end
  end.

(** [regexp.Compile(p)]; [None] is the error result. *)
Definition re_compile (p : string) : option re :=
  match p_alt (3 * String.length p + 3) p with
  | Some (r, EmptyString) => Some r
  | _ => None
  end.
