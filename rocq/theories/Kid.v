(** extractKid of proxy.go: the key id in the header of a token.

    base64 and encoding/json are library code; what they do with the header is written out here, as far
    as it decides about the kid. *)
From Coq Require Import String Ascii List Bool ZArith NArith.
From Verif Require Import GoStr Json.
Import ListNotations.
Local Open Scope string_scope.

(** * base64.RawURLEncoding.DecodeString *)

Definition sextet (c : ascii) : option N :=
  let n := N_of_ascii c in
  if N_in 65 90 n then Some (n - 65)%N
  else if N_in 97 122 n then Some (n - 71)%N
  else if N_in 48 57 n then Some (n + 4)%N
  else if N.eqb n 45 then Some 62%N
  else if N.eqb n 95 then Some 63%N
  else None.

(** Line ends are skipped. *)
Fixpoint sextets (s : string) : option (list N) :=
  match s with
  | EmptyString => Some []
  | String c s' =>
      match sextet c with
      | Some n => match sextets s' with Some l => Some (n :: l) | None => None end
      | None => if N.eqb (N_of_ascii c) 10 || N.eqb (N_of_ascii c) 13 then sextets s' else None
      end
  end.

(** Bits left over at the end are not looked at. *)
Fixpoint octets (l : list N) : option string :=
  match l with
  | [] => Some ""
  | [_] => None
  | [a; b] => Some (String (ascii_of_N (a * 4 + b / 16)) "")
  | [a; b; c] => Some (String (ascii_of_N (a * 4 + b / 16)) (String (ascii_of_N (b mod 16 * 16 + c / 4)) ""))
  | a :: b :: c :: d :: l' =>
      match octets l' with
      | Some s => Some (String (ascii_of_N (a * 4 + b / 16)) (String (ascii_of_N (b mod 16 * 16 + c / 4))
                         (String (ascii_of_N (c mod 4 * 64 + d)) s)))
      | None => None
      end
  end%N.

Definition b64_decode (s : string) : option string := match sextets s with Some l => octets l | None => None end.

(** * json.Unmarshal into a map *)

(** Values.  Of a number all that counts is whether it is too large for a float64, which is an error. *)
Inductive json := JNull | JBool (b : bool) | JNum (large : bool) | JString (s : string) | JArray (l : list json) | JObject (l : list (string * json)).

Definition is_ws (c : ascii) : bool :=
  let n := N_of_ascii c in N.eqb n 32 || N.eqb n 9 || N.eqb n 10 || N.eqb n 13.

Fixpoint skip_ws (s : string) : string :=
  match s with String c s' => if is_ws c then skip_ws s' else s | EmptyString => s end.

Definition hex_of (c : ascii) : option N :=
  let n := N_of_ascii c in
  if N_in 48 57 n then Some (n - 48)%N else if N_in 65 70 n then Some (n - 55)%N else if N_in 97 102 n then Some (n - 87)%N else None.

Definition hex4 (a b c d : ascii) : option N :=
  match hex_of a, hex_of b, hex_of c, hex_of d with
  | Some w, Some x, Some y, Some z => Some (((w * 16 + x) * 16 + y) * 16 + z)%N
  | _, _, _, _ => None
  end.

(** utf8.EncodeRune *)
Definition encode_rune (u : N) : string :=
  (let t n := ascii_of_N (128 + n mod 64) in
   if u <? 128 then String (ascii_of_N u) ""
   else if u <? 2048 then String (ascii_of_N (192 + u / 64)) (String (t u) "")
   else if u <? 65536 then String (ascii_of_N (224 + u / 4096)) (String (t (u / 64)) (String (t u) ""))
   else String (ascii_of_N (240 + u / 262144)) (String (t (u / 4096)) (String (t (u / 64)) (String (t u) ""))))%N.

(** U+FFFD *)
Definition replaced : string := String (ascii_of_N 239) (String (ascii_of_N 191) (String (ascii_of_N 189) "")).

Definition push (p : string) (r : option (string * string)) : option (string * string) :=
  match r with Some (v, rest) => Some (p ++ v, rest) | None => None end.

(** The single-letter escapes *)
Definition short_escape (e : ascii) : option ascii :=
  if Ascii.eqb e quote || Ascii.eqb e backslash || Ascii.eqb e "/" then Some e
  else if Ascii.eqb e "b" then Some (ascii_of_N 8)
  else if Ascii.eqb e "f" then Some (ascii_of_N 12)
  else if Ascii.eqb e "n" then Some (ascii_of_N 10)
  else if Ascii.eqb e "r" then Some (ascii_of_N 13)
  else if Ascii.eqb e "t" then Some (ascii_of_N 9)
  else None.

(** decode.go, unquote, after the opening quote: the string and what follows the closing quote.  Bytes that
    are no UTF-8 and surrogates that form no pair become U+FFFD. *)
Fixpoint read_chars (s : string) : option (string * string) :=
  match s with
  | EmptyString => None
  | String c s1 =>
      if Ascii.eqb c quote then Some ("", s1)
      else if N.ltb (N_of_ascii c) 32 then None
      else if Ascii.eqb c backslash then
        match s1 with
        | EmptyString => None
        | String e s2 =>
            if Ascii.eqb e "u" then
              match s2 with
              | String h1 (String h2 (String h3 (String h4 s3))) =>
                  match hex4 h1 h2 h3 h4 with
                  | None => None
                  | Some u =>
                      if N_in 55296 57343 u then
                        match s3 with
                        | String b (String v (String g1 (String g2 (String g3 (String g4 s4))))) =>
                            match Ascii.eqb b backslash && Ascii.eqb v "u", hex4 g1 g2 g3 g4 with
                            | true, Some w =>
                                if N.ltb u 56320 && N_in 56320 57343 w
                                then push (encode_rune ((u - 55296) * 1024 + (w - 56320) + 65536)%N) (read_chars s4)
                                else push replaced (read_chars s3)
                            | _, _ => push replaced (read_chars s3)
                            end
                        | _ => push replaced (read_chars s3)
                        end
                      else push (encode_rune u) (read_chars s3)
                  end
              | _ => None
              end
            else match short_escape e with Some x => push (String x "") (read_chars s2) | None => None end
        end
      else if N.ltb (N_of_ascii c) 128 then push (String c "") (read_chars s1)
      else match lead c with
           | None => push replaced (read_chars s1)
           | Some (more, lo, hi) =>
               match s1 with
               | EmptyString => None
               | String d s2 =>
                   if negb (byte_in lo hi d) then push replaced (read_chars s1)
                   else match more, s2 with
                        | 1, _ => push (String c (String d "")) (read_chars s2)
                        | _, EmptyString => None
                        | 2, String e s3 =>
                            if negb (cont e) then push replaced (read_chars s1)
                            else push (String c (String d (String e ""))) (read_chars s3)
                        | _, String e s3 =>
                            if negb (cont e) then push replaced (read_chars s1)
                            else match s3 with
                                 | EmptyString => None
                                 | String f s4 =>
                                     if negb (cont f) then push replaced (read_chars s1)
                                     else push (String c (String d (String e (String f "")))) (read_chars s4)
                                 end
                        end
               end
           end
  end.

Definition is_dig (c : ascii) : bool := N_in 48 57 (N_of_ascii c).

(** The digits at the start of a text: their number and value, with what comes before. *)
Fixpoint digits (count value : Z) (s : string) : Z * Z * string :=
  match s with
  | String c s' => if is_dig c then digits (count + 1) (value * 10 + Z.of_N (N_of_ascii c - 48)) s' else (count, value, s)
  | EmptyString => (count, value, s)
  end.

(** float64 overflow: m * 10^e rounds to 2^1024 or more.  strconv.ParseFloat reports it. *)
Definition overflows (m e : Z) : bool :=
  (if 0 <=? e then 2 ^ 1024 - 2 ^ 970 <=? m * 10 ^ e else (2 ^ 1024 - 2 ^ 970) * 10 ^ (- e) <=? m)%Z.

Definition next_is (c : ascii) (s : string) : option string :=
  match s with String d s' => if Ascii.eqb d c then Some s' else None | EmptyString => None end.

(** The exponent, if there is one *)
Definition read_exponent (s : string) : option (Z * string) :=
  match s with
  | String c s1 =>
      if Ascii.eqb c "e" || Ascii.eqb c "E" then
        let '(neg, s2) := match next_is "-" s1 with
                          | Some s2 => (true, s2)
                          | None => match next_is "+" s1 with Some s2 => (false, s2) | None => (false, s1) end
                          end in
        let '(n, e, s3) := digits 0 0 s2 in
        if Z.eqb n 0 then None else Some (if neg then Z.opp e else e, s3)
      else Some (0%Z, s)
  | EmptyString => Some (0%Z, s)
  end.

(** A number, as scanner.go reads it, and whether it is too large *)
Definition read_number (s : string) : option (bool * string) :=
  let s1 := match next_is "-" s with Some s1 => s1 | None => s end in
  let whole := match next_is "0" s1 with
               | Some s2 => Some (0%Z, s2)
               | None => let '(n, m, s2) := digits 0 0 s1 in if Z.eqb n 0 then None else Some (m, s2)
               end in
  match whole with
  | None => None
  | Some (m, s2) =>
      let frac := match next_is "." s2 with
                  | Some s3 => let '(n, m', s4) := digits 0 m s3 in if Z.eqb n 0 then None else Some (n, m', s4)
                  | None => Some (0%Z, m, s2)
                  end in
      match frac with
      | None => None
      | Some (n, m', s4) =>
          match read_exponent s4 with
          | Some (e, s5) => Some (overflows m' (e - n), s5)
          | None => None
          end
      end
  end.

Fixpoint read_word (w : string) (s : string) : option string :=
  match w with
  | EmptyString => Some s
  | String c w' => match next_is c s with Some s' => read_word w' s' | None => None end
  end.

(** scanner.go: arrays and objects may be nested this deep *)
Definition max_depth : N := 10000.

(** A value at [depth], which does not start with white space, and what follows it. *)
Fixpoint read_value (fuel : nat) (depth : N) (s : string) : option (json * string) :=
  match fuel, s with
  | S fuel', String c s1 =>
      if Ascii.eqb c quote then match read_chars s1 with Some (v, r) => Some (JString v, r) | None => None end
      else if Ascii.eqb c "{" then
        if N.ltb depth max_depth then
          let s2 := skip_ws s1 in
          match next_is "}" s2 with
          | Some r => Some (JObject [], r)
          | None => match read_members fuel' (depth + 1)%N s2 with Some (l, r) => Some (JObject l, r) | None => None end
          end
        else None
      else if Ascii.eqb c "[" then
        if N.ltb depth max_depth then
          let s2 := skip_ws s1 in
          match next_is "]" s2 with
          | Some r => Some (JArray [], r)
          | None => match read_elements fuel' (depth + 1)%N s2 with Some (l, r) => Some (JArray l, r) | None => None end
          end
        else None
      else if Ascii.eqb c "t" then option_map (pair (JBool true)) (read_word "true" s)
      else if Ascii.eqb c "f" then option_map (pair (JBool false)) (read_word "false" s)
      else if Ascii.eqb c "n" then option_map (pair JNull) (read_word "null" s)
      else match read_number s with Some (large, r) => Some (JNum large, r) | None => None end
  | _, _ => None
  end
with read_elements (fuel : nat) (depth : N) (s : string) : option (list json * string) :=
  match fuel with
  | O => None
  | S fuel' =>
      match read_value fuel' depth s with
      | None => None
      | Some (v, r) =>
          let r1 := skip_ws r in
          match next_is "," r1 with
          | Some r2 => match read_elements fuel' depth (skip_ws r2) with Some (l, r3) => Some (v :: l, r3) | None => None end
          | None => match next_is "]" r1 with Some r2 => Some ([v], r2) | None => None end
          end
      end
  end
with read_members (fuel : nat) (depth : N) (s : string) : option (list (string * json) * string) :=
  match fuel with
  | O => None
  | S fuel' =>
      match next_is quote s with
      | None => None
      | Some s1 =>
          match read_chars s1 with
          | None => None
          | Some (k, s2) =>
              match next_is ":" (skip_ws s2) with
              | None => None
              | Some s3 =>
                  match read_value fuel' depth (skip_ws s3) with
                  | None => None
                  | Some (v, r) =>
                      let r1 := skip_ws r in
                      match next_is "," r1 with
                      | Some r2 => match read_members fuel' depth (skip_ws r2) with Some (l, r3) => Some ((k, v) :: l, r3) | None => None end
                      | None => match next_is "}" r1 with Some r2 => Some ([(k, v)], r2) | None => None end
                      end
                  end
              end
          end
      end
  end.

(** A whole text *)
Definition read_json (s : string) : option json :=
  match read_value (String.length s) 0 (skip_ws s) with
  | Some (v, r) => match skip_ws r with EmptyString => Some v | _ => None end
  | None => None
  end.

Fixpoint has_large (v : json) : bool :=
  match v with
  | JNum b => b
  | JArray l => existsb has_large l
  | JObject l => existsb (fun m => has_large (snd m)) l
  | _ => false
  end.

(** The map: of several members with the same name the last one counts.  The text null leaves no map, and
    other values and numbers that are too large are errors. *)
Definition unmarshal (s : string) : option (list (string * json)) :=
  match read_json s with
  | Some (JObject l) => if has_large (JObject l) then None else Some l
  | Some JNull => Some []
  | _ => None
  end.

Fixpoint last_member (k : string) (l : list (string * json)) : option json :=
  match l with
  | [] => None
  | (k', v) :: l' => match last_member k l' with Some w => Some w | None => if String.eqb k' k then Some v else None end
  end.

(** proxy.go:680-702 *)
Definition extract_kid (token : string) : string :=
  match b64_decode (hd "" (split "." token)) with
  | None => ""
  | Some header =>
      match unmarshal header with
      | None => ""
      | Some l => match last_member "kid" l with Some (JString k) => k | _ => "" end
      end
  end.

