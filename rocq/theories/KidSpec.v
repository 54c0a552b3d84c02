(** What it means that a token names a key (C84): base64url (RFC 4648), JSON (RFC 8259) and the kid of
    its header (RFC 7515).

    Where the texts leave it open, the relations follow encoding/json: of several members with the same
    name the last one counts, bytes that are no UTF-8 and surrogates without partner stand for U+FFFD,
    and arrays and objects are nested 10000 deep at most. *)
From Coq Require Import String Ascii List Bool ZArith NArith.
From Verif Require Import Kid.
Import ListNotations.
Local Open Scope string_scope.

(** * base64url *)

Definition alphabet : string := "ABCDEFGHIJKLMNOPQRSTUVWXYZabcdefghijklmnopqrstuvwxyz0123456789-_".

Fixpoint bits (width : nat) (n : N) : list bool :=
  match width with O => [] | S w => (bits w (N.div2 n) ++ [N.odd n])%list end.

(** The bits of the digits are those of the bytes and fewer than six others. *)
Definition b64 (digits bytes : string) : Prop :=
  exists ns junk, Forall2 (fun c n => String.get (N.to_nat n) alphabet = Some c) (list_ascii_of_string digits) ns /\
    (flat_map (bits 6) ns = flat_map (bits 8) (map N_of_ascii (list_ascii_of_string bytes)) ++ junk)%list /\ length junk < 6.

(** A text without its line ends *)
Fixpoint on_one_line (s : string) : string :=
  match s with
  | "" => ""
  | String c s' => if (N.eqb (N_of_ascii c) 10 || N.eqb (N_of_ascii c) 13)%bool then on_one_line s' else String c (on_one_line s')
  end.

(** * JSON *)

Inductive blank : string -> Prop :=
| bl_nil : blank ""
| bl_cons : forall c s, In (N_of_ascii c) [32; 9; 10; 13]%N -> blank s -> blank (String c s).

Definition within (lo hi : N) (c : ascii) : Prop := (lo <= N_of_ascii c <= hi)%N.

(** One character in UTF-8 and its code point (table 3-7 of the Unicode standard) *)
Inductive code_point : string -> N -> Prop :=
| cp_1 : forall a, within 0 127 a -> code_point (String a "") (N_of_ascii a)
| cp_2 : forall a b, within 194 223 a -> within 128 191 b ->
    code_point (String a (String b "")) ((N_of_ascii a - 192) * 64 + (N_of_ascii b - 128))
| cp_3 : forall a b c,
    (within 224 224 a /\ within 160 191 b) \/ ((within 225 236 a \/ within 238 239 a) /\ within 128 191 b) \/ (within 237 237 a /\ within 128 159 b) ->
    within 128 191 c ->
    code_point (String a (String b (String c ""))) (((N_of_ascii a - 224) * 64 + (N_of_ascii b - 128)) * 64 + (N_of_ascii c - 128))
| cp_4 : forall a b c d,
    (within 240 240 a /\ within 144 191 b) \/ (within 241 243 a /\ within 128 191 b) \/ (within 244 244 a /\ within 128 143 b) ->
    within 128 191 c -> within 128 191 d ->
    code_point (String a (String b (String c (String d ""))))
      ((((N_of_ascii a - 240) * 64 + (N_of_ascii b - 128)) * 64 + (N_of_ascii c - 128)) * 64 + (N_of_ascii d - 128)).

Inductive hex_digit_is : ascii -> N -> Prop :=
| hd_digit : forall c, within 48 57 c -> hex_digit_is c (N_of_ascii c - 48)
| hd_upper : forall c, within 65 70 c -> hex_digit_is c (N_of_ascii c - 55)
| hd_lower : forall c, within 97 102 c -> hex_digit_is c (N_of_ascii c - 87).

(** An escape of four digits *)
Inductive u_escape : string -> N -> Prop :=
| ue : forall a b c d w x y z, hex_digit_is a w -> hex_digit_is b x -> hex_digit_is c y -> hex_digit_is d z ->
    u_escape ("\u" ++ String a (String b (String c (String d "")))) (w * 4096 + x * 256 + y * 16 + z).

Definition fffd : string := String (ascii_of_N 239) (String (ascii_of_N 191) (String (ascii_of_N 189) "")).

(** The inside of a string and what it stands for *)
Inductive chars : string -> string -> Prop :=
| ch_nil : chars "" ""
| ch_plain : forall u n t v, code_point u n -> (32 <= n)%N -> u <> """" -> u <> "\" -> chars t v -> chars (u ++ t) (u ++ v)
| ch_short : forall e x t v,
    In (e, x) [(34, 34); (92, 92); (47, 47); (98, 8); (102, 12); (110, 10); (114, 13); (116, 9)]%N ->
    chars t v -> chars (String "\" (String (ascii_of_N e) t)) (String (ascii_of_N x) v)
| ch_unicode : forall p n u t v, u_escape p n -> code_point u n -> chars t v -> chars (p ++ t) (u ++ v)
| ch_pair : forall p n q m u t v, u_escape p n -> u_escape q m -> (55296 <= n <= 56319)%N -> (56320 <= m <= 57343)%N ->
    code_point u ((n - 55296) * 1024 + (m - 56320) + 65536) -> chars t v -> chars (p ++ q ++ t) (u ++ v)
| ch_lone : forall p n t v, u_escape p n -> (55296 <= n <= 57343)%N ->
    (forall q m t', t = q ++ t' -> u_escape q m -> ~ ((n <= 56319)%N /\ (56320 <= m <= 57343)%N)) -> chars t v -> chars (p ++ t) (fffd ++ v)
| ch_bad : forall c t v, (128 <= N_of_ascii c)%N -> (forall u n r, code_point u n -> String c t <> u ++ r) -> chars t v ->
    chars (String c t) (fffd ++ v).

Definition digit (c : ascii) : Prop := within 48 57 c.
Definition decimal (s : string) : Prop := s <> "" /\ Forall digit (list_ascii_of_string s).
Definition decimal_value (s : string) : Z := fold_left (fun z c => z * 10 + (Z.of_N (N_of_ascii c) - 48))%Z (list_ascii_of_string s) 0%Z.

(** [number t m e]: the absolute value of [t] is m * 10^e. *)
Inductive number : string -> Z -> Z -> Prop :=
| nm : forall sign whole point frac exponent e,
    sign = "" \/ sign = "-" ->
    decimal whole -> (whole = "0" \/ forall s, whole <> "0" ++ s) ->
    (point = "" /\ frac = "") \/ (point = "." /\ decimal frac) ->
    (exponent = "" /\ e = 0%Z) \/
    (exists mark plus ds, exponent = mark ++ plus ++ ds /\ (mark = "e" \/ mark = "E") /\ decimal ds /\
       ((plus = "" \/ plus = "+") /\ e = decimal_value ds \/ plus = "-" /\ e = (- decimal_value ds)%Z)) ->
    number (sign ++ whole ++ point ++ frac ++ exponent) (decimal_value (whole ++ frac)) (e - Z.of_nat (String.length frac)).

(** m * 10^e is at least 2^1024 - 2^970, from where on it is rounded to infinity. *)
Definition too_large (m e : Z) : Prop :=
  exists k, (0 <= k /\ 0 <= e + k /\ (2 ^ 1024 - 2 ^ 970) * 10 ^ k <= m * 10 ^ (e + k))%Z.

(** [value d v t]: the text [t] stands for [v], inside of [d] arrays and objects. *)
Inductive value : N -> json -> string -> Prop :=
| v_null : forall d, value d JNull "null"
| v_true : forall d, value d (JBool true) "true"
| v_false : forall d, value d (JBool false) "false"
| v_number : forall d t m e b, number t m e -> (b = true <-> too_large m e) -> value d (JNum b) t
| v_string : forall d t s, chars t s -> value d (JString s) ("""" ++ t ++ """")
| v_array0 : forall d w, (d < 10000)%N -> blank w -> value d (JArray []) ("[" ++ w ++ "]")
| v_array : forall d w l t, (d < 10000)%N -> blank w -> elements (d + 1) l t -> value d (JArray l) ("[" ++ w ++ t ++ "]")
| v_object0 : forall d w, (d < 10000)%N -> blank w -> value d (JObject []) ("{" ++ w ++ "}")
| v_object : forall d w l t, (d < 10000)%N -> blank w -> members (d + 1) l t -> value d (JObject l) ("{" ++ w ++ t ++ "}")
with elements : N -> list json -> string -> Prop :=
| e_one : forall d v t w, value d v t -> blank w -> elements d [v] (t ++ w)
| e_more : forall d v t w1 w2 l r, value d v t -> blank w1 -> blank w2 -> elements d l r -> elements d (v :: l) (t ++ w1 ++ "," ++ w2 ++ r)
with members : N -> list (string * json) -> string -> Prop :=
| m_one : forall d kt k w1 w2 v t w3, chars kt k -> blank w1 -> blank w2 -> value d v t -> blank w3 ->
    members d [(k, v)] ("""" ++ kt ++ """" ++ w1 ++ ":" ++ w2 ++ t ++ w3)
| m_more : forall d kt k w1 w2 v t w3 w4 l r, chars kt k -> blank w1 -> blank w2 -> value d v t -> blank w3 -> blank w4 -> members d l r ->
    members d ((k, v) :: l) ("""" ++ kt ++ """" ++ w1 ++ ":" ++ w2 ++ t ++ w3 ++ "," ++ w4 ++ r).

Definition json_text (v : json) (t : string) : Prop :=
  exists w1 t' w2, blank w1 /\ blank w2 /\ t = w1 ++ t' ++ w2 /\ value 0 v t'.

(** All numbers are within the range of binary64. *)
Inductive in_range : json -> Prop :=
| ir_null : in_range JNull
| ir_bool : forall b, in_range (JBool b)
| ir_num : in_range (JNum false)
| ir_string : forall s, in_range (JString s)
| ir_array : forall l, (forall v, In v l -> in_range v) -> in_range (JArray l)
| ir_object : forall l, (forall k v, In (k, v) l -> in_range v) -> in_range (JObject l).

(** * Tokens *)

(** The part of a token before the first period *)
Definition first_part (token head : string) : Prop :=
  (forall a b, head <> a ++ "." ++ b) /\ (token = head \/ exists rest, token = head ++ "." ++ rest).

(** The header of the token is a JSON object whose last member called kid is the string [k]. *)
Definition names_kid (token k : string) : Prop :=
  exists head text before after, first_part token head /\ b64 (on_one_line head) text /\
    json_text (JObject (before ++ ("kid", JString k) :: after)) text /\
    in_range (JObject (before ++ ("kid", JString k) :: after)) /\ forall v, ~ In ("kid", v) after.
