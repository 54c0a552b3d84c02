(** A small JSON reader (RFC 8259), written independently of the encoder: flat objects whose values
    are strings or integers.  Text and values are byte strings; a \u escape below U+10000 that is not
    a surrogate stands for its UTF-8 encoding, and other \u escapes are not read. *)
From Coq Require Import String Ascii List Bool ZArith NArith.
Import ListNotations.
Local Open Scope string_scope.

Inductive jvalue := JStr (s : string) | JInt (z : Z).

Definition code_of (c : ascii) : N := N_of_ascii c.
Definition is (c : ascii) (n : N) : bool := N.eqb (code_of c) n.

Definition hex_val (c : ascii) : option N :=
  let n := code_of c in
  if (N.leb 48 n && N.leb n 57)%bool then Some (n - 48)%N
  else if (N.leb 65 n && N.leb n 70)%bool then Some (n - 55)%N
  else if (N.leb 97 n && N.leb n 102)%bool then Some (n - 87)%N
  else None.

(** UTF-8 encoding of a code point below U+10000. *)
Definition utf8_encode (u : N) : option string :=
  if N.ltb u 128 then Some (String (ascii_of_N u) "")
  else if N.ltb u 2048 then
    Some (String (ascii_of_N (192 + u / 64)) (String (ascii_of_N (128 + u mod 64)) ""))%N
  else if (N.leb 55296 u && N.leb u 57343)%bool then None
  else Some (String (ascii_of_N (224 + u / 4096))
            (String (ascii_of_N (128 + (u / 64) mod 64)) (String (ascii_of_N (128 + u mod 64)) "")))%N.

Definition cons_to (p : string) (r : option (string * string)) : option (string * string) :=
  match r with Some (v, rest) => Some (p ++ v, rest) | None => None end.

(** The rest of a string after its opening quote: its value and what follows the closing quote. *)
Fixpoint read_chars (s : string) : option (string * string) :=
  match s with
  | EmptyString => None
  | String c s1 =>
      if is c 34 then Some ("", s1)
      else if N.ltb (code_of c) 32 then None
      else if negb (is c 92) then cons_to (String c "") (read_chars s1)
      else match s1 with
           | EmptyString => None
           | String e s2 =>
               let one n := cons_to (String (ascii_of_N n) "") (read_chars s2) in
               if is e 34 then one 34%N else if is e 92 then one 92%N else if is e 47 then one 47%N
               else if is e 98 then one 8%N else if is e 102 then one 12%N else if is e 110 then one 10%N
               else if is e 114 then one 13%N else if is e 116 then one 9%N
               else if is e 117 then
                 match s2 with
                 | String h1 (String h2 (String h3 (String h4 s3))) =>
                     match hex_val h1, hex_val h2, hex_val h3, hex_val h4 with
                     | Some a, Some b, Some d, Some f =>
                         match utf8_encode (((a * 16 + b) * 16 + d) * 16 + f) with
                         | Some p => cons_to p (read_chars s3)
                         | None => None
                         end
                     | _, _, _, _ => None
                     end
                 | _ => None
                 end
               else None
           end
  end.

Definition read_string (s : string) : option (string * string) :=
  match s with String c s1 => if is c 34 then read_chars s1 else None | EmptyString => None end.

Fixpoint read_digits (acc : Z) (s : string) : Z * string :=
  match s with
  | EmptyString => (acc, s)
  | String c s1 =>
      let n := code_of c in
      if (N.leb 48 n && N.leb n 57)%bool then read_digits (acc * 10 + (Z.of_N n - 48)) s1 else (acc, s)
  end.

Definition starts_digit (s : string) : bool :=
  match s with String c _ => (N.leb 48 (code_of c) && N.leb (code_of c) 57)%bool | EmptyString => false end.

Definition read_value (s : string) : option (jvalue * string) :=
  match s with
  | EmptyString => None
  | String c s1 =>
      if is c 34 then match read_chars s1 with Some (v, rest) => Some (JStr v, rest) | None => None end
      else if is c 45 then
        if starts_digit s1 then let (z, rest) := read_digits 0 s1 in Some (JInt (- z), rest) else None
      else if starts_digit s then let (z, rest) := read_digits 0 s in Some (JInt z, rest)
      else None
  end.

Definition expect (n : N) (s : string) : option string :=
  match s with String c s1 => if is c n then Some s1 else None | EmptyString => None end.

(** [n] more members at most, then "}" and the end of the text. *)
Fixpoint read_members (n : nat) (s : string) : option (list (string * jvalue)) :=
  match n with
  | O => None
  | S n' =>
      match read_string s with
      | None => None
      | Some (k, s1) =>
          match expect 58 s1 with
          | None => None
          | Some s2 =>
              match read_value s2 with
              | None => None
              | Some (v, s3) =>
                  match expect 44 s3 with
                  | Some s4 => match read_members n' s4 with Some ms => Some ((k, v) :: ms) | None => None end
                  | None => match expect 125 s3 with
                            | Some EmptyString => Some [(k, v)]
                            | _ => None
                            end
                  end
              end
          end
      end
  end.

(** The members of a non-empty object, in order. *)
Definition read_object (s : string) : option (list (string * jvalue)) :=
  match expect 123 s with Some s1 => read_members (String.length s1) s1 | None => None end.

(** UTF-8 well-formedness (RFC 3629), table 3-7 of the Unicode standard. *)
Definition rng (lo hi : N) (c : ascii) : bool := (N.leb lo (code_of c) && N.leb (code_of c) hi)%bool.

Inductive utf8 : string -> Prop :=
| utf8_nil : utf8 ""
| utf8_1 : forall a s, rng 0 127 a = true -> utf8 s -> utf8 (String a s)
| utf8_2 : forall a b s, rng 194 223 a = true -> rng 128 191 b = true -> utf8 s -> utf8 (String a (String b s))
| utf8_3 : forall a b c s,
    (rng 224 224 a = true /\ rng 160 191 b = true) \/
    ((rng 225 236 a = true \/ rng 238 239 a = true) /\ rng 128 191 b = true) \/
    (rng 237 237 a = true /\ rng 128 159 b = true) ->
    rng 128 191 c = true -> utf8 s -> utf8 (String a (String b (String c s)))
| utf8_4 : forall a b c d s,
    (rng 240 240 a = true /\ rng 144 191 b = true) \/
    (rng 241 243 a = true /\ rng 128 191 b = true) \/
    (rng 244 244 a = true /\ rng 128 143 b = true) ->
    rng 128 191 c = true -> rng 128 191 d = true -> utf8 s -> utf8 (String a (String b (String c (String d s)))).

(** Status codes and reason phrases registered with IANA (RFC 7231 and later), except 416, whose
    phrase in the code is that of RFC 2616, and the unused 306. *)
Definition iana : list (Z * string) :=
  [(100, "Continue"); (101, "Switching Protocols"); (102, "Processing"); (103, "Early Hints");
   (200, "OK"); (201, "Created"); (202, "Accepted"); (203, "Non-Authoritative Information");
   (204, "No Content"); (205, "Reset Content"); (206, "Partial Content"); (207, "Multi-Status");
   (208, "Already Reported"); (226, "IM Used");
   (300, "Multiple Choices"); (301, "Moved Permanently"); (302, "Found"); (303, "See Other");
   (304, "Not Modified"); (305, "Use Proxy"); (307, "Temporary Redirect"); (308, "Permanent Redirect");
   (400, "Bad Request"); (401, "Unauthorized"); (402, "Payment Required"); (403, "Forbidden");
   (404, "Not Found"); (405, "Method Not Allowed"); (406, "Not Acceptable");
   (407, "Proxy Authentication Required"); (408, "Request Timeout"); (409, "Conflict"); (410, "Gone");
   (411, "Length Required"); (412, "Precondition Failed"); (413, "Payload Too Large");
   (414, "URI Too Long"); (415, "Unsupported Media Type"); (417, "Expectation Failed");
   (421, "Misdirected Request"); (422, "Unprocessable Entity"); (423, "Locked");
   (424, "Failed Dependency"); (425, "Too Early"); (426, "Upgrade Required");
   (428, "Precondition Required"); (429, "Too Many Requests"); (431, "Request Header Fields Too Large");
   (451, "Unavailable For Legal Reasons");
   (500, "Internal Server Error"); (501, "Not Implemented"); (502, "Bad Gateway");
   (503, "Service Unavailable"); (504, "Gateway Timeout"); (505, "HTTP Version Not Supported");
   (506, "Variant Also Negotiates"); (507, "Insufficient Storage"); (508, "Loop Detected");
   (510, "Not Extended"); (511, "Network Authentication Required")]%Z.

(** Codes in use that are not registered, or registered under another phrase. *)
Definition informal : list Z := [306; 416; 418; 420; 444; 449; 450; 499; 509; 598; 599]%Z.

(** Text that is UTF-8 and that neither HTML nor a script reads as anything but text: no byte below U+0020, no [<], [>]
    or [&], and neither U+2028 nor U+2029. *)
Definition inert (s : string) : Prop :=
  utf8 s /\
  (forall a c b, s = a ++ String c b -> (32 <= code_of c)%N /\ c <> "<"%char /\ c <> ">"%char /\ c <> "&"%char) /\
  (forall a c b, s <> a ++ String (ascii_of_N 226) (String (ascii_of_N 128) (String (ascii_of_N c) b)) \/ (c <> 168 /\ c <> 169)%N).
