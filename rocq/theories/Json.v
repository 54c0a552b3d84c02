(** encoding/json string encoding, and the JSON bodies of responses.go. *)
From Coq Require Import String Ascii List Bool ZArith NArith.
From Verif Require Import GoStr.
Import ListNotations.
Local Open Scope string_scope.

Definition hex_digit (n : N) : ascii := ascii_of_N (if N.ltb n 10 then 48 + n else 87 + n).

Definition quote : ascii := """"%char.
Definition backslash : ascii := "\"%char.

(** encoding/json encode.go, encodeState.string for one byte below 0x80 with HTML escaping on. *)
Definition escape_byte (c : ascii) : string :=
  let n := N_of_ascii c in
  if Ascii.eqb c quote || Ascii.eqb c backslash then String backslash (String c "")
  else if N.eqb n 10 then "\n"
  else if N.eqb n 13 then "\r"
  else if N.eqb n 9 then "\t"
  else if N.ltb n 32 || Ascii.eqb c "<" || Ascii.eqb c ">" || Ascii.eqb c "&"
       then "\u00" ++ String (hex_digit (N.div n 16)) (String (hex_digit (N.modulo n 16)) "")
  else String c "".

Definition byte_in (lo hi : N) (c : ascii) : bool := N_in lo hi (N_of_ascii c).

(** unicode/utf8 tables [first] and [acceptRanges]: how many further bytes a lead byte asks for and
    the range of the first of them. *)
Definition lead (c : ascii) : option (nat * N * N) :=
  let n := N_of_ascii c in
  if N_in 194 223 n then Some (1%nat, 128, 191)%N
  else if N.eqb n 224 then Some (2%nat, 160, 191)%N
  else if N_in 225 236 n || N_in 238 239 n then Some (2%nat, 128, 191)%N
  else if N.eqb n 237 then Some (2%nat, 128, 159)%N
  else if N.eqb n 240 then Some (3%nat, 144, 191)%N
  else if N_in 241 243 n then Some (3%nat, 128, 191)%N
  else if N.eqb n 244 then Some (3%nat, 128, 143)%N
  else None.

Definition cont (c : ascii) : bool := byte_in 128 191 c.

(** U+2028 and U+2029, escaped because JavaScript treats them as line ends. *)
Definition line_sep (a b c : ascii) : bool :=
  N.eqb (N_of_ascii a) 226 && N.eqb (N_of_ascii b) 128 && byte_in 168 169 c.

Definition replacement : string := "\ufffd".

(** encodeState.string without the quotes.  Every byte of an invalid sequence becomes an escaped U+FFFD. *)
Fixpoint escape (s : string) : string :=
  match s with
  | EmptyString => EmptyString
  | String c s1 =>
      if N.ltb (N_of_ascii c) 128 then escape_byte c ++ escape s1
      else match lead c with
           | None => replacement ++ escape s1
           | Some (more, lo, hi) =>
               match s1 with
               | EmptyString => replacement ++ escape s1
               | String d s2 =>
                   if negb (byte_in lo hi d) then replacement ++ escape s1
                   else match more, s2 with
                        | 1, _ => String c (String d (escape s2))
                        | _, EmptyString => replacement ++ escape s1
                        | 2, String e s3 =>
                            if negb (cont e) then replacement ++ escape s1
                            else if line_sep c d e then "\u202" ++ String (hex_digit (N.modulo (N_of_ascii e) 16)) (escape s3)
                            else String c (String d (String e (escape s3)))
                        | _, String e EmptyString => replacement ++ escape s1
                        | _, String e (String f s4) =>
                            if negb (cont e && cont f) then replacement ++ escape s1
                            else String c (String d (String e (String f (escape s4))))
                        end
               end
           end
  end.

Definition json_string (s : string) : string := String quote (escape s ++ String quote "").

Definition json_field (k v : string) : string := json_string k ++ ":" ++ v.

(** [response[i] = c] *)
Fixpoint set_byte (i : nat) (c : ascii) (s : string) : string :=
  match i, s with
  | _, EmptyString => EmptyString
  | O, String _ s' => String c s'
  | S i', String d s' => String d (set_byte i' c s')
  end.

(** responses.go:111-119.  json.Marshal writes the exported fields in declaration order. *)
Definition about_json (greeting server_id version : string) : string :=
  set_byte 2 "j" ("{" ++ join "," [json_field "J8a" (json_string greeting);
    json_field "ServerID" (json_string server_id); json_field "Version" (json_string version)] ++ "}").

(** responses.go:135-143; the embedded AboutResponse fields come first. *)
Definition status_json (greeting server_id version : string) (code : Z) (message : string) : string :=
  set_byte 2 "j" ("{" ++ join "," [json_field "J8a" (json_string greeting);
    json_field "ServerID" (json_string server_id); json_field "Version" (json_string version);
    json_field "Code" (itoa_Z code); json_field "Message" (json_string message)] ++ "}").

(** responses.go:12-20 *)
Definition huttese : list string :=
  ["Achuta!"; "Goodde da lodia!"; "H'chu apenkee!"; "Chuba!"; "Ka Cheesa Crispa Greedo?"; "De wanna wanga?";
   "Peedunkee, caba dee unko!"].

(** responses.go:149-152; [dice] is rand.Int(), which is not negative. *)
Definition random_huttese (dice : nat) : string := nth (Nat.modulo dice (List.length huttese)) huttese "".

(** responses.go:22-94 *)
Definition http_responses : list (Z * string) :=
  [(100, "continue"); (101, "switching protocols"); (102, "processing"); (103, "early hints"); (200, "ok");
   (201, "created"); (202, "accepted"); (203, "non-authoritative information"); (204, "no content");
   (205, "reset content"); (206, "partial content"); (207, "multi-status"); (208, "already reported");
   (226, "IM used"); (300, "multiple choices"); (301, "moved permanently"); (302, "found"); (303, "see other");
   (304, "not modified"); (305, "use proxy"); (306, "switch proxy"); (307, "temporary redirect");
   (308, "permanent redirect"); (400, "bad request"); (401, "unauthorized"); (402, "payment required");
   (403, "forbidden"); (404, "not found"); (405, "method not allowed"); (406, "not acceptable");
   (407, "proxy authentication required"); (408, "request timeout"); (409, "conflict"); (410, "gone");
   (411, "length required"); (412, "precondition failed"); (413, "payload too large"); (414, "URI too long");
   (415, "unsupported media type"); (416, "requested range not satisfiable"); (417, "expectation failed");
   (418, "i'm a teapot"); (420, "enhance your calm"); (421, "misdirected request"); (422, "unprocessable entity");
   (423, "locked"); (424, "failed dependency"); (425, "too early"); (426, "upgrade required");
   (428, "precondition required"); (429, "too many requests"); (431, "request header fields too large");
   (444, "no response by upstream nginx"); (449, "retry with"); (450, "blocked by windows parental controls");
   (451, "unavailable for legal reasons"); (499, "client closed request"); (500, "internal server error");
   (501, "not implemented"); (502, "bad gateway"); (503, "service unavailable"); (504, "gateway timeout");
   (505, "http version not supported"); (506, "variant also negotiates"); (507, "insufficient storage");
   (508, "loop detected"); (509, "bandwidth limit exceeded"); (510, "not extended");
   (511, "network authentication required"); (598, "network read timeout error");
   (599, "network connect timeout error")]%Z.

(** responses.go:125-132 *)
Definition with_code (code : Z) : string :=
  match find (fun e => Z.eqb (fst e) code) http_responses with
  | Some e => snd e
  | None => "unspecified response code"
  end.
