(** The text of log lines: logger.go:23 and 43-78, proxyhandler.go:308-343 and proxy.go:620-632 with
    github.com/rs/zerolog v1.20.0 (its packages zerolog and internal/json; functions are named, as its source is not at hand).

    Simplifications.  The text of the time is an argument.  A comma stands between the members of a line
    (zerolog looks for the opening brace in front of a key, which is there for the first one only).  Of the lines
    at level trace and debug just that of proxy.go:628-632 is here.  In the colour of a terminal (console.go) the time
    and the level are one argument, and so is strconv.Quote; there is no field called error, which would come first. *)
From Coq Require Import String Ascii List Bool ZArith NArith.
From Verif Require Import GoStr Json AccessLog.
Import ListNotations.
Local Open Scope string_scope.

(** noEscapeTable and appendStringComplex (internal/json/string.go) for one byte below 0x80 *)
Definition log_byte (c : ascii) : string :=
  let n := N_of_ascii c in
  if N_in 32 126 n && negb (Ascii.eqb c quote) && negb (Ascii.eqb c backslash) then String c ""
  else if Ascii.eqb c quote || Ascii.eqb c backslash then String backslash (String c "")
  else if N.eqb n 8 then "\b"
  else if N.eqb n 12 then "\f"
  else if N.eqb n 10 then "\n"
  else if N.eqb n 13 then "\r"
  else if N.eqb n 9 then "\t"
  else "\u00" ++ String (hex_digit (N.div n 16)) (String (hex_digit (N.modulo n 16)) "").

(** AppendString and appendStringComplex (internal/json/string.go) without the quotes *)
Fixpoint log_escape (s : string) : string :=
  match s with
  | EmptyString => EmptyString
  | String c s1 =>
      if N.ltb (N_of_ascii c) 128 then log_byte c ++ log_escape s1
      else match lead c with
           | None => replacement ++ log_escape s1
           | Some (more, lo, hi) =>
               match s1 with
               | EmptyString => replacement ++ log_escape s1
               | String d s2 =>
                   if negb (byte_in lo hi d) then replacement ++ log_escape s1
                   else match more, s2 with
                        | 1, _ => String c (String d (log_escape s2))
                        | _, EmptyString => replacement ++ log_escape s1
                        | 2, String e s3 =>
                            if negb (cont e) then replacement ++ log_escape s1
                            else String c (String d (String e (log_escape s3)))
                        | _, String e EmptyString => replacement ++ log_escape s1
                        | _, String e (String f s4) =>
                            if negb (cont e && cont f) then replacement ++ log_escape s1
                            else String c (String d (String e (String f (log_escape s4))))
                        end
               end
           end
  end.

Definition log_string (s : string) : string := String quote (log_escape s ++ String quote "").

(** The values of fields: Str, Int and Int64, Bool, and the time (AppendTime writes its text as it is) *)
Inductive lvalue := VStr (s : string) | VInt (z : Z) | VFlag (b : bool) | VTime (s : string).

Definition value_text (v : lvalue) : string :=
  match v with
  | VStr s => log_string s
  | VInt z => itoa_Z z
  | VFlag b => if b then "true" else "false"
  | VTime s => String quote (s ++ String quote "")
  end.

Definition member_text (m : string * lvalue) : string := log_string (fst m) ++ ":" ++ value_text (snd m).

(** An event as the program hands it over *)
Record levent := LEvent { v_level : string; v_fields : list (string * lvalue); v_message : string }.

(** Logger.newEvent (level, then the context of logger.go:23) and Event.msg (the time is that of a hook, then the message) *)
Definition all_members (srv time : string) (e : levent) : list (string * lvalue) :=
  ([("level", VStr (v_level e)); ("srvId", VStr srv)] ++ v_fields e ++ [("time", VTime time)] ++
   (if String.eqb (v_message e) "" then [] else [("message", VStr (v_message e))]))%list.

Definition newline : ascii := ascii_of_N 10.

Definition log_text (srv time : string) (e : levent) : string :=
  "{" ++ join "," (map member_text (all_members srv time e)) ++ "}" ++ String newline "".

(** proxyhandler.go:308-343; [down] and [up] are the elapsed times in microseconds. *)
Definition access_event (e : entry) (down up : Z) : levent :=
  LEvent (if l_warn e then "warn" else "info")
    (match l_error e with Some m => [("dwnResErrMsg", VStr m)] | None => [] end ++
     [("dwnReqPath", VStr (l_path e)); ("dwnReqRemoteAddr", VStr (l_addr e)); ("dwnReqMethod", VStr (l_method e));
      ("dwnReqUserAgent", VStr (l_agent e)); ("dwnHttpVer", VStr (l_http e)); ("dwnResCode", VInt (l_status e));
      ("dwnResContentEnc", VStr (l_encoding e)); ("dwnElapsedMicros", VInt down); ("X-Request-Id", VStr (l_id e))] ++
     match l_tls e with Some v => [("dwnTlsVer", VStr v)] | None => [] end ++
     match l_up e with
     | Some u => [("upReqURI", VStr (ue_uri u)); ("upLabel", VStr (ue_label u)); ("upAtmptResCode", VInt (ue_status u));
                  ("upAtmptElapsedMicros", VInt up); ("upAtmptAbort", VFlag (ue_abort u)); ("upAtmpt", VStr (ue_count u))]
     | None => []
     end)%list
    (l_text e).

(** proxy.go:628-632 *)
Definition rotate_event (route jwt id kid : string) : levent :=
  LEvent "debug" [("route", VStr route); ("jwt", VStr jwt); ("X-Request-Id", VStr id)]
    ("unmatched kid [" ++ kid ++ "] on incoming req triggered background key rotation search for route [" ++ route ++ "] jwt [" ++ jwt ++ "]").

(** * In colour (logger.go:59-69): ConsoleWriter.Write of console.go reads the members of a line and writes them anew. *)

(** sort.Strings in ConsoleWriter.writeFields *)
Fixpoint insert_member (m : string * lvalue) (l : list (string * lvalue)) : list (string * lvalue) :=
  match l with
  | [] => [m]
  | m' :: l' => match String.compare (fst m) (fst m') with Gt => m' :: insert_member m l' | _ => m :: l end
  end.
Definition sort_members (l : list (string * lvalue)) : list (string * lvalue) := fold_right insert_member [] l.

(** needsQuote of console.go *)
Fixpoint needs_quote (s : string) : bool :=
  match s with
  | EmptyString => false
  | String c s' => negb (N_in 33 126 (N_of_ascii c)) || Ascii.eqb c quote || Ascii.eqb c backslash || needs_quote s'
  end.

Section Console.
  (** strconv.Quote, and the time and level of the line *)
  Variable go_quote : string -> string.
  Variable head : string.

  (** ConsoleWriter.writeFields; the escapes are those of cyan. *)
  Definition console_value (v : lvalue) : string :=
    match v with
    | VStr s | VTime s => if needs_quote s then go_quote s else s
    | VInt z => itoa_Z z
    | VFlag b => if b then "true" else "false"
    end.
  Definition console_field (m : string * lvalue) : string :=
    String (ascii_of_N 27) ("[36m" ++ fst m ++ "=") ++ String (ascii_of_N 27) "[0m" ++ console_value (snd m).

  (** The fields that ConsoleWriter.writeFields writes *)
  Definition console_fields (ms : list (string * lvalue)) : list (string * lvalue) :=
    sort_members (filter (fun m => negb (existsb (String.eqb (fst m)) ["level"; "time"; "message"; "caller"])) ms).

  (** consoleDefaultFormatMessage *)
  Definition console_message (ms : list (string * lvalue)) : string :=
    match List.find (fun m => String.eqb (fst m) "message") ms with Some (_, VStr s) => s | _ => "" end.

  (** ConsoleWriter.Write *)
  Definition console_text (ms : list (string * lvalue)) : string :=
    head ++ console_message ms ++
    (match console_fields ms with [] => "" | fs => " " ++ join " " (map console_field fs) end) ++ String newline "".
End Console.
