(** Vocabulary for statements about HTTP/1 responses (C142): RFC 7230 sections 3.3.3, 4.1, 6.1 and 6.6. *)
From Coq Require Import String Ascii List Bool ZArith NArith.
From Verif Require Import NumberSpec GoStr Header Exchange Http1.
Import ListNotations.
Local Open Scope string_scope.

(** Hexadecimal numbers *)
Definition hex_value (c : ascii) (n : N) : Prop :=
  (48 <= N_of_ascii c <= 57 /\ n = N_of_ascii c - 48)%N \/ (97 <= N_of_ascii c <= 102 /\ n = N_of_ascii c - 87)%N \/ (65 <= N_of_ascii c <= 70 /\ n = N_of_ascii c - 55)%N.
Inductive hex_number : string -> N -> Prop :=
| hn_one : forall c n, hex_value c n -> hex_number (String c "") n
| hn_more : forall s n c d, hex_number s n -> hex_value c d -> hex_number (s ++ String c "") (16 * n + d).

(** Section 4.1, for chunks without extensions and trailers: [s] is [body] in chunks, followed by [rest]. *)
Inductive in_chunks : string -> string -> string -> Prop :=
| ic_end : forall rest, in_chunks ("0" ++ crlf ++ crlf ++ rest) "" rest
| ic_more : forall size n data s body rest, hex_number size n -> n <> 0%N -> String.length data = N.to_nat n -> in_chunks s body rest ->
    in_chunks (size ++ crlf ++ data ++ crlf ++ s) (data ++ body) rest.

(** Section 3.3.3: messages without a body, and what a client takes for the body of the others, if [s] is what comes after
    the header; [rest] is what it takes for the next message.  [ends] says that the connection is closed behind [s]. *)
Definition bodiless (head : bool) (status : Z) : Prop := head = true \/ (100 <= status < 200)%Z \/ status = 204%Z \/ status = 304%Z.
Inductive client_reads (head : bool) (status : Z) (lines : header) (s : string) (ends : bool) : string -> string -> Prop :=
| cr_none : bodiless head status -> client_reads head status lines s ends "" s
| cr_chunks : forall body rest, ~ bodiless head status -> values "Transfer-Encoding" lines = ["chunked"] -> in_chunks s body rest -> client_reads head status lines s ends body rest
| cr_sized : forall v body rest, ~ bodiless head status -> values "Transfer-Encoding" lines = [] -> values "Content-Length" lines = [v] ->
    numeral v (Z.of_nat (String.length body)) -> s = body ++ rest -> client_reads head status lines s ends body rest
| cr_close : ~ bodiless head status -> values "Transfer-Encoding" lines = [] -> values "Content-Length" lines = [] -> ends = true -> client_reads head status lines s ends s "".

(** A message that carries [body]: the client reads it, and the next one behind it if the connection stays open. *)
Definition carries (head : bool) (m : h1_message) (body : string) : Prop :=
  (h1_close m = true -> client_reads head (h1_status m) (h1_lines m) (h1_bytes m) true body "") /\
  (h1_close m = false -> forall next, client_reads head (h1_status m) (h1_lines m) (h1_bytes m ++ next) false body next).

(** Section 6.1: the value of a Connection line lists close. *)
Definition separates (c : ascii) : Prop := c = " "%char \/ c = ","%char \/ c = "009"%char.
Definition lists_close (v : string) : Prop :=
  exists a w b, v = a ++ w ++ b /\ to_upper w = "CLOSE" /\ (a = "" \/ exists a' c, a = a' ++ String c "" /\ separates c) /\ (b = "" \/ exists c b', b = String c b' /\ separates c).
