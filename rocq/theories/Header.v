(** net/http.Header as the code uses it, and the header copying of proxyhandler.go and proxy.go. *)
From Coq Require Import String Ascii List Bool NArith.
From Verif Require Import GoStr.
Import ListNotations.
Local Open Scope string_scope.

(** A header map: (key, value) pairs.  The values of one key are in order; the order between
    different keys carries no meaning, as in a Go map. *)
Definition header := list (string * string).

(** net/textproto isTokenTable: bytes allowed in a header name. *)
Definition token_char (c : ascii) : bool :=
  let n := N_of_ascii c in
  N_in 48 57 n || N_in 65 90 n || N_in 97 122 n ||
  existsb (Ascii.eqb c) ["!"; "#"; "$"; "%"; "&"; "'"; "*"; "+"; "-"; "."; "^"; "_"; "`"; "|"; "~"]%char.

Definition lower (c : ascii) : ascii :=
  let n := N_of_ascii c in if N_in 65 90 n then ascii_of_N (n + 32) else c.

Fixpoint all_chars (f : ascii -> bool) (s : string) : bool :=
  match s with EmptyString => true | String c s' => f c && all_chars f s' end.

Fixpoint canon_from (up : bool) (s : string) : string :=
  match s with
  | EmptyString => EmptyString
  | String c s' => String (if up then upper c else lower c) (canon_from (Ascii.eqb c "-") s')
  end.

(** net/textproto CanonicalMIMEHeaderKey: first letter and letters after "-" upper case, the others
    lower case; names with other bytes are left alone. *)
Definition canon (k : string) : string := if all_chars token_char k then canon_from true k else k.

(** [h[k]] for a canonical [k], Header.Values *)
Definition values (k : string) (h : header) : list string :=
  map snd (filter (fun p => String.eqb (fst p) k) h).

(** Header.Get *)
Definition get (k : string) (h : header) : string :=
  match values (canon k) h with v :: _ => v | [] => "" end.

(** Header.Add *)
Definition add (k v : string) (h : header) : header := (h ++ [(canon k, v)])%list.

(** Header.Set *)
Definition set (k v : string) (h : header) : header :=
  (filter (fun p => negb (String.eqb (fst p) (canon k))) h ++ [(canon k, v)])%list.

(** proxyhandler.go:16-21 *)
Definition x_request_id : string := "X-Request-Id".
Definition content_encoding_key : string := "Content-Encoding".
Definition transfer_encoding_key : string := "Transfer-Encoding".
Definition content_length_key : string := "Content-Length".

(** proxyhandler.go:28 *)
Definition headers_no_rewrite : list string := ["Date"; content_length_key; transfer_encoding_key; "Server"].

(** proxyhandler.go:284-291 *)
Definition should_proxy_header (k : string) : bool := negb (existsb (equal_fold k) headers_no_rewrite).

(** The loops proxyhandler.go:134-140 and proxy.go:398-404: add what may be copied of [src]. *)
Definition copy_headers (src dst : header) : header :=
  fold_left (fun acc p => if should_proxy_header (fst p) then add (fst p) (snd p) acc else acc) src dst.
