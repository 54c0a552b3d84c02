(** Vocabulary for statements about headers. *)
From Coq Require Import String Ascii List Bool.
From Verif Require Import GoStr Header.
Import ListNotations.
Local Open Scope string_scope.

(** Header names as net/http's parsers deliver them. *)
Definition canonical_keys (h : header) : Prop := forall k v, In (k, v) h -> canon k = k.

Definition never_copied : list string := ["Date"; "Content-Length"; "Transfer-Encoding"; "Server"].

(** RFC 7230 section 6.1 and RFC 2616 section 13.5.1, except Transfer-Encoding. *)
Definition hop_by_hop : list string :=
  ["Connection"; "Keep-Alive"; "Proxy-Authenticate"; "Proxy-Authorization"; "Te"; "Trailer"; "Upgrade"].
