(** Vocabulary for Thm_Http1Client: RFC 7230 sections 6.1 and 7. *)
From Coq Require Import String Ascii List.
From Verif Require Import GoStr Header RegexSpec Exchange Http1Spec.
Import ListNotations.
Local Open Scope string_scope.

(** Spaces and tabs *)
Inductive gap : string -> Prop :=
| gap_none : gap ""
| gap_more : forall c s, c = " "%char \/ c = "009"%char -> gap s -> gap (String c s).

(** [v] is a list of elements separated by commas, one of which spells [tok], written in capitals, between spaces and tabs. *)
Definition among (tok v : string) : Prop :=
  exists es l w r, v = join "," es /\ (forall x, In x es -> forall a b, x <> a ++ String "," b) /\ In (l ++ w ++ r) es /\ gap l /\ gap r /\ to_upper w = tok.

(** A client asks for its connection to be closed. *)
Definition asks_close (q : request) : Prop :=
  (exists v, In v (values "Connection" (q_header q)) /\ among "CLOSE" v) \/ (exists v vs, values "Connection" (q_header q) = v :: vs /\ lists_close v).

(** [v] lists the token keep-alive, in small or capital letters. *)
Definition lists_keep (v : string) : Prop :=
  exists a w b, v = a ++ w ++ b /\ to_upper w = "KEEP-ALIVE" /\ (a = "" \/ exists a' c, a = a' ++ String c "" /\ separates c) /\ (b = "" \/ exists c b', b = String c b' /\ separates c).

(** The methods whose responses are framed: HEAD in capitals, and all others except CONNECT. *)
Definition framed_method (m : string) : Prop := m = "HEAD" \/ (to_upper m <> "HEAD" /\ to_upper m <> "CONNECT").
