(** Vocabulary for statements about requests over HTTP/2 (C141): RFC 7540 section 8.1.2, RFC 7230 section 3.1.1. *)
From Coq Require Import String Ascii List Bool ZArith NArith.
From Verif Require Import GoStr RegexSpec Exchange Handler Url Http2Spec Http2Req.
Import ListNotations.
Local Open Scope string_scope.

(** The values of the fields with a name, in order *)
Definition field_values (k : string) (fs : list (string * string)) : list string := map snd (filter (fun p => String.eqb (fst p) k) fs).

(** Pseudo-fields of requests, each once at most, before all other fields *)
Definition pseudo_names : list string := [":method"; ":scheme"; ":authority"; ":path"].
Definition formed (fs : list (string * string)) : Prop :=
  exists ps rs, fs = (ps ++ rs)%list /\ NoDup (map fst ps) /\
    (forall k v, In (k, v) ps -> In k pseudo_names /\ field_value v) /\ (forall k v, In (k, v) rs -> field_name k /\ field_value v).

(** No field is about the connection, except TE: trailers. *)
Definition unconnected (fs : list (string * string)) : Prop :=
  (forall k, In k connection_specific -> field_values k fs = []) /\ In (field_values "te" fs) [[]; ["trailers"]; [""]].

(** Method and target *)
Definition request_for (fs : list (string * string)) (method target : string) : Prop :=
  field_values ":method" fs = [method] /\ method <> "" /\ target <> "" /\
  (method = "CONNECT" -> field_values ":authority" fs = [target] /\ In (field_values ":path" fs) [[]; [""]] /\ In (field_values ":scheme" fs) [[]; [""]]) /\
  (method <> "CONNECT" -> field_values ":path" fs = [target] /\ In (field_values ":scheme" fs) [["http"]; ["https"]]).

(** A client's name for a field, and the upstream's *)
Definition dropped_names : list string := ["cookie"; "expect"; "trailer"].

Definition total (frames : list string) : string := fold_right append "" frames.

(** A line with three parts, and a reader that takes the first two spaces for the ends of the first two parts *)
Definition request_line (line method target : string) : Prop :=
  line = method ++ " " ++ target ++ " HTTP/1.1" /\ has_char " " method = false /\ has_char " " target = false.
Definition reads (line method target version : string) : Prop :=
  line = method ++ " " ++ target ++ " " ++ version /\ has_char " " method = false /\ has_char " " target = false.
