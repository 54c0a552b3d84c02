(** C141: which requests over HTTP/2 are answered by net/http. *)
From Coq Require Import String Ascii List Bool ZArith NArith.
From Verif Require Import GoStr Header Handler Url UrlSpec Http2 Http2Spec Http2Req Http2ReqSpec Http2ReqCases Http2ReqBad.
Import ListNotations.
Local Open Scope string_scope.

(** Requests with fields about the connection, and only these, get status 400; others that the handler does not see (C141_served)
    have their stream reset. *)
Theorem C141_bad : forall s, h2_read s = H2Bad <->
  formed (hs_fields s) /\ ~ unconnected (hs_fields s) /\
  exists m target, request_for (hs_fields s) m target /\ (m = "HEAD" -> hs_ended s = true) /\ (m <> "CONNECT" -> read_target m target <> None).
Proof. exact bad_iff. Qed.
Print Assumptions C141_bad.

Example C141_bad_case : h2_read (H2Sent (pseudo "GET" "/a" ++ [("te", "gzip")])%list true [] true) = H2Bad /\
  h2_read (H2Sent (pseudo "GET" "/%zz" ++ [("te", "gzip")])%list true [] true) = H2Reset.
Proof. split; vm_compute; reflexivity. Qed.
