(** C141: lengths over HTTP/2 that are no numbers. *)
From Coq Require Import String Ascii List Bool ZArith NArith.
From Verif Require Import GoStr NumberSpec Header Exchange Handler Http2 Http2Spec Http2Req Http2ReqSpec Http2ReqCases Http2LengthSpec Http2ReqLength.
Import ListNotations.
Local Open Scope string_scope.

(** They count as 0, so that every body is too long. *)
Theorem C141_misread : forall s i v vs, h2_read s = H2Served i -> hs_ended s = false -> field_values "content-length" (hs_fields s) = v :: vs -> misread v ->
  q_length (i_req i) = 0%Z /\ (q_data_ok (i_req i) = true <-> hs_complete s = true /\ total (hs_frames s) = "").
Proof. exact served_misread. Qed.
Print Assumptions C141_misread.

Example C141_misread_case : misread "3x" /\
  h2_read (H2Sent (pseudo "POST" "/a" ++ [("content-length", "3x")])%list false ["abc"] true) =
  H2Served (Incoming (Req "POST" "/a" "/a" [("Content-Length", "3x")] 0 "" false) "/a").
Proof.
  split; [|vm_compute; reflexivity]. exists "3", "x"%char, "". split; [reflexivity|]. split; [intros [_ X]; now elim X|]. right. exists 3%Z.
  split; [|discriminate]. change 3%Z with (Z.of_N (N_of_ascii "3") - 48)%Z. apply nu_one. now split.
Qed.
