(** What clients decode of answers whose coding is written in capitals (C130). *)
From Coq Require Import String Ascii List Bool ZArith.
From Verif Require Import GoStr Header HeaderSpec TextSpec TextProofs Exchange ExchangeSpec ExchangeProofs Machine MachineSpec Handler HandlerSpec SystemSpec
  UrlCases Wire WireSpec WireCases ContentSpec ContentSpell.
Import ListNotations.
Local Open Scope string_scope.

(** C130: however the upstream spells gzip, a client that leaves the choice to the proxy decodes the content if and
    only if that is not compressed again. *)
Theorem C130_spelled_partial : forall dec t r rs body x g, delivered dec t r rs body -> sized (t_req t) -> canonical_keys (q_header (t_req t)) -> timely_run t ->
  codec (t_env t) dec -> canonical_keys (ur_header rs) -> ~ (400 <= ur_status rs < 500)%Z ->
  values "Content-Encoding" (ur_header rs) = [g] -> same_letters g "gzip" -> dec "gzip" body = Some x -> open_to_gzip t ->
  (content_of dec (values "Content-Encoding" (rp_header r)) (rp_body r) = Some x <-> ~ gzip_start x \/ e_gunzip (t_env t) x = x).
Proof. exact delivered_spelled. Qed.
Print Assumptions C130_spelled_partial.

Example C130_spelled_case : (exists r, delivered toy_dec fetch_plain r shouted (packed (packed "abcd"))) /\ open_to_gzip fetch_plain /\
  timely_run fetch_plain /\ codec (t_env fetch_plain) toy_dec /\ values "Content-Encoding" (ur_header shouted) = ["GZip"] /\ same_letters "GZip" "gzip" /\
  toy_dec "gzip" (packed (packed "abcd")) = Some (packed "abcd").
Proof.
  split; [exact shouted_plain|]. split; [split; [exact I|split; [exact I|discriminate]]|]. split; [exact fetch_plain_timely|]. split; [exact toy_codec|].
  split; [reflexivity|]. split; [now apply equal_fold_iff|reflexivity].
Qed.
