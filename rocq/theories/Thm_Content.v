(** What clients decode of the answers passed on, exactly (C29, C94, C130). *)
From Coq Require Import String Ascii List Bool ZArith.
From Verif Require Import GoStr Header HeaderSpec Exchange ExchangeSpec ExchangeProofs Machine MachineSpec Handler HandlerSpec SystemSpec
  ConformCases UrlCases Wire WireSpec WireCases GzipCases ContentSpec ContentProofs ContentWire.
Import ListNotations.
Local Open Scope string_scope.

(** C29: what the client decodes, for every answer ... *)
Theorem C29_decoded_partial : forall t dec r rs body, relayed t r rs body -> sized (t_req t) -> timely_run t ->
  codec (t_env t) dec -> canonical_keys (ur_header rs) -> ~ (400 <= ur_status rs < 500)%Z ->
  decodes dec (e_gunzip (t_env t)) (t_req t) (values "Content-Encoding" (ur_header rs)) body
    (content_of dec (values "Content-Encoding" (rp_header r)) (rp_body r)).
Proof. exact relayed_decodes. Qed.
Print Assumptions C29_decoded_partial.

(** ... which leaves no choice ... *)
Theorem C29_decoded_once : forall dec unzip q ce body y z, decodes dec unzip q ce body y -> decodes dec unzip q ce body z -> y = z.
Proof. exact decodes_one. Qed.
Print Assumptions C29_decoded_once.

(** ... and when that is the content the upstream sent. *)
Theorem C29_exactly_partial : forall t dec r rs body x, relayed t r rs body -> sized (t_req t) -> timely_run t ->
  codec (t_env t) dec -> canonical_keys (ur_header rs) -> ~ (400 <= ur_status rs < 500)%Z ->
  content_of dec (values "Content-Encoding" (ur_header rs)) body = Some x ->
  (content_of dec (values "Content-Encoding" (rp_header r)) (rp_body r) = Some x <->
   kept_content dec (e_gunzip (t_env t)) (t_req t) (values "Content-Encoding" (ur_header rs)) body x).
Proof. exact relayed_kept. Qed.
Print Assumptions C29_exactly_partial.

(** Both sides of the condition occur. *)
Example C29_exactly_case :
  ((exists r, relayed fetch_zip r archive_answer (packed (packed "abcd"))) /\ sized (t_req fetch_zip) /\ timely_run fetch_zip /\ codec (t_env fetch_zip) toy_dec /\
   values "Content-Encoding" (ur_header archive_answer) = ["gzip"] /\ content_of toy_dec ["gzip"] (packed (packed "abcd")) = Some (packed "abcd") /\
   kept_content toy_dec (e_gunzip (t_env fetch_zip)) (t_req fetch_zip) ["gzip"] (packed (packed "abcd")) (packed "abcd")) /\
  ((exists r, relayed fetch_plain r archive_taken (packed "abcd")) /\ sized (t_req fetch_plain) /\ timely_run fetch_plain /\ codec (t_env fetch_plain) toy_dec /\
   values "Content-Encoding" (ur_header archive_taken) = [] /\ content_of toy_dec [] (packed "abcd") = Some (packed "abcd") /\
   ~ kept_content toy_dec (e_gunzip (t_env fetch_plain)) (t_req fetch_plain) [] (packed "abcd") (packed "abcd")).
Proof.
  split.
  - split; [exact zip_relayed|]. split; [apply fetch_sized|]. split; [exact fetch_zip_timely|]. split; [exact toy_codec|].
    split; [reflexivity|]. split; [reflexivity|exact zip_kept].
  - split; [exact plain_relayed|]. split; [apply fetch_sized|]. split; [exact fetch_plain_timely|]. split; [exact toy_codec|].
    split; [reflexivity|]. split; [reflexivity|exact plain_not_kept].
Qed.

(** C94: exactly when a body labelled gzip that cannot be decoded stays one that cannot be decoded. *)
Theorem C94_exactly_partial : forall t dec r rs body, relayed t r rs body -> sized (t_req t) -> timely_run t ->
  codec (t_env t) dec -> canonical_keys (ur_header rs) -> ~ (400 <= ur_status rs < 500)%Z ->
  values "Content-Encoding" (ur_header rs) = ["gzip"] -> dec "gzip" body = None ->
  (content_of dec (values "Content-Encoding" (rp_header r)) (rp_body r) = None <->
   body = "" \/ (takes_gzip (t_req t) <-> gzip_start body) \/ (gzip_start body /\ e_gunzip (t_env t) body = "")).
Proof. exact relayed_broken. Qed.
Print Assumptions C94_exactly_partial.

Example C94_exactly_case : let t := cut_off [("Accept-Encoding", "gzip")] in
  (exists r, relayed t r gzipped cut) /\ sized (t_req t) /\ timely_run t /\ codec (t_env t) half_dec /\
  values "Content-Encoding" (ur_header gzipped) = ["gzip"] /\ half_dec "gzip" cut = None /\ (takes_gzip (t_req t) <-> gzip_start cut).
Proof.
  destruct cut_gzip as [r [H _]]. split; [now exists r|]. split; [apply cut_sized|]. split; [exact (proj2 cut_timely)|]. split; [exact half_codec|].
  split; [reflexivity|]. split; [reflexivity|]. split; intros _; [now apply is_gzip_iff|]. eexists. eexists. split; reflexivity.
Qed.

(** C130: the same for what is on the wire. *)
Theorem C130_exactly_partial : forall dec t r rs body x, delivered dec t r rs body -> sized (t_req t) -> canonical_keys (q_header (t_req t)) -> timely_run t ->
  codec (t_env t) dec -> canonical_keys (ur_header rs) -> ~ (400 <= ur_status rs < 500)%Z ->
  let ce := values "Content-Encoding" (ur_header rs) in
  let got := content_of dec (values "Content-Encoding" (rp_header r)) (rp_body r) in content_of dec ce body = Some x ->
  (ce = ["gzip"] -> open_to_gzip t -> (got = Some x <-> ~ gzip_start x \/ e_gunzip (t_env t) x = x)) /\
  (ce = [] \/ ce = ["identity"] \/ ~ open_to_gzip t -> (got = Some x <-> kept_content dec (e_gunzip (t_env t)) (t_req t) ce body x)).
Proof. exact delivered_exactly. Qed.
Print Assumptions C130_exactly_partial.

Example C130_exactly_case : (exists r, delivered toy_dec fetch_plain r archive_answer (packed (packed "abcd"))) /\ open_to_gzip fetch_plain /\
  timely_run fetch_plain /\ codec (t_env fetch_plain) toy_dec /\ gzip_start (packed "abcd") /\ e_gunzip (t_env fetch_plain) (packed "abcd") = "abcd".
Proof.
  destruct archive_plain as (r & D & _). split; [now exists r|]. split; [split; [exact I|split; [exact I|discriminate]]|].
  split; [exact fetch_plain_timely|]. split; [exact toy_codec|]. split; [apply is_gzip_iff; reflexivity|reflexivity].
Qed.
