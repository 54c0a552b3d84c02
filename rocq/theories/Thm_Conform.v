(** Rules of RFC 7230 to 7235 for whoever changes, answers or passes on messages (C116 to C120). *)
From Coq Require Import String Ascii List Bool ZArith NArith.
From Verif Require Import GoStr TextSpec Header HeaderSpec Config Exchange ExchangeSpec ExchangeProofs Machine MachineSpec MachineRaces
  Handler HandlerSpec HandlerCases SystemSpec SystemProofs SystemCases ConformSpec ConformProofs ConformCases.
Import ListNotations.
Local Open Scope string_scope.

(** * C116: Vary *)

(** What the upstream says about Accept-Encoding is passed on ... *)
Theorem C116_kept_partial : forall t r rs body, relayed t r rs body -> sized (t_req t) -> timely_run t -> canonical_keys (ur_header rs) ->
  ~ (400 <= ur_status rs < 500)%Z -> (says_varies (rp_header r) <-> says_varies (ur_header rs)).
Proof. exact varies_kept. Qed.
Print Assumptions C116_kept_partial.

Example C116_kept_case : (exists r, relayed (fetch zip varied_answer "abcd" 12) r varied_answer "abcd") /\ timely_run (fetch zip varied_answer "abcd" 12) /\
  canonical_keys (ur_header varied_answer) /\ says_varies (ur_header varied_answer).
Proof.
  split; [destruct varied_zip as (r & R & _); now exists r|]. split; [exact varied_zip_timely|]. split; [exact canonical_varied|exact varied_says].
Qed.

(** ... and nothing else ever says so: no response of the proxy's own, and none it compressed or decompressed. *)
Theorem C116_source : forall t r, replies t r -> sized (t_req t) -> timely_run t -> canonical_answers (t_run t) ->
  says_varies (rp_header r) -> exists rs body, relayed t r rs body /\ ~ (400 <= ur_status rs < 500)%Z /\ says_varies (ur_header rs).
Proof. exact varies_source. Qed.
Print Assumptions C116_source.

Example C116_source_case : (exists r, replies (fetch zip varied_answer "abcd" 12) r) /\ timely_run (fetch zip varied_answer "abcd" 12) /\
  canonical_answers (t_run (fetch zip varied_answer "abcd" 12)).
Proof. split; [destruct varied_zip as (r & _ & R & _); now exists r|]. split; [exact varied_zip_timely|exact canonical_run]. Qed.

(** Any answer with a body is sent with different bytes to clients with and without gzip. *)
Theorem C116_depends : forall t1 t2 r1 r2 rs body, t_env t1 = t_env t2 ->
  relayed t1 r1 rs body -> sized (t_req t1) -> timely_run t1 -> relayed t2 r2 rs body -> sized (t_req t2) -> timely_run t2 ->
  canonical_keys (ur_header rs) -> ~ (400 <= ur_status rs < 500)%Z -> gzip_client (t_req t1) -> ~ gzip_client (t_req t2) ->
  body <> "" -> (gzip_start body -> e_gunzip (t_env t1) body <> body) -> (~ gzip_start body -> e_gzip (t_env t1) body <> body) ->
  rp_body r1 <> rp_body r2 /\ (says_varies (rp_header r1) <-> says_varies (ur_header rs)) /\ (says_varies (rp_header r2) <-> says_varies (ur_header rs)).
Proof. exact depends. Qed.
Print Assumptions C116_depends.

Example C116_depends_case : (exists r1, relayed (fetch zip text_answer "abcd" 12) r1 text_answer "abcd") /\
  (exists r2, relayed (fetch [] text_answer "abcd" 14) r2 text_answer "abcd") /\
  gzip_client (t_req (fetch zip text_answer "abcd" 12)) /\ ~ gzip_client (t_req (fetch [] text_answer "abcd" 14)) /\
  ~ gzip_start "abcd" /\ e_gzip toy "abcd" <> "abcd".
Proof.
  split; [destruct text_zip as (r & R & _); now exists r|]. split; [destruct text_plain as (r & R & _); now exists r|].
  split; [apply zip_client|]. split; [apply plain_client|]. split; [exact not_gzip|vm_compute; discriminate].
Qed.

(** The rule fails: requests that differ in Accept-Encoding only get different bytes without a word in Vary. *)
Theorem C116_refuted : exists t1 t2 r1 r2 rs body, same_but_encoding t1 t2 /\ (sized (t_req t1) /\ timely_run t1 /\ relayed t1 r1 rs body) /\
  (sized (t_req t2) /\ timely_run t2 /\ relayed t2 r2 rs body) /\ rp_body r1 <> rp_body r2 /\ ~ says_varies (rp_header r1) /\ ~ says_varies (rp_header r2).
Proof. exact vary_refuted. Qed.
Print Assumptions C116_refuted.

(** * C117: no-transform *)

(** When the bytes of an answer stay as they are: if the client asks for gzip exactly if the body looks
    like gzip.  Cache-Control is not among the conditions. *)
Theorem C117_kept_partial : forall t r rs body, relayed t r rs body -> sized (t_req t) -> timely_run t -> ~ (400 <= ur_status rs < 500)%Z ->
  e_gzip (t_env t) body <> body -> e_gunzip (t_env t) body <> body ->
  (rp_body r = body <-> body = "" \/ (gzip_client (t_req t) <-> gzip_start body)).
Proof. exact body_kept_iff. Qed.
Print Assumptions C117_kept_partial.

Example C117_kept_case : (exists r, relayed (fetch [] text_answer "abcd" 14) r text_answer "abcd") /\ timely_run (fetch [] text_answer "abcd" 14) /\
  e_gzip toy "abcd" <> "abcd" /\ e_gunzip toy "abcd" <> "abcd" /\
  (gzip_client (t_req (fetch [] text_answer "abcd" 14)) <-> gzip_start "abcd") /\ no_transform (ur_header text_answer).
Proof.
  split; [destruct text_plain as (r & R & _); now exists r|]. split; [exact text_plain_timely|]. split; [vm_compute; discriminate|].
  split; [vm_compute; discriminate|]. split; [|exact text_no_transform].
  split; intro H; [elim (plain_client _ _ _ H)|elim (not_gzip H)].
Qed.

Theorem C117_refuted : exists t r rs body, relayed t r rs body /\ sized (t_req t) /\ timely_run t /\ ~ (400 <= ur_status rs < 500)%Z /\
  no_transform (ur_header rs) /\ rp_body r <> body.
Proof. exact transform_refuted. Qed.
Print Assumptions C117_refuted.

(** * C118: strong validators and partial content *)

(** If the upstream's strong tags mean bytes, those of the responses do among clients who all ask for
    gzip, or all do not. *)
Theorem C118_tags_partial : forall t1 t2 r1 r2 rs1 rs2 body1 body2 tag, t_env t1 = t_env t2 ->
  relayed t1 r1 rs1 body1 -> sized (t_req t1) -> timely_run t1 -> canonical_keys (ur_header rs1) -> ~ (400 <= ur_status rs1 < 500)%Z ->
  relayed t2 r2 rs2 body2 -> sized (t_req t2) -> timely_run t2 -> canonical_keys (ur_header rs2) -> ~ (400 <= ur_status rs2 < 500)%Z ->
  (strong_tag (ur_header rs1) tag -> strong_tag (ur_header rs2) tag -> body1 = body2) ->
  (gzip_client (t_req t1) <-> gzip_client (t_req t2)) ->
  strong_tag (rp_header r1) tag -> strong_tag (rp_header r2) tag -> rp_body r1 = rp_body r2.
Proof. exact tags_mean_bytes. Qed.
Print Assumptions C118_tags_partial.

Theorem C118_tag_kept : forall t r rs body tag, relayed t r rs body -> sized (t_req t) -> timely_run t -> canonical_keys (ur_header rs) ->
  ~ (400 <= ur_status rs < 500)%Z -> (strong_tag (rp_header r) tag <-> strong_tag (ur_header rs) tag).
Proof. exact tag_kept. Qed.
Print Assumptions C118_tag_kept.

Example C118_tag_case : (exists r, relayed (fetch [] text_answer "abcd" 14) r text_answer "abcd") /\ timely_run (fetch [] text_answer "abcd" 14) /\
  canonical_keys (ur_header text_answer) /\ strong_tag (ur_header text_answer) """v1""".
Proof.
  split; [destruct text_plain as (r & R & _); now exists r|]. split; [exact text_plain_timely|]. split; [exact canonical_text|exact text_tag].
Qed.

Theorem C118_tags_refuted : exists t1 t2 r1 r2 rs body tag, same_but_encoding t1 t2 /\ (sized (t_req t1) /\ timely_run t1 /\ relayed t1 r1 rs body) /\
  (sized (t_req t2) /\ timely_run t2 /\ relayed t2 r2 rs body) /\ strong_tag (rp_header r1) tag /\ strong_tag (rp_header r2) tag /\ rp_body r1 <> rp_body r2.
Proof. exact tag_refuted. Qed.
Print Assumptions C118_tags_refuted.

(** A part stays as long as its Content-Range says, for such clients. *)
Theorem C118_part_partial : forall t r rs body, relayed t r rs body -> sized (t_req t) -> timely_run t -> canonical_keys (ur_header rs) ->
  ur_status rs = 206%Z -> part_of (ur_header rs) (String.length body) -> (gzip_client (t_req t) <-> gzip_start body) ->
  rp_status r = 206%Z /\ part_of (rp_header r) (String.length (rp_body r)).
Proof. exact part_kept. Qed.
Print Assumptions C118_part_partial.

Example C118_part_case : (exists r, relayed (fetch [] part_answer "abcd" 14) r part_answer "abcd") /\ timely_run (fetch [] part_answer "abcd" 14) /\
  canonical_keys (ur_header part_answer) /\ part_of (ur_header part_answer) (String.length "abcd").
Proof.
  split; [destruct part_plain as (r & R & _); now exists r|]. split; [exact part_plain_timely|]. split; [exact canonical_part|exact part_whole].
Qed.

Theorem C118_part_refuted : exists t r rs body, relayed t r rs body /\ sized (t_req t) /\ timely_run t /\ ur_status rs = 206%Z /\
  part_of (ur_header rs) (String.length body) /\
  rp_status r = 206%Z /\ values "Content-Range" (rp_header r) = ["bytes 0-3/10"] /\ String.length (rp_body r) = 6.
Proof. exact part_refuted. Qed.
Print Assumptions C118_part_refuted.

(** * C119: challenges *)

(** No 4xx response has any header but the proxy's own five: no WWW-Authenticate with 401, no Allow with
    405, no Retry-After with 429, whatever the upstream sent. *)
Theorem C119_bare : forall t r k, replies t r -> sized (t_req t) -> timely_run t -> (400 <= rp_status r < 500)%Z ->
  ~ In k error_headers -> values k (rp_header r) = [].
Proof. exact errors_bare. Qed.
Print Assumptions C119_bare.

Example C119_bare_case : exists r, replies (fetch [] challenge "who?" 8) r /\ timely_run (fetch [] challenge "who?" 8) /\ rp_status r = 401%Z /\
  ~ In "Www-Authenticate" error_headers.
Proof.
  destruct challenged as (r & _ & P & T). exists r. split; [exact P|]. split; [exact challenged_timely|]. split; [exact T|].
  intro H. cbn in H. repeat (destruct H as [H|H]; [discriminate H|]). destruct H.
Qed.

Theorem C119_refuted : (exists t r rs body, relayed t r rs body /\ replies t r /\ sized (t_req t) /\ timely_run t /\ rp_status r = 401%Z /\
    values "Www-Authenticate" (ur_header rs) <> [] /\ values "Www-Authenticate" (rp_header r) = []) /\
  exists t r, t_serve t = Answered r /\ rp_status r = 401%Z /\ values "Www-Authenticate" (rp_header r) = [].
Proof. exact challenge_refuted. Qed.
Print Assumptions C119_refuted.

(** * C120: hops *)

(** The headers that tell of hops are those of the client, in every request sent: none is counted down,
    added or corrected. *)
Theorem C120_kept : forall t x k, asks t x -> sized (t_req t) -> canonical_keys (q_header (t_req t)) ->
  In k ["Max-Forwards"; "Via"; "Forwarded"; "X-Forwarded-For"; "X-Forwarded-Host"; "X-Forwarded-Proto"] ->
  values k (uq_header x) = values k (q_header (t_req t)).
Proof. exact request_kept. Qed.
Print Assumptions C120_kept.

Example C120_kept_case : (exists x, asks (traced last_hop) x) /\ sized (t_req (traced last_hop)) /\ canonical_keys (q_header (t_req (traced last_hop))) /\
  values "X-Forwarded-For" (q_header (t_req (traced last_hop))) = ["10.0.0.1"].
Proof. split; [exact traced_asks|]. split; [exact traced_sized|]. split; [exact traced_canonical|reflexivity]. Qed.

(** RFC 7231 section 5.1.2: a TRACE or OPTIONS request with Max-Forwards 0 is not to be passed on. *)
Theorem C120_hops_refuted : exists t x, asks t x /\ sized (t_req t) /\ canonical_keys (q_header (t_req t)) /\
  In (to_upper (q_method (t_req t))) ["TRACE"; "OPTIONS"] /\ values "Max-Forwards" (q_header (t_req t)) = ["0"] /\ values "Max-Forwards" (uq_header x) = ["0"].
Proof. exact hops_refuted. Qed.
Print Assumptions C120_hops_refuted.

(** RFC 7230 section 5.7.1: a gateway has to send Via in every request. *)
Theorem C120_via_refuted : exists t x, asks t x /\ sized (t_req t) /\ canonical_keys (q_header (t_req t)) /\ values "Via" (uq_header x) = [].
Proof. exact via_refuted. Qed.
Print Assumptions C120_via_refuted.
