(** C93 and C94. *)
From Coq Require Import String Ascii List Bool ZArith.
From Verif Require Import GoStr Header HeaderSpec Exchange ExchangeSpec Machine MachineSpec Handler HandlerSpec SystemSpec Gzip GzipSpec GzipProofs GzipCases.
Import ListNotations.
Local Open Scope string_scope.

(** C93: whatever else is compressed and decompressed at the same time, and whatever the pools hand out,
    the k-th call of Gzip returns what a compressor emits for its input alone, *)
Theorem C93_gzip : forall Z U z_made z_fresh z_write z_close u_made u_reset u_read ls (g : @gzips Z U) k out,
  gzip_exec z_made z_fresh z_write z_close u_made u_reset u_read gzip_init ls = Some g -> zip_result g k = Some out ->
  exists input, nth_error (zip_inputs ls) k = Some input /\ emits z_write z_close z_fresh input out.
Proof. exact @gzip_alone. Qed.
Print Assumptions C93_gzip.

(** and the slice it returned holds that from then on. *)
Theorem C93_kept : forall Z U z_made z_fresh z_write z_close u_made u_reset u_read ls (g : @gzips Z U) k out ls' g',
  gzip_exec z_made z_fresh z_write z_close u_made u_reset u_read gzip_init ls = Some g -> zip_result g k = Some out ->
  gzip_exec z_made z_fresh z_write z_close u_made u_reset u_read g ls' = Some g' -> zip_result g' k = Some out.
Proof. exact @gzip_kept. Qed.
Print Assumptions C93_kept.

(** The same for Gunzip; here the pieces are what the decompressor yields until its input ends or is found
    to be corrupt. *)
Theorem C93_gunzip : forall Z U z_made z_fresh z_write z_close u_made u_reset u_read ls (g : @gzips Z U) k out,
  gzip_exec z_made z_fresh z_write z_close u_made u_reset u_read gzip_init ls = Some g -> unzip_result g k = Some out ->
  exists input, nth_error (unzip_inputs ls) k = Some input /\ yields u_read (u_reset input) out.
Proof. exact @gunzip_alone. Qed.
Print Assumptions C93_gunzip.

(** What is emitted or yielded is a function of the input. *)
Theorem C93_function : forall Z U (z_fresh : Z) z_write z_close (u_reset : string -> U) u_read,
  (forall s, exists out, emits z_write z_close z_fresh s out) /\
  (forall s a b, emits z_write z_close z_fresh s a -> emits z_write z_close z_fresh s b -> a = b) /\
  (forall s a b, yields u_read (u_reset s) a -> yields u_read (u_reset s) b -> a = b).
Proof. exact @codings_functions. Qed.
Print Assumptions C93_function.

(** No call waits for another: at any time a call can run to its end alone. *)
Theorem C93_gzip_returns : forall Z U z_made z_fresh z_write z_close u_made u_reset u_read ls (g : @gzips Z U) k input,
  gzip_exec z_made z_fresh z_write z_close u_made u_reset u_read gzip_init ls = Some g -> nth_error (zip_inputs ls) k = Some input ->
  exists n g' out, gzip_exec z_made z_fresh z_write z_close u_made u_reset u_read g (repeat (Zip k None) n) = Some g' /\ zip_result g' k = Some out.
Proof. exact @gzip_returns. Qed.
Print Assumptions C93_gzip_returns.

Theorem C93_gunzip_returns : forall Z U z_made z_fresh z_write z_close u_made u_reset u_read ls (g : @gzips Z U) k input all,
  gzip_exec z_made z_fresh z_write z_close u_made u_reset u_read gzip_init ls = Some g -> nth_error (unzip_inputs ls) k = Some input ->
  yields u_read (u_reset input) all ->
  exists n g' out, gzip_exec z_made z_fresh z_write z_close u_made u_reset u_read g (repeat (Unzip k None) n) = Some g' /\ unzip_result g' k = Some out.
Proof. exact @gunzip_returns. Qed.
Print Assumptions C93_gunzip_returns.

Example C93_case : option_map (fun g => (List.map (zip_result g) [0; 1; 2], unzip_result g 0, length (g_wrts g), g_zpool g)) (toy_gzip mixed) =
  Some ([Some "<ab>"; Some "<cd>"; Some "<e>"], Some "yz", 2, [1; 0]).
Proof. exact mixed_runs. Qed.

(** C94 fails: a gzip body that is corrupt, or breaks off, reaches a client without gzip as a complete
    response. *)
Theorem C94_refuted : exists t dec r rs body, codec (t_env t) dec /\ relayed t r rs body /\ replies t r /\ sized (t_req t) /\ timely_run t /\
  no_gzip_client (t_req t) /\ values "Content-Encoding" (ur_header rs) = ["gzip"] /\ dec "gzip" body = None /\
  rp_status r = 200%Z /\ rp_body r = "hel" /\ content_of dec (values "Content-Encoding" (rp_header r)) (rp_body r) = Some "hel".
Proof. exact cut_delivered. Qed.
Print Assumptions C94_refuted.

(** A body labelled gzip that cannot be decoded stays so if the client takes gzip and the body begins like
    one, or if neither is the case. *)
Theorem C94_partial : forall t dec r rs body, relayed t r rs body -> sized (t_req t) -> timely_run t ->
  canonical_keys (ur_header rs) -> ~ (400 <= ur_status rs < 500)%Z ->
  values "Content-Encoding" (ur_header rs) = ["gzip"] -> dec "gzip" body = None ->
  ((exists v vs, values "Accept-Encoding" (q_header (t_req t)) = v :: vs /\ contains v "gzip" = true) /\ gzip_start body) \/
  (no_gzip_client (t_req t) /\ ~ gzip_start body) ->
  rp_body r = body /\ content_of dec (values "Content-Encoding" (rp_header r)) (rp_body r) = None.
Proof. exact relayed_undecodable. Qed.
Print Assumptions C94_partial.

Example C94_case : let t := cut_off [("Accept-Encoding", "gzip")] in
  (exists r, relayed t r gzipped cut) /\ sized (t_req t) /\ timely_run t /\ half_dec "gzip" cut = None /\ gzip_start cut.
Proof.
  destruct cut_gzip as [r [H _]]. split; [now exists r|]. split; [apply cut_sized|]. split; [exact (proj2 cut_timely)|]. split; [reflexivity|]. now apply ExchangeProofs.is_gzip_iff.
Qed.
