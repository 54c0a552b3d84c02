(** Proofs about rules for intermediaries (C116 to C120). *)
From Coq Require Import String Ascii List Bool ZArith NArith Lia.
From Verif Require Import GoStr TextSpec Regex Policy Header HeaderSpec HeaderProofs Config Routing Json Exchange ExchangeSpec ExchangeProofs Machine MachineSpec MachineRaces
  Handler HandlerSpec HandlerCases SystemSpec SystemProofs SystemCases ConformSpec.
Import ListNotations.
Local Open Scope string_scope.

(** * Clients *)

Lemma prefix_cut : forall sub s, String.prefix sub s = true -> exists b, s = sub ++ b.
Proof.
  induction sub as [|c sub IH]; intros s H; [now exists s|]. destruct s as [|d s]; [discriminate H|]. cbn [String.prefix] in H.
  destruct (ascii_dec c d) as [->|]; [|discriminate H]. destruct (IH s H) as [b ->]. now exists b.
Qed.

Lemma cut_prefix : forall sub b, String.prefix sub (sub ++ b) = true.
Proof. induction sub as [|c sub IH]; intro b; [now destruct b|]. cbn [append String.prefix]. destruct (ascii_dec c c); [apply IH|congruence]. Qed.

Lemma contains_iff : forall sub s, contains s sub = true <-> occurs sub s.
Proof.
  intros sub s. split.
  - induction s as [|c s IH]; cbn [contains]; rewrite orb_true_iff; intros [H|H].
    + destruct (prefix_cut _ _ H) as [b ->]. now exists "", b.
    + discriminate H.
    + destruct (prefix_cut _ _ H) as [b E]. exists "", b. exact E.
    + destruct (IH H) as (a & b & ->). now exists (String c a), b.
  - intros (a & b & ->). induction a as [|c a IH].
    + destruct (sub ++ b) eqn:E; cbn [append contains]; rewrite <- E, cut_prefix; reflexivity.
    + cbn [append contains]. rewrite IH. apply orb_true_r.
Qed.

Lemma flag_iff : forall E fresh q, w_send_gzip (parse_incoming E fresh q) = true <-> gzip_client q.
Proof.
  intros E fresh q. cbn [parse_incoming w_send_gzip]. unfold get, gzip_client. change (canon "Accept-Encoding") with "Accept-Encoding".
  destruct (values "Accept-Encoding" (q_header q)) as [|v vs].
  - split; [discriminate|]. intros (v & vs & H & _). discriminate H.
  - rewrite contains_iff. split; [intro H; now exists v, vs|]. intros (v' & vs' & H & O). now injection H as -> ->.
Qed.

Lemma flag_not : forall E fresh q, ~ gzip_client q -> w_send_gzip (parse_incoming E fresh q) = false.
Proof. intros E fresh q H. destruct (w_send_gzip _) eqn:F; [|reflexivity]. elim H. now apply (flag_iff E fresh q). Qed.

Lemma no_gzip_not : forall q, no_gzip_client q -> ~ gzip_client q.
Proof.
  intros q H (v & vs & E & O). apply contains_iff in O. rewrite (H v) in O; [discriminate O|]. rewrite E. now left.
Qed.

(** * The body of a relayed answer *)

Lemma body_gzip : forall t r rs body, relayed t r rs body -> sized (t_req t) -> timely_run t -> ~ (400 <= ur_status rs < 500)%Z ->
  gzip_client (t_req t) -> body <> "" -> ~ gzip_start body -> rp_body r = e_gzip (t_env t) body.
Proof.
  intros t r rs body H Hq Ht Hs Hg Hb Hz. destruct (relayed_proxied t r rs body H Hq Ht) as (dice & -> & _). unfold parsed, proxied.
  rewrite (not_client_error _ Hs). cbn [assemble rp_body df_gz_body]. unfold encode_body.
  rewrite (proj2 (flag_iff _ _ _) Hg), (proj2 (is_gzip_not _) Hz), (proj2 (String.eqb_neq _ _) Hb). reflexivity.
Qed.

Lemma body_gunzip : forall t r rs body, relayed t r rs body -> sized (t_req t) -> timely_run t -> ~ (400 <= ur_status rs < 500)%Z ->
  ~ gzip_client (t_req t) -> gzip_start body -> rp_body r = e_gunzip (t_env t) body.
Proof.
  intros t r rs body H Hq Ht Hs Hg Hz. destruct (relayed_proxied t r rs body H Hq Ht) as (dice & -> & _). unfold parsed, proxied.
  rewrite (not_client_error _ Hs). cbn [assemble rp_body df_gz_body]. unfold encode_body.
  rewrite (flag_not _ _ _ Hg), (proj2 (is_gzip_iff _) Hz). destruct Hz as [z ->]. reflexivity.
Qed.

Lemma body_kept : forall t r rs body, relayed t r rs body -> sized (t_req t) -> timely_run t -> ~ (400 <= ur_status rs < 500)%Z ->
  body = "" \/ (gzip_client (t_req t) <-> gzip_start body) -> rp_body r = body.
Proof.
  intros t r rs body H Hq Ht Hs Hb. destruct (relayed_proxied t r rs body H Hq Ht) as (dice & -> & _). unfold parsed, proxied.
  rewrite (not_client_error _ Hs). cbn [assemble rp_body df_gz_body]. unfold encode_body.
  destruct Hb as [->|Hb]; [reflexivity|]. destruct (String.eqb_spec body "") as [->|_]; [reflexivity|].
  rewrite <- (flag_iff (t_env t) (ch_fresh (t_chance t))), <- is_gzip_iff in Hb.
  destruct (w_send_gzip _), (is_gzip body); cbn [andb negb]; try reflexivity; exfalso; destruct Hb as [H1 H2]; discriminate (H1 eq_refl) || discriminate (H2 eq_refl).
Qed.

Lemma body_kept_iff : forall t r rs body, relayed t r rs body -> sized (t_req t) -> timely_run t -> ~ (400 <= ur_status rs < 500)%Z ->
  e_gzip (t_env t) body <> body -> e_gunzip (t_env t) body <> body ->
  (rp_body r = body <-> body = "" \/ (gzip_client (t_req t) <-> gzip_start body)).
Proof.
  intros t r rs body H Hq Ht Hs G1 G2. split; [|now apply (body_kept t r rs)]. intro Hb.
  destruct (String.eqb_spec body "") as [E|N]; [now left|]. right. split.
  - intro Hg. destruct (is_gzip body) eqn:Z; [now apply is_gzip_iff|]. apply is_gzip_not in Z. elim G1. rewrite <- Hb at 2. symmetry.
    now apply (body_gzip t r rs).
  - intro Hz. destruct (w_send_gzip (parse_incoming (t_env t) (ch_fresh (t_chance t)) (t_req t))) eqn:F; [now apply flag_iff in F|].
    elim G2. rewrite <- Hb at 2. symmetry. apply (body_gunzip t r rs); try assumption. intro Hg. apply (flag_iff (t_env t) (ch_fresh (t_chance t))) in Hg. congruence.
Qed.

Lemma body_same : forall t1 t2 r1 r2 rs1 rs2 body, t_env t1 = t_env t2 ->
  relayed t1 r1 rs1 body -> sized (t_req t1) -> timely_run t1 -> ~ (400 <= ur_status rs1 < 500)%Z ->
  relayed t2 r2 rs2 body -> sized (t_req t2) -> timely_run t2 -> ~ (400 <= ur_status rs2 < 500)%Z ->
  (gzip_client (t_req t1) <-> gzip_client (t_req t2)) -> rp_body r1 = rp_body r2.
Proof.
  intros t1 t2 r1 r2 rs1 rs2 body HE H1 Q1 T1 S1 H2 Q2 T2 S2 Hg.
  destruct (relayed_proxied t1 r1 rs1 body H1 Q1 T1) as (d1 & -> & _). destruct (relayed_proxied t2 r2 rs2 body H2 Q2 T2) as (d2 & -> & _). unfold parsed, proxied.
  rewrite (not_client_error _ S1), (not_client_error _ S2). cbn [assemble rp_body df_gz_body]. unfold encode_body. rewrite <- HE.
  rewrite <- (flag_iff (t_env t1) (ch_fresh (t_chance t1)) (t_req t1)), <- (flag_iff (t_env t1) (ch_fresh (t_chance t2)) (t_req t2)) in Hg.
  replace (w_send_gzip (parse_incoming (t_env t1) (ch_fresh (t_chance t2)) (t_req t2))) with (w_send_gzip (parse_incoming (t_env t1) (ch_fresh (t_chance t1)) (t_req t1))); [reflexivity|].
  destruct (w_send_gzip (parse_incoming (t_env t1) (ch_fresh (t_chance t1)) (t_req t1))), (w_send_gzip (parse_incoming (t_env t1) (ch_fresh (t_chance t2)) (t_req t2))); try reflexivity; destruct Hg as [A B]; [now rewrite A|now rewrite B].
Qed.

(** * Headers *)

(** A header the proxy does not set is the upstream's. *)
Lemma header_kept : forall t r rs body k, relayed t r rs body -> sized (t_req t) -> timely_run t -> canonical_keys (ur_header rs) ->
  ~ (400 <= ur_status rs < 500)%Z -> ~ In k own_headers -> ~ In k never_copied -> values k (rp_header r) = values k (ur_header rs).
Proof. intros t r rs body k H Hq Ht Hc Hs Ho Hn. exact (proj2 (relayed_headers t r rs body k H Hq Ht Hc) Hs Ho Hn). Qed.

Lemma status_header : forall E fresh q dice st m k, ~ In k error_headers -> values k (rp_header (send_status E dice (parse_incoming E fresh q) st m)) = [].
Proof.
  intros E fresh q dice st m k Hk. cbn [error_headers In] in Hk. rewrite send_status_values, standard_values.
  assert (Z : forall s, k <> s -> String.eqb k s = false) by (intros s; apply String.eqb_neq).
  rewrite (Z "X-Request-Id"), (Z "Strict-Transport-Security"), (Z "Server"), (Z "Content-Type") by (intros ->; apply Hk; auto 8).
  cbn [andb]. apply w_header_values. intros ->. apply Hk. auto 8.
Qed.

Lemma about_header : forall E dice fresh q k, ~ In k error_headers -> ~ In k ["Content-Length"; "Content-Encoding"] ->
  values k (rp_header (about_page E dice fresh q)) = [].
Proof.
  intros E dice fresh q k Hk Hl. cbn [error_headers In] in Hk, Hl. unfold about_page.
  destruct (match values "Accept-Encoding" _ with [] => _ | _ => _ end) as [ce b]. cbn [rp_header]. rewrite !values_set, standard_values.
  change (canon content_length_key) with "Content-Length". change (canon content_encoding_key) with "Content-Encoding". change (canon "Content-Type") with "Content-Type".
  assert (Z : forall s, k <> s -> String.eqb k s = false) by (intros s; apply String.eqb_neq).
  rewrite !(String.eqb_sym _ k).
  rewrite (Z "X-Request-Id"), (Z "Strict-Transport-Security"), (Z "Server"), (Z "Content-Type"), (Z "Content-Length"), (Z "Content-Encoding") by (intros ->; (apply Hk + apply Hl); cbn [In]; auto 8).
  reflexivity.
Qed.

Lemma about_of : forall t r, t_serve t = About r -> exists dice, r = about_page (t_env t) dice (ch_fresh (t_chance t)) (t_req t).
Proof.
  intros t r H. unfold t_serve, serve in H. destruct (mux_serve _ _); try discriminate H; [injection H as <-; eexists; reflexivity|].
  unfold proxy_handler in H. destruct (negb _); [destruct (w_too_large _); discriminate H|].
  destruct (select_route _ _); [|discriminate H]. destruct (if has_jwt r0 then _ else _); try discriminate H.
  destruct (map_url _ _ r0); discriminate H.
Qed.

(** Any other header of a response is an upstream's, who did not answer with 4xx. *)
Lemma header_source : forall t r k v, replies t r -> sized (t_req t) -> timely_run t -> canonical_answers (t_run t) ->
  ~ In k ("Content-Type" :: own_headers) -> ~ In k never_copied -> In v (values k (rp_header r)) ->
  exists rs body, relayed t r rs body /\ ~ (400 <= ur_status rs < 500)%Z /\ values k (rp_header r) = values k (ur_header rs).
Proof.
  intros t r k v H Hq Ht Hc Ho Hn Hv.
  assert (Hk : ~ In k error_headers) by (intro I; apply Ho; cbn [error_headers own_headers In] in *; tauto).
  destruct (replies_kind t r H Hq Ht) as [A|[(dice & st & m & _ & ->)|(dice & rs & body & R & _ & E)]].
  - destruct (about_of t r A) as (dice & ->). rewrite about_header in Hv; [destruct Hv|exact Hk|].
    intro I. apply Ho. cbn [own_headers In] in *. tauto.
  - unfold parsed in Hv. rewrite status_header in Hv; [destruct Hv|exact Hk].
  - exists rs, body. split; [exact R|]. destruct (client_error (ur_status rs)) eqn:C.
    + exfalso. rewrite E in Hv. unfold proxied, parsed in Hv. rewrite C, status_header in Hv; [destruct Hv|exact Hk].
    + assert (Hs : ~ (400 <= ur_status rs < 500)%Z) by (intro X; apply client_error_range in X; congruence).
      split; [exact Hs|]. apply (header_kept t r rs body); try assumption.
      * destruct R as (c & s & _ & _ & _ & An & _). exact (Hc _ _ An).
      * intro I. apply Ho. now right.
Qed.

Lemma lists_in : forall tok vs, lists tok vs -> exists v, In v vs.
Proof. intros tok vs (v & _ & _ & _ & _ & H & _). now exists v. Qed.

Lemma not_own : ~ In "Vary" ("Content-Type" :: own_headers) /\ ~ In "Vary" never_copied.
Proof. split; intro H; cbn in H; repeat (destruct H as [H|H]; [discriminate H|]); destruct H. Qed.

Lemma varies_kept : forall t r rs body, relayed t r rs body -> sized (t_req t) -> timely_run t -> canonical_keys (ur_header rs) ->
  ~ (400 <= ur_status rs < 500)%Z -> (says_varies (rp_header r) <-> says_varies (ur_header rs)).
Proof.
  intros t r rs body H Hq Ht Hc Hs. unfold says_varies. rewrite (header_kept t r rs body "Vary"); try assumption; [tauto| |apply not_own].
  intro I. apply (proj1 not_own). now right.
Qed.

Lemma varies_source : forall t r, replies t r -> sized (t_req t) -> timely_run t -> canonical_answers (t_run t) ->
  says_varies (rp_header r) -> exists rs body, relayed t r rs body /\ ~ (400 <= ur_status rs < 500)%Z /\ says_varies (ur_header rs).
Proof.
  intros t r H Hq Ht Hc Hv. assert (X : exists v, In v (values "Vary" (rp_header r))) by (destruct Hv as [V|V]; exact (lists_in _ _ V)).
  destruct X as [v X]. destruct (header_source t r "Vary" v H Hq Ht Hc (proj1 not_own) (proj2 not_own) X) as (rs & body & R & S & E).
  exists rs, body. split; [exact R|]. split; [exact S|]. unfold says_varies in *. now rewrite <- E.
Qed.

(** Whoever asks for gzip gets other bytes than whoever does not, and nothing tells them but the upstream. *)
Lemma depends : forall t1 t2 r1 r2 rs body, t_env t1 = t_env t2 ->
  relayed t1 r1 rs body -> sized (t_req t1) -> timely_run t1 -> relayed t2 r2 rs body -> sized (t_req t2) -> timely_run t2 ->
  canonical_keys (ur_header rs) -> ~ (400 <= ur_status rs < 500)%Z -> gzip_client (t_req t1) -> ~ gzip_client (t_req t2) ->
  body <> "" -> (gzip_start body -> e_gunzip (t_env t1) body <> body) -> (~ gzip_start body -> e_gzip (t_env t1) body <> body) ->
  rp_body r1 <> rp_body r2 /\ (says_varies (rp_header r1) <-> says_varies (ur_header rs)) /\ (says_varies (rp_header r2) <-> says_varies (ur_header rs)).
Proof.
  intros t1 t2 r1 r2 rs body HE H1 Q1 T1 H2 Q2 T2 Hc Hs G1 G2 Hb Z1 Z2.
  split; [|split; [now apply (varies_kept t1 r1 rs body)|now apply (varies_kept t2 r2 rs body)]].
  destruct (is_gzip body) eqn:Z.
  - apply is_gzip_iff in Z. rewrite (body_gunzip t2 r2 rs body), (body_kept t1 r1 rs body), <- HE by (assumption || (right; tauto)).
    intro X. exact (Z1 Z (eq_sym X)).
  - apply is_gzip_not in Z. rewrite (body_gzip t1 r1 rs body), (body_kept t2 r2 rs body) by (assumption || (right; tauto)). exact (Z2 Z).
Qed.

(** * Client errors *)

Lemma errors_bare : forall t r k, replies t r -> sized (t_req t) -> timely_run t -> (400 <= rp_status r < 500)%Z ->
  ~ In k error_headers -> values k (rp_header r) = [].
Proof.
  intros t r k H Hq Ht Hs Hk. destruct (replies_kind t r H Hq Ht) as [A|[(dice & st & m & _ & ->)|(dice & rs & body & _ & _ & ->)]].
  - exfalso. destruct (about_of t r A) as (dice & ->). unfold about_page in Hs.
    destruct (match values "Accept-Encoding" _ with [] => _ | _ => _ end) as [ce b]. cbn [rp_status] in Hs. lia.
  - now apply status_header.
  - unfold proxied, parsed in *. destruct (client_error (ur_status rs)) eqn:C; [now apply status_header|].
    cbn [assemble rp_status df_status] in Hs. apply client_error_range in Hs. congruence.
Qed.

(** * Requests *)

Lemma request_kept : forall t x k, asks t x -> sized (t_req t) -> canonical_keys (q_header (t_req t)) ->
  In k ["Max-Forwards"; "Via"; "Forwarded"; "X-Forwarded-For"; "X-Forwarded-Host"; "X-Forwarded-Proto"] ->
  values k (uq_header x) = values k (q_header (t_req t)).
Proof.
  intros t x k H Hq Hc Hk. rewrite (asks_header t x _ k H Hq Hc (choice_id t)).
  cbn [In] in Hk. repeat (destruct Hk as [<-|Hk]; [reflexivity|]). destruct Hk.
Qed.

(** * Validators and parts *)

Lemma tag_kept : forall t r rs body tag, relayed t r rs body -> sized (t_req t) -> timely_run t -> canonical_keys (ur_header rs) ->
  ~ (400 <= ur_status rs < 500)%Z -> (strong_tag (rp_header r) tag <-> strong_tag (ur_header rs) tag).
Proof.
  intros t r rs body tag H Hq Ht Hc Hs. unfold strong_tag. rewrite (header_kept t r rs body "Etag"); try assumption; [tauto| |];
    intro I; cbn in I; repeat (destruct I as [I|I]; [discriminate I|]); destruct I.
Qed.

Lemma tags_mean_bytes : forall t1 t2 r1 r2 rs1 rs2 body1 body2 tag, t_env t1 = t_env t2 ->
  relayed t1 r1 rs1 body1 -> sized (t_req t1) -> timely_run t1 -> canonical_keys (ur_header rs1) -> ~ (400 <= ur_status rs1 < 500)%Z ->
  relayed t2 r2 rs2 body2 -> sized (t_req t2) -> timely_run t2 -> canonical_keys (ur_header rs2) -> ~ (400 <= ur_status rs2 < 500)%Z ->
  (strong_tag (ur_header rs1) tag -> strong_tag (ur_header rs2) tag -> body1 = body2) ->
  (gzip_client (t_req t1) <-> gzip_client (t_req t2)) ->
  strong_tag (rp_header r1) tag -> strong_tag (rp_header r2) tag -> rp_body r1 = rp_body r2.
Proof.
  intros t1 t2 r1 r2 rs1 rs2 body1 body2 tag HE H1 Q1 T1 C1 S1 H2 Q2 T2 C2 S2 Hu Hg G1 G2.
  apply (tag_kept t1 r1 rs1 body1) in G1; try assumption. apply (tag_kept t2 r2 rs2 body2) in G2; try assumption.
  pose proof (Hu G1 G2) as <-. now apply (body_same t1 t2 r1 r2 rs1 rs2 body1).
Qed.

Lemma part_kept : forall t r rs body, relayed t r rs body -> sized (t_req t) -> timely_run t -> canonical_keys (ur_header rs) ->
  ur_status rs = 206%Z -> part_of (ur_header rs) (String.length body) -> (gzip_client (t_req t) <-> gzip_start body) ->
  rp_status r = 206%Z /\ part_of (rp_header r) (String.length (rp_body r)).
Proof.
  intros t r rs body H Hq Ht Hc Hs Hp Hg. assert (S : ~ (400 <= ur_status rs < 500)%Z) by lia. split.
  - destruct (relayed_proxied t r rs body H Hq Ht) as (dice & -> & _). unfold proxied. rewrite (not_client_error _ S). exact Hs.
  - rewrite (body_kept t r rs body H Hq Ht S (or_intror Hg)). unfold part_of in *.
    rewrite (header_kept t r rs body "Content-Range" H Hq Ht Hc S); [exact Hp| |];
      intro I; cbn in I; repeat (destruct I as [I|I]; [discriminate I|]); destruct I.
Qed.
