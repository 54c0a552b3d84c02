From Coq Require Import String Ascii List Bool ZArith Lia.
From Verif Require Import GoStr Header HeaderSpec Exchange ExchangeSpec ExchangeProofs Machine MachineSpec Handler HandlerSpec SystemSpec SystemProofs ContentSpec.
Import ListNotations.
Local Open Scope string_scope.

Lemma takes_flag : forall E fresh q, w_send_gzip (parse_incoming E fresh q) = true <-> takes_gzip q.
Proof.
  intros E fresh q. cbn [parse_incoming w_send_gzip]. unfold get. change (canon "Accept-Encoding") with "Accept-Encoding". unfold takes_gzip.
  destruct (values "Accept-Encoding" (q_header q)) as [|v vs].
  - split; [intros H; discriminate H|intros (v & vs & H & _); discriminate H].
  - split; [intros H; now exists v, vs|intros (v' & vs' & H & H'); now injection H as <- <-].
Qed.

Lemma takes_not : forall E fresh q, w_send_gzip (parse_incoming E fresh q) = false <-> ~ takes_gzip q.
Proof. intros E fresh q. rewrite <- (takes_flag E fresh q). now rewrite not_true_iff_false. Qed.

Lemma decoded_assembled : forall E dec fresh q rs body, codec E dec -> canonical_keys (ur_header rs) ->
  let r := assemble E (parse_incoming E fresh q) (Draft rs (ur_status rs) (is_gzip body) rs (is_gzip body) rs) body in
  decodes dec (e_gunzip E) q (values "Content-Encoding" (ur_header rs)) body
    (content_of dec (values "Content-Encoding" (rp_header r)) (rp_body r)).
Proof.
  intros E dec fresh q rs body C Hc r. subst r. rewrite encoding_header by exact Hc.
  cbn [assemble rp_body df_gz_body df_gz_header df_encoding df_headers].
  pose proof (takes_flag E fresh q) as T. pose proof (takes_not E fresh q) as N. set (w := parse_incoming E fresh q) in *.
  set (ce := values "Content-Encoding" (ur_header rs)) in *. destruct C as [C1 [C2 C3]].
  destruct (String.eqb_spec body "") as [Eb|Eb].
  { unfold encode_body. rewrite Eb. cbn [String.eqb]. cbn iota. now apply decodes_empty. }
  assert (EB : encode_body E w (is_gzip body) body =
    if (w_send_gzip w && negb (is_gzip body))%bool then e_gzip E body
    else if (negb (w_send_gzip w) && is_gzip body)%bool then e_gunzip E body else body).
  { unfold encode_body. now rewrite (proj2 (String.eqb_neq _ _) Eb). }
  rewrite EB. unfold content_encoding, content_encoding_key. fold ce.
  pose proof (is_gzip_iff body) as G. pose proof (is_gzip_not body) as GN.
  destruct (w_send_gzip w) eqn:Ew, (is_gzip body) eqn:Eg; cbn [andb negb].
  - rewrite (proj2 (String.eqb_neq _ _) Eb). apply decodes_packed; [now apply T|now apply G].
  - rewrite (proj2 (String.eqb_neq _ _) (codec_not_empty E dec (conj C1 (conj C2 C3)) body)).
    change (content_of dec ["gzip"] (e_gzip E body)) with (dec "gzip" (e_gzip E body)). rewrite C1.
    apply decodes_bytes; [now apply T|now apply GN|exact Eb].
  - destruct (String.eqb_spec (e_gunzip E body) "") as [Eu|Eu].
    + rewrite Eu. apply decodes_emptied; [now apply N|now apply G|exact Eu].
    + change (content_of dec ["identity"] (e_gunzip E body)) with (Some (e_gunzip E body)).
      apply decodes_unpacked; [now apply N|now apply G|exact Eu].
  - rewrite (proj2 (String.eqb_neq _ _) Eb). destruct ce as [|a [|b l]] eqn:Ece.
    + change (content_of dec ["identity"] body) with (content_of dec [] body). apply decodes_same; [now apply N|now apply GN|cbn; lia].
    + change (join " " [a]) with a. apply decodes_same; [now apply N|now apply GN|cbn; lia].
    + apply decodes_joined; [now apply N|now apply GN|exact Eb|cbn; lia].
Qed.

Lemma relayed_decodes : forall t dec r rs body, relayed t r rs body -> sized (t_req t) -> timely_run t ->
  codec (t_env t) dec -> canonical_keys (ur_header rs) -> ~ (400 <= ur_status rs < 500)%Z ->
  decodes dec (e_gunzip (t_env t)) (t_req t) (values "Content-Encoding" (ur_header rs)) body
    (content_of dec (values "Content-Encoding" (rp_header r)) (rp_body r)).
Proof. relayed. unfold proxied. rewrite not_client_error by assumption. now apply decoded_assembled. Qed.

(** At most one thing can come out. *)
Lemma decodes_one : forall dec unzip q ce body y z, decodes dec unzip q ce body y -> decodes dec unzip q ce body z -> y = z.
Proof.
  intros dec unzip q ce body y z H K.
  assert (X : forall b : string, body = "" -> ~ gzip_start body) by (intros _ -> [t F]; discriminate F).
  destruct H as [H1|H1 H2|H1 H2 H3|H1 H2 H3|H1 H2 H3 H4|H1 H2 H3|H1 H2 H3];
    destruct K as [K1|K1 K2|K1 K2 K3|K1 K2 K3|K1 K2 K3 K4|K1 K2 K3|K1 K2 K3]; try reflexivity; try contradiction;
    try (exfalso; eapply X; eassumption); try (subst body; reflexivity); try lia; try congruence; exfalso; eapply X; try eassumption; exact "".
Qed.

Lemma decodes_kept : forall dec unzip q ce body x y, decodes dec unzip q ce body y -> content_of dec ce body = Some x ->
  (y = Some x <-> kept_content dec unzip q ce body x).
Proof.
  intros dec unzip q ce body x y H Hx. assert (X : body = "" -> ~ gzip_start body) by (intros -> [t F]; discriminate F). unfold kept_content.
  destruct H as [H1|H1 H2|H1 H2 H3|H1 H2 H3|H1 H2 H3 H4|H1 H2 H3|H1 H2 H3].
  - split; [now left|intros _]. now rewrite <- H1.
  - split; [intros Hd; right; left; now repeat split|].
    intros [K|[(_ & _ & K)|[(_ & K & _)|[(K & _)|[(K & _)|(K & _)]]]]]; [now elim (X K)|exact K|contradiction..].
  - split; [intros Hd; injection Hd as <-; right; right; left; now repeat split|].
    intros [K|[(_ & K & _)|[(_ & _ & K)|[(K & _)|[(K & _)|(K & _)]]]]]; [contradiction|contradiction|now rewrite K|contradiction..].
  - split; [intros _; right; right; right; left; now split|intros _; exact Hx].
  - exfalso. destruct ce as [|a [|b l]]; [cbn in H4; lia|cbn in H4; lia|discriminate Hx].
  - split; [intros Hd; injection Hd as <-; right; right; right; right; left; now repeat split|].
    intros [K|[(K & _)|[(K & _)|[(_ & K)|[(_ & _ & _ & K)|(_ & _ & K & _)]]]]]; [now elim (X K)|contradiction|contradiction|contradiction|now rewrite K|contradiction].
  - split; [intros Hd; right; right; right; right; right; now repeat split|].
    intros [K|[(K & _)|[(K & _)|[(_ & K)|[(_ & _ & K & _)|(_ & _ & _ & K)]]]]]; [now elim (X K)|contradiction|contradiction|contradiction|contradiction|exact K].
Qed.

Lemma relayed_kept : forall t dec r rs body x, relayed t r rs body -> sized (t_req t) -> timely_run t ->
  codec (t_env t) dec -> canonical_keys (ur_header rs) -> ~ (400 <= ur_status rs < 500)%Z ->
  content_of dec (values "Content-Encoding" (ur_header rs)) body = Some x ->
  (content_of dec (values "Content-Encoding" (rp_header r)) (rp_body r) = Some x <->
   kept_content dec (e_gunzip (t_env t)) (t_req t) (values "Content-Encoding" (ur_header rs)) body x).
Proof.
  intros t dec r rs body x H Hq Ht C Hc Hs Hx.
  exact (decodes_kept _ _ _ _ _ _ _ (relayed_decodes t dec r rs body H Hq Ht C Hc Hs) Hx).
Qed.

(** C94: what cannot be decoded *)
Lemma relayed_broken : forall t dec r rs body, relayed t r rs body -> sized (t_req t) -> timely_run t ->
  codec (t_env t) dec -> canonical_keys (ur_header rs) -> ~ (400 <= ur_status rs < 500)%Z ->
  values "Content-Encoding" (ur_header rs) = ["gzip"] -> dec "gzip" body = None ->
  (content_of dec (values "Content-Encoding" (rp_header r)) (rp_body r) = None <->
   body = "" \/ (takes_gzip (t_req t) <-> gzip_start body) \/ (gzip_start body /\ e_gunzip (t_env t) body = "")).
Proof.
  intros t dec r rs body H Hq Ht C Hc Hs Hce Hd.
  pose proof (relayed_decodes t dec r rs body H Hq Ht C Hc Hs) as D. rewrite Hce in D.
  assert (Ee : dec "gzip" "" = None).
  { destruct (dec "gzip" "") as [s|] eqn:E; [|reflexivity]. destruct C as (_ & _ & C3). destruct (C3 _ _ E) as [u F]. discriminate F. }
  assert (X : body = "" -> ~ gzip_start body) by (intros -> [u F]; discriminate F).
  assert (O : forall b, content_of dec ["gzip"] b = dec "gzip" b) by reflexivity.
  destruct D as [D1|D1 D2|D1 D2 D3|D1 D2 D3|D1 D2 D3 D4|D1 D2 D3|D1 D2 D3].
  - rewrite O. split; [now left|intros _; exact Ee].
  - split; [intros _; right; left; tauto|intros _; exact Hd].
  - split; [intros F; discriminate F|]. intros [F|[F|[F _]]]; [contradiction|tauto|contradiction].
  - rewrite O. split; [intros _; right; left; tauto|intros _; exact Hd].
  - cbn in D4. lia.
  - split; [intros F; discriminate F|]. intros [F|[F|[_ F]]]; [now elim (X F)|tauto|contradiction].
  - rewrite O. split; [intros _; right; right; now split|intros _; exact Ee].
Qed.
