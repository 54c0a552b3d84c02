(** Lemmas about requests and responses. *)
From Coq Require Import String Ascii List Bool ZArith NArith Lia.
From Verif Require Import GoStr NumberSpec NumberProofs Header HeaderSpec HeaderProofs Json JsonSpec JsonProofs Exchange ExchangeSpec.
Import ListNotations.
Local Open Scope string_scope.

(** * Bodies *)

Lemma zlen_nonneg : forall s, (0 <= zlen s)%Z.
Proof. intros s. unfold zlen. lia. Qed.

Lemma substring_length : forall n s, (n <= String.length s)%nat -> String.length (substring 0 n s) = n.
Proof.
  induction n as [|n IH]; intros s H; destruct s as [|c s]; cbn [substring String.length] in *; try lia.
  f_equal. apply IH. lia.
Qed.

Lemma body_exact : forall max q, (q_length q = -1 \/ honest_length q)%Z -> (0 < max)%Z -> q_data_ok q = true ->
  (zlen (q_data q) < max)%Z -> parse_body max q = PB (q_data q) false false.
Proof.
  intros max q Hq Hmax Hok Hl. unfold parse_body. destruct (Z.eqb_spec (q_length q) 0) as [E|E].
  - destruct Hq as [Hq|[_ [Hq _]]]; [lia|]. rewrite E in Hq. destruct (q_data q); [reflexivity | cbn in Hq; lia].
  - assert (Hg : Z.geb (q_length q) max = false).
    { rewrite Z.geb_leb. apply Z.leb_gt. destruct Hq as [Hq|[_ [Hq _]]]; [lia|]. unfold zlen in Hl. lia. }
    rewrite Hg. unfold read_limited.
    assert (El : Z.leb (zlen (q_data q)) max = true) by (apply Z.leb_le; lia). rewrite El.
    assert (Eg : Z.gtb (zlen (q_data q)) max = false) by (rewrite Z.gtb_ltb; apply Z.ltb_ge; lia). rewrite Eg.
    now rewrite Hok.
Qed.

Lemma body_chunked_exact : forall max q, q_length q = (-1)%Z -> (0 <= max)%Z -> q_data_ok q = true ->
  (zlen (q_data q) <= max)%Z -> parse_body max q = PB (q_data q) false false.
Proof.
  intros max q Hq Hmax Hok Hl. unfold parse_body. rewrite Hq. cbn [Z.eqb].
  assert (Hg : Z.geb (-1) max = false) by (rewrite Z.geb_leb; apply Z.leb_gt; lia). rewrite Hg.
  unfold read_limited. assert (El : Z.leb (zlen (q_data q)) max = true) by (apply Z.leb_le; lia). rewrite El.
  assert (Eg : Z.gtb (zlen (q_data q)) max = false) by (rewrite Z.gtb_ltb; apply Z.ltb_ge; lia). rewrite Eg.
  now rewrite Hok.
Qed.

Lemma body_declared_large : forall max q, honest_length q -> (max < zlen (q_data q))%Z ->
  pb_too_large (parse_body max q) = true \/ q_length q = 0%Z.
Proof.
  intros max q [H0 [H1 _]] Hl. unfold parse_body. destruct (Z.eqb_spec (q_length q) 0) as [E|E]; [now right|]. left.
  assert (Hg : Z.geb (q_length q) max = true) by (rewrite Z.geb_leb; apply Z.leb_le; unfold zlen in Hl; lia).
  now rewrite Hg.
Qed.

Lemma body_declared_large_413 : forall max q, honest_length q -> (0 <= max)%Z -> (max < zlen (q_data q))%Z ->
  pb_too_large (parse_body max q) = true.
Proof.
  intros max q H Hm Hl. destruct (body_declared_large max q H Hl) as [E|E]; [assumption|].
  destruct H as [_ [H _]]. unfold zlen in Hl. lia.
Qed.

(** Whatever is read: the body kept is the whole body that arrived, or empty. *)
Lemma body_whole_or_none : forall max q,
  pb_body (parse_body max q) = q_data q \/ pb_body (parse_body max q) = "".
Proof.
  intros max q. unfold parse_body. destruct (Z.eqb _ _); [now right|]. destruct (Z.geb _ _); [now right|].
  unfold read_limited. destruct (Z.leb_spec (zlen (q_data q)) max) as [L|L].
  - destruct (Z.gtb _ _); [now right|]. destruct (q_data_ok q); [now left | now right].
  - destruct (Z.gtb _ _); now right.
Qed.

Lemma body_over_limit : forall max q, q_length q = (-1)%Z -> (0 <= max)%Z -> (max < zlen (q_data q))%Z ->
  parse_body max q = PB "" false true.
Proof.
  intros max q Hq Hm Hl. unfold parse_body. rewrite Hq. cbn [Z.eqb].
  assert (Hg : Z.geb (-1) max = false) by (rewrite Z.geb_leb; apply Z.leb_gt; lia). rewrite Hg.
  unfold read_limited. assert (El : Z.leb (zlen (q_data q)) max = false) by (apply Z.leb_gt; lia). rewrite El.
  assert (Es : Z.gtb (zlen (substring 0 (Z.to_nat max) (q_data q))) max = false).
  { rewrite Z.gtb_ltb. apply Z.ltb_ge. unfold zlen in *. rewrite substring_length by lia. lia. }
  rewrite Es. reflexivity.
Qed.

(** * Headers *)

Lemma upstream_values : forall w uri k, canonical_keys (w_req_header w) ->
  values k (uq_header (scaffold_request w uri)) =
  if String.eqb k "X-Request-Id" then [w_id w]
  else if existsb (String.eqb k) never_copied then [] else values k (w_req_header w).
Proof.
  intros w uri k Hc. cbn [scaffold_request uq_header]. rewrite values_set.
  change (canon x_request_id) with "X-Request-Id". rewrite String.eqb_sym.
  destruct (String.eqb k "X-Request-Id"); [reflexivity|]. now rewrite values_copy.
Qed.

Lemma standard_values : forall E w h k,
  values k (standard_headers E w h) =
  if String.eqb k "X-Request-Id" then [w_id w]
  else if (String.eqb k "Strict-Transport-Security" && e_tls E)%bool then ["max-age=31536000"]
  else if String.eqb k "Server" then ["j8a " ++ e_version E ++ " " ++ e_id E]
  else values k h.
Proof.
  intros E w h k. unfold standard_headers. rewrite values_set. change (canon x_request_id) with "X-Request-Id".
  rewrite String.eqb_sym. destruct (String.eqb k "X-Request-Id"); [reflexivity|].
  destruct (e_tls E).
  - rewrite values_set. change (canon "Strict-Transport-Security") with "Strict-Transport-Security".
    rewrite String.eqb_sym. destruct (String.eqb k "Strict-Transport-Security"); [reflexivity|]. cbn [andb].
    rewrite values_set. change (canon "Server") with "Server". now rewrite String.eqb_sym.
  - rewrite andb_false_r. rewrite values_set. change (canon "Server") with "Server". now rewrite String.eqb_sym.
Qed.

Lemma w_header_values : forall E fresh q k, k <> "Connection" -> values k (w_header (parse_incoming E fresh q)) = [].
Proof.
  intros E fresh q k H. cbn [parse_incoming w_header]. destruct (pb_close _); [|reflexivity].
  unfold values. cbn [filter fst]. destruct (String.eqb_spec "Connection" k); [congruence | reflexivity].
Qed.

Lemma assemble_values : forall E w d body k, canonical_keys (ur_header (df_headers d)) ->
  k <> "Content-Length" -> k <> "Content-Encoding" ->
  values k (rp_header (assemble E w d body)) =
  (values k (standard_headers E w (w_header w)) ++
   if existsb (String.eqb k) never_copied then [] else values k (ur_header (df_headers d)))%list.
Proof.
  intros E w d body k Hc H1 H2. cbn [assemble rp_header].
  assert (N1 : String.eqb "Content-Encoding" k = false) by (apply String.eqb_neq; congruence).
  assert (N2 : String.eqb "Content-Length" k = false) by (apply String.eqb_neq; congruence).
  destruct (Z.gtb _ _); rewrite ?values_set; change (canon content_encoding_key) with "Content-Encoding";
    change (canon content_length_key) with "Content-Length"; rewrite ?N1, ?N2; now rewrite values_copy.
Qed.

Lemma send_status_values : forall E dice w status m k,
  values k (rp_header (send_status E dice w status m)) =
  if String.eqb k "Content-Type" then ["application/json"] else values k (standard_headers E w (w_header w)).
Proof.
  intros E dice w status m k. cbn [send_status rp_header]. rewrite values_set.
  change (canon "Content-Type") with "Content-Type". now rewrite String.eqb_sym.
Qed.

(** * Content-Length *)

Lemma get_te_empty : forall E fresh q rsh, canonical_keys rsh ->
  get transfer_encoding_key (copy_headers rsh (standard_headers E (parse_incoming E fresh q) (w_header (parse_incoming E fresh q)))) = "".
Proof.
  intros E fresh q rsh Hc. unfold get. change (canon transfer_encoding_key) with "Transfer-Encoding".
  rewrite values_copy, standard_values by assumption. cbn [existsb String.eqb]. cbn -[values w_header parse_incoming].
  rewrite w_header_values by discriminate. reflexivity.
Qed.

Lemma length_header : forall E w d body,
  values "Content-Length" (rp_header (assemble E w d body)) =
  [content_length w (copy_headers (ur_header (df_headers d)) (standard_headers E w (w_header w)))
     (df_status d) (rp_body (assemble E w d body)) (df_length d)].
Proof.
  intros E w d body. cbn [assemble rp_header rp_body]. destruct (Z.gtb _ _).
  - rewrite values_set. change (String.eqb (canon content_encoding_key) "Content-Length") with false. cbn iota.
    rewrite values_set. reflexivity.
  - rewrite values_set. reflexivity.
Qed.

Lemma length_true : forall E fresh q d body,
  let w := parse_incoming E fresh q in
  canonical_keys (ur_header (df_headers d)) ->
  w_method w <> "HEAD" -> w_method w <> "CONNECT" -> df_status d <> 204%Z ->
  ~ (100 <= df_status d < 200)%Z ->
  values "Content-Length" (rp_header (assemble E w d body)) =
  [itoa_Z (Z.of_nat (String.length (rp_body (assemble E w d body))))].
Proof.
  intros E fresh q d body w Hc H1 H2 H3 H4. rewrite length_header. f_equal. unfold content_length.
  subst w. rewrite get_te_empty by assumption. cbn [String.eqb negb orb].
  rewrite (proj2 (Z.eqb_neq _ _) H3).
  assert (E1 : (Z.leb 100 (df_status d) && Z.ltb (df_status d) 200)%bool = false).
  { apply andb_false_iff. destruct (Z.leb_spec 100 (df_status d)); [right; apply Z.ltb_ge; lia | now left]. }
  rewrite E1. rewrite (proj2 (String.eqb_neq _ _) H2), (proj2 (String.eqb_neq _ _) H1). reflexivity.
Qed.

Lemma length_head : forall E fresh q d body,
  let w := parse_incoming E fresh q in
  canonical_keys (ur_header (df_headers d)) ->
  w_method w = "HEAD" -> df_status d <> 204%Z -> ~ (100 <= df_status d < 200)%Z ->
  values "Content-Length" (rp_header (assemble E w d body)) =
  match values "Content-Length" (ur_header (df_length d)) with
  | v :: _ => match atoi v with Some _ => [v] | None => ["0"] end
  | [] => ["0"]
  end.
Proof.
  intros E fresh q d body w Hc H1 H3 H4. rewrite length_header. unfold content_length.
  subst w. rewrite get_te_empty by assumption. cbn [String.eqb negb orb].
  rewrite (proj2 (Z.eqb_neq _ _) H3).
  assert (E1 : (Z.leb 100 (df_status d) && Z.ltb (df_status d) 200)%bool = false).
  { apply andb_false_iff. destruct (Z.leb_spec 100 (df_status d)); [right; apply Z.ltb_ge; lia | now left]. }
  rewrite E1, H1. cbn [String.eqb orb Ascii.eqb Bool.eqb]. unfold get. change (canon content_length_key) with "Content-Length".
  destruct (values "Content-Length" (ur_header (df_length d))) as [|v vs]; [reflexivity|].
  destruct v as [|c v]; [reflexivity|]. cbn [String.eqb negb andb]. now destruct (atoi (String c v)).
Qed.

(** * Encodings *)

Lemma encoding_header : forall E fresh q d body,
  let w := parse_incoming E fresh q in
  canonical_keys (ur_header (df_headers d)) ->
  values "Content-Encoding" (rp_header (assemble E w d body)) =
  if String.eqb (rp_body (assemble E w d body)) "" then values "Content-Encoding" (ur_header (df_headers d))
  else [content_encoding w (df_gz_header d) (df_encoding d)].
Proof.
  intros E fresh q d body w Hc. cbn [assemble rp_header rp_body].
  destruct (String.eqb_spec (encode_body E w (df_gz_body d) body) "") as [Eb|Eb].
  - rewrite Eb. change (Z.gtb (zlen "") 0) with false. cbn iota. rewrite values_set.
    change (String.eqb (canon content_length_key) "Content-Encoding") with false. cbn iota.
    rewrite values_copy, standard_values by assumption. cbn -[values w_header parse_incoming].
    subst w. rewrite w_header_values by discriminate. reflexivity.
  - assert (G : Z.gtb (zlen (encode_body E w (df_gz_body d) body)) 0 = true).
    { destruct (encode_body E w (df_gz_body d) body); [congruence|]. reflexivity. }
    rewrite G, values_set. reflexivity.
Qed.

Lemma codec_not_empty : forall E dec, codec E dec -> forall s, e_gzip E s <> "".
Proof. intros E dec [C1 [C2 C3]] s H. destruct (C3 _ _ (C1 s)) as [t Ht]. rewrite H in Ht. discriminate. Qed.

Lemma is_gzip_iff : forall body, is_gzip body = true <-> gzip_start body.
Proof.
  intro body. unfold is_gzip, gzip_magic, gzip_start. split.
  - intro H. destruct body as [|a [|b t]]; [discriminate H| |].
    + cbn [String.prefix] in H. destruct (ascii_dec (ascii_of_N 31) a); [|discriminate H]. discriminate H.
    + cbn [String.prefix] in H. destruct (ascii_dec (ascii_of_N 31) a) as [<-|]; [|discriminate H].
      destruct (ascii_dec (ascii_of_N 139) b) as [<-|]; [|discriminate H]. now exists t.
  - intros [t ->]. cbn. now destruct t.
Qed.

Lemma is_gzip_not : forall body, is_gzip body = false <-> ~ gzip_start body.
Proof.
  intro body. rewrite <- is_gzip_iff. destruct (is_gzip body); split; intro H.
  - discriminate H.
  - now elim H.
  - discriminate.
  - reflexivity.
Qed.

Lemma codec_is_gzip : forall E dec, codec E dec -> forall b s, dec "gzip" b = Some s -> is_gzip b = true.
Proof. intros E dec [C1 [C2 C3]] b s H. destruct (C3 _ _ H) as [t ->]. unfold is_gzip, gzip_magic. cbn. now destruct t. Qed.

(** Content preserved for honest upstream answers that the scheme can handle. *)
Lemma content_preserved : forall E dec fresh q rs body x,
  codec E dec -> canonical_keys (ur_header rs) ->
  let w := parse_incoming E fresh q in
  let ce := values "Content-Encoding" (ur_header rs) in
  content_of dec ce body = Some x ->
  (((ce = [] \/ ce = ["identity"]) /\ is_gzip body = false) \/
   (ce = ["gzip"] /\ x <> "") \/
   (w_send_gzip w = false /\ is_gzip body = false)) ->
  let r := assemble E w (Draft rs (ur_status rs) (is_gzip body) rs (is_gzip body) rs) body in
  content_of dec (values "Content-Encoding" (rp_header r)) (rp_body r) = Some x.
Proof.
  intros E dec fresh q rs body x C Hc w ce Hx Hcase r. subst r. unfold w. rewrite encoding_header by exact Hc. fold w.
  cbn [assemble rp_body df_gz_body df_gz_header df_encoding df_headers].
  pose proof C as [C1 [C2 C3]].
  destruct (String.eqb_spec body "") as [Eb|Eb].
  { (* empty bodies are passed on with the upstream header *)
    unfold encode_body. rewrite Eb. cbn [String.eqb]. cbn iota. fold ce. now rewrite <- Eb. }
  assert (EB : encode_body E w (is_gzip body) body =
    if (w_send_gzip w && negb (is_gzip body))%bool then e_gzip E body
    else if (negb (w_send_gzip w) && is_gzip body)%bool then e_gunzip E body else body).
  { unfold encode_body. now rewrite (proj2 (String.eqb_neq _ _) Eb). }
  rewrite EB. unfold content_encoding, content_encoding_key. fold ce.
  destruct Hcase as [[Hce Hg]|[[Hce Hne]|[Hs Hg]]].
  - rewrite Hg. destruct (w_send_gzip w); cbn [andb negb].
    + rewrite (proj2 (String.eqb_neq _ _) (codec_not_empty E dec C body)). cbn [content_of String.eqb Ascii.eqb Bool.eqb].
      rewrite C1. rewrite <- Hx. now destruct Hce as [-> | ->].
    + rewrite (proj2 (String.eqb_neq _ _) Eb). destruct Hce as [Hce|Hce]; rewrite Hce in *; exact Hx.
  - rewrite Hce in Hx. cbn [content_of] in Hx. change (String.eqb "gzip" "identity") with false in Hx. cbn iota in Hx.
    rewrite (codec_is_gzip E dec C body x Hx). destruct (w_send_gzip w); cbn [andb negb].
    + rewrite (proj2 (String.eqb_neq _ _) Eb). exact Hx.
    + rewrite (C2 _ _ Hx). rewrite (proj2 (String.eqb_neq _ _) Hne). reflexivity.
  - rewrite Hs, Hg. cbn [andb negb]. rewrite (proj2 (String.eqb_neq _ _) Eb). destruct ce as [|a [|b l]] eqn:Ece.
    + exact Hx.
    + exact Hx.
    + discriminate Hx.
Qed.

(** * Counterexamples *)

Fixpoint fill (n : nat) : string := match n with O => "" | S n' => String "x" (fill n') end.

Lemma fill_length : forall n, String.length (fill n) = n.
Proof. induction n as [|n IH]; cbn; [reflexivity | now rewrite IH]. Qed.

Lemma chunked_not_rejected : forall E fresh, (0 <= e_max_body E)%Z ->
  exists q, chunked q /\ (e_max_body E < Z.of_nat (String.length (q_data q)))%Z /\
    w_too_large (parse_incoming E fresh q) = false /\ w_body (parse_incoming E fresh q) = "" /\ q_data q <> "".
Proof.
  intros E fresh Hm. set (n := Z.to_nat (e_max_body E)).
  set (q := Req "POST" "/a" "/a" [] (-1) (fill (S n)) true).
  assert (L : (e_max_body E < zlen (q_data q))%Z) by (cbn [q q_data]; unfold zlen; rewrite fill_length; lia).
  exists q. split; [split; reflexivity|]. split; [exact L|].
  cbn [parse_incoming w_too_large w_body]. rewrite body_over_limit by (reflexivity || assumption).
  split; [reflexivity|]. split; [reflexivity | discriminate].
Qed.

Lemma exact_rejected : forall E fresh, (0 < e_max_body E)%Z ->
  exists q, honest_length q /\ Z.of_nat (String.length (q_data q)) = e_max_body E /\
    w_too_large (parse_incoming E fresh q) = true.
Proof.
  intros E fresh Hm. exists (Req "POST" "/a" "/a" [] (e_max_body E) (fill (Z.to_nat (e_max_body E))) true).
  unfold honest_length. cbn [q_length q_data q_data_ok]. rewrite fill_length. split; [split; [lia | split; [lia | reflexivity]]|]. split; [lia|].
  cbn [parse_incoming w_too_large]. unfold parse_body. cbn [q_length].
  rewrite (proj2 (Z.eqb_neq _ _)) by lia. rewrite Z.geb_leb, Z.leb_refl. reflexivity.
Qed.

Lemma declared_rejected : forall E fresh q, (0 <= e_max_body E)%Z -> honest_length q ->
  (e_max_body E < Z.of_nat (String.length (q_data q)))%Z -> w_too_large (parse_incoming E fresh q) = true.
Proof. intros E fresh q Hm H Hl. cbn [parse_incoming w_too_large]. now apply body_declared_large_413. Qed.

Lemma within_accepted : forall E fresh q, (0 < e_max_body E)%Z -> honest_length q \/ chunked q ->
  (Z.of_nat (String.length (q_data q)) < e_max_body E)%Z ->
  w_too_large (parse_incoming E fresh q) = false /\ w_body (parse_incoming E fresh q) = q_data q.
Proof.
  intros E fresh q Hm H Hl. cbn [parse_incoming w_too_large w_body].
  rewrite body_exact; [now split | | assumption | | exact Hl].
  - destruct H as [H|[H _]]; [now right | now left].
  - destruct H as [[_ [_ H]]|[_ H]]; exact H.
Qed.

Lemma chunked_accepted : forall E fresh q, chunked q ->
  (Z.of_nat (String.length (q_data q)) <= e_max_body E)%Z ->
  w_too_large (parse_incoming E fresh q) = false /\ w_body (parse_incoming E fresh q) = q_data q.
Proof.
  intros E fresh q [H1 H2] Hl. cbn [parse_incoming w_too_large w_body].
  rewrite body_chunked_exact; [now split | assumption | lia | assumption | exact Hl].
Qed.

Lemma whole_or_empty : forall E fresh q uri,
  uq_body (scaffold_request (parse_incoming E fresh q) uri) = q_data q \/
  uq_body (scaffold_request (parse_incoming E fresh q) uri) = "".
Proof. intros E fresh q uri. apply body_whole_or_none. Qed.

Lemma within_forwarded : forall E fresh q uri, (0 < e_max_body E)%Z -> honest_length q \/ chunked q ->
  (Z.of_nat (String.length (q_data q)) < e_max_body E)%Z ->
  uq_body (scaffold_request (parse_incoming E fresh q) uri) = q_data q.
Proof. intros. now apply within_accepted. Qed.

Lemma body_dropped : forall E fresh uri, (0 <= e_max_body E)%Z ->
  exists q, chunked q /\ w_too_large (parse_incoming E fresh q) = false /\
    uq_body (scaffold_request (parse_incoming E fresh q) uri) = "" /\ q_data q <> "".
Proof.
  intros E fresh uri Hm. destruct (chunked_not_rejected E fresh Hm) as [q (H1 & _ & H3 & H4 & H5)]. now exists q.
Qed.

Lemma request_id_choice : forall E fresh q,
  w_id (parse_incoming E fresh q) =
  match values "X-Request-Id" (q_header q) with
  | v :: _ => if String.eqb v "" then "XR-" ++ e_id E ++ "-" ++ fresh else v
  | [] => "XR-" ++ e_id E ++ "-" ++ fresh
  end.
Proof.
  intros E fresh q. cbn [parse_incoming w_id]. unfold create_request_id, get. change (canon x_request_id) with "X-Request-Id".
  destruct (values "X-Request-Id" (q_header q)) as [|v vs]; [reflexivity|]. now destruct (String.eqb v "").
Qed.

Lemma request_id_upstream : forall w uri, canonical_keys (w_req_header w) ->
  values "X-Request-Id" (uq_header (scaffold_request w uri)) = [w_id w].
Proof. intros w uri H. now rewrite upstream_values. Qed.

Lemma request_id_error : forall E dice w status m,
  values "X-Request-Id" (rp_header (send_status E dice w status m)) = [w_id w].
Proof. intros. rewrite send_status_values. cbn -[values standard_headers]. now rewrite standard_values. Qed.

Lemma request_id_proxied : forall E w d body, canonical_keys (ur_header (df_headers d)) ->
  values "X-Request-Id" (rp_header (assemble E w d body)) =
  w_id w :: values "X-Request-Id" (ur_header (df_headers d)).
Proof. intros E w d body H. rewrite assemble_values by (assumption || discriminate). now rewrite standard_values. Qed.

Lemma response_values : forall E fresh q d body k,
  canonical_keys (ur_header (df_headers d)) ->
  ~ In k own_headers -> ~ In k never_copied ->
  values k (rp_header (assemble E (parse_incoming E fresh q) d body)) = values k (ur_header (df_headers d)).
Proof.
  intros E fresh q d body k Hc Ho Hn. cbn [own_headers In] in Ho.
  rewrite assemble_values; [|assumption | intros ->; apply Ho; auto 8 | intros ->; apply Ho; auto 8].
  assert (Z : forall s, k <> s -> String.eqb k s = false) by (intros s; apply String.eqb_neq).
  rewrite standard_values.
  rewrite (Z "X-Request-Id") by (intros ->; apply Ho; auto 8).
  rewrite (Z "Strict-Transport-Security") by (intros ->; apply Ho; auto 8).
  rewrite (Z "Server") by (intros ->; apply Ho; auto 8). cbn [andb].
  rewrite w_header_values by (intros ->; apply Ho; auto 8).
  destruct (existsb (String.eqb k) never_copied) eqn:E2; [|reflexivity].
  exfalso. apply Hn. now apply mem_str_In in E2.
Qed.

Lemma response_server : forall E w d body, canonical_keys (ur_header (df_headers d)) ->
  values "Server" (rp_header (assemble E w d body)) = ["j8a " ++ e_version E ++ " " ++ e_id E] /\
  (forall k, In k ["Date"; "Transfer-Encoding"] ->
     values k (rp_header (assemble E w d body)) = values k (w_header w)).
Proof.
  intros E w d body H. split.
  - rewrite assemble_values by (assumption || discriminate). now rewrite standard_values.
  - intros k [<-|[<-|[]]]; rewrite assemble_values by (assumption || discriminate); rewrite standard_values; cbn -[values]; now rewrite app_nil_r.
Qed.

Lemma hsts_duplicated : forall E fresh q, e_tls E = true ->
  exists rs, canonical_keys (ur_header rs) /\
    values "Strict-Transport-Security" (ur_header rs) = ["max-age=60"] /\
    values "Strict-Transport-Security"
      (rp_header (assemble E (parse_incoming E fresh q) (Draft rs 200 false rs false rs) "")) =
    ["max-age=31536000"; "max-age=60"].
Proof.
  intros E fresh q Ht. exists (UpResp 200 [("Strict-Transport-Security", "max-age=60")]).
  assert (Hc : canonical_keys (ur_header (UpResp 200 [("Strict-Transport-Security", "max-age=60")]))).
  { intros k v [H|[]]. injection H as <- <-. reflexivity. }
  split; [exact Hc|]. split; [reflexivity|]. rewrite assemble_values by (exact Hc || discriminate).
  rewrite standard_values, Ht. reflexivity.
Qed.

Lemma id_duplicated : forall E fresh q,
  exists rs, canonical_keys (ur_header rs) /\
    values "X-Request-Id"
      (rp_header (assemble E (parse_incoming E fresh q) (Draft rs 200 false rs false rs) "")) =
    [w_id (parse_incoming E fresh q); "other"] /\ values "X-Request-Id" (ur_header rs) = ["other"].
Proof.
  intros E fresh q. exists (UpResp 200 [("X-Request-Id", "other")]).
  assert (Hc : canonical_keys (ur_header (UpResp 200 [("X-Request-Id", "other")]))).
  { intros k v [H|[]]. injection H as <- <-. reflexivity. }
  split; [exact Hc|]. split; [|reflexivity]. now rewrite request_id_proxied.
Qed.

Lemma hop_forwarded : forall w uri k, canonical_keys (w_req_header w) -> In k hop_by_hop ->
  values k (uq_header (scaffold_request w uri)) = values k (w_req_header w).
Proof.
  intros w uri k Hc Hk. rewrite upstream_values by assumption.
  destruct Hk as [<-|[<-|[<-|[<-|[<-|[<-|[<-|[]]]]]]]]; reflexivity.
Qed.

Definition hop_request : request :=
  Req "GET" "/a" "/a" [("Connection", "Upgrade"); ("Upgrade", "websocket"); ("Te", "trailers")] 0 "" true.

Lemma hop_refuted : forall E fresh uri,
  canonical_keys (q_header hop_request) /\
  forall k, In k ["Connection"; "Upgrade"; "Te"] ->
    values k (uq_header (scaffold_request (parse_incoming E fresh hop_request) uri)) <> [].
Proof.
  intros E fresh uri. assert (Hc : canonical_keys (q_header hop_request)).
  { intros k v [H|[H|[H|[]]]]; injection H as <- <-; reflexivity. }
  split; [exact Hc|]. intros k [<-|[<-|[<-|[]]]]; rewrite hop_forwarded; try discriminate; try exact Hc; cbn; auto 8.
Qed.

(** ** Encodings *)

Lemma br_double : forall E dec fresh, codec E dec -> forall body x, body <> "" -> ~ gzip_start body ->
  dec "br" body = Some x -> x <> body ->
  exists q rs, canonical_keys (ur_header rs) /\ allows "gzip" (values "Accept-Encoding" (q_header q)) = true /\
    content_of dec (values "Content-Encoding" (ur_header rs)) body = Some x /\
    let r := proxied E 0 (parse_incoming E fresh q) rs body in
    content_of dec (values "Content-Encoding" (rp_header r)) (rp_body r) = Some body.
Proof.
  intros E dec fresh C body x Hb Hg Hd Hx. apply is_gzip_not in Hg.
  exists (Req "GET" "/a" "/a" [("Accept-Encoding", "gzip, br")] 0 "" true), (UpResp 200 [("Content-Encoding", "br")]).
  set (rs := UpResp 200 [("Content-Encoding", "br")]).
  assert (Hc : canonical_keys (ur_header rs)) by (intros k v [H|[]]; injection H as <- <-; reflexivity).
  split; [exact Hc|]. split; [reflexivity|]. split; [exact Hd|]. cbv zeta.
  unfold proxied. cbn [ur_status rs client_error]. change (client_error 200) with false. cbn iota. fold rs.
  rewrite encoding_header by exact Hc. cbn [assemble rp_body df_gz_body df_gz_header df_encoding].
  unfold encode_body. rewrite (proj2 (String.eqb_neq _ _) Hb), Hg.
  change (w_send_gzip (parse_incoming E fresh (Req "GET" "/a" "/a" [("Accept-Encoding", "gzip, br")] 0 "" true))) with true.
  cbn [andb negb]. rewrite (proj2 (String.eqb_neq _ _) (codec_not_empty E dec C body)).
  unfold content_encoding.
  change (w_send_gzip (parse_incoming E fresh (Req "GET" "/a" "/a" [("Accept-Encoding", "gzip, br")] 0 "" true))) with true.
  cbn [content_of]. change (String.eqb "gzip" "identity") with false. cbn iota. apply C.
Qed.

Lemma archive_unpacked : forall E dec fresh, codec E dec -> forall s, s <> "" -> e_gzip E s <> s ->
  forall q, canonical_keys (q_header q) ->
  let body := e_gzip E s in
  let rs := UpResp 200 [("Content-Type", "application/gzip")] in
  let r := proxied E 0 (parse_incoming E fresh q) rs body in
  content_of dec (values "Content-Encoding" (ur_header rs)) body = Some body /\
  content_of dec (values "Content-Encoding" (rp_header r)) (rp_body r) = Some s.
Proof.
  intros E dec fresh C s Hs Hne q Hq body rs r. split; [reflexivity|]. subst r.
  assert (Hc : canonical_keys (ur_header rs)) by (intros k v [H|[]]; injection H as <- <-; reflexivity).
  unfold proxied. change (client_error (ur_status rs)) with false. cbn iota.
  rewrite encoding_header by exact Hc. cbn [assemble rp_body df_gz_body df_gz_header df_encoding df_headers].
  pose proof C as [C1 [C2 C3]].
  assert (Hg : is_gzip body = true) by exact (codec_is_gzip E dec C body s (C1 s)).
  assert (Hb : String.eqb body "" = false) by exact (proj2 (String.eqb_neq _ _) (codec_not_empty E dec C s)).
  unfold encode_body. rewrite Hb, Hg.
  unfold content_encoding. destruct (w_send_gzip (parse_incoming E fresh q)); cbn [andb negb].
  - rewrite Hb. cbn [content_of].
    change (String.eqb "gzip" "identity") with false. cbn iota. apply C1.
  - rewrite (C2 body s (C1 s)). rewrite (proj2 (String.eqb_neq _ _) Hs). reflexivity.
Qed.

Lemma empty_gzip : forall E dec fresh, codec E dec ->
  exists q rs, canonical_keys (ur_header rs) /\ values "Accept-Encoding" (q_header q) = [] /\
    content_of dec (values "Content-Encoding" (ur_header rs)) (e_gzip E "") = Some "" /\
    let r := proxied E 0 (parse_incoming E fresh q) rs (e_gzip E "") in
    content_of dec (values "Content-Encoding" (rp_header r)) (rp_body r) = None.
Proof.
  intros E dec fresh C. pose proof C as [C1 [C2 C3]].
  exists (Req "GET" "/a" "/a" [] 0 "" true), (UpResp 200 [("Content-Encoding", "gzip")]).
  set (rs := UpResp 200 [("Content-Encoding", "gzip")]).
  assert (Hc : canonical_keys (ur_header rs)) by (intros k v [H|[]]; injection H as <- <-; reflexivity).
  split; [exact Hc|]. split; [reflexivity|]. split; [apply C1|]. cbv zeta.
  unfold proxied. change (client_error (ur_status rs)) with false. cbn iota.
  rewrite encoding_header by exact Hc. cbn [assemble rp_body df_gz_body df_gz_header df_encoding df_headers].
  unfold encode_body. rewrite (proj2 (String.eqb_neq _ _) (codec_not_empty E dec C "")).
  rewrite (codec_is_gzip E dec C _ _ (C1 "")).
  change (w_send_gzip (parse_incoming E fresh (Req "GET" "/a" "/a" [] 0 "" true))) with false. cbn [andb negb].
  rewrite (C2 _ _ (C1 "")). cbn [String.eqb]. cbn iota.
  change (values "Content-Encoding" (ur_header rs)) with ["gzip"]. cbn [content_of].
  change (String.eqb "gzip" "identity") with false. cbn iota.
  destruct (dec "gzip" "") as [y|] eqn:E0; [|reflexivity]. destruct (C3 _ _ E0) as [t Ht]. discriminate.
Qed.

(** ** Error documents *)

Lemma status_message_none : forall status, status_message status "none" = with_code status.
Proof. reflexivity. Qed.

Lemma error_json : forall E dec dice w status m, utf8 (e_id E) -> utf8 (e_version E) -> utf8 (status_message status m) ->
  values "Content-Encoding" (w_header w) = [] -> w_send_gzip w = false ->
  let r := send_status E dice w status m in
  rp_status r = status /\ values "Content-Type" (rp_header r) = ["application/json"] /\
  exists text, content_of dec (values "Content-Encoding" (rp_header r)) (rp_body r) = Some text /\
    read_object text = Some [("j8a", JStr (random_huttese dice)); ("ServerID", JStr (e_id E));
      ("Version", JStr (e_version E)); ("Code", JInt status); ("Message", JStr (status_message status m))].
Proof.
  intros E dec dice w status m Hi Hv Hm Hce Hg r. subst r. split; [reflexivity|]. split; [now rewrite send_status_values|].
  rewrite send_status_values. cbn -[values standard_headers send_status read_object random_huttese].
  rewrite standard_values. cbn -[values send_status read_object random_huttese]. rewrite Hce. cbn [content_of].
  eexists. split; [reflexivity|]. cbn [send_status rp_body]. rewrite Hg. apply status_faithful; auto using huttese_utf8.
Qed.

Lemma codec_not_json : forall E dec, codec E dec -> forall s, read_object (e_gzip E s) = None.
Proof.
  intros E dec [C1 [C2 C3]] s. destruct (C3 _ _ (C1 s)) as [t ->]. reflexivity.
Qed.

Lemma error_gzip : forall E dec dice w status m, codec E dec ->
  values "Content-Encoding" (w_header w) = [] -> w_send_gzip w = true ->
  let r := send_status E dice w status m in
  content_of dec (values "Content-Encoding" (rp_header r)) (rp_body r) = Some (rp_body r) /\
  read_object (rp_body r) = None.
Proof.
  intros E dec dice w status m C Hce Hg r. subst r. rewrite send_status_values.
  cbn -[values standard_headers send_status read_object]. rewrite standard_values. cbn -[values send_status read_object].
  rewrite Hce. cbn [content_of]. split; [reflexivity|]. cbn [send_status rp_body]. rewrite Hg. now apply (codec_not_json E dec).
Qed.

Definition gzip_request : request := Req "GET" "/none" "/none" [("Accept-Encoding", "gzip, deflate")] 0 "" true.

Lemma error_refuted : forall E dec dice fresh, codec E dec ->
  let r := send_status E dice (parse_incoming E fresh gzip_request) 404 "upstream resource not found" in
  exists text, content_of dec (values "Content-Encoding" (rp_header r)) (rp_body r) = Some text /\ read_object text = None.
Proof.
  intros E dec dice fresh C r. eexists. subst r. apply error_gzip; [exact C | reflexivity | reflexivity].
Qed.

(** ** Clients without gzip *)

Lemma no_gzip_flag : forall E fresh q, (forall v, In v (values "Accept-Encoding" (q_header q)) -> contains v "gzip" = false) ->
  w_send_gzip (parse_incoming E fresh q) = false.
Proof.
  intros E fresh q H. cbn [parse_incoming w_send_gzip]. unfold get. change (canon "Accept-Encoding") with "Accept-Encoding".
  destruct (values "Accept-Encoding" (q_header q)) as [|v vs]; [reflexivity|]. apply H. now left.
Qed.

Lemma no_gzip_body : forall E dice fresh q rs body,
  (forall v, In v (values "Accept-Encoding" (q_header q)) -> contains v "gzip" = false) ->
  let w := parse_incoming E fresh q in
  (~ (400 <= ur_status rs < 500)%Z ->
   (gzip_start body -> rp_body (proxied E dice w rs body) = e_gunzip E body) /\
   (~ gzip_start body -> rp_body (proxied E dice w rs body) = body)) /\
  (forall status m, rp_body (send_status E dice w status m) =
     status_json (random_huttese dice) (e_id E) (e_version E) status (status_message status m)).
Proof.
  intros E dice fresh q rs body H w. pose proof (no_gzip_flag E fresh q H) as Hg. fold w in Hg. split.
  - intros Hn. assert (Hc : client_error (ur_status rs) = false).
    { unfold client_error. destruct (Z.gtb_spec (ur_status rs) 399); cbn [andb]; [|reflexivity]. apply Z.ltb_ge. lia. }
    unfold proxied. rewrite Hc. cbn [assemble rp_body df_gz_body]. unfold encode_body. rewrite Hg. cbn [andb negb].
    rewrite <- is_gzip_iff. split; intro Hs.
    + rewrite Hs. destruct (String.eqb_spec body "") as [->|]; [discriminate Hs|reflexivity].
    + destruct (is_gzip body); [now elim Hs|]. now destruct (String.eqb_spec body "") as [->|].
  - intros status m. cbn [send_status rp_body]. now rewrite Hg.
Qed.

Definition refusing_request : request := Req "GET" "/a" "/a" [("Accept-Encoding", "gzip;q=0, identity")] 0 "" true.

Lemma q0_gzipped : forall E dec fresh, codec E dec -> forall body, body <> "" -> ~ gzip_start body ->
  allows "gzip" (values "Accept-Encoding" (q_header refusing_request)) = false /\
  let r := proxied E 0 (parse_incoming E fresh refusing_request) (UpResp 200 []) body in
  rp_body r = e_gzip E body /\ values "Content-Encoding" (rp_header r) = ["gzip"].
Proof.
  intros E dec fresh C body Hb Hg. apply is_gzip_not in Hg. split; [reflexivity|]. cbv zeta. unfold proxied.
  change (client_error (ur_status (UpResp 200 []))) with false. cbn iota.
  assert (Hc : canonical_keys (ur_header (UpResp 200 []))) by (intros k v []).
  rewrite encoding_header by exact Hc. cbn [assemble rp_body df_gz_body df_gz_header df_encoding].
  unfold encode_body. rewrite (proj2 (String.eqb_neq _ _) Hb), Hg.
  change (w_send_gzip (parse_incoming E fresh refusing_request)) with true. cbn [andb negb].
  split; [reflexivity|]. rewrite (proj2 (String.eqb_neq _ _) (codec_not_empty E dec C body)). reflexivity.
Qed.

(** ** Upstream 4xx *)

Lemma client_error_range : forall z, client_error z = true <-> (400 <= z < 500)%Z.
Proof. intros z. unfold client_error. rewrite andb_true_iff, Z.gtb_ltb, !Z.ltb_lt. lia. Qed.

Lemma message_ascii : forall code, utf8 (with_code code).
Proof.
  intros code. destruct (with_code_spec code "") as [_ H2].
  assert (D : (exists m, In (code, m) http_responses) \/ forall m, ~ In (code, m) http_responses).
  { destruct (in_dec Z.eq_dec code (map fst http_responses)) as [i|n].
    - left. apply in_map_iff in i. destruct i as [[k m] [E Hm]]. cbn in E. subst k. now exists m.
    - right. intros m Hm. apply n. now apply (in_map fst) in Hm. }
  destruct D as [[m Hm]|D]; [|rewrite (H2 D); ascii_utf8].
  rewrite (proj1 (with_code_spec code m) Hm). clear H2.
  assert (A : forall s, all_chars (fun c => rng 0 127 c) s = true -> utf8 s).
  { induction s as [|c s IH]; intros Ha; [apply utf8_nil|]. cbn [all_chars] in Ha. apply andb_true_iff in Ha. now apply utf8_1; [|apply IH]. }
  apply A. assert (F : forallb (fun e => all_chars (fun c => rng 0 127 c) (snd e)) http_responses = true) by (vm_compute; reflexivity).
  rewrite forallb_forall in F. exact (F _ Hm).
Qed.

Lemma client_error_json : forall E dice fresh q rs body, utf8 (e_id E) -> utf8 (e_version E) ->
  (400 <= ur_status rs < 500)%Z ->
  let w := parse_incoming E fresh q in
  let r := proxied E dice w rs body in
  rp_status r = ur_status rs /\
  (forall k, ~ In k ["Server"; "X-Request-Id"; "Strict-Transport-Security"; "Connection"; "Content-Type"] ->
     values k (rp_header r) = []) /\
  exists text, (rp_body r = text \/ rp_body r = e_gzip E text) /\
    (w_send_gzip w = false -> rp_body r = text) /\
    read_object text = Some [("j8a", JStr (random_huttese dice)); ("ServerID", JStr (e_id E));
      ("Version", JStr (e_version E)); ("Code", JInt (ur_status rs)); ("Message", JStr (with_code (ur_status rs)))].
Proof.
  intros E dice fresh q rs body Hi Hv Hs w r. subst r. unfold proxied.
  rewrite (proj2 (client_error_range _) Hs). split; [reflexivity|]. split.
  - intros k Hk. cbn [In] in Hk. rewrite send_status_values, standard_values.
    assert (Z : forall s, k <> s -> String.eqb k s = false) by (intros s; apply String.eqb_neq).
    rewrite (Z "X-Request-Id"), (Z "Strict-Transport-Security"), (Z "Server"), (Z "Content-Type") by (intros ->; apply Hk; auto 8).
    cbn [andb]. unfold w. apply w_header_values. intros ->. apply Hk. auto 8.
  - eexists. cbn [send_status rp_body]. split; [destruct (w_send_gzip w); [right | left]; reflexivity|].
    split; [intros ->; reflexivity|]. rewrite status_message_none. apply status_faithful; auto using huttese_utf8, message_ascii.
Qed.

(** ** About page *)

Lemma prefix_before : forall sub a r, all_chars (fun c => negb (Ascii.eqb c " ")) sub = true ->
  String.prefix sub (a ++ String " " r) = true -> String.prefix sub a = true.
Proof.
  induction sub as [|c sub IH]; intros a r Ha H; [now destruct a|]. cbn [all_chars] in Ha. apply andb_true_iff in Ha.
  destruct Ha as [Hc Ha]. destruct a as [|d a]; cbn [append String.prefix] in H |- *.
  - destruct (ascii_dec c " ") as [->|]; discriminate.
  - destruct (ascii_dec c d); [now apply (IH a r) | discriminate].
Qed.

Lemma contains_before : forall sub a r, all_chars (fun c => negb (Ascii.eqb c " ")) sub = true -> sub <> "" ->
  contains (a ++ String " " r) sub = true -> contains a sub = true \/ contains r sub = true.
Proof.
  intros sub a r Ha Hn. induction a as [|d a IH]; intros H.
  - right. cbn [append contains] in H. apply orb_true_iff in H. destruct H as [H|H]; [|exact H].
    apply (prefix_before sub "" r Ha) in H. destruct sub; [now elim Hn | discriminate].
  - change (contains (String d (a ++ String " " r)) sub = true) in H. cbn [contains] in H |- *.
    apply orb_true_iff in H. destruct H as [H|H].
    + left. apply orb_true_iff. left. now apply (prefix_before sub (String d a) r).
    + destruct (IH H) as [H'|H']; [left | now right]. rewrite H'. apply orb_true_r.
Qed.

Lemma contains_join : forall l, contains (join " " l) "gzip" = true -> exists v, In v l /\ contains v "gzip" = true.
Proof.
  induction l as [|a l IH]; [discriminate|]. destruct l as [|b l].
  - intros H. exists a. split; [now left | exact H].
  - change (join " " (a :: b :: l)) with (a ++ String " " (join " " (b :: l))). intros H.
    destruct (contains_before "gzip" a (join " " (b :: l)) eq_refl ltac:(discriminate) H) as [H'|H'].
    + exists a. split; [now left | exact H'].
    + destruct (IH H') as [v [H1 H2]]. exists v. split; [now right | exact H2].
Qed.

Lemma about_response : forall E dec dice fresh q, codec E dec -> utf8 (e_id E) -> utf8 (e_version E) ->
  let r := about_page E dice fresh q in
  rp_status r = 200%Z /\ values "Content-Type" (rp_header r) = ["application/json"] /\
  values "Content-Length" (rp_header r) = [itoa_Z (Z.of_nat (String.length (rp_body r)))] /\
  ((forall v, In v (values "Accept-Encoding" (q_header q)) -> contains v "gzip" = false) ->
     values "Content-Encoding" (rp_header r) = ["identity"]) /\
  exists text, content_of dec (values "Content-Encoding" (rp_header r)) (rp_body r) = Some text /\
    read_object text = Some [("j8a", JStr (random_huttese dice)); ("ServerID", JStr (e_id E)); ("Version", JStr (e_version E))].
Proof.
  intros E dec dice fresh q C Hi Hv r. subst r. unfold about_page.
  set (json := about_json (random_huttese dice) (e_id E) (e_version E)).
  assert (J : read_object json = Some [("j8a", JStr (random_huttese dice)); ("ServerID", JStr (e_id E)); ("Version", JStr (e_version E))])
    by (apply about_faithful; auto using huttese_utf8).
  assert (G : forall ce body, (ce = "gzip" /\ body = e_gzip E json /\ contains (join " " (values "Accept-Encoding" (q_header q))) "gzip" = true)
                              \/ (ce = "identity" /\ body = json) ->
    let r := Response 200 (set content_length_key (itoa_Z (zlen body)) (set content_encoding_key ce
        (set "Content-Type" "application/json" (standard_headers E (parse_incoming E fresh q) [])))) body in
    rp_status r = 200%Z /\ values "Content-Type" (rp_header r) = ["application/json"] /\
    values "Content-Length" (rp_header r) = [itoa_Z (Z.of_nat (String.length (rp_body r)))] /\
    ((forall v, In v (values "Accept-Encoding" (q_header q)) -> contains v "gzip" = false) ->
     values "Content-Encoding" (rp_header r) = ["identity"]) /\
    exists text, content_of dec (values "Content-Encoding" (rp_header r)) (rp_body r) = Some text /\ 
      read_object text = Some [("j8a", JStr (random_huttese dice)); ("ServerID", JStr (e_id E)); ("Version", JStr (e_version E))]).
  { intros ce body H r. subst r. cbn [rp_status rp_header rp_body].
    split; [reflexivity|]. rewrite !values_set. cbn -[values read_object itoa_Z zlen json random_huttese contains join].
    split; [reflexivity|]. split; [reflexivity|]. split.
    - intros Hn. destruct H as [[_ [_ H]]|[-> _]]; [|reflexivity].
      destruct (contains_join _ H) as [v [Hv1 Hv2]]. now rewrite (Hn v Hv1) in Hv2.
    - exists json. split; [|exact J]. destruct H as [[-> [-> _]]|[-> ->]]; [|reflexivity]. cbn. apply C. }
  destruct (values "Accept-Encoding" (q_header q)) as [|v vs] eqn:Eae.
  - apply G. now right.
  - destruct (contains (join " " (v :: vs)) "gzip") eqn:Ec; apply G; [left; auto | now right].
Qed.

(** ** In the form used by the theorems *)

Lemma not_client_error : forall z, ~ (400 <= z < 500)%Z -> client_error z = false.
Proof. intros z H. destruct (client_error z) eqn:E; [|reflexivity]. now apply client_error_range in E. Qed.

Lemma content_same : forall E dec dice fresh q rs body x,
  codec E dec -> canonical_keys (ur_header rs) -> ~ (400 <= ur_status rs < 500)%Z ->
  let ce := values "Content-Encoding" (ur_header rs) in
  content_of dec ce body = Some x ->
  (((ce = [] \/ ce = ["identity"]) /\ ~ gzip_start body) \/
   (ce = ["gzip"] /\ x <> "") \/
   (no_gzip_client q /\ ~ gzip_start body)) ->
  let r := proxied E dice (parse_incoming E fresh q) rs body in
  content_of dec (values "Content-Encoding" (rp_header r)) (rp_body r) = Some x.
Proof.
  intros E dec dice fresh q rs body x C Hc Hs ce Hx H r. subst r. unfold proxied. rewrite not_client_error by assumption.
  rewrite <- is_gzip_not in H. apply content_preserved; [exact C | exact Hc | exact Hx|]. destruct H as [H|[H|[H1 H2]]]; [now left | right; now left | right; right].
  split; [now apply no_gzip_flag | exact H2].
Qed.

Lemma length_proxied : forall E dice fresh q rs body,
  canonical_keys (ur_header rs) -> ~ (400 <= ur_status rs < 500)%Z ->
  ur_status rs <> 204%Z -> ~ (100 <= ur_status rs < 200)%Z ->
  to_upper (q_method q) <> "HEAD" -> to_upper (q_method q) <> "CONNECT" ->
  let r := proxied E dice (parse_incoming E fresh q) rs body in
  values "Content-Length" (rp_header r) = [itoa_Z (Z.of_nat (String.length (rp_body r)))].
Proof.
  intros E dice fresh q rs body Hc Hs H204 H1 Hm1 Hm2 r. subst r. unfold proxied. rewrite not_client_error by assumption.
  now apply length_true.
Qed.

Lemma length_proxied_head : forall E dice fresh q rs body,
  canonical_keys (ur_header rs) -> ~ (400 <= ur_status rs < 500)%Z ->
  ur_status rs <> 204%Z -> ~ (100 <= ur_status rs < 200)%Z -> to_upper (q_method q) = "HEAD" ->
  let r := proxied E dice (parse_incoming E fresh q) rs body in
  (forall v vs n, values "Content-Length" (ur_header rs) = v :: vs -> int64_text v n -> values "Content-Length" (rp_header r) = [v]) /\
  ((forall v vs n, values "Content-Length" (ur_header rs) = v :: vs -> ~ int64_text v n) -> values "Content-Length" (rp_header r) = ["0"]).
Proof.
  intros E dice fresh q rs body Hc Hs H204 H1 Hm. cbv zeta. unfold proxied. rewrite not_client_error by assumption.
  rewrite length_head by assumption. cbn [df_length]. split.
  - intros v vs n -> H. apply atoi_iff in H. now rewrite H.
  - intro H. destruct (values "Content-Length" (ur_header rs)) as [|v vs]; [reflexivity|].
    destruct (atoi v) as [n|] eqn:A; [|reflexivity]. apply atoi_iff in A. elim (H v vs n eq_refl A).
Qed.

Lemma headers_proxied : forall E dice fresh q rs body k,
  canonical_keys (ur_header rs) -> ~ (400 <= ur_status rs < 500)%Z -> ~ In k own_headers -> ~ In k never_copied ->
  values k (rp_header (proxied E dice (parse_incoming E fresh q) rs body)) = values k (ur_header rs).
Proof.
  intros E dice fresh q rs body k Hc Hs Ho Hn. unfold proxied. rewrite not_client_error by assumption.
  now apply response_values.
Qed.

Lemma server_proxied : forall E dice fresh q rs body, canonical_keys (ur_header rs) ->
  let r := proxied E dice (parse_incoming E fresh q) rs body in
  values "Server" (rp_header r) = ["j8a " ++ e_version E ++ " " ++ e_id E] /\
  values "Date" (rp_header r) = [] /\ values "Transfer-Encoding" (rp_header r) = [].
Proof.
  intros E dice fresh q rs body Hc r. subst r. unfold proxied. destruct (client_error (ur_status rs)).
  - rewrite !send_status_values, !standard_values. cbn -[values append parse_incoming]. split; [reflexivity|].
    rewrite !w_header_values by discriminate. now split.
  - destruct (response_server E (parse_incoming E fresh q) (Draft rs (ur_status rs) (is_gzip body) rs (is_gzip body) rs) body Hc) as [H1 H2].
    split; [exact H1|]. rewrite !H2 by (cbn; auto). rewrite !w_header_values by discriminate. now split.
Qed.

Lemma id_proxied : forall E dice fresh q rs body, canonical_keys (ur_header rs) ->
  hd_error (values "X-Request-Id" (rp_header (proxied E dice (parse_incoming E fresh q) rs body))) =
  Some (w_id (parse_incoming E fresh q)).
Proof.
  intros E dice fresh q rs body Hc. unfold proxied. destruct (client_error (ur_status rs)).
  - now rewrite request_id_error.
  - now rewrite request_id_proxied.
Qed.

Lemma headers_upstream : forall E fresh q uri k, canonical_keys (q_header q) ->
  values k (uq_header (scaffold_request (parse_incoming E fresh q) uri)) =
  if String.eqb k "X-Request-Id" then [w_id (parse_incoming E fresh q)]
  else if existsb (String.eqb k) never_copied then [] else values k (q_header q).
Proof. intros. now apply upstream_values. Qed.

Lemma error_readable : forall E dec dice fresh q status m,
  utf8 (e_id E) -> utf8 (e_version E) -> utf8 m -> m <> "" -> m <> "none" -> no_gzip_client q ->
  let r := send_status E dice (parse_incoming E fresh q) status m in
  rp_status r = status /\ values "Content-Type" (rp_header r) = ["application/json"] /\
  exists text, content_of dec (values "Content-Encoding" (rp_header r)) (rp_body r) = Some text /\
    read_object text = Some [("j8a", JStr (random_huttese dice)); ("ServerID", JStr (e_id E));
      ("Version", JStr (e_version E)); ("Code", JInt status); ("Message", JStr m)].
Proof.
  intros E dec dice fresh q status m Hi Hv Hm H1 H2 Hg.
  assert (M : status_message status m = m).
  { unfold status_message. now rewrite (proj2 (String.eqb_neq _ _) H1), (proj2 (String.eqb_neq _ _) H2). }
  assert (U : utf8 (status_message status m)) by now rewrite M.
  pose proof (error_json E dec dice (parse_incoming E fresh q) status m Hi Hv U
    (w_header_values E fresh q "Content-Encoding" ltac:(discriminate)) (no_gzip_flag E fresh q Hg)) as J.
  cbv zeta in J. rewrite M in J. exact J.
Qed.

(** * A toy codec showing that the contract can be met *)

Definition toy : env :=
  Env "v0.7.2" "unknown" true 10 (fun s => String (ascii_of_N 31) (String (ascii_of_N 139) s)) (drop 2).

Definition toy_dec (c b : string) : option string :=
  if String.eqb c "gzip" then
    match b with
    | String x (String y t) => if (N.eqb (N_of_ascii x) 31 && N.eqb (N_of_ascii y) 139)%bool then Some t else None
    | _ => None
    end
  else if String.eqb c "br" then match b with String _ t => Some t | EmptyString => None end
  else None.

Lemma toy_codec : codec toy toy_dec.
Proof.
  assert (D : forall b s, toy_dec "gzip" b = Some s -> b = String (ascii_of_N 31) (String (ascii_of_N 139) s)).
  { intros b s H. unfold toy_dec in H. cbn [String.eqb Ascii.eqb Bool.eqb] in H. destruct b as [|x [|y t]]; try discriminate.
    destruct (N.eqb_spec (N_of_ascii x) 31) as [Ex|]; [|discriminate].
    destruct (N.eqb_spec (N_of_ascii y) 139) as [Ey|]; [|discriminate]. cbn [andb] in H. injection H as <-.
    now rewrite <- Ex, <- Ey, !ascii_N_embedding. }
  split; [reflexivity|]. split.
  - intros b s H. now rewrite (D b s H).
  - intros b s H. exists s. now apply D.
Qed.

Lemma hop_exists : forall E fresh uri, exists q, canonical_keys (q_header q) /\
  forall k, In k ["Connection"; "Upgrade"; "Te"] ->
    values k (uq_header (scaffold_request (parse_incoming E fresh q) uri)) <> [].
Proof. intros. exists hop_request. apply hop_refuted. Qed.

Lemma error_exists : forall E dec dice fresh, codec E dec ->
  exists q,
  let r := send_status E dice (parse_incoming E fresh q) 404 "upstream resource not found" in
  exists text, content_of dec (values "Content-Encoding" (rp_header r)) (rp_body r) = Some text /\ read_object text = None.
Proof. intros E dec dice fresh C. exists gzip_request. now apply error_refuted. Qed.

Lemma q0_exists : forall E dec fresh, codec E dec -> forall body, body <> "" -> ~ gzip_start body ->
  exists q, allows "gzip" (values "Accept-Encoding" (q_header q)) = false /\
  let r := proxied E 0 (parse_incoming E fresh q) (UpResp 200 []) body in
  rp_body r = e_gzip E body /\ values "Content-Encoding" (rp_header r) = ["gzip"].
Proof. intros E dec fresh C body H1 H2. exists refusing_request. now apply (q0_gzipped E dec). Qed.

Lemma client_error_same : forall E dice w rs rs' body body', (400 <= ur_status rs < 500)%Z ->
  ur_status rs' = ur_status rs -> proxied E dice w rs body = proxied E dice w rs' body'.
Proof.
  intros E dice w rs rs' body body' H He. unfold proxied. rewrite He. now rewrite (proj2 (client_error_range _) H).
Qed.
