(** Proofs about the wire. *)
From Coq Require Import String Ascii List Bool Arith ZArith NArith Lia.
From Verif Require Import GoStr RegexSpec Header HeaderSpec HeaderProofs Config ConfigSpec ConfigProofs Exchange ExchangeSpec ExchangeProofs Jwt Machine Handler HandlerSpec SystemSpec SystemProofs
  Url UrlSpec UrlProofs Wire WireSpec.
Import ListNotations.
Local Open Scope string_scope.

(** * Header lines *)

Lemma copy_canonical : forall src dst, canonical_keys dst -> canonical_keys (copy_headers src dst).
Proof.
  unfold copy_headers. induction src as [|[k v] src IH]; intros dst H; [exact H|]. cbn [fold_left fst snd]. apply IH. destruct (should_proxy_header k); [|exact H].
  intros k' v' Hin. unfold add in Hin. apply in_app_or in Hin. destruct Hin as [Hin|[Hin|[]]]; [exact (H _ _ Hin)|]. injection Hin as <- _. apply canon_idem.
Qed.

Lemma scaffold_canonical : forall w uri, canonical_keys (uq_header (scaffold_request w uri)).
Proof.
  intros w uri k v Hin. cbn [scaffold_request uq_header] in Hin. unfold set in Hin. apply in_app_or in Hin. destruct Hin as [Hin|[Hin|[]]].
  - apply filter_In in Hin. refine (copy_canonical _ [] _ _ _ (proj1 Hin)). intros ? ? [].
  - injection Hin as <- _. apply canon_idem.
Qed.

Lemma asks_canonical : forall t x, asks t x -> sized (t_req t) -> canonical_keys (uq_header x).
Proof.
  intros t x H Hq. destruct (asks_inv t x H Hq) as (c & s & Hr & ->). destruct (ran_inv t c s Hr Hq) as (_ & _ & r & u & l & _ & _ & ->). cbn [c_request]. apply scaffold_canonical.
Qed.

Lemma field_app : forall k a b, field k (a ++ b)%list = (field k a ++ field k b)%list.
Proof. intros k a b. unfold field. now rewrite filter_app, map_app. Qed.

Lemma field_none : forall k h, canonical_keys h -> all_chars token_char k = true -> existsb (String.eqb (canon k)) written_apart = true ->
  field k (filter (fun p => negb (existsb (String.eqb (fst p)) written_apart)) h) = [].
Proof.
  intros k h Hc Ht Hw. induction h as [|[a v] h IH]; [reflexivity|]. assert (Hc' : canonical_keys h) by (intros a' v' Hin; apply (Hc a' v'); now right).
  cbn [filter fst]. destruct (existsb (String.eqb a) written_apart) eqn:E; cbn [negb]; [exact (IH Hc')|]. unfold field. cbn [filter fst].
  destruct (String.eqb (to_upper a) (to_upper k)) eqn:Eu; [|exact (IH Hc')]. exfalso. assert (F := fold_canon a k Eu Ht). rewrite (Hc a v (or_introl eq_refl)) in F.
  rewrite F, Hw in E. discriminate E.
Qed.

Lemma lines_framed : forall host x, canonical_keys (uq_header x) -> framed (lines host x) (uq_body x).
Proof.
  intros host x Hc. unfold lines.
  assert (A : forall k, all_chars token_char k = true -> existsb (String.eqb (canon k)) written_apart = true -> to_upper k <> "HOST" -> to_upper k <> "USER-AGENT" -> to_upper k <> "ACCEPT-ENCODING" ->
    field k ([("Host", host)] ++ user_agent_line (uq_header x) ++ length_line x ++ filter (fun p => negb (existsb (String.eqb (fst p)) written_apart)) (uq_header x) ++ gzip_line x)%list = field k (length_line x)).
  { intros k T W N1 N2 N3. rewrite !field_app, (field_none k _ Hc T W).
    assert (H1 : field k [("Host", host)] = []) by (unfold field; cbn [filter fst]; destruct (String.eqb_spec (to_upper "Host") (to_upper k)) as [E|]; [elim N1; symmetry; exact E|reflexivity]).
    assert (H2 : field k (user_agent_line (uq_header x)) = []).
    { assert (G : forall v, field k [("User-Agent", v)] = []) by (intros v; unfold field; cbn [filter fst]; destruct (String.eqb_spec (to_upper "User-Agent") (to_upper k)) as [E|]; [elim N2; symmetry; exact E|reflexivity]).
      unfold user_agent_line. destruct (values _ _) as [|v vs]; [apply G|]. destruct (String.eqb v ""); [reflexivity|apply G]. }
    assert (H3 : field k (gzip_line x) = []).
    { unfold gzip_line. destruct (asks_gzip x); [|reflexivity]. unfold field; cbn [filter fst]; destruct (String.eqb_spec (to_upper "Accept-Encoding") (to_upper k)) as [E|]; [elim N3; symmetry; exact E|reflexivity]. }
    rewrite H1, H2, H3. cbn [app]. now rewrite app_nil_r. }
  split.
  - rewrite A; [|reflexivity|reflexivity|discriminate|discriminate|discriminate]. unfold length_line. destruct (negb _); [reflexivity|]. now destruct (_ || _).
  - rewrite A; [|reflexivity|reflexivity|discriminate|discriminate|discriminate]. unfold length_line. destruct (String.eqb_spec (uq_body x) "") as [E|E]; cbn [negb]; [|left; reflexivity].
    rewrite E. destruct (_ || _); [left; reflexivity|right; now split].
Qed.

Lemma upstream_framed : forall t x h, gets_lines t x h -> sized (t_req t) -> framed h (uq_body x).
Proof.
  intros t x h [Ha Hw] Hq. unfold wire_header in Hw. destruct (parse_url (uq_uri x)) as [g|]; [|discriminate Hw]. injection Hw as <-.
  apply lines_framed. exact (asks_canonical t x Ha Hq).
Qed.

Lemma values_filtered : forall k h, values k (filter (fun p => negb (existsb (String.eqb (fst p)) written_apart)) h) = if existsb (String.eqb k) written_apart then [] else values k h.
Proof.
  intros k h. induction h as [|[a v] h IH]; [now destruct (existsb _ _)|]. cbn [filter fst]. unfold values at 2. cbn [filter fst].
  destruct (String.eqb_spec a k) as [->|Hn].
  - destruct (existsb (String.eqb k) written_apart) eqn:E; cbn [negb]; [exact IH|]. unfold values at 1. cbn [filter fst]. rewrite String.eqb_refl. cbn [map snd]. f_equal. exact IH.
  - destruct (existsb (String.eqb a) written_apart); cbn [negb]; [exact IH|]. unfold values at 1. cbn [filter fst]. destruct (String.eqb_spec a k); [contradiction|]. exact IH.
Qed.

Lemma values_cons : forall k a v, values k [(a, v)] = if String.eqb a k then [v] else [].
Proof. intros k a v. unfold values. cbn [filter fst]. now destruct (String.eqb a k). Qed.

Lemma lines_values : forall host x k, values k (lines host x) =
  ((if String.eqb "Host" k then [host] else []) ++ values k (user_agent_line (uq_header x)) ++ values k (length_line x) ++
   (if existsb (String.eqb k) written_apart then [] else values k (uq_header x)) ++ values k (gzip_line x))%list.
Proof. intros host x k. unfold lines. now rewrite !values_app, values_cons, values_filtered. Qed.

Lemma agent_other : forall k h, k <> "User-Agent" -> values k (user_agent_line h) = [].
Proof.
  intros k h N. assert (G : forall v, values k [("User-Agent", v)] = []) by (intros v; rewrite values_cons; destruct (String.eqb_spec "User-Agent" k); [congruence|reflexivity]).
  unfold user_agent_line. destruct (values "User-Agent" h) as [|v vs]; [apply G|]. destruct (String.eqb v ""); [reflexivity|apply G].
Qed.
Lemma length_other : forall k x, k <> "Content-Length" -> values k (length_line x) = [].
Proof.
  intros k x N. assert (G : forall v, values k [("Content-Length", v)] = []) by (intros v; rewrite values_cons; destruct (String.eqb_spec "Content-Length" k); [congruence|reflexivity]).
  unfold length_line. destruct (negb _); [apply G|]. destruct (_ || _); [apply G|reflexivity].
Qed.
Lemma gzip_other : forall k x, k <> "Accept-Encoding" -> values k (gzip_line x) = [].
Proof. intros k x N. unfold gzip_line. destruct (asks_gzip x); [|reflexivity]. rewrite values_cons. destruct (String.eqb_spec "Accept-Encoding" k); [congruence|reflexivity]. Qed.

Lemma no_value_get : forall k h, canon k = k -> (String.eqb (get k h) "" = true <-> no_value (values k h)).
Proof. intros k h Hk. unfold get. rewrite Hk. destruct (values k h) as [|v vs]; cbn [no_value]; [now split|apply String.eqb_eq]. Qed.

Lemma not_never : forall k, ~ In k never_copied -> existsb (String.eqb k) never_copied = false.
Proof. intros k N. destruct (existsb _ _) eqn:E; [|reflexivity]. apply existsb_exists in E. destruct E as (y & I & E). apply String.eqb_eq in E. subst y. contradiction. Qed.

(** Every line but three kinds *)
Lemma lines_kept : forall t x h k, gets_lines t x h -> sized (t_req t) -> canonical_keys (q_header (t_req t)) ->
  ~ In k rewritten -> k <> "User-Agent" -> k <> "Accept-Encoding" -> values k h = values k (q_header (t_req t)).
Proof.
  intros t x h k [Ha Hw] Hq Hc Hk N1 N2. unfold wire_header in Hw. destruct (parse_url (uq_uri x)) as [g|]; [|discriminate Hw]. injection Hw as <-.
  assert (N : forall a, In a rewritten -> a <> k) by (intros a I <-; contradiction).
  rewrite lines_values, (agent_other _ _ N1), (gzip_other _ _ N2), length_other by (intros ->; apply Hk; cbn; tauto).
  destruct (String.eqb_spec "Host" k) as [E|_]; [elim (N "Host"); [cbn; tauto|exact E]|].
  assert (E : existsb (String.eqb k) written_apart = false).
  { destruct (existsb (String.eqb k) written_apart) eqn:E; [|reflexivity]. exfalso. apply existsb_exists in E. destruct E as (y & I & E). apply String.eqb_eq in E. subst y.
    destruct I as [I|[I|[I|[I|[I|[]]]]]]; subst k; try congruence; apply Hk; cbn; tauto. }
  rewrite E. cbn [app]. rewrite app_nil_r. rewrite (asks_header t x _ k Ha Hq Hc (choice_id t)).
  destruct (String.eqb_spec k "X-Request-Id") as [->|_]; [elim Hk; cbn; tauto|]. rewrite not_never; [reflexivity|].
  intros I. apply Hk. unfold never_copied in I. cbn in I |- *. tauto.
Qed.

Lemma lines_agent : forall t x h, gets_lines t x h -> sized (t_req t) -> canonical_keys (q_header (t_req t)) ->
  told_agent (values "User-Agent" (q_header (t_req t))) (values "User-Agent" h).
Proof.
  intros t x h [Ha Hw] Hq Hc. unfold wire_header in Hw. destruct (parse_url (uq_uri x)) as [g|]; [|discriminate Hw]. injection Hw as <-.
  rewrite lines_values, gzip_other, length_other by discriminate. cbn [String.eqb existsb written_apart app]. 
  assert (E := asks_header t x _ "User-Agent" Ha Hq Hc (choice_id t)). change (String.eqb "User-Agent" "X-Request-Id") with false in E. cbn iota in E.
  rewrite not_never in E by (intros I; cbn in I; repeat (destruct I as [I|I]; [discriminate I|]); exact I). 
  change (if (Ascii.eqb "U" "H" && false)%bool then [g_host g] else []) with (@nil string).
  unfold user_agent_line. rewrite E. destruct (values "User-Agent" (q_header (t_req t))) as [|v vs]; [reflexivity|]. cbn [told_agent].
  destruct (String.eqb_spec v "") as [->|Hn]; cbn; split; intros; congruence.
Qed.

Lemma lines_codings : forall t x h, gets_lines t x h -> sized (t_req t) -> canonical_keys (q_header (t_req t)) ->
  (open_to_gzip t -> values "Accept-Encoding" h = (values "Accept-Encoding" (q_header (t_req t)) ++ ["gzip"])%list) /\
  (~ open_to_gzip t -> values "Accept-Encoding" h = values "Accept-Encoding" (q_header (t_req t))).
Proof.
  intros t x h [Ha Hw] Hq Hc. unfold wire_header in Hw. destruct (parse_url (uq_uri x)) as [g|]; [|discriminate Hw]. injection Hw as <-.
  rewrite lines_values, agent_other, length_other by discriminate.
  assert (G : forall k, In k ["Accept-Encoding"; "Range"] -> values k (uq_header x) = values k (q_header (t_req t))).
  { intros k Hk. rewrite (asks_header t x _ k Ha Hq Hc (choice_id t)). destruct Hk as [<-|[<-|[]]]; reflexivity. }
  assert (A : asks_gzip x = true <-> open_to_gzip t).
  { unfold asks_gzip, open_to_gzip. rewrite !andb_true_iff, (no_value_get "Accept-Encoding" (uq_header x) eq_refl), (no_value_get "Range" (uq_header x) eq_refl), !G by (cbn; tauto).
    rewrite (proj1 (asks_method t x Ha Hq)), negb_true_iff, String.eqb_neq. tauto. }
  assert (E1 : String.eqb "Host" "Accept-Encoding" = false) by reflexivity. assert (E2 : existsb (String.eqb "Accept-Encoding") written_apart = false) by reflexivity.
  rewrite E1, E2, G by (cbn; tauto). cbn [app]. unfold gzip_line. split; intros H.
  - apply A in H. rewrite H. reflexivity.
  - destruct (asks_gzip x); [elim H; now apply A|]. cbn. now rewrite app_nil_r.
Qed.

Lemma lines_own : forall so srt cfg0 t x h p query frag id, in_use so srt cfg0 (t_cfg t) -> gets_lines t x h -> sized (t_req t) -> canonical_keys (q_header (t_req t)) -> by_net_http t ->
  plain_servers cfg0 -> untransformed cfg0 (q_raw_uri (t_req t)) -> origin (q_raw_uri (t_req t)) p query frag -> id_of t id ->
  (exists hp, host_port (uq_uri x) hp /\ values "Host" h = [hp]) /\ values "X-Request-Id" h = [id] /\
  values "Date" h = [] /\ values "Server" h = [] /\ values "Trailer" h = [].
Proof.
  intros so srt cfg0 t x h p query frag id Hu [Ha Hw] Hq Hc Hn Hpl Hun Ho Hid. unfold wire_header in Hw. destruct (parse_url (uq_uri x)) as [g|] eqn:Eg; [|discriminate Hw]. injection Hw as <-.
  assert (G : forall k, In k ["X-Request-Id"; "Date"; "Server"] -> values k (lines (g_host g) x) = values k (uq_header x)).
  { intros k Hk. rewrite lines_values. destruct Hk as [<-|[<-|[<-|[]]]]; rewrite agent_other, length_other, gzip_other by discriminate; cbn [app]; now rewrite app_nil_r. }
  split; [|split; [|split; [|split]]].
  - destruct (asks_ran t x Ha Hq) as (c & s & Hr & -> & _). destruct (host_sent _ _ _ _ _ _ _ _ _ _ Hu Hr Hq Hn Hpl Hun Ho Eg) as (u & Hus & Eu & Eh).
    exists (g_host g). split.
    + rewrite Eh, Eu. destruct Hus as (Hsch & Hne & Hh). apply all_name_iff in Hh. destruct (digits_of (itoa (u_port u)) (fun c => itoa_digits (u_port u) c)) as [_ D2].
      destruct (name_without _ Hh) as (_ & A2 & A3 & A4 & A5 & _). destruct (name_without _ D2) as (_ & B2 & B3 & B4 & B5 & _).
      exists (u_scheme u), (u_host u ++ ":" ++ itoa (u_port u)), (q_uri (t_req t)). split; [unfold url_string; now rewrite !append_assoc|].
      split; [destruct Hsch as [-> | ->]; reflexivity|]. split; [|split].
      * intros d [<-|[<-|[<-|[]]]]; rewrite !has_app; [rewrite A4, B4|rewrite A2, B2|rewrite A3, B3]; reflexivity.
      * right. destruct Hn as [(g0 & G1 & G2 & _) _]. fold (t_req t) in G1, G2. destruct Ho as (Er & Hp & Hqm & Hrest).
        assert (Q1 : query_part (query ++ frag)). { destruct Hrest as [[-> ->]|(y & -> & _)]; [now left|right; now exists (y ++ frag)]. }
        destruct (read_origin _ _ _ _ _ Er Hp Hqm Q1 G1) as (path & Hd & _ & Eg0 & _). destruct (sent_facts p path Hp Hd) as (S1 & _). destruct (slash_start _ S1) as [p' Ep].
        rewrite G2, Eg0, Ep. exists "/"%char, (p' ++ query ++ frag). split; [now left|reflexivity].
      * split; [now left|]. rewrite !has_app, A5, B5. reflexivity.
    + rewrite lines_values, agent_other, length_other, gzip_other by discriminate. reflexivity.
  - rewrite G by (cbn; tauto). rewrite (asks_header t x _ _ Ha Hq Hc Hid). reflexivity.
  - rewrite G by (cbn; tauto). rewrite (asks_header t x _ _ Ha Hq Hc Hid). reflexivity.
  - rewrite G by (cbn; tauto). rewrite (asks_header t x _ _ Ha Hq Hc Hid). reflexivity.
  - rewrite lines_values, agent_other, length_other, gzip_other by discriminate. reflexivity.
Qed.

(** * Connections *)

Lemma trip_copies : forall x ys, trip x ys = true -> copies ys <= S (list_sum (map lost ys)).
Proof.
  intros x. induction ys as [|y ys IH]; intros H; [discriminate H|]. unfold copies in *. cbn [map list_sum fold_right].
  destruct ys as [|y' ys']; [cbn [map list_sum fold_right]; unfold reaches; destruct (y_fate y); lia|].
  cbn [trip] in H. apply andb_prop in H. destruct H as [Ht H]. specialize (IH H). unfold tries_again in Ht. apply andb_prop in Ht. destruct Ht as [Hr Ht].
  change (fold_right Init.Nat.add 0) with list_sum in *. unfold reaches at 1, lost at 1. rewrite Hr. destruct (y_fate y); try discriminate Ht; lia.
Qed.

Lemma trip_once : forall x ys, replayable x = false -> trip x ys = true -> copies ys <= 1.
Proof.
  intros x ys Hx. induction ys as [|y ys IH]; intros H; [discriminate H|]. unfold copies in *. cbn [map list_sum fold_right].
  destruct ys as [|y' ys']; [cbn [map fold_right]; unfold reaches; destruct (y_fate y); lia|].
  cbn [trip] in H. apply andb_prop in H. destruct H as [Ht H]. specialize (IH H). unfold tries_again in Ht. apply andb_prop in Ht. destruct Ht as [_ Ht].
  change (fold_right Init.Nat.add 0) with list_sum in *. unfold reaches at 1. destruct (y_fate y); try discriminate Ht; [exact IH|congruence|congruence].
Qed.

Lemma sum_cons : forall a l, list_sum (a :: l) = a + list_sum l.
Proof. reflexivity. Qed.

Lemma tried_lost : forall t yss xs, sends t xs -> Forall2 (fun x ys => trip x ys = true) xs yss -> all_copies yss <= List.length xs + all_lost yss.
Proof.
  intros t yss xs _ H. unfold all_copies, all_lost. induction H as [|x ys xs yss H _ IH]; [apply le_n|]. cbn [map List.length]. rewrite !sum_cons.
  assert (C := trip_copies x ys H). lia.
Qed.

Lemma tried_bound : forall so srt cfg0 t yss, in_use so srt cfg0 (t_cfg t) -> tried t yss -> sized (t_req t) ->
  (Z.of_nat (all_copies yss) <= Z.max 1 (up_max_attempts (c_up cfg0)) + Z.of_nat (all_lost yss))%Z.
Proof.
  intros so srt cfg0 t yss Hu (xs & Hs & Hf) Hq. assert (B := proj1 (asks_count _ _ _ _ _ Hu Hs Hq)). assert (L := tried_lost t yss xs Hs Hf). lia.
Qed.

Lemma not_replayable : forall t x, asks t x -> sized (t_req t) -> canonical_keys (q_header (t_req t)) -> ~ In (to_upper (q_method (t_req t))) ["GET"; "HEAD"; "OPTIONS"; "TRACE"] -> ~ keyed (q_header (t_req t)) ->
  replayable x = false.
Proof.
  intros t x Ha Hq Hc Hm Hk. unfold replayable. rewrite (proj1 (asks_method t x Ha Hq)).
  assert (E : existsb (String.eqb (to_upper (q_method (t_req t)))) ["GET"; "HEAD"; "OPTIONS"; "TRACE"] = false).
  { destruct (existsb _ _) eqn:E; [|reflexivity]. exfalso. apply existsb_exists in E. destruct E as (y & I & E). apply String.eqb_eq in E. apply Hm. now rewrite E. }
  rewrite E. cbn [orb]. rewrite !(asks_header t x _ _ Ha Hq Hc (choice_id t)).
  unfold keyed in Hk. change (String.eqb "Idempotency-Key" "X-Request-Id") with false. change (String.eqb "X-Idempotency-Key" "X-Request-Id") with false.
  change (existsb (String.eqb "Idempotency-Key") never_copied) with false. change (existsb (String.eqb "X-Idempotency-Key") never_copied) with false. cbn iota.
  destruct (values "Idempotency-Key" (q_header (t_req t))); [|elim Hk; left; discriminate]. destruct (values "X-Idempotency-Key" (q_header (t_req t))); [reflexivity|elim Hk; right; discriminate].
Qed.

Lemma tried_once : forall so srt cfg0 t yss, in_use so srt cfg0 (t_cfg t) -> tried t yss -> sized (t_req t) -> canonical_keys (q_header (t_req t)) ->
  ~ In (to_upper (q_method (t_req t))) ["GET"; "HEAD"; "OPTIONS"; "TRACE"] -> ~ keyed (q_header (t_req t)) ->
  (Z.of_nat (all_copies yss) <= Z.max 1 (up_max_attempts (c_up cfg0)))%Z /\
  (~ In (to_upper (q_method (t_req t))) ["PUT"; "DELETE"] -> all_copies yss <= 1).
Proof.
  intros so srt cfg0 t yss Hu (xs & Hs & Hf) Hq Hc Hm Hk. destruct (asks_count _ _ _ _ _ Hu Hs Hq) as [B1 B2].
  assert (L : all_copies yss <= List.length xs).
  { assert (R : Forall (fun x => replayable x = false) xs). { apply Forall_forall. intros x Hx. apply (not_replayable t x); try assumption. now exists xs. }
    clear - R Hf. unfold all_copies. induction Hf as [|x ys xs yss H _ IH]; [apply le_n|]. inversion R as [|x' l R1 R2]; subst. cbn [map List.length]. rewrite sum_cons.
    assert (C := trip_once x ys R1 H). specialize (IH R2). lia. }
  split; [lia|]. intros N. assert (P : ~ In (to_upper (q_method (t_req t))) ["GET"; "HEAD"; "OPTIONS"; "TRACE"; "PUT"; "DELETE"]) by (cbn in *; tauto). specialize (B2 P). lia.
Qed.

(** * Answers *)

Lemma open_iff : forall t x, asks t x -> sized (t_req t) -> canonical_keys (q_header (t_req t)) -> (asks_gzip x = true <-> open_to_gzip t).
Proof.
  intros t x Ha Hq Hc.
  assert (G : forall k, In k ["Accept-Encoding"; "Range"] -> values k (uq_header x) = values k (q_header (t_req t))).
  { intros k Hk. rewrite (asks_header t x _ k Ha Hq Hc (choice_id t)). destruct Hk as [<-|[<-|[]]]; reflexivity. }
  unfold asks_gzip, open_to_gzip. rewrite !andb_true_iff, (no_value_get "Accept-Encoding" (uq_header x) eq_refl), (no_value_get "Range" (uq_header x) eq_refl), !G by (cbn; tauto).
  rewrite (proj1 (asks_method t x Ha Hq)), negb_true_iff, String.eqb_neq. tauto.
Qed.

Lemma taken_headers : forall k h, k <> "Content-Encoding" -> k <> "Content-Length" ->
  values k (filter (fun p => negb (existsb (String.eqb (fst p)) [content_encoding_key; content_length_key])) h) = values k h.
Proof.
  intros k h N1 N2. unfold values. induction h as [|[a v] h IH]; [reflexivity|]. cbn [filter fst]. destruct (existsb (String.eqb a) _) eqn:E; cbn [negb filter fst].
  - destruct (String.eqb_spec a k) as [->|_]; [|exact IH]. exfalso. cbn [existsb] in E. rewrite orb_false_r in E. apply orb_prop in E. destruct E as [E|E]; apply String.eqb_eq in E; [exact (N1 E)|exact (N2 E)].
  - destruct (String.eqb a k); cbn [map]; [now rewrite IH|exact IH].
Qed.

Lemma taken_without : forall h, values "Content-Encoding" (filter (fun p => negb (existsb (String.eqb (fst p)) [content_encoding_key; content_length_key])) h) = [].
Proof.
  induction h as [|[a v] h IH]; [reflexivity|]. cbn [filter fst]. destruct (existsb (String.eqb a) _) eqn:E; cbn [negb]; [exact IH|]. unfold values. cbn [filter fst].
  destruct (String.eqb_spec a "Content-Encoding") as [->|_]; [discriminate E|exact IH].
Qed.

Lemma delivered_content : forall dec t r rs body x, delivered dec t r rs body -> sized (t_req t) -> canonical_keys (q_header (t_req t)) -> timely_run t ->
  codec (t_env t) dec -> canonical_keys (ur_header rs) -> ~ (400 <= ur_status rs < 500)%Z ->
  let ce := values "Content-Encoding" (ur_header rs) in content_of dec ce body = Some x ->
  (((ce = [] \/ ce = ["identity"]) /\ ~ gzip_start body) \/ (ce = ["gzip"] /\ open_to_gzip t /\ ~ gzip_start x) \/
   (ce = ["gzip"] /\ ~ open_to_gzip t /\ x <> "") \/ (no_gzip_client (t_req t) /\ ~ gzip_start body)) ->
  content_of dec (values "Content-Encoding" (rp_header r)) (rp_body r) = Some x.
Proof.
  intros dec t r rs body x (y & rs' & body' & Ha & Ht & Hr) Hq Hc Htime Hcd Hcan H4 ce Hx Hcase.
  assert (O := open_iff t y Ha Hq Hc). unfold taken in Ht.
  assert (Gz : dec "gzip" body <> None -> gzip_start body) by (intros N; destruct (dec "gzip" body) as [s|] eqn:E; [exact (proj2 (proj2 Hcd) body s E)|contradiction]).
  destruct (asks_gzip y && _ && negb (String.eqb body "")) eqn:B.
  - apply andb_prop in B. destruct B as [B Bb]. apply andb_prop in B. destruct B as [Bo Bg]. destruct (dec "gzip" body) as [s|] eqn:Ed; [|discriminate Ht]. injection Ht as <- <-.
    assert (Hg : gzip_start body) by (apply Gz; discriminate).
    unfold get in Bg. change (canon content_encoding_key) with "Content-Encoding" in Bg. change (values "Content-Encoding" (ur_header rs)) with ce in Bg.
    destruct Hcase as [[[E|E] N]|[(E & _ & N)|[(E & N & _)|[_ N]]]]; try contradiction; [|elim N; now apply O].
    rewrite E in Hx. cbn [content_of] in Hx. change (String.eqb "gzip" "identity") with false in Hx. cbn iota in Hx. rewrite Ed in Hx. injection Hx as ->.
    apply (relayed_content t dec r _ x x Hr Hq Htime Hcd); cbn [ur_header ur_status].
    + intros k v Hin. apply filter_In in Hin. exact (Hcan k v (proj1 Hin)).
    + exact H4.
    + now rewrite taken_without.
    + left. split; [left; apply taken_without|exact N].
  - injection Ht as <- <-. apply (relayed_content t dec r rs body x Hr Hq Htime Hcd Hcan H4 Hx). fold ce.
    destruct Hcase as [C|[(E & Op & N)|[(E & _ & N)|C]]]; [left; exact C| |right; left; now split|right; right; exact C].
    exfalso. apply O in Op. unfold get in B. change (canon content_encoding_key) with "Content-Encoding" in B. fold ce in B. rewrite E, Op in B. change (equal_fold "gzip" "gzip") with true in B. cbn [andb] in B.
    apply negb_false_iff, String.eqb_eq in B. rewrite E in Hx. cbn [content_of] in Hx. change (String.eqb "gzip" "identity") with false in Hx. cbn iota in Hx.
    destruct Gz as [t' G]; [rewrite Hx; discriminate|]. rewrite B in G. discriminate G.
Qed.
