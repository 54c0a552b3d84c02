(** Proofs for Thm_Http1Connect: responses whose Content-Length is not the one of their body. *)
From Coq Require Import String Ascii List Bool ZArith NArith Lia.
From Verif Require Import GoStr NumberSpec NumberProofs Header HeaderSpec Exchange ExchangeSpec ExchangeProofs Machine MachineSpec Handler HandlerSpec SystemSpec SystemProofs
  HeadProofs ConformSpec ConformProofs Http2 Http2Spec Http2Proofs Http1 Http1Spec Http1Proofs Http1Close Http1Here.
Import ListNotations.
Local Open Scope string_scope.

Section Declared.
Variables (sniff : string -> string) (now : string) (c : h1_client) (r : response) (v : string) (n : Z).
Hypotheses (Hd : hc_head c = false) (A : body_allowed (rp_status r) = true) (TE : values "Transfer-Encoding" (rp_header r) = [])
  (CL : values "Content-Length" (rp_header r) = [v]) (At : atoi v = Some n) (N0 : (0 <= n)%Z).
Let m := h1_write sniff now c r.

Lemma declared_shape : values "Transfer-Encoding" (h1_lines m) = [] /\ values "Content-Length" (h1_lines m) = [v] /\
  h1_bytes m = (if Z.ltb n (zlen (rp_body r)) then "" else rp_body r) /\ (n <> zlen (rp_body r) -> h1_close m = true).
Proof.
  assert (D : get "Content-Length" (rp_header r) = v) by (rewrite get_values by reflexivity; now rewrite CL).
  assert (N : String.eqb v "" = false) by (destruct v; [discriminate At|reflexivity]).
  unfold m, h1_write. cbn [h1_lines h1_bytes h1_close]. rewrite D, At. cbv beta iota. apply Z.leb_le in N0. rewrite N0. cbv beta iota. rewrite A, (te_none r TE), Hd, N. cbn [negb andb orb String.eqb].
  rewrite ?andb_true_r, ?andb_false_r, ?orb_false_r. cbn [negb andb orb]. split; [|split; [|split]].
  - rewrite !values_app, dropped_values, !optional_values. change (String.eqb "Date" "Transfer-Encoding") with false. change (String.eqb "Content-Length" "Transfer-Encoding") with false.
    change (String.eqb "Content-Type" "Transfer-Encoding") with false. change (String.eqb "Connection" "Transfer-Encoding") with false. cbv iota. rewrite TE, !if_nil. reflexivity.
  - rewrite !values_app, dropped_values, !optional_values. change (String.eqb "Date" "Content-Length") with false. change (String.eqb "Transfer-Encoding" "Content-Length") with false.
    change (String.eqb "Content-Type" "Content-Length") with false. change (String.eqb "Connection" "Content-Length") with false. cbv iota. rewrite !if_nil, CL. cbn [app].
    match goal with |- context [existsb ?f ?l] => assert (X : existsb f l = false) by (cbn [existsb app]; repeat match goal with |- context [if ?b then _ else _] => destruct b end; reflexivity); rewrite X end. reflexivity.
  - destruct (Z.ltb n (zlen (rp_body r))); reflexivity.
  - intros X. apply Z.eqb_neq in X. rewrite X. apply orb_true_r.
Qed.
End Declared.

Lemma numeral_atoi : forall v n, numeral v n -> (n <= 9223372036854775807)%Z -> atoi v = Some n /\ (0 <= n)%Z.
Proof.
  intros v n H L. assert (P : (0 <= n)%Z). { clear L. induction H; lia. } split; [|exact P]. apply atoi_iff. split; [exists v, n; split; [exact H|left; split; reflexivity]|]. lia.
Qed.

Lemma zero_carried : forall sniff now c r, ~ bodiless (hc_head c) (rp_status r) -> values "Transfer-Encoding" (rp_header r) = [] -> values "Content-Length" (rp_header r) = ["0"] ->
  carries (hc_head c) (h1_write sniff now c r) "" /\ (rp_body r <> "" -> h1_close (h1_write sniff now c r) = true).
Proof.
  intros sniff now c r B TE CL. assert (Hd : hc_head c = false) by (destruct (hc_head c); [elim B; now left|reflexivity]). rewrite Hd in *.
  assert (A : body_allowed (rp_status r) = true) by now apply allowed_iff.
  destruct (declared_shape sniff now c r "0" 0 Hd A TE CL eq_refl (Z.le_refl 0)) as (T & L & E & K).
  assert (E' : h1_bytes (h1_write sniff now c r) = "").
  { rewrite E. destruct (rp_body r) as [|x b]; [reflexivity|]. unfold zlen. destruct (Z.ltb_spec 0 (Z.of_nat (String.length (String x b)))) as [|X]; [reflexivity|cbn [String.length] in X; lia]. }
  split.
  - unfold carries. rewrite E'. split; intros _; [|intros next]; (eapply cr_sized; [exact B|exact T|exact L|exact (itoa_Z_numeral 0)|reflexivity]).
  - intros NE. apply K. unfold zlen. destruct (rp_body r); [congruence|]. cbn [String.length]. lia.
Qed.

Lemma broken_length : forall sniff now c r v n, ~ bodiless (hc_head c) (rp_status r) -> values "Transfer-Encoding" (rp_header r) = [] -> values "Content-Length" (rp_header r) = [v] ->
  numeral v n -> (0 < n <= 9223372036854775807)%Z -> n <> Z.of_nat (String.length (rp_body r)) -> forall b, ~ carries (hc_head c) (h1_write sniff now c r) b.
Proof.
  intros sniff now c r v n B TE CL Nu [Pn Mn] Ne b [C _]. assert (Hd : hc_head c = false) by (destruct (hc_head c); [elim B; now left|reflexivity]). rewrite Hd in *.
  assert (A : body_allowed (rp_status r) = true) by now apply allowed_iff. destruct (numeral_atoi v n Nu Mn) as [At N0].
  destruct (declared_shape sniff now c r v n Hd A TE CL At N0) as (T & L & E & K). specialize (C (K Ne)).
  inversion C as [X|body rest NB TE'|w body rest NB TE' CL' NU EQ|NB TE' CL']; subst.
  - contradiction.
  - rewrite T in TE'. discriminate TE'.
  - rewrite L in CL'. injection CL' as <-. pose proof (numeral_one v _ _ Nu NU) as U. assert (Q : h1_bytes (h1_write sniff now c r) = b) by (rewrite EQ; apply append_nil_r).
    rewrite <- Q, E in U. destruct (Z.ltb_spec n (zlen (rp_body r))) as [X|X]; [cbn in U; lia|congruence].
  - rewrite L in CL'. discriminate CL'.
Qed.

Lemma assembled : forall t r rs body, relayed t r rs body -> sized (t_req t) -> timely_run t -> ~ (400 <= ur_status rs < 500)%Z ->
  r = assemble (t_env t) (parsed t) (Draft rs (ur_status rs) (is_gzip body) rs (is_gzip body) rs) body.
Proof.
  intros t r rs body R Hq Ht Hs. destruct (relayed_proxied t r rs body R Hq Ht) as (dice & -> & _). unfold proxied.
  destruct (client_error (ur_status rs)) eqn:C; [elim Hs; now apply client_error_range|reflexivity].
Qed.

Lemma connect_carried : forall sniff now c t r rs body, relayed t r rs body -> replies t r -> sized (t_req t) -> timely_run t -> canonical_answers (t_run t) ->
  ~ (400 <= ur_status rs < 500)%Z -> to_upper (q_method (t_req t)) = "CONNECT" -> ~ bodiless (hc_head c) (rp_status r) ->
  carries (hc_head c) (h1_write sniff now c r) "" /\ (rp_body r <> "" -> h1_close (h1_write sniff now c r) = true).
Proof.
  intros sniff now c t r rs body R H Hq Ht Hc Hs Hm B. apply zero_carried; [exact B|exact (no_transfer t r H Hq Ht Hc)|].
  rewrite (assembled t r rs body R Hq Ht Hs), length_header. unfold content_length. assert (M : w_method (parsed t) = "CONNECT") by exact Hm. rewrite M. rewrite String.eqb_refl, orb_true_r. reflexivity.
Qed.

Lemma head_uncarried : forall sniff now c t r rs body v vs n, relayed t r rs body -> replies t r -> sized (t_req t) -> timely_run t -> canonical_answers (t_run t) ->
  ~ (400 <= ur_status rs < 500)%Z -> to_upper (q_method (t_req t)) = "HEAD" -> ~ bodiless (hc_head c) (rp_status r) ->
  values "Content-Length" (ur_header rs) = v :: vs -> numeral v n -> (0 < n <= 9223372036854775807)%Z -> n <> Z.of_nat (String.length (rp_body r)) ->
  forall b, ~ carries (hc_head c) (h1_write sniff now c r) b.
Proof.
  intros sniff now c t r rs body v vs n R H Hq Ht Hc Hs Hm B Hv Nu Ln Ne. apply (broken_length sniff now c r v n B (no_transfer t r H Hq Ht Hc)); [|exact Nu|exact Ln|exact Ne].
  assert (S2 : rp_status r = ur_status rs) by (rewrite (assembled t r rs body R Hq Ht Hs); reflexivity).
  rewrite (assembled t r rs body R Hq Ht Hs). unfold parsed. rewrite length_head.
  - cbn [df_length]. rewrite Hv. now rewrite (proj1 (numeral_atoi v n Nu (proj2 Ln))).
  - cbn [df_headers]. destruct R as (? & ? & _ & _ & _ & A & _). exact (Hc _ _ A).
  - exact Hm.
  - cbn [df_status]. rewrite <- S2. intros X. apply B. right. right. now left.
  - cbn [df_status]. rewrite <- S2. intros X. apply B. right. now left.
Qed.
