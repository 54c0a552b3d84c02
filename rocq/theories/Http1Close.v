(** When HTTP/1 connections are closed, and what is told about it; dates and types. *)
From Coq Require Import String Ascii List Bool ZArith NArith Lia.
From Verif Require Import GoStr NumberSpec NumberProofs HeadProofs Header HeaderSpec HeaderProofs Config Exchange ExchangeSpec ExchangeProofs Machine MachineSpec Handler HandlerSpec
  SystemSpec SystemProofs ConformSpec ConformProofs Http2 Http2Spec Http2Proofs Http1 Http1Spec Http1Proofs.
Import ListNotations.
Local Open Scope string_scope.

Lemma connection_get : forall (h : header), String.eqb (get "Connection" h) "close" = true <-> exists vs, values "Connection" h = "close" :: vs.
Proof.
  intros h. rewrite get_values by reflexivity. destruct (values "Connection" h) as [|v l].
  - split; [discriminate|]. intros [vs H]. discriminate H.
  - rewrite String.eqb_eq. split; [intros ->; now exists l|]. intros [vs H]. now injection H as -> _.
Qed.

(** The length announced is the one written, or nothing is made of it. *)
Lemma no_mismatch : forall c r, bodiless (hc_head c) (rp_status r) \/ (honest_length r /\ (Z.of_nat (String.length (rp_body r)) <= 9223372036854775807)%Z) ->
  negb (hc_head c) && body_allowed (rp_status r) &&
  match match atoi (get "Content-Length" (rp_header r)) with Some z => if Z.leb 0 z then Some z else None | None => None end with
  | Some z => negb (Z.eqb z (if body_allowed (rp_status r) then zlen (rp_body r) else 0%Z)) | None => false end = false.
Proof.
  intros c r [B|[[CL|CL] Big]].
  - destruct (hc_head c) eqn:Hd; [reflexivity|]. destruct (body_allowed (rp_status r)) eqn:A; [|reflexivity]. now apply allowed_iff in A.
  - rewrite get_values, CL by reflexivity. now rewrite andb_false_r.
  - rewrite get_values, CL, (itoa_Z_atoi _ Big) by reflexivity. assert (L : Z.leb 0 (Z.of_nat (String.length (rp_body r))) = true) by (apply Z.leb_le; lia). rewrite L.
    destruct (body_allowed (rp_status r)); [|now rewrite andb_false_r]. unfold zlen. rewrite Z.eqb_refl. now rewrite andb_false_r.
Qed.

Lemma closes_iff : forall sniff now c r, hc_11 c = true -> values "Transfer-Encoding" (rp_header r) = [] ->
  bodiless (hc_head c) (rp_status r) \/ (honest_length r /\ (Z.of_nat (String.length (rp_body r)) <= 9223372036854775807)%Z) ->
  (h1_close (h1_write sniff now c r) = true <-> hc_close c = true \/ hc_unread c = true \/ exists vs, values "Connection" (rp_header r) = "close" :: vs).
Proof.
  intros sniff now c r V TE HL. unfold h1_write. cbn [h1_close]. rewrite (no_mismatch c r HL), (te_none r TE), V. cbn [String.eqb negb andb orb]. rewrite ?andb_true_r, ?andb_false_r, ?orb_false_r.
  assert (N : forall b, b && negb b = false) by (intros []; reflexivity). rewrite N, orb_false_r. cbn [andb]. rewrite !orb_true_iff, connection_get. tauto.
Qed.

(** A client of HTTP/1.0 has to ask for a connection to be kept. *)
Lemma keeps_asked : forall sniff now c r, hc_11 c = false -> h1_close (h1_write sniff now c r) = false -> hc_keep c = true.
Proof.
  intros sniff now c r V. unfold h1_write. cbn [h1_close]. rewrite V. cbn [negb orb andb]. rewrite !orb_false_iff. intros ((((K & _) & _) & _) & _).
  destruct (hc_keep c); [reflexivity|discriminate K].
Qed.

Lemma boundary_separates : forall c, token_boundary c = true <-> separates c.
Proof. intros c. unfold token_boundary, separates. rewrite !orb_true_iff, !Ascii.eqb_eq. tauto. Qed.

Lemma to_upper_length : forall s, String.length (to_upper s) = String.length s.
Proof. induction s as [|c s IH]; [reflexivity|]. cbn. now rewrite IH. Qed.

Lemma substring_whole : forall s, substring 0 (String.length s) s = s.
Proof. induction s as [|c s IH]; [reflexivity|]. cbn [String.length substring]. now rewrite IH. Qed.

Lemma split_at : forall n s, s = substring 0 n s ++ substring n (String.length s - n) s.
Proof.
  induction n as [|n IH]; intros s.
  - rewrite Nat.sub_0_r, substring_whole. destruct s; reflexivity.
  - destruct s as [|c s]; [reflexivity|]. cbn [substring append String.length Nat.sub]. f_equal. apply IH.
Qed.

Lemma get_substring : forall n s c b, substring n (String.length s - n) s = String c b -> String.get n s = Some c.
Proof.
  induction n as [|n IH]; intros s c b H.
  - destruct s as [|d s]; [discriminate H|]. cbn [substring String.length Nat.sub] in H. injection H as -> _. reflexivity.
  - destruct s as [|d s]; [discriminate H|]. cbn [substring String.length Nat.sub String.get] in *. exact (IH s c b H).
Qed.

Lemma token_lists : forall v start, close_token start v = true ->
  exists a w b, v = a ++ w ++ b /\ to_upper w = "CLOSE" /\ ((a = "" /\ start = true) \/ exists a' c, a = a' ++ String c "" /\ separates c) /\ (b = "" \/ exists c b', b = String c b' /\ separates c).
Proof.
  induction v as [|c v IH]; intros start H; [discriminate H|]. cbn [close_token] in H. apply orb_true_iff in H. destruct H as [H|H].
  - apply andb_true_iff in H. destruct H as [H G]. apply andb_true_iff in H. destruct H as [St E]. apply String.eqb_eq in E.
    exists "", (substring 0 5 (String c v)), (substring 5 (String.length (String c v) - 5) (String c v)). split; [exact (split_at 5 (String c v))|].
    split; [exact E|]. split; [left; now split|]. destruct (substring 5 _ (String c v)) as [|d b] eqn:B; [now left|]. right. exists d, b. split; [reflexivity|].
    apply get_substring in B. rewrite B in G. now apply boundary_separates.
  - destruct (IH _ H) as (a & w & b & -> & W & P & Q). exists (String c a), w, b. split; [reflexivity|]. split; [exact W|]. split; [right|exact Q].
    destruct P as [[-> P]|(a' & d & -> & D)]; [exists "", c; split; [reflexivity|now apply boundary_separates]|]. exists (String c a'), d. now split.
Qed.

Lemma token_close : forall v, close_token true v = true -> lists_close v.
Proof.
  intros v H. destruct (token_lists v true H) as (a & w & b & E & W & P & Q). exists a, w, b. split; [exact E|]. split; [exact W|]. split; [|exact Q].
  destruct P as [[-> _]|P]; [now left|now right].
Qed.

(** Clients of HTTP/1.1 are told when their connection is closed. *)
Lemma told_closed : forall sniff now c r, hc_11 c = true ->
  bodiless (hc_head c) (rp_status r) \/ (honest_length r /\ (Z.of_nat (String.length (rp_body r)) <= 9223372036854775807)%Z) ->
  h1_close (h1_write sniff now c r) = true -> exists v, In v (values "Connection" (h1_lines (h1_write sniff now c r))) /\ lists_close v.
Proof.
  intros sniff now c r V HL. unfold h1_write. cbn [h1_close h1_lines]. rewrite (no_mismatch c r HL), orb_false_r. intros K. rewrite K, V. cbn [andb].
  destruct (close_token true (get "Connection" (rp_header r))) eqn:T; cbn [negb].
  - exists (get "Connection" (rp_header r)). split; [|now apply token_close]. rewrite values_app. apply in_app_iff. left. rewrite dropped_values, !existsb_app.
    assert (D : forall b1 b2 b3 b4 : bool, existsb (String.eqb "Connection") (if b1 then [] else if b2 then ["Content-Type"; "Content-Length"; "Transfer-Encoding"] else ["Content-Length"; "Transfer-Encoding"])
       || (existsb (String.eqb "Connection") (if b3 then ["Content-Length"] else []) || (existsb (String.eqb "Connection") (if b4 then ["Transfer-Encoding"] else []) || existsb (String.eqb "Connection") [])) = false)
      by (intros [] [] [] []; reflexivity).
    rewrite D. rewrite get_values in T |- * by reflexivity. destruct (values "Connection" (rp_header r)) as [|v l]; [discriminate T|now left].
  - exists "close". split; [|exists "", "close", ""; split; [reflexivity|]; split; [reflexivity|]; split; now left].
    rewrite !values_app, !in_app_iff. right. right. right. right. left. now left.
Qed.

(** * Dates and types *)

Lemma replied_date : forall t r, replies t r -> sized (t_req t) -> timely_run t -> canonical_answers (t_run t) -> values "Date" (rp_header r) = [].
Proof.
  intros t r H Hq Ht Hc. destruct (replies_kind t r H Hq Ht) as [A|[(dice & st & m & _ & ->)|(dice & rs & body & R & _ & _)]].
  - destruct (about_of t r A) as (dice & ->). apply about_header; cbn; intuition discriminate.
  - apply status_header. cbn. intuition discriminate.
  - assert (C : canonical_keys (ur_header rs)) by (destruct R as (c & s & _ & _ & _ & A & _); exact (Hc _ _ A)).
    exact (proj1 (proj2 (proj1 (relayed_headers t r rs body "" R Hq Ht C)))).
Qed.

Lemma date_now : forall sniff now c t r, replies t r -> sized (t_req t) -> timely_run t -> canonical_answers (t_run t) -> now <> "" ->
  values "Date" (h1_lines (h1_write sniff now c r)) = [now].
Proof.
  intros sniff now c t r H Hq Ht Hc N. pose proof (replied_date t r H Hq Ht Hc) as D. unfold h1_write. cbn [h1_lines].
  rewrite !values_app, dropped_values, !optional_values, D, if_nil. cbn [app]. apply String.eqb_neq in N. rewrite N.
  change (String.eqb "Date" "Date") with true. change (String.eqb "Content-Length" "Date") with false. change (String.eqb "Content-Type" "Date") with false.
  change (String.eqb "Connection" "Date") with false. change (String.eqb "Transfer-Encoding" "Date") with false. cbv iota. rewrite !if_nil. reflexivity.
Qed.

(** The encoding written with a body *)
Lemma encoding_written : forall E w rs body, values "Content-Encoding" (ur_header rs) <> [""] ->
  let r := assemble E w (Draft rs (ur_status rs) (is_gzip body) rs (is_gzip body) rs) body in rp_body r = "" \/ get "Content-Encoding" (rp_header r) <> "".
Proof.
  intros E w rs body H. cbv zeta. unfold assemble. cbn [df_headers df_status df_gz_body df_length df_gz_header df_encoding rp_body rp_header].
  destruct (encode_body E w (is_gzip body) body) as [|ch s] eqn:B; [now left|right].
  assert (P : Z.gtb (zlen (String ch s)) 0 = true) by (unfold zlen; rewrite Z.gtb_ltb; apply Z.ltb_lt; cbn [String.length]; lia). rewrite P.
  rewrite get_values by reflexivity. rewrite values_set. change (canon content_encoding_key) with "Content-Encoding". change (String.eqb "Content-Encoding" "Content-Encoding") with true. cbv iota.
  unfold content_encoding. destruct (w_send_gzip w); [discriminate|]. destruct (negb (negb false && is_gzip body)); [|discriminate].
  change content_encoding_key with "Content-Encoding". destruct (values "Content-Encoding" (ur_header rs)) as [|v [|v' l]]; [discriminate| |].
  - cbn [join]. intros ->. now elim H.
  - change (join " " (v :: v' :: l)) with (v ++ " " ++ join " " (v' :: l)). destruct v; discriminate.
Qed.

Lemma type_relayed : forall sniff now c t r rs body, relayed t r rs body -> sized (t_req t) -> timely_run t -> canonical_keys (ur_header rs) ->
  ~ (400 <= ur_status rs < 500)%Z -> ur_status rs <> 304%Z -> values "Content-Encoding" (ur_header rs) <> [""] ->
  values "Content-Type" (h1_lines (h1_write sniff now c r)) = values "Content-Type" (ur_header rs).
Proof.
  intros sniff now c t r rs body R Hq Ht Hc Hs H304 He.
  assert (CT : values "Content-Type" (rp_header r) = values "Content-Type" (ur_header rs)).
  { apply (proj2 (relayed_headers t r rs body "Content-Type" R Hq Ht Hc)); [exact Hs| |]; cbn; intuition discriminate. }
  destruct (relayed_proxied t r rs body R Hq Ht) as (dice & Er & _). unfold proxied in Er.
  assert (CE : client_error (ur_status rs) = false).
  { unfold client_error. rewrite Z.gtb_ltb. destruct (Z.ltb_spec 399 (ur_status rs)) as [L|L]; [|reflexivity]. apply Z.ltb_ge. lia. }
  rewrite CE in Er. assert (St : rp_status r = ur_status rs) by (rewrite Er; reflexivity).
  pose proof (encoding_written (t_env t) (parsed t) rs body He) as W. cbv zeta in W. rewrite <- Er in W.
  unfold h1_write. cbn [h1_lines]. rewrite !values_app, dropped_values, !optional_values, !existsb_app.
  change (String.eqb "Date" "Content-Type") with false. change (String.eqb "Content-Length" "Content-Type") with false. change (String.eqb "Content-Type" "Content-Type") with true.
  change (String.eqb "Connection" "Content-Type") with false. change (String.eqb "Transfer-Encoding" "Content-Type") with false. cbv iota. rewrite !if_nil.
  assert (D : forall b1 b3 b4 b5 : bool, existsb (String.eqb "Content-Type") (if b1 then [] else if Z.eqb (rp_status r) 304 then ["Content-Type"; "Content-Length"; "Transfer-Encoding"] else ["Content-Length"; "Transfer-Encoding"])
     || (existsb (String.eqb "Content-Type") (if b3 then ["Content-Length"] else []) || (existsb (String.eqb "Content-Type") (if b4 then ["Transfer-Encoding"] else []) || existsb (String.eqb "Content-Type") (if b5 then ["Connection"] else []))) = false).
  { rewrite St. apply Z.eqb_neq in H304. rewrite H304. intros [] [] [] []; reflexivity. }
  rewrite D, CT. cbn [app]. rewrite ?app_nil_r. destruct (values "Content-Type" (ur_header rs)) as [|v l]; [|rewrite ?andb_false_r; cbn [andb String.eqb app]; now rewrite ?app_nil_r].
  cbn [app]. destruct W as [W|W].
  - rewrite W. match goal with |- context [if ?b then "" else ""] => replace (if b then "" else "") with "" by (destruct b; reflexivity) end. cbn [String.eqb negb]. rewrite andb_false_r. reflexivity.
  - apply String.eqb_neq in W. rewrite W. rewrite andb_false_r. reflexivity.
Qed.
