(** Proofs for Thm_Http1Client. *)
From Coq Require Import String Ascii List Bool ZArith NArith Lia.
From Verif Require Import GoStr NumberSpec Header HeaderSpec HeaderProofs Exchange ExchangeSpec ExchangeProofs Machine MachineSpec JwtSpec JwtProofs Handler HandlerSpec HandlerProofs SystemSpec SystemProofs
  HeadProofs ConformSpec ConformProofs Http2 Http2Spec Http2Proofs Http1 Http1Spec Http1Proofs Http1Close Http1Here HandlerCases ConformCases Http2Cases Http1Cases Http1Client Http1ClientSpec.
Import ListNotations.
Local Open Scope string_scope.

(** * Elements *)

Lemma ows_iff : forall c, ows c = true <-> c = " "%char \/ c = "009"%char.
Proof. intros c. unfold ows. rewrite orb_true_iff, !Ascii.eqb_eq. tauto. Qed.

Lemma trimmed_left : forall v, exists l, gap l /\ v = l ++ trim_left v.
Proof.
  induction v as [|c v (l & G & E)]; [exists ""; split; [constructor|reflexivity]|]. cbn [trim_left]. destruct (ows c) eqn:O; [|exists ""; split; [constructor|reflexivity]].
  exists (String c l). split; [constructor; [now apply ows_iff|exact G]|]. cbn [append]. now rewrite <- E.
Qed.

Lemma trimmed_right : forall v, exists r, gap r /\ v = trim_right v ++ r.
Proof.
  induction v as [|c v (r & G & E)]; [exists ""; split; [constructor|reflexivity]|]. cbn [trim_right]. cbv zeta. destruct (ows c) eqn:O; cbn [andb].
  - destruct (String.eqb_spec (trim_right v) "") as [Z|Z].
    + exists (String c v). split; [constructor; [now apply ows_iff|]|reflexivity]. rewrite E, Z. exact G.
    + exists r. split; [exact G|]. cbn [append]. now rewrite <- E.
  - exists r. split; [exact G|]. cbn [append]. now rewrite <- E.
Qed.

Fixpoint solid (s : string) : bool := match s with "" => true | String c s' => negb (ows c) && solid s' end.

Lemma upper_ows : forall c, ows (upper c) = ows c.
Proof. intros c. bytewise c; reflexivity. Qed.

Lemma upper_solid : forall s, solid (to_upper s) = solid s.
Proof. induction s as [|c s IH]; [reflexivity|]. cbn [to_upper solid]. now rewrite upper_ows, IH. Qed.

Lemma gap_trims : forall r, gap r -> trim_right r = "".
Proof. intros r G. induction G as [|c s O G IH]; [reflexivity|]. cbn [trim_right]. cbv zeta. rewrite IH. apply ows_iff in O. now rewrite O. Qed.

Lemma solid_right : forall w r, solid w = true -> gap r -> trim_right (w ++ r) = w.
Proof.
  induction w as [|c w IH]; intros r S G; [exact (gap_trims r G)|]. cbn [solid] in S. apply andb_true_iff in S. destruct S as [S1 S2]. apply negb_true_iff in S1.
  cbn [append trim_right]. cbv zeta. now rewrite S1, (IH r S2 G).
Qed.

Lemma solid_left : forall l w, gap l -> w <> "" -> solid w = true -> forall r, trim_left (l ++ w ++ r) = w ++ r.
Proof.
  intros l w G N S r. induction G as [|c s O G IH].
  - destruct w as [|c w]; [congruence|]. cbn [solid] in S. apply andb_true_iff in S. destruct S as [S1 _]. apply negb_true_iff in S1. cbn [append trim_left]. now rewrite S1.
  - cbn [append trim_left]. apply ows_iff in O. now rewrite O.
Qed.

Lemma without_iff : forall c x, without c x <-> forall a b, x <> a ++ String c b.
Proof.
  intros c. induction x as [|d x IH]; cbn [without].
  - split; [intros _ [|? ?] b; discriminate|trivial].
  - split.
    + intros [D W] a b E. destruct a as [|e a]; cbn [append] in E; injection E as E1 E2; [congruence|]. exact (proj1 IH W a b E2).
    + intros H. split; [intros ->; now apply (H "" x)|]. apply IH. intros a b ->. now apply (H (String d a) b).
Qed.

Lemma contains_iff : forall tok v, tok <> "" -> solid tok = true -> (contains_token tok v = true <-> among tok v).
Proof.
  intros tok v N S. unfold contains_token. rewrite existsb_exists. split.
  - intros (e & I & E). apply String.eqb_eq in E. destruct (trimmed_left e) as (l & G1 & E1). destruct (trimmed_right (trim_left e)) as (r & G2 & E2).
    exists (split "," v), l, (trim_right (trim_left e)), r. split; [symmetry; exact (join_split "," v)|]. split; [intros x X; apply without_iff; exact (split_without "," v x X)|].
    split; [now rewrite <- E2, <- E1|]. now split.
  - intros (es & l & w & r & -> & W & I & G1 & G2 & U). exists (l ++ w ++ r). split.
    + rewrite (split_join ","); [exact I|intros ->; destruct I|]. intros x X. apply without_iff. exact (W x X).
    + assert (Sw : solid w = true) by (rewrite <- upper_solid, U; exact S). assert (Nw : w <> "") by (intros ->; now apply N).
      rewrite (solid_left l w G1 Nw Sw), (solid_right w r Sw G2), U. apply String.eqb_refl.
Qed.

(** * Tokens *)

Lemma substring_app : forall a b, substring 0 (String.length a) (a ++ b) = a.
Proof. induction a as [|c a IH]; intros b; [destruct b; reflexivity|]. cbn [String.length append substring]. now rewrite IH. Qed.

Lemma get_app : forall a b, String.get (String.length a) (a ++ b) = String.get 0 b.
Proof. induction a as [|c a IH]; intros b; [reflexivity|]. cbn [String.length append String.get]. apply IH. Qed.

Lemma lists_token : forall a w b start, to_upper w = "CLOSE" -> (a = "" /\ start = true) \/ (exists a' c, a = a' ++ String c "" /\ separates c) ->
  b = "" \/ (exists c b', b = String c b' /\ separates c) -> close_token start (a ++ w ++ b) = true.
Proof.
  induction a as [|x a IH]; intros w b start U P Q.
  - destruct P as [[_ ->]|(a' & c & E & _)]; [|destruct a'; discriminate E].
    assert (L : String.length w = 5) by (rewrite <- to_upper_length, U; reflexivity).
    pose proof (substring_app w b) as S1. pose proof (get_app w b) as S2. rewrite L in S1, S2. cbn [append].
    destruct (w ++ b) as [|y v] eqn:E; [destruct w; [discriminate U|discriminate E]|]. cbn [close_token]. rewrite S1, S2, U. cbn [String.eqb andb].
    change (String.eqb "CLOSE" "CLOSE") with true. cbn [andb]. destruct Q as [->|(c & b' & -> & Sc)]; [reflexivity|]. cbn [String.get]. apply boundary_separates in Sc. now rewrite Sc.
  - cbn [append close_token]. apply orb_true_iff. right. apply IH; [exact U| |exact Q].
    destruct P as [[P _]|(a' & c & E & Sc)]; [discriminate P|]. destruct a' as [|y a']; cbn [append] in E; injection E as -> E.
    + left. split; [exact E|now apply boundary_separates].
    + right. exists a', c. now split.
Qed.

Lemma close_token_iff : forall v, close_token true v = true <-> lists_close v.
Proof.
  intros v. split; [apply token_close|]. intros (a & w & b & -> & U & P & Q). apply lists_token; [exact U| |exact Q]. destruct P as [->|P]; [left; now split|now right].
Qed.

Lemma asks_iff : forall u q, hc_close (client_of true u q) = true <-> asks_close q.
Proof.
  intros u q. unfold client_of. cbn [hc_close negb andb]. rewrite orb_false_r, orb_true_iff, existsb_exists. unfold asks_close.
  assert (A : (exists x, In x (values "Connection" (q_header q)) /\ contains_token "CLOSE" x = true) <-> (exists v, In v (values "Connection" (q_header q)) /\ among "CLOSE" v)).
  { split; intros (x & I & H); exists x; (split; [exact I|]); apply (contains_iff "CLOSE" x); (discriminate || reflexivity || exact H). }
  rewrite A. rewrite get_values by reflexivity. destruct (values "Connection" (q_header q)) as [|v vs].
  - split; [intros [H|H]; [now left|discriminate H]|]. intros [H|(v & vs & E & _)]; [now left|discriminate E].
  - rewrite close_token_iff. split; (intros [H|H]; [now left|right]); [now exists v, vs|]. destruct H as (v' & vs' & E & H). injection E as -> _. exact H.
Qed.

(** * Replies to the request *)

Lemma method_head : forall v u q, framed_method (q_method q) -> hc_head (client_of v u q) = true \/ (to_upper (q_method q) <> "HEAD" /\ to_upper (q_method q) <> "CONNECT").
Proof. intros v u q [H|H]; [left|now right]. unfold client_of. cbn [hc_head]. now apply String.eqb_eq. Qed.

Section Replies.
Variables (sniff : string -> string) (now : string) (u : bool) (t : setting) (r : response).
Hypotheses (H : replies t r) (Hq : sized (t_req t)) (Ht : timely_run t) (Hc : canonical_answers (t_run t)) (Hs : (200 <= rp_status r <= 999)%Z)
  (Big : (Z.of_nat (String.length (rp_body r)) <= 9223372036854775807)%Z).

Lemma framed_client : framed_method (q_method (t_req t)) -> forall v11 hd, (hd = true <-> q_method (t_req t) = "HEAD") ->
  (bodiless hd (rp_status r) -> carries hd (h1_write sniff now (client_of v11 u (t_req t)) r) "") /\
  (~ bodiless hd (rp_status r) -> carries hd (h1_write sniff now (client_of v11 u (t_req t)) r) (rp_body r)).
Proof.
  intros M v11 hd E. assert (X : hd = hc_head (client_of v11 u (t_req t))).
  { unfold client_of. cbn [hc_head]. destruct (String.eqb_spec (q_method (t_req t)) "HEAD") as [Y|Y]; [now apply E|]. destruct hd; [elim Y; now apply E|reflexivity]. }
  rewrite X. apply (framed_here sniff now (client_of v11 u (t_req t)) t r H Hq Ht Hc Hs Big). exact (method_head v11 u (t_req t) M).
Qed.

Lemma closes_client : framed_method (q_method (t_req t)) ->
  (h1_close (h1_write sniff now (client_of true u (t_req t)) r) = true <-> asks_close (t_req t) \/ u = true \/ exists vs, values "Connection" (rp_header r) = "close" :: vs).
Proof.
  intros M. rewrite (closes_here sniff now (client_of true u (t_req t)) t r H Hq Ht Hc Hs Big (method_head true u (t_req t) M) eq_refl), asks_iff. reflexivity.
Qed.
End Replies.

Lemma keep_lists : forall v start, keep_token start v = true ->
  exists a w b, v = a ++ w ++ b /\ to_upper w = "KEEP-ALIVE" /\ ((a = "" /\ start = true) \/ exists a' c, a = a' ++ String c "" /\ separates c) /\ (b = "" \/ exists c b', b = String c b' /\ separates c).
Proof.
  induction v as [|c v IH]; intros start H; [discriminate H|]. cbn [keep_token] in H. apply orb_true_iff in H. destruct H as [H|H].
  - apply andb_true_iff in H. destruct H as [H G]. apply andb_true_iff in H. destruct H as [St E]. apply String.eqb_eq in E.
    exists "", (substring 0 10 (String c v)), (substring 10 (String.length (String c v) - 10) (String c v)). split; [exact (split_at 10 (String c v))|].
    split; [exact E|]. split; [left; now split|]. destruct (substring 10 _ (String c v)) as [|d b] eqn:B; [now left|]. right. exists d, b. split; [reflexivity|].
    apply get_substring in B. rewrite B in G. now apply boundary_separates.
  - destruct (IH _ H) as (a & w & b & -> & W & P & Q). exists (String c a), w, b. split; [reflexivity|]. split; [exact W|]. split; [right|exact Q].
    destruct P as [[-> P]|(a' & d & -> & D)]; [exists "", c; split; [reflexivity|now apply boundary_separates]|]. exists (String c a'), d. now split.
Qed.

(** A client of HTTP/1.0 whose connection is kept listed keep-alive first. *)
Lemma keeps_client : forall sniff now u q r, h1_close (h1_write sniff now (client_of false u q) r) = false ->
  exists v vs, values "Connection" (q_header q) = v :: vs /\ lists_keep v.
Proof.
  intros sniff now u q r K. assert (T : hc_keep (client_of false u q) = true) by (eapply keeps_asked; [reflexivity|exact K]).
  unfold client_of in T. cbn [hc_keep negb andb] in T. rewrite get_values in T by reflexivity. destruct (values "Connection" (q_header q)) as [|v vs]; [discriminate T|].
  exists v, vs. split; [reflexivity|]. destruct (keep_lists v true T) as (a & w & b & E & W & P & Q). exists a, w, b. split; [exact E|]. split; [exact W|]. split; [|exact Q].
  destruct P as [[-> _]|P]; [now left|now right].
Qed.

(** A page for a client that asks for its connection to be closed, among others in a list, and for one that does not *)
Definition closing_by (h : header) : request := Req "GET" "/mse6/x" "/mse6/x" h 0 "" true.

Lemma closing_case : asks_close (closing_by [("Connection", "TE, Close")]) /\ ~ asks_close (closing_by [("Connection", "TE, closed")]).
Proof.
  split.
  - apply (proj1 (asks_iff false _)). vm_compute. reflexivity.
  - intros A. apply (proj2 (asks_iff false _)) in A. vm_compute in A. discriminate A.
Qed.

Lemma page_client : exists r, replies (fetch_by "GET" page_answer "abcd" 14) r /\
  carries false (h1_write sniff0 now0 (client_of true false (t_req (fetch_by "GET" page_answer "abcd" 14))) r) "abcd" /\
  h1_close (h1_write sniff0 now0 (client_of true false (t_req (fetch_by "GET" page_answer "abcd" 14))) r) = false.
Proof.
  destruct page_now as (r & R & H & St). exists r. split; [exact H|].
  assert (Bd : rp_body r = "abcd") by (destruct (relayed_proxied _ r _ _ R (by_sized _ _ _ _) page_timely) as (dice & -> & _); vm_compute; reflexivity).
  assert (NB : ~ bodiless false (rp_status r)) by (rewrite St; intros [X|[X|[X|X]]]; (discriminate X || lia)).
  assert (M : framed_method (q_method (t_req (fetch_by "GET" page_answer "abcd" 14)))) by (right; apply method_plain).
  split.
  - rewrite <- Bd. apply (framed_client sniff0 now0 false _ r H (by_sized _ _ _ _) page_timely page_answers); [rewrite St; lia|rewrite Bd; cbn; lia|exact M| |exact NB].
    split; intros X; vm_compute in X; discriminate X.
  - exact (proj2 (page_lines sniff0 now0 web r R (or_introl eq_refl) eq_refl)).
Qed.
