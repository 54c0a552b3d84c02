(** Cases and counterexamples for Thm_Conform: one attempt, answered at once. *)
From Coq Require Import String Ascii List Bool ZArith NArith Lia.
From Verif Require Import GoStr TextSpec TextProofs Header HeaderSpec Config Exchange ExchangeSpec ExchangeProofs Machine MachineSpec MachineRaces
  Handler HandlerSpec HandlerCases SystemSpec SystemCases ConformSpec ConformProofs.
Import ListNotations.
Local Open Scope string_scope.

Definition at_once (rs : up_response) (body : string) (n : nat) : list label :=
  ([LMain 0; LDo 0 (Some rs); LSetResp 0; LCloseHdr 0; LSel CComplete; LMain 0; LMain 0; LStatus 0; LRead 0 body true; LGz 0; LCloseBody 0; LSel CComplete]
   ++ repeat (LMain 0) n)%list.

Definition fetch (h : header) (rs : up_response) (body : string) (n : nat) : setting :=
  Setting toy lib always live chance0 (ask "GET" "/mse6/x" "/mse6/x" h) (at_once rs body n).

Lemma fetch_conf : forall t c, t_serve t = Upstream c -> c = conf_of t.
Proof. intros t c H. unfold conf_of. rewrite H. reflexivity. Qed.

(** The number of requests sent and the statuses of the responses, if the request is proxied *)
Definition summary (t : setting) : option (nat * list Z) :=
  match t_serve t with
  | Upstream c => option_map (fun s => (length (s_sent s), map rp_status (s_out s))) (exec c init (t_run t))
  | _ => None
  end.

Lemma once_relayed : forall t rs body st, summary t = Some (1, [st]) -> In (LDo 0 (Some rs)) (t_run t) -> In (LRead 0 body true) (t_run t) ->
  ~ In st [502; 504]%Z -> exists r, relayed t r rs body /\ replies t r /\ rp_status r = st.
Proof.
  intros t rs body st V D R N. unfold summary in V. destruct (t_serve t) as [| | |c|] eqn:H; try discriminate V.
  destruct (exec c init (t_run t)) as [s|] eqn:E; [|discriminate V]. cbn [option_map] in V. injection V as L O.
  destruct (s_out s) as [|r [|r' l]] eqn:Eo; try discriminate O. injection O as O. exists r. split; [|split; [|exact O]].
  - exists c, s. split; [split; assumption|]. split; [exact Eo|]. split; [rewrite O; exact N|]. rewrite L. split; assumption.
  - right. right. exists c, s. split; [split; assumption|]. rewrite Eo. now left.
Qed.

Ltac timely_now := let c := fresh in let s := fresh in let H := fresh in intros c s [H _]; rewrite (fetch_conf _ c H); clear; vm_compute; tauto.
Ltac relayed_now := apply once_relayed; [vm_compute; reflexivity|right; left; reflexivity|do 8 right; left; reflexivity|
  let H := fresh in intro H; repeat (destruct H as [H|H]; [discriminate H|]); destruct H].

Lemma fetch_sized : forall h rs body n, sized (t_req (fetch h rs body n)).
Proof. intros. unfold sized. cbn. lia. Qed.

Definition zip : header := [("Accept-Encoding", "gzip")].

Lemma zip_client : forall rs body n, gzip_client (t_req (fetch zip rs body n)).
Proof. intros. exists "gzip", []. split; [reflexivity|]. now exists "", "". Qed.

Lemma plain_client : forall rs body n, ~ gzip_client (t_req (fetch [] rs body n)).
Proof. intros rs body n (v & vs & H & _). discriminate H. Qed.

(** A text that must not be transformed, with a strong tag; a part of a file *)
Definition text_answer : up_response := UpResp 200 [("Cache-Control", "max-age=60, No-Transform"); ("Etag", """v1""")].
Definition part_answer : up_response := UpResp 206 [("Content-Range", "bytes 0-3/10")].
Definition varied_answer : up_response := UpResp 200 [("Vary", "Accept-Language, Accept-Encoding")].
Definition challenge : up_response := UpResp 401 [("Www-Authenticate", "Basic realm=""x""")].

Lemma text_zip : exists r, relayed (fetch zip text_answer "abcd" 12) r text_answer "abcd" /\ replies (fetch zip text_answer "abcd" 12) r /\ rp_status r = 200%Z.
Proof. relayed_now. Qed.
Lemma text_plain : exists r, relayed (fetch [] text_answer "abcd" 14) r text_answer "abcd" /\ replies (fetch [] text_answer "abcd" 14) r /\ rp_status r = 200%Z.
Proof. relayed_now. Qed.
Lemma part_zip : exists r, relayed (fetch zip part_answer "abcd" 12) r part_answer "abcd" /\ replies (fetch zip part_answer "abcd" 12) r /\ rp_status r = 206%Z.
Proof. relayed_now. Qed.
Lemma part_plain : exists r, relayed (fetch [] part_answer "abcd" 14) r part_answer "abcd" /\ replies (fetch [] part_answer "abcd" 14) r /\ rp_status r = 206%Z.
Proof. relayed_now. Qed.
Lemma varied_zip : exists r, relayed (fetch zip varied_answer "abcd" 12) r varied_answer "abcd" /\ replies (fetch zip varied_answer "abcd" 12) r /\ rp_status r = 200%Z.
Proof. relayed_now. Qed.
Lemma challenged : exists r, relayed (fetch [] challenge "who?" 8) r challenge "who?" /\ replies (fetch [] challenge "who?" 8) r /\ rp_status r = 401%Z.
Proof. relayed_now. Qed.

Lemma text_zip_timely : timely_run (fetch zip text_answer "abcd" 12). Proof. timely_now. Qed.
Lemma text_plain_timely : timely_run (fetch [] text_answer "abcd" 14). Proof. timely_now. Qed.
Lemma part_zip_timely : timely_run (fetch zip part_answer "abcd" 12). Proof. timely_now. Qed.
Lemma part_plain_timely : timely_run (fetch [] part_answer "abcd" 14). Proof. timely_now. Qed.
Lemma varied_zip_timely : timely_run (fetch zip varied_answer "abcd" 12). Proof. timely_now. Qed.
Lemma challenged_timely : timely_run (fetch [] challenge "who?" 8). Proof. timely_now. Qed.

Lemma not_gzip : ~ gzip_start "abcd".
Proof. intros [z H]. discriminate H. Qed.

Lemma in_range : forall z, z = 200%Z \/ z = 206%Z -> ~ (400 <= z < 500)%Z.
Proof. intros z H. lia. Qed.

Lemma canonical_text : canonical_keys (ur_header text_answer).
Proof. intros k v [H|[H|[]]]; injection H as <- <-; reflexivity. Qed.
Lemma canonical_part : canonical_keys (ur_header part_answer).
Proof. intros k v [H|[]]; injection H as <- <-; reflexivity. Qed.
Lemma canonical_varied : canonical_keys (ur_header varied_answer).
Proof. intros k v [H|[]]; injection H as <- <-; reflexivity. Qed.

Lemma canonical_run : canonical_answers (t_run (fetch zip varied_answer "abcd" 12)).
Proof. intros i rs H. repeat (destruct H as [H|H]; [try discriminate H; injection H as _ <-; exact canonical_varied|]). destruct H. Qed.

Lemma varied_says : says_varies (ur_header varied_answer).
Proof.
  left. exists "Accept-Language, Accept-Encoding", ["Accept-Language"; " Accept-Encoding"], " ", "Accept-Encoding", "".
  split; [now left|]. split; [apply (joined_more "," "Accept-Language" " Accept-Encoding" [] " Accept-Encoding"); apply joined_one|].
  split; [right; now left|]. split; [intros c (i & H); destruct i as [|[|i]]; cbn in H; [injection H as <-; now left|discriminate H|discriminate H]|].
  split; [intros c (i & H); destruct i; discriminate H|].
  apply equal_fold_iff. reflexivity.
Qed.

Lemma text_no_transform : no_transform (ur_header text_answer).
Proof.
  exists "max-age=60, No-Transform", ["max-age=60"; " No-Transform"], " ", "No-Transform", "".
  split; [now left|]. split; [apply (joined_more "," "max-age=60" " No-Transform" [] " No-Transform"); apply joined_one|].
  split; [right; now left|]. split; [intros c (i & H); destruct i as [|[|i]]; cbn in H; [injection H as <-; now left|discriminate H|discriminate H]|].
  split; [intros c (i & H); destruct i; discriminate H|].
  apply equal_fold_iff. reflexivity.
Qed.

Lemma text_tag : strong_tag (ur_header text_answer) """v1""".
Proof. split; [reflexivity|]. now exists "v1". Qed.

Lemma part_whole : part_of (ur_header part_answer) 4.
Proof. exists 0%Z, 3%Z, "10". split; [reflexivity|]. cbn. lia. Qed.

Lemma fetch_alike : forall h rs1 b1 n1 rs2 b2 n2, (forall k v, In (k, v) h -> k = "Accept-Encoding") ->
  same_but_encoding (fetch h rs1 b1 n1) (fetch [] rs2 b2 n2).
Proof.
  intros h rs1 b1 n1 rs2 b2 n2 H. repeat (split; [reflexivity|]). intros k Hk. cbn [fetch t_req t_in ask i_req q_header].
  unfold values at 2. cbn [filter map]. unfold values. induction h as [|[k' v] h IH]; [reflexivity|]. cbn [filter fst].
  destruct (String.eqb_spec k' k) as [->|_]; [elim Hk; apply (H k v); now left|]. apply IH. intros k0 v0 I. apply (H k0 v0). now right.
Qed.

Lemma zip_alike : forall rs1 b1 n1 rs2 b2 n2, same_but_encoding (fetch zip rs1 b1 n1) (fetch [] rs2 b2 n2).
Proof. intros. apply fetch_alike. intros k v [H|[]]. now injection H as <- <-. Qed.

Lemma text_silent : ~ says_varies (ur_header text_answer).
Proof. intros [H|H]; destruct (lists_in _ _ H) as [v []]. Qed.

(** * C116 *)

Lemma vary_refuted : exists t1 t2 r1 r2 rs body, same_but_encoding t1 t2 /\ (sized (t_req t1) /\ timely_run t1 /\ relayed t1 r1 rs body) /\
  (sized (t_req t2) /\ timely_run t2 /\ relayed t2 r2 rs body) /\ rp_body r1 <> rp_body r2 /\ ~ says_varies (rp_header r1) /\ ~ says_varies (rp_header r2).
Proof.
  destruct text_zip as (r1 & R1 & _). destruct text_plain as (r2 & R2 & _).
  exists (fetch zip text_answer "abcd" 12), (fetch [] text_answer "abcd" 14), r1, r2, text_answer, "abcd".
  split; [apply zip_alike|]. split; [split; [apply fetch_sized|split; [exact text_zip_timely|exact R1]]|].
  split; [split; [apply fetch_sized|split; [exact text_plain_timely|exact R2]]|].
  destruct (depends (fetch zip text_answer "abcd" 12) (fetch [] text_answer "abcd" 14) r1 r2 text_answer "abcd" eq_refl R1 (fetch_sized _ _ _ _) text_zip_timely R2 (fetch_sized _ _ _ _) text_plain_timely canonical_text) as (A & B & C).
  - apply in_range. now left.
  - apply zip_client.
  - apply plain_client.
  - discriminate.
  - intro H. elim (not_gzip H).
  - intros _. vm_compute. discriminate.
  - split; [exact A|]. rewrite B, C. split; exact text_silent.
Qed.

(** * C117 *)

Lemma transformed : exists r, relayed (fetch zip text_answer "abcd" 12) r text_answer "abcd" /\ rp_body r <> "abcd".
Proof.
  destruct text_zip as (r1 & R1 & _). exists r1. split; [exact R1|].
  rewrite (body_gzip _ r1 text_answer "abcd" R1 (fetch_sized _ _ _ _) text_zip_timely); [vm_compute; discriminate| | |discriminate|exact not_gzip].
  - apply in_range. now left.
  - apply zip_client.
Qed.

Lemma transform_refuted : exists t r rs body, relayed t r rs body /\ sized (t_req t) /\ timely_run t /\ ~ (400 <= ur_status rs < 500)%Z /\
  no_transform (ur_header rs) /\ rp_body r <> body.
Proof.
  destruct transformed as (r & R & N). exists (fetch zip text_answer "abcd" 12), r, text_answer, "abcd". split; [exact R|].
  split; [apply fetch_sized|]. split; [exact text_zip_timely|]. split; [apply in_range; now left|]. split; [exact text_no_transform|exact N].
Qed.

(** * C118 *)

Lemma tag_refuted : exists t1 t2 r1 r2 rs body tag, same_but_encoding t1 t2 /\ (sized (t_req t1) /\ timely_run t1 /\ relayed t1 r1 rs body) /\
  (sized (t_req t2) /\ timely_run t2 /\ relayed t2 r2 rs body) /\ strong_tag (rp_header r1) tag /\ strong_tag (rp_header r2) tag /\ rp_body r1 <> rp_body r2.
Proof.
  destruct text_zip as (r1 & R1 & _). destruct text_plain as (r2 & R2 & _).
  exists (fetch zip text_answer "abcd" 12), (fetch [] text_answer "abcd" 14), r1, r2, text_answer, "abcd", """v1""".
  split; [apply zip_alike|]. split; [split; [apply fetch_sized|split; [exact text_zip_timely|exact R1]]|].
  split; [split; [apply fetch_sized|split; [exact text_plain_timely|exact R2]]|].
  assert (S : ~ (400 <= ur_status text_answer < 500)%Z) by (apply in_range; now left).
  split; [|split].
  - apply (tag_kept _ _ _ _ _ R1 (fetch_sized _ _ _ _) text_zip_timely canonical_text S). exact text_tag.
  - apply (tag_kept _ _ _ _ _ R2 (fetch_sized _ _ _ _) text_plain_timely canonical_text S). exact text_tag.
  - refine (proj1 (depends (fetch zip text_answer "abcd" 12) (fetch [] text_answer "abcd" 14) r1 r2 text_answer "abcd" eq_refl R1 (fetch_sized _ _ _ _) text_zip_timely R2 (fetch_sized _ _ _ _) text_plain_timely canonical_text S _ _ _ _ _)).
    + apply zip_client.
    + apply plain_client.
    + discriminate.
    + intro H. elim (not_gzip H).
    + intros _. vm_compute. discriminate.
Qed.

Lemma part_refuted : exists t r rs body, relayed t r rs body /\ sized (t_req t) /\ timely_run t /\ ur_status rs = 206%Z /\
  part_of (ur_header rs) (String.length body) /\
  rp_status r = 206%Z /\ values "Content-Range" (rp_header r) = ["bytes 0-3/10"] /\ String.length (rp_body r) = 6.
Proof.
  destruct part_zip as (r & R & _ & T). exists (fetch zip part_answer "abcd" 12), r, part_answer, "abcd". split; [exact R|].
  split; [apply fetch_sized|]. split; [exact part_zip_timely|]. split; [reflexivity|]. split; [exact part_whole|]. split; [exact T|].
  assert (S : ~ (400 <= ur_status part_answer < 500)%Z) by (apply in_range; now right). split.
  - rewrite (header_kept _ r part_answer "abcd" "Content-Range" R (fetch_sized _ _ _ _) part_zip_timely canonical_part S); [reflexivity| |];
      intro H; cbn in H; repeat (destruct H as [H|H]; [discriminate H|]); destruct H.
  - rewrite (body_gzip _ r part_answer "abcd" R (fetch_sized _ _ _ _) part_zip_timely S (zip_client _ _ _)); [reflexivity|discriminate|exact not_gzip].
Qed.

(** * C119 *)

Lemma challenge_refuted : (exists t r rs body, relayed t r rs body /\ replies t r /\ sized (t_req t) /\ timely_run t /\ rp_status r = 401%Z /\
    values "Www-Authenticate" (ur_header rs) <> [] /\ values "Www-Authenticate" (rp_header r) = []) /\
  exists t r, t_serve t = Answered r /\ rp_status r = 401%Z /\ values "Www-Authenticate" (rp_header r) = [].
Proof.
  split.
  - destruct challenged as (r & R & P & T). exists (fetch [] challenge "who?" 8), r, challenge, "who?".
    split; [exact R|]. split; [exact P|]. split; [apply fetch_sized|]. split; [exact challenged_timely|]. split; [exact T|]. split; [discriminate|].
    apply (errors_bare _ r _ P (fetch_sized _ _ _ _) challenged_timely); [rewrite T; lia|].
    intro H. cbn in H. repeat (destruct H as [H|H]; [discriminate H|]). destruct H.
  - exists (Setting toy lib always live chance0 (ask "GET" "/admin/x" "/admin/x" []) []). eexists. vm_compute. split; [reflexivity|]. split; reflexivity.
Qed.

(** * C120 *)

Definition traced (h : header) : setting :=
  Setting toy lib always live chance0 (ask "TRACE" "/mse6/x" "/mse6/x" h) [LMain 0; LDo 0 (Some text_answer)].

Lemma sent_once : forall t, t_serve t = Upstream (conf_of t) -> option_map (fun s => length (s_sent s)) (exec (conf_of t) init (t_run t)) = Some 1 -> exists x, asks t x.
Proof.
  intros t H V. destruct (exec (conf_of t) init (t_run t)) as [s|] eqn:E; [|discriminate V]. cbn [option_map] in V. injection V as L.
  destruct (s_sent s) as [|x l] eqn:Es; [discriminate L|]. exists x. exists (x :: l)%list. split; [|now left]. exists (conf_of t), s. split; [split; assumption|exact Es].
Qed.

Definition last_hop : header := [("Max-Forwards", "0"); ("X-Forwarded-For", "10.0.0.1")].

Lemma traced_asks : exists x, asks (traced last_hop) x.
Proof. apply sent_once; vm_compute; reflexivity. Qed.

Lemma traced_canonical : canonical_keys (q_header (t_req (traced last_hop))).
Proof. intros k v [H|[H|[]]]; injection H as <- <-; reflexivity. Qed.

Lemma traced_sized : sized (t_req (traced last_hop)).
Proof. unfold sized. cbn. lia. Qed.

Lemma hops_refuted : exists t x, asks t x /\ sized (t_req t) /\ canonical_keys (q_header (t_req t)) /\
  In (to_upper (q_method (t_req t))) ["TRACE"; "OPTIONS"] /\ values "Max-Forwards" (q_header (t_req t)) = ["0"] /\ values "Max-Forwards" (uq_header x) = ["0"].
Proof.
  destruct traced_asks as (x & A). exists (traced last_hop), x. split; [exact A|]. split; [exact traced_sized|]. split; [exact traced_canonical|].
  split; [now left|]. split; [reflexivity|]. rewrite (request_kept _ x "Max-Forwards" A traced_sized traced_canonical); [reflexivity|now left].
Qed.

Lemma via_refuted : exists t x, asks t x /\ sized (t_req t) /\ canonical_keys (q_header (t_req t)) /\ values "Via" (uq_header x) = [].
Proof.
  destruct traced_asks as (x & A). exists (traced last_hop), x. split; [exact A|]. split; [exact traced_sized|]. split; [exact traced_canonical|].
  rewrite (request_kept _ x "Via" A traced_sized traced_canonical); [reflexivity|cbn; tauto].
Qed.
