(** Proofs about HEAD requests (C96) and the text of Content-Length (C30). *)
From Coq Require Import String Ascii List Bool ZArith NArith Lia Decimal DecimalString DecimalN.
From Verif Require Import GoStr NumberSpec NumberProofs JsonProofs Header HeaderSpec Exchange ExchangeSpec ExchangeProofs Machine MachineSpec MachineRaces Jwt Handler HandlerSpec HandlerCases SystemSpec SystemProofs SystemCases GzipCases HeadSpec.
Import ListNotations.
Local Open Scope string_scope.

(** * Decimal numbers *)

Lemma digits_val_uint : forall d acc, digits_val acc (NilEmpty.string_of_uint d) = Some (uval acc d).
Proof.
  induction d as [|d IH|d IH|d IH|d IH|d IH|d IH|d IH|d IH|d IH|d IH]; intros acc; cbn [NilEmpty.string_of_uint uval];
    [reflexivity|..]; rewrite <- IH; cbn [digits_val];
    match goal with |- match digit_val ?c with _ => _ end = _ => let v := eval vm_compute in (digit_val c) in change (digit_val c) with v end; cbv iota beta; f_equal; lia.
Qed.

Lemma itoa_numeral : forall n, numeral (itoa n) (Z.of_N n).
Proof.
  intro n. apply (digits_numeral (String.length (itoa n))); [lia|destruct (itoa_starts n "") as (c & t & H & _); rewrite append_nil_r in H; rewrite H; discriminate|].
  unfold itoa. rewrite <- (DecimalN.Unsigned.of_to n) at 2. destruct (N.to_uint n) eqn:U; [reflexivity|..];
    cbn [NilZero.string_of_uint]; rewrite digits_val_uint; now rewrite uval_N.
Qed.

Lemma itoa_Z_numeral : forall n, numeral (itoa_Z (Z.of_nat n)) (Z.of_nat n).
Proof. intro n. destruct n as [|n]; [apply (itoa_numeral 0)|]. cbn [Z.of_nat itoa_Z]. apply (itoa_numeral (N.pos (Pos.of_succ_nat n))). Qed.

Lemma numeral_int64 : forall v n, numeral v (Z.of_nat n) -> (Z.of_nat n < 2 ^ 63)%Z -> int64_text v (Z.of_nat n).
Proof.
  intros v n H B. split; [exists v, (Z.of_nat n); split; [exact H|now left]|]. split; [|exact B].
  assert (G : (0 <= 2 ^ 63)%Z) by (now apply Z.pow_nonneg). generalize dependent (2 ^ 63)%Z. intros. lia.
Qed.

Lemma numeral_one : forall v n n', numeral v n -> numeral v n' -> n = n'.
Proof. intros v n n' H H'. apply numeral_digits in H, H'. destruct H as [_ H], H' as [_ H']. congruence. Qed.

Lemma declares_one : forall h n n', declares h n -> declares h n' -> n = n'.
Proof.
  intros h n n' (v & H1 & H2) (v' & H1' & H2'). rewrite H1 in H1'. injection H1' as <-. apply Nat2Z.inj. exact (numeral_one _ _ _ H2 H2').
Qed.

(** * Content-Length *)

Lemma get_declares : forall t t' r rs body, get_and_head t t' -> relayed t r rs body -> sized (t_req t) -> timely_run t ->
  canonical_keys (ur_header rs) -> ~ (400 <= ur_status rs < 500)%Z -> ur_status rs <> 204%Z -> ~ (100 <= ur_status rs < 200)%Z ->
  declares (rp_header r) (String.length (rp_body r)).
Proof.
  intros t t' r rs body (Hg & _) R Hq Ht Hc H4 H2 H1.
  exists (itoa_Z (Z.of_nat (String.length (rp_body r)))). split; [|apply itoa_Z_numeral].
  apply (relayed_length t r rs body); try assumption; rewrite Hg; discriminate.
Qed.

Lemma head_values : forall t t' r rs body, get_and_head t t' -> relayed t' r rs body -> sized (t_req t') -> timely_run t' ->
  canonical_keys (ur_header rs) -> ~ (400 <= ur_status rs < 500)%Z -> ur_status rs <> 204%Z -> ~ (100 <= ur_status rs < 200)%Z ->
  (forall v vs n, values "Content-Length" (ur_header rs) = v :: vs -> int64_text v n -> values "Content-Length" (rp_header r) = [v]) /\
  ((forall v vs n, values "Content-Length" (ur_header rs) = v :: vs -> ~ int64_text v n) -> values "Content-Length" (rp_header r) = ["0"]).
Proof.
  intros t t' r rs body (_ & _ & Hh) R Hq Ht Hc H4 H2 H1. destruct (relayed_proxied _ _ _ _ R Hq Ht) as (dice & -> & _). unfold parsed.
  apply length_proxied_head; try assumption. rewrite Hh. reflexivity.
Qed.

(** C96, when the upstream declares the length it has *)
Lemma head_declared : forall t t' r r' rs body body', get_and_head t t' -> relayed t r rs body -> relayed t' r' rs body' ->
  sized (t_req t) -> timely_run t -> timely_run t' -> canonical_keys (ur_header rs) ->
  ~ (400 <= ur_status rs < 500)%Z -> ur_status rs <> 204%Z -> ~ (100 <= ur_status rs < 200)%Z ->
  declares (ur_header rs) (String.length body) -> (Z.of_nat (String.length body) < 2 ^ 63)%Z ->
  declares (rp_header r') (String.length body) /\
  ((exists n, declares (rp_header r) n /\ declares (rp_header r') n) <-> String.length (rp_body r) = String.length body).
Proof.
  intros t t' r r' rs body body' Hgh R R' Hq Ht Ht' Hc H4 H2 H1 (v & D1 & D2) B.
  assert (Hq' : sized (t_req t')) by (destruct Hgh as (_ & _ & ->); exact Hq).
  assert (G := get_declares t t' r rs body Hgh R Hq Ht Hc H4 H2 H1).
  assert (D : declares (rp_header r') (String.length body)).
  { exists v. split; [|exact D2]. exact (proj1 (head_values t t' r' rs body' Hgh R' Hq' Ht' Hc H4 H2 H1) v [] _ D1 (numeral_int64 _ _ D2 B)). }
  split; [exact D|]. split.
  - intros (n & N1 & N2). rewrite (declares_one _ _ _ G N1), (declares_one _ _ _ D N2). reflexivity.
  - intro E. exists (String.length body). split; [rewrite <- E; exact G|exact D].
Qed.

Lemma head_undeclared : forall t t' r r' rs body body', get_and_head t t' -> relayed t r rs body -> relayed t' r' rs body' ->
  sized (t_req t) -> timely_run t -> timely_run t' -> canonical_keys (ur_header rs) ->
  ~ (400 <= ur_status rs < 500)%Z -> ur_status rs <> 204%Z -> ~ (100 <= ur_status rs < 200)%Z ->
  values "Content-Length" (ur_header rs) = [] ->
  declares (rp_header r') 0 /\ ((exists n, declares (rp_header r) n /\ declares (rp_header r') n) <-> rp_body r = "").
Proof.
  intros t t' r r' rs body body' Hgh R R' Hq Ht Ht' Hc H4 H2 H1 D.
  assert (Hq' : sized (t_req t')) by (destruct Hgh as (_ & _ & ->); exact Hq).
  assert (G := get_declares t t' r rs body Hgh R Hq Ht Hc H4 H2 H1).
  assert (Z : declares (rp_header r') 0).
  { exists "0". split; [|apply (itoa_numeral 0)]. apply (proj2 (head_values t t' r' rs body' Hgh R' Hq' Ht' Hc H4 H2 H1)). intros v vs n E. rewrite D in E. discriminate E. }
  split; [exact Z|]. split.
  - intros (n & N1 & N2). assert (E := declares_one _ _ _ Z N2). subst n. assert (E := declares_one _ _ _ G N1). now destruct (rp_body r).
  - intro E. exists 0. split; [|exact Z]. rewrite E in G. exact G.
Qed.

(** Bodies that are not recoded *)
Lemma not_recoded : forall t r rs body, relayed t r rs body -> sized (t_req t) -> timely_run t -> ~ (400 <= ur_status rs < 500)%Z ->
  (no_gzip_client (t_req t) /\ ~ gzip_start body) \/ (gzip_client (t_req t) /\ gzip_start body) \/ body = "" -> rp_body r = body.
Proof.
  intros t r rs body R Hq Ht H4 H. destruct (relayed_proxied _ _ _ _ R Hq Ht) as (dice & -> & _). unfold parsed, proxied.
  rewrite not_client_error by exact H4. cbn [assemble rp_body df_gz_body]. unfold encode_body.
  destruct H as [[H1 H2]|[[(v & vs & H1 & H2) H3]| ->]]; [| |reflexivity].
  - rewrite (no_gzip_flag _ _ _ H1). apply is_gzip_not in H2. rewrite H2. cbn [andb negb]. destruct (String.eqb_spec body ""); [now subst|reflexivity].
  - assert (W : w_send_gzip (parse_incoming (t_env t) (ch_fresh (t_chance t)) (t_req t)) = true).
    { cbn [parse_incoming w_send_gzip]. unfold get. change (canon "Accept-Encoding") with "Accept-Encoding". now rewrite H1. }
    rewrite W. apply is_gzip_iff in H3. rewrite H3. cbn [andb negb]. destruct (String.eqb_spec body ""); [now subst|reflexivity].
Qed.

Lemma head_kept : forall t t' r r' rs body body', get_and_head t t' -> relayed t r rs body -> relayed t' r' rs body' ->
  sized (t_req t) -> timely_run t -> timely_run t' -> canonical_keys (ur_header rs) ->
  ~ (400 <= ur_status rs < 500)%Z -> ur_status rs <> 204%Z -> ~ (100 <= ur_status rs < 200)%Z ->
  declares (ur_header rs) (String.length body) -> (Z.of_nat (String.length body) < 2 ^ 63)%Z ->
  (no_gzip_client (t_req t) /\ ~ gzip_start body) \/ (gzip_client (t_req t) /\ gzip_start body) \/ body = "" ->
  exists n, declares (rp_header r) n /\ declares (rp_header r') n.
Proof.
  intros t t' r r' rs body body' Hgh R R' Hq Ht Ht' Hc H4 H2 H1 D B H.
  apply (proj2 (head_declared t t' r r' rs body body' Hgh R R' Hq Ht Ht' Hc H4 H2 H1 D B)).
  now rewrite (not_recoded t r rs body R Hq Ht H4 H).
Qed.

(** * Cases *)

Definition sized_five : up_response := UpResp 200 [("Content-Length", "5")].

Definition asking (method : string) (h : header) (rs : up_response) (body : string) (n : nat) : setting :=
  Setting half lib always live chance0 (ask method "/mse6/x" "/mse6/x" h) (MachineRaces.answer rs body ++ repeat (LMain 0) n)%list.

Lemma asked : forall method h rs body n st cl, let t := asking method h rs body n in
  t_serve t = Upstream (conf_of t) ->
  option_map (fun s => (length (s_sent s), map (fun r => (rp_status r, values "Content-Length" (rp_header r))) (s_out s)))
    (exec (conf_of t) init (t_run t)) = Some (1, [(st, cl)]) -> ~ In st [502; 504]%Z ->
  exists r, relayed t r rs body /\ values "Content-Length" (rp_header r) = cl.
Proof.
  intros method h rs body n st cl t Hu V Hn. destruct (exec (conf_of t) init (t_run t)) as [s|] eqn:E; [|discriminate V]. cbn [option_map] in V.
  injection V as V1 V2. destruct (s_out s) as [|r [|r' l]] eqn:Eo; try discriminate V2. cbn [map] in V2. injection V2 as V3 V4.
  exists r. split; [|exact V4]. exists (conf_of t), s. split; [split; [exact Hu|exact E]|]. split; [exact Eo|]. split; [rewrite V3; exact Hn|].
  rewrite V1. unfold t, asking. cbn [t_run]. split.
  - cbn. tauto.
  - apply in_or_app. left. cbn. tauto.
Qed.

Lemma asked_timely : forall method h rs body n, let t := asking method h rs body n in
  on_time (conf_of t) init (t_run t) -> timely_run t.
Proof. intros method h rs body n t H c s [R _]. unfold conf_of in H. rewrite R in H. exact H. Qed.

Definition gzip_header : header := [("Accept-Encoding", "gzip")].

(** A resource of five bytes, with its length declared, and a client that takes gzip *)
Lemma head_gzip : exists r r', relayed (asking "GET" gzip_header sized_five "hello" 12) r sized_five "hello" /\
  relayed (asking "HEAD" gzip_header sized_five "" 12) r' sized_five "" /\
  values "Content-Length" (rp_header r) = ["8"] /\ values "Content-Length" (rp_header r') = ["5"].
Proof.
  destruct (asked "GET" gzip_header sized_five "hello" 12 200%Z ["8"]) as (r & R & L); [vm_compute; reflexivity|vm_compute; reflexivity|cbn; lia|].
  destruct (asked "HEAD" gzip_header sized_five "" 12 200%Z ["5"]) as (r' & R' & L'); [vm_compute; reflexivity|vm_compute; reflexivity|cbn; lia|].
  exists r, r'. split; [exact R|]. split; [exact R'|]. split; [exact L|exact L'].
Qed.

(** The same resource, sent without a length *)
Lemma head_chunked : exists r r', relayed (asking "GET" [] (UpResp 200 []) "hello" 14) r (UpResp 200 []) "hello" /\
  relayed (asking "HEAD" [] (UpResp 200 []) "" 12) r' (UpResp 200 []) "" /\
  values "Content-Length" (rp_header r) = ["5"] /\ values "Content-Length" (rp_header r') = ["0"].
Proof.
  destruct (asked "GET" [] (UpResp 200 []) "hello" 14 200%Z ["5"]) as (r & R & L); [vm_compute; reflexivity|vm_compute; reflexivity|cbn; lia|].
  destruct (asked "HEAD" [] (UpResp 200 []) "" 12 200%Z ["0"]) as (r' & R' & L'); [vm_compute; reflexivity|vm_compute; reflexivity|cbn; lia|].
  exists r, r'. split; [exact R|]. split; [exact R'|]. split; [exact L|exact L'].
Qed.

Lemma head_same : exists r r', relayed (asking "GET" [] sized_five "hello" 14) r sized_five "hello" /\
  relayed (asking "HEAD" [] sized_five "" 12) r' sized_five "" /\
  values "Content-Length" (rp_header r) = ["5"] /\ values "Content-Length" (rp_header r') = ["5"].
Proof.
  destruct (asked "GET" [] sized_five "hello" 14 200%Z ["5"]) as (r & R & L); [vm_compute; reflexivity|vm_compute; reflexivity|cbn; lia|].
  destruct (asked "HEAD" [] sized_five "" 12 200%Z ["5"]) as (r' & R' & L'); [vm_compute; reflexivity|vm_compute; reflexivity|cbn; lia|].
  exists r, r'. split; [exact R|]. split; [exact R'|]. split; [exact L|exact L'].
Qed.

Lemma pair_of : forall h rs body n n', get_and_head (asking "GET" h rs body n) (asking "HEAD" h rs "" n').
Proof. intros. split; [reflexivity|]. split; reflexivity. Qed.

Lemma asked_sized : forall method h rs body n, sized (t_req (asking method h rs body n)).
Proof. intros. unfold sized. cbn. lia. Qed.

Ltac on_time := apply asked_timely; vm_compute; tauto.

Lemma head_differs :
  (exists t t' r r' rs body, get_and_head t t' /\ relayed t r rs body /\ relayed t' r' rs "" /\ sized (t_req t) /\ timely_run t /\ timely_run t' /\
     ur_status rs = 200%Z /\ declares (ur_header rs) (String.length body) /\ gzip_client (t_req t) /\ ~ gzip_start body /\
     declares (rp_header r) 8 /\ declares (rp_header r') 5) /\
  (exists t t' r r' rs body, get_and_head t t' /\ relayed t r rs body /\ relayed t' r' rs "" /\ sized (t_req t) /\ timely_run t /\ timely_run t' /\
     ur_status rs = 200%Z /\ values "Content-Length" (ur_header rs) = [] /\ no_gzip_client (t_req t) /\ ~ gzip_start body /\
     declares (rp_header r) 5 /\ declares (rp_header r') 0).
Proof.
  split.
  - destruct head_gzip as (r & r' & R & R' & L & L'). eexists. eexists. exists r, r', sized_five, "hello".
    split; [apply pair_of|]. split; [exact R|]. split; [exact R'|]. split; [apply asked_sized|]. split; [on_time|]. split; [on_time|].
    split; [reflexivity|]. split; [exists "5"; split; [reflexivity|apply (itoa_numeral 5)]|]. split; [exists "gzip", []; split; reflexivity|].
    split; [intros [x E]; discriminate E|]. split; [exists "8"; split; [exact L|apply (itoa_numeral 8)]|exists "5"; split; [exact L'|apply (itoa_numeral 5)]].
  - destruct head_chunked as (r & r' & R & R' & L & L'). eexists. eexists. exists r, r', (UpResp 200 []), "hello".
    split; [apply (pair_of [] (UpResp 200 []) "hello" 14 12)|]. split; [exact R|]. split; [exact R'|]. split; [apply asked_sized|]. split; [on_time|]. split; [on_time|].
    split; [reflexivity|]. split; [reflexivity|]. split; [intros v Hv; contradiction Hv|].
    split; [intros [x E]; discriminate E|]. split; [exists "5"; split; [exact L|apply (itoa_numeral 5)]|exists "0"; split; [exact L'|apply (itoa_numeral 0)]].
Qed.

Lemma head_case : let t := asking "GET" [] sized_five "hello" 14 in let t' := asking "HEAD" [] sized_five "" 12 in
  exists r r', get_and_head t t' /\ relayed t r sized_five "hello" /\ relayed t' r' sized_five "" /\ sized (t_req t) /\ timely_run t /\ timely_run t' /\
    canonical_keys (ur_header sized_five) /\ declares (ur_header sized_five) 5 /\ no_gzip_client (t_req t) /\ ~ gzip_start "hello" /\
    declares (rp_header r) 5 /\ declares (rp_header r') 5.
Proof.
  cbv zeta. destruct head_same as (r & r' & R & R' & L & L'). exists r, r'.
  split; [apply pair_of|]. split; [exact R|]. split; [exact R'|]. split; [apply asked_sized|]. split; [on_time|]. split; [on_time|].
  split; [intros k v [H|[]]; injection H as <- <-; reflexivity|]. split; [exists "5"; split; [reflexivity|apply (itoa_numeral 5)]|].
  split; [intros v Hv; contradiction Hv|]. split; [intros [x E]; discriminate E|].
  split; [exists "5"; split; [exact L|apply (itoa_numeral 5)]|exists "5"; split; [exact L'|apply (itoa_numeral 5)]].
Qed.
