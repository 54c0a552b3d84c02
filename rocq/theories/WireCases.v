(** Cases for Thm_Wire, on the site of UrlCases. *)
From Coq Require Import String Ascii List Bool Arith ZArith NArith Lia.
From Verif Require Import GoStr RegexSpec Header HeaderSpec Policy Config ConfigSpec ConfigProofs Exchange ExchangeSpec ExchangeProofs Jwt JwtSpec JwtCases Machine MachineSpec
  Handler HandlerSpec HandlerProofs HandlerCases SystemSpec SystemCases ConformCases Url UrlSpec UrlProofs UrlCases Wire WireSpec WireProofs.
Import ListNotations.
Local Open Scope string_scope.

(** A request for "/a" *)
Definition calling (method : string) (h : header) : setting := Setting toy lib new_request gate_live chance0 (visitor method "/a" h) [LMain 0].

Definition first_of (t : setting) : option up_request :=
  match t_serve t with Upstream c => if c_ok c then Some (c_request c) else None | _ => None end.

Lemma first_sent : forall t x, first_of t = Some x -> t_run t = [LMain 0] -> sends t [x].
Proof.
  intros t x H Hr. unfold first_of in H. destruct (t_serve t) as [| | |c|] eqn:E; try discriminate H. destruct (c_ok c) eqn:Eo; [|discriminate H]. injection H as <-.
  eexists c, _. split; [split; [exact E|]|].
  - rewrite Hr. cbn [exec step main_step init s_pc]. rewrite Eo. reflexivity.
  - reflexivity.
Qed.

Lemma first_lines : forall t h, match first_of t with Some x => wire_header x | None => None end = Some h -> t_run t = [LMain 0] -> exists x, gets_lines t x h.
Proof.
  intros t h H Hr. destruct (first_of t) as [x|] eqn:E; [|discriminate H]. exists x. split; [|exact H]. exists [x]. split; [now apply first_sent|now left].
Qed.

Lemma calling_sized : forall method h, sized (t_req (calling method h)).
Proof. intros method h. unfold sized, t_req, calling, visitor. destruct (read_target method "/a"); cbn; lia. Qed.

Lemma calling_http : forall method h, read_target method "/a" <> None -> by_net_http (calling method h).
Proof.
  intros method h H. split; [|reflexivity]. unfold calling, visitor. destruct (read_target method "/a") as [g|] eqn:E; [|contradiction].
  exists g. split; [exact E|]. now split.
Qed.

(** A client that names no product *)
Lemma agent_added : exists t x h, gets_lines t x h /\ sized (t_req t) /\ canonical_keys (q_header (t_req t)) /\
  values "User-Agent" (q_header (t_req t)) = [] /\ values "User-Agent" h = ["Go-http-client/1.1"].
Proof.
  destruct (first_lines (calling "GET" []) [("Host", "localhost:60083"); ("User-Agent", "Go-http-client/1.1"); ("X-Request-Id", "XR-" ++ e_id toy ++ "-uuid"); ("Accept-Encoding", "gzip")]) as [x Hx]; [vm_compute; reflexivity|reflexivity|].
  exists (calling "GET" []), x. eexists. split; [exact Hx|]. split; [apply calling_sized|]. split; [intros k v []|]. split; reflexivity.
Qed.

(** A client that wants no coding *)
Lemma coding_added : exists t x h, gets_lines t x h /\ sized (t_req t) /\ canonical_keys (q_header (t_req t)) /\
  values "Accept-Encoding" (q_header (t_req t)) = [""] /\ values "Accept-Encoding" h = [""; "gzip"].
Proof.
  destruct (first_lines (calling "GET" [("Accept-Encoding", "")]) [("Host", "localhost:60083"); ("User-Agent", "Go-http-client/1.1"); ("Accept-Encoding", ""); ("X-Request-Id", "XR-" ++ e_id toy ++ "-uuid"); ("Accept-Encoding", "gzip")]) as [x Hx]; [vm_compute; reflexivity|reflexivity|].
  exists (calling "GET" [("Accept-Encoding", "")]), x. eexists. split; [exact Hx|]. split; [apply calling_sized|]. split; [intros k v [H|[]]; injection H as <- _; reflexivity|]. split; reflexivity.
Qed.

(** A pool full of connections that the server has given up *)
Definition stale (n : nat) : list try := (repeat (Try true ReadFailed) n ++ [Try false Replied])%list.

Lemma stale_trip : forall x n, replayable x = true -> trip x (stale n) = true.
Proof.
  intros x n H. induction n as [|n IH]; [reflexivity|]. unfold stale in *. cbn [repeat app]. destruct (repeat (Try true ReadFailed) n ++ [Try false Replied])%list as [|y ys] eqn:E; [now destruct n|].
  change (tries_again x (Try true ReadFailed) && trip x (y :: ys) = true). rewrite IH, andb_true_r. exact H.
Qed.

Lemma stale_copies : forall n, copies (stale n) = S n.
Proof.
  intros n. unfold copies, stale. rewrite map_app, list_sum_app.
  assert (H : list_sum (map reaches (repeat (Try true ReadFailed) n)) = n). { induction n as [|n IH]; [reflexivity|]. cbn [repeat map]. rewrite sum_cons, IH. reflexivity. }
  rewrite H. cbn. lia.
Qed.

Lemma copied : forall method h n, In (method, h) [("GET", []); ("POST", [("Idempotency-Key", "1")])] ->
  exists t yss, in_use key_source isort_routes gate (t_cfg t) /\ tried t yss /\ sized (t_req t) /\ canonical_keys (q_header (t_req t)) /\
    q_method (t_req t) = method /\ q_header (t_req t) = h /\ List.length yss = 1 /\ all_copies yss = S n.
Proof.
  intros method h n H. exists (calling method h), [stale n]. split; [exact gate_in_use|].
  assert (F : exists x, first_of (calling method h) = Some x /\ replayable x = true).
  { destruct H as [H|[H|[]]]; injection H as <- <-; (eexists; split; [vm_compute; reflexivity|reflexivity]). }
  destruct F as (x & F & R). split; [exists [x]; split; [now apply first_sent|]; constructor; [now apply stale_trip|constructor]|].
  split; [apply calling_sized|]. assert (E : q_method (t_req (calling method h)) = method /\ q_header (t_req (calling method h)) = h) by (unfold calling, visitor, t_req; now destruct (read_target method "/a")).
  destruct E as [E1 E2]. split; [rewrite E2; destruct H as [H|[H|[]]]; injection H as _ <-; [intros k v []|intros k v [I|[]]; injection I as <- _; reflexivity]|].
  split; [exact E1|]. split; [exact E2|]. split; [reflexivity|]. unfold all_copies. cbn [map list_sum fold_right]. rewrite stale_copies. lia.
Qed.

(** * An archive that is compressed on the wire *)

Definition packed (s : string) : string := e_gzip toy s.
Definition archive_answer : up_response := UpResp 200 [("Content-Encoding", "gzip"); ("Content-Type", "application/gzip")].
Definition archive_taken : up_response := UpResp 200 [("Content-Type", "application/gzip")].

(** A client that says nothing about codings and one that takes gzip *)
Definition fetch_plain : setting := fetch [] archive_taken (packed "abcd") 14.
Definition fetch_zip : setting := fetch zip archive_answer (packed (packed "abcd")) 12.

Definition content_got (t : setting) : option (list Z * list (option string)) :=
  match t_serve t with
  | Upstream c => option_map (fun s => (map rp_status (s_out s), map (fun r => content_of toy_dec (values "Content-Encoding" (rp_header r)) (rp_body r)) (s_out s))) (exec c init (t_run t))
  | _ => None
  end.

Lemma got_content : forall t rs body st y, summary t = Some (1, [st]) -> content_got t = Some ([st], [y]) -> In (LDo 0 (Some rs)) (t_run t) -> In (LRead 0 body true) (t_run t) ->
  ~ In st [502; 504]%Z -> exists r x, asks t x /\ relayed t r rs body /\ content_of toy_dec (values "Content-Encoding" (rp_header r)) (rp_body r) = y.
Proof.
  intros t rs body st y V C D R N. unfold summary in V. unfold content_got in C. destruct (t_serve t) as [| | |c|] eqn:H; try discriminate V.
  destruct (exec c init (t_run t)) as [s|] eqn:E; [|discriminate V]. cbn [option_map] in V, C. injection V as L O. injection C as _ C.
  destruct (s_out s) as [|r [|r' l]] eqn:Eo; try discriminate O. injection O as O. injection C as C. destruct (s_sent s) as [|x xs] eqn:Es; [discriminate L|].
  exists r, x. split; [exists (x :: xs)%list; split; [exists c, s; split; [now split|exact Es]|now left]|]. split; [|exact C].
  exists c, s. split; [now split|]. split; [exact Eo|]. split; [rewrite O; exact N|]. rewrite Es, L. now split.
Qed.

Lemma archive_plain : exists r, delivered toy_dec fetch_plain r archive_answer (packed (packed "abcd")) /\
  content_of toy_dec (values "Content-Encoding" (rp_header r)) (rp_body r) = Some "abcd".
Proof.
  destruct (got_content fetch_plain archive_taken (packed "abcd") 200%Z (Some "abcd")) as (r & x & Ha & Hr & C).
  - vm_compute. reflexivity.
  - vm_compute. reflexivity.
  - right. left. reflexivity.
  - do 8 right. left. reflexivity.
  - intro H. repeat (destruct H as [H|H]; [discriminate H|]). destruct H.
  - exists r. split; [|exact C]. exists x, archive_taken, (packed "abcd"). split; [exact Ha|]. split; [|exact Hr].
    assert (G : asks_gzip x = true). { apply (open_iff fetch_plain x Ha); [apply fetch_sized|intros k v []|]. split; [exact I|]. split; [exact I|discriminate]. }
    unfold taken. rewrite G. reflexivity.
Qed.

Lemma archive_zip : exists r, delivered toy_dec fetch_zip r archive_answer (packed (packed "abcd")) /\
  content_of toy_dec (values "Content-Encoding" (rp_header r)) (rp_body r) = Some (packed "abcd").
Proof.
  destruct (got_content fetch_zip archive_answer (packed (packed "abcd")) 200%Z (Some (packed "abcd"))) as (r & x & Ha & Hr & C).
  - vm_compute. reflexivity.
  - vm_compute. reflexivity.
  - right. left. reflexivity.
  - do 8 right. left. reflexivity.
  - intro H. repeat (destruct H as [H|H]; [discriminate H|]). destruct H.
  - exists r. split; [|exact C]. exists x, archive_answer, (packed (packed "abcd")). split; [exact Ha|]. split; [|exact Hr].
    assert (G : asks_gzip x = false).
    { destruct (asks_gzip x) eqn:G; [|reflexivity]. exfalso. apply (open_iff fetch_zip x Ha) in G; [|apply fetch_sized|intros k v [HH|[]]; injection HH as <- _; reflexivity].
      destruct G as (G & _). discriminate G. }
    unfold taken. rewrite G. reflexivity.
Qed.

Lemma fetch_plain_timely : timely_run fetch_plain. Proof. timely_now. Qed.
Lemma fetch_zip_timely : timely_run fetch_zip. Proof. timely_now. Qed.

Lemma unpacked_twice : exists dec t1 t2 r1 r2 rs body x y, codec (t_env t1) dec /\ t_env t1 = t_env t2 /\ t_cfg t1 = t_cfg t2 /\
  q_method (t_req t1) = "GET" /\ q_method (t_req t2) = "GET" /\ q_raw_uri (t_req t1) = q_raw_uri (t_req t2) /\
  values "Accept-Encoding" (q_header (t_req t1)) = [] /\ values "Accept-Encoding" (q_header (t_req t2)) = ["gzip"] /\
  (sized (t_req t1) /\ timely_run t1 /\ delivered dec t1 r1 rs body) /\ (sized (t_req t2) /\ timely_run t2 /\ delivered dec t2 r2 rs body) /\
  values "Content-Encoding" (ur_header rs) = ["gzip"] /\ content_of dec ["gzip"] body = Some x /\
  content_of dec (values "Content-Encoding" (rp_header r1)) (rp_body r1) = Some y /\ y <> x /\
  content_of dec (values "Content-Encoding" (rp_header r2)) (rp_body r2) = Some x.
Proof.
  destruct archive_plain as (r1 & D1 & C1). destruct archive_zip as (r2 & D2 & C2).
  exists toy_dec, fetch_plain, fetch_zip, r1, r2, archive_answer, (packed (packed "abcd")), (packed "abcd"), "abcd".
  split; [exact toy_codec|]. do 7 (split; [reflexivity|]). split; [split; [apply fetch_sized|split; [exact fetch_plain_timely|exact D1]]|].
  split; [split; [apply fetch_sized|split; [exact fetch_zip_timely|exact D2]]|]. split; [reflexivity|]. split; [reflexivity|]. split; [exact C1|]. split; [discriminate|exact C2].
Qed.

(** Empty content compressed on the wire *)
Definition fetch_empty : setting := fetch [] archive_taken "" 12.

Lemma fetch_empty_timely : timely_run fetch_empty. Proof. timely_now. Qed.

Lemma empty_delivered : exists r, delivered toy_dec fetch_empty r archive_answer (packed "").
Proof.
  destruct (got_content fetch_empty archive_taken "" 200%Z (Some "")) as (r & x & Ha & Hr & _).
  - vm_compute. reflexivity.
  - vm_compute. reflexivity.
  - right. left. reflexivity.
  - do 8 right. left. reflexivity.
  - intro H. repeat (destruct H as [H|H]; [discriminate H|]). destruct H.
  - exists r, x, archive_taken, "". split; [exact Ha|]. split; [|exact Hr].
    assert (G : asks_gzip x = true). { apply (open_iff fetch_empty x Ha); [apply fetch_sized|intros k v []|]. split; [exact I|]. split; [exact I|discriminate]. }
    unfold taken. rewrite G. reflexivity.
Qed.
