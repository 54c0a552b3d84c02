(** Cases for Thm_Process: one process and a few runs. *)
From Coq Require Import String Ascii List Bool ZArith NArith Lia.
From Verif Require Import GoStr Header Policy Config ConfigSpec ConfigProofs Routing Exchange ExchangeProofs Jwt JwtSpec JwtProofs JwtCases JwksRate JwksRateSpec
  Machine MachineRaces Handler HandlerSpec HandlerProofs HandlerCases SystemSpec Tls TlsSpec TlsProofs Startup StartupSpec StartupProofs StartupCases Process ProcessSpec ProcessProofs.
From Verif Require KidSpec KidProofs.
Import Verif.Config Verif.JwtSpec Verif.Startup Verif.Process Verif.ProcessSpec Verif.HandlerCases ListNotations.
Local Open Scope string_scope.

(** Three definitions: RS256 and ES256 with keys from a URL, HS256 with a key and a URL *)
Definition hub_routes : list route :=
  [Route "/" None "" "todos" "" ""; Route "/admin" None "" "todos" "" "auth"; Route "/ec" None "" "todos" "" "ec"; Route "/hs" None "" "todos" "" "hs"].
Definition hub : config jwt :=
  Cfg [] hub_routes [("auth", Some rs256); ("ec", Some es256); ("hs", Some (bare_jwt "HS256" "secret" "http://keys" ""))]
      [("todos", Some [RM "" [] (Url "" "localhost" 60083)])] (Down 0 0 0 0 "" 0 "" "") (Upst 0 0 0 0 4 false).

(** At boot, RSA key 2 is published as k1. *)
Definition hub_source : sources := Sources (fun _ => no_pem) (fun _ => "") (fun n => if String.eqb n "ec" then Some doc_ec else Some doc_new).
Definition hub_place : place := Place hub_source isort_routes (fun _ => hub) (e_gzip toy) (e_gunzip toy) pair0 (dates 0) (fun _ => 0%Z) (fun _ => true).
Definition hub_host : host := host0 "x" "" "".

Definition starts_at (p : place) (h : host) : option listener :=
  start (jwt_checked (pl_source p)) (pl_sort p) (pl_parse p) (pl_gzip p) (pl_gunzip p) (pl_pair p) (pl_verify p) (pl_clock p) (pl_port p) h.

Definition from_some {A} (o : option A) : o <> None -> A :=
  match o with Some a => fun _ => a | None => fun H => False_rect A (H eq_refl) end.

Lemma from_some_eq : forall A (o : option A) H, o = Some (from_some o H).
Proof. intros A [a|] H; [reflexivity|]. elim H. reflexivity. Qed.

Lemma starts_listens : forall p h H, listens p h (from_some (starts_at p h) H).
Proof. intros p h H. exact (from_some_eq _ (starts_at p h) H). Qed.

Lemma hub_starts : starts_at hub_place hub_host <> None.
Proof. vm_compute. discriminate. Qed.

Definition hub_listener : listener := from_some (starts_at hub_place hub_host) hub_starts.

Definition noon : Z := 1600000000000000000.
Definition daemon0 : daemon := Daemon hub_place hub_host hub_listener hub lib always noon.

Lemma daemon0_up : up daemon0.
Proof.
  split; [apply isort_sorts|]. split; [exact (starts_listens hub_place hub_host hub_starts)|]. split.
  - split; [discriminate|]. cbn [hub_host host0 h_flag dm_host daemon0]. left. split; [discriminate|reflexivity].
  - intros name j H. cbn [daemon0 dm_told hub c_jwt In] in H. destruct H as [H|[H|[H|[]]]]; injection H as <- <-; repeat split.
Qed.

Definition chance_at (secs : Z) : chance := Chance 0 "uuid" (fun _ => "default") secs.
Definition with_token (path token : string) : incoming := ask "GET" path path [("Authorization", "Bearer " ++ token)].
Definition doc_k9 : list jwk := [Jwk "k9" "RS256" (Some (KRsa 1))].

(** A token signed with RSA key 1, which names k9, is refused and starts a refresh, which finds k9 and not k1;
    meanwhile and afterwards a token signed with the key of k1 is accepted, and afterwards so is the first. *)
Definition day1 : list event := [Arrive (with_token "/admin" old_k9) (chance_at 1600000000); Load 0 None].
Definition day2 : list event :=
  [Arrive (with_token "/admin" new_k1) (chance_at 1600000000); Load 0 None; Go 1 (LMain 0); Load 0 None].
Definition day3 : list event :=
  [Arrive (with_token "/admin" old_k9) (chance_at 1600000000); Load 0 None; Go 2 (LMain 0); Go 1 (LDo 0 (Some created));
   Arrive (with_token "/admin" new_k1) (chance_at 1600000000)].
Definition day12 : list event := (day1 ++ Load 0 (Some doc_k9) :: day2)%list.
Definition days : list event := (day12 ++ day3)%list.

Definition run_from (es : list event) : option process := executes daemon0 (process_init (li_config hub_listener) noon) es.

(** The state after some events that can happen *)
Definition state_after (es : list event) : process := match run_from es with Some p => p | None => process_init (li_config hub_listener) noon end.

Definition ok {A} (o : option A) : bool := match o with Some _ => true | None => false end.

Lemma reaches : forall es, ok (run_from es) = true -> after daemon0 es (state_after es).
Proof.
  intros es H. split; [exact daemon0_up|]. unfold state_after, run_from in *. change (dm_listener daemon0) with hub_listener. change (dm_since daemon0) with noon.
  destruct (executes daemon0 _ es); [reflexivity|discriminate H].
Qed.

Lemma reaches_more : forall es es', ok (run_from (es ++ es')%list) = true -> executes daemon0 (state_after es) es' = Some (state_after (es ++ es')%list).
Proof.
  intros es es' H. unfold state_after, run_from, executes in *. rewrite exec_app in *. destruct (process_exec _ _ _ _ _ es) as [p|]; [|discriminate H].
  destruct (process_exec _ _ _ _ p es'); [reflexivity|discriminate H].
Qed.

Definition status_at (k : nat) (p : process) : option (option Z) := option_map (fun v => status_of (v_out v)) (nth_error (p_visits p) k).
Definition goes_up (k : nat) (p : process) : bool := match nth_error (p_visits p) k with Some v => match v_out v with Upstream _ => true | _ => false end | None => false end.

Lemma days_happen : after daemon0 days (state_after days).
Proof. apply reaches. vm_compute. reflexivity. Qed.

Lemma goes_up_spec : forall k p, goes_up k p = true -> exists v c, nth_error (p_visits p) k = Some v /\ v_out v = Upstream c.
Proof.
  intros k p H. unfold goes_up in H. destruct (nth_error (p_visits p) k) as [v|]; [|discriminate H]. exists v. destruct (v_out v) as [| | |c|] eqn:E; try discriminate H.
  exists c. now split.
Qed.

(** C91: k1 is not in the only document fetched since boot, and the token it signed is accepted after all of
    the document has been processed. *)
Lemma withdrawn : exists m es p k n j0 doc key token i v c, after m (es ++ [Arrive i (chance_at 1600000000)])%list p /\ arrivals es = k /\ honest (dm_lib m) /\
  defined m n j0 /\ since p n = [doc] /\ (forall g f, refresher p g n f -> past_keys f) /\
  (forall d, In d doc -> jk_raw d <> Some key) /\ (forall cl key', lib_verify (dm_lib m) (j_alg j0) key' token = Some cl -> key' = key) /\
  (exists r, select_route (c_routes (li_config (dm_listener m))) (q_raw_uri (i_req i)) = Some r /\ r_jwt r = n) /\ In (j_alg j0) signing /\
  bearer (authorization i) token /\ nth_error (p_visits p) k = Some v /\ v_out v = Upstream c.
Proof.
  set (es := (day12 ++ [Arrive (with_token "/admin" old_k9) (chance_at 1600000000); Load 0 None; Go 2 (LMain 0); Go 1 (LDo 0 (Some created))])%list).
  assert (E : (es ++ [Arrive (with_token "/admin" new_k1) (chance_at 1600000000)])%list = days) by reflexivity.
  destruct (goes_up_spec 3 (state_after days)) as (v & c & Hv & Hc); [vm_compute; reflexivity|].
  exists daemon0, es, (state_after days), 3, "auth", rs256, doc_k9, (KRsa 2), new_k1, (with_token "/admin" new_k1), v, c.
  split; [rewrite E; exact days_happen|]. split; [reflexivity|]. split; [apply small_honest|]. split; [reflexivity|].
  split; [vm_compute; reflexivity|]. split.
  { intros g f H. unfold refresher in H. assert (Hg : p_gs (state_after days) = [("auth", FSleep 1600000010000000000)]) by (vm_compute; reflexivity).
    rewrite Hg in H. destruct g as [|[|g]]; [injection H as <-; exact I|discriminate H|discriminate H]. }
  split; [intros d [<-|[]]; discriminate|]. split.
  { intros cl key' H. cbn [daemon0 dm_lib lib small lib_verify] in H. unfold small_verify in H. destruct key' as [[|[x|[x|x|]|]]|b x|s|x]; try discriminate H. reflexivity. }
  split; [eexists; split; [vm_compute; reflexivity|reflexivity]|]. split; [now left|]. split; [|now split].
  apply (bearer_of new_k1). repeat (split; [discriminate|]). exact I.
Qed.

(** C65: one request without a valid token ends the process. *)
Definition fatal : list event := [Arrive (with_token "/ec" old_k9) (chance_at 1600000000); Load 0 None; Load 0 (Some doc_bad); Load 0 None].

Lemma killed : exists m es p i ch v rs, after m (Arrive i ch :: es)%list p /\ (forall e, In e es -> exists doc, e = Load 0 doc) /\ p_visits p = [v] /\ v_out v = Answered rs /\ rp_status rs = 401%Z /\
  p_dead p = true /\ forall e, executes m p [e] = None.
Proof.
  assert (K : after daemon0 fatal (state_after fatal)) by (apply reaches; vm_compute; reflexivity).
  assert (S : status_at 0 (state_after fatal) = Some (Some 401%Z)) by (vm_compute; reflexivity).
  assert (N : length (p_visits (state_after fatal)) = 1) by (vm_compute; reflexivity).
  assert (A : match nth_error (p_visits (state_after fatal)) 0 with Some v => match v_out v with Answered _ => true | _ => false end | None => false end = true) by (vm_compute; reflexivity).
  assert (D : p_dead (state_after fatal) = true) by (vm_compute; reflexivity).
  unfold status_at in S. destruct (p_visits (state_after fatal)) as [|v [|w l]] eqn:Ev; [discriminate N| |discriminate N]. cbn [nth_error option_map] in S, A.
  destruct (v_out v) as [t|r|rs|c|] eqn:Eo; try discriminate A. injection S as S.
  exists daemon0, [Load 0 None; Load 0 (Some doc_bad); Load 0 None], (state_after fatal), (with_token "/ec" old_k9), (chance_at 1600000000), v, rs.
  split; [exact K|]. split; [intros e [<-|[<-|[<-|[]]]]; eexists; reflexivity|]. split; [exact Ev|]. split; [exact Eo|]. split; [exact S|]. split; [exact D|].
  intros e. unfold executes. cbn [process_exec]. unfold process_step. rewrite D. reflexivity.
Qed.

(** C88: with a key of its own, a definition has two refreshes at once. *)
Definition twice : list event :=
  [Arrive (with_token "/hs" old_k9) (chance_at 1600000000); Load 0 None; Load 0 None; Load 0 None; Load 0 None; Load 0 None;
   Arrive (with_token "/hs" old_k9) (chance_at 1600000000); Load 1 None].

Lemma adjacent : exists m es p n j0, after m es p /\ defined m n j0 /\ ~ spaced_out (begun p n).
Proof.
  exists daemon0, twice, (state_after twice), "hs", (bare_jwt "HS256" "secret" "http://keys" ""). split; [apply reaches; vm_compute; reflexivity|]. split; [reflexivity|].
  assert (B : begun (state_after twice) "hs" = [noon; noon]) by (vm_compute; reflexivity). rewrite B. intros H. specialize (H [] noon [] noon [] eq_refl). unfold noon in H. lia.
Qed.

(** Ten seconds later a second refresh begins. *)
Definition later : list event :=
  (days ++ [Wait 10000000000; Load 0 None; Load 0 None; Load 0 None; Arrive (with_token "/admin" "eyJraWQiOiJrMyJ9.e30.eA") (chance_at 1600000010); Load 1 None])%list.

Lemma later_happens : after daemon0 later (state_after later).
Proof. apply reaches. vm_compute. reflexivity. Qed.

Lemma day1_happens : after daemon0 day1 (state_after day1).
Proof. apply reaches. vm_compute. reflexivity. Qed.

Lemma day12_happens : after daemon0 day12 (state_after day12).
Proof. apply reaches. vm_compute. reflexivity. Qed.

Lemma k9_named : KidSpec.names_kid old_k9 "k9".
Proof. apply KidProofs.kid_iff; [discriminate|]. vm_compute. reflexivity. Qed.

(** The definition "auth" after [es] *)
Definition auth_after (es : list event) : jwt := match lookup "auth" (p_jwts (state_after es)) with Some (Some j) => j | _ => rs256 end.

Lemma unknown_dec : forall j kid, existsb (fun e => String.eqb (fst e) kid) (keys j) = false -> ~ known j kid.
Proof.
  intros j kid H (k & Hk). assert (T : existsb (fun e => String.eqb (fst e) kid) (keys j) = true).
  { apply existsb_exists. exists (kid, k). split; [exact Hk|apply String.eqb_refl]. }
  congruence.
Qed.

(** Ahead of the first request, everything [retry] asks for is given. *)
Lemma k9_retry : after daemon0 [] (state_after []) /\ p_dead (state_after []) = false /\ p_locked (state_after []) "auth" = false /\ defined daemon0 "auth" rs256 /\
  now_is (state_after []) "auth" (auth_after []) /\ honest (dm_lib daemon0) /\ ch_now (chance_at 1600000000) = unix (p_now (state_after [])) /\
  proxied_request (li_config hub_listener) (with_token "/admin" old_k9) /\ sound_request (li_env hub_listener) (i_req (with_token "/admin" old_k9)) /\
  option_map r_jwt (select_route (c_routes (li_config hub_listener)) "/admin") = Some "auth" /\
  bearer (authorization (with_token "/admin" old_k9)) old_k9 /\ lib_signatures lib old_k9 = Some 1 /\ KidSpec.names_kid old_k9 "k9" /\ ~ known (auth_after []) "k9" /\
  processable "RS256" doc_k9 /\ has_turn "RS256" (Jwk "k9" "RS256" (Some (KRsa 1))) doc_k9 /\ fits "RS256" (KRsa 1) /\ lib_verify lib "RS256" (KRsa 1) old_k9 = Some no_dates /\
  moderate 1600000000 120 /\ in_time 1600000000 120 no_dates /\
  status_of (serve (li_env hub_listener) lib always (config_at daemon0 (state_after [])) (chance_at 1600000000) (with_token "/admin" old_k9)) = Some 401%Z.
Proof.
  assert (P : processable "RS256" doc_k9).
  { intros d [<-|[]]. split; [reflexivity|]. intros [E|[E|[E|[]]]]; discriminate E. }
  split; [apply reaches; vm_compute; reflexivity|]. split; [vm_compute; reflexivity|]. split; [vm_compute; reflexivity|]. split; [reflexivity|].
  split; [vm_compute; reflexivity|]. split; [apply small_honest|]. split; [vm_compute; reflexivity|]. split; [vm_compute; reflexivity|].
  split. { split; [discriminate|]. split; [now left|]. intros [E _]. now apply E. }
  split; [vm_compute; reflexivity|]. split; [apply bearer_of; repeat (split; [discriminate|]); exact I|]. split; [vm_compute; reflexivity|].
  split; [exact k9_named|]. split; [apply unknown_dec; vm_compute; reflexivity|]. split; [exact P|].
  split. { exists [], []. split; [reflexivity|]. split; [exact P|]. intros []. }
  split; [exists "256"; split; [now left|now left]|]. split; [vm_compute; reflexivity|]. split; [repeat split; discriminate|]. split; [repeat split; discriminate|]. vm_compute. reflexivity.
Qed.

(** A plain request, served in the middle of other things and alone *)
Definition plain_get : incoming := ask "GET" "/mse6" "/mse6" [].
Definition plain_labels : list label := (MachineRaces.answer created "ok" ++ repeat (LMain 0) 16)%list.
Definition mixed : list event :=
  (day1 ++ Arrive plain_get (chance_at 1600000000) :: Load 0 (Some doc_k9) :: map (Go 1) (firstn 7 plain_labels) ++ [Load 0 None; Arrive (with_token "/admin" old_k9) (chance_at 1600000000); Load 0 None; Load 0 None; Wait 5000; Go 2 (LMain 0)] ++ map (Go 1) (skipn 7 plain_labels))%list.
Definition single : list event := (Arrive plain_get (chance_at 1600000000) :: map (Go 0) plain_labels)%list.

Lemma mixed_single : after daemon0 mixed (state_after mixed) /\ after daemon0 single (state_after single) /\
  comes_in 1 plain_get (chance_at 1600000000) (firstn 2 mixed) mixed (skipn 3 mixed) /\ comes_in 0 plain_get (chance_at 1600000000) [] single (tl single) /\
  (forall r, select_route (c_routes (li_config hub_listener)) "/mse6" = Some r -> r_jwt r = "") /\
  labels_of 1 (skipn 3 mixed) = labels_of 0 (tl single) /\ length (labels_of 0 (tl single)) = 28 /\
  option_map (fun v => map (fun r => (rp_status r, rp_body r)) (s_out (v_state v))) (nth_error (p_visits (state_after mixed)) 1) = Some [(201%Z, "ok")].
Proof.
  split; [apply reaches; vm_compute; reflexivity|]. split; [apply reaches; vm_compute; reflexivity|]. split; [split; reflexivity|]. split; [split; reflexivity|].
  split. { assert (R : option_map r_jwt (select_route (c_routes (li_config hub_listener)) "/mse6") = Some "") by (vm_compute; reflexivity).
    intros r H. rewrite H in R. injection R as R. exact R. }
  repeat split; vm_compute; reflexivity.
Qed.
