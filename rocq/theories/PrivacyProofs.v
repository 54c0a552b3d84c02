(** Proofs for Thm_Privacy. *)
From Coq Require Import String Ascii List Bool ZArith NArith Lia.
From Verif Require Import GoStr Header HeaderSpec Iprex Json Policy Config Routing Exchange ExchangeSpec ExchangeProofs Jwt Machine MachineSpec MachineRaces
  Handler HandlerSpec HandlerCases SystemSpec SystemProofs SystemCases AccessLog AccessLogSpec AccessLogProofs AccessLogCases PrivacySpec.
Import ListNotations.
Local Open Scope string_scope.

(** * What the handler keeps of a request apart from its headers and body *)

Definition alike (w w' : down) : Prop :=
  exists b h, w' = Dwn (w_id w) (w_method w) (w_uri w) b (w_too_large w) (w_send_gzip w) h (w_header w).

Definition conf_alike (c c' : conf) : Prop :=
  exists b h y, c' = Conf (c_env c) (Dwn (w_id (c_down c)) (w_method (c_down c)) (w_uri (c_down c)) b (w_too_large (c_down c)) (w_send_gzip (c_down c)) h (w_header (c_down c)))
                     y (c_ok c) (c_max c) /\ uq_uri y = uq_uri (c_request c).

(** States that differ in what was sent *)
Definition same_but_sent (s s' : state) : Prop :=
  exists ys, s' = St (s_att s) (s_cur s) (s_dwn s) (s_flag s) (s_pc s) ys (s_out s).

Lemma same_intro : forall at1 cu dw fl p ys ys' out, same_but_sent (St at1 cu dw fl p ys out) (St at1 cu dw fl p ys' out).
Proof. intros. exists ys'. reflexivity. Qed.

Definition opt_rel {A} (R : A -> A -> Prop) (o o' : option A) : Prop :=
  match o, o' with Some a, Some a' => R a a' | None, None => True | _, _ => False end.

Ltac same := cbn [opt_rel go with_atts with_s_flag at_cur write check_dwn check_up cur s_att s_cur s_dwn s_flag s_pc s_sent s_out]; try exact I; apply same_intro.

Ltac pick :=
  match goal with
  | |- opt_rel _ (if ?b then _ else _) (if ?b then _ else _) => destruct b
  | |- opt_rel _ (match ?o with _ => _ end) (match ?o with _ => _ end) => destruct o
  | |- opt_rel _ (let (_, _) := ?o in _) (let (_, _) := ?o in _) => destruct o
  end.

Lemma main_alike : forall c c' dice s s', conf_alike c c' -> same_but_sent s s' -> opt_rel same_but_sent (main_step c dice s) (main_step c' dice s').
Proof.
  intros [E w y ok mx] c' dice [at1 cu dw fl p ys out] s' (b & h & y' & -> & _) (ys' & ->).
  cbn [c_env c_down c_request c_ok c_max s_att s_cur s_dwn s_flag s_pc s_sent s_out].
  destruct w as [wi wm wu wb wt wg wr wh]. cbn [w_id w_method w_uri w_body w_too_large w_send_gzip w_req_header w_header].
  set (w := Dwn wi wm wu wb wt wg wr wh). set (w' := Dwn wi wm wu b wt wg h wh).
  assert (A1 : forall st m, send_status E dice w' st m = send_status E dice w st m) by reflexivity.
  assert (A2 : forall d body, assemble E w' d body = assemble E w d body) by reflexivity.
  assert (A3 : forall d, looks_at_length E w' d = looks_at_length E w d) by reflexivity.
  assert (A4 : forall g body, encode_body E w' g body = encode_body E w g body) by reflexivity.
  assert (A5 : w_send_gzip w' = w_send_gzip w) by reflexivity.
  assert (A6 : w_method w' = w_method w) by reflexivity.
  clearbody w w'.
  destruct p as [| | |o| | |bd k|bd k|bd k|bd| |stg bd d| | | | | | | |]; [..|destruct stg|idtac|idtac|idtac|idtac|idtac|idtac|idtac|idtac];
    unfold main_step, may_retry, dwn_aborted, up_aborted, check_dwn, check_up, dwn_aborted, up_aborted, at_cur, go, write, with_atts, with_s_flag, cur;
    cbn [c_env c_down c_request c_ok c_max s_att s_cur s_dwn s_flag s_pc s_sent s_out];
    rewrite ?A1, ?A2, ?A3, ?A4, ?A5, ?A6; repeat pick; cbn [opt_rel]; try exact I; try apply same_intro.
Qed.

Lemma step_alike : forall c c' l s s', conf_alike c c' -> same_but_sent s s' -> opt_rel same_but_sent (step c s l) (step c' s' l).
Proof.
  intros c c' l s s' C R. destruct l as [dice|b|i o|i|i|i|i bd k|i|i|i|]; cbn [step]; [now apply main_alike|..];
    destruct s as [at1 cu dw fl p ys out]; destruct R as (ys' & ->);
    unfold sel_step, goroutine_step, abort_all, at_cur, go, with_atts, with_s_flag, cur;
    cbn [s_att s_cur s_dwn s_flag s_pc s_sent s_out]; try (destruct p, b); repeat pick; cbn [opt_rel]; try exact I; try apply same_intro;
    destruct (is_gzip _); apply same_intro.
Qed.

Definition lsame (a b : lstate) : Prop :=
  same_but_sent (ls_state a) (ls_state b) /\ ls_message b = ls_message a /\ ls_lines b = ls_lines a.

Lemma lstep_alike : forall c c' lab x q q' l a b, conf_alike c c' -> user_agent q' = user_agent q -> lsame a b ->
  opt_rel lsame (lstep c lab x q a l) (lstep c' lab x q' b l).
Proof.
  intros c c' lab x q q' l [s m es] [s' m' es'] C U (R & M & L). cbn [ls_state ls_message ls_lines] in *. subst m' es'.
  unfold lstep. cbn [ls_state ls_message ls_lines]. pose proof (step_alike c c' l s s' C R) as T.
  destruct (step c s l) as [s1|], (step c' s' l) as [s1'|]; cbn [opt_rel] in T; try contradiction; [|exact I]. cbn [opt_rel].
  destruct l; try (split; [exact T|split; reflexivity]). split; [exact T|]. cbn [ls_message ls_lines].
  destruct R as (ys & ->). destruct C as (b & h & y & -> & Y). split; [reflexivity|].
  replace (encoding_of _ (St _ _ _ _ _ ys _)) with (encoding_of c s) by reflexivity. destruct (encoding_of c s) as [e|]; [|reflexivity].
  do 2 f_equal. unfold line, log_entry, attempt_entry. cbn [c_env c_down c_request c_max w_method w_id s_out s_att s_cur cur]. rewrite U, Y. reflexivity.
Qed.

Lemma lexec_alike : forall c c' lab x q q' run a b, conf_alike c c' -> user_agent q' = user_agent q -> lsame a b ->
  opt_rel lsame (lexec c lab x q a run) (lexec c' lab x q' b run).
Proof.
  intros c c' lab x q q' run. induction run as [|l run IH]; intros a b C U R; cbn [lexec]; [exact R|].
  pose proof (lstep_alike c c' lab x q q' l a b C U R) as T. destruct (lstep c lab x q a l) as [a1|], (lstep c' lab x q' b l) as [b1|]; cbn [opt_rel] in T; try contradiction; [|exact I].
  now apply IH.
Qed.

Lemma exec_alike : forall c c' run s s', conf_alike c c' -> same_but_sent s s' -> opt_rel same_but_sent (exec c s run) (exec c' s' run).
Proof.
  intros c c' run. induction run as [|l run IH]; intros s s' C R; cbn [exec]; [exact R|].
  pose proof (step_alike c c' l s s' C R) as T. destruct (step c s l) as [s1|], (step c' s' l) as [s1'|]; cbn [opt_rel] in T; try contradiction; [|exact I].
  now apply IH.
Qed.

(** * Requests that are twins *)

Lemma get_values : forall k h h', values (canon k) h' = values (canon k) h -> get k h' = get k h.
Proof. intros k h h' H. unfold get. rewrite H. reflexivity. Qed.

Lemma body_alike : forall max q q', q_length q' = q_length q -> String.length (q_data q') = String.length (q_data q) -> q_data_ok q' = q_data_ok q ->
  pb_too_large (parse_body max q') = pb_too_large (parse_body max q) /\ pb_close (parse_body max q') = pb_close (parse_body max q).
Proof.
  intros max q q' L D K. unfold parse_body, read_limited. assert (Z : zlen (q_data q') = zlen (q_data q)) by (unfold zlen; now rewrite D).
  rewrite L, K, Z. destruct (Z.eqb _ 0); [now split|]. destruct (Z.geb _ max); [now split|].
  destruct (Z.leb (zlen (q_data q)) max) eqn:F.
  - rewrite Z. destruct (Z.gtb _ max); [now split|]. destruct (negb _); now split.
  - assert (S1 : zlen (substring 0 (Z.to_nat max) (q_data q')) = zlen (substring 0 (Z.to_nat max) (q_data q))).
    { unfold zlen. f_equal. clear - D. generalize (Z.to_nat max) as n. revert D. generalize (q_data q) as b. generalize (q_data q') as a.
      induction a as [|x a IH]; intros [|y b] D n; try discriminate D; [reflexivity|]. destruct n; [reflexivity|]. cbn [substring String.length]. f_equal.
      apply IH. now injection D. }
    rewrite S1. destruct (Z.gtb _ max); [now split|]. cbn [negb]. now split.
Qed.

Lemma incoming_alike : forall E fresh q q', q_length q' = q_length q -> String.length (q_data q') = String.length (q_data q) -> q_data_ok q' = q_data_ok q ->
  q_method q' = q_method q -> q_uri q' = q_uri q ->
  (forall k, In k ["X-Request-Id"; "User-Agent"; "Accept-Encoding"] -> values k (q_header q') = values k (q_header q)) ->
  alike (parse_incoming E fresh q) (parse_incoming E fresh q').
Proof.
  intros E fresh q q' L D K M U H. destruct (body_alike (e_max_body E) q q' L D K) as [B1 B2].
  exists (pb_body (parse_body (e_max_body E) q')), (q_header q'). unfold parse_incoming.
  cbn [w_id w_method w_uri w_too_large w_send_gzip w_header]. rewrite M, U, B1, B2. f_equal.
  - unfold create_request_id. rewrite (get_values x_request_id (q_header q) (q_header q')); [reflexivity|]. apply H. now left.
  - rewrite (get_values "Accept-Encoding" (q_header q) (q_header q')); [reflexivity|]. apply H. right. right. now left.
Qed.

Definition judged (E : env) (L : library) (cfg : config jwt) (ch : chance) (q : request) : verdict :=
  match select_route (c_routes cfg) (q_raw_uri q) with
  | None => Valid
  | Some r => if has_jwt r then check_jwt L cfg (ch_now ch) r (get "Authorization" (q_header q)) else Valid
  end.

Definition decision_alike (d d' : decision) : Prop :=
  match d, d' with
  | Refuse st m, Refuse st' m' => st' = st /\ m' = m
  | Attempt c l, Attempt c' l' => conf_alike c c' /\ l' = l
  | Burst, Burst => True
  | _, _ => False
  end.

(** Without the token: both fail, or both come to the token, or no token is looked at. *)
Lemma decide_alike : forall E L nr cfg ch q q', q_length q' = q_length q -> String.length (q_data q') = String.length (q_data q) -> q_data_ok q' = q_data_ok q ->
  q_method q' = q_method q -> q_uri q' = q_uri q -> q_raw_uri q' = q_raw_uri q ->
  (forall k, In k ["X-Request-Id"; "User-Agent"; "Accept-Encoding"] -> values k (q_header q') = values k (q_header q)) ->
  decision_alike (decide E L nr cfg ch q) (decide E L nr cfg ch q') \/
  (exists v v' d, v <> v' /\ (forall st m, d = Refuse st m -> st = 503%Z) /\
    decide E L nr cfg ch q = match v with Crash => Burst | Invalid => Refuse 401 "jwt bearer token missing, invalid, expired or unauthorized" | Valid => d end /\
    exists d', decision_alike d d' /\
    decide E L nr cfg ch q' = match v' with Crash => Burst | Invalid => Refuse 401 "jwt bearer token missing, invalid, expired or unauthorized" | Valid => d' end /\
    values "Authorization" (q_header q') <> values "Authorization" (q_header q)).
Proof.
  intros E L nr cfg ch q q' HL HD HK HM HU HR HH. destruct (incoming_alike E (ch_fresh ch) q q' HL HD HK HM HU HH) as (b & h & W).
  unfold decide. rewrite W, HR. set (w := parse_incoming E (ch_fresh ch) q). clearbody w.
  replace (validate (Dwn _ _ _ b _ _ h _)) with (validate w) by reflexivity. destruct (negb (validate w)).
  { left. cbn [w_too_large]. destruct (w_too_large w); split; reflexivity. }
  destruct (select_route _ _) as [r|]; [|left; split; reflexivity].
  set (v := if has_jwt r then check_jwt L cfg (ch_now ch) r (get "Authorization" (q_header q)) else Valid).
  set (v' := if has_jwt r then check_jwt L cfg (ch_now ch) r (get "Authorization" (q_header q')) else Valid).
  cbn [w_uri w_method].
  set (d := match map_url (ch_label ch) cfg r with MapPanic => Burst | Unmapped => _ | Mapped u label => _ end).
  set (d' := match map_url (ch_label ch) cfg r with MapPanic => Burst | Unmapped => _ | Mapped u label => Attempt (Conf E (Dwn _ _ _ b _ _ h _) _ _ _) _ end).
  assert (DA : decision_alike d d' /\ forall st m, d = Refuse st m -> st = 503%Z).
  { unfold d, d'. destruct (map_url _ _ _).
    all: split; [cbn [decision_alike]; try (split; reflexivity); try exact I|intros st m Q; try discriminate Q; try (injection Q as <- _; reflexivity)].
    split; [|reflexivity]. exists b, h. eexists. split; [reflexivity|]. reflexivity. }
  destruct DA as [DA DR]. clearbody d d'.
  assert (DEC : v = v' \/ v <> v') by (destruct v, v'; try (left; reflexivity); right; discriminate).
  destruct DEC as [EQ|NE].
  - left. rewrite <- EQ. destruct v; cbn [decision_alike]; [exact DA|split; reflexivity|exact I].
  - right. exists v, v', d. split; [exact NE|]. split; [exact DR|]. split; [destruct v; reflexivity|]. exists d'. split; [exact DA|].
    split; [destruct v'; reflexivity|]. intros A. apply NE. unfold v, v'. rewrite (get_values "Authorization" (q_header q) (q_header q')); [reflexivity|exact A].
Qed.

(** * Settings *)

Definition dispatch (t : setting) : target := mux_serve (about_paths (Config.c_routes (t_cfg t))) (t_in t).
Definition decides (t : setting) : decision := decide (t_env t) (t_lib t) (t_new t) (t_cfg t) (t_chance t) (t_req t).

Lemma twins_dispatch : forall t t', twins t t' -> dispatch t' = dispatch t.
Proof.
  intros t t' W. unfold dispatch, mux_serve. rewrite (tw_cfg _ _ W), (tw_path _ _ W).
  change (i_req (t_in t')) with (t_req t'). change (i_req (t_in t)) with (t_req t). now rewrite (tw_raw _ _ W), (tw_method _ _ W).
Qed.

Lemma twins_incoming : forall t t' E fresh, twins t t' -> alike (parse_incoming E fresh (t_req t)) (parse_incoming E fresh (t_req t')).
Proof. intros t t' E fresh []. now apply incoming_alike. Qed.

Lemma twins_agent : forall t t', twins t t' -> user_agent (t_req t') = user_agent (t_req t).
Proof.
  intros t t' W. unfold user_agent. rewrite (get_values "User-Agent" (q_header (t_req t)) (q_header (t_req t'))); [reflexivity|].
  apply (tw_header _ _ W). right. now left.
Qed.

Lemma twins_decides : forall t t', twins t t' -> decision_alike (decides t) (decides t') \/
  (exists v v' d d', v <> v' /\ (forall st m, d = Refuse st m -> st = 503%Z) /\ decision_alike d d' /\
    decides t = match v with Crash => Burst | Invalid => Refuse 401 "jwt bearer token missing, invalid, expired or unauthorized" | Valid => d end /\
    decides t' = match v' with Crash => Burst | Invalid => Refuse 401 "jwt bearer token missing, invalid, expired or unauthorized" | Valid => d' end /\
    ~ same_token t t').
Proof.
  intros t t' W. unfold decides. rewrite (tw_env _ _ W), (tw_lib _ _ W), (tw_new _ _ W), (tw_cfg _ _ W), (tw_chance _ _ W).
  destruct (decide_alike (t_env t) (t_lib t) (t_new t) (t_cfg t) (t_chance t) (t_req t) (t_req t')
    (tw_length _ _ W) (tw_size _ _ W) (tw_whole _ _ W) (tw_method _ _ W) (tw_uri _ _ W) (tw_raw _ _ W) (tw_header _ _ W))
    as [D|(v & v' & d & N & R & D1 & d' & A & D2 & K)]; [now left|]. right. exists v, v', d, d'. repeat (split; [assumption|]). exact K.
Qed.

(** What is logged and answered follows from the decision. *)
Lemma logs_alike : forall t t' x es, twins t t' -> decision_alike (decides t) (decides t') -> logs t x es -> logs t' x es.
Proof.
  intros t t' x es W D L. unfold logs in *. change (mux_serve _ (t_in t)) with (dispatch t) in L. change (mux_serve _ (t_in t')) with (dispatch t').
  rewrite (twins_dispatch t t' W). destruct (dispatch t); try exact L.
  - rewrite L. unfold about_entry, log_entry. rewrite (tw_env _ _ W), (tw_chance _ _ W), (twins_agent t t' W).
    destruct (twins_incoming t t' (t_env t) (ch_fresh (t_chance t)) W) as (b & h & ->). reflexivity.
  - change (decide _ _ _ _ _ (t_req t)) with (decides t) in L. change (decide _ _ _ _ _ (t_req t')) with (decides t').
    destruct (decides t) as [st m|c lab|], (decides t') as [st' m'|c' lab'|]; cbn [decision_alike] in D; try contradiction; [| |exact L].
    + destruct D as [-> ->]. rewrite L. unfold refusal_entry, log_entry. rewrite (tw_env _ _ W), (tw_chance _ _ W), (twins_agent t t' W).
      destruct (twins_incoming t t' (t_env t) (ch_fresh (t_chance t)) W) as (b & h & ->). reflexivity.
    + destruct D as [C ->]. destruct L as (ls & L1 & L2). rewrite (tw_run _ _ W).
      pose proof (lexec_alike c c' lab x (t_req t) (t_req t') (t_run t) linit linit C (twins_agent t t' W)) as T. rewrite L1 in T.
      destruct (lexec c' lab x (t_req t') linit (t_run t)) as [ls'|]; cbn [opt_rel] in T; [|destruct T].
      * exists ls'. split; [reflexivity|]. destruct T as (_ & _ & T); [|congruence].
        split; [exists (s_sent init); reflexivity|split; reflexivity].
      * split; [exists (s_sent init); reflexivity|split; reflexivity].
Qed.

Lemma serve_decides : forall t, dispatch t = TProxy ->
  t_serve t = match decides t with
              | Refuse st m => Answered (send_status (t_env t) (ch_dice (t_chance t)) (parse_incoming (t_env t) (ch_fresh (t_chance t)) (t_req t)) st m)
              | Attempt c _ => Upstream c
              | Burst => Panicked
              end.
Proof. intros t D. unfold t_serve, serve. change (mux_serve _ (t_in t)) with (dispatch t). rewrite D. apply decided. Qed.

Lemma replies_alike : forall t t' r, twins t t' -> decision_alike (decides t) (decides t') -> replies t r -> replies t' r.
Proof.
  intros t t' r W D R. assert (P : dispatch t = TProxy \/ dispatch t <> TProxy) by (destruct (dispatch t); try (now left); right; discriminate).
  destruct P as [P|P].
  - pose proof (serve_decides t P) as S1. assert (P' : dispatch t' = TProxy) by (rewrite (twins_dispatch t t' W); exact P).
    pose proof (serve_decides t' P') as S2. unfold replies, ran in *.
    destruct (decides t) as [st m|c lab|], (decides t') as [st' m'|c' lab'|]; cbn [decision_alike] in D; try contradiction.
    + destruct D as [-> ->]. right. left. rewrite S2, (tw_env _ _ W), (tw_chance _ _ W).
      destruct (twins_incoming t t' (t_env t) (ch_fresh (t_chance t)) W) as (b & h & ->).
      destruct R as [R|[R|(c & s & [R _] & _)]]; try congruence. rewrite <- R, S1. reflexivity.
    + destruct D as [C ->]. destruct R as [R|[R|(c1 & s & [R X] & O)]]; try congruence. assert (c1 = c) by congruence. subst c1.
      pose proof (exec_alike c c' (t_run t) init init C (ex_intro _ (s_sent init) eq_refl)) as T. rewrite X in T.
      destruct (exec c' init (t_run t)) as [s'|] eqn:X'; cbn [opt_rel] in T; [|destruct T]. right. right. exists c', s'.
      rewrite (tw_run _ _ W). split; [split; assumption|]. destruct T as (ys & ->). exact O.
    + destruct R as [R|[R|(c & s & [R _] & _)]]; congruence.
  - assert (F : forall o, t_serve t = o -> (exists r0, o = About r0) \/ (exists g, o = ByLibrary g)).
    { intros o <-. unfold t_serve, serve. change (mux_serve _ (t_in t)) with (dispatch t).
      destruct (dispatch t); try (right; eexists; reflexivity); [left; eexists; reflexivity|contradiction]. }
    destruct R as [R|[R|(c & s & [R _] & _)]].
    + left. rewrite <- R. unfold t_serve, serve. change (mux_serve _ (t_in t)) with (dispatch t). change (mux_serve _ (t_in t')) with (dispatch t').
      rewrite (twins_dispatch t t' W). unfold t_serve, serve in R. change (mux_serve _ (t_in t)) with (dispatch t) in R.
      destruct (dispatch t); try discriminate R; [|contradiction].
      f_equal. unfold about_page. fold (t_req t) (t_req t'). rewrite (tw_env _ _ W), (tw_chance _ _ W).
      rewrite (tw_header _ _ W "Accept-Encoding"); [|right; right; now left].
      destruct (twins_incoming t t' (t_env t) (ch_fresh (t_chance t)) W) as (b & h & ->). reflexivity.
    + destruct (F _ R) as [[r0 G]|[g G]]; discriminate G.
    + destruct (F _ R) as [[r0 G]|[g G]]; discriminate G.
Qed.

Lemma twins_sym : forall t t', twins t t' -> twins t' t.
Proof.
  intros t t' W. destruct W as [? ? ? ? ? ? ? ? ? ? ? ? ? H]. split; try (symmetry; assumption). intros k K. symmetry. exact (H k K).
Qed.

Lemma token_alike : forall t t', twins t t' -> same_token t t' -> decision_alike (decides t) (decides t').
Proof. intros t t' W K. destruct (twins_decides t t' W) as [D|(v & v' & d & d' & _ & _ & _ & _ & _ & N)]; [exact D|]. destruct (N K). Qed.

Lemma same_token_sym : forall t t', same_token t t' -> same_token t' t.
Proof. intros t t' H. symmetry. exact H. Qed.

Lemma same_fate_sym : forall t t', same_fate t t' -> same_fate t' t.
Proof. intros t t' [A B]. split; [now symmetry|]. intros st. symmetry. apply B. Qed.

Lemma kept_lines : forall t t' x es, twins t t' -> same_token t t' -> (logs t x es <-> logs t' x es).
Proof.
  intros t t' x es W K. split; apply logs_alike; try assumption; [now apply token_alike|now apply twins_sym|].
  apply token_alike; [now apply twins_sym|now apply same_token_sym].
Qed.

Lemma kept_replies : forall t t' r, twins t t' -> same_token t t' -> (replies t r <-> replies t' r).
Proof.
  intros t t' r W K. split; apply replies_alike; try assumption; [now apply token_alike|now apply twins_sym|].
  apply token_alike; [now apply twins_sym|now apply same_token_sym].
Qed.

(** * Different tokens *)

Definition silent (t : setting) : Prop := (forall r, ~ replies t r) /\ (forall ys, ~ sends t ys).

Lemma refused_reply : forall t st m, dispatch t = TProxy -> decides t = Refuse st m ->
  (exists r, replies t r /\ rp_status r = st) /\ (forall r, replies t r -> rp_status r = st) /\ (forall ys, ~ sends t ys).
Proof.
  intros t st m P D. pose proof (serve_decides t P) as S1. rewrite D in S1. split; [|split].
  - eexists. split; [right; left; exact S1|reflexivity].
  - intros r [R|[R|(c & s & [R _] & _)]]; try congruence. rewrite S1 in R. injection R as <-. reflexivity.
  - intros ys (c & s & [R _] & _). congruence.
Qed.

Lemma burst_silent : forall t, dispatch t = TProxy -> decides t = Burst -> silent t.
Proof.
  intros t P D. pose proof (serve_decides t P) as S1. rewrite D in S1. split.
  - intros r [R|[R|(c & s & [R _] & _)]]; congruence.
  - intros ys (c & s & [R _] & _). congruence.
Qed.

Lemma not_sent : forall t c lab, dispatch t = TProxy -> decides t = Attempt c lab -> (forall ys, ~ sends t ys) -> silent t.
Proof.
  intros t c lab P D N. pose proof (serve_decides t P) as S1. rewrite D in S1. split; [|exact N].
  intros r [R|[R|(c1 & s & R & _)]]; try congruence. apply (N (s_sent s)). exists c1, s. now split.
Qed.

Lemma quiet_twin : forall t t', same_fate t t' -> silent t -> silent t'.
Proof.
  intros t t' [A B] [R S1]. split.
  - intros r H. destruct (proj2 (B (rp_status r))) as (r0 & H0 & _); [exists r; now split|]. exact (R r0 H0).
  - intros ys H. destruct (proj2 A) as [zs Z]; [now exists ys|]. exact (S1 zs Z).
Qed.

Lemma fated : forall t t', twins t t' -> same_fate t t' -> dispatch t = TProxy ->
  decision_alike (decides t) (decides t') \/ (silent t /\ silent t').
Proof.
  intros t t' W F P. destruct (twins_decides t t' W) as [D|(v & v' & d & d' & N & R & A & D1 & D2 & _)]; [now left|].
  assert (P' : dispatch t' = TProxy) by (rewrite (twins_dispatch t t' W); exact P).
  assert (Q : silent t \/ silent t' -> silent t /\ silent t').
  { intros [Q|Q]; (split; [|]); try exact Q; [exact (quiet_twin t t' F Q)|exact (quiet_twin t' t (same_fate_sym _ _ F) Q)]. }
  destruct F as [F1 F2].
  assert (ONE : forall u u' e, dispatch u = TProxy -> dispatch u' = TProxy ->
    ((exists ys, sends u ys) <-> (exists ys, sends u' ys)) ->
    (forall st, (exists r, replies u r /\ rp_status r = st) <-> (exists r, replies u' r /\ rp_status r = st)) ->
    decides u = Refuse 401 "jwt bearer token missing, invalid, expired or unauthorized" -> decides u' = e ->
    (forall st m, e = Refuse st m -> st = 503%Z) -> False).
  { intros u u' e Pu Pu' G1 G2 U U' E. destruct (refused_reply u _ _ Pu U) as (H1 & _ & H3).
    destruct (proj1 (G2 401%Z) H1) as (r' & R1 & R2).
    destruct e as [st m|c lab|].
    - destruct (refused_reply u' _ _ Pu' U') as (_ & K & _). pose proof (K r' R1). pose proof (E st m eq_refl). lia.
    - assert (Z : silent u') by (apply (not_sent u' c lab Pu' U'); intros ys Y; destruct (proj2 G1) as [zs Z]; [now exists ys|exact (H3 zs Z)]).
      exact (proj1 Z r' R1).
    - exact (proj1 (burst_silent u' Pu' U') r' R1). }
  assert (R' : forall st m, d' = Refuse st m -> st = 503%Z).
  { intros st m E. subst d'. destruct d as [st0 m0|c0 l0|]; cbn [decision_alike] in A; try contradiction. destruct A as [-> ->]. exact (R _ _ eq_refl). }
  destruct v, v'; try (destruct (N eq_refl)).
  - exfalso. apply (ONE t' t d P' P); [now symmetry|intros st; symmetry; apply F2|exact D2|exact D1|exact R].
  - right. apply Q. right. exact (burst_silent t' P' D2).
  - exfalso. exact (ONE t t' d' P P' F1 F2 D1 D2 R').
  - right. apply Q. right. exact (burst_silent t' P' D2).
  - right. apply Q. left. exact (burst_silent t P D1).
  - right. apply Q. left. exact (burst_silent t P D1).
Qed.

Lemma logs_one : forall t x es es', logs t x es -> logs t x es' -> es = es'.
Proof.
  intros t x es es' A B. unfold logs in *. destruct (mux_serve _ _); try congruence. destruct (decide _ _ _ _ _ _); try congruence.
  destruct A as (a & A1 & ->), B as (b & B1 & ->). congruence.
Qed.

Lemma silent_logs : forall t x es, dispatch t = TProxy -> silent t -> logs t x es -> es = [].
Proof.
  intros t x es P [S1 S2] L. pose proof (serve_decides t P) as V. unfold logs in L. change (mux_serve _ (t_in t)) with (dispatch t) in L. rewrite P in L.
  change (decide _ _ _ _ _ (t_req t)) with (decides t) in L. destruct (decides t) as [st m|c lab|].
  - exfalso. eapply S1. right. left. exact V.
  - exfalso. destruct L as (ls & L & _). apply lexec_exec in L. apply (S2 (s_sent (ls_state ls))). exists c, (ls_state ls). split; [split; [exact V|exact L]|reflexivity].
  - exact L.
Qed.

Lemma not_proxied_alike : forall t t', twins t t' -> dispatch t <> TProxy -> forall x es, logs t x es -> logs t' x es.
Proof.
  intros t t' W P x es L. unfold logs in *. change (mux_serve _ (t_in t)) with (dispatch t) in L. change (mux_serve _ (t_in t')) with (dispatch t').
  rewrite (twins_dispatch t t' W). destruct (dispatch t); try exact L; [|contradiction].
  rewrite L. unfold about_entry, log_entry. rewrite (tw_env _ _ W), (tw_chance _ _ W), (twins_agent t t' W).
  destruct (twins_incoming t t' (t_env t) (ch_fresh (t_chance t)) W) as (b & h & ->). reflexivity.
Qed.

Lemma token_lines : forall t t' x es es', twins t t' -> same_fate t t' -> logs t x es -> logs t' x es' -> es = es'.
Proof.
  intros t t' x es es' W F L L'. assert (P : dispatch t = TProxy \/ dispatch t <> TProxy) by (destruct (dispatch t); try (now left); right; discriminate).
  destruct P as [P|P]; [|exact (logs_one t' x es es' (not_proxied_alike t t' W P x es L) L')].
  destruct (fated t t' W F P) as [D|[Q Q']]; [exact (logs_one t' x es es' (logs_alike t t' x es W D L) L')|].
  rewrite (silent_logs t x es P Q L). symmetry. apply (silent_logs t' x es'); [|exact Q'|exact L']. rewrite (twins_dispatch t t' W). exact P.
Qed.

Lemma silent_twin : forall t t', twins t t' -> dispatch t <> TProxy -> forall r, replies t r -> replies t' r.
Proof.
  intros t t' W P r R. assert (X : t_serve t = match dispatch t with TAbout => About (about_page (t_env t) (ch_dice (t_chance t)) (ch_fresh (t_chance t)) (t_req t)) | g => ByLibrary g end).
  { unfold t_serve, serve. change (mux_serve _ (t_in t)) with (dispatch t). destruct (dispatch t); try reflexivity. now destruct P. }
  unfold replies, ran in R. rewrite X in R. destruct (dispatch t) as [| | | |] eqn:D; try (destruct R as [R|[R|(c & s & [R _] & _)]]; discriminate R).
  destruct R as [R|[R|(c & s & [R _] & _)]]; try discriminate R. injection R as <-. left. unfold t_serve, serve.
  change (mux_serve _ (t_in t')) with (dispatch t'). rewrite (twins_dispatch t t' W), D. f_equal. unfold about_page. fold (t_req t').
  rewrite (tw_env _ _ W), (tw_chance _ _ W). rewrite (tw_header _ _ W "Accept-Encoding"); [|right; right; now left].
  destruct (twins_incoming t t' (t_env t) (ch_fresh (t_chance t)) W) as (b & h & ->). reflexivity.
Qed.

Lemma token_reply : forall t t' r, twins t t' -> same_fate t t' -> replies t r -> replies t' r.
Proof.
  intros t t' r W F R. assert (P : dispatch t = TProxy \/ dispatch t <> TProxy) by (destruct (dispatch t); try (now left); right; discriminate).
  destruct P as [P|P]; [|exact (silent_twin t t' W P r R)].
  destruct (fated t t' W F P) as [D|[Q _]]; [exact (replies_alike t t' r W D R)|destruct (proj1 Q r R)].
Qed.

Lemma token_replies : forall t t' r, twins t t' -> same_fate t t' -> (replies t r <-> replies t' r).
Proof. intros t t' r W F. split; apply token_reply; try assumption; [now apply twins_sym|now apply same_fate_sym]. Qed.

(** * Cases *)

(** A visit to "/admin" with a token, a cookie and a body *)
Definition secret_visit (token cookie body : string) : setting :=
  Setting toy lib always live chance0
    (Incoming (Req "PUT" "/admin" "/admin" [("Authorization", "Bearer " ++ token); ("Cookie", cookie); ("X-Request-Id", "mine")] 3 body true) "/admin")
    (MachineRaces.answer created "ok" ++ repeat (LMain 0) 16)%list.

Lemma secret_twins : forall k c b k' c' b', String.length b = 3 -> String.length b' = 3 -> twins (secret_visit k c b) (secret_visit k' c' b').
Proof.
  intros k c b k' c' b' B B'. split; try reflexivity; [cbn [secret_visit t_req t_in i_req q_data]; congruence|].
  intros x [<-|[<-|[<-|[]]]]; reflexivity.
Qed.

Lemma statuses_of : forall t c sts, t_serve t = Upstream c -> option_map (fun s => map rp_status (s_out s)) (exec c init (t_run t)) = Some sts ->
  (exists ys, sends t ys) /\ forall st, (exists r, replies t r /\ rp_status r = st) <-> In st sts.
Proof.
  intros t c sts V X. destruct (exec c init (t_run t)) as [s|] eqn:E; [|discriminate X]. cbn [option_map] in X. injection X as <-. split.
  - exists (s_sent s), c, s. split; [split; assumption|reflexivity].
  - intros st. rewrite in_map_iff. split.
    + intros (r & [R|[R|(c1 & s1 & [R1 R2] & O)]] & <-); try congruence. assert (c1 = c) by congruence. subst c1.
      assert (s1 = s) by congruence. subst s1. now exists r.
    + intros (r & <- & O). exists r. split; [|reflexivity]. right. right. exists c, s. split; [split; assumption|exact O].
Qed.

Lemma fate_of : forall t t' c c' sts, t_serve t = Upstream c -> option_map (fun s => map rp_status (s_out s)) (exec c init (t_run t)) = Some sts ->
  t_serve t' = Upstream c' -> option_map (fun s => map rp_status (s_out s)) (exec c' init (t_run t')) = Some sts -> same_fate t t'.
Proof.
  intros t t' c c' sts V X V' X'. destruct (statuses_of t c sts V X) as [A B]. destruct (statuses_of t' c' sts V' X') as [A' B'].
  split; [split; intros _; assumption|]. intros st. rewrite B, B'. reflexivity.
Qed.

Lemma secret_fate : same_fate (secret_visit "old" "id=1" "xyz") (secret_visit JwtCases.old_k9 "id=2" "uvw").
Proof.
  apply (fate_of _ _ (conf_of (secret_visit "old" "id=1" "xyz")) (conf_of (secret_visit JwtCases.old_k9 "id=2" "uvw")) [201%Z]); vm_compute; reflexivity.
Qed.

Lemma secret_line : forall k, k = "old" \/ k = JwtCases.old_k9 -> exists e, logs (secret_visit k "id=1" "xyz") from_home [e] /\ l_status e = 201%Z /\ l_up e <> None.
Proof.
  intros k K. destruct (one_line _ (secret_visit k "id=1" "xyz") from_home (fun e => (l_status e, match l_up e with Some _ => true | None => false end)) (201%Z, true))
    as (e & H1 & H2).
  - destruct K as [->| ->]; vm_compute; reflexivity.
  - exists e. split; [exact H1|]. injection H2 as H2 H3. split; [exact H2|]. intros N. rewrite N in H3. discriminate H3.
Qed.

(** The query is in the line although the path logged is without it. *)
Definition query_visit : setting :=
  Setting toy lib always live chance0 (ask "GET" "/mse6/x?password=hunter2" "/mse6/x" []) (MachineRaces.answer created "ok" ++ repeat (LMain 0) 16)%list.

Lemma query_logged : exists t x e u a b, logs t x [e] /\ q_uri (t_req t) = "/mse6/x?password=hunter2" /\ x_path x = "/mse6/x" /\
  l_warn e = false /\ l_path e = "/mse6/x" /\ l_up e = Some u /\ ue_uri u = a ++ "password=hunter2" ++ b.
Proof.
  destruct (one_line _ query_visit from_home (fun e => (l_warn e, l_path e, l_up e))
    (false, "/mse6/x", Some (UpEntry "http://localhost:60083/x?password=hunter2" "default" 201 false "1/4"))) as (e & H1 & H2); [vm_compute; reflexivity|].
  injection H2 as H2 H3 H4. exists query_visit, from_home, e. eexists. exists "http://localhost:60083/x?", "".
  split; [exact H1|]. split; [reflexivity|]. split; [reflexivity|]. split; [exact H2|]. split; [exact H3|]. split; [exact H4|reflexivity].
Qed.
