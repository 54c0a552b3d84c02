(** Proofs for Thm_TraceLog: servers, attempts and what lines give away. *)
From Coq Require Import String Ascii List Bool ZArith NArith Lia.
From Verif Require Import GoStr Header HeaderSpec Kid KidSpec KidProofs Policy Config ConfigSpec Routing Exchange ExchangeSpec ExchangeProofs
  Jwt JwtSpec JwtProofs JwtKeys JwtRefresh Machine MachineSpec MachineProofs Handler HandlerSpec HandlerProofs SystemSpec SystemProofs
  AccessLog PrivacySpec PrivacyProofs TraceLog TraceLogSpec TraceLogProofs.
Import ListNotations.
Local Open Scope string_scope.

(** * Servers *)

Lemma first_labelled_spec : forall label ms u, first_labelled label ms = Some u ->
  exists a m b, ms = (a ++ m :: b)%list /\ u = rm_url m /\ In label (rm_labels m) /\ forall m', In m' a -> ~ In label (rm_labels m').
Proof.
  intros label ms u. induction ms as [|m ms IH]; cbn [first_labelled]; [discriminate|]. destruct (mem_str label (rm_labels m)) eqn:M; intros H.
  - injection H as <-. exists [], m, ms. split; [reflexivity|]. split; [reflexivity|]. split; [now apply mem_str_In|intros m' []].
  - destruct (IH H) as (a & m1 & b & -> & U & L & N). exists (m :: a), m1, b. split; [reflexivity|]. split; [exact U|]. split; [exact L|].
    intros m' [<-|I1]; [|exact (N _ I1)]. intros X. apply mem_str_In in X. congruence.
Qed.

Lemma map_lines_told : forall t r u label, map_url (ch_label (t_chance t)) (t_cfg t) r = Mapped u label ->
  exists e, map_lines (ch_label (t_chance t)) (t_cfg t) r = [e] /\ server_told t r e u.
Proof.
  intros t r u label H. unfold map_url in H. unfold map_lines. destruct (lookup (r_resource r) _) as [[ms|]|] eqn:L; try discriminate H.
  destruct (String.eqb_spec (r_policy r) "") as [P|P]; cbn [negb] in *.
  - destruct ms as [|m ms]; [discriminate H|]. injection H as <- <-. eexists. split; [reflexivity|]. now apply (st_default t r m ms).
  - cbv zeta in *. destruct (first_labelled _ ms) as [u0|] eqn:F; [|discriminate H]. injection H as <- <-. eexists. split; [reflexivity|].
    destruct (first_labelled_spec _ _ _ F) as (a & m & b & -> & -> & I1 & N). exact (st_policy t r a m b _ P L eq_refl I1 N).
Qed.

Lemma traced_server : forall t x ls y, traces t x ls -> asks t y -> sized (t_req t) ->
  exists r e u a b, routed t r /\ server_told t r e u /\ events ls = (a ++ e :: b)%list /\ (forall e', In e' (a ++ b)%list -> ~ of_server e') /\
    exists rest, uq_uri y = base_url u ++ rest.
Proof.
  intros t x ls y H A Hq. destruct (asks_inv t y A Hq) as (c & s & Hr & ->). pose proof Hr as Hr0.
  destruct (ran_inv t c s Hr Hq) as (Hp & So & r & u & label & Sel & Mp & C). cbv zeta in C.
  assert (Rt : routed t r) by (split; [exact Hp|split; [exact So|exact Sel]]).
  destruct (map_lines_told t r u label Mp) as (e & M1 & M2).
  destruct (traced_split t x ls H) as [[N _]|[[M _]|[_ E]]].
  { destruct N. eexists. split; [reflexivity|right; exact Hp]. }
  { unfold proxied_request in Hp. rewrite M in Hp. discriminate Hp. }
  assert (V : (if has_jwt r then check_jwt (t_lib t) (t_cfg t) (ch_now (t_chance t)) r (auth_text t) else Valid) = Valid).
  { destruct Hr as [Hs _]. unfold t_serve in Hs. pose proof (serve_sound (t_env t) (t_lib t) (t_new t) (t_cfg t) (t_chance t) (t_in t) Hp So) as S1. cbv zeta in S1.
    rewrite S1 in Hs. change (q_raw_uri (i_req (t_in t))) with (q_raw_uri (t_req t)) in Hs. rewrite Sel in Hs. change (get "Authorization" (q_header (i_req (t_in t)))) with (auth_text t) in Hs.
    destruct (if has_jwt r then _ else _); [reflexivity|discriminate Hs|discriminate Hs]. }
  rewrite E, (later_routed t x r Rt), V, M1.
  set (jl := if has_jwt r then jwt_lines _ _ _ _ _ _ else []). assert (J : forall e', In e' jl -> of_token e').
  { intros e'. unfold jl. destruct (has_jwt r); [apply jwt_lines_kind|intros []]. } clearbody jl.
  exists r, e, u, (incoming_lines (t_env t) x (ch_fresh (t_chance t)) (t_req t) ++ jl)%list, (run_uris t x).
  split; [exact Rt|]. split; [exact M2|]. split; [rewrite <- !app_assoc; reflexivity|]. split.
  - intros e' I1 K. apply in_app_iff in I1. destruct I1 as [I1|I1].
    + apply in_app_iff in I1. destruct I1 as [[<-|[<-|[]]]|I1]; try exact K. apply J in I1. destruct e'; contradiction.
    + destruct (run_kind _ _ _ I1) as (v & ->). exact K.
  - rewrite C. unfold scaffold_request, resolve_upstream_uri. cbn [c_request uq_uri]. unfold base_url, url_string.
    destruct (String.eqb (r_transform r) ""); [eexists; reflexivity|]. eexists. reflexivity.
Qed.

Lemma traced_server_line : forall t x ls e, traces t x ls -> sized (t_req t) -> In e (events ls) -> of_server e ->
  exists r, routed t r /\ In e (map_lines (ch_label (t_chance t)) (t_cfg t) r) /\
    (if has_jwt r then check_jwt (t_lib t) (t_cfg t) (ch_now (t_chance t)) r (auth_text t) else Valid) = Valid.
Proof.
  intros t x ls e H Hq He K. destruct (traced_split t x ls H) as [[_ E]|[[_ E]|[Hp E]]]; rewrite E in He; [destruct He| |].
  - destruct He as [<-|[<-|[]]]; destruct K.
  - apply in_app_iff in He. destruct He as [[<-|[<-|[]]]|He]; try (now destruct K). apply in_app_iff in He. destruct He as [He|He].
    2: { destruct (run_kind _ _ _ He) as (u & ->). destruct K. }
    unfold later_lines in He. destruct (validate (parse_incoming (t_env t) (ch_fresh (t_chance t)) (t_req t))) eqn:V; cbn [negb] in He; [|destruct He].
    apply validate_iff in V; [|exact Hq]. destruct (select_route _ _) as [r|] eqn:Sel; [|destruct He]. cbv zeta in He.
    exists r. split; [split; [exact Hp|split; [exact V|exact Sel]]|]. apply in_app_iff in He. destruct He as [He|He].
    + destruct (has_jwt r); [|destruct He]. apply jwt_lines_kind in He. destruct e; contradiction.
    + fold (auth_text t) in He. destruct (if has_jwt r then _ else _); try destruct He. split; [exact He|reflexivity].
Qed.

Lemma unmapped_line : forall t r, In (TUnmapped (r_path r)) (map_lines (ch_label (t_chance t)) (t_cfg t) r) <->
  map_url (ch_label (t_chance t)) (t_cfg t) r = Unmapped /\ has_resource t r.
Proof.
  intros t r. unfold map_lines, map_url, has_resource. destruct (lookup (r_resource r) _) as [[ms|]|].
  2,3: split; [intros []|intros [_ (ms & D)]; discriminate D].
  destruct (negb _); cbv zeta.
  - destruct (first_labelled _ ms); [split; [intros [D|[]]; discriminate D|intros [D _]; discriminate D]|].
    split; [intros _; split; [reflexivity|eexists; reflexivity]|intros _; left; reflexivity].
  - destruct ms; [split; [intros []|intros [D _]; discriminate D]|split; [intros [D|[]]; discriminate D|intros [D _]; discriminate D]].
Qed.

Lemma routed_503 : forall t r, routed t r ->
  (answered_with t 503 <-> (if has_jwt r then check_jwt (t_lib t) (t_cfg t) (ch_now (t_chance t)) r (auth_text t) else Valid) = Valid /\
   map_url (ch_label (t_chance t)) (t_cfg t) r = Unmapped).
Proof.
  intros t r (Hp & So & Sel). unfold answered_with, t_serve.
  pose proof (serve_sound (t_env t) (t_lib t) (t_new t) (t_cfg t) (t_chance t) (t_in t) Hp So) as V. cbv zeta in V. rewrite V. clear V.
  change (q_raw_uri (i_req (t_in t))) with (q_raw_uri (t_req t)). rewrite Sel. change (get "Authorization" (q_header (i_req (t_in t)))) with (auth_text t).
  destruct (if has_jwt r then _ else _).
  - destruct (map_url _ _ _).
    + split; [intros (rs & D & _); discriminate D|intros [_ D]; discriminate D].
    + split; [intros _; split; reflexivity|]. intros _. eexists. split; reflexivity.
    + split; [intros (rs & D & _); discriminate D|intros [_ D]; discriminate D].
  - split; [|intros [D _]; discriminate D]. intros (rs & R1 & R2). injection R1 as <-. discriminate R2.
  - split; [|intros [D _]; discriminate D]. intros (rs & R1 & R2). discriminate R1.
Qed.

Lemma traced_unmapped : forall t x ls r, traces t x ls -> routed t r ->
  (In (TUnmapped (r_path r)) (events ls) <-> answered_with t 503 /\ has_resource t r).
Proof.
  intros t x ls r H Hr. assert (Hq : sized (t_req t)) by exact (proj1 (proj1 (proj2 Hr))). split.
  - intros He. destruct (traced_server_line t x ls _ H Hq He I) as (r' & Hr' & I1 & V).
    assert (r' = r) by exact (routed_one _ _ _ Hr' Hr). subst r'. apply unmapped_line in I1. destruct I1 as [I1 I2]. split; [|exact I2].
    apply (routed_503 t r Hr). split; assumption.
  - intros [A B]. apply (routed_503 t r Hr) in A. destruct A as [V M]. destruct (traced_split t x ls H) as [[N _]|[[M0 _]|[_ E]]].
    + destruct N. eexists. split; [reflexivity|right; exact (proj1 Hr)].
    + destruct Hr as [Hp _]. unfold proxied_request in Hp. rewrite M0 in Hp. discriminate Hp.
    + rewrite E, (later_routed t x r Hr), V. apply in_app_iff. right. apply in_app_iff. left. apply in_app_iff. right. apply unmapped_line. split; assumption.
Qed.

(** * Attempts *)

Lemma step_sent : forall c s l s', step c s l = Some s' ->
  ((exists d, l = LMain d) /\ s_pc s = PStart /\
     ((c_ok c = true /\ s_sent s' = (s_sent s ++ [c_request c])%list) \/ (c_ok c = false /\ s_sent s' = s_sent s /\ s_pc s' = PPanic))) \/
  (~ ((exists d, l = LMain d) /\ s_pc s = PStart) /\ s_sent s' = s_sent s).
Proof.
  intros c s l s' H. destruct s as [m n dw fl p sent out]. cbn [s_pc s_sent].
  assert (G : (exists d, l = LMain d) /\ p = PStart \/ ~ ((exists d, l = LMain d) /\ p = PStart)).
  { destruct l; try (right; intros [[d D] _]; discriminate D). destruct p; try (right; intros [_ D]; discriminate D). left. split; [eexists|]; reflexivity. }
  destruct G as [[[d ->] ->]|G].
  - left. split; [eexists; reflexivity|]. split; [reflexivity|]. cbn [step] in H. unfold main_step in H. cbn [s_pc] in H.
    destruct (c_ok c); injection H as <-; [left; split; reflexivity|right; split; [reflexivity|split; reflexivity]].
  - right. split; [exact G|]. step_cases H; cbn [s_sent s_pc go write check_dwn check_up with_s_flag at_cur with_atts abort_all] in *; try reflexivity;
      exfalso; apply G; (split; [eexists; reflexivity|assumption]).
Qed.

Lemma uris_ok : forall c x run s s', c_ok c = true -> exec c s run = Some s' ->
  exists ys, s_sent s' = (s_sent s ++ ys)%list /\ attempt_uris c x s run = map (fun y => TUri (x_path x) (uq_uri y)) ys.
Proof.
  intros c x run. induction run as [|l run IH]; intros s s' Ok H; cbn [exec attempt_uris] in *.
  - injection H as <-. exists []. split; [now rewrite app_nil_r|reflexivity].
  - destruct (step c s l) as [s1|] eqn:St; [|discriminate H]. destruct (IH s1 s' Ok H) as (ys & S1 & A1). rewrite S1, A1.
    destruct (step_sent c s l s1 St) as [((d & ->) & P & [[_ Q]|[F _]])|(N & Q)]; [|congruence|].
    + rewrite P, Q. exists (c_request c :: ys). split; [now rewrite <- app_assoc|reflexivity].
    + rewrite Q. exists ys. split; [reflexivity|]. destruct l; try reflexivity. destruct (s_pc s); try reflexivity. destruct N. split; [eexists|]; reflexivity.
Qed.

(** Without a request the handler panics at once. *)
Lemma step_panic : forall c s l s', step c s l = Some s' -> s_pc s = PPanic \/ (s_pc s = PStart /\ forall d, l <> LMain d) -> s_pc s' = s_pc s.
Proof.
  intros c s l s' H P. destruct s as [m n dw fl p sent out]. cbn [s_pc] in *. destruct P as [->|[-> N]].
  - destruct l; cbn [step] in H; unfold main_step, sel_step, goroutine_step in H; cbn [s_pc] in H; break H; try discriminate H; injection H as <-; try reflexivity;
      destruct (is_gzip _); reflexivity.
  - destruct l; [destruct (N dice eq_refl)|..]; cbn [step] in H; unfold main_step, sel_step, goroutine_step in H; cbn [s_pc] in H; break H; try discriminate H; injection H as <-; try reflexivity;
      destruct (is_gzip _); reflexivity.
Qed.

Lemma uris_dead : forall c x run s s', s_pc s = PPanic -> exec c s run = Some s' -> attempt_uris c x s run = [] /\ s_sent s' = s_sent s.
Proof.
  intros c x run. induction run as [|l run IH]; intros s s' P H; cbn [exec attempt_uris] in *; [injection H as <-; split; reflexivity|].
  destruct (step c s l) as [s1|] eqn:St; [|discriminate H]. pose proof (step_panic c s l s1 St (or_introl P)) as P1. rewrite P in P1.
  destruct (IH s1 s' P1 H) as [A1 B1]. rewrite A1, B1, P. destruct (step_sent c s l s1 St) as [(_ & P2 & _)|(_ & Q)]; [congruence|].
  split; [destruct l; reflexivity|exact Q].
Qed.

Lemma uris_bad : forall c x run s s', c_ok c = false -> s_pc s = PStart -> exec c s run = Some s' ->
  (attempt_uris c x s run = [] \/ attempt_uris c x s run = [TUri (x_path x) (uq_uri (c_request c))] /\ s_pc s' = PPanic) /\ s_sent s' = s_sent s.
Proof.
  intros c x run. induction run as [|l run IH]; intros s s' Ok P H; cbn [exec attempt_uris] in *; [injection H as <-; split; [now left|reflexivity]|].
  destruct (step c s l) as [s1|] eqn:St; [|discriminate H].
  destruct (step_sent c s l s1 St) as [((d & ->) & _ & [[F _]|(_ & Q & P1)])|(N & Q)]; [congruence| |].
  - rewrite P. destruct (uris_dead c x run s1 s' P1 H) as [A1 B1]. rewrite A1, B1. split; [|exact Q]. right. split; [reflexivity|].
    clear - P1 H. revert s1 P1 H. induction run as [|l run IH]; intros s1 P1 H; cbn [exec] in H; [injection H as <-; exact P1|].
    destruct (step c s1 l) as [s2|] eqn:St; [|discriminate H]. apply (IH s2); [|exact H]. rewrite <- P1. exact (step_panic c s1 l s2 St (or_introl P1)).
  - assert (N2 : forall d, l <> LMain d) by (intros d ->; apply N; split; [eexists; reflexivity|exact P]).
    pose proof (step_panic c s l s1 St (or_intror (conj P N2))) as P1. rewrite P in P1. destruct (IH s1 s' Ok P1 H) as [A1 B1].
    split; [|congruence]. destruct l; try exact A1. destruct (N2 dice eq_refl).
Qed.

Lemma uris_app : forall a b, uris (a ++ b) = (uris a ++ uris b)%list.
Proof. intros a b. unfold uris. apply filter_app. Qed.

Lemma uris_none : forall es, (forall e, In e es -> forall p u, e <> TUri p u) -> uris es = [].
Proof.
  intros es. unfold uris. induction es as [|e es IH]; intros H; [reflexivity|]. cbn [filter]. destruct e; try (apply IH; intros e0 I0; apply H; now right).
  destruct (H _ (or_introl eq_refl) path uri eq_refl).
Qed.

Lemma uris_all : forall es, (forall e, In e es -> exists p u, e = TUri p u) -> uris es = es.
Proof.
  intros es. unfold uris. induction es as [|e es IH]; intros H; [reflexivity|]. cbn [filter]. destruct (H e (or_introl eq_refl)) as (p & u & ->).
  f_equal. apply IH. intros e0 I0. apply H. now right.
Qed.

Lemma traced_uris_run : forall t x ls, traces t x ls -> uris (events ls) = run_uris t x.
Proof.
  intros t x ls H. assert (Rn : ~ proxied_request (t_cfg t) (t_in t) -> run_uris t x = []).
  { intros N. unfold run_uris, t_serve, serve. unfold proxied_request in N. destruct (mux_serve _ _); try reflexivity. destruct (N eq_refl). }
  destruct (traced_split t x ls H) as [[N E]|[[M E]|[Hp E]]]; rewrite E.
  - rewrite Rn; [reflexivity|]. intros Hp. apply N. eexists. split; [reflexivity|right; exact Hp].
  - rewrite Rn; [reflexivity|]. unfold proxied_request. rewrite M. discriminate.
  - rewrite !uris_app. rewrite (uris_none (incoming_lines _ _ _ _)), (uris_none (later_lines t x)).
    + cbn [app]. apply uris_all. intros e I1. destruct (run_kind _ _ _ I1) as (u & ->). eexists. eexists. reflexivity.
    + intros e I1 p u ->. destruct (later_kind _ _ _ I1) as [[]|[]].
    + intros e [<-|[<-|[]]]; discriminate.
Qed.

Lemma traced_uris : forall t x ls ys, traces t x ls -> sends t ys ->
  uris (events ls) = map (fun y => TUri (x_path x) (uq_uri y)) ys \/
  (ys = [] /\ exists c s, ran t c s /\ t_new t (uq_method (c_request c)) (uq_uri (c_request c)) = false /\ s_pc s = PPanic /\
    uris (events ls) = [TUri (x_path x) (uq_uri (c_request c))]).
Proof.
  intros t x ls ys H (c & s & Hr & <-). rewrite (traced_uris_run t x ls H). unfold run_uris. rewrite (proj1 Hr). destruct Hr as [Hs He].
  destruct (c_ok c) eqn:Ok.
  - destruct (uris_ok c x (t_run t) init s Ok He) as (ys & S1 & A1). rewrite A1, S1. now left.
  - destruct (uris_bad c x (t_run t) init s Ok eq_refl He) as [[A|[A P]] S1]; rewrite A, S1; [now left|]. right. split; [reflexivity|].
    exists c, s. split; [split; assumption|]. split; [|split; [exact P|reflexivity]].
    unfold t_serve, serve in Hs. destruct (mux_serve _ _); try discriminate Hs. unfold proxy_handler in Hs. cbv zeta in Hs.
    destruct (negb (validate _)); [destruct (w_too_large _); discriminate Hs|]. destruct (select_route _ _); [|discriminate Hs].
    destruct (if has_jwt r then _ else _); try discriminate Hs. destruct (map_url _ _ _); try discriminate Hs. injection Hs as <-. exact Ok.
Qed.

(** * What lines give away *)

Lemma body_size_alike : forall max q q', q_length q' = q_length q -> String.length (q_data q') = String.length (q_data q) -> q_data_ok q' = q_data_ok q ->
  zlen (pb_body (parse_body max q')) = zlen (pb_body (parse_body max q)) /\ body_line max q' = body_line max q.
Proof.
  intros max q q' L D K. unfold parse_body, body_line, read_limited. assert (Z : zlen (q_data q') = zlen (q_data q)) by (unfold zlen; now rewrite D).
  rewrite L, K, Z. destruct (Z.eqb _ 0); [now split|]. destruct (Z.geb _ max); [now split|].
  destruct (Z.leb (zlen (q_data q)) max) eqn:F.
  - rewrite Z. destruct (Z.gtb _ max); [now split|]. destruct (negb _); split; try reflexivity. cbn [pb_body]. exact Z.
  - assert (S1 : zlen (substring 0 (Z.to_nat max) (q_data q')) = zlen (substring 0 (Z.to_nat max) (q_data q))).
    { unfold zlen. f_equal. clear - D. generalize (Z.to_nat max) as n. revert D. generalize (q_data q) as b. generalize (q_data q') as a.
      induction a as [|x a IH]; intros [|y b] D n; try discriminate D; [reflexivity|]. destruct n; [reflexivity|]. cbn [substring String.length]. f_equal.
      apply IH. now injection D. }
    rewrite S1. destruct (Z.gtb _ max); [now split|]. cbn [negb]. now split.
Qed.

Lemma incoming_lines_alike : forall t t' x, twins t t' ->
  incoming_lines (t_env t') x (ch_fresh (t_chance t')) (t_req t') = incoming_lines (t_env t) x (ch_fresh (t_chance t)) (t_req t).
Proof.
  intros t t' x W. rewrite (tw_env _ _ W), (tw_chance _ _ W). unfold incoming_lines.
  destruct (body_size_alike (e_max_body (t_env t)) (t_req t) (t_req t') (tw_length _ _ W) (tw_size _ _ W) (tw_whole _ _ W)) as [B1 B2].
  cbn [parse_incoming w_method w_body]. now rewrite B1, B2, (tw_method _ _ W).
Qed.

(** Tokens that look alike to jwx are treated alike, lines included. *)
Lemma alike_kid : forall L a b, alike_tokens L a b -> extract_kid b = extract_kid a.
Proof.
  intros L a b (_ & _ & _ & K). destruct (String.eqb_spec (extract_kid a) "") as [E|E].
  - rewrite E. apply no_kid. intros k Hk N. apply (K k Hk) in N. pose proof (proj2 (no_kid a) E) as X. exact (X k Hk N).
  - apply kid_iff; [exact E|]. apply (K _ E). now apply kid_iff.
Qed.

Lemma try_keys_alike : forall L a b alg ks r, alike_tokens L a b -> try_keys L alg b ks r = try_keys L alg a ks r.
Proof.
  intros L a b alg ks r T. pose proof T as (_ & _ & V & _). revert r. induction ks as [|[kid k] ks IH]; intros r; cbn [try_keys]; [reflexivity|].
  rewrite V. destruct (lib_verify L alg k a); [reflexivity|apply IH].
Qed.

Lemma signature_alike : forall L a b ks alg, alike_tokens L a b -> verify_signature L b ks alg = verify_signature L a ks alg.
Proof.
  intros L a b ks alg T. pose proof T as (S1 & _ & V & _). pose proof (alike_kid L a b T) as K. unfold verify_signature. rewrite S1. destruct (lib_signatures L a) as [[|n]|]; try reflexivity.
  cbv zeta. rewrite K. destruct (if String.eqb (extract_kid a) "" then None else find_key ks (extract_kid a)) as [k|].
  - rewrite V. destruct (lib_verify L alg k a); rewrite (try_keys_alike L a b alg ks _ T); reflexivity.
  - rewrite (try_keys_alike L a b alg ks _ T). reflexivity.
Qed.

Lemma parse_log_alike : forall L a b j, alike_tokens L a b -> parse_token_log L j b = parse_token_log L j a.
Proof.
  intros L a b j T. pose proof T as (S1 & P & _ & _). unfold parse_token_log, verify_signature_log. cbv zeta.
  rewrite S1, P, (signature_alike L a b _ _ T), (alike_kid L a b T). reflexivity.
Qed.

Lemma ruled_alike : forall L now a b j, alike_tokens L a b -> ruled L now j b = ruled L now j a.
Proof.
  intros L now a b j T. pose proof T as (_ & P & _ & _). unfold ruled. rewrite (parse_log_alike L a b j T), P. reflexivity.
Qed.

Lemma no_token_split : forall auth, (forall token, ~ bearer auth token) -> match split " " auth with _ :: _ :: _ => False | _ => True end.
Proof.
  intros auth N. destruct (split " " auth) as [|s [|token rest]] eqn:Hs; try exact I. exact (N token (split_bearer _ _ _ _ Hs)).
Qed.

Lemma jwt_lines_alike : forall L now r j path a a', (forall token, ~ bearer a token) /\ (forall token, ~ bearer a' token) \/
    (exists k k', bearer a k /\ bearer a' k' /\ alike_tokens L k k') ->
  jwt_lines L now r j path a' = jwt_lines L now r j path a.
Proof.
  intros L now r j path a a' [[N N']|(k & k' & B & B' & T)].
  - apply no_token_split in N. apply no_token_split in N'. unfold jwt_lines. destruct (split " " a) as [|? [|? ?]], (split " " a') as [|? [|? ?]]; try contradiction; reflexivity.
  - destruct (bearer_split _ _ B) as (s & rest & Hs). destruct (bearer_split _ _ B') as (s' & rest' & Hs').
    destruct j as [j|]; [|unfold jwt_lines; now rewrite Hs, Hs'].
    rewrite (jwt_lines_eq _ _ _ _ _ _ _ _ _ Hs), (jwt_lines_eq _ _ _ _ _ _ _ _ _ Hs'), (parse_log_alike L k k' j T), (ruled_alike L now k k' j T).
    destruct (parse_token_log L j k) as [[[[p e] kd] ro]|]; [|reflexivity]. assert (C : told_cause L now j k' p e = told_cause L now j k p e).
    { unfold told_cause. destruct T as (_ & P & _ & _). now rewrite P. }
    rewrite C. reflexivity.
Qed.

Lemma check_alike : forall L cfg now r a a', (forall token, ~ bearer a token) /\ (forall token, ~ bearer a' token) \/
    (exists k k', bearer a k /\ bearer a' k' /\ alike_tokens L k k') ->
  check_jwt L cfg now r a' = check_jwt L cfg now r a.
Proof.
  intros L cfg now r a a' [[N N']|(k & k' & B & B' & T)].
  - assert (V : forall j, fst (validate_jwt L now j a') = fst (validate_jwt L now j a)) by (intros j; rewrite !no_bearer by assumption; reflexivity).
    apply no_token_split in N. apply no_token_split in N'. unfold check_jwt. destruct (lookup _ _) as [[j|]|]; [apply V|..];
    destruct (split " " a) as [|? [|? ?]], (split " " a') as [|? [|? ?]]; try contradiction; reflexivity.
  - destruct (bearer_split _ _ B) as (s & rest & Hs). destruct (bearer_split _ _ B') as (s' & rest' & Hs'). unfold check_jwt.
    destruct (lookup _ _) as [[j|]|]; [|now rewrite Hs, Hs'|now rewrite Hs, Hs'].
    rewrite (validate_ruled _ _ _ _ _ _ _ Hs), (validate_ruled _ _ _ _ _ _ _ Hs'). apply (ruled_alike L now k k' j T).
Qed.

(** The decision, with [decide_alike] of PrivacyProofs cut down to equal verdicts *)
Lemma decide_alike_auth : forall t t', twins t t' ->
  (forall r, check_jwt (t_lib t) (t_cfg t) (ch_now (t_chance t)) r (auth_text t') = check_jwt (t_lib t) (t_cfg t) (ch_now (t_chance t)) r (auth_text t)) ->
  decision_alike (decides t) (decides t').
Proof.
  intros t t' W V. destruct (twins_incoming t t' (t_env t) (ch_fresh (t_chance t)) W) as (b & h & Wi).
  unfold decides. rewrite (tw_env _ _ W), (tw_lib _ _ W), (tw_new _ _ W), (tw_cfg _ _ W), (tw_chance _ _ W). unfold decide. rewrite Wi, (tw_raw _ _ W).
  set (w := parse_incoming (t_env t) (ch_fresh (t_chance t)) (t_req t)). clearbody w.
  replace (validate (Dwn _ _ _ b _ _ h _)) with (validate w) by reflexivity. destruct (negb (validate w)).
  { cbn [w_too_large]. destruct (w_too_large w); split; reflexivity. }
  destruct (select_route _ _) as [r|]; [|split; reflexivity]. fold (auth_text t) (auth_text t'). rewrite V.
  destruct (if has_jwt r then _ else _); [|split; reflexivity|exact I].
  destruct (map_url _ _ _); [|split; reflexivity|exact I]. cbn [decision_alike w_uri w_method]. split; [|reflexivity].
  exists b, h. eexists. split; [reflexivity|]. reflexivity.
Qed.

Lemma uris_alike : forall c c' x run s s', conf_alike c c' -> same_but_sent s s' -> attempt_uris c' x s' run = attempt_uris c x s run.
Proof.
  intros c c' x run. induction run as [|l run IH]; intros s s' C R; cbn [attempt_uris]; [reflexivity|].
  pose proof (step_alike c c' l s s' C R) as T. destruct (step c s l) as [s1|], (step c' s' l) as [s1'|]; cbn [opt_rel] in T; try contradiction; [|reflexivity].
  rewrite (IH _ _ C T). destruct R as (ys & ->). destruct C as (b & h & y & -> & Y). cbn [s_pc c_request]. rewrite Y. reflexivity.
Qed.

Lemma alike_auth_text : forall t t', alike_auth t t' ->
  (forall token, ~ bearer (auth_text t) token) /\ (forall token, ~ bearer (auth_text t') token) \/
  (exists k k', bearer (auth_text t) k /\ bearer (auth_text t') k' /\ alike_tokens (t_lib t) k k').
Proof. intros t t' (a & a' & A & A' & H). apply auth_is in A. apply auth_is in A'. subst a a'. exact H. Qed.

Lemma traces_alike : forall t t' x ls, twins t t' -> alike_auth t t' -> traces t x ls -> traces t' x ls.
Proof.
  intros t t' x ls W A (es & E & H). apply alike_auth_text in A.
  assert (V : forall r, check_jwt (t_lib t) (t_cfg t) (ch_now (t_chance t)) r (auth_text t') = check_jwt (t_lib t) (t_cfg t) (ch_now (t_chance t)) r (auth_text t))
    by (intros r; now apply check_alike).
  exists es. split.
  { rewrite E. destruct (twins_incoming t t' (t_env t) (ch_fresh (t_chance t)) W) as (b & h & Wi). rewrite (tw_env _ _ W), (tw_chance _ _ W), Wi. reflexivity. }
  change (mux_serve _ (t_in t')) with (dispatch t'). change (mux_serve _ (t_in t)) with (dispatch t) in H. rewrite (twins_dispatch t t' W).
  destruct (dispatch t) eqn:Dp; try exact H; [now rewrite (incoming_lines_alike t t' x W)|].
  cbv zeta in *.
  assert (Hl : handler_lines (t_env t') (t_lib t') (t_cfg t') (t_chance t') x (t_req t') = handler_lines (t_env t) (t_lib t) (t_cfg t) (t_chance t) x (t_req t)).
  { unfold handler_lines. cbv zeta. rewrite (incoming_lines_alike t t' x W), (tw_env _ _ W), (tw_lib _ _ W), (tw_cfg _ _ W), (tw_chance _ _ W), (tw_raw _ _ W).
    destruct (twins_incoming t t' (t_env t) (ch_fresh (t_chance t)) W) as (b & h & Wi). rewrite Wi.
    replace (validate (Dwn _ _ _ b _ _ h _)) with (validate (parse_incoming (t_env t) (ch_fresh (t_chance t)) (t_req t))) by reflexivity.
    f_equal. destruct (negb _); [reflexivity|]. destruct (select_route _ _) as [r|]; [|reflexivity]. fold (auth_text t) (auth_text t').
    rewrite V, (jwt_lines_alike _ _ _ _ _ _ _ A). reflexivity. }
  rewrite Hl. pose proof (decide_alike_auth t t' W V) as D. assert (Dp' : dispatch t' = TProxy) by (rewrite (twins_dispatch t t' W); exact Dp).
  rewrite (serve_decides t Dp) in H. rewrite (serve_decides t' Dp').
  destruct (decides t) as [st m|c lab|], (decides t') as [st' m'|c' lab'|]; cbn [decision_alike] in D; try contradiction; try exact H.
  destruct D as [C _]. destruct H as [X ->]. rewrite (tw_run _ _ W). assert (R0 : same_but_sent init init) by (exists (s_sent init); reflexivity). split.
  - pose proof (exec_alike c c' (t_run t) init init C R0) as T. destruct (exec c init (t_run t)); [|destruct (X eq_refl)].
    destruct (exec c' init (t_run t)); cbn [opt_rel] in T; [discriminate|contradiction].
  - now rewrite (uris_alike c c' x (t_run t) init init C R0).
Qed.

Lemma alike_auth_sym : forall t t', twins t t' -> alike_auth t t' -> alike_auth t' t.
Proof.
  intros t t' W (a & a' & A & A' & H). exists a', a. split; [exact A'|]. split; [exact A|]. rewrite (tw_lib _ _ W).
  destruct H as [[N N']|(k & k' & B & B' & S1 & P & V & K)]; [left; now split|right]. exists k', k. split; [exact B'|]. split; [exact B|].
  split; [now symmetry|]. split; [now symmetry|]. split; [intros alg kk; now symmetry|]. intros kid N0. symmetry. now apply K.
Qed.

Lemma kept_traces : forall t t' x ls, twins t t' -> alike_auth t t' -> (traces t x ls <-> traces t' x ls).
Proof.
  intros t t' x ls W A. split; apply traces_alike; try assumption; [now apply twins_sym|now apply alike_auth_sym].
Qed.

Lemma same_token_alike : forall t t', same_token t t' -> alike_auth t t'.
Proof.
  intros t t' S1. exists (auth_text t), (auth_text t'). split; [now apply auth_is|]. split; [now apply auth_is|].
  assert (E : auth_text t' = auth_text t). { unfold auth_text, get. unfold same_token in S1. change (canon "Authorization") with "Authorization". now rewrite S1. }
  rewrite E. destruct (split " " (auth_text t)) as [|s [|token rest]] eqn:Hs.
  1,2: left; split; intros token B; apply bearer_split in B; destruct B as (s' & r' & B); rewrite B in Hs; discriminate Hs.
  right. exists token, token. assert (B := split_bearer _ _ _ _ Hs). split; [exact B|]. split; [exact B|]. split; [reflexivity|]. split; [reflexivity|].
  split; [reflexivity|]. intros kid _. reflexivity.
Qed.

Lemma same_token_traces : forall t t' x ls, twins t t' -> same_token t t' -> (traces t x ls <-> traces t' x ls).
Proof. intros t t' x ls W S1. apply kept_traces; [exact W|now apply same_token_alike]. Qed.
