(** Proofs for Thm_TraceLog. *)
From Coq Require Import String Ascii List Bool ZArith NArith Lia.
From Verif Require Import GoStr Header HeaderSpec Kid KidSpec KidProofs Policy Config ConfigSpec Routing Exchange ExchangeSpec ExchangeProofs
  Jwt JwtSpec JwtProofs JwtKeys JwtRefresh Machine MachineSpec MachineProofs Handler HandlerSpec HandlerProofs SystemSpec SystemProofs
  AccessLog TraceLog TraceLogSpec.
Import ListNotations.
Local Open Scope string_scope.

(** * All lines *)

Lemma traced_id : forall t x ls l, traces t x ls -> In l ls -> id_of t (tl_id l).
Proof.
  intros t x ls l (es & -> & _) H. apply in_map_iff in H. destruct H as (e & <- & _). cbn [tl_id]. apply choice_id.
Qed.

Lemma events_map : forall id es, events (map (TLine id) es) = es.
Proof. intros id es. unfold events. rewrite map_map. cbn [tl_event]. apply map_id. Qed.

(** What comes after the lines about the body, and after it the attempts *)
Definition later_lines (t : setting) (x : wire) : list tevent :=
  if negb (validate (parse_incoming (t_env t) (ch_fresh (t_chance t)) (t_req t))) then []
  else match select_route (c_routes (t_cfg t)) (q_raw_uri (t_req t)) with
       | None => []
       | Some r =>
           let auth := get "Authorization" (q_header (t_req t)) in
           let j := match lookup (r_jwt r) (c_jwt (t_cfg t)) with Some o => o | None => None end in
           (if has_jwt r then jwt_lines (t_lib t) (ch_now (t_chance t)) r j (x_path x) auth else []) ++
           match (if has_jwt r then check_jwt (t_lib t) (t_cfg t) (ch_now (t_chance t)) r auth else Valid) with
           | Valid => map_lines (ch_label (t_chance t)) (t_cfg t) r
           | _ => []
           end
       end%list.

Definition run_uris (t : setting) (x : wire) : list tevent :=
  match t_serve t with Upstream c => attempt_uris c x init (t_run t) | _ => [] end.

Lemma traced_split : forall t x ls, traces t x ls ->
  (~ handled t /\ events ls = []) \/
  (mux_serve (about_paths (Config.c_routes (t_cfg t))) (t_in t) = TAbout /\
   events ls = incoming_lines (t_env t) x (ch_fresh (t_chance t)) (t_req t)) \/
  (proxied_request (t_cfg t) (t_in t) /\
   events ls = (incoming_lines (t_env t) x (ch_fresh (t_chance t)) (t_req t) ++ later_lines t x ++ run_uris t x)%list).
Proof.
  intros t x ls (es & -> & H). rewrite events_map. unfold handled, proxied_request.
  destruct (mux_serve _ _) eqn:M; try (left; split; [intros (g & <- & [G|G]); discriminate G|exact H]); [right; left; split; [reflexivity|exact H]|].
  right. right. split; [reflexivity|]. unfold run_uris. cbv zeta in H. unfold handler_lines in H. cbv zeta in H. fold (later_lines t x) in H.
  destruct (t_serve t); try (rewrite app_nil_r; exact H). destruct H as [_ ->]. now rewrite app_assoc.
Qed.

(** * The body *)

Lemma body_line_told : forall E fresh q, sized q ->
  body_told E q (body_line (e_max_body E) q) (zlen (w_body (parse_incoming E fresh q))).
Proof.
  intros E fresh q Hq. unfold parse_incoming, parse_body, body_line. cbn [w_body].
  destruct (Z.eqb_spec (q_length q) 0) as [H0|H0]; [constructor; exact H0|].
  rewrite Z.geb_leb. destruct (Z.leb_spec (e_max_body E) (q_length q)) as [H1|H1].
  { cbn [pb_body]. constructor. split; assumption. }
  assert (NO : ~ oversized E q) by (intros [_ N]; lia).
  unfold read_limited. destruct (Z.leb_spec (zlen (q_data q)) (e_max_body E)) as [H2|H2].
  - rewrite Z.gtb_ltb. destruct (Z.ltb_spec (e_max_body E) (zlen (q_data q))) as [H3|H3]; [exfalso; lia|].
    destruct (q_data_ok q) eqn:K; cbn [negb pb_body].
    + apply bt_read; assumption.
    + apply bt_broken; auto.
  - assert (Es : Z.gtb (zlen (substring 0 (Z.to_nat (e_max_body E)) (q_data q))) (e_max_body E) = false).
    { rewrite Z.gtb_ltb. apply Z.ltb_ge. unfold zlen in *. unfold sized in Hq. rewrite substring_length by lia. lia. }
    rewrite Es. cbn [negb pb_body]. apply bt_broken; auto.
Qed.


Lemma jwt_lines_kind : forall L now r j path auth e, In e (jwt_lines L now r j path auth) -> of_token e.
Proof.
  intros L now r j path auth e. unfold jwt_lines. destruct (split " " auth) as [|s [|token rest]]; try (intros [<-|[]]; exact I).
  destruct j as [j|]; [|intros []]. destruct (parse_token_log L j token) as [[[[parsed err] kid] rot]|]; [|intros []].
  assert (R : forall e, In e (rotation_lines r j rot) -> of_token e).
  { intros e0. unfold rotation_lines. destruct rot; [|intros []]. destruct (refresh_triggered j true); [intros [<-|[]]; exact I|intros []]. }
  cbv zeta. revert R. generalize (rotation_lines r j rot) as rr. intros rr R. destruct parsed, err; try (intros H; apply in_app_iff in H; destruct H as [H|[<-|[]]]; [exact (R _ H)|exact I]).
  destruct (lib_parse L token); [|apply R]. intros H; apply in_app_iff in H; destruct H as [H|[<-|[]]]; [exact (R _ H)|exact I].
Qed.

Lemma map_lines_kind : forall choose (c : config jwt) r e, In e (map_lines choose c r) -> of_server e.
Proof.
  intros choose c r e. unfold map_lines. destruct (lookup _ _) as [[ms|]|]; try (intros []). destruct (negb _).
  - destruct (first_labelled _ _); intros [<-|[]]; exact I.
  - destruct ms; [intros []|intros [<-|[]]; exact I].
Qed.

Lemma uris_kind : forall c x run s e, In e (attempt_uris c x s run) -> e = TUri (x_path x) (uq_uri (c_request c)).
Proof.
  intros c x run. induction run as [|l run IH]; intros s e; cbn [attempt_uris]; [intros []|].
  destruct (step c s l) as [s'|]; [|intros []]. intros H. apply in_app_iff in H. destruct H as [H|H]; [|exact (IH _ _ H)].
  destruct l; try destruct H. destruct (s_pc s); try destruct H; [now symmetry|destruct H].
Qed.

Lemma later_kind : forall t x e, In e (later_lines t x) -> of_token e \/ of_server e.
Proof.
  intros t x e. unfold later_lines. destruct (negb _); [intros []|]. destruct (select_route _ _) as [r|]; [|intros []]. cbv zeta.
  intros H. apply in_app_iff in H. destruct H as [H|H].
  - destruct (has_jwt r); [left; exact (jwt_lines_kind _ _ _ _ _ _ _ H)|destruct H].
  - destruct (if has_jwt r then _ else _); [right; exact (map_lines_kind _ _ _ _ H)|destruct H..].
Qed.

Lemma run_kind : forall t x e, In e (run_uris t x) -> exists u, e = TUri (x_path x) u.
Proof.
  intros t x e. unfold run_uris. destruct (t_serve t); try (intros []). intros H. eexists. exact (uris_kind _ _ _ _ _ H).
Qed.

Lemma traced_body : forall t x ls, traces t x ls -> handled t -> sized (t_req t) ->
  exists b n rest, events ls = TBody b :: TParsed (x_path x) (to_upper (q_method (t_req t))) n :: rest /\
    body_told (t_env t) (t_req t) b n /\ forall e, In e rest -> ~ opening e.
Proof.
  intros t x ls H Hh Hq. assert (B := body_line_told (t_env t) (ch_fresh (t_chance t)) (t_req t) Hq).
  destruct (traced_split t x ls H) as [[N _]|[[_ ->]|[_ ->]]]; [destruct (N Hh)| |]; unfold incoming_lines; cbn [app].
  - eexists. eexists. eexists. split; [reflexivity|]. split; [exact B|intros e []].
  - eexists. eexists. eexists. split; [reflexivity|]. split; [exact B|]. intros e He Ho. apply in_app_iff in He. destruct He as [He|He].
    + destruct (later_kind _ _ _ He) as [K|K]; destruct e; contradiction.
    + destruct (run_kind _ _ _ He) as (u & ->). exact Ho.
Qed.

(** What is sent has the number of bytes in the line. *)
Lemma traced_sent : forall t x ls r p m n, traces t x ls -> asks t r -> sized (t_req t) -> In (TParsed p m n) (events ls) ->
  p = x_path x /\ m = uq_method r /\ n = size (uq_body r).
Proof.
  intros t x ls r p m n H A Hq He. destruct (asks_inv t r A Hq) as (c & s & Hr & ->).
  destruct (ran_inv t c s Hr Hq) as (Hp & _ & rt & u & lab & _ & _ & ->). cbn.
  assert (G : In (TParsed p m n) (incoming_lines (t_env t) x (ch_fresh (t_chance t)) (t_req t))).
  { destruct (traced_split t x ls H) as [[_ E]|[[_ E]|[_ E]]]; rewrite E in He; [destruct He|exact He|].
    apply in_app_iff in He. destruct He as [He|He]; [exact He|]. apply in_app_iff in He. destruct He as [He|He].
    - destruct (later_kind _ _ _ He) as [[]|[]].
    - destruct (run_kind _ _ _ He) as (v & V). discriminate V. }
  destruct G as [G|[G|[]]]; [discriminate G|]. injection G as <- <- <-. split; [reflexivity|]. split; reflexivity.
Qed.

Lemma traced_refused : forall t x ls, traces t x ls -> proxied_request (t_cfg t) (t_in t) -> sized (t_req t) ->
  ((exists n m, In (TBody (BRefused n m)) (events ls)) <-> answered_with t 413).
Proof.
  intros t x ls H Hp Hq. assert (Hh : handled t) by (eexists; split; [reflexivity|right; exact Hp]).
  destruct (traced_body t x ls H Hh Hq) as (b & n & rest & E & B & R). rewrite E. split.
  - intros (n0 & m0 & [I0|[I0|I0]]); [|discriminate I0|destruct (R _ I0 I)]. injection I0 as ->. inversion B as [|O| |]; subst.
    destruct (oversized_413 (t_env t) (t_lib t) (t_new t) (t_cfg t) (t_chance t) (t_in t) Hp Hq O) as (r & R1 & R2). exists r. now split.
  - intros (r & R1 & R2). assert (O : oversized (t_env t) (t_req t)).
    { assert (D : oversized (t_env t) (t_req t) \/ ~ oversized (t_env t) (t_req t)) by (unfold oversized; lia). destruct D as [O|N]; [exact O|]. exfalso.
      destruct (in_dec string_dec (to_upper (q_method (t_req t))) known_methods) as [M|M].
      - assert (So : sound_request (t_env t) (t_req t)) by (split; [exact Hq|split; [exact M|exact N]]).
        pose proof (serve_sound (t_env t) (t_lib t) (t_new t) (t_cfg t) (t_chance t) (t_in t) Hp So) as V. cbv zeta in V. unfold t_serve in R1. rewrite V in R1.
        destruct (select_route _ _) as [r0|]; [|injection R1 as <-; discriminate R2].
        destruct (if has_jwt r0 then _ else _); [|injection R1 as <-; discriminate R2|discriminate R1].
        destruct (map_url _ _ _); [discriminate R1|injection R1 as <-; discriminate R2|discriminate R1].
      - destruct (bad_method (t_env t) (t_lib t) (t_new t) (t_cfg t) (t_chance t) (t_in t) Hp Hq M) as (r' & V & _ & V2). unfold t_serve in R1.
        rewrite V in R1. injection R1 as <-. rewrite (V2 N) in R2. discriminate R2. }
    destruct O as [O1 O2]. inversion B as [Z|O|Z N|Z N]; subst; [contradiction| |destruct N; split; assumption..].
    eexists. eexists. left. reflexivity.
Qed.

(** * Tokens *)

Definition is_some {A} (o : option A) : bool := match o with Some _ => true | None => false end.

Definition skew_in (j : jwt) : Z := match atoi (j_skew j) with Some z => z | None => 0%Z end.

Lemma log_agrees : forall L token ks alg,
  verify_signature L token ks alg =
  match verify_signature_log L token ks alg with
  | Some (parsed, err, _, rot) => Some (parsed, is_some err, is_some rot)
  | None => None
  end.
Proof.
  intros L token ks alg. unfold verify_signature_log. destruct (lib_signatures L token) as [[|n]|] eqn:Hn; try (unfold verify_signature; rewrite Hn; reflexivity).
  cbv zeta. destruct (verify_signature L token ks alg) as [[[p e] r]|]; [|reflexivity]. destruct e, r; reflexivity.
Qed.

(** The verdict in the terms of the lines *)
Definition ruled (L : library) (now : Z) (j : jwt) (token : string) : verdict :=
  match parse_token_log L j token with
  | None => Crash
  | Some (Some _, None, _, _) =>
      match lib_parse L token with Some c => if verify_date_claims now (skew_in j) c then Valid else Invalid | None => Crash end
  | Some _ => Invalid
  end.

Lemma validate_ruled : forall L now j auth s token rest, split " " auth = s :: token :: rest -> fst (validate_jwt L now j auth) = ruled L now j token.
Proof.
  intros L now j auth s token rest H. unfold validate_jwt, ruled, parse_token_log. rewrite H. cbv zeta.
  destruct (mem_str _ rsa_algs || mem_str _ ec_algs || mem_str _ hmac_algs).
  - rewrite log_agrees. destruct (verify_signature_log _ _ _ _) as [[[[p e] k] r]|]; [|reflexivity]. cbn [fst]. destruct p, e; reflexivity.
  - destruct (lib_parse L token); reflexivity.
Qed.

Lemma validate_rotates : forall L now j auth s token rest, split " " auth = s :: token :: rest ->
  snd (validate_jwt L now j auth) = match parse_token_log L j token with Some (_, _, _, r) => is_some r | None => false end.
Proof.
  intros L now j auth s token rest H. unfold validate_jwt, parse_token_log. rewrite H. cbv zeta.
  destruct (mem_str _ rsa_algs || mem_str _ ec_algs || mem_str _ hmac_algs).
  - rewrite log_agrees. destruct (verify_signature_log _ _ _ _) as [[[[p e] k] r]|]; reflexivity.
  - destruct (lib_parse L token); reflexivity.
Qed.

(** The lines of a token check in one place *)
Definition told_cause (L : library) (now : Z) (j : jwt) (token : string) (parsed : option claims) (err : option cause) : option cause :=
  match parsed, err with
  | Some _, None => match lib_parse L token with Some c => if verify_date_claims now (skew_in j) c then None else Some CDates | None => None end
  | _, _ => Some (match err with Some e => e | None => CNil end)
  end.

Lemma jwt_lines_eq : forall L now r j path auth s token rest, split " " auth = s :: token :: rest ->
  jwt_lines L now r (Some j) path auth =
  match parse_token_log L j token with
  | None => []
  | Some (parsed, err, kid, rot) =>
      rotation_lines r j rot ++
      match ruled L now j token with
      | Crash => []
      | _ => [TJwt (JwtEntry path kid (option_map log_date_claims parsed) (told_cause L now j token parsed err))]
      end
  end%list.
Proof.
  intros L now r j path auth s token rest H. unfold jwt_lines, ruled, told_cause. rewrite H.
  destruct (parse_token_log L j token) as [[[[p e] k] rot]|]; [|reflexivity]. cbv zeta. fold (skew_in j).
  destruct p as [c|], e as [e|]; cbn [option_map]; try reflexivity. destruct (lib_parse L token) as [c'|]; [|now rewrite app_nil_r].
  destruct (verify_date_claims now (skew_in j) c'); reflexivity.
Qed.

Lemma cause_verdict : forall L now j token parsed err kid rot, parse_token_log L j token = Some (parsed, err, kid, rot) -> ruled L now j token <> Crash ->
  (told_cause L now j token parsed err = None <-> ruled L now j token = Valid).
Proof.
  intros L now j token parsed err kid rot H N. unfold ruled, told_cause in *. rewrite H in *. destruct parsed, err; try (split; discriminate).
  destruct (lib_parse L token) as [c'|]; [|contradiction]. destruct (verify_date_claims _ _ _); split; congruence.
Qed.

(** The check of a route *)
Definition route_def (t : setting) (r : route) : option jwt := match lookup (r_jwt r) (c_jwt (t_cfg t)) with Some o => o | None => None end.
Definition auth_text (t : setting) : string := get "Authorization" (q_header (t_req t)).

Lemma auth_is : forall t a, auth_of t a <-> a = auth_text t.
Proof.
  intros t a. unfold auth_of, auth_text, get. change (canon "Authorization") with "Authorization".
  destruct (values _ _); cbn; tauto.
Qed.

Lemma check_def : forall t r, check_jwt (t_lib t) (t_cfg t) (ch_now (t_chance t)) r (auth_text t) =
  match route_def t r with
  | Some j => fst (validate_jwt (t_lib t) (ch_now (t_chance t)) j (auth_text t))
  | None => match split " " (auth_text t) with _ :: _ :: _ => Crash | _ => Invalid end
  end.
Proof. intros t r. unfold check_jwt, route_def. destruct (lookup _ _) as [[j|]|]; reflexivity. Qed.

Lemma jwt_lines_verdict : forall t r x, exists rots,
  (forall e, In e rots -> exists k, e = TRotate (r_path r) (r_jwt r) k) /\
  match check_jwt (t_lib t) (t_cfg t) (ch_now (t_chance t)) r (auth_text t) with
  | Crash => jwt_lines (t_lib t) (ch_now (t_chance t)) r (route_def t r) (x_path x) (auth_text t) = rots
  | v => exists e, jwt_lines (t_lib t) (ch_now (t_chance t)) r (route_def t r) (x_path x) (auth_text t) = (rots ++ [TJwt e])%list /\
           je_path e = x_path x /\ (je_cause e = None <-> v = Valid)
  end.
Proof.
  intros t r x. rewrite check_def.
  destruct (split " " (auth_text t)) as [|s [|token rest]] eqn:Hs.
  1,2: exists []; split; [intros e []|]; unfold jwt_lines; rewrite Hs;
    assert (V : match route_def t r with Some j => fst (validate_jwt (t_lib t) (ch_now (t_chance t)) j (auth_text t)) | None => Invalid end = Invalid)
      by (destruct (route_def t r); [unfold validate_jwt; rewrite Hs|]; reflexivity);
    rewrite V; eexists; split; [reflexivity|]; cbn [je_path je_cause]; split; [reflexivity|split; discriminate].
  destruct (route_def t r) as [j|].
  2: { exists []. split; [intros e []|]. unfold jwt_lines. now rewrite Hs. }
  rewrite (validate_ruled _ _ _ _ _ _ _ Hs), (jwt_lines_eq _ _ _ _ _ _ _ _ _ Hs).
  destruct (parse_token_log (t_lib t) j token) as [[[[p e] k] rot]|] eqn:P.
  - exists (rotation_lines r j rot). split.
    { intros e0. unfold rotation_lines. destruct rot; [|intros []]. destruct (refresh_triggered j true); [|intros []]. intros [<-|[]]. eexists. reflexivity. }
    pose proof (cause_verdict (t_lib t) (ch_now (t_chance t)) j token p e k rot P) as V.
    destruct (ruled _ _ _ _); [| |apply app_nil_r]; (eexists; split; [reflexivity|]); cbn [je_path je_cause]; (split; [reflexivity|]); apply V; discriminate.
  - exists []. split; [intros e []|]. unfold ruled. rewrite P. reflexivity.
Qed.

Lemma later_routed : forall t x r, routed t r -> later_lines t x =
  ((if has_jwt r then jwt_lines (t_lib t) (ch_now (t_chance t)) r (route_def t r) (x_path x) (auth_text t) else []) ++
   match (if has_jwt r then check_jwt (t_lib t) (t_cfg t) (ch_now (t_chance t)) r (auth_text t) else Valid) with
   | Valid => map_lines (ch_label (t_chance t)) (t_cfg t) r
   | _ => []
   end)%list.
Proof.
  intros t x r (_ & So & Sel). unfold later_lines.
  assert (V : validate (parse_incoming (t_env t) (ch_fresh (t_chance t)) (t_req t)) = true) by (apply validate_iff; [apply So|exact So]).
  rewrite V. cbn [negb]. rewrite Sel. reflexivity.
Qed.

Lemma has_jwt_iff : forall r, has_jwt r = true <-> r_jwt r <> "".
Proof. intros r. unfold has_jwt. destruct (String.eqb_spec (r_jwt r) ""); cbn; intuition congruence. Qed.

(** Lines about tokens are only logged for requests that have a route with a jwt. *)
Lemma later_token : forall t x e, sized (t_req t) -> proxied_request (t_cfg t) (t_in t) -> In e (later_lines t x) -> of_token e ->
  exists r, routed t r /\ r_jwt r <> "" /\ In e (jwt_lines (t_lib t) (ch_now (t_chance t)) r (route_def t r) (x_path x) (auth_text t)).
Proof.
  intros t x e Hq Hp H K. unfold later_lines in H.
  destruct (validate (parse_incoming (t_env t) (ch_fresh (t_chance t)) (t_req t))) eqn:V; cbn [negb] in H; [|destruct H].
  apply validate_iff in V; [|exact Hq]. destruct (select_route _ _) as [r|] eqn:Sel; [|destruct H]. cbv zeta in H.
  exists r. split; [split; [exact Hp|split; [exact V|exact Sel]]|]. apply in_app_iff in H. destruct H as [H|H].
  - destruct (has_jwt r) eqn:J; [|destruct H]. apply has_jwt_iff in J. split; [exact J|exact H].
  - destruct (if has_jwt r then _ else _); try destruct H. apply map_lines_kind in H. destruct e; contradiction.
Qed.

Lemma traced_token : forall t x ls e, traces t x ls -> sized (t_req t) -> In e (events ls) -> of_token e ->
  exists r, routed t r /\ r_jwt r <> "" /\ In e (jwt_lines (t_lib t) (ch_now (t_chance t)) r (route_def t r) (x_path x) (auth_text t)).
Proof.
  intros t x ls e H Hq He K. destruct (traced_split t x ls H) as [[_ E]|[[_ E]|[Hp E]]]; rewrite E in He; [destruct He| |].
  - destruct He as [<-|[<-|[]]]; destruct K.
  - apply in_app_iff in He. destruct He as [[<-|[<-|[]]]|He]; try (now destruct K). apply in_app_iff in He. destruct He as [He|He].
    + exact (later_token t x e Hq Hp He K).
    + destruct (run_kind _ _ _ He) as (u & ->). destruct K.
Qed.

(** The answer of a routed request *)
Lemma routed_401 : forall t r, routed t r ->
  (answered_with t 401 <-> r_jwt r <> "" /\ check_jwt (t_lib t) (t_cfg t) (ch_now (t_chance t)) r (auth_text t) = Invalid).
Proof.
  intros t r (Hp & So & Sel). unfold answered_with, t_serve.
  pose proof (serve_sound (t_env t) (t_lib t) (t_new t) (t_cfg t) (t_chance t) (t_in t) Hp So) as V. cbv zeta in V. rewrite V. clear V.
  change (q_raw_uri (i_req (t_in t))) with (q_raw_uri (t_req t)). rewrite Sel. change (get "Authorization" (q_header (i_req (t_in t)))) with (auth_text t).
  rewrite <- has_jwt_iff. destruct (has_jwt r).
  - destruct (check_jwt _ _ _ _ _).
    + split; [|intros [_ D]; discriminate D]. intros (rs & R1 & R2). destruct (map_url _ _ _); try discriminate R1. injection R1 as <-. discriminate R2.
    + split; [intros _; split; reflexivity|]. intros _. eexists. split; reflexivity.
    + split; [|intros [_ D]; discriminate D]. intros (rs & R1 & R2). discriminate R1.
  - split; [|intros [D _]; discriminate D]. intros (rs & R1 & R2). destruct (map_url _ _ _); try discriminate R1. injection R1 as <-. discriminate R2.
Qed.

Lemma routed_one : forall t r r', routed t r -> routed t r' -> r = r'.
Proof. intros t r r' (_ & _ & A) (_ & _ & B). congruence. Qed.

(** What a jwt line says, and who has one *)
Lemma traced_verdict : forall t x ls e, traces t x ls -> sized (t_req t) -> In (TJwt e) (events ls) ->
  je_path e = x_path x /\ (je_cause e <> None <-> answered_with t 401) /\
  exists r, routed t r /\ r_jwt r <> "".
Proof.
  intros t x ls e H Hq He. destruct (traced_token t x ls _ H Hq He I) as (r & Hr & Hj & Hin).
  destruct (jwt_lines_verdict t r x) as (rots & R & V). pose proof (routed_401 t r Hr) as A.
  destruct (check_jwt _ _ _ _ _) eqn:Ck.
  3: { rewrite V in Hin. destruct (R _ Hin) as (k & K). discriminate K. }
  all: destruct V as (e' & E & P & C); rewrite E in Hin; apply in_app_iff in Hin;
    destruct Hin as [Hin|[Hin|[]]]; [destruct (R _ Hin) as (k & K); discriminate K|]; injection Hin as ->;
    (split; [exact P|]); (split; [|exists r; split; assumption]).
  - split; [intros N; destruct N; apply C; reflexivity|]. intros X. apply A in X. destruct X as [_ X]. discriminate X.
  - split; [intros _; apply A; split; [exact Hj|reflexivity]|]. intros _ N. apply C in N. discriminate N.
Qed.

Lemma traced_jwt_there : forall t x ls r, traces t x ls -> routed t r -> r_jwt r <> "" -> t_serve t <> Panicked ->
  exists a e b, events ls = (a ++ TJwt e :: b)%list /\ (forall e', ~ In (TJwt e') (a ++ b)%list).
Proof.
  intros t x ls r H Hr Hj Np. destruct (traced_split t x ls H) as [[N _]|[[M _]|[_ E]]].
  - destruct N. eexists. split; [reflexivity|right; exact (proj1 Hr)].
  - destruct Hr as [Hp _]. unfold proxied_request in Hp. rewrite M in Hp. discriminate Hp.
  - rewrite E, (later_routed t x r Hr). apply has_jwt_iff in Hj. rewrite Hj. destruct (jwt_lines_verdict t r x) as (rots & R & V).
    assert (Nc : check_jwt (t_lib t) (t_cfg t) (ch_now (t_chance t)) r (auth_text t) <> Crash).
    { intros Ck. apply Np. unfold t_serve. destruct Hr as (Hp & So & Sel).
      pose proof (serve_sound (t_env t) (t_lib t) (t_new t) (t_cfg t) (t_chance t) (t_in t) Hp So) as S1. cbv zeta in S1. rewrite S1.
      change (q_raw_uri (i_req (t_in t))) with (q_raw_uri (t_req t)). rewrite Sel, Hj. change (get "Authorization" _) with (auth_text t). now rewrite Ck. }
    assert (G : exists e, jwt_lines (t_lib t) (ch_now (t_chance t)) r (route_def t r) (x_path x) (auth_text t) = (rots ++ [TJwt e])%list).
    { destruct (check_jwt _ _ _ _ _); [destruct V as (e & V & _); exists e; exact V..|destruct (Nc eq_refl)]. }
    destruct G as (e & G). rewrite G.
    set (tail := match check_jwt _ _ _ _ _ with Valid => _ | _ => _ end). assert (T : forall e', In e' tail -> of_server e').
    { intros e'. unfold tail. destruct (check_jwt _ _ _ _ _); [apply map_lines_kind|intros []..]. } clearbody tail.
    exists (incoming_lines (t_env t) x (ch_fresh (t_chance t)) (t_req t) ++ rots)%list, e, (tail ++ run_uris t x)%list.
    split; [rewrite <- !app_assoc; reflexivity|]. intros e' I1. apply in_app_iff in I1. destruct I1 as [I1|I1]; apply in_app_iff in I1; destruct I1 as [I1|I1].
    + destruct I1 as [I1|[I1|[]]]; discriminate I1.
    + destruct (R _ I1) as (k & K). discriminate K.
    + exact (T _ I1).
    + destruct (run_kind _ _ _ I1) as (u & K). discriminate K.
Qed.

(** * What a jwt line says about the token *)

Lemma jwt_line_parts : forall L now r j path auth e, In (TJwt e) (jwt_lines L now r (Some j) path auth) ->
  ((forall token, ~ bearer auth token) /\ je_kid e = None /\ je_dates e = None /\ je_cause e = Some CNoToken) \/
  exists token parsed err kid rot, bearer auth token /\ parse_token_log L j token = Some (parsed, err, kid, rot) /\ ruled L now j token <> Crash /\
    je_kid e = kid /\ je_dates e = option_map log_date_claims parsed /\ je_cause e = told_cause L now j token parsed err.
Proof.
  intros L now r j path auth e H. destruct (split " " auth) as [|s [|token rest]] eqn:Hs.
  1,2: left; unfold jwt_lines in H; rewrite Hs in H; destruct H as [H|[]]; injection H as <-; cbn [je_kid je_dates je_cause];
    (split; [|repeat split; reflexivity]); intros token B; apply bearer_split in B; destruct B as (s' & r' & B); rewrite B in Hs; discriminate Hs.
  right. rewrite (jwt_lines_eq _ _ _ _ _ _ _ _ _ Hs) in H. destruct (parse_token_log L j token) as [[[[p er] k] rot]|] eqn:P; [|destruct H].
  exists token, p, er, k, rot. split; [exact (split_bearer _ _ _ _ Hs)|]. split; [exact P|].
  apply in_app_iff in H. destruct H as [H|H].
  { exfalso. unfold rotation_lines in H. destruct rot; [|destruct H]. destruct (refresh_triggered j true); [|destruct H]. destruct H as [H|[]]; discriminate H. }
  destruct (ruled L now j token) eqn:Ru; [| |destruct H]; (split; [discriminate|]); destruct H as [H|[]]; injection H as <-;
    cbn [je_kid je_dates je_cause]; repeat split; reflexivity.
Qed.

(** Without a definition only requests without token have a line. *)
Lemma jwt_line_undefined : forall L now r path auth e, In (TJwt e) (jwt_lines L now r None path auth) ->
  (forall token, ~ bearer auth token) /\ je_kid e = None /\ je_dates e = None /\ je_cause e = Some CNoToken.
Proof.
  intros L now r path auth e H. destruct (split " " auth) as [|s [|token rest]] eqn:Hs.
  1,2: unfold jwt_lines in H; rewrite Hs in H; destruct H as [H|[]]; injection H as <-; cbn [je_kid je_dates je_cause];
    (split; [|repeat split; reflexivity]); intros token B; apply bearer_split in B; destruct B as (s' & r' & B); rewrite B in Hs; discriminate Hs.
  unfold jwt_lines in H. rewrite Hs in H. destruct H.
Qed.

Lemma parse_log_claims : forall L j token c err kid rot, honest L -> parse_token_log L j token = Some (Some c, err, kid, rot) -> lib_parse L token = Some c.
Proof.
  intros L j token c err kid rot HL H. unfold parse_token_log in H. cbv zeta in H. destruct (mem_str _ rsa_algs || mem_str _ ec_algs || mem_str _ hmac_algs).
  - unfold verify_signature_log in H. destruct (lib_signatures L token) as [[|n]|] eqn:Hn; try discriminate H. cbv zeta in H.
    destruct (verify_signature_spec L token (keys_for (accept_alg (j_alg j)) j) (accept_alg (j_alg j)) n Hn) as (p & e & ro & V & U1 & U2). rewrite V in H.
    injection H as -> _ _ _. destruct (usable_dec L (accept_alg (j_alg j)) token (keys_for (accept_alg (j_alg j)) j)) as [U|U].
    + destruct (U1 U) as (_ & c' & k' & k & E & _ & W). injection E as <-. exact (HL _ _ _ _ W).
    + discriminate (U2 U).
  - destruct (lib_parse L token); [|discriminate H]. injection H as -> _ _ _. reflexivity.
Qed.

Lemma logged_shown : forall o, shown o (logged_date o).
Proof.
  intros o. unfold shown, logged_date. assert (U : forall z, unix (nanos z) = z).
  { intros z. unfold unix, nanos. apply Z.div_mul. discriminate. }
  destruct o as [z|]; unfold date; rewrite U.
  - destruct (Z.ltb_spec 1 z); [left; split; [assumption|reflexivity]|right; split; [lia|reflexivity]].
  - reflexivity.
Qed.

Lemma claims_shown : forall c, dates_shown c (log_date_claims c).
Proof. intros c. split; [|split]; apply logged_shown. Qed.

Lemma parse_log_kid : forall L j token parsed err kid rot k, parse_token_log L j token = Some (parsed, err, kid, rot) -> kid = Some k ->
  k <> "" /\ names_kid token k.
Proof.
  intros L j token parsed err kid rot k H K. unfold parse_token_log in H. cbv zeta in H. destruct (mem_str _ rsa_algs || mem_str _ ec_algs || mem_str _ hmac_algs).
  - unfold verify_signature_log in H. destruct (lib_signatures L token) as [[|n]|]; try discriminate H; [injection H as _ _ <- _; discriminate K|].
    cbv zeta in H. destruct (verify_signature _ _ _ _) as [[[p e] ro]|]; [|discriminate H]. injection H as _ _ <- _.
    destruct (String.eqb_spec (extract_kid token) "") as [E|E]; [discriminate K|]. injection K as <-. split; [exact E|]. now apply kid_iff.
  - destruct (lib_parse L token); injection H as _ _ <- _; discriminate K.
Qed.

Lemma traced_line_parts : forall t x ls e, traces t x ls -> sized (t_req t) -> In (TJwt e) (events ls) ->
  ((forall token, ~ bearer (auth_text t) token) /\ je_kid e = None /\ je_dates e = None /\ je_cause e = Some CNoToken) \/
  exists r j token parsed err kid rot, routed t r /\ r_jwt r <> "" /\ route_def t r = Some j /\ bearer (auth_text t) token /\
    parse_token_log (t_lib t) j token = Some (parsed, err, kid, rot) /\ ruled (t_lib t) (ch_now (t_chance t)) j token <> Crash /\
    je_kid e = kid /\ je_dates e = option_map log_date_claims parsed /\ je_cause e = told_cause (t_lib t) (ch_now (t_chance t)) j token parsed err.
Proof.
  intros t x ls e H Hq He. destruct (traced_token t x ls _ H Hq He I) as (r & Hr & Hj & Hin). destruct (route_def t r) as [j|] eqn:D.
  - destruct (jwt_line_parts _ _ _ _ _ _ _ Hin) as [L|(token & p & er & k & rot & A)]; [now left|]. right. exists r, j, token, p, er, k, rot.
    split; [exact Hr|]. split; [exact Hj|]. split; [exact D|exact A].
  - left. exact (jwt_line_undefined _ _ _ _ _ _ Hin).
Qed.

Lemma traced_contents : forall t x ls e auth, traces t x ls -> sized (t_req t) -> honest (t_lib t) -> In (TJwt e) (events ls) -> auth_of t auth ->
  (forall k, je_kid e = Some k -> exists token, bearer auth token /\ k <> "" /\ names_kid token k) /\
  (forall d, je_dates e = Some d -> exists token c, bearer auth token /\ lib_parse (t_lib t) token = Some c /\ dates_shown c d) /\
  (je_cause e = None -> je_dates e <> None).
Proof.
  intros t x ls e auth H Hq HL He Ha. apply auth_is in Ha. subst auth.
  destruct (traced_line_parts t x ls e H Hq He) as [(_ & K & D & C)|(r & j & token & p & er & k & rot & _ & _ & _ & B & P & Ru & K & D & C)].
  - rewrite K, D, C. split; [discriminate|]. split; [discriminate|discriminate].
  - rewrite K, D, C. split; [|split].
    + intros k0 E. exists token. split; [exact B|]. exact (parse_log_kid _ _ _ _ _ _ _ _ P E).
    + intros d E. destruct p as [c|]; [|discriminate E]. injection E as <-. exists token, c. split; [exact B|].
      split; [exact (parse_log_claims _ _ _ _ _ _ _ HL P)|apply claims_shown].
    + unfold told_cause. destruct p; [discriminate|discriminate].
Qed.

(** Dates of the year 1 count as missing. *)
Definition proper (o : option Z) : option Z := match o with Some z => if Z.eqb z year_1 then None else Some z | None => None end.
Definition proper_claims (c : claims) : claims := Claims (proper (cl_iat c)) (proper (cl_nbf c)) (proper (cl_exp c)).

Lemma date_proper : forall o, date (proper o) = date o.
Proof. intros [z|]; [|reflexivity]. unfold proper. destruct (Z.eqb_spec z year_1) as [->|]; reflexivity. Qed.

Lemma verify_proper : forall now skew c, verify_date_claims now skew (proper_claims c) = verify_date_claims now skew c.
Proof. intros now skew c. unfold verify_date_claims, proper_claims. cbn [cl_iat cl_nbf cl_exp]. now rewrite !date_proper. Qed.

Lemma proper_dated : forall c, dated (proper_claims c).
Proof.
  intros c. assert (P : forall o, proper o <> Some (-62135596800)%Z).
  { intros [z|]; unfold proper; [|discriminate]. unfold year_1. destruct (Z.eqb_spec z (-62135596800)); [discriminate|congruence]. }
  unfold dated, proper_claims. cbn [cl_exp cl_iat cl_nbf]. split; [apply P|split; apply P].
Qed.

Lemma shown_proper : forall o d z, shown o d -> d = Some z -> proper o = Some z.
Proof.
  intros o d z H ->. destruct o as [y|]; cbn [shown] in H; [|discriminate H]. destruct H as [[H1 H2]|[_ H2]]; [|discriminate H2].
  injection H2 as <-. unfold proper, year_1. destruct (Z.eqb_spec z (-62135596800)); [lia|reflexivity].
Qed.

Lemma traced_in_time : forall so srt cfg0 t x ls e, traces t x ls -> sized (t_req t) -> in_use so srt cfg0 (t_cfg t) -> honest (t_lib t) ->
  (0 <= ch_now (t_chance t))%Z -> In (TJwt e) (events ls) -> je_cause e = None ->
  exists r j0 skew d, routed t r /\ lookup (r_jwt r) (c_jwt cfg0) = Some (Some j0) /\ skew_configured (j_skew j0) skew /\
    je_dates e = Some d /\ shown_in_time (ch_now (t_chance t)) skew d.
Proof.
  intros so srt cfg0 t x ls e H Hq Hu HL Hnow He Hc.
  destruct (traced_line_parts t x ls e H Hq He) as [(_ & K & D & C)|(r & j & token & p & er & k & rot & Hr & Hj & Def & B & P & Ru & K & D & C)]; [congruence|].
  destruct (route_jwt so srt cfg0 (t_cfg t) r Hu) as (j0 & docs & j1 & L0 & L1 & Re); [exact (proj1 (List.find_some _ _ (proj2 (proj2 Hr))))|exact Hj|].
  assert (j1 = j). { unfold route_def in Def. rewrite L1 in Def. congruence. } subst j1.
  destruct (reached_skew _ _ _ _ _ Re) as (skew & Sk & S0 & Sc). cbn [named j_skew] in Sc.
  rewrite C in Hc. assert (Hc2 := Hc). apply (cause_verdict _ _ _ _ _ _ _ _ P Ru) in Hc.
  destruct p as [c|]; [|discriminate Hc2]. pose proof (parse_log_claims _ _ _ _ _ _ _ HL P) as Pc.
  exists r, j0, skew, (log_date_claims c). split; [exact Hr|]. split; [exact L0|]. split; [exact Sc|]. split; [exact D|].
  assert (Vd : verify_date_claims (ch_now (t_chance t)) skew c = true).
  { unfold ruled in Hc. rewrite P, Pc in Hc. destruct er; [discriminate Hc|]. unfold skew_is in Sk. apply NumberProofs.atoi_iff in Sk. unfold skew_in in Hc. rewrite Sk in Hc.
    destruct (verify_date_claims _ _ _); [reflexivity|discriminate Hc]. }
  rewrite <- verify_proper in Vd. assert (Hy : (year_1 <= ch_now (t_chance t))%Z) by (unfold year_1; lia).
  destruct (dates_sound _ _ _ S0 Hy (proper_dated c) Vd) as (T1 & T2 & T3).
  destruct (claims_shown c) as (A1 & A2 & A3). split; [|split]; intros z Z0.
  - apply T1. exact (shown_proper _ _ _ A3 Z0).
  - apply T2. exact (shown_proper _ _ _ A1 Z0).
  - apply T3. exact (shown_proper _ _ _ A2 Z0).
Qed.

(** The cause *)
Lemma signature_log_cause : forall L token ks alg parsed err kid rot, ks <> [] -> verify_signature_log L token ks alg = Some (parsed, err, kid, rot) ->
  (lib_signatures L token = Some 0 /\ parsed = None /\ err = Some CNoSignature) \/
  exists n, lib_signatures L token = Some (S n) /\
    ((usable L alg token ks /\ err = None /\ exists c k0 k, parsed = Some c /\ In (k0, k) ks /\ lib_verify L alg k token = Some c) \/
     (~ usable L alg token ks /\ parsed = None /\ err = Some CParse)).
Proof.
  intros L token ks alg parsed err kid rot Hk H. unfold verify_signature_log in H. destruct (lib_signatures L token) as [[|n]|] eqn:Hn; [| |discriminate H].
  - injection H as <- <- _ _. left. repeat split; reflexivity.
  - right. exists n. split; [reflexivity|]. cbv zeta in H.
    destruct (verify_signature_spec L token ks alg n Hn) as (p & e & ro & V & U1 & U2). rewrite V in H. injection H as <- <- _ _.
    destruct (usable_dec L alg token ks) as [U|U].
    + left. destruct (U1 U) as (-> & c & k0 & k & -> & I1 & W). split; [exact U|]. split; [reflexivity|]. exists c, k0, k. repeat split; assumption.
    + right. split; [exact U|]. split; [exact (U2 U)|]. assert (E : e = true); [|now rewrite E].
      unfold verify_signature in V. rewrite Hn in V. cbv zeta in V.
      destruct (try_keys_spec L alg token ks (None, false)) as [_ T1]. specialize (T1 U).
      destruct (try_keys_spec L alg token ks (None, true)) as [_ T2]. specialize (T2 U).
      assert (T : forall a, a = (None, false) \/ a = (None, true) -> try_keys L alg token ks a = (None, true)).
      { intros a [->| ->]; [rewrite T1|rewrite T2]; destruct ks; try reflexivity; destruct (Hk eq_refl). }
      destruct (String.eqb (extract_kid token) "") eqn:K0.
      * cbn [orb] in V. rewrite (T (None, false) (or_introl eq_refl)) in V. injection V as _ <- _. reflexivity.
      * destruct (find_key ks (extract_kid token)) as [k|] eqn:F.
        -- cbn [orb] in V. assert (W : lib_verify L alg k token = None).
           { destruct (lib_verify L alg k token) as [c|] eqn:W; [|reflexivity]. destruct U. exists (extract_kid token), k, c. split; [exact (find_key_in _ _ _ F)|exact W]. }
           rewrite W in V. cbn [snd] in V. destruct (true && Nat.ltb 1 (length ks)); [|injection V as _ <- _; reflexivity].
           rewrite (T (None, true) (or_intror eq_refl)) in V. injection V as _ <- _. reflexivity.
        -- cbn [orb] in V. rewrite (T (None, false) (or_introl eq_refl)) in V. injection V as _ <- _. reflexivity.
Qed.

Lemma traced_cause : forall so srt cfg0 t x ls e auth cs, traces t x ls -> sized (t_req t) -> in_use so srt cfg0 (t_cfg t) -> honest (t_lib t) ->
  auth_of t auth -> In (TJwt e) (events ls) -> je_cause e = Some cs ->
  exists r j0 j skew, routed t r /\ lookup (r_jwt r) (c_jwt cfg0) = Some (Some j0) /\ lookup (r_jwt r) (c_jwt (t_cfg t)) = Some (Some j) /\
    skew_configured (j_skew j0) skew /\ reason (t_lib t) (ch_now (t_chance t)) skew j (j_alg j0) auth cs.
Proof.
  intros so srt cfg0 t x ls e auth cs H Hq Hu HL Ha He Hc. apply auth_is in Ha. subst auth.
  destruct (traced_token t x ls _ H Hq He I) as (r & Hr & Hj & Hin).
  destruct (route_jwt so srt cfg0 (t_cfg t) r Hu) as (j0 & docs & j & L0 & L1 & Re); [exact (proj1 (List.find_some _ _ (proj2 (proj2 Hr))))|exact Hj|].
  destruct (reached_skew _ _ _ _ _ Re) as (skew & Sk & S0 & Sc). cbn [named j_skew] in Sc.
  exists r, j0, j, skew. split; [exact Hr|]. split; [exact L0|]. split; [exact L1|]. split; [exact Sc|].
  destruct (traced_line_parts t x ls e H Hq He) as [(N & _ & _ & C)|(r' & j' & token & p & er & k & rot & Hr' & _ & Def & B & P & Ru & _ & _ & C)].
  { assert (cs = CNoToken) by congruence. subst cs. now constructor. }
  assert (r' = r) by exact (routed_one _ _ _ Hr' Hr). subst r'. assert (j' = j) by (unfold route_def in Def; rewrite L1 in Def; congruence). subst j'.
  assert (Al : j_alg j = j_alg j0) by (destruct (reached_fit _ _ _ _ _ Re) as [A _]; exact A).
  assert (Skew : skew_in j = skew). { unfold skew_in. apply NumberProofs.atoi_iff in Sk. now rewrite Sk. }
  assert (Late : forall c, lib_parse (t_lib t) token = Some c -> verify_date_claims (ch_now (t_chance t)) (skew_in j) c = false -> moderate (ch_now (t_chance t)) skew -> ~ in_time (ch_now (t_chance t)) skew c).
  { intros c _ F M T. rewrite Skew, (dates_complete _ _ _ M T) in F. discriminate F. }
  rewrite C in Hc. unfold told_cause in Hc. pose proof P as P0. unfold parse_token_log in P. cbv zeta in P. destruct (signing_dec (j_alg j)) as [S1|S1].
  - destruct (accept_signing _ S1) as [E1 E2]. rewrite E1, E2 in P.
    assert (K : keys_for (j_alg j) j = keys j) by (apply (reached_keys _ _ _ _ _ Re); cbn [named j_alg]; rewrite <- Al; exact S1). rewrite K in P.
    assert (Ne : keys j <> []). { destruct (reached_fit _ _ _ _ _ Re) as [_ _ _ _ _ _ Ne _]. apply Ne. cbn [named j_alg]. rewrite <- Al. exact S1. }
    destruct (signature_log_cause _ _ _ _ _ _ _ _ Ne P) as [(Sg & -> & ->)|(n & Sg & [(U & -> & c & k0 & kk & -> & I1 & W)|(U & -> & ->)])].
    + injection Hc as <-. apply (re_signature _ _ _ _ _ _ token); [exact B|now rewrite <- Al|exact Sg].
    + pose proof (HL _ _ _ _ W) as Pc. rewrite Pc in Hc. destruct (verify_date_claims _ _ _) eqn:Vd; [discriminate Hc|]. injection Hc as <-.
      apply (re_dates _ _ _ _ _ _ token c); [exact B| |exact Pc|exact (Late _ Pc Vd)]. intros _. exists k0, kk. rewrite <- Al. split; assumption.
    + injection Hc as <-. apply (re_key _ _ _ _ _ _ token n); [exact B|now rewrite <- Al|exact Sg|]. intros kid kk I1. rewrite <- Al.
      destruct (lib_verify (t_lib t) (j_alg j) kk token) as [c|] eqn:W; [|reflexivity]. destruct U. exists kid, kk, c. split; assumption.
  - assert (Un : mem_str (accept_alg (j_alg j)) rsa_algs || mem_str (accept_alg (j_alg j)) ec_algs || mem_str (accept_alg (j_alg j)) hmac_algs = false).
    { destruct (accept_cases (j_alg j)) as [X|[X|X]]; [contradiction|rewrite X; reflexivity|rewrite X; reflexivity]. }
    rewrite Un in P. destruct (lib_parse (t_lib t) token) as [c|] eqn:Pc; injection P as <- <- _ _.
    + destruct (verify_date_claims _ _ _) eqn:Vd; [discriminate Hc|]. injection Hc as <-.
      apply (re_dates _ _ _ _ _ _ token c); [exact B| |exact Pc|exact (Late _ eq_refl Vd)]. intros S2. rewrite <- Al in S2. contradiction.
    + injection Hc as <-. apply (re_text _ _ _ _ _ _ token); [exact B|now rewrite <- Al|exact Pc].
Qed.

(** Refreshes *)
Lemma rotation_line_iff : forall L now r j path auth p n k, In (TRotate p n k) (jwt_lines L now r (Some j) path auth) <->
  p = r_path r /\ n = r_jwt r /\ refresh_triggered j (snd (validate_jwt L now j auth)) = true /\
  exists token, bearer auth token /\ extract_kid token = k.
Proof.
  intros L now r j path auth p n k. destruct (split " " auth) as [|s [|token rest]] eqn:Hs.
  1,2: unfold jwt_lines, validate_jwt; rewrite Hs; (split; [intros [D|[]]; discriminate D|]); intros (_ & _ & D & _); discriminate D.
  rewrite (jwt_lines_eq _ _ _ _ _ _ _ _ _ Hs), (validate_rotates _ _ _ _ _ _ _ Hs).
  assert (B := split_bearer _ _ _ _ Hs).
  destruct (parse_token_log L j token) as [[[[pr er] kid] rot]|] eqn:P; [|split; [intros []|intros (_ & _ & D & _); discriminate D]].
  assert (Rk : forall k', rot = Some k' -> k' = extract_kid token).
  { intros k' ->. unfold parse_token_log in P. cbv zeta in P. destruct (mem_str _ rsa_algs || mem_str _ ec_algs || mem_str _ hmac_algs).
    - unfold verify_signature_log in P. destruct (lib_signatures L token) as [[|m]|]; try discriminate P.
      cbv zeta in P. destruct (verify_signature _ _ _ _) as [[[p1 e1] ro]|]; [|discriminate P]. injection P as _ _ _ P. destruct ro; congruence.
    - destruct (lib_parse L token); discriminate P. }
  rewrite in_app_iff. unfold rotation_lines. split.
  - intros [I1|I1].
    + destruct rot as [k'|]; [|destruct I1]. destruct (refresh_triggered j true) eqn:T; [|destruct I1]. destruct I1 as [I1|[]]. injection I1 as <- <- <-.
      split; [reflexivity|]. split; [reflexivity|]. split; [exact T|]. exists token. split; [exact B|]. symmetry. apply Rk. reflexivity.
    + destruct (ruled _ _ _ _); [destruct I1 as [I1|[]]; discriminate I1..|destruct I1].
  - intros (-> & -> & T & token' & B' & <-). left. rewrite (bearer_unique _ _ _ B' B). destruct rot as [k'|]; [|discriminate T].
    cbn [is_some] in T. rewrite T. left. f_equal. apply Rk. reflexivity.
Qed.

Lemma traced_rotation : forall so srt cfg0 t x ls auth p n k, traces t x ls -> sized (t_req t) -> in_use so srt cfg0 (t_cfg t) -> auth_of t auth ->
  (In (TRotate p n k) (events ls) <->
   exists r j0 j token sigs, routed t r /\ r_jwt r <> "" /\ p = r_path r /\ n = r_jwt r /\
     lookup n (c_jwt cfg0) = Some (Some j0) /\ In (j_alg j0) signing /\ j_url j0 <> "" /\ lookup n (c_jwt (t_cfg t)) = Some (Some j) /\
     bearer auth token /\ lib_signatures (t_lib t) token = Some (S sigs) /\ k <> "" /\ names_kid token k /\ ~ known j k).
Proof.
  intros so srt cfg0 t x ls auth p n k H Hq Hu Ha. apply auth_is in Ha. subst auth. split.
  - intros He. destruct (traced_token t x ls _ H Hq He I) as (r & Hr & Hj & Hin).
    destruct (route_jwt so srt cfg0 (t_cfg t) r Hu) as (j0 & docs & j & L0 & L1 & Re); [exact (proj1 (List.find_some _ _ (proj2 (proj2 Hr))))|exact Hj|].
    assert (D : route_def t r = Some j) by (unfold route_def; now rewrite L1). rewrite D in Hin. apply rotation_line_iff in Hin.
    destruct Hin as (-> & -> & T & token' & B' & K). apply (refresh_exactly _ _ _ _ _ _ _ _ Re) in T. cbn [named j_alg j_url] in T.
    destruct T as (S1 & U & token & m & kid & B & Sg & Kn & Na & Un). assert (token' = token) by exact (bearer_unique _ _ _ B' B). subst token'.
    assert (kid = k). { apply kid_iff in Na; [|exact Kn]. congruence. } subst kid.
    exists r, j0, j, token, m. repeat (split; [solve [assumption|reflexivity]|]). exact Un.
  - intros (r & j0 & j & token & m & Hr & Hj & -> & -> & L0 & S1 & U & L1 & B & Sg & Kn & Na & Un).
    destruct (traced_split t x ls H) as [[N _]|[[M _]|[_ E]]].
    + destruct N. eexists. split; [reflexivity|right; exact (proj1 Hr)].
    + destruct Hr as [Hp _]. unfold proxied_request in Hp. rewrite M in Hp. discriminate Hp.
    + rewrite E, (later_routed t x r Hr). apply in_app_iff. right. apply in_app_iff. left. apply in_app_iff. left. pose proof Hj as Hj'. apply has_jwt_iff in Hj'. rewrite Hj'.
      assert (D : route_def t r = Some j) by (unfold route_def; now rewrite L1). rewrite D. apply rotation_line_iff. split; [reflexivity|]. split; [reflexivity|]. split.
      * destruct (route_jwt so srt cfg0 (t_cfg t) r Hu) as (j0' & docs & j' & L0' & L1' & Re); [exact (proj1 (List.find_some _ _ (proj2 (proj2 Hr))))|exact Hj|].
        assert (j' = j) by congruence. subst j'. assert (j0' = j0) by congruence. subst j0'.
        apply (refresh_exactly _ _ _ _ _ _ _ _ Re). cbn [named j_alg j_url]. split; [exact S1|]. split; [exact U|]. exists token, m, k. repeat (split; [assumption|]). exact Un.
      * exists token. split; [exact B|]. now apply kid_iff.
Qed.
