(** Proofs about whole requests. *)
From Coq Require Import String Ascii List Bool ZArith NArith Lia.
From Verif Require Import GoStr Header HeaderSpec HeaderProofs Regex RegexSpec Policy Config ConfigSpec ConfigProofs Routing Json JsonSpec JsonProofs Exchange ExchangeSpec ExchangeProofs
  Jwt JwtSpec Machine MachineSpec MachineProofs MachineTimely Handler HandlerSpec HandlerProofs SystemSpec.
Import ListNotations.
Local Open Scope string_scope.

(** * Responses of a run, on any schedule *)

Definition from (ls : list label) (rs : up_response) : Prop := exists i, answered ls i rs.

Lemma from_app : forall ls l rs, from ls rs -> from (ls ++ [l]) rs.
Proof. intros ls l rs [i H]. exists i. now apply old_in. Qed.

Definition shape (c : conf) (ls : list label) (r : response) : Prop :=
  (exists dice st m, r = send_status (c_env c) dice (c_down c) st m) \/
  (exists d body, r = assemble (c_env c) (c_down c) d body /\ from ls (df_headers d)).

Lemma shape_app : forall c ls l r, shape c ls r -> shape c (ls ++ [l]) r.
Proof. intros c ls l r [H|(d & b & H1 & H2)]; [now left|]. right. exists d, b. split; [exact H1|]. now apply from_app. Qed.

Record origin (c : conf) (ls : list label) (s : state) : Prop := {
  y_h : forall i rs, h_seen (a_h (s_att s i)) = Some (Some rs) -> from ls rs;
  y_resp : forall i rs, a_resp (s_att s i) = Some rs -> from ls rs;
  y_draft : match s_pc s with PBuild st _ d => st <> StHeader -> from ls (df_headers d) | _ => True end;
  y_out : forall r, In r (s_out s) -> shape c ls r }.

Lemma origin_step : forall c ls s l s', origin c ls s -> step c s l = Some s' -> origin c (ls ++ [l]) s'.
Proof.
  intros c ls s l s' [Y1 Y2 Y3 Y4] H. destruct s as [m n dw fl p sent out]. simp.
  assert (F1 : forall i rs, h_seen (a_h (m i)) = Some (Some rs) -> from (ls ++ [l]) rs) by (intros; eapply from_app, Y1; eassumption).
  assert (F2 : forall i rs, a_resp (m i) = Some rs -> from (ls ++ [l]) rs) by (intros; eapply from_app, Y2; eassumption).
  assert (F4 : forall r, In r out -> shape c (ls ++ [l]) r) by (intros; now apply shape_app, Y4).
  step_cases H; simp; subst; simp; constructor; unfold upd in *; simp; auto.
  all: try exact I.
  all: try (intros k rs; destruct (Nat.eqb k _); simp; eauto; discriminate).
  all: try (intros r Hr; apply in_app_or in Hr; destruct Hr as [Hr|[<-|[]]]; [now apply F4|left; eexists _, _, _; reflexivity]).
  all: try (intros _; apply from_app; apply Y3; discriminate).
  all: try (intros Hn; now elim Hn).
  all: try (intros _; cbn [df_headers]; eapply F2; eassumption).
  all: try (intros r Hr; apply in_app_or in Hr; destruct Hr as [Hr|[<-|[]]]; [now apply F4|];
            right; eexists _, _; split; [reflexivity|]; apply from_app, Y3; discriminate).
  all: try (destruct p; auto; intros Hn; apply from_app; apply Y3; exact Hn).
  all: unfold upd; intros k rs0; repeat match goal with |- context [Nat.eqb ?k ?q] => destruct (Nat.eqb_spec k q) as [->|?]; simp end; intros E;
    try discriminate E; try (eapply F1; eassumption); try (eapply F2; eassumption).
  all: try (injection E as ->; eexists; apply last_in).
  all: try (eapply F1; match goal with H : a_h _ = _ |- _ => rewrite H end; exact E).
  all: subst o; apply (F1 i); rewrite Heqh; reflexivity.
Qed.

Lemma reach_origin : forall c ls s, reach c ls s -> origin c ls s.
Proof.
  intros c ls s H. induction H as [|ls s l s' H IH Hs].
  - constructor; cbn; try discriminate; [exact I | intros r []].
  - now apply (origin_step c ls s l s').
Qed.

Lemma out_shape : forall c ls s r, exec c init ls = Some s -> In r (s_out s) -> shape c ls r.
Proof. intros c ls s r H. exact (y_out _ _ _ (reach_origin c ls s (exec_reach c ls s H)) r). Qed.

(** * Requests sent *)

Lemma ran_inv : forall t c s, ran t c s -> sized (t_req t) ->
  proxied_request (t_cfg t) (t_in t) /\ sound_request (t_env t) (t_req t) /\
  exists r u label,
    select_route (c_routes (t_cfg t)) (q_raw_uri (t_req t)) = Some r /\ map_url (ch_label (t_chance t)) (t_cfg t) r = Mapped u label /\
    let w := parse_incoming (t_env t) (ch_fresh (t_chance t)) (t_req t) in
    c = Conf (t_env t) w (scaffold_request w (resolve_upstream_uri r u (q_uri (t_req t))))
             (t_new t (w_method w) (resolve_upstream_uri r u (q_uri (t_req t)))) (up_max_attempts (c_up (t_cfg t))).
Proof.
  intros t c s [H _] Hq. unfold t_serve in H. destruct (upstream_sound _ _ _ _ _ _ _ H Hq) as [Hp Hs].
  split; [exact Hp|]. split; [exact Hs|]. assert (Hv := serve_sound (t_env t) (t_lib t) (t_new t) (t_cfg t) (t_chance t) (t_in t) Hp Hs).
  cbv zeta in Hv. rewrite Hv in H. clear Hv. unfold t_req.
  destruct (select_route _ _) as [r|]; [|discriminate H].
  destruct (if has_jwt r then _ else _); [|discriminate H|discriminate H].
  destruct (map_url _ _ r) as [u label| |] eqn:Em; [|discriminate H|discriminate H].
  exists r, u, label. split; [reflexivity|]. split; [exact Em|]. injection H as H. symmetry. exact H.
Qed.

Lemma asks_inv : forall t x, asks t x -> sized (t_req t) ->
  exists c s, ran t c s /\ x = c_request c.
Proof.
  intros t x (xs & (c & s & Hr & Hx) & Hin) Hq. exists c, s. split; [exact Hr|].
  subst xs. exact (attempts_same c (t_run t) s (proj2 Hr) x Hin).
Qed.

Lemma asks_method : forall t x, asks t x -> sized (t_req t) ->
  uq_method x = to_upper (q_method (t_req t)) /\ In (uq_method x) known_methods.
Proof.
  intros t x H Hq. destruct (asks_inv t x H Hq) as (c & s & Hr & ->).
  destruct (ran_inv t c s Hr Hq) as (_ & (_ & Hm & _) & r & u & l & _ & _ & ->). cbn. split; [reflexivity|exact Hm].
Qed.

Lemma asks_body : forall t x, asks t x -> sized (t_req t) ->
  uq_body x = q_data (t_req t) \/ uq_body x = "".
Proof.
  intros t x H Hq. destruct (asks_inv t x H Hq) as (c & s & Hr & ->).
  destruct (ran_inv t c s Hr Hq) as (_ & _ & r & u & l & _ & _ & ->). apply whole_or_empty.
Qed.

Lemma asks_whole_body : forall t x, asks t x -> sized (t_req t) -> honest_length (t_req t) \/ chunked (t_req t) ->
  (0 < e_max_body (t_env t))%Z -> (Z.of_nat (String.length (q_data (t_req t))) < e_max_body (t_env t))%Z ->
  uq_body x = q_data (t_req t).
Proof.
  intros t x H Hq Hh Hm Hl. destruct (asks_inv t x H Hq) as (c & s & Hr & ->).
  destruct (ran_inv t c s Hr Hq) as (_ & _ & r & u & l & _ & _ & ->). now apply within_forwarded.
Qed.

Lemma choice_id : forall t, id_of t (w_id (parse_incoming (t_env t) (ch_fresh (t_chance t)) (t_req t))).
Proof.
  intros t. unfold id_of. rewrite request_id_choice.
  destruct (values "X-Request-Id" (q_header (t_req t))) as [|v vs]; [reflexivity|].
  destruct (String.eqb_spec v "") as [->|Hn]; split; intros; congruence.
Qed.

Lemma id_unique : forall t a b, id_of t a -> id_of t b -> a = b.
Proof.
  intros t a b Ha Hb. unfold id_of in *. destruct (values _ _) as [|v vs]; [congruence|].
  destruct Ha as [A1 A2], Hb as [B1 B2]. destruct (String.eqb_spec v "") as [->|Hn]; [rewrite A2, B2|rewrite A1, B1]; auto.
Qed.

Lemma asks_header : forall t x id k, asks t x -> sized (t_req t) -> canonical_keys (q_header (t_req t)) -> id_of t id ->
  values k (uq_header x) =
  if String.eqb k "X-Request-Id" then [id]
  else if existsb (String.eqb k) never_copied then [] else values k (q_header (t_req t)).
Proof.
  intros t x id k H Hq Hc Hi. destruct (asks_inv t x H Hq) as (c & s & Hr & ->).
  destruct (ran_inv t c s Hr Hq) as (_ & _ & r & u & l & _ & _ & ->). cbn [c_request].
  rewrite headers_upstream by exact Hc. now rewrite (id_unique t _ _ (choice_id t) Hi).
Qed.

Lemma asks_count : forall so srt cfg0 t xs, in_use so srt cfg0 (t_cfg t) -> sends t xs -> sized (t_req t) ->
  (Z.of_nat (length xs) <= Z.max 1 (up_max_attempts (c_up cfg0)))%Z /\
  (~ In (to_upper (q_method (t_req t))) ["GET"; "HEAD"; "OPTIONS"; "TRACE"; "PUT"; "DELETE"] -> length xs <= 1).
Proof.
  intros so srt cfg0 t xs Hu (c & s & Hr & <-) Hq.
  destruct (ran_inv t c s Hr Hq) as (_ & _ & r & u & l & _ & _ & Ec). split.
  - assert (B := attempts_bound c (t_run t) s (proj2 Hr)). rewrite Ec in B at 1. cbn [c_max] in B.
    destruct Hu as [_ [cfg1 [Hb [_ [_ [_ [Hup _]]]]]]]. rewrite Hup in B.
    destruct (boot_up_filled _ _ _ _ _ Hb) as (_ & _ & _ & _ & [[Hz Hd]|[Hz Hd]] & _); rewrite Hd in B; lia.
  - intros Hn. apply (attempts_once c (t_run t) s); [|exact (proj2 Hr)]. rewrite Ec. exact Hn.
Qed.

Lemma forall2_nth : forall A B (P : A -> B -> Prop) l l', Forall2 P l l' -> forall y, In y l' -> exists x, In x l /\ P x y.
Proof.
  intros A B P l l' H. induction H as [|x y l l' Hp _ IH]; intros z Hz; [contradiction|]. destruct Hz as [<-|Hz].
  - exists x. split; [now left|exact Hp].
  - destruct (IH z Hz) as (x' & I' & P'). exists x'. split; [now right|exact P'].
Qed.

Definition same_server (u0 u : url) : Prop :=
  u_host u = u_host u0 /\ u_port u = u_port u0 /\ u_scheme u = norm_scheme (u_scheme u0).

Lemma asks_uri : forall so srt cfg0 t x, in_use so srt cfg0 (t_cfg t) -> asks t x -> sized (t_req t) ->
  exists r0 r ms m u,
    (In r0 (c_routes cfg0) /\ route_matches r0 (q_raw_uri (t_req t)) /\
     forall r1, In r1 (c_routes cfg0) -> route_matches r1 (q_raw_uri (t_req t)) ->
       (String.length (slashed (r_path r1)) <= String.length (slashed (r_path r0)))%nat) /\
    (lookup (r_resource r0) (c_resources cfg0) = Some (Some ms) /\ In m ms /\ same_server (rm_url m) u) /\
    ((r_policy r0 = "" /\ hd_error ms = Some m) \/
     (r_policy r0 <> "" /\
      In (ch_label (t_chance t) (match lookup (r_policy r0) (c_policies (t_cfg t)) with Some p => p | None => [] end)) (rm_labels m))) /\
    booted_from r0 r /\ In r (c_routes (t_cfg t)) /\ match_uri r (q_raw_uri (t_req t)) = true /\
    uq_uri x = resolve_upstream_uri r u (q_uri (t_req t)).
Proof.
  intros so srt cfg0 t x Hu H Hq. destruct (asks_inv t x H Hq) as (c & s & Hr & ->).
  destruct (ran_inv t c s Hr Hq) as (_ & _ & r & u & l & Hs & Hm & Ec). cbv zeta in Ec. rewrite Ec. cbn [c_request uq_uri scaffold_request].
  destruct (in_use_boot _ _ _ _ Hu) as [Hsrt [cfg1 [Hb [Er Es]]]].
  assert (Hs' := Hs). rewrite Er in Hs'. destruct (select_longest _ _ _ _ _ _ _ Hsrt Hb Hs') as [(r0 & H0 & B0 & M0) Hlong].
  apply map_url_mapped in Hm. destruct Hm as (ms' & Hl & Hm'). rewrite Es in Hl.
  destruct (boot_schemes _ _ _ _ _ _ _ Hb Hl) as (ms & Hl0 & Hms).
  pose proof B0 as (B1 & B2 & B3 & B4 & _).
  assert (G : exists m, In m ms /\ same_server (rm_url m) u /\
    ((r_policy r0 = "" /\ hd_error ms = Some m) \/
     (r_policy r0 <> "" /\
      In (ch_label (t_chance t) (match lookup (r_policy r0) (c_policies (t_cfg t)) with Some p => p | None => [] end)) (rm_labels m)))).
  { rewrite <- B4. destruct Hm' as [(P & _ & m' & post & -> & <-)|(P & -> & pre & m' & post & -> & Hlab & <- & _)].
    - inversion Hms as [|m m'' l1 l2 (Q1 & Q2 & Q3 & Q4 & Q5) Q6]; subst. exists m. split; [now left|]. split; [now repeat split|].
      left. now split.
    - destruct (forall2_nth _ _ _ _ _ Hms m') as (m & I & Q1 & Q2 & Q3 & Q4 & Q5); [apply in_or_app; right; now left|].
      exists m. split; [exact I|]. split; [now repeat split|]. right. split; [exact P|]. now rewrite <- Q1. }
  destruct G as (m & I & S & G). exists r0, r, ms, m, u.
  split.
  { split; [exact H0|]. split; [exact M0|]. intros r1 I1 M1. rewrite <- B1. now apply Hlong. }
  split; [rewrite <- B3; split; [exact Hl0|split; [exact I|exact S]]|]. split; [exact G|]. split; [exact B0|].
  apply find_some in Hs. destruct Hs as [S1 S2]. split; [exact S1|]. split; [exact S2|reflexivity].
Qed.

(** C15 and C16: where requests go *)
Lemma asks_where : forall so srt cfg0 t x, in_use so srt cfg0 (t_cfg t) -> asks t x -> sized (t_req t) ->
  exists r0 ms m u rest,
    (In r0 (c_routes cfg0) /\ route_matches r0 (q_raw_uri (t_req t)) /\
     forall r1, In r1 (c_routes cfg0) -> route_matches r1 (q_raw_uri (t_req t)) ->
       (String.length (slashed (r_path r1)) <= String.length (slashed (r_path r0)))%nat) /\
    (lookup (r_resource r0) (c_resources cfg0) = Some (Some ms) /\ In m ms /\ server_of (rm_url m) u) /\
    ((r_policy r0 = "" /\ hd_error ms = Some m) \/
     (r_policy r0 <> "" /\
      In (ch_label (t_chance t) (match lookup (r_policy r0) (c_policies (t_cfg t)) with Some p => p | None => [] end)) (rm_labels m))) /\
    uq_uri x = base_url u ++ rest /\
    (r_transform r0 = "" -> rest = q_uri (t_req t)) /\
    (r_transform r0 <> "" -> literal (r_path r0) = true -> (exists y, r_path r0 = "/" ++ y) -> origin_form (t_req t) ->
     exists tail, q_raw_uri (t_req t) = r_path r0 ++ tail /\
       rest = (if String.eqb (r_transform r0) "/" then "" else r_transform r0) ++ tail).
Proof.
  intros so srt cfg0 t x Hu H Hq. destruct (asks_uri so srt cfg0 t x Hu H Hq) as (r0 & r & ms & m & u & H1 & (L1 & L2 & S1 & S2 & S3) & H3 & B & I & M & E).
  pose proof B as (B1 & B2 & _). rewrite E. clear E.
  assert (R : exists rest, resolve_upstream_uri r u (q_uri (t_req t)) = base_url u ++ rest /\
              (r_transform r0 = "" -> rest = q_uri (t_req t))).
  { unfold resolve_upstream_uri, base_url, url_string. rewrite B2. destruct (String.eqb_spec (r_transform r0) "") as [Z|Z].
    - eexists. split; [reflexivity|]. reflexivity.
    - eexists. split; [reflexivity|]. intros; contradiction. }
  destruct R as (rest & R1 & R2). exists r0, ms, m, u, rest.
  split; [exact H1|]. split.
  { split; [exact L1|]. split; [exact L2|]. split; [exact S1|]. split; [exact S2|]. rewrite S3.
    destruct (norm_scheme_spec (u_scheme (rm_url m))) as (N1 & N2 & N3 & _). split; [exact N1|]. split; [exact N2|exact N3]. }
  split; [exact H3|]. split; [exact R1|].
  split; [exact R2|]. intros T Lit Sl O. unfold origin_form in O.
  destruct (in_use_boot _ _ _ _ Hu) as [Hsrt [cfg1 [Hb [Er Es]]]]. rewrite Er in I.
  destruct (transform_literal _ _ _ _ _ r r0 u (q_raw_uri (t_req t)) Hsrt Hb I (proj1 H1) B Lit Sl T M) as (tail & T1 & T2).
  exists tail. split; [exact T1|]. rewrite O in R1. rewrite R1 in T2. unfold base_url in T2. rewrite !append_assoc in T2.
  repeat (apply append_inj_l in T2). exact T2.
Qed.

(** * Responses *)

Definition parsed (t : setting) : down := parse_incoming (t_env t) (ch_fresh (t_chance t)) (t_req t).

Lemma ran_conf : forall t c s, ran t c s -> sized (t_req t) -> c_env c = t_env t /\ c_down c = parsed t /\
  c_ok c = t_new t (uq_method (c_request c)) (uq_uri (c_request c)).
Proof.
  intros t c s H Hq. destruct (ran_inv t c s H Hq) as (_ & _ & r & u & l & _ & _ & E). cbv zeta in E. rewrite E. now repeat split.
Qed.

Lemma answered_error : forall t r, t_serve t = Answered r -> exists dice st m,
  own_error (t_env t) st m /\ In st [400; 401; 404; 413; 503]%Z /\ r = send_status (t_env t) dice (parsed t) st m.
Proof.
  intros t r H. unfold t_serve, serve in H. destruct (mux_serve _ _); try discriminate H. unfold proxy_handler in H. fold (t_req t) in H. fold (parsed t) in H.
  destruct (validate (parsed t)); cbn [negb] in H.
  2:{ destruct (w_too_large (parsed t)); injection H as <-; eexists _, _, _; (split; [|split; [|reflexivity]]).
      - left. reflexivity.
      - cbn. tauto.
      - right. now left.
      - cbn. tauto. }
  destruct (select_route _ _) as [ro|].
  - destruct (if has_jwt ro then _ else _); [|injection H as <-|discriminate H].
    + destruct (map_url _ _ ro) as [u l| |]; [discriminate H|injection H as <-|discriminate H].
      eexists _, _, _. split; [|split; [|reflexivity]]; [right; do 3 right; now left|cbn; tauto].
    + eexists _, _, _. split; [|split; [|reflexivity]]; [right; do 1 right; now left|cbn; tauto].
  - injection H as <-. eexists _, _, _. split; [|split; [|reflexivity]]; [right; do 2 right; now left|cbn; tauto].
Qed.

Lemma run_kind : forall t c s r, ran t c s -> sized (t_req t) -> timely_run t -> In r (s_out s) ->
  (exists dice st m, own_error (t_env t) st m /\ In st [502; 504]%Z /\ r = send_status (t_env t) dice (parsed t) st m) \/
  exists dice rs body, relayed t r rs body /\ (ur_status rs < 500)%Z /\ r = proxied (t_env t) dice (parsed t) rs body.
Proof.
  intros t c s r Hr Hq Ht Hin. destruct (ran_conf t c s Hr Hq) as (Ee & Ed & _).
  assert (Ho : s_out s = [r]).
  { destruct (one_response c (t_run t) s (proj2 Hr)) as [O _]. destruct (s_out s) as [|a [|b l]]; [contradiction| |cbn in O; lia].
    destruct Hin as [->|[]]; reflexivity. }
  destruct (whole_run c (t_run t) s r (proj2 Hr) (Ht c s Hr) Ho) as [Hn W]. unfold in_order in W.
  unfold gave_up_downstream, gave_up_upstream, gave_up_error in W. rewrite Ee, Ed in W.
  destruct W as [(dice & E & _)|[_ [(dice & E & _)|[(dice & E & _)|(dice & rs & body & A & B & L & E)]]]].
  - left. exists dice. eexists _, _. split; [right; do 4 right; left; reflexivity|]. split; [cbn; tauto|exact E].
  - left. exists dice. eexists _, _. split; [right; do 5 right; left; reflexivity|]. split; [cbn; tauto|exact E].
  - left. exists dice. eexists _, _. split; [right; do 6 right; left; reflexivity|]. split; [cbn; tauto|exact E].
  - right. exists dice, rs, body. split; [|split; [exact L|exact E]]. exists c, s. split; [exact Hr|]. split; [exact Ho|].
    rewrite <- Hn. split; [|split; [exact A|exact B]]. rewrite E, proxied_status. cbn. lia.
Qed.

(** Every response is the about page, an error of the proxy, or made of one upstream answer. *)
Lemma replies_kind : forall t r, replies t r -> sized (t_req t) -> timely_run t ->
  t_serve t = About r \/
  (exists dice st m, own_error (t_env t) st m /\ r = send_status (t_env t) dice (parsed t) st m) \/
  exists dice rs body, relayed t r rs body /\ (ur_status rs < 500)%Z /\ r = proxied (t_env t) dice (parsed t) rs body.
Proof.
  intros t r [H|[H|(c & s & Hr & Hin)]] Hq Ht.
  - now left.
  - right. left. destruct (answered_error t r H) as (dice & st & m & O & _ & E). exists dice, st, m. now split.
  - right. destruct (run_kind t c s r Hr Hq Ht Hin) as [(dice & st & m & O & _ & E)|H]; [left; exists dice, st, m; now split|right; exact H].
Qed.

Lemma relayed_proxied : forall t r rs body, relayed t r rs body -> sized (t_req t) -> timely_run t ->
  exists dice, r = proxied (t_env t) dice (parsed t) rs body /\ (ur_status rs < 500)%Z.
Proof.
  intros t r rs body (c & s & Hr & Ho & Hn & A & B) Hq Ht.
  destruct (run_kind t c s r Hr Hq Ht) as [(dice & st & m & _ & I & E)|(dice & rs' & body' & (c' & s' & Hr' & Ho' & _ & A' & B') & L & E)].
  - rewrite Ho. now left.
  - elim Hn. rewrite E. exact I.
  - destruct Hr as [R1 R2], Hr' as [R1' R2']. assert (c' = c) by congruence. subst c'. assert (s' = s) by congruence. subst s'.
    pose proof (do_once c (t_run t) s _ _ _ R2 A A') as X. injection X as ->.
    destruct (read_once c (t_run t) s _ _ _ _ _ R2 B B') as [-> _]. exists dice. now split.
Qed.

Lemma about_id : forall E dice fresh q, values "X-Request-Id" (rp_header (about_page E dice fresh q)) = [w_id (parse_incoming E fresh q)].
Proof.
  intros. unfold about_page. destruct (match values "Accept-Encoding" (q_header q) with [] => _ | _ => _ end) as [ce b].
  cbn [rp_header]. rewrite !values_set. now rewrite standard_values.
Qed.

(** C23 *)
Lemma one_id : forall t id, sized (t_req t) -> id_of t id ->
  (canonical_keys (q_header (t_req t)) -> forall x, asks t x -> values "X-Request-Id" (uq_header x) = [id]) /\
  (canonical_answers (t_run t) -> forall r, replies t r -> hd_error (values "X-Request-Id" (rp_header r)) = Some id).
Proof.
  intros t id Hq Hi. pose proof (id_unique t _ _ (choice_id t) Hi) as Ei. split.
  - intros Hc x Hx. now rewrite (asks_header t x id "X-Request-Id" Hx Hq Hc Hi).
  - intros Hc r [H|[H|(c & s & Hr & Hin)]].
    + unfold t_serve, serve in H. destruct (mux_serve _ _); try discriminate H; [injection H as <-|].
      * rewrite about_id. fold (t_req t). now rewrite Ei.
      * unfold proxy_handler in H. destruct (negb _); [destruct (w_too_large _); discriminate H|].
        destruct (select_route _ _); [|discriminate H]. destruct (if has_jwt r0 then _ else _); try discriminate H.
        destruct (map_url _ _ r0); discriminate H.
    + destruct (answered_error t r H) as (dice & st & m & _ & _ & ->). rewrite request_id_error. unfold parsed. now rewrite Ei.
    + destruct (ran_conf t c s Hr Hq) as (Ee & Ed & _).
      destruct (out_shape c (t_run t) s r (proj2 Hr) Hin) as [(dice & st & m & ->)|(d & body & -> & i & A)].
      * rewrite request_id_error, Ed. unfold parsed. now rewrite Ei.
      * rewrite request_id_proxied by (apply (Hc i), A). rewrite Ed. unfold parsed. now rewrite Ei.
Qed.

(** C18 *)
Lemma too_large_413 : forall t, proxied_request (t_cfg t) (t_in t) -> honest_length (t_req t) -> configured t ->
  (0 <= d_max_body (Config.c_down (t_cfg t)) < Z.of_nat (String.length (q_data (t_req t))))%Z ->
  (exists r, t_serve t = Answered r /\ rp_status r = 413%Z) /\ forall x, ~ asks t x.
Proof.
  intros t Hp Hh [Hm _] [H0 H]. rewrite <- Hm in *.
  assert (L : w_too_large (parsed t) = true) by now apply declared_rejected.
  assert (S : exists r, t_serve t = Answered r /\ rp_status r = 413%Z).
  { unfold t_serve, serve. unfold proxied_request in Hp. rewrite Hp. unfold proxy_handler. fold (t_req t). fold (parsed t).
    unfold validate. rewrite L. cbn [negb andb]. rewrite ?andb_false_r. cbn [negb]. eexists. split; reflexivity. }
  split; [exact S|]. intros x (xs & (c & s & [R _] & _) & _). destruct S as [r [S _]]. congruence.
Qed.

(** C26 *)
Lemma statuses : forall t r, replies t r -> sized (t_req t) -> timely_run t ->
  (t_serve t = About r /\ rp_status r = 200%Z) \/
  (t_serve t = Answered r /\ In (rp_status r) [400; 401; 404; 413; 503]%Z) \/
  ((exists c, t_serve t = Upstream c) /\
   (In (rp_status r) [502; 504]%Z \/ exists rs body, relayed t r rs body /\ rp_status r = ur_status rs /\ (ur_status rs < 500)%Z)).
Proof.
  intros t r [H|[H|(c & s & Hr & Hin)]] Hq Ht.
  - left. split; [exact H|]. unfold t_serve, serve in H. destruct (mux_serve _ _); try discriminate H; [injection H as <-|].
    + unfold about_page. now destruct (match values "Accept-Encoding" _ with [] => _ | _ => _ end) as [ce b].
    + unfold proxy_handler in H. destruct (negb _); [destruct (w_too_large _); discriminate H|].
      destruct (select_route _ _); [|discriminate H]. destruct (if has_jwt r0 then _ else _); try discriminate H.
      destruct (map_url _ _ r0); discriminate H.
  - right. left. split; [exact H|]. destruct (answered_error t r H) as (dice & st & m & _ & I & ->). exact I.
  - right. right. split; [exists c; exact (proj1 Hr)|].
    destruct (run_kind t c s r Hr Hq Ht Hin) as [(dice & st & m & O & I & ->)|(dice & rs & body & R & L & ->)]; [left; exact I|].
    right. exists rs, body. split; [exact R|]. split; [apply proxied_status|exact L].
Qed.

(** C31 *)
Lemma ascii_is_utf8 : forall s, (forall c, has_char c s = true -> rng 0 127 c = true) -> utf8 s.
Proof.
  induction s as [|a s IH]; intros H; [constructor|]. constructor.
  - apply H. cbn [has_char]. now rewrite Ascii.eqb_refl.
  - apply IH. intros c Hc. apply H. cbn [has_char]. now rewrite Hc, orb_true_r.
Qed.

Lemma utf8_app : forall a b, utf8 a -> utf8 b -> utf8 (a ++ b).
Proof. intros a b Ha Hb. induction Ha; cbn [append]; [exact Hb|..]; now constructor. Qed.

Lemma itoa_utf8 : forall n, utf8 (itoa n).
Proof.
  intros n. apply ascii_is_utf8. intros c H. apply itoa_digits in H. unfold N_in, rng, code_of in *.
  apply andb_true_iff in H. destruct H as [H1 H2]. apply N.leb_le in H1, H2. apply andb_true_iff. split; apply N.leb_le; lia.
Qed.

Lemma own_error_text : forall E st m, own_error E st m -> utf8 m /\ m <> "" /\ m <> "none".
Proof.
  intros E st m [H|H].
  - injection H as _ ->. split; [|split; discriminate]. repeat (apply utf8_1; [reflexivity|]). apply utf8_app; [|ascii_utf8].
    unfold itoa_Z. destruct (e_max_body E); try apply itoa_utf8. apply utf8_app; [ascii_utf8|apply itoa_utf8].
  - repeat (destruct H as [H|H]; [injection H as <- <-; split; [ascii_utf8|split; discriminate]|]). destruct H.
Qed.

Lemma errors_readable : forall t r dec, replies t r -> sized (t_req t) -> timely_run t ->
  utf8 (e_id (t_env t)) -> utf8 (e_version (t_env t)) -> no_gzip_client (t_req t) ->
  t_serve t = About r \/ (exists rs body, relayed t r rs body) \/
  exists status m dice text, own_error (t_env t) status m /\ rp_status r = status /\
    values "Content-Type" (rp_header r) = ["application/json"] /\
    content_of dec (values "Content-Encoding" (rp_header r)) (rp_body r) = Some text /\
    read_object text = Some [("j8a", JStr (random_huttese dice)); ("ServerID", JStr (e_id (t_env t)));
      ("Version", JStr (e_version (t_env t))); ("Code", JInt status); ("Message", JStr m)].
Proof.
  intros t r dec H Hq Ht H1 H2 Hg. destruct (replies_kind t r H Hq Ht) as [A|[(dice & st & m & O & ->)|(dice & rs & body & R & _)]].
  - now left.
  - right. right. destruct (own_error_text _ _ _ O) as (M1 & M2 & M3).
    destruct (error_readable (t_env t) dec dice (ch_fresh (t_chance t)) (t_req t) st m H1 H2 M1 M2 M3 Hg) as (E1 & E2 & text & E3 & E4).
    exists st, m, dice, text. split; [exact O|]. split; [exact E1|]. split; [exact E2|]. split; [exact E3|exact E4].
  - right. left. now exists rs, body.
Qed.

(** * Relayed answers *)

Ltac relayed := intros; match goal with H : relayed _ _ _ _, Hq : sized _, Ht : timely_run _ |- _ =>
  destruct (relayed_proxied _ _ _ _ H Hq Ht) as (dice & -> & Hlt) end; unfold parsed.

Lemma relayed_headers : forall t r rs body k, relayed t r rs body -> sized (t_req t) -> timely_run t -> canonical_keys (ur_header rs) ->
  (values "Server" (rp_header r) = ["j8a " ++ e_version (t_env t) ++ " " ++ e_id (t_env t)] /\
   values "Date" (rp_header r) = [] /\ values "Transfer-Encoding" (rp_header r) = []) /\
  (~ (400 <= ur_status rs < 500)%Z -> ~ In k own_headers -> ~ In k never_copied -> values k (rp_header r) = values k (ur_header rs)).
Proof. relayed. split; [now apply server_proxied|]. intros. now apply headers_proxied. Qed.

Lemma relayed_content : forall t dec r rs body x, relayed t r rs body -> sized (t_req t) -> timely_run t ->
  codec (t_env t) dec -> canonical_keys (ur_header rs) -> ~ (400 <= ur_status rs < 500)%Z ->
  let ce := values "Content-Encoding" (ur_header rs) in
  content_of dec ce body = Some x ->
  (((ce = [] \/ ce = ["identity"]) /\ ~ gzip_start body) \/
   (ce = ["gzip"] /\ x <> "") \/
   (no_gzip_client (t_req t) /\ ~ gzip_start body)) ->
  content_of dec (values "Content-Encoding" (rp_header r)) (rp_body r) = Some x.
Proof. relayed. now apply content_same. Qed.

Lemma relayed_length : forall t r rs body, relayed t r rs body -> sized (t_req t) -> timely_run t -> canonical_keys (ur_header rs) ->
  ~ (400 <= ur_status rs < 500)%Z -> ur_status rs <> 204%Z -> ~ (100 <= ur_status rs < 200)%Z ->
  to_upper (q_method (t_req t)) <> "HEAD" -> to_upper (q_method (t_req t)) <> "CONNECT" ->
  values "Content-Length" (rp_header r) = [itoa_Z (Z.of_nat (String.length (rp_body r)))].
Proof. relayed. now apply length_proxied. Qed.

Lemma relayed_plain : forall t r rs body, relayed t r rs body -> sized (t_req t) -> timely_run t -> no_gzip_client (t_req t) ->
  ~ (400 <= ur_status rs < 500)%Z -> (gzip_start body -> rp_body r = e_gunzip (t_env t) body) /\ (~ gzip_start body -> rp_body r = body).
Proof. relayed. now apply no_gzip_body. Qed.

Lemma relayed_4xx : forall t r rs body, relayed t r rs body -> sized (t_req t) -> timely_run t ->
  utf8 (e_id (t_env t)) -> utf8 (e_version (t_env t)) -> (400 <= ur_status rs < 500)%Z -> no_gzip_client (t_req t) ->
  rp_status r = ur_status rs /\
  (forall k, ~ In k ["Server"; "X-Request-Id"; "Strict-Transport-Security"; "Connection"; "Content-Type"] -> values k (rp_header r) = []) /\
  exists dice, read_object (rp_body r) = Some [("j8a", JStr (random_huttese dice)); ("ServerID", JStr (e_id (t_env t)));
    ("Version", JStr (e_version (t_env t))); ("Code", JInt (ur_status rs)); ("Message", JStr (with_code (ur_status rs)))].
Proof.
  relayed. destruct (client_error_json (t_env t) dice (ch_fresh (t_chance t)) (t_req t) rs body) as (A & B & text & C1 & C2 & C3); try assumption.
  split; [exact A|]. split; [exact B|]. exists dice. rewrite C2; [exact C3|]. now apply no_gzip_flag.
Qed.

(** * Every request is answered once *)

Lemma answered_once : forall so srt cfg0 t, in_use so srt cfg0 (t_cfg t) -> honest (t_lib t) -> proxied_request (t_cfg t) (t_in t) -> sized (t_req t) ->
  no_empty_resource cfg0 -> readable (t_lib t) (get "Authorization" (q_header (t_req t))) ->
  (forall c, t_serve t = Upstream c -> t_new t (uq_method (c_request c)) (uq_uri (c_request c)) = true) -> timely_run t ->
  (forall i rs, answered (t_run t) i rs -> (100 <= ur_status rs <= 999)%Z) ->
  (exists r, t_serve t = Answered r) \/
  exists c, t_serve t = Upstream c /\ forall s, exec c init (t_run t) = Some s -> finished s -> exists r, s_out s = [r].
Proof.
  intros so srt cfg0 t Hu HL Hp Hq Hn Hd Hnew Ht Hv.
  destruct (serving_total so srt cfg0 (t_cfg t) (t_env t) (t_lib t) (t_new t) (t_chance t) (t_in t) Hu HL Hp Hq Hn Hd) as [(r & H & _)|(c & H & Hok)].
  - left. exists r. exact H.
  - right. exists c. split; [exact H|]. intros s Hs Hf.
    assert (L : length (s_out s) = 1) by (apply (exactly_one c (t_run t) s Hs); [apply (Ht c s); now split|apply Hok, Hnew, H|exact Hv|exact Hf]).
    destruct (s_out s) as [|r [|r' l]]; try discriminate L. now exists r.
Qed.

(** * Claims for any schedule *)

(** What every response looks like, on any schedule *)
Lemma replies_shape : forall t r, replies t r -> sized (t_req t) ->
  (exists dice, r = about_page (t_env t) dice (ch_fresh (t_chance t)) (t_req t)) \/
  (exists dice st m, r = send_status (t_env t) dice (parsed t) st m) \/
  (exists d body i, r = assemble (t_env t) (parsed t) d body /\ answered (t_run t) i (df_headers d)).
Proof.
  intros t r [H|[H|(c & s & Hr & Hin)]] Hq.
  - left. unfold t_serve, serve in H. destruct (mux_serve _ _); try discriminate H; [injection H as <-; eexists; reflexivity|].
    unfold proxy_handler in H. destruct (negb _); [destruct (w_too_large _); discriminate H|].
    destruct (select_route _ _); [|discriminate H]. destruct (if has_jwt r0 then _ else _); try discriminate H.
    destruct (map_url _ _ r0); discriminate H.
  - right. left. destruct (answered_error t r H) as (dice & st & m & _ & _ & ->). eexists _, _, _. reflexivity.
  - right. destruct (ran_conf t c s Hr Hq) as (Ee & Ed & _).
    destruct (out_shape c (t_run t) s r (proj2 Hr) Hin) as [(dice & st & m & ->)|(d & body & -> & i & A)]; rewrite Ee, Ed.
    + left. eexists _, _, _. reflexivity.
    + right. exists d, body, i. now split.
Qed.

Lemma about_values : forall E dice fresh q k, ~ In k ["Content-Type"; "Content-Length"; "Content-Encoding"] ->
  values k (rp_header (about_page E dice fresh q)) = values k (standard_headers E (parse_incoming E fresh q) []).
Proof.
  intros E dice fresh q k H. unfold about_page. destruct (match values "Accept-Encoding" (q_header q) with [] => _ | _ => _ end) as [ce b].
  cbn [rp_header]. rewrite !values_set. change (canon content_length_key) with "Content-Length".
  change (canon content_encoding_key) with "Content-Encoding". change (canon "Content-Type") with "Content-Type".
  cbn [In] in H. rewrite !(proj2 (String.eqb_neq _ _)); [reflexivity|intros <-; tauto..].
Qed.

(** C70 *)
Lemma hsts : forall t r, replies t r -> sized (t_req t) -> configured t -> canonical_answers (t_run t) ->
  let h := values "Strict-Transport-Security" (rp_header r) in
  (d_mode (Config.c_down (t_cfg t)) = "TLS" -> hd_error h = Some "max-age=31536000") /\
  (d_mode (Config.c_down (t_cfg t)) <> "TLS" ->
     h = [] \/ exists i rs, answered (t_run t) i rs /\ h = values "Strict-Transport-Security" (ur_header rs)).
Proof.
  intros t r H Hq [_ Hm] Hc h. rewrite <- Hm. subst h. destruct (replies_shape t r H Hq) as [(dice & ->)|[(dice & st & m & ->)|(d & body & i & -> & A)]].
  - rewrite about_values by (cbn; intuition discriminate). rewrite standard_values. cbn. destruct (e_tls (t_env t)); split; intros X; try congruence; [reflexivity|now left].
  - rewrite send_status_values, standard_values. cbn -[w_header values parsed]. unfold parsed. rewrite w_header_values by discriminate.
    destruct (e_tls (t_env t)); split; intros X; try congruence; [reflexivity|now left].
  - rewrite assemble_values, standard_values; [|exact (Hc i _ A)|discriminate|discriminate]. cbn -[w_header values parsed]. unfold parsed. rewrite w_header_values by discriminate.
    destruct (e_tls (t_env t)); split; intros X; try congruence; [reflexivity|]. right. exists i, (df_headers d). split; [exact A|reflexivity].
Qed.

(** C30 *)
Lemma length_any : forall t r, replies t r -> sized (t_req t) -> canonical_answers (t_run t) ->
  rp_status r <> 204%Z -> ~ (100 <= rp_status r < 200)%Z ->
  to_upper (q_method (t_req t)) <> "HEAD" -> to_upper (q_method (t_req t)) <> "CONNECT" ->
  values "Content-Length" (rp_header r) = [] \/
  values "Content-Length" (rp_header r) = [itoa_Z (Z.of_nat (String.length (rp_body r)))].
Proof.
  intros t r H Hq Hc H1 H2 H3 H4. destruct (replies_shape t r H Hq) as [(dice & ->)|[(dice & st & m & ->)|(d & body & i & -> & A)]].
  - right. unfold about_page. destruct (match values "Accept-Encoding" _ with [] => _ | _ => _ end) as [ce b]. cbn [rp_header rp_body].
    rewrite values_set. reflexivity.
  - left. rewrite send_status_values, standard_values. cbn -[w_header values parsed]. unfold parsed. now rewrite w_header_values by discriminate.
  - right. apply length_true; [exact (Hc i _ A)|exact H3|exact H4|exact H1|exact H2].
Qed.
