(** Cases for Thm_Dice. *)
From Coq Require Import String List Bool ZArith NArith QArith Qpower Lia Permutation Floats.SpecFloat Arith.
From Verif Require Import GoStr Policy PolicySpec PolicyProofs Header ConfigSpec ConfigProofs Exchange ExchangeSpec ExchangeProofs Startup StartupSpec StartupProofs StartupCases JwtCases Machine SystemSpec SystemCases TlsProofs Handler HandlerSpec HandlerProofs HandlerCases
  Config Jwt Decode DecodeSpec DecodeProofs DecodeStart DecodeServe DecodeCases Stats StatsFloat Dice DiceSpec DiceFloat DiceProofs DiceServe.
Import ListNotations.
Local Open Scope string_scope.

Definition f64_quarter : f64 := S754_finite false 4503599627370496 (-54).
Definition f64_rest : f64 := S754_finite false 6755399441055744 (-53).

(** Eight values, 0, 1/8 to 7/8 *)
Definition eighths (k : nat) : f64 := SFdiv 53 1024 (of_uint64 (Z.of_nat k)) (of_uint64 8).
Definition three_to_one : fpolicy := [LW "green" f64_rest; LW "blue" f64_quarter].
Definition three_to_one_stated : qpolicy := [LW "green" (3 # 4)%Q; LW "blue" (1 # 4)%Q].

Lemma eighths_spread : spread 8 0 eighths.
Proof.
  intros k Hk. do 8 (destruct k as [|k]; [split; [vm_compute; try split; reflexivity|vm_compute; discriminate]|]). lia.
Qed.
Lemma three_stated : states 0 three_to_one three_to_one_stated.
Proof. repeat constructor; try (vm_compute; reflexivity); vm_compute; discriminate. Qed.
Lemma three_resolved : resolved 8 (@rev _) eighths three_to_one "blue" = 2%nat /\ resolved 8 (@rev _) eighths three_to_one "green" = 6%nat.
Proof. split; vm_compute; reflexivity. Qed.

(** Tenths, as a policy that no binary64 weights can state exactly *)
Definition tenths_stated : qpolicy := map (fun l => LW (lw_label l) (1 # 10)%Q) ten_tenths.
Lemma tenths_states : states half_ulp ten_tenths tenths_stated.
Proof. repeat constructor; try (vm_compute; reflexivity); vm_compute; discriminate. Qed.
Lemma tenths_total : (total_weight tenths_stated == 1)%Q.
Proof. vm_compute. reflexivity. Qed.
Lemma tenths_no_default : ~ In "default" (map lw_label tenths_stated).
Proof. vm_compute. intuition discriminate. Qed.

(** * A document with a policy *)

Definition float1 (t : string) : option f64 := if String.eqb t "0.25" then Some f64_quarter else if String.eqb t "0.75" then Some f64_rest else None.
Definition split_route : doc := DObj [("path", DStr "/"); ("resource", DStr "todos"); ("policy", DStr "ab")].
Definition server_doc (label port : string) : doc := DObj [("labels", DArr [DStr label]); ("url", DObj [("host", DStr "localhost"); ("port", DNum port)])].
Definition weight_doc (label weight : string) : doc := DObj [("label", DStr label); ("weight", DNum weight)].
Definition servers : list doc := [server_doc "green" "60083"; server_doc "blue" "60084"].
Definition weights : list doc := [weight_doc "green" "0.75"; weight_doc "blue" "0.25"].
Definition split_doc : doc :=
  DObj [("routes", DArr [split_route]); ("resources", DObj [("todos", DArr servers)]); ("policies", DObj [("ab", DArr weights)]);
        ("connection", DObj [("downstream", DObj [("port", DNum "8080")]); ("upstream", DObj [("maxAttempts", DNum "3")])])].
Definition yaml1 (text : string) : option doc := if String.eqb text "split" then Some split_doc else None.
Definition field1 : place := Place key_source isort_routes (parse float1 yaml1) (e_gzip toy) (e_gunzip toy) pair0 (dates 0) (fun _ => 0%Z) (fun _ => true).
Definition start1 (text : string) : option listener :=
  start (jwt_checked key_source) isort_routes (parse float1 yaml1) (e_gzip toy) (e_gunzip toy) pair0 (dates 0) (fun _ => 0%Z) (fun _ => true) (host0 text "VERSION" "v1").

(** A request for which the label is drawn *)
Definition visitor (text label : string) : setting :=
  Setting (match start1 text with Some l => li_env l | None => toy end) (small no_dates) always
    (match start1 text with Some l => li_config l | None => zero_config end) (Chance 0 "uuid" (fun _ => label) 1600000000) (ask "GET" "/x" "/x" []) second_try.
Definition drawn (label : string) : setting := visitor "split" label.
Definition draw_of (k : nat) : string := fst (resolve_f (@rev _) (go_dice k) three_to_one).

Lemma text_written : forall text d, text <> "" -> yaml1 text = Some d -> written_in field1 (host0 text "VERSION" "v1") float1 yaml1 d.
Proof. intros text d N H. split; [reflexivity|]. exists text. split; [left; split; [exact N|reflexivity]|exact H]. Qed.
Lemma split_written : written_in field1 (host0 "split" "VERSION" "v1") float1 yaml1 split_doc.
Proof. apply text_written; [discriminate|reflexivity]. Qed.

Lemma visitor_served : forall text d label, text <> "" -> yaml1 text = Some d -> start1 text <> None ->
  StartupSpec.serves field1 (host0 text "VERSION" "v1") (visitor text label).
Proof.
  intros text d label N Y H. unfold visitor. destruct (start1 text) as [l|] eqn:E; [|contradiction].
  exists l. assert (L : listens field1 (host0 text "VERSION" "v1") l) by exact E.
  destruct (start_inv _ _ _ L) as (c0 & c & Ht & _). exists c0. split; [exact L|]. split; [exact Ht|]. split; [reflexivity|].
  cbn [t_cfg]. assert (W := text_written text d N Y). rewrite (told_document _ _ _ _ _ _ W Ht).
  exact (document_in_use field1 _ _ _ _ _ isort_sorts W L).
Qed.
Lemma drawn_served : forall label, StartupSpec.serves field1 (host0 "split" "VERSION" "v1") (drawn label).
Proof. intros label. apply (visitor_served "split" split_doc label); [discriminate|reflexivity|vm_compute; discriminate]. Qed.

Lemma draw_labels : forall k, (k < go_values)%nat -> draw_of k = "green" \/ draw_of k = "blue".
Proof.
  intros k Hk. assert (R : reorders (@rev (label_weight f64))) by (intros l; apply Permutation_sym, Permutation_rev).
  assert (I : In (draw_of k) (map lw_label three_to_one)).
  { unfold draw_of. apply (resolve_in f64 f64_zero f64_add f64_lt (@rev _) (go_dice k) three_to_one R ltac:(discriminate)).
    replace (running_total f64 f64_zero f64_add (rev three_to_one)) with f64_one by (vm_compute; reflexivity).
    apply Nat2Z.inj_lt in Hk. rewrite go_values_Z in Hk. set (i := Z.of_nat k) in *. assert (Hi : (0 <= i)%Z) by (unfold i; lia).
    destruct (dice_units i ltac:(lia)) as [W U]. unfold go_dice. fold i. rewrite lt_units; [|exact W|split; vm_compute; reflexivity].
    rewrite U. replace (units f64_one) with (2 ^ 63 * 2 ^ 1011)%Z by (vm_compute; reflexivity). apply Z.ltb_lt. apply Z.mul_lt_mono_pos_r; [apply pow_pos; lia|].
    destruct (Z.eqb_spec i 0) as [_|Hn]; [lia|]. pose proof (nearest_mono i (2 ^ 63 - 513) ltac:(lia) ltac:(lia)) as M.
    replace (nearest (2 ^ 63 - 513)) with (2 ^ 63 - 1024)%Z in M by (vm_compute; reflexivity). lia. }
  destruct I as [E|[E|[]]]; [left|right]; symmetry; exact E.
Qed.

Lemma drawn_asks : forall label port, (label = "green" /\ port = "60083") \/ (label = "blue" /\ port = "60084") ->
  exists x, asks (drawn label) x /\ uq_uri x = "http://localhost:" ++ port ++ "/x".
Proof.
  assert (K : forall label us, t_serve (drawn label) = Upstream (conf_of (drawn label)) ->
    option_map (fun s => (map uq_uri (s_sent s), map rp_status (s_out s))) (exec (conf_of (drawn label)) init (t_run (drawn label))) = Some (us, [201%Z]) ->
    forall u, In u us -> exists x, asks (drawn label) x /\ uq_uri x = u).
  { intros label us H1 H2 u Hu. destruct (ran_outcome _ _ _ _ H1 H2) as (s & R & U & _). rewrite <- U in Hu. apply in_map_iff in Hu. destruct Hu as (x & <- & Ix).
    exists x. split; [|reflexivity]. exists (s_sent s). split; [exists (conf_of (drawn label)), s; split; [exact R|reflexivity]|exact Ix]. }
  intros label port [[-> ->]|[-> ->]].
  - apply (K "green" ["http://localhost:60083/x"; "http://localhost:60083/x"]); [vm_compute; reflexivity|vm_compute; reflexivity|left; reflexivity].
  - apply (K "blue" ["http://localhost:60084/x"; "http://localhost:60084/x"]); [vm_compute; reflexivity|vm_compute; reflexivity|left; reflexivity].
Qed.

Lemma drawn_policy : forall label, lookup "ab" (c_policies (t_cfg (drawn label))) = Some three_to_one.
Proof. intros label. unfold drawn. cbn [t_cfg]. vm_compute. reflexivity. Qed.

Lemma weights_stated : Forall2 (weight_stated float1) weights three_to_one_stated.
Proof.
  assert (K : forall label text x q, float1 text = Some x -> weighty x -> (0 <= q)%Q -> within half_ulp (value x) q ->
    weight_stated float1 (weight_doc label text) (LW label q)).
  { intros label text x q H1 H2 H3 H4. split; [left; member_|]. exists text, x. split; [member_|]. split; [exact H1|]. split; [exact H2|]. split; [exact H3|exact H4]. }
  constructor; [|constructor; [|constructor]]; eapply K; try (vm_compute; reflexivity); try (split; vm_compute; reflexivity); vm_compute; discriminate.
Qed.

Lemma split_routes : forall e, route_for [split_route] "/x" e -> text_for "resource" e "todos" /\ text_for "policy" e "ab".
Proof. intros e [[<-|[]] _]. split; left; member_. Qed.

Lemma split_family : forall k, (k < go_values)%nat -> exists x, StartupSpec.serves field1 (host0 "split" "VERSION" "v1") (drawn (draw_of k)) /\
  asks (drawn (draw_of k)) x /\ sized (t_req (drawn (draw_of k))) /\ q_raw_uri (t_req (drawn (draw_of k))) = "/x" /\
  (uq_uri x = "http://localhost:60083/x" \/ uq_uri x = "http://localhost:60084/x") /\
  forall q, lookup "ab" (c_policies (t_cfg (drawn (draw_of k)))) = Some q -> ch_label (t_chance (drawn (draw_of k))) q = fst (resolve_f (@rev _) (go_dice k) q).
Proof.
  intros k Hk. assert (Q : forall q, lookup "ab" (c_policies (t_cfg (drawn (draw_of k)))) = Some q -> ch_label (t_chance (drawn (draw_of k))) q = fst (resolve_f (@rev _) (go_dice k) q)).
  { intros q H. rewrite drawn_policy in H. injection H as <-. reflexivity. }
  assert (Z : forall label, sized (t_req (drawn label))) by (intros label; unfold sized; cbn; lia).
  destruct (draw_labels k Hk) as [E|E].
  - destruct (drawn_asks "green" "60083" ltac:(left; now split)) as (x & A & U). rewrite E in *. exists x.
    split; [apply drawn_served|]. split; [exact A|]. split; [apply Z|]. split; [reflexivity|]. split; [left; exact U|exact Q].
  - destruct (drawn_asks "blue" "60084" ltac:(right; now split)) as (x & A & U). rewrite E in *. exists x.
    split; [apply drawn_served|]. split; [exact A|]. split; [apply Z|]. split; [reflexivity|]. split; [right; exact U|exact Q].
Qed.

Lemma split_said : says ["routes"] split_doc (DArr [split_route]) /\ says ["resources"] split_doc (DObj [("todos", DArr servers)]) /\
  entry "todos" (DObj [("todos", DArr servers)]) (DArr servers) /\ says ["policies"] split_doc (DObj [("ab", DArr weights)]) /\ entry "ab" (DObj [("ab", DArr weights)]) (DArr weights).
Proof. split; [path_|]. split; [path_|]. split; [apply entry_by; reflexivity|]. split; [path_|apply entry_by; reflexivity]. Qed.

Lemma share_case :
  spread 8 0 eighths /\ states 0 three_to_one three_to_one_stated /\ reorders (@rev (label_weight f64)) /\ (total_weight three_to_one_stated <= 1)%Q /\
  (of_nat (List.length three_to_one) * (0 + Qpower 2 (-53)) < 1)%Q /\
  resolved 8 (@rev _) eighths three_to_one "blue" = 2%nat /\ resolved 8 (@rev _) eighths three_to_one "green" = 6%nat /\
  states half_ulp ten_tenths tenths_stated /\ (total_weight tenths_stated == 1)%Q /\ ~ In "default" (map lw_label tenths_stated).
Proof.
  split; [exact eighths_spread|]. split; [exact three_stated|]. split; [intros l; apply Permutation_sym, Permutation_rev|]. split; [vm_compute; discriminate|].
  split; [vm_compute; reflexivity|]. split; [apply three_resolved|]. split; [apply three_resolved|]. split; [exact tenths_states|]. split; [exact tenths_total|exact tenths_no_default].
Qed.

Lemma document_case :
  sorts_routes (pl_sort field1) /\ written_in field1 (host0 "split" "VERSION" "v1") float1 yaml1 split_doc /\
  says ["routes"] split_doc (DArr [split_route]) /\
  (forall e, route_for [split_route] "/x" e -> text_for "resource" e "todos" /\ text_for "policy" e "ab") /\
  says ["resources"] split_doc (DObj [("todos", DArr servers)]) /\ entry "todos" (DObj [("todos", DArr servers)]) (DArr servers) /\
  says ["policies"] split_doc (DObj [("ab", DArr weights)]) /\ entry "ab" (DObj [("ab", DArr weights)]) (DArr weights) /\
  Forall2 (weight_stated float1) weights three_to_one_stated /\
  (forall k, (k < go_values)%nat -> exists x, StartupSpec.serves field1 (host0 "split" "VERSION" "v1") (drawn (draw_of k)) /\
    asks (drawn (draw_of k)) x /\ sized (t_req (drawn (draw_of k))) /\ q_raw_uri (t_req (drawn (draw_of k))) = "/x" /\
    (uq_uri x = "http://localhost:60083/x" \/ uq_uri x = "http://localhost:60084/x") /\
    forall q, lookup "ab" (c_policies (t_cfg (drawn (draw_of k)))) = Some q -> ch_label (t_chance (drawn (draw_of k))) q = fst (resolve_f (@rev _) (go_dice k) q)).
Proof.
  destruct split_said as (S1 & S2 & S3 & S4 & S5). split; [exact isort_sorts|]. split; [exact split_written|]. split; [exact S1|]. split; [exact split_routes|].
  split; [exact S2|]. split; [exact S3|]. split; [exact S4|]. split; [exact S5|]. split; [exact weights_stated|exact split_family].
Qed.
