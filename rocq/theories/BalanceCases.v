(** Cases for Thm_Balance: a process with one policy, and documents that steer it. *)
From Coq Require Import String Ascii List Bool ZArith NArith Lia QArith Qpower Permutation Floats.SpecFloat.
From Verif Require Import GoStr Header Policy PolicySpec Config ConfigSpec ConfigProofs Routing Stats Dice DiceSpec DiceProofs Exchange ExchangeProofs Jwt JwtCases JwksRate
  Machine Handler HandlerSpec HandlerCases SystemSpec Tls TlsProofs Startup StartupSpec StartupProofs StartupCases Process ProcessSpec ProcessProofs Balance BalanceSpec BalanceProofs DiceCases ProcessCases.
Import Verif.Config Verif.Startup Verif.Process Verif.ProcessSpec ListNotations.
Local Open Scope string_scope.
Local Open Scope nat_scope.

(** * Insertion sort by weight, which sort.Sort is for fewer than 12 entries *)

Fixpoint put (x : label_weight f64) (l : fpolicy) : fpolicy :=
  match l with [] => [x] | y :: r => if f64_lt (lw_weight y) (lw_weight x) then y :: put x r else x :: l end.
Definition by_weight (p : fpolicy) : fpolicy := fold_right put [] p.

Lemma lt_asym : forall a b, f64_lt a b = true -> f64_lt b a = false.
Proof.
  intros a b. unfold f64_lt, SFltb. destruct a as [s|s| |s m e], b as [s'|s'| |s' m' e']; cbn [SFcompare]; try destruct s; try destruct s'; try reflexivity; try discriminate;
    rewrite (Z.compare_antisym e e'); destruct (e ?= e')%Z eqn:C; cbn [CompOpp]; try reflexivity; try discriminate;
    change (Pos.compare_cont Eq m m') with (m ?= m')%positive; change (Pos.compare_cont Eq m' m) with (m' ?= m)%positive;
    rewrite (Pos.compare_antisym m m'); destruct (m ?= m')%positive; cbn [CompOpp]; try reflexivity; try discriminate.
Qed.

Fixpoint in_order (l : fpolicy) : Prop :=
  match l with x :: (y :: _) as r => f64_lt (lw_weight y) (lw_weight x) = false /\ in_order r | _ => True end.

Lemma put_order : forall x l, in_order l -> in_order (put x l).
Proof.
  intros x l. induction l as [|y l IH]; intros H; [exact I|]. cbn [put]. destruct (f64_lt (lw_weight y) (lw_weight x)) eqn:E; [|split; [exact E|exact H]].
  assert (Hl : in_order l) by (destruct l; [exact I|exact (proj2 H)]). specialize (IH Hl).
  destruct l as [|z l]; cbn [put] in *; [split; [now apply lt_asym|exact I]|].
  destruct (f64_lt (lw_weight z) (lw_weight x)); split; try exact IH; [exact (proj1 H)|now apply lt_asym].
Qed.

Lemma put_first : forall x l, in_order (x :: l) -> put x l = x :: l.
Proof. intros x [|y l] H; [reflexivity|]. cbn [put]. now rewrite (proj1 H). Qed.

Lemma by_weight_order : forall p, in_order (by_weight p).
Proof. intros p. induction p as [|x p IH]; [exact I|]. exact (put_order x _ IH). Qed.

Lemma by_weight_settles : settles by_weight.
Proof.
  assert (K : forall p, in_order p -> by_weight p = p).
  { intros p. induction p as [|x p IH]; intros H; [reflexivity|]. unfold by_weight in *. cbn [fold_right]. rewrite IH; [now apply put_first|]. destruct p; [exact I|exact (proj2 H)]. }
  intros p. apply K, by_weight_order.
Qed.

Lemma put_perm : forall x l, Permutation (x :: l) (put x l).
Proof.
  intros x l. induction l as [|y l IH]; [apply Permutation_refl|]. cbn [put]. destruct (f64_lt _ _); [|apply Permutation_refl].
  apply (Permutation_trans (perm_swap y x l)). apply perm_skip. exact IH.
Qed.

Lemma by_weight_reorders : reorders by_weight.
Proof. intros p. apply Permutation_sym. induction p as [|x p IH]; [apply perm_nil|]. unfold by_weight in *. cbn [fold_right]. apply (Permutation_trans (perm_skip x IH)). apply put_perm. Qed.

(** * A process *)

Definition split_config : config jwt :=
  Cfg [("ab", three_to_one)] [Route "/x" None "" "todos" "ab" ""] []
      [("todos", Some [RM "" ["green"] (Url "" "localhost" 60083); RM "" ["blue"] (Url "" "localhost" 60084)])] (Down 0 0 0 0 "" 0 "" "") (Upst 0 0 0 0 4 false).
Definition split_place : place := Place key_source isort_routes (fun _ => split_config) (e_gzip toy) (e_gunzip toy) pair0 (dates 0) (fun _ => 0%Z) (fun _ => true).


Lemma split_starts : starts_at split_place hub_host <> None.
Proof. vm_compute. discriminate. Qed.
Definition split_listener : listener := from_some (starts_at split_place hub_host) split_starts.
Global Opaque split_listener.
Definition splitter : daemon := Daemon split_place hub_host split_listener split_config lib always noon.

Lemma splitter_up : up splitter.
Proof.
  split; [apply isort_sorts|]. split; [exact (starts_listens split_place hub_host split_starts)|]. split; [|intros name j []].
  split; [discriminate|]. left. split; [discriminate|reflexivity].
Qed.

Definition as_told : config jwt := li_config split_listener.
Definition fresh_start : process := process_init as_told noon.
Definition told_route : route :=
  Route "/x" (Some (Regex.RCat Regex.RBol (Regex.RCat (Regex.RCls false [(47%N, 47%N)]) (Regex.RCat (Regex.RCls false [(120%N, 120%N)]) Regex.REps)))) "" "todos" "ab" "".
Lemma told_routes : c_routes as_told = [told_route].
Proof. vm_compute. reflexivity. Qed.
Lemma told_policy : policy_of splitter "ab" = three_to_one.
Proof. vm_compute. reflexivity. Qed.
Lemma told_policies : lookup "ab" (c_policies as_told) = Some three_to_one.
Proof. vm_compute. reflexivity. Qed.

(** One request that is served, one that is not found *)
Definition wanted : incoming := ask "GET" "/x" "/x" [].
Definition unknown : incoming := ask "GET" "/y" "/y" [].
Definition with_label (dice : nat) (lab : string) : chance := Chance dice "uuid" (fun _ => lab) 1600000000.
Definition label_by (d : f64) : string := fst (resolve_f by_weight d three_to_one).

(** The second has not passed, and there are no jwts. *)
Definition idle (p : process) : Prop := p_dead p = false /\ p_now p = noon /\ p_jwts p = [].

Lemma idle_start : idle fresh_start.
Proof. vm_compute. repeat split. Qed.

Lemma idle_config : forall p, idle p -> current as_told p = with_jwts [] as_told.
Proof. intros p (_ & _ & H). unfold current. now rewrite H. Qed.

Lemma idle_arrives : forall p i dice lab, idle p -> exists p', process_step (li_env split_listener) lib always as_told p (Arrive i (with_label dice lab)) = Some p' /\ idle p'.
Proof.
  intros p i dice lab (H1 & H2 & H3). unfold process_step. rewrite H1. unfold arrive. rewrite H2.
  replace (Z.eqb (ch_now (with_label dice lab)) (unix noon)) with true by reflexivity. eexists. split; [reflexivity|]. split; [exact H1|]. split; [reflexivity|exact H3].
Qed.

Lemma now_routes : c_routes (with_jwts [] as_told) = [told_route].
Proof. exact told_routes. Qed.
Lemma to_proxy : forall i, i = wanted \/ i = unknown -> mux_serve (about_paths [told_route]) i = TProxy.
Proof. intros i [->| ->]; vm_compute; reflexivity. Qed.
Lemma wanted_route : select_route [told_route] (q_raw_uri (i_req wanted)) = Some told_route.
Proof. vm_compute. reflexivity. Qed.
Lemma unknown_route : select_route [told_route] (q_raw_uri (i_req unknown)) = None.
Proof. vm_compute. reflexivity. Qed.
Lemma now_resource : exists ms, lookup (r_resource told_route) (c_resources (with_jwts [] as_told)) = Some (Some ms).
Proof. eexists. vm_compute. reflexivity. Qed.
Lemma parsed_ok : forall i, i = wanted \/ i = unknown -> validate (parse_incoming (li_env split_listener) "uuid" (i_req i)) = true.
Proof. intros i [->| ->]; vm_compute; reflexivity. Qed.

Lemma unknown_answered : forall dice lab, answers_at_once (serve (li_env split_listener) lib always (with_jwts [] as_told) (with_label dice lab) unknown) = true.
Proof.
  intros dice lab. unfold serve. rewrite now_routes, (to_proxy unknown (or_intror eq_refl)).
  unfold proxy_handler. cbn [ch_fresh with_label]. rewrite (parsed_ok unknown (or_intror eq_refl)). cbn [negb].
  rewrite now_routes.
  rewrite unknown_route. reflexivity.
Qed.

Lemma unknown_draws : forall dice lab, draws (li_env split_listener) lib (with_jwts [] as_told) (with_label dice lab) unknown = None.
Proof.
  intros dice lab. unfold draws. rewrite now_routes, (to_proxy unknown (or_intror eq_refl)).
  cbn [ch_fresh with_label]. rewrite (parsed_ok unknown (or_intror eq_refl)).
  rewrite unknown_route. reflexivity.
Qed.

Lemma wanted_draws : forall dice lab, draws (li_env split_listener) lib (with_jwts [] as_told) (with_label dice lab) wanted = Some "ab".
Proof.
  intros dice lab. unfold draws. rewrite now_routes, (to_proxy wanted (or_introl eq_refl)).
  cbn [ch_fresh with_label]. rewrite (parsed_ok wanted (or_introl eq_refl)).
  rewrite wanted_route. destruct now_resource as [ms R]. change (has_jwt told_route) with false. cbv iota. rewrite R. reflexivity.
Qed.

Lemma wanted_goes_up : forall lab, lab = "green" \/ lab = "blue" -> answers_at_once (serve (li_env split_listener) lib always (with_jwts [] as_told) (with_label 0 lab) wanted) = false.
Proof. intros lab [->| ->]; vm_compute; reflexivity. Qed.

Lemma idle_kept_label : forall G (b : chances G) d, kept G by_weight as_told b -> fst (resolve_f by_weight d (policy_in (b_policies b) "ab")) = label_by d.
Proof. intros G b d K. unfold label_by, resolve_f, resolve_label. cbn [fst]. rewrite (K "ab"). unfold policy_in. now rewrite told_policies. Qed.

Lemma executes_one : forall p e p', process_step (li_env split_listener) lib always as_told p e = Some p' -> executes splitter p [e] = Some p'.
Proof. intros p e p' H. unfold executes. cbn [process_exec]. unfold as_told in H. cbn [dm_lib dm_new dm_listener splitter]. now rewrite H. Qed.

Lemma wanted_drawn : forall p dice lab, idle p -> draws_from splitter p wanted (with_label dice lab) = Some "ab".
Proof. intros p dice lab H. exact (eq_trans (f_equal (fun c => draws (li_env split_listener) lib c (with_label dice lab) wanted) (idle_config p H)) (wanted_draws dice lab)). Qed.
Lemma unknown_drawn : forall p dice lab, idle p -> draws_from splitter p unknown (with_label dice lab) = None.
Proof. intros p dice lab H. exact (eq_trans (f_equal (fun c => draws (li_env split_listener) lib c (with_label dice lab) unknown) (idle_config p H)) (unknown_draws dice lab)). Qed.
Lemma wanted_rendered : forall p lab, idle p -> lab = "green" \/ lab = "blue" -> rendered splitter p (Arrive wanted (with_label 0 lab)) = false.
Proof. intros p lab H F. exact (eq_trans (f_equal (fun c => answers_at_once (serve (li_env split_listener) lib always c (with_label 0 lab) wanted)) (idle_config p H)) (wanted_goes_up lab F)). Qed.

(** ** Requests that each come right after a document *)

Section Steered.
  Variable G : rng.
  Variables (g g' : g_state G) (n : Z) (d : f64).
  Hypothesis Hi : g_int63 G (g_seed G 1600000000) = (g, n).
  Hypothesis Ht : throws G g g' d.

  Definition pair_of : list event := [Arrive unknown (with_label (Z.to_nat n) (label_by d)); Arrive wanted (with_label (Z.to_nat n) (label_by d))].

  Lemma pair_step : forall p b, idle p -> kept G by_weight as_told b -> exists p1 p' b1 b',
    process_step (li_env split_listener) lib always as_told p (Arrive unknown (with_label (Z.to_nat n) (label_by d))) = Some p1 /\
    process_step (li_env split_listener) lib always as_told p1 (Arrive wanted (with_label (Z.to_nat n) (label_by d))) = Some p' /\
    takes G by_weight (li_env split_listener) lib always as_told p (Arrive unknown (with_label (Z.to_nat n) (label_by d))) b b1 /\
    takes G by_weight (li_env split_listener) lib always as_told p1 (Arrive wanted (with_label (Z.to_nat n) (label_by d))) b1 b' /\ idle p1 /\ idle p'.
  Proof.
    intros p b I0 K. destruct (idle_arrives p unknown (Z.to_nat n) (label_by d) I0) as (p1 & S1 & I1). destruct (idle_arrives p1 wanted (Z.to_nat n) (label_by d) I1) as (p2 & S2 & I2).
    assert (U : forall q, idle q -> unix (p_now q) = 1600000000%Z) by (intros q (_ & Hn & _); rewrite Hn; reflexivity).
    set (b1 := Chances g (b_policies b) : chances G).
    assert (T1 : takes G by_weight (li_env split_listener) lib always as_told p (Arrive unknown (with_label (Z.to_nat n) (label_by d))) b b1).
    { cbn [takes]. exists b. rewrite (idle_config p I0), unknown_draws, unknown_answered. split; [reflexivity|]. exists g, n. rewrite (U p I0). split; [exact Hi|]. split; reflexivity. }
    set (b2 := Chances g' (match lookup "ab" (b_policies b1) with Some q => insert "ab" (snd (resolve_f by_weight d q)) (b_policies b1) | None => b_policies b1 end) : chances G).
    assert (D : draw_label G by_weight as_told "ab" (with_label (Z.to_nat n) (label_by d)) b1 b2).
    { exists g', d. split; [exact Ht|]. split; [|reflexivity]. rewrite (idle_kept_label G b1 d K). reflexivity. }
    destruct (answers_at_once (serve (li_env split_listener) lib always (with_jwts [] as_told) (with_label (Z.to_nat n) (label_by d)) wanted)) eqn:A.
    - exists p1, p2, b1, (Chances g (b_policies b2)). split; [exact S1|]. split; [exact S2|]. split; [exact T1|]. split; [|split; [exact I1|exact I2]].
      cbn [takes]. exists b2. rewrite (idle_config p1 I1), wanted_draws. rewrite A. split; [exact D|]. exists g, n. rewrite (U p1 I1). split; [exact Hi|]. split; reflexivity.
    - exists p1, p2, b1, b2. split; [exact S1|]. split; [exact S2|]. split; [exact T1|]. split; [|split; [exact I1|exact I2]].
      cbn [takes]. exists b2. rewrite (idle_config p1 I1), wanted_draws. rewrite A. split; [exact D|reflexivity].
  Qed.

  Lemma pairs : forall k p b, idle p -> kept G by_weight as_told b -> exists p' b', goes G by_weight splitter p b (concat (repeat pair_of k)) p' b' /\
    drawn_labels splitter p (concat (repeat pair_of k)) = repeat ("ab", label_by d) k.
  Proof.
    intros k. induction k as [|k IH]; intros p b I0 K; [exists p, b; split; [apply lv_nil|reflexivity]|].
    destruct (pair_step p b I0 K) as (p1 & p2 & b1 & b2 & S1 & S2 & T1 & T2 & I1 & I2).
    pose proof (kept_takes _ _ _ _ _ _ by_weight_settles _ _ _ _ K T1) as K1. pose proof (kept_takes _ _ _ _ _ _ by_weight_settles _ _ _ _ K1 T2) as K2.
    destruct (IH p2 b2 I2 K2) as (q & c & Hq & Hd). exists q, c. cbn [repeat concat]. unfold pair_of at 1 3. cbn [app]. split.
    - apply (lv_cons _ _ _ _ _ _ p b _ p1 b1); [exact S1|exact T1|]. apply (lv_cons _ _ _ _ _ _ p1 b1 _ p2 b2); [exact S2|exact T2|exact Hq].
    - cbn [drawn_labels]. rewrite (executes_one _ _ _ S1), (executes_one _ _ _ S2), Hd. rewrite (unknown_drawn p _ _ I0), (wanted_drawn p1 _ _ I1). reflexivity.
  Qed.
End Steered.

Lemma all_one_label : forall G, (forall g, exists g' d, throws G g g' d) -> exists m srt s L x cx i ch, settles srt /\ reorders srt /\
  states 0 (policy_of m "ab") s /\ (total_weight s == 1)%Q /\ (forall l, weight_of l s <= 3 # 4)%Q /\
  forall n, exists p b, let es := concat (repeat [Arrive x cx; Arrive i ch] n) in
    has_gone G srt m es p b /\ drawn_labels m (process_init (li_config (dm_listener m)) (dm_since m)) es = repeat ("ab", L) n.
Proof.
  intros G Tot. destruct (g_int63 G (g_seed G 1600000000)) as [g n] eqn:Hi. destruct (Tot g) as (g' & d & Ht).
  exists splitter, by_weight, three_to_one_stated, (label_by d), unknown, (with_label (Z.to_nat n) (label_by d)), wanted, (with_label (Z.to_nat n) (label_by d)).
  split; [exact by_weight_settles|]. split; [exact by_weight_reorders|]. split; [rewrite told_policy; exact three_stated|]. split; [reflexivity|]. split.
  { intros l. unfold weight_of, three_to_one_stated. cbn [filter map lw_label lw_weight]. destruct (String.eqb_spec "green" l) as [<-|]; [vm_compute; discriminate|].
    destruct (String.eqb "blue" l); vm_compute; discriminate. }
  intros k. destruct (pairs G g g' n d Hi Ht k fresh_start (chances_init G as_told) idle_start (kept_init _ _ _)) as (p & b & H & D).
  exists p, b. cbv zeta. split; [|exact D]. split; [exact splitter_up|exact H].
Qed.

(** ** Requests without documents in between *)

Definition calm (ds : list f64) : list event := map (fun d => Arrive wanted (with_label 0 (label_by d))) ds.

Lemma calm_goes : forall G g ds g', stream G g ds g' -> forall p b, b_gen b = g -> idle p -> kept G by_weight as_told b ->
  Forall (fun d => label_by d = "green" \/ label_by d = "blue") ds -> exists p' b', goes G by_weight splitter p b (calm ds) p' b' /\ b_gen b' = g' /\
    none_rendered splitter p (calm ds) /\ drawn_labels splitter p (calm ds) = map (fun d => ("ab", label_by d)) ds.
Proof.
  intros G g ds g' S. induction S as [g|g g1 d ds g2 T S IH]; intros p b Hb I0 K F.
  - exists p, b. split; [apply lv_nil|]. split; [exact Hb|]. split; [exact I|reflexivity].
  - subst g. destruct (idle_arrives p wanted 0 (label_by d) I0) as (p1 & S1 & I1). inversion F as [|? ? F1 F2]; subst.
    set (b1 := Chances g1 (match lookup "ab" (b_policies b) with Some q => insert "ab" (snd (resolve_f by_weight d q)) (b_policies b) | None => b_policies b end) : chances G).
    assert (T1 : takes G by_weight (li_env split_listener) lib always as_told p (Arrive wanted (with_label 0 (label_by d))) b b1).
    { cbn [takes]. exists b1. rewrite (idle_config p I0), wanted_draws, (wanted_goes_up _ F1). split; [|reflexivity].
      exists g1, d. split; [exact T|]. split; [|reflexivity]. rewrite (idle_kept_label G b d K). reflexivity. }
    destruct (IH p1 b1 eq_refl I1 (kept_takes _ _ _ _ _ _ by_weight_settles _ _ _ _ K T1) F2) as (p' & b' & H & Hg & N & D).
    exists p', b'. cbn [calm map] in *. split; [apply (lv_cons _ _ _ _ _ _ p b _ p1 b1); [exact S1|exact T1|exact H]|]. split; [exact Hg|].
    cbn [none_rendered drawn_labels]. rewrite (executes_one _ _ _ S1). split; [split; [|exact N]|].
    + exact (wanted_rendered p _ I0 F1).
    + fold (calm ds). rewrite D, (wanted_drawn p _ _ I0), told_policy. reflexivity.
Qed.

(** A generator that counts: 0, 1/8 and so on *)
Definition counter : rng := Rng Z (fun t => t mod 8)%Z (fun g => ((g + 1) mod 8, g mod 8 * 2 ^ 60)%Z).

Lemma counter_throws : forall g : Z, throws counter g ((g + 1) mod 8)%Z (eighths (Z.to_nat (g mod 8))).
Proof.
  intros g. assert (Hg : (0 <= g mod 8 < 8)%Z) by (apply Z.mod_pos_bound; lia).
  assert (K : forall k : nat, k < 8 -> eighths k = float64_of (Z.of_nat k * 2 ^ 60) /\ SFeqb (float64_of (Z.of_nat k * 2 ^ 60)) (of_uint64 1) = false).
  { intros k Hk. do 8 (destruct k as [|k]; [split; vm_compute; reflexivity|]). lia. }
  destruct (K (Z.to_nat (g mod 8)) ltac:(lia)) as [E N]. rewrite Z2Nat.id in E, N by lia. rewrite E.
  apply (th_done counter g); [reflexivity|exact N].
Qed.

Lemma counter_total : forall g, exists g' d, throws counter g g' d.
Proof. intros g. eexists. eexists. apply counter_throws. Qed.

Definition around : list f64 := map eighths [1; 2; 3; 4; 5; 6; 7; 0].

Lemma around_stream : stream counter (1%Z : g_state counter) around (1%Z : g_state counter).
Proof.
  unfold around. cbn [map]. do 8 (eapply st_cons; [match goal with |- throws _ ?g _ _ => exact (counter_throws g) end|]). apply st_nil.
Qed.

Lemma around_labels : map label_by around = ["blue"; "green"; "green"; "green"; "green"; "green"; "green"; "blue"].
Proof. vm_compute. reflexivity. Qed.

Lemma around_ok : Forall (fun d => label_by d = "green" \/ label_by d = "blue") around.
Proof. unfold around. cbn [map]. repeat (constructor; [vm_compute; auto|]). constructor. Qed.

Lemma around_perm : Permutation around (map eighths (seq 0 (List.length around))).
Proof. unfold around. apply Permutation_map. cbn [map List.length seq]. apply Permutation_sym. exact (Permutation_cons_append [1; 2; 3; 4; 5; 6; 7] 0). Qed.

(** Eight requests, all labels of one round of the generator *)
Lemma round_case : exists p b, has_gone counter by_weight splitter [] fresh_start (chances_init counter as_told) /\
  goes counter by_weight splitter fresh_start (chances_init counter as_told) (calm around) p b /\ none_rendered splitter fresh_start (calm around) /\
  map fst (drawn_labels splitter fresh_start (calm around)) = repeat "ab" 8 /\
  map snd (drawn_labels splitter fresh_start (calm around)) = ["blue"; "green"; "green"; "green"; "green"; "green"; "green"; "blue"] /\
  stream counter (b_gen (chances_init counter as_told)) around (1%Z : g_state counter) /\ Permutation around (map eighths (seq 0 8)) /\ spread 8 0 eighths /\
  settles by_weight /\ reorders by_weight /\ states 0 (policy_of splitter "ab") three_to_one_stated.
Proof.
  destruct (calm_goes counter _ _ _ around_stream fresh_start (chances_init counter as_told) eq_refl idle_start (kept_init _ _ _) around_ok) as (p & b & H & _ & N & D).
  exists p, b. split; [split; [exact splitter_up|apply lv_nil]|]. split; [exact H|]. split; [exact N|]. rewrite D. split; [reflexivity|]. split; [rewrite map_map; exact around_labels|].
  split; [exact around_stream|]. split; [exact around_perm|]. split; [exact eighths_spread|]. split; [exact by_weight_settles|]. split; [exact by_weight_reorders|].
  rewrite told_policy. exact three_stated.
Qed.

(** With documents in between, eight requests get the label "blue". *)
Lemma steered_case : (forall g, exists g' d, throws counter g g' d) /\ exists p b, has_gone counter by_weight splitter (concat (repeat (pair_of 0 (eighths 1)) 8)) p b /\
  map snd (drawn_labels splitter fresh_start (concat (repeat (pair_of 0 (eighths 1)) 8))) = repeat "blue" 8.
Proof.
  split; [exact counter_total|]. destruct (pairs counter (1%Z : g_state counter) (2%Z : g_state counter) 0 (eighths 1) eq_refl (counter_throws 1) 8 fresh_start (chances_init counter as_told) idle_start (kept_init _ _ _))
    as (p & b & H & D).
  exists p, b. split; [split; [exact splitter_up|exact H]|]. rewrite D. vm_compute. reflexivity.
Qed.

(** Two requests that each come after a document, one of them later *)
Lemma blue_goes_up : exists u, serve (li_env split_listener) lib always (with_jwts [] as_told) (with_label 0 "blue") wanted = Upstream u.
Proof.
  assert (B : match serve (li_env split_listener) lib always (with_jwts [] as_told) (with_label 0 "blue") wanted with Upstream _ => true | _ => false end = true) by (vm_compute; reflexivity).
  destruct (serve _ _ _ _ _ _) as [| | |u|]; try discriminate B. exists u. reflexivity.
Qed.

Lemma pair_visit : forall (b : chances counter) p, idle p -> kept counter by_weight as_told b -> exists q c v u, idle q /\ kept counter by_weight as_told c /\
  goes counter by_weight splitter p b [Arrive unknown (with_label 0 "blue"); Arrive wanted (with_label 0 "blue")] q c /\ rendered splitter p (Arrive unknown (with_label 0 "blue")) = true /\
  nth_error (p_visits q) (S (List.length (p_visits p))) = Some v /\ v_out v = Upstream u.
Proof.
  intros b p I0 K. assert (B : label_by (eighths 1) = "blue") by (vm_compute; reflexivity).
  destruct (pair_step counter (1%Z : g_state counter) (2%Z : g_state counter) 0 (eighths 1) eq_refl (counter_throws 1) p b I0 K) as (p1 & q & b1 & c & S1 & S2 & T1 & T2 & I1 & I2).
  rewrite B in *. change (Z.to_nat 0) with 0 in *. pose proof (kept_takes _ _ _ _ _ _ by_weight_settles _ _ _ _ K T1) as K1.
  destruct (step_serve _ _ _ _ _ _ _ _ S1) as (_ & _ & _ & w & V1 & _). destruct (step_serve _ _ _ _ _ _ _ _ S2) as (_ & _ & _ & v & V2 & _ & _ & O).
  destruct blue_goes_up as [u Hu]. exists q, c, v, u. split; [exact I2|]. split; [exact (kept_takes _ _ _ _ _ _ by_weight_settles _ _ _ _ K1 T2)|].
  split; [apply (lv_cons _ _ _ _ _ _ p b _ p1 b1); [exact S1|exact T1|]; apply (lv_cons _ _ _ _ _ _ p1 b1 _ q c); [exact S2|exact T2|apply lv_nil]|].
  split; [exact (eq_trans (f_equal (fun c => answers_at_once (serve (li_env split_listener) lib always c (with_label 0 "blue") unknown)) (idle_config p I0)) (unknown_answered 0 "blue"))|].
  split; [|rewrite O, (idle_config p1 I1); exact Hu].
  assert (Ln : S (List.length (p_visits p)) = List.length (p_visits p1)) by (rewrite V1, app_length; cbn [List.length]; lia).
  rewrite Ln, V2, nth_error_app2, Nat.sub_diag by lia. reflexivity.
Qed.

Lemma document_case : exists p1 b1 es2 p2 b2 i q1 c1 q2 c2 v1 v2 u1 u2,
  has_gone counter by_weight splitter [] p1 b1 /\ has_gone counter by_weight splitter es2 p2 b2 /\ List.length es2 = 2 /\
  goes counter by_weight splitter p1 b1 i q1 c1 /\ goes counter by_weight splitter p2 b2 i q2 c2 /\
  rendered splitter p1 (Arrive unknown (with_label 0 "blue")) = true /\ rendered splitter p2 (Arrive unknown (with_label 0 "blue")) = true /\
  i = [Arrive unknown (with_label 0 "blue"); Arrive wanted (with_label 0 "blue")] /\ unix (p_now p1) = unix (p_now p2) /\
  nth_error (p_visits q1) (S (List.length (p_visits p1))) = Some v1 /\ nth_error (p_visits q2) (S (List.length (p_visits p2))) = Some v2 /\
  v_out v1 = Upstream u1 /\ v_out v2 = Upstream u2.
Proof.
  destruct (pair_visit (chances_init counter as_told) fresh_start idle_start (kept_init _ _ _)) as (q & c & v & u & I1 & K1 & H1 & R1 & V1 & O1).
  destruct (pair_visit c q I1 K1) as (q' & c' & v' & u' & I2 & K2 & H2 & R2 & V2 & O2).
  exists fresh_start, (chances_init counter as_told), [Arrive unknown (with_label 0 "blue"); Arrive wanted (with_label 0 "blue")], q, c,
    [Arrive unknown (with_label 0 "blue"); Arrive wanted (with_label 0 "blue")], q, c, q', c', v, v', u, u'.
  split; [split; [exact splitter_up|apply lv_nil]|]. split; [split; [exact splitter_up|exact H1]|]. split; [reflexivity|]. split; [exact H1|]. split; [exact H2|]. split; [exact R1|]. split; [exact R2|].
  split; [reflexivity|]. split; [destruct I1 as (_ & E & _); rewrite E; reflexivity|]. split; [exact V1|]. split; [exact V2|]. split; [exact O1|exact O2].
Qed.
