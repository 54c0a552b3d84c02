(** The shares of labels with binary64 weights. *)
From Coq Require Import String List Bool ZArith QArith Qabs Qround Qpower Lia Lqa Permutation Floats.SpecFloat Arith.
From Verif Require Import GoStr Policy PolicySpec PolicyProofs Stats StatsFloat Dice DiceSpec DiceFloat.
Import ListNotations.
Local Open Scope string_scope.

(** * Values *)

Lemma pow_split : forall a b, (Qpower 2 (a + b) == Qpower 2 a * Qpower 2 b)%Q.
Proof. intros a b. apply Qpower_plus. intros H. discriminate H. Qed.

Lemma pow_Z : forall k, (0 <= k)%Z -> (inject_Z (2 ^ k) == Qpower 2 k)%Q.
Proof. intros k H. apply (Zpower_Qpower 2 k H). Qed.

Lemma pow_gt0 : forall k, (0 < Qpower 2 k)%Q.
Proof. intros k. apply Qpower_0_lt. reflexivity. Qed.

Lemma value_units : forall x, weighty x -> (value x == inject_Z (units x) * Qpower 2 (-1074))%Q.
Proof.
  intros [s|s| |s m e] H; cbn [value units]; try (cbn [weighty] in H; contradiction); [destruct s; reflexivity|].
  cbn [weighty] in H. destruct H as [-> B]. apply bounded_spec in B.
  rewrite inject_Z_mult, pow_Z by lia. assert (E := pow_split (e + 1074) (-1074)). replace (e + 1074 + -1074)%Z with e in E by lia. rewrite E. ring.
Qed.

Lemma lt_value : forall x y, weighty x -> weighty y -> f64_lt x y = true <-> (value x < value y)%Q.
Proof.
  intros x y Hx Hy. rewrite lt_units, Z.ltb_lt, Zlt_Qlt by assumption. rewrite (value_units x Hx), (value_units y Hy).
  symmetry. apply Qmult_lt_r. apply pow_gt0.
Qed.

Lemma lt_value_false : forall x y, weighty x -> weighty y -> f64_lt x y = false <-> (value y <= value x)%Q.
Proof.
  intros x y Hx Hy. rewrite <- not_true_iff_false, lt_value by assumption. split; [apply Qnot_lt_le|apply Qle_not_lt].
Qed.

Lemma within_iff : forall e a b, within e a b <-> (a - b <= e /\ b - a <= e)%Q.
Proof. intros e a b. unfold within. rewrite Qabs_Qle_condition. split; intros [H1 H2]; split; lra. Qed.

Lemma add_value : forall x y, weighty x -> weighty y -> (value x + value y < 2)%Q ->
  weighty (f64_add x y) /\ within (Qpower 2 (-53)) (value (f64_add x y)) (value x + value y).
Proof.
  intros x y Hx Hy H. pose proof (pow_gt0 (-1074)) as P0.
  assert (Hu : (units x + units y < 2 ^ 1075)%Z).
  { rewrite Zlt_Qlt, inject_Z_plus, pow_Z by lia. apply (Qmult_lt_r _ _ (Qpower 2 (-1074)) P0).
    rewrite Qmult_plus_distr_l, <- (value_units x Hx), <- (value_units y Hy), <- (pow_split 1075 (-1074)). exact H. }
  destruct (add_near x y Hx Hy Hu) as [W D]. split; [exact W|].
  apply within_iff. rewrite (value_units _ W), (value_units x Hx), (value_units y Hy).
  assert (D1 : (2 * (inject_Z (units (f64_add x y)) - (inject_Z (units x) + inject_Z (units y))) <= Qpower 2 1022)%Q /\
               (2 * ((inject_Z (units x) + inject_Z (units y)) - inject_Z (units (f64_add x y))) <= Qpower 2 1022)%Q).
  { rewrite <- pow_Z by lia. unfold Qminus. rewrite <- !inject_Z_plus, <- !inject_Z_opp, <- !inject_Z_plus. change 2%Q with (inject_Z 2).
    rewrite <- !inject_Z_mult, <- !Zle_Qle. lia. }
  assert (E : (Qpower 2 (-53) == Qpower 2 (-1074) * Qpower 2 1022 * (1 # 2))%Q) by (rewrite <- (pow_split (-1074) 1022); reflexivity).
  rewrite E. clear E D. set (z := Qpower 2 (-1074)) in *. set (b := Qpower 2 1022) in *. clearbody z b.
  set (u := inject_Z (units (f64_add x y))) in *. set (a := inject_Z (units x)) in *. set (c := inject_Z (units y)) in *. clearbody u a c.
  destruct D1 as [D1 D2]. split; nra.
Qed.

(** * Counting *)

Definition zsum (f : nat -> Z) (l : list nat) : Z := fold_right (fun k a => (f k + a)%Z) 0%Z l.

Lemma zsum_le : forall f g l, (forall k, In k l -> (f k <= g k)%Z) -> (zsum f l <= zsum g l)%Z.
Proof.
  intros f g l. induction l as [|k l IH]; intros H; cbn [zsum fold_right]; [lia|].
  pose proof (H k (or_introl eq_refl)). assert (zsum f l <= zsum g l)%Z by (apply IH; intros i Hi; apply H; now right). unfold zsum in *. lia.
Qed.

Lemma zsum_add : forall f g l, zsum (fun k => (f k + g k)%Z) l = (zsum f l + zsum g l)%Z.
Proof. intros f g l. induction l as [|k l IH]; cbn [zsum fold_right]; [reflexivity|]. unfold zsum in *. lia. Qed.

Lemma zsum_0 : forall l, zsum (fun _ => 0%Z) l = 0%Z.
Proof. induction l as [|k l IH]; cbn [zsum fold_right]; [reflexivity|]. unfold zsum in *. lia. Qed.

Definition ind (b : bool) : Z := if b then 1%Z else 0%Z.

Lemma cnt_zsum : forall N P, cnt N P = zsum (fun k => ind (P k)) (seq 0 N).
Proof.
  intros N P. unfold cnt. induction (seq 0 N) as [|k l IH]; [reflexivity|]. cbn [filter zsum fold_right]. destruct (P k); cbn [List.length ind]; unfold zsum in *; lia.
Qed.

Lemma of_nat_le : forall i j, (i <= j)%nat -> (of_nat i <= of_nat j)%Q.
Proof. intros i j H. unfold of_nat. rewrite <- Zle_Qle. lia. Qed.

Lemma of_nat_S : forall i, (of_nat (S i) == of_nat i + 1)%Q.
Proof. intros i. unfold of_nat. rewrite Nat2Z.inj_succ. unfold Z.succ. now rewrite inject_Z_plus. Qed.

Lemma of_nat_pos : forall i, (0 <= of_nat i)%Q.
Proof. intros i. unfold of_nat. change 0%Q with (inject_Z 0). rewrite <- Zle_Qle. lia. Qed.

Section Count.
  Variable N : nat.
  Hypothesis Npos : (0 < N)%nat.

  Lemma below_le_N : forall x, (below N x <= Z.of_nat N)%Z.
  Proof.
    intros x. unfold below, cnt. apply Nat2Z.inj_le. rewrite <- (seq_length N 0) at 2. induction (seq 0 N) as [|k l IH]; cbn [filter List.length]; [lia|].
    destruct (qlt (frac k N) x); cbn [List.length]; lia.
  Qed.

  Lemma N_pos : (0 < inject_Z (Z.of_nat N))%Q.
  Proof. rewrite <- (Zlt_Qlt 0). lia. Qed.

  Lemma below_ge : forall a, (a <= 1)%Q -> (inject_Z (Z.of_nat N) * a <= inject_Z (below N a))%Q.
  Proof.
    intros a H. pose proof N_pos. destruct (Qlt_le_dec a 0) as [L|G].
    - assert (0 <= inject_Z (below N a))%Q by (change 0%Q with (inject_Z 0); rewrite <- Zle_Qle; unfold below, cnt; lia). nra.
    - rewrite below_ceiling by assumption. apply Qle_ceiling.
  Qed.

  Lemma below_le : forall b, (0 <= b)%Q -> (inject_Z (below N b) <= inject_Z (Z.of_nat N) * b + 1)%Q.
  Proof.
    intros b H. pose proof N_pos. destruct (Qlt_le_dec 1 b) as [L|G].
    - pose proof (below_le_N b) as B. rewrite Zle_Qle in B. nra.
    - rewrite below_ceiling by assumption. pose proof (Qceiling_lt (inject_Z (Z.of_nat N) * b)) as C.
      unfold Z.sub in C. rewrite inject_Z_plus in C. change (inject_Z (- (1))) with (- (1))%Q in C. lra.
  Qed.

  Definition inside (a b : Q) (k : nat) : bool := negb (qlt (frac k N) a) && qlt (frac k N) b.

  Lemma inside_ge : forall a b, (0 <= a)%Q -> (b <= 1)%Q -> (inject_Z (Z.of_nat N) * (b - a) - 1 <= inject_Z (cnt N (inside a b)))%Q.
  Proof.
    intros a b Ha Hb. pose proof N_pos. destruct (Qlt_le_dec b a) as [L|G].
    - assert (0 <= inject_Z (cnt N (inside a b)))%Q by (change 0%Q with (inject_Z 0); rewrite <- Zle_Qle; unfold cnt; lia). nra.
    - unfold inside. rewrite between by assumption. pose proof (below_ge b Hb). pose proof (below_le a Ha).
      unfold Z.sub. rewrite inject_Z_plus, inject_Z_opp. lra.
  Qed.

  Lemma inside_le : forall a b, (a <= b)%Q -> (0 <= b)%Q -> (a <= 1)%Q -> (inject_Z (cnt N (inside a b)) <= inject_Z (Z.of_nat N) * (b - a) + 1)%Q.
  Proof.
    intros a b Hab Hb Ha. unfold inside. rewrite between by assumption. pose proof (below_ge a Ha). pose proof (below_le b Hb).
    unfold Z.sub. rewrite inject_Z_plus, inject_Z_opp. lra.
  Qed.

  Variables (srt : fpolicy -> fpolicy) (dice : nat -> f64) (eps theta : Q) (n : nat) (L : string).
  Hypothesis Hdice : spread N eps dice.
  Hypothesis Heps : (0 <= eps)%Q.
  Hypothesis Htheta : (0 <= theta)%Q.

  Let u := (theta + Qpower 2 (-53))%Q.
  Let eta := (of_nat n * u)%Q.
  Let delta := (eps + eta)%Q.
  Hypothesis Hsmall : (eta < 1)%Q.

  Lemma u_pos : (0 < u)%Q.
  Proof. unfold u. pose proof (pow_gt0 (-53)). lra. Qed.

  Lemma eta_pos : (0 <= eta)%Q.
  Proof. unfold eta. pose proof u_pos. pose proof (of_nat_pos n). nra. Qed.

  (** A computed sum of [j] weights and the stated one. *)
  Definition near (j : nat) (acc : f64) (A : Q) : Prop := weighty acc /\ within (of_nat j * u) (value acc) A.

  Lemma near_eta : forall j acc A, (j <= n)%nat -> near j acc A -> within eta (value acc) A.
  Proof.
    intros j acc A Hj [_ H]. rewrite within_iff in *. pose proof (of_nat_le j n Hj). pose proof u_pos. unfold eta. 
    assert (of_nat j * u <= of_nat n * u)%Q by (apply Qmult_le_compat_r; lra). lra.
  Qed.

  Lemma near_step : forall j acc A w q, (S j <= n)%nat -> near j acc A -> weighty w -> within theta (value w) q -> (A + q <= 1)%Q ->
    near (S j) (f64_add acc w) (A + q).
  Proof.
    intros j acc A w q Hj [Wa Ha] Ww Hw H1. pose proof u_pos as Hu. pose proof (of_nat_S j) as ES. pose proof (of_nat_le _ _ Hj) as Hle.
    rewrite within_iff in Ha, Hw.
    assert (Eu : (of_nat (S j) * u == of_nat j * u + u)%Q) by (rewrite ES; ring).
    assert (Eb : (of_nat (S j) * u <= eta)%Q) by (unfold eta; apply Qmult_le_compat_r; lra).
    assert (Th : (theta <= u)%Q) by (unfold u; pose proof (pow_gt0 (-53)); lra).
    assert (S2 : (value acc + value w < 2)%Q) by lra.
    destruct (add_value acc w Wa Ww S2) as [Wz Dz]. split; [exact Wz|]. rewrite within_iff in *. rewrite Eu.
    assert (u == theta + Qpower 2 (-53))%Q by reflexivity. lra.
  Qed.

  Lemma total_pos : forall s, nonneg s -> (0 <= total_weight s)%Q.
  Proof. intros s H. induction H as [|x q Hx Hq IH]; cbn [total_weight]; lra. Qed.

  Lemma states_nonneg : forall p s, states theta p s -> nonneg s.
  Proof. intros p s H. induction H as [|w x p s (_ & _ & H1 & _) H2 IH]; constructor; assumption. Qed.

  (** The entries that surely give the label, and those that may give it. *)
  Fixpoint surely (A : Q) (s : qpolicy) (k : nat) : Z :=
    match s with
    | [] => 0%Z
    | x :: s' => (ind (String.eqb (lw_label x) L && inside (A + delta) (A + lw_weight x - delta) k) + surely (A + lw_weight x) s' k)%Z
    end.

  Fixpoint maybe (A : Q) (s : qpolicy) (k : nat) : Z :=
    match s with
    | [] => 0%Z
    | x :: s' => (ind (String.eqb (lw_label x) L && inside (A - delta) (A + lw_weight x + delta) k) + maybe (A + lw_weight x) s' k)%Z
    end.

  Lemma ind_nonneg : forall b, (0 <= ind b)%Z.
  Proof. intros [|]; cbn [ind]; lia. Qed.

  Lemma surely_none : forall s A k, nonneg s -> (frac k N < A + delta)%Q -> surely A s k = 0%Z.
  Proof.
    induction s as [|x s IH]; intros A k Hn H; cbn [surely]; [reflexivity|]. inversion Hn as [|? ? H1 H2]; subst.
    rewrite IH by (assumption || lra). unfold inside. replace (qlt (frac k N) (A + delta)) with true by (symmetry; now apply qlt_spec).
    cbn [negb andb]. rewrite andb_false_r. reflexivity.
  Qed.

  Lemma maybe_nonneg : forall s A k, (0 <= maybe A s k)%Z.
  Proof. induction s as [|x s IH]; intros A k; cbn [maybe]; [lia|]. pose proof (IH (A + lw_weight x)%Q k). pose proof (ind_nonneg (String.eqb (lw_label x) L && inside (A - delta) (A + lw_weight x + delta) k)). lia. Qed.

  Notation fpick := (pick_from f64 f64_add f64_lt).

  Lemma below_threshold : forall k acc A, (k < N)%nat -> weighty acc -> within eta (value acc) A ->
    (f64_lt (dice k) acc = true -> (frac k N < A + delta)%Q) /\ (f64_lt (dice k) acc = false -> (A - delta <= frac k N)%Q).
  Proof.
    intros k acc A Hk Wa Ha. destruct (Hdice k Hk) as [Wd Hd]. rewrite within_iff in Ha, Hd. unfold delta. split; intros H.
    - apply lt_value in H; [|assumption|assumption]. lra.
    - apply lt_value_false in H; [|assumption|assumption]. lra.
  Qed.

  Lemma surely_picked : forall p s, states theta p s -> forall j acc A k, (k < N)%nat -> near j acc A -> (j + List.length p <= n)%nat -> (A + total_weight s <= 1)%Q ->
    (surely A s k <= ind (String.eqb (fpick acc (dice k) p) L))%Z.
  Proof.
    intros p s H. induction H as [|w x p s (Hl & Ww & Hq & Hw) Hs IH]; intros j acc A k Hk Ha Hj Ht; cbn [surely pick_from].
    - apply ind_nonneg.
    - cbn [total_weight List.length] in Ht, Hj. pose proof (states_nonneg _ _ Hs) as Hn. pose proof (total_pos s Hn) as Htp.
      assert (Ha' : near (S j) (f64_add acc (lw_weight w)) (A + lw_weight x)) by (apply near_step; [lia|exact Ha|exact Ww|exact Hw|lra]).
      destruct (below_threshold k _ _ Hk (proj1 Ha') (near_eta (S j) _ _ ltac:(lia) Ha')) as [B1 B2].
      destruct (f64_lt (dice k) (f64_add acc (lw_weight w))) eqn:E.
      + rewrite (surely_none s (A + lw_weight x) k Hn (B1 eq_refl)), Hl. destruct (String.eqb (lw_label x) L); cbn [andb ind]; [|lia].
        destruct (inside _ _ _); cbn [ind]; lia.
      + replace (inside (A + delta) (A + lw_weight x - delta) k) with false.
        2:{ symmetry. unfold inside. apply andb_false_iff. right. apply qlt_false. exact (B2 eq_refl). }
        rewrite andb_false_r. cbn [ind]. rewrite Z.add_0_l. apply (IH (S j)); [exact Hk|exact Ha'|lia|lra].
  Qed.

  Lemma picked_maybe : forall p s, states theta p s -> L <> "default" -> forall j acc A k, (k < N)%nat -> near j acc A -> (j + List.length p <= n)%nat -> (A + total_weight s <= 1)%Q ->
    (A - delta <= frac k N)%Q -> (ind (String.eqb (fpick acc (dice k) p) L) <= maybe A s k)%Z.
  Proof.
    intros p s H HL. induction H as [|w x p s (Hl & Ww & Hq & Hw) Hs IH]; intros j acc A k Hk Ha Hj Ht Hx; cbn [maybe pick_from].
    - replace (String.eqb "default" L) with false by (symmetry; apply String.eqb_neq; congruence). cbn [ind]. lia.
    - cbn [total_weight List.length] in Ht, Hj. pose proof (states_nonneg _ _ Hs) as Hn. pose proof (total_pos s Hn) as Htp.
      assert (Ha' : near (S j) (f64_add acc (lw_weight w)) (A + lw_weight x)) by (apply near_step; [lia|exact Ha|exact Ww|exact Hw|lra]).
      destruct (below_threshold k _ _ Hk (proj1 Ha') (near_eta (S j) _ _ ltac:(lia) Ha')) as [B1 B2].
      pose proof (maybe_nonneg s (A + lw_weight x) k) as M. pose proof (ind_nonneg (String.eqb (lw_label x) L && inside (A - delta) (A + lw_weight x + delta) k)) as M2.
      destruct (f64_lt (dice k) (f64_add acc (lw_weight w))) eqn:E.
      + rewrite Hl. destruct (String.eqb (lw_label x) L); cbn [andb ind] in *; [|lia].
        replace (inside (A - delta) (A + lw_weight x + delta) k) with true in *; [cbn [ind] in *; lia|].
        symmetry. unfold inside. apply andb_true_iff. split; [apply negb_true_iff, qlt_false; exact Hx|apply qlt_spec; exact (B1 eq_refl)].
      + assert (ind (String.eqb (fpick (f64_add acc (lw_weight w)) (dice k) p) L) <= maybe (A + lw_weight x) s k)%Z; [|lia].
        apply (IH (S j)); [exact Hk|exact Ha'|lia|lra|exact (B2 eq_refl)].
  Qed.

  Lemma default_late : forall p s, states theta p s -> ~ In "default" (map lw_label s) -> forall j acc A k, (k < N)%nat -> near j acc A -> (j + List.length p <= n)%nat -> (A + total_weight s <= 1)%Q ->
    (A - delta <= frac k N)%Q -> fpick acc (dice k) p = "default" -> (A + total_weight s - delta <= frac k N)%Q.
  Proof.
    intros p s H. induction H as [|w x p s (Hl & Ww & Hq & Hw) Hs IH]; intros HL j acc A k Hk Ha Hj Ht Hx Hd; cbn [total_weight pick_from List.length map] in *.
    - lra.
    - pose proof (total_pos s (states_nonneg _ _ Hs)) as Htp.
      assert (Ha' : near (S j) (f64_add acc (lw_weight w)) (A + lw_weight x)) by (apply near_step; [lia|exact Ha|exact Ww|exact Hw|lra]).
      destruct (below_threshold k _ _ Hk (proj1 Ha') (near_eta (S j) _ _ ltac:(lia) Ha')) as [B1 B2].
      destruct (f64_lt (dice k) (f64_add acc (lw_weight w))) eqn:E.
      + exfalso. apply HL. left. congruence.
      + assert (K : (A + lw_weight x + total_weight s - delta <= frac k N)%Q); [|lra].
        apply (IH ltac:(intros C; apply HL; now right) (S j) (f64_add acc (lw_weight w)) (A + lw_weight x)%Q k Hk Ha'); [lia|lra|exact (B2 eq_refl)|exact Hd].
  Qed.

  (** * Totals *)

  Lemma surely_total : forall s A, nonneg s -> (0 <= A)%Q -> (A + total_weight s <= 1)%Q ->
    (inject_Z (Z.of_nat N) * weight_of L s - of_nat (entries_of L s) * (1 + 2 * inject_Z (Z.of_nat N) * delta) <= inject_Z (zsum (surely A s) (seq 0 N)))%Q.
  Proof.
    pose proof eta_pos. assert (Hd : (0 <= delta)%Q) by (unfold delta; lra). pose proof N_pos.
    induction s as [|x s IH]; intros A Hn HA Ht; cbn [surely weight_of entries_of total_weight] in *.
    - rewrite zsum_0. unfold of_nat. change (inject_Z (Z.of_nat 0)) with 0%Q. change (inject_Z 0) with 0%Q. lra.
    - inversion Hn as [|? ? H1 H2]; subst. pose proof (total_pos s H2) as Htp.
      rewrite zsum_add, inject_Z_plus. specialize (IH (A + lw_weight x)%Q H2 ltac:(lra) ltac:(lra)).
      rewrite <- cnt_zsum. destruct (String.eqb (lw_label x) L); cbn [andb].
      + pose proof (inside_ge (A + delta) (A + lw_weight x - delta) ltac:(lra) ltac:(lra)) as G. unfold inside in *. rewrite of_nat_S. nra.
      + rewrite (cnt_false N (fun _ => false)) by reflexivity. change (inject_Z 0) with 0%Q. lra.
  Qed.

  Lemma maybe_total : forall s A, nonneg s -> (0 <= A)%Q -> (A + total_weight s <= 1)%Q ->
    (inject_Z (zsum (maybe A s) (seq 0 N)) <= inject_Z (Z.of_nat N) * weight_of L s + of_nat (entries_of L s) * (1 + 2 * inject_Z (Z.of_nat N) * delta))%Q.
  Proof.
    pose proof eta_pos. assert (Hd : (0 <= delta)%Q) by (unfold delta; lra). pose proof N_pos.
    induction s as [|x s IH]; intros A Hn HA Ht; cbn [maybe weight_of entries_of total_weight] in *.
    - rewrite zsum_0. unfold of_nat. change (inject_Z (Z.of_nat 0)) with 0%Q. change (inject_Z 0) with 0%Q. lra.
    - inversion Hn as [|? ? H1 H2]; subst. pose proof (total_pos s H2) as Htp.
      rewrite zsum_add, inject_Z_plus. specialize (IH (A + lw_weight x)%Q H2 ltac:(lra) ltac:(lra)).
      rewrite <- cnt_zsum. destruct (String.eqb (lw_label x) L); cbn [andb].
      + pose proof (inside_le (A - delta) (A + lw_weight x + delta) ltac:(lra) ltac:(lra) ltac:(lra)) as G. unfold inside in *. rewrite of_nat_S. nra.
      + rewrite (cnt_false N (fun _ => false)) by reflexivity. change (inject_Z 0) with 0%Q. lra.
  Qed.

  Lemma start_near : near 0 f64_zero 0.
  Proof. split; [exact I|]. apply within_iff. unfold of_nat. change (inject_Z (Z.of_nat 0)) with 0%Q. cbn [value f64_zero]. lra. Qed.

  Lemma frac_pos : forall k, (0 <= frac k N)%Q.
  Proof. intros k. unfold frac, Qle. cbn. lia. Qed.

  Lemma resolved_zsum : forall p, Z.of_nat (resolved N srt dice p L) = zsum (fun k => ind (String.eqb (fpick f64_zero (dice k) (srt p)) L)) (seq 0 N).
  Proof.
    intros p. rewrite <- cnt_zsum. unfold resolved, how_many, cnt. do 2 f_equal. apply filter_ext. intros k.
    unfold resolve_f, resolve_label. cbn [fst]. now rewrite resolve_running.
  Qed.

  Lemma share_float : forall p s, reorders srt -> (List.length p <= n)%nat -> states theta p s -> (total_weight s <= 1)%Q -> L <> "default" ->
    within (of_nat (entries_of L s) * (1 + 2 * of_nat N * delta)) (of_nat (resolved N srt dice p L)) (of_nat N * weight_of L s).
  Proof.
    intros p s Hs Hp Hst Ht HL. destruct (Permutation_Forall2 (Permutation_sym (Hs p)) Hst) as (s' & Ps & Hst').
    assert (Hlen : List.length (srt p) = List.length p) by (apply Permutation_length, Hs).
    assert (Hn : nonneg s') by (exact (states_nonneg _ _ Hst')).
    apply within_iff. rewrite (weight_of_perm L s s' Ps), (entries_of_perm L s s' Ps). rewrite (total_weight_perm s s' Ps) in Ht.
    assert (ER : of_nat (resolved N srt dice p L) = inject_Z (zsum (fun k => ind (String.eqb (fpick f64_zero (dice k) (srt p)) L)) (seq 0 N))) by (unfold of_nat; now rewrite resolved_zsum). rewrite ER.
    pose proof (surely_total s' 0 Hn ltac:(lra) ltac:(lra)) as S1. pose proof (maybe_total s' 0 Hn ltac:(lra) ltac:(lra)) as S2.
    assert (Z1 : (zsum (surely 0 s') (seq 0 N) <= zsum (fun k => ind (String.eqb (fpick f64_zero (dice k) (srt p)) L)) (seq 0 N))%Z).
    { apply zsum_le. intros k Hk. apply in_seq in Hk. apply (surely_picked _ _ Hst' 0); [lia|exact start_near|lia|lra]. }
    assert (Z2 : (zsum (fun k => ind (String.eqb (fpick f64_zero (dice k) (srt p)) L)) (seq 0 N) <= zsum (maybe 0 s') (seq 0 N))%Z).
    { apply zsum_le. intros k Hk. apply in_seq in Hk. apply (picked_maybe _ _ Hst' HL 0); [lia|exact start_near|lia|lra|].
      pose proof (frac_pos k). pose proof eta_pos. unfold delta. lra. }
    rewrite Zle_Qle in Z1, Z2. unfold of_nat in *. lra.
  Qed.

  Lemma default_float : forall p s, reorders srt -> (List.length p <= n)%nat -> states theta p s -> (total_weight s == 1)%Q -> ~ In "default" (map lw_label s) ->
    L = "default" -> (of_nat (resolved N srt dice p L) <= of_nat N * delta)%Q.
  Proof.
    intros p s Hs Hp Hst Ht HL EL. destruct (Permutation_Forall2 (Permutation_sym (Hs p)) Hst) as (s' & Ps & Hst').
    assert (Hlen : List.length (srt p) = List.length p) by (apply Permutation_length, Hs).
    rewrite (total_weight_perm s s' Ps) in Ht. pose proof eta_pos as He. assert (Hd : (0 <= delta)%Q) by (unfold delta; lra).
    unfold of_nat at 1. rewrite resolved_zsum.
    assert (Z1 : (zsum (fun k => ind (String.eqb (fpick f64_zero (dice k) (srt p)) L)) (seq 0 N) <= zsum (fun k => ind (negb (qlt (frac k N) (1 - delta)))) (seq 0 N))%Z).
    { apply zsum_le. intros k Hk. apply in_seq in Hk. destruct (String.eqb_spec (fpick f64_zero (dice k) (srt p)) L) as [E|E]; [|apply ind_nonneg].
      replace (qlt (frac k N) (1 - delta)) with false; [cbn; lia|]. symmetry. apply qlt_false. rewrite EL in E.
      assert (K : (0 + total_weight s' - delta <= frac k N)%Q); [|lra].
      apply (default_late _ _ Hst') with (j := 0%nat) (acc := f64_zero); [|lia|exact start_near|lia|lra| |exact E].
      - intros C. apply HL. rewrite in_map_iff in *. destruct C as (x & Ex & Ix). exists x. split; [exact Ex|]. eapply Permutation_in; [apply Permutation_sym, Ps|exact Ix].
      - pose proof (frac_pos k). lra. }
    rewrite <- (cnt_zsum N (fun k => negb (qlt (frac k N) (1 - delta)))) in Z1.
    pose proof (cnt_split N Npos (fun _ => true) (fun k => qlt (frac k N) (1 - delta))) as C. rewrite cnt_true in C. cbn [andb] in C.
    pose proof (below_ge (1 - delta) ltac:(lra)) as B. unfold below in B.
    set (a := cnt N (fun k => qlt (frac k N) (1 - delta))) in *. set (b := cnt N (fun k => negb (qlt (frac k N) (1 - delta)))) in *.
    rewrite Zle_Qle in Z1. assert (Eb : b = (Z.of_nat N - a)%Z) by lia. rewrite Eb in Z1. unfold Z.sub in Z1. rewrite inject_Z_plus, inject_Z_opp in Z1. unfold of_nat. lra.
  Qed.
End Count.

(** * The dice of math/rand *)

Lemma go_values_Z : Z.of_nat go_values = (2 ^ 63 - 512)%Z.
Proof. unfold go_values. rewrite Z2Nat.id; [reflexivity|]. lia. Qed.

Lemma go_spread_any : forall M, Z.of_nat M = (2 ^ 63 - 512)%Z -> spread M (Qpower 2 (-53)) (fun k => float64_of (Z.of_nat k)).
Proof.
  intros M EM k Hk. apply Nat2Z.inj_lt in Hk. rewrite EM in Hk. set (i := Z.of_nat k) in *. assert (Hi : (0 <= i)%Z) by (unfold i; lia).
  destruct (dice_units i ltac:(lia)) as [W U]. split; [exact W|].
  assert (D : (Z.abs ((if (i =? 0)%Z then 0 else nearest i) - i) <= 512)%Z) by (destruct (Z.eqb_spec i 0) as [->|Hn]; [cbn; lia|apply nearest_near; lia]).
  set (x := (if (i =? 0)%Z then 0 else nearest i)%Z) in *. clearbody x.
  assert (E : (value (float64_of i) == inject_Z x * Qpower 2 (-63))%Q).
  { rewrite (value_units _ W), U, inject_Z_mult, pow_Z by lia. rewrite <- Qmult_assoc, <- (pow_split 1011 (-1074)). reflexivity. }
  assert (F : (frac k M * inject_Z (2 ^ 63 - 512) == inject_Z i)%Q).
  { unfold frac. fold i. rewrite Qmake_Qdiv. replace (Z.pos (Pos.of_nat M)) with (Z.of_nat M) by lia. rewrite EM.
    rewrite Qmult_comm. apply Qmult_div_r. intros C. discriminate C. }
  assert (Hf0 : (0 <= frac k M)%Q) by (unfold frac, Qle; cbn [Qnum Qden]; lia).
  assert (Hf1 : (frac k M <= 1)%Q).
  { apply (Qmult_le_r _ _ (inject_Z (2 ^ 63 - 512))); [reflexivity|]. rewrite F, Qmult_1_l, <- Zle_Qle. lia. }
  apply within_iff. rewrite E. change (Qpower 2 (-63)) with (1 # 9223372036854775808)%Q. change (Qpower 2 (-53)) with (1 # 9007199254740992)%Q.
  change (inject_Z (2 ^ 63 - 512)) with (9223372036854775296 # 1)%Q in F.
  set (f := frac k M) in *. clearbody f.
  assert (D1 : (inject_Z x - inject_Z i <= 512 # 1)%Q /\ (inject_Z i - inject_Z x <= 512 # 1)%Q).
  { unfold Qminus. rewrite <- !inject_Z_opp, <- !inject_Z_plus. change (512 # 1)%Q with (inject_Z 512). rewrite <- !Zle_Qle. lia. }
  rewrite <- F in D1. clear F D E U. set (y := inject_Z x) in *. clearbody y. lra.
Qed.

Lemma go_spread : spread go_values (Qpower 2 (-53)) (fun k => float64_of (Z.of_nat k)).
Proof. exact (go_spread_any go_values go_values_Z). Qed.

Lemma draw_one : forall i rest, (0 <= i < 2 ^ 63)%Z -> draw (i :: rest) = if (i <? 2 ^ 63 - 512)%Z then Some (float64_of i) else draw rest.
Proof. intros i rest H. cbn [draw]. rewrite accepted by exact H. destruct (i <? 2 ^ 63 - 512)%Z; reflexivity. Qed.

Lemma half_ulp_value : (half_ulp == (1 # 2) * Qpower 2 (-53))%Q.
Proof. reflexivity. Qed.

Lemma go_big : forall M, Z.of_nat M = (2 ^ 63 - 512)%Z -> (2 * Qpower 2 (-53) * of_nat M >= 1)%Q.
Proof. intros M EM. unfold of_nat. rewrite EM. vm_compute. discriminate. Qed.

Lemma small_sum : forall m, (Z.of_nat m <= 2 ^ 50)%Z -> (of_nat m * (half_ulp + Qpower 2 (-53)) < 1)%Q.
Proof.
  intros m H. unfold of_nat. rewrite Zle_Qle in H. set (x := inject_Z (Z.of_nat m)) in *. clearbody x.
  change (half_ulp + Qpower 2 (-53))%Q with (27021597764222976 # 162259276829213363391578010288128)%Q.
  change (inject_Z (2 ^ 50)) with (1125899906842624 # 1)%Q in H. lra.
Qed.

Lemma go_share_any : forall M, Z.of_nat M = (2 ^ 63 - 512)%Z -> forall srt p s L, reorders srt -> (Z.of_nat (List.length p) <= 2 ^ 50)%Z -> states half_ulp p s -> (total_weight s <= 1)%Q -> L <> "default" ->
  within (of_nat (entries_of L s) * (of_nat (3 * List.length p + 4) * Qpower 2 (-53))) (of_nat (resolved M srt go_dice p L) / of_nat M) (weight_of L s).
Proof.
  intros M EM srt p s L Hs Hp Hst Ht HL. pose proof (go_big M EM) as G.
  assert (HN : (0 < M)%nat) by (apply Nat2Z.inj_lt; rewrite EM; lia).
  assert (HQ : (0 < of_nat M)%Q) by (exact (N_pos M HN)).
  pose proof (share_float M HN srt go_dice (Qpower 2 (-53)) half_ulp (List.length p) L (go_spread_any M EM) ltac:(pose proof (pow_gt0 (-53)); lra) ltac:(discriminate) (small_sum _ Hp) p s Hs ltac:(lia) Hst Ht HL) as S1.
  rewrite within_iff in *. rewrite half_ulp_value in S1.
  assert (E3 : (of_nat (3 * List.length p + 4) == 3 * of_nat (List.length p) + 4)%Q).
  { unfold of_nat. rewrite Nat2Z.inj_add, Nat2Z.inj_mul, inject_Z_plus, inject_Z_mult. reflexivity. }
  rewrite E3. pose proof (of_nat_pos (entries_of L s)) as He. pose proof (of_nat_pos (List.length p)) as Hm. pose proof (pow_gt0 (-53)) as Hu.
  set (N := of_nat M) in *. set (R := of_nat (resolved M srt go_dice p L)) in *. set (W := weight_of L s) in *.
  set (e := of_nat (entries_of L s)) in *. set (m := of_nat (List.length p)) in *. set (u := Qpower 2 (-53)) in *. clearbody N R W e m u.
  assert (ER : (R / N * N == R)%Q) by (rewrite Qmult_comm; apply Qmult_div_r; lra). set (r := (R / N)%Q) in *. clearbody r.
  assert (B : (e * (1 + 2 * N * (u + m * ((1 # 2) * u + u))) <= e * ((3 * m + 4) * u) * N)%Q).
  { assert (B1 : (1 + 2 * N * (u + m * ((1 # 2) * u + u)) <= (3 * m + 4) * u * N)%Q) by lra.
    pose proof (Qmult_le_compat_r _ _ e B1 He) as K. eapply Qle_trans; [|eapply Qle_trans; [exact K|]]; apply Qle_lteq; right; ring. }
  set (D := (e * ((3 * m + 4) * u))%Q) in *. clearbody D.
  split; apply (Qmult_le_r _ _ N HQ); lra.
Qed.

Lemma go_share : forall srt p s L, reorders srt -> (Z.of_nat (List.length p) <= 2 ^ 50)%Z -> states half_ulp p s -> (total_weight s <= 1)%Q -> L <> "default" ->
  within (of_nat (entries_of L s) * (of_nat (3 * List.length p + 4) * Qpower 2 (-53))) (of_nat (resolved go_values srt go_dice p L) / of_nat go_values) (weight_of L s).
Proof. exact (go_share_any go_values go_values_Z). Qed.

Lemma go_default_any : forall M, Z.of_nat M = (2 ^ 63 - 512)%Z -> forall srt p s, reorders srt -> (Z.of_nat (List.length p) <= 2 ^ 50)%Z -> states half_ulp p s -> (total_weight s == 1)%Q -> ~ In "default" (map lw_label s) ->
  (of_nat (resolved M srt go_dice p "default") / of_nat M <= of_nat (2 * List.length p + 1) * Qpower 2 (-53))%Q.
Proof.
  intros M EM srt p s Hs Hp Hst Ht HL.
  assert (HN : (0 < M)%nat) by (apply Nat2Z.inj_lt; rewrite EM; lia).
  assert (HQ : (0 < of_nat M)%Q) by (exact (N_pos M HN)).
  pose proof (default_float M HN srt go_dice (Qpower 2 (-53)) half_ulp (List.length p) "default" (go_spread_any M EM) ltac:(pose proof (pow_gt0 (-53)); lra) ltac:(discriminate) (small_sum _ Hp) p s Hs ltac:(lia) Hst Ht HL eq_refl) as S1.
  rewrite half_ulp_value in S1.
  assert (E3 : (of_nat (2 * List.length p + 1) == 2 * of_nat (List.length p) + 1)%Q).
  { unfold of_nat. rewrite Nat2Z.inj_add, Nat2Z.inj_mul, inject_Z_plus, inject_Z_mult. reflexivity. }
  rewrite E3. pose proof (of_nat_pos (List.length p)) as Hm. pose proof (pow_gt0 (-53)) as Hu.
  set (N := of_nat M) in *. set (R := of_nat (resolved M srt go_dice p "default")) in *.
  set (m := of_nat (List.length p)) in *. set (u := Qpower 2 (-53)) in *. clearbody N R m u.
  assert (ER : (R / N * N == R)%Q) by (rewrite Qmult_comm; apply Qmult_div_r; lra). set (r := (R / N)%Q) in *. clearbody r.
  apply (Qmult_le_r _ _ N HQ). rewrite ER. eapply Qle_trans; [exact S1|]. assert (0 <= m * u * N)%Q by (apply Qmult_le_0_compat; [apply Qmult_le_0_compat|]; lra). lra.
Qed.

Lemma go_default : forall srt p s, reorders srt -> (Z.of_nat (List.length p) <= 2 ^ 50)%Z -> states half_ulp p s -> (total_weight s == 1)%Q -> ~ In "default" (map lw_label s) ->
  (of_nat (resolved go_values srt go_dice p "default") / of_nat go_values <= of_nat (2 * List.length p + 1) * Qpower 2 (-53))%Q.
Proof. exact (go_default_any go_values go_values_Z). Qed.

(** As they are stated *)
Lemma float_share : forall N srt dice eps theta p s L, (0 < N)%nat -> spread N eps dice -> (0 <= eps)%Q -> (0 <= theta)%Q ->
  (of_nat (List.length p) * (theta + Qpower 2 (-53)) < 1)%Q -> reorders srt -> states theta p s -> (total_weight s <= 1)%Q -> L <> "default" ->
  within (of_nat (entries_of L s) * (1 + 2 * of_nat N * (eps + of_nat (List.length p) * (theta + Qpower 2 (-53)))))
    (of_nat (resolved N srt dice p L)) (of_nat N * weight_of L s).
Proof.
  intros N srt dice eps theta p s L HN Hd He Ht Hb Hr Hs Hw HL.
  exact (share_float N HN srt dice eps theta (List.length p) L Hd He Ht Hb p s Hr (le_n _) Hs Hw HL).
Qed.

Lemma float_default : forall N srt dice eps theta p s, (0 < N)%nat -> spread N eps dice -> (0 <= eps)%Q -> (0 <= theta)%Q ->
  (of_nat (List.length p) * (theta + Qpower 2 (-53)) < 1)%Q -> reorders srt -> states theta p s -> (total_weight s == 1)%Q ->
  ~ In "default" (map lw_label s) ->
  (of_nat (resolved N srt dice p "default") <= of_nat N * (eps + of_nat (List.length p) * (theta + Qpower 2 (-53))))%Q.
Proof.
  intros N srt dice eps theta p s HN Hd He Ht Hb Hr Hs Hw HL.
  exact (default_float N HN srt dice eps theta (List.length p) "default" Hd He Ht Hb p s Hr (le_n _) Hs Hw HL eq_refl).
Qed.
