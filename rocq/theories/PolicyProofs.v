From Coq Require Import String List Bool ZArith QArith Qround Lia Lqa Permutation Floats.SpecFloat Arith.
From Verif Require Import GoStr Policy PolicySpec.
Import ListNotations.
Local Open Scope string_scope.

(* ------------------------------------------------------------------ *)
(** * Running sums *)

Section Generic.
  Variable num : Type.
  Variable zero : num.
  Variable add : num -> num -> num.
  Variable lt : num -> num -> bool.

  Fixpoint pick_from (acc dice : num) (p : list (label_weight num)) : string :=
    match p with
    | [] => "default"
    | l :: p' =>
        let acc' := add acc (lw_weight l) in
        if lt dice acc' then lw_label l else pick_from acc' dice p'
    end.

  Lemma pick_running : forall p acc dice,
    pick num lt dice
      (map (fun i => fold_left add (map lw_weight (firstn i p)) acc) (seq 1 (List.length p))) p
    = pick_from acc dice p.
  Proof.
    induction p as [|l p IH]; intros acc dice; [reflexivity|].
    cbn [List.length seq map pick]. cbn [firstn map fold_left pick_from].
    destruct (lt dice (add acc (lw_weight l))); [reflexivity|].
    rewrite <- IH. f_equal. rewrite <- seq_shift, map_map. apply map_ext. reflexivity.
  Qed.

  Lemma resolve_running : forall dice p,
    resolve_sorted num zero add lt dice p = pick_from zero dice p.
  Proof. intros dice p. apply pick_running. Qed.

  Definition running_total (p : list (label_weight num)) : num :=
    fold_left add (map lw_weight p) zero.

  (** Whenever the dice is below the total, as computed, the result is a label of the policy. *)
  Lemma pick_from_in : forall p acc dice,
    p <> [] -> lt dice (fold_left add (map lw_weight p) acc) = true ->
    In (pick_from acc dice p) (map lw_label p).
  Proof.
    induction p as [|l p IH]; intros acc dice Hne H; [congruence|].
    cbn [pick_from map]. destruct (lt dice (add acc (lw_weight l))) eqn:E; [now left|].
    right. destruct p as [|l' p].
    - cbn in H. rewrite H in E. discriminate.
    - apply IH; [discriminate | exact H].
  Qed.

  Lemma resolve_in : forall srt dice p, reorders srt -> p <> [] ->
    lt dice (running_total (srt p)) = true ->
    In (fst (resolve_label num zero add lt srt dice p)) (map lw_label p).
  Proof.
    intros srt dice p Hs Hne H. cbn [resolve_label fst].
    rewrite resolve_running.
    eapply Permutation_in; [apply Permutation_map; apply Hs|].
    apply pick_from_in; [|exact H].
    intros C. apply Hne. apply Permutation_nil. rewrite <- C. apply Hs.
  Qed.

  (** Every history of sequential choices leaves a permutation. *)
  Lemma choices_perm : forall (h : list ((list (label_weight num) -> list (label_weight num)) * num)) p,
    Forall (fun c => reorders (fst c)) h ->
    Permutation (fold_left (fun p c => snd (resolve_label num zero add lt (fst c) (snd c) p)) h p) p.
  Proof.
    induction h as [|c h IH]; intros p H; cbn [fold_left]; [apply Permutation_refl|].
    inversion H as [|? ? Hc Hh]; subst.
    eapply perm_trans; [apply IH; exact Hh|]. cbn [resolve_label snd]. apply Hc.
  Qed.
End Generic.

(* ------------------------------------------------------------------ *)
(** * Rational weights: shares *)

Notation qpick := (pick_from Q Qplus qlt).

Lemma qlt_spec : forall a b, qlt a b = true <-> (a < b)%Q.
Proof.
  intros a b. unfold qlt. rewrite Qlt_alt. destruct (Qcompare a b); split; intros H; congruence.
Qed.

Lemma qlt_false : forall a b, qlt a b = false <-> (b <= a)%Q.
Proof.
  intros a b. rewrite <- not_true_iff_false, qlt_spec. split; [apply Qnot_lt_le | apply Qle_not_lt].
Qed.

Section Counting.
  Variable N : nat.
  Hypothesis Npos : (0 < N)%nat.

  Definition cnt (P : nat -> bool) : Z := Z.of_nat (List.length (filter P (seq 0 N))).

  Lemma cnt_ext : forall P Q, (forall k, P k = Q k) -> cnt P = cnt Q.
  Proof. intros P Q H. unfold cnt. now rewrite (filter_ext _ _ H). Qed.

  Lemma cnt_split : forall P Q, cnt P = (cnt (fun k => P k && Q k) + cnt (fun k => P k && negb (Q k)))%Z.
  Proof.
    intros P Q. unfold cnt. induction (seq 0 N) as [|x l IH]; [reflexivity|].
    cbn [filter]. destruct (P x), (Q x); cbn [andb negb List.length]; lia.
  Qed.

  Lemma cnt_false : forall P, (forall k, P k = false) -> cnt P = 0%Z.
  Proof.
    intros P H. rewrite (cnt_ext P (fun _ => false) H). unfold cnt.
    induction (seq 0 N) as [|x l IH]; [reflexivity | exact IH].
  Qed.

  Lemma cnt_true : cnt (fun _ => true) = Z.of_nat N.
  Proof.
    unfold cnt. f_equal. rewrite <- (seq_length N 0) at 2.
    induction (seq 0 N) as [|x l IH]; cbn [filter List.length]; [reflexivity | now rewrite IH].
  Qed.

  Definition below (x : Q) : Z := cnt (fun k => qlt (frac k N) x).

  Lemma between : forall a b, (a <= b)%Q ->
    cnt (fun k => negb (qlt (frac k N) a) && qlt (frac k N) b) = (below b - below a)%Z.
  Proof.
    intros a b H. unfold below.
    rewrite (cnt_split (fun k => qlt (frac k N) b) (fun k => qlt (frac k N) a)).
    rewrite (cnt_ext (fun k => qlt (frac k N) b && qlt (frac k N) a) (fun k => qlt (frac k N) a)).
    - rewrite (cnt_ext (fun k => negb (qlt (frac k N) a) && qlt (frac k N) b)
                       (fun k => qlt (frac k N) b && negb (qlt (frac k N) a))).
      + lia.
      + intros k. apply andb_comm.
    - intros k. destruct (qlt (frac k N) a) eqn:E; [|apply andb_false_r].
      rewrite andb_true_r. apply qlt_spec. apply qlt_spec in E. lra.
  Qed.

  Fixpoint share (acc : Q) (p : qpolicy) (L : string) : Z :=
    match p with
    | [] => if String.eqb "default" L then (Z.of_nat N - below acc)%Z else 0%Z
    | l :: p' =>
        let acc' := (acc + lw_weight l)%Q in
        ((if String.eqb (lw_label l) L then below acc' - below acc else 0) + share acc' p' L)%Z
    end.

  Lemma share_count : forall p acc L, nonneg p ->
    cnt (fun k => negb (qlt (frac k N) acc) && String.eqb (qpick acc (frac k N) p) L) = share acc p L.
  Proof.
    induction p as [|l p IH]; intros acc L Hn; cbn [pick_from share].
    - destruct (String.eqb "default" L).
      + pose proof (cnt_split (fun _ => true) (fun k => qlt (frac k N) acc)) as E.
        rewrite cnt_true in E. cbn [andb] in E. unfold below.
        rewrite (cnt_ext (fun k => negb (qlt (frac k N) acc) && true) (fun k => negb (qlt (frac k N) acc)))
          by (intros k; apply andb_true_r). lia.
      + apply cnt_false. intros k. apply andb_false_r.
    - inversion Hn as [|? ? Hw Hn']; subst.
      set (acc' := (acc + lw_weight l)%Q).
      assert (Hle : (acc <= acc')%Q) by (unfold acc'; lra).
      rewrite (cnt_split _ (fun k => qlt (frac k N) acc')).
      f_equal.
      + destruct (String.eqb (lw_label l) L) eqn:EL.
        * rewrite <- between by assumption. apply cnt_ext. intros k.
          destruct (qlt (frac k N) acc'); [|now rewrite !andb_false_r].
          rewrite EL. now rewrite !andb_true_r.
        * apply cnt_false. intros k. destruct (qlt (frac k N) acc'); [|apply andb_false_r].
          rewrite EL. now rewrite andb_false_r.
      + rewrite <- (IH acc' L Hn'). apply cnt_ext. intros k.
        destruct (qlt (frac k N) acc') eqn:E; cbn [negb]; [now rewrite andb_false_r|].
        rewrite andb_true_r. cbn [andb].
        replace (qlt (frac k N) acc) with false; [reflexivity|].
        symmetry. apply qlt_false. apply qlt_false in E. lra.
  Qed.

  Lemma frac_lt : forall k x, (frac k N < x)%Q <-> (inject_Z (Z.of_nat k) < inject_Z (Z.of_nat N) * x)%Q.
  Proof.
    intros k x. unfold frac. rewrite Qmake_Qdiv.
    replace (Z.pos (Pos.of_nat N)) with (Z.of_nat N) by lia.
    assert (0 < inject_Z (Z.of_nat N))%Q by (rewrite <- (Zlt_Qlt 0); lia).
    split; intros H1.
    - assert (E : (inject_Z (Z.of_nat N) * (inject_Z (Z.of_nat k) / inject_Z (Z.of_nat N)) == inject_Z (Z.of_nat k))%Q)
        by (apply Qmult_div_r; lra).
      apply (Qmult_lt_l _ _ (inject_Z (Z.of_nat N))) in H1; [|assumption]. lra.
    - apply Qlt_shift_div_r; [assumption|]. lra.
  Qed.

  Lemma filter_lt : forall M c, (0 <= c <= Z.of_nat M)%Z ->
    Z.of_nat (List.length (filter (fun k => Z.ltb (Z.of_nat k) c) (seq 0 M))) = c.
  Proof.
    induction M as [|M IH]; intros c Hc.
    - cbn. lia.
    - rewrite seq_S, filter_app, app_length, Nat2Z.inj_add. cbn [plus].
      cbn [filter]. destruct (Z.ltb_spec (Z.of_nat M) c).
      + assert (c = Z.of_nat (S M)) as -> by lia.
        rewrite (filter_ext_in _ (fun k => Z.ltb (Z.of_nat k) (Z.of_nat M))).
        * rewrite IH by lia. cbn [List.length]. lia.
        * intros k Hk. apply in_seq in Hk. destruct (Z.ltb_spec (Z.of_nat k) (Z.of_nat (S M)));
            destruct (Z.ltb_spec (Z.of_nat k) (Z.of_nat M)); lia.
      + cbn [List.length]. rewrite IH by lia. lia.
  Qed.

  Lemma below_ceiling : forall x, (0 <= x)%Q -> (x <= 1)%Q ->
    below x = Qceiling (inject_Z (Z.of_nat N) * x).
  Proof.
    intros x H0 H1. unfold below, cnt.
    assert (HN : (0 < inject_Z (Z.of_nat N))%Q) by (rewrite <- (Zlt_Qlt 0); lia).
    pose proof (Qle_ceiling (inject_Z (Z.of_nat N) * x)) as C1.
    pose proof (Qceiling_lt (inject_Z (Z.of_nat N) * x)) as C2.
    set (c := Qceiling (inject_Z (Z.of_nat N) * x)) in *.
    rewrite (filter_ext (fun k => qlt (frac k N) x) (fun k => Z.ltb (Z.of_nat k) c)).
    - apply filter_lt. split.
      + assert (inject_Z (-1) < inject_Z c)%Q by (unfold inject_Z at 1; nra).
        rewrite <- Zlt_Qlt in H. lia.
      + assert (inject_Z (c - 1) < inject_Z (Z.of_nat N))%Q by nra.
        rewrite <- Zlt_Qlt in H. lia.
    - intros k. apply eq_true_iff_eq. rewrite qlt_spec, Z.ltb_lt, frac_lt. split; intros H.
      + rewrite (Zlt_Qlt (Z.of_nat k) c). lra.
      + assert (Z.of_nat k <= c - 1)%Z as E by lia. rewrite Zle_Qle in E. lra.
  Qed.

  (** Running sums stay between 0 and 1, so every step is exact up to one dice value. *)
  Lemma share_bounds : forall p acc L, nonneg p -> (0 <= acc)%Q -> (acc + total_weight p == 1)%Q ->
    (inject_Z (Z.of_nat N) * weight_of L p - inject_Z (Z.of_nat (entries_of L p)) <= inject_Z (share acc p L))%Q /\
    (inject_Z (share acc p L) <= inject_Z (Z.of_nat N) * weight_of L p + inject_Z (Z.of_nat (entries_of L p)))%Q.
  Proof.
    induction p as [|l p IH]; intros acc L Hn H0 H1; cbn [share weight_of entries_of total_weight] in *.
    - assert (E : below acc = Z.of_nat N).
      { rewrite below_ceiling by lra.
        assert (E1 : (inject_Z (Z.of_nat N) * acc == inject_Z (Z.of_nat N))%Q) by (assert (Ea : (acc == 1)%Q) by lra; rewrite Ea; ring).
        rewrite (Qceiling_comp _ _ E1). apply Qceiling_Z. }
      rewrite E. replace (Z.of_nat N - Z.of_nat N)%Z with 0%Z by lia.
      destruct (String.eqb "default" L); change (inject_Z 0) with 0%Q; change (inject_Z (Z.of_nat 0)) with 0%Q; split; ring_simplify; lra.
    - inversion Hn as [|? ? Hw Hn']; subst.
      assert (Ht : (0 <= total_weight p)%Q).
      { clear - Hn'. induction Hn' as [|x q Hx Hq IHq]; cbn [total_weight]; lra. }
      destruct (IH (acc + lw_weight l)%Q L Hn') as [I1 I2]; [lra | lra |].
      rewrite inject_Z_plus.
      destruct (String.eqb (lw_label l) L) eqn:EL.
      + rewrite !below_ceiling by lra.
        pose proof (Qle_ceiling (inject_Z (Z.of_nat N) * (acc + lw_weight l))) as A1.
        pose proof (Qceiling_lt (inject_Z (Z.of_nat N) * (acc + lw_weight l))) as A2.
        pose proof (Qle_ceiling (inject_Z (Z.of_nat N) * acc)) as B1.
        pose proof (Qceiling_lt (inject_Z (Z.of_nat N) * acc)) as B2.
        set (ca := Qceiling (inject_Z (Z.of_nat N) * (acc + lw_weight l))) in *.
        set (cb := Qceiling (inject_Z (Z.of_nat N) * acc)) in *.
        rewrite Nat2Z.inj_succ. unfold Z.succ. rewrite inject_Z_plus.
        unfold Z.sub in *. rewrite inject_Z_plus, inject_Z_opp in *.
        change (inject_Z 1) with 1%Q in *.
        rewrite !Qmult_plus_distr_r in *.
        set (u := (inject_Z (Z.of_nat N) * lw_weight l)%Q) in *.
        set (v := (inject_Z (Z.of_nat N) * acc)%Q) in *.
        set (w := (inject_Z (Z.of_nat N) * weight_of L p)%Q) in *.
        rewrite ?inject_Z_opp in *. change (inject_Z 1) with 1%Q in *. split; lra.
      + change (inject_Z 0) with 0%Q. rewrite Qplus_0_l. split; assumption.
  Qed.

  Lemma share_exact : forall p acc L, nonneg p -> (0 <= acc)%Q -> (acc + total_weight p == 1)%Q ->
    (exists z, inject_Z (Z.of_nat N) * acc == inject_Z z)%Q ->
    Forall (fun l => exists z, inject_Z (Z.of_nat N) * lw_weight l == inject_Z z)%Q p ->
    (inject_Z (share acc p L) == inject_Z (Z.of_nat N) * weight_of L p)%Q.
  Proof.
    induction p as [|l p IH]; intros acc L Hn H0 H1 [za Ha] Hz; cbn [share weight_of total_weight] in *.
    - assert (E : below acc = Z.of_nat N).
      { rewrite below_ceiling by lra.
        assert (E1 : (inject_Z (Z.of_nat N) * acc == inject_Z (Z.of_nat N))%Q) by (assert (Ea : (acc == 1)%Q) by lra; rewrite Ea; ring).
        rewrite (Qceiling_comp _ _ E1). apply Qceiling_Z. }
      rewrite E. replace (Z.of_nat N - Z.of_nat N)%Z with 0%Z by lia.
      destruct (String.eqb "default" L); change (inject_Z 0) with 0%Q; ring.
    - inversion Hn as [|? ? Hw Hn']; subst. inversion Hz as [|? ? [zw Hzw] Hz']; subst.
      assert (Ht : (0 <= total_weight p)%Q).
      { clear - Hn'. induction Hn' as [|x q Hx Hq IHq]; cbn [total_weight]; lra. }
      assert (Hs : (inject_Z (Z.of_nat N) * (acc + lw_weight l) == inject_Z (za + zw))%Q).
      { rewrite Qmult_plus_distr_r, Ha, Hzw, inject_Z_plus. reflexivity. }
      rewrite inject_Z_plus. rewrite IH; [|assumption|lra|lra|now exists (za + zw)%Z|assumption].
      destruct (String.eqb (lw_label l) L).
      + rewrite !below_ceiling by lra. rewrite (Qceiling_comp _ _ Hs), (Qceiling_comp _ _ Ha), !Qceiling_Z.
        unfold Z.sub. rewrite inject_Z_plus, inject_Z_opp, inject_Z_plus, Qmult_plus_distr_r, Hzw. ring.
      + change (inject_Z 0) with 0%Q. ring.
  Qed.
End Counting.

Lemma weight_of_perm : forall L p q, Permutation p q -> (weight_of L p == weight_of L q)%Q.
Proof.
  intros L p q H. induction H as [|x p q H IH|x y p|p q r H1 IH1 H2 IH2]; cbn [weight_of].
  - reflexivity.
  - destruct (String.eqb (lw_label x) L); rewrite IH; reflexivity.
  - destruct (String.eqb (lw_label x) L), (String.eqb (lw_label y) L); ring.
  - now rewrite IH1.
Qed.

Lemma entries_of_perm : forall L p q, Permutation p q -> entries_of L p = entries_of L q.
Proof.
  intros L p q H. induction H as [|x p q H IH|x y p|p q r H1 IH1 H2 IH2]; cbn [entries_of].
  - reflexivity.
  - now rewrite IH.
  - destruct (String.eqb (lw_label x) L), (String.eqb (lw_label y) L); reflexivity.
  - now rewrite IH1.
Qed.

Lemma total_weight_perm : forall p q, Permutation p q -> (total_weight p == total_weight q)%Q.
Proof.
  intros p q H. induction H as [|x p q H IH|x y p|p q r H1 IH1 H2 IH2]; cbn [total_weight].
  - reflexivity.
  - now rewrite IH.
  - ring.
  - now rewrite IH1.
Qed.

Lemma nonneg_perm : forall p q, Permutation p q -> nonneg p -> nonneg q.
Proof. intros p q H Hn. unfold nonneg in *. eapply Permutation_Forall; eassumption. Qed.

Lemma cases_share : forall N srt p L, (0 < N)%nat -> reorders srt -> nonneg p ->
  Z.of_nat (cases N (fun d => fst (resolve_q srt d p)) L) = share N 0 (srt p) L.
Proof.
  intros N srt p L HN Hs Hn.
  rewrite <- share_count; [|assumption|eapply nonneg_perm; [apply Permutation_sym, Hs | exact Hn]].
  unfold cases, cnt. f_equal. f_equal. apply filter_ext. intros k.
  replace (qlt (frac k N) 0) with false.
  - cbn [negb andb]. unfold resolve_q, resolve_label. cbn [fst].
    now rewrite resolve_running.
  - symmetry. apply qlt_false. unfold frac, Qle. cbn. lia.
Qed.

Lemma share_theorem : forall N srt p L,
  (0 < N)%nat -> reorders srt -> nonneg p -> (total_weight p == 1)%Q ->
  (inject_Z (Z.of_nat N) * weight_of L p - inject_Z (Z.of_nat (entries_of L p))
     <= inject_Z (Z.of_nat (cases N (fun d => fst (resolve_q srt d p)) L)))%Q /\
  (inject_Z (Z.of_nat (cases N (fun d => fst (resolve_q srt d p)) L))
     <= inject_Z (Z.of_nat N) * weight_of L p + inject_Z (Z.of_nat (entries_of L p)))%Q.
Proof.
  intros N srt p L HN Hs Hn Ht. rewrite cases_share by assumption.
  pose proof (Permutation_sym (Hs p)) as HP.
  rewrite (weight_of_perm L p (srt p) HP), (entries_of_perm L p (srt p) HP).
  apply share_bounds; [assumption | eapply nonneg_perm; eassumption | lra |].
  rewrite Qplus_0_l, <- (total_weight_perm _ _ HP). exact Ht.
Qed.

Lemma share_exact_theorem : forall N srt p L,
  (0 < N)%nat -> reorders srt -> nonneg p -> (total_weight p == 1)%Q ->
  Forall (fun l => exists z, inject_Z (Z.of_nat N) * lw_weight l == inject_Z z)%Q p ->
  (inject_Z (Z.of_nat (cases N (fun d => fst (resolve_q srt d p)) L))
     == inject_Z (Z.of_nat N) * weight_of L p)%Q.
Proof.
  intros N srt p L HN Hs Hn Ht Hz. rewrite cases_share by assumption.
  pose proof (Permutation_sym (Hs p)) as HP.
  rewrite (weight_of_perm L p (srt p) HP).
  apply share_exact; [assumption | eapply nonneg_perm; eassumption | lra | | |].
  - rewrite Qplus_0_l, <- (total_weight_perm _ _ HP). exact Ht.
  - exists 0%Z. ring.
  - eapply Permutation_Forall; eassumption.
Qed.

(* ------------------------------------------------------------------ *)
(** * Which label *)

Lemma qpick_own : forall p acc dice, nonneg p -> (acc <= dice)%Q -> (dice < acc + total_weight p)%Q ->
  exists l, In l p /\ lw_label l = qpick acc dice p /\ (0 < lw_weight l)%Q.
Proof.
  induction p as [|l p IH]; intros acc dice Hn Ha Hd; cbn [total_weight pick_from] in *; [lra|].
  inversion Hn as [|? ? Hw Hn']; subst.
  destruct (qlt dice (acc + lw_weight l)) eqn:E.
  - exists l. split; [now left|]. split; [reflexivity|]. apply qlt_spec in E. lra.
  - apply qlt_false in E. destruct (IH (acc + lw_weight l)%Q dice Hn') as [l' [H1 [H2 H3]]]; [lra|lra|].
    exists l'. split; [now right | now split].
Qed.

Lemma qpick_default : forall p acc dice, nonneg p -> (acc + total_weight p <= dice)%Q ->
  qpick acc dice p = "default".
Proof.
  induction p as [|l p IH]; intros acc dice Hn H; cbn [total_weight pick_from] in *; [reflexivity|].
  inversion Hn as [|? ? Hw Hn']; subst.
  assert (Ht : (0 <= total_weight p)%Q).
  { clear - Hn'. induction Hn' as [|x q Hx Hq IHq]; cbn [total_weight]; lra. }
  replace (qlt dice (acc + lw_weight l)) with false by (symmetry; apply qlt_false; lra).
  apply IH; [assumption | lra].
Qed.

Lemma resolve_own : forall srt p dice, reorders srt -> nonneg p ->
  (0 <= dice)%Q -> (dice < total_weight p)%Q ->
  exists l, In l p /\ lw_label l = fst (resolve_q srt dice p) /\ (0 < lw_weight l)%Q.
Proof.
  intros srt p dice Hs Hn H0 H1. pose proof (Permutation_sym (Hs p)) as HP.
  unfold resolve_q, resolve_label. cbn [fst]. rewrite resolve_running.
  destruct (qpick_own (srt p) 0 dice) as [l [A [B C]]].
  - eapply nonneg_perm; eassumption.
  - assumption.
  - rewrite Qplus_0_l, <- (total_weight_perm _ _ HP). exact H1.
  - exists l. split; [eapply Permutation_in; [apply Hs | exact A] | now split].
Qed.

Lemma resolve_default : forall srt p dice, reorders srt -> nonneg p ->
  (total_weight p <= dice)%Q -> fst (resolve_q srt dice p) = "default".
Proof.
  intros srt p dice Hs Hn H. pose proof (Permutation_sym (Hs p)) as HP.
  unfold resolve_q, resolve_label. cbn [fst]. rewrite resolve_running.
  apply qpick_default; [eapply nonneg_perm; eassumption|].
  rewrite Qplus_0_l, <- (total_weight_perm _ _ HP). exact H.
Qed.

(** 0.1 as a binary64 number, and the largest binary64 number below 1. *)
Definition f64_tenth : f64 := S754_finite false 7205759403792794 (-56).
Definition f64_pred_one : f64 := S754_finite false 9007199254740991 (-53).
Definition f64_one : f64 := S754_finite false 4503599627370496 (-52).

Definition ten_tenths : fpolicy :=
  map (fun i => LW ("label" ++ itoa (N.of_nat i)) f64_tenth) (seq 0 10).

Lemma float_default : forall srt, srt ten_tenths = ten_tenths ->
  f64_lt f64_pred_one f64_one = true /\
  fst (resolve_f srt f64_pred_one ten_tenths) = "default" /\
  ~ In "default" (map lw_label ten_tenths).
Proof.
  intros srt H. split; [vm_compute; reflexivity|]. split.
  - unfold resolve_f, resolve_label. rewrite H. vm_compute. reflexivity.
  - vm_compute. intuition discriminate.
Qed.

(* ------------------------------------------------------------------ *)
(** * Reseeding *)

Lemma reseeded_constant : forall (st num : Type) (seed : Z -> st) (next : st -> st * num) t n g,
  exists d, dice_of st num seed next g (concat (repeat [Reply t; Choose] n)) = repeat d n.
Proof.
  intros st num seed next t n g. exists (snd (next (fst (next (seed t))))). revert g.
  induction n as [|n IH]; intros g; [reflexivity|].
  cbn [repeat concat List.app dice_of].
  destruct (next (fst (next (seed t)))) as [g' d] eqn:E. cbn [snd] in *. now rewrite IH.
Qed.

(* ------------------------------------------------------------------ *)
(** * Concurrent sorting *)

Section RaceProofs.
  Variable num : Type.
  Variable lt : num -> num -> bool.
  Variable dflt : label_weight num.
  Notation elt := (label_weight num).

  Lemma set_nth_app : forall (a : mem num) x b y, set_nth num (List.length a) y (a ++ x :: b)%list = (a ++ y :: b)%list.
  Proof. induction a as [|z a IH]; intros x b y; cbn; [reflexivity | now rewrite IH]. Qed.

  Lemma split_pair : forall (m : mem num) j, (1 <= j < List.length m)%nat ->
    exists a x y b, m = (a ++ x :: y :: b)%list /\ List.length a = pred j.
  Proof.
    intros m j H. destruct (nth_split m dflt (n := pred j)) as [a [b [E L]]]; [lia|].
    destruct b as [|y b].
    - exfalso. apply (f_equal (@List.length _)) in E. rewrite app_length in E. cbn in E. lia.
    - now exists a, (nth (pred j) m dflt), y, b.
  Qed.

  Lemma nth_at : forall (a : mem num) x b, nth (List.length a) (a ++ x :: b)%list dflt = x.
  Proof. intros a x b. rewrite app_nth2 by lia. now rewrite Nat.sub_diag. Qed.

  Lemma nth_at1 : forall (a : mem num) x y b, nth (S (List.length a)) (a ++ x :: y :: b)%list dflt = y.
  Proof.
    intros a x y b. replace (a ++ x :: y :: b)%list with ((a ++ [x]) ++ y :: b)%list by now rewrite <- app_assoc.
    replace (S (List.length a)) with (List.length (a ++ [x])) by (rewrite app_length; cbn; lia).
    apply nth_at.
  Qed.

  Lemma set_nth_app1 : forall (a : mem num) x y b z,
    set_nth num (S (List.length a)) z (a ++ x :: y :: b)%list = (a ++ x :: z :: b)%list.
  Proof.
    intros a x y b z. replace (a ++ x :: y :: b)%list with ((a ++ [x]) ++ y :: b)%list by now rewrite <- app_assoc.
    replace (S (List.length a)) with (List.length (a ++ [x])) by (rewrite app_length; cbn; lia).
    rewrite set_nth_app. now rewrite <- app_assoc.
  Qed.

  Lemma set_nth_length : forall n x (m : mem num), List.length (set_nth num n x m) = List.length m.
  Proof. induction n as [|n IH]; intros x [|y m]; cbn; auto. Qed.

  (** What each goroutine knows. *)
  Definition pc_ok (n : nat) (p : pc num) : Prop :=
    match p with
    | PTest _ i j => (j <= i)%nat
    | PLoad1 _ i j | PLoad2 _ i j _ | PStore1 _ i j _ _ | PStore2 _ i j _ => (1 <= j < n)%nat /\ (j <= i)%nat
    | PDone _ => True
    end.

  Definition held (m0 m : mem num) (p : pc num) : Prop :=
    match p with
    | PLoad2 _ _ j x => Permutation m m0 /\ x = nth (pred j) m dflt
    | PStore1 _ _ j x y => Permutation m m0 /\ x = nth (pred j) m dflt /\ y = nth j m dflt
    | PStore2 _ _ j y => Permutation (set_nth num (pred j) y m) m0
    | _ => True
    end.

  Definition race_inv (m0 m : mem num) (ps : list (pc num)) : Prop :=
    List.length m = List.length m0 /\ Forall (pc_ok (List.length m0)) ps /\
    (swappers ps = 0%nat /\ Permutation m m0 \/
     swappers ps = 1%nat /\ forall p, In p ps -> swapping p = true -> held m0 m p).

  Lemma upd_same : forall t ps x, upd_pc num t x ps = ps \/ (t < List.length ps)%nat.
  Proof.
    induction t as [|t IH]; intros [|p ps] x; cbn; [now left | right; lia | now left |].
    destruct (IH ps x) as [->|H]; [now left | right; lia].
  Qed.

  Lemma upd_split : forall t ps x, (t < List.length ps)%nat ->
    exists a b, ps = (a ++ nth t ps (PDone num) :: b)%list /\ upd_pc num t x ps = (a ++ x :: b)%list.
  Proof.
    induction t as [|t IH]; intros [|p ps] x H; cbn in H; try lia.
    - now exists [], ps.
    - destruct (IH ps x) as [a [b [E1 E2]]]; [lia|]. exists (p :: a), b. cbn [nth upd_pc List.app].
      split; [now rewrite <- E1 | now rewrite E2].
  Qed.

  Lemma swappers_app : forall a b : list (pc num), swappers (a ++ b) = (swappers a + swappers b)%nat.
  Proof. intros a b. unfold swappers. now rewrite filter_app, app_length. Qed.

  Lemma swappers_cons : forall (p : pc num) b, swappers (p :: b) = ((if swapping p then 1 else 0) + swappers b)%nat.
  Proof. intros p b. unfold swappers. cbn [filter]. destruct (swapping p); reflexivity. Qed.

  Lemma swappers_0 : forall (l : list (pc num)) p, swappers l = 0%nat -> In p l -> swapping p = false.
  Proof.
    induction l as [|q l IH]; intros p H Hin; [contradiction|].
    rewrite swappers_cons in H. destruct (swapping q) eqn:E; [discriminate|].
    destruct Hin as [->|Hin]; [assumption | now apply IH].
  Qed.

  Lemma race_step : forall m0 m ps t m' p',
    race_inv m0 m ps -> (t < List.length ps)%nat ->
    sort_step num lt dflt m (nth t ps (PDone num)) = (m', p') ->
    (swappers (upd_pc num t p' ps) <= 1)%nat ->
    race_inv m0 m' (upd_pc num t p' ps).
  Proof.
    intros m0 m ps t m' p' [Hl [Hok Hs]] Ht Hstep Hsw.
    destruct (upd_split t ps p' Ht) as [a [b [E1 E2]]]. set (p := nth t ps (PDone num)) in *.
    rewrite E2 in *.
    assert (Hokp : pc_ok (List.length m0) p) by (rewrite Forall_forall in Hok; apply Hok; rewrite E1; apply in_or_app; right; now left).
    assert (Hoka : Forall (pc_ok (List.length m0)) a) by (rewrite E1 in Hok; apply Forall_app in Hok; tauto).
    assert (Hokb : Forall (pc_ok (List.length m0)) b).
    { rewrite E1 in Hok. apply Forall_app in Hok. destruct Hok as [_ Hok]. now inversion Hok. }
    assert (Hps : swappers ps = (swappers a + ((if swapping p then 1 else 0) + swappers b))%nat)
      by (rewrite E1 at 1; rewrite swappers_app, swappers_cons; reflexivity).
    rewrite swappers_app, swappers_cons in Hsw.
    assert (Hother : swapping p = true -> swappers a = 0%nat /\ swappers b = 0%nat).
    { intros E. rewrite E in Hps. destruct Hs as [[H _]|[H _]]; lia. }
    assert (Hheld : swapping p = true -> held m0 m p).
    { intros E. destruct Hs as [[H _]|[H K]]; [rewrite E in Hps; lia|].
      apply K; [rewrite E1; apply in_or_app; right; now left | exact E]. }
    assert (Hidle : swapping p = false -> m' = m -> swapping p' = false -> pc_ok (List.length m0) p' ->
                    race_inv m0 m' (a ++ p' :: b)).
    { intros E -> E' Hok'. split; [assumption|]. split.
      - apply Forall_app. split; [assumption | now constructor].
      - rewrite swappers_app, swappers_cons, E'. rewrite E in Hps. rewrite <- Hps.
        destruct Hs as [Hs|[H K]]; [now left|]. right. split; [assumption|].
        intros q Hq Eq. apply K; [|exact Eq]. rewrite E1. apply in_app_or in Hq.
        apply in_or_app. destruct Hq as [Hq|[->|Hq]]; [now left | congruence | right; now right]. }
    assert (Hone : forall x, swapping p' = true -> x = p' -> (forall q, In q (a ++ p' :: b)%list -> swapping q = true -> q = p')).
    { intros x E' _ q Hq Eq. rewrite E' in Hsw. apply in_app_or in Hq.
      destruct Hq as [Hq|[Hq|Hq]]; [|congruence|].
      - assert (swappers a = 0%nat) by lia. now rewrite (swappers_0 a q) in Eq.
      - assert (swappers b = 0%nat) by lia. now rewrite (swappers_0 b q) in Eq. }
    destruct p as [i j|i j|i j x|i j x y|i j y|] eqn:Ep; cbn [sort_step] in Hstep.
    - (* PTest *)
      cbn [pc_ok] in Hokp.
      destruct (Nat.leb_spec (List.length m) i).
      + inversion Hstep; subst. apply Hidle; try reflexivity; try exact I.
      + destruct j as [|j'].
        * inversion Hstep; subst. apply Hidle; try reflexivity. cbn. lia.
        * destruct (lt _ _); inversion Hstep; subst; apply Hidle; try reflexivity; cbn; lia.
    - (* PLoad1 *)
      inversion Hstep; subst. cbn [swapping] in *.
      assert (Hz : swappers a = 0%nat /\ swappers b = 0%nat) by lia.
      split; [assumption|]. split; [apply Forall_app; split; [assumption | now constructor]|].
      right. split; [rewrite swappers_app, swappers_cons; cbn [swapping]; lia|].
      intros q Hq Eq. rewrite (Hone _ eq_refl eq_refl q Hq Eq). cbn [held].
      split; [|reflexivity]. destruct Hs as [[_ H]|[H _]]; [assumption | lia].
    - (* PLoad2 *)
      inversion Hstep; subst. cbn [swapping] in *. destruct (Hheld eq_refl) as [HP Hx].
      split; [assumption|]. split; [apply Forall_app; split; [assumption | now constructor]|].
      right. split; [rewrite swappers_app, swappers_cons; cbn [swapping]; lia|].
      intros q Hq Eq. rewrite (Hone _ eq_refl eq_refl q Hq Eq). cbn [held]. now split.
    - (* PStore1 *)
      inversion Hstep; subst. cbn [swapping] in *. destruct (Hheld eq_refl) as [HP [Hx Hy]].
      split; [now rewrite set_nth_length|]. split; [apply Forall_app; split; [assumption | now constructor]|].
      right. split; [rewrite swappers_app, swappers_cons; cbn [swapping]; lia|].
      intros q Hq Eq. rewrite (Hone _ eq_refl eq_refl q Hq Eq). cbn [held].
      cbn [pc_ok] in Hokp. destruct (split_pair m j) as [u [x0 [y0 [v [Em Lu]]]]]; [lia|].
      assert (Ej : j = S (List.length u)) by lia. subst j. cbn [pred] in *. subst m x y.
      rewrite nth_at, nth_at1, set_nth_app1, set_nth_app.
      eapply perm_trans; [|exact HP]. apply Permutation_app_head. apply perm_swap.
    - (* PStore2 *)
      inversion Hstep; subst. cbn [swapping] in *. pose proof (Hheld eq_refl) as HP. cbn [held] in HP.
      destruct (Hother eq_refl) as [Za Zb].
      split; [now rewrite set_nth_length|]. split.
      { apply Forall_app. split; [assumption|]. constructor; [|assumption]. cbn in Hokp |- *. lia. }
      left. split; [rewrite swappers_app, swappers_cons; cbn [swapping]; lia | exact HP].
    - (* PDone *)
      inversion Hstep; subst. apply Hidle; try reflexivity; try exact I.
  Qed.

  Notation exclusive := (exclusive num lt dflt).

  Lemma race_run : forall sched m0 m ps, race_inv m0 m ps -> exclusive m ps sched ->
    race_inv m0 (fst (run_sorts num lt dflt m ps sched)) (snd (run_sorts num lt dflt m ps sched)).
  Proof.
    induction sched as [|t sched IH]; intros m0 m ps Hi He; cbn [run_sorts exclusive] in *; [exact Hi|].
    destruct He as [_ He].
    destruct (sort_step num lt dflt m (nth t ps (PDone num))) as [m' p'] eqn:E.
    apply IH; [|exact He].
    assert (Hsw : (swappers (upd_pc num t p' ps) <= 1)%nat) by (destruct sched; apply He).
    destruct (upd_same t ps p') as [Es|Ht].
    - destruct (Nat.lt_ge_cases t (List.length ps)) as [Ht|Ht]; [eapply race_step; eassumption|].
      rewrite nth_overflow in E by lia. cbn in E. inversion E; subst. now rewrite Es.
    - eapply race_step; eassumption.
  Qed.

  Lemma exclusive_perm : forall m n sched,
    exclusive m (repeat (sort_start num) n) sched ->
    swappers (snd (run_sorts num lt dflt m (repeat (sort_start num) n) sched)) = 0%nat ->
    Permutation (fst (run_sorts num lt dflt m (repeat (sort_start num) n) sched)) m.
  Proof.
    intros m n sched He Hz.
    assert (Hi : race_inv m m (repeat (sort_start num) n)).
    { split; [reflexivity|]. split.
      - apply Forall_forall. intros p Hp. apply repeat_spec in Hp. subst. cbn. lia.
      - left. split; [|apply Permutation_refl]. clear. induction n as [|n IH]; [reflexivity|].
        cbn [repeat]. rewrite swappers_cons. exact IH. }
    pose proof (race_run sched m m _ Hi He) as [_ [_ [[_ H]|[H _]]]]; [assumption | lia].
  Qed.

  Lemma swappers_le : forall ps : list (pc num), (swappers ps <= List.length ps)%nat.
  Proof.
    induction ps as [|p ps IH]; [apply le_n|]. rewrite swappers_cons. cbn [List.length].
    destruct (swapping p); lia.
  Qed.

  Lemma upd_pc_length : forall t x (ps : list (pc num)), List.length (upd_pc num t x ps) = List.length ps.
  Proof. induction t as [|t IH]; intros x [|p ps]; cbn; auto. Qed.

  Lemma alone_exclusive : forall sched m ps, (List.length ps <= 1)%nat -> exclusive m ps sched.
  Proof.
    induction sched as [|t sched IH]; intros m ps H; cbn [exclusive];
      pose proof (swappers_le ps); (split; [lia|]); [exact I|].
    destruct (sort_step _ _ _ _ _) as [m' p']. apply IH. now rewrite upd_pc_length.
  Qed.
End RaceProofs.

Definition race_policy : qpolicy := [LW "green" (8 # 10)%Q; LW "blue" (2 # 10)%Q].
Definition race_dflt : label_weight Q := LW "" 0%Q.
(** Both goroutines see that the elements are out of order; the second loads between the two
    stores of the first. *)
Definition race_sched : list nat := [0; 1; 0; 0; 0; 1; 1; 0; 1; 1; 0; 1; 0; 0; 1; 1]%nat.

Lemma race_loses : exists m ps,
  run_sorts Q qlt race_dflt race_policy [sort_start Q; sort_start Q] race_sched = (m, ps) /\
  ps = [PDone Q; PDone Q] /\
  ~ Permutation m race_policy /\ ~ In "blue" (map lw_label m).
Proof.
  eexists. eexists. split; [vm_compute; reflexivity|]. split; [reflexivity|].
  assert (H : ~ In "blue" (map lw_label [LW "green" (8 # 10)%Q; LW "green" (8 # 10)%Q]))
    by (cbn; intuition discriminate).
  split; [|exact H].
  intros P. apply H. eapply Permutation_in; [apply Permutation_map, Permutation_sym, P|]. right. now left.
Qed.
