(** Lemmas for Thm_JwtDates. *)
From Coq Require Import String List Bool ZArith Lia.
From Verif Require Import GoStr NumberSpec Jwt JwtSpec JwtProofs JwtKeys JwtDatesSpec.
Import ListNotations.
Local Open Scope string_scope.

Lemma back_exact : forall skew now t, expressible skew -> (0 <= now)%Z -> t <> year_1 ->
  (back skew (nanos t) = nanos year_1 \/ (unix (back skew (nanos t)) <= now)%Z <-> (t - skew <= now)%Z /\ ~ (now < t <= skew * 1000)%Z).
Proof.
  intros skew now t [M1 M2] Hn Ht. unfold back, int64_max in *.
  rewrite !wrap64_id by (unfold int64_min, int64_max; lia). rewrite unix_nanos.
  destruct (Z.ltb_spec (skew * 1000) t) as [L|L].
  - rewrite unix_shift. replace (-1000000000 * skew)%Z with ((- skew) * 1000000000)%Z by lia. rewrite Z.div_mul by lia.
    assert (N : (nanos t + - skew * 1000000000)%Z <> nanos year_1) by (unfold nanos, year_1; lia). intuition lia.
  - rewrite unix_nanos. assert (N : nanos t <> nanos year_1) by (unfold nanos; lia). intuition lia.
Qed.

Lemma forth_exact : forall skew now t, expressible skew -> t <> year_1 ->
  (forth skew (nanos t) = nanos year_1 \/ (now < unix (forth skew (nanos t)))%Z <-> (now < t + skew)%Z /\ ~ (t <= 1 /\ t <= now)%Z).
Proof.
  intros skew now t [M1 M2] Ht. unfold forth, int64_max in *.
  rewrite !wrap64_id by (unfold int64_min, int64_max; lia). rewrite unix_nanos.
  destruct (Z.ltb_spec 1 t) as [L|L].
  - rewrite unix_shift. replace (1000000000 * skew)%Z with (skew * 1000000000)%Z by lia. rewrite Z.div_mul by lia.
    assert (N : (nanos t + skew * 1000000000)%Z <> nanos year_1) by (unfold nanos, year_1; lia). intuition lia.
  - rewrite unix_nanos. assert (N : nanos t <> nanos year_1) by (unfold nanos; lia). intuition lia.
Qed.

Lemma dates_exact : forall now skew c, expressible skew -> (0 <= now)%Z -> dated c ->
  (verify_date_claims now skew c = true <-> in_time now skew c /\ ~ unskewed now skew c).
Proof.
  intros now skew c X Hn [D1 [D2 D3]]. fold year_1 in *. rewrite verify_date_claims_eq, verify_dates_iff.
  assert (B : forall o, o <> Some year_1 ->
    (back skew (date o) = nanos year_1 \/ (unix (back skew (date o)) <= now)%Z <->
     forall t, o = Some t -> (t - skew <= now)%Z /\ ~ (now < t <= skew * 1000)%Z)).
  { intros [t|] Ho; unfold date.
    - rewrite back_exact by (try assumption; congruence). split; [intros H u E; injection E as <-; exact H|intros H; exact (H t eq_refl)].
    - split; [intros _ t E; discriminate|]. intros _. left. destruct X as [X1 X2]. unfold back, int64_max in *.
      rewrite !wrap64_id by (unfold int64_min, int64_max; lia). rewrite unix_nanos. unfold year_1.
      destruct (Z.ltb_spec (skew * 1000) (-62135596800)); [lia|reflexivity]. }
  assert (F : forth skew (date (cl_exp c)) = nanos year_1 \/ (now < unix (forth skew (date (cl_exp c))))%Z <->
     forall t, cl_exp c = Some t -> (now < t + skew)%Z /\ ~ (t <= 1 /\ t <= now)%Z).
  { destruct (cl_exp c) as [t|]; unfold date.
    - rewrite forth_exact by (try assumption; congruence). split; [intros H u E; injection E as <-; exact H|intros H; exact (H t eq_refl)].
    - split; [intros _ t E; discriminate|]. intros _. left. reflexivity. }
  rewrite F, (B _ D2), (B _ D3). unfold in_time, unskewed. split.
  - intros [E [I N]]. split; [split; [|split]; intros t Ht|].
    + exact (proj1 (E t Ht)).
    + exact (proj1 (I t Ht)).
    + exact (proj1 (N t Ht)).
    + intros [[t [[Ht|Ht] Hr]]|[t [Ht Hr]]]; [exact (proj2 (I t Ht) Hr)|exact (proj2 (N t Ht) Hr)|exact (proj2 (E t Ht) Hr)].
  - intros [[E [I N]] U]. split; [|split]; intros t Ht.
    + split; [exact (E t Ht)|]. intros Hr. apply U. right. exists t. split; [exact Ht|exact Hr].
    + split; [exact (I t Ht)|]. intros Hr. apply U. left. exists t. split; [left; exact Ht|exact Hr].
    + split; [exact (N t Ht)|]. intros Hr. apply U. left. exists t. split; [right; exact Ht|exact Hr].
Qed.

Lemma accepted_dates : forall pem kid0 j0 docs j L now auth token n skew c, reached pem kid0 j0 docs j -> In (j_alg j0) signing -> honest L ->
  bearer auth token -> lib_signatures L token = Some (S n) -> skew_is j skew -> expressible skew -> (0 <= now)%Z -> lib_parse L token = Some c -> dated c ->
  (fst (validate_jwt L now j auth) = Valid <->
   (exists kid k c, In (kid, k) (keys j) /\ lib_verify L (j_alg j0) k token = Some c) /\ in_time now skew c /\ ~ unskewed now skew c).
Proof.
  intros pem kid0 j0 docs j L now auth token n skew c H Ha HL Hb Hn Hs X Hnow Hp Hd.
  assert (Hk := reached_keys _ _ _ _ _ H Ha). apply reached_fit in H. destruct H as [I1 I2 I3 I4 I5 I6 I7 I8].
  rewrite <- I1 in *. destruct (verdict_signed L now j auth token Hb Ha) as [_ [_ H3]]. destruct (H3 n Hn) as [H4 H5].
  rewrite <- (dates_exact now skew c X Hnow Hd). split.
  - intros Hv. assert (U := valid_usable L now j auth token Hb Ha Hv). split; [rewrite <- Hk; exact U|].
    rewrite (H4 U), Hp, (skew_is_of _ _ Hs) in Hv. destruct (verify_date_claims now skew c); [reflexivity|discriminate].
  - intros [[kid [k [c' [Hin Hv]]]] Ht]. rewrite <- Hk in Hin.
    rewrite H4 by (now exists kid, k, c'). rewrite Hp, (skew_is_of _ _ Hs), Ht. reflexivity.
Qed.

(** Skews that are not moderate are needed for a date without skew. *)
Lemma unskewed_large : forall now skew c, (0 <= now)%Z -> in_time now skew c -> unskewed now skew c -> (now < skew * 1000)%Z.
Proof.
  intros now skew c Hn [E [I N]] [[t [_ Hr]]|[t [Ht Hr]]]; [lia|]. specialize (E t Ht). lia.
Qed.
