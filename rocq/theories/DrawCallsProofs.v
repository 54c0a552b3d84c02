(** Lemmas about one draw from the generator. *)
From Coq Require Import List ZArith QArith Qabs Lia Lqa Floats.SpecFloat.
From Verif Require Import GoStr Stats StatsFloat Policy Dice DiceSpec DiceFloat DiceProofs Balance DrawCallsSpec.
Local Open Scope Z_scope.

Lemma near_fraction : forall i, 0 <= i < 2 ^ 63 - 512 -> weighty (float64_of i) /\ within half_ulp (value (float64_of i)) (inject_Z i * Qpower 2 (-63)).
Proof.
  intros i Hi. destruct (dice_units i ltac:(lia)) as [W U]. split; [exact W|].
  assert (D : (Z.abs ((if (i =? 0)%Z then 0 else nearest i) - i) <= 512)%Z) by (destruct (Z.eqb_spec i 0) as [->|Hn]; [cbn; lia|apply nearest_near; lia]).
  set (x := (if (i =? 0)%Z then 0 else nearest i)%Z) in *. clearbody x.
  assert (E : (value (float64_of i) == inject_Z x * Qpower 2 (-63))%Q).
  { rewrite (value_units _ W), U, inject_Z_mult, pow_Z by lia. rewrite <- Qmult_assoc, <- (pow_split 1011 (-1074)). reflexivity. }
  assert (D1 : (inject_Z x - inject_Z i <= 512 # 1)%Q /\ (inject_Z i - inject_Z x <= 512 # 1)%Q).
  { unfold Qminus. rewrite <- !inject_Z_opp, <- !inject_Z_plus. change (512 # 1)%Q with (inject_Z 512). rewrite <- !Zle_Qle. lia. }
  apply within_iff. rewrite E. unfold half_ulp. change (Qpower 2 (-63)) with (1 # 9223372036854775808)%Q. change (Qpower 2 (-54)) with (1 # 18014398509481984)%Q.
  clear D E U. set (y := inject_Z x) in *. set (z := inject_Z i) in *. clearbody y z. lra.
Qed.

Lemma one_draw : forall G g g' d, bits63 G ->
  (throws G g g' d <-> exists n, (forall k, (k < n)%nat -> 2 ^ 63 - 512 <= call_gives G g k) /\ call_gives G g n < 2 ^ 63 - 512 /\
    d = float64_of (call_gives G g n) /\ g' = after_calls G (S n) g).
Proof.
  intros G g g' d B. split.
  - intros H. induction H as [g g1 g2 i d Ei Eq H IH|g g1 i Ei Eq].
    + destruct IH as (n & Before & At & Ed & Eg). pose proof (B g) as Bi. rewrite Ei in Bi. cbn [snd] in Bi. rewrite (accepted i Bi) in Eq.
      assert (C : forall k, call_gives G g1 k = call_gives G g (S k)) by (intros k; unfold call_gives; cbn [after_calls]; rewrite Ei; reflexivity).
      exists (S n). split; [|split; [rewrite <- C; exact At|split; [rewrite <- C; exact Ed|]]].
      * intros [|k] Hk; [unfold call_gives; cbn [after_calls]; rewrite Ei; cbn [snd]; apply Bool.negb_true_iff in Eq; apply Z.ltb_ge in Eq; exact Eq|].
        rewrite <- C. apply Before. lia.
      * cbn [after_calls] in *. rewrite Ei. exact Eg.
    + pose proof (B g) as Bi. rewrite Ei in Bi. cbn [snd] in Bi. rewrite (accepted i Bi) in Eq. exists 0%nat.
      unfold call_gives. cbn [after_calls]. rewrite Ei. cbn [fst snd]. apply Bool.negb_false_iff in Eq. apply Z.ltb_lt in Eq.
      split; [intros k Hk; lia|]. split; [exact Eq|]. split; reflexivity.
  - intros (n & Before & At & Ed & Eg). revert g Before At Ed Eg. induction n as [|n IH]; intros g Before At Ed Eg.
    + unfold call_gives in *. cbn [after_calls] in *. pose proof (B g) as Bi. destruct (g_int63 G g) as [g1 i] eqn:Ei. cbn [fst snd] in *. subst d g'.
      apply th_done; [exact Ei|]. rewrite (accepted i Bi). apply Bool.negb_false_iff, Z.ltb_lt. exact At.
    + pose proof (B g) as Bi. pose proof (Before 0%nat ltac:(lia)) as H0. unfold call_gives in H0. cbn [after_calls] in H0.
      destruct (g_int63 G g) as [g1 i] eqn:Ei. cbn [fst snd] in *.
      assert (C : forall k, call_gives G g1 k = call_gives G g (S k)) by (intros k; unfold call_gives; cbn [after_calls]; rewrite Ei; reflexivity).
      apply (th_again G g g1 g' i d Ei).
      * rewrite (accepted i Bi). apply Bool.negb_true_iff, Z.ltb_ge. exact H0.
      * apply IH; [intros k Hk; rewrite C; apply Before; lia|rewrite C; exact At|rewrite C; exact Ed|]. cbn [after_calls] in Eg. rewrite Ei in Eg. exact Eg.
Qed.

Lemma draw_near : forall G g g' d, bits63 G -> throws G g g' d ->
  exists n, g' = after_calls G (S n) g /\ (forall k, (k < n)%nat -> 2 ^ 63 - 512 <= call_gives G g k) /\
    weighty d /\ within half_ulp (value d) (inject_Z (call_gives G g n) * Qpower 2 (-63)).
Proof.
  intros G g g' d B H. apply (one_draw G g g' d B) in H. destruct H as (n & Before & At & Ed & Eg). exists n. subst d g'.
  destruct (near_fraction (call_gives G g n)) as [W N]; [split; [apply B|exact At]|]. split; [reflexivity|]. split; [exact Before|]. split; [exact W|exact N].
Qed.
