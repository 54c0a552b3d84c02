(** The floating-point arithmetic of the keep-alive interval (C79). *)
From Coq Require Import ZArith Bool Lia Floats.SpecFloat.
From Verif Require Import GoStr Stats StatsFloat Startup.
Local Open Scope Z_scope.

(** * Division, with its error *)

Lemma divide_near : forall p e q f, normal (Z.pos p) -> normal (Z.pos q) -> -64 <= e <= 64 -> -64 <= f <= 64 ->
  exists m d, SFdiv 53 1024 (S754_finite false p e) (S754_finite false q f) = S754_finite false m (e - f - 53 + d) /\
    normal (Z.pos m) /\ 0 <= d <= 1 /\
    Z.pos m * 2 ^ d * Z.pos q - 2 ^ d * Z.pos q <= Z.pos p * 2 ^ 53 <= Z.pos m * 2 ^ d * Z.pos q + 2 ^ d * Z.pos q.
Proof.
  intros p e q f Hp Hq He Hf. cbn [SFdiv]. unfold SFdiv_core_binary.
  rewrite (digits_unique (Z.pos p) 53), (digits_unique (Z.pos q) 53) by (unfold normal in *; cbn in *; lia).
  replace (Z.min (fexp 53 1024 (53 + e - (53 + f))) (e - f)) with (e - f - 53) by (unfold fexp, emin; lia).
  cbv zeta. replace (e - f - (e - f - 53)) with 53 by lia. rewrite div_eucl_eq, Z.shiftl_mul_pow2 by lia.
  set (l := new_location (Z.pos q) (Z.pos p * 2 ^ 53 mod Z.pos q)). cbn [xorb].
  pose proof (Z.div_mod (Z.pos p * 2 ^ 53) (Z.pos q) ltac:(lia)) as Hdm.
  pose proof (Z.mod_pos_bound (Z.pos p * 2 ^ 53) (Z.pos q) ltac:(lia)) as Hmb.
  destruct (Z.leb_spec (Z.pos q) (Z.pos p)) as [H|H].
  - pose proof (quotient_large _ _ Hp Hq H) as Hv. set (v := Z.pos p * 2 ^ 53 / Z.pos q) in *.
    set (rr := Z.pos p * 2 ^ 53 mod Z.pos q) in *. clearbody v l rr.
    unfold binary_round_aux, shr_fexp at 1. rewrite (digits_unique v 54) by (cbn in *; lia).
    replace (fexp 53 1024 (54 + (e - f - 53)) - (e - f - 53)) with 1 by (unfold fexp, emin; lia). cbn [shr iter_pos].
    destruct (shr_record_of_loc v l) as [m0 r0 s0] eqn:Er. assert (m0 = v) by (pose proof (rec_m v l) as X; rewrite Er in X; exact X). subst m0.
    rewrite shr_1_spec by lia. cbn [shr_m].
    set (w := round_nearest_even _ _).
    pose proof (Z.div_mod v 2 ltac:(lia)) as Hd. pose proof (Zmod_odd v) as Ho.
    pose proof (rne_bounds (v / 2) (loc_of_shr_record {| shr_m := v / 2; shr_r := Z.odd v; shr_s := r0 || s0 |})) as Hb. fold w in Hb.
    assert (Hw0 : Z.odd v = false -> w = v / 2) by (intros Eo; unfold w; rewrite Eo; destruct (r0 || s0); reflexivity).
    clearbody w.
    assert (Hw : normal w) by (unfold normal; destruct (Z.odd v); [lia|]; specialize (Hw0 eq_refl); lia).
    exists (Z.to_pos w), 1. rewrite final_normal by (assumption || lia). rewrite Z2Pos.id by (unfold normal in Hw; lia).
    split; [reflexivity|]. split; [assumption|]. split; [lia|]. change (2 ^ 1) with 2.
    rewrite Hdm. destruct (Z.odd v); [|specialize (Hw0 eq_refl)]; nia.
  - pose proof (quotient_small _ _ Hp Hq H) as Hv. set (v := Z.pos p * 2 ^ 53 / Z.pos q) in *.
    set (rr := Z.pos p * 2 ^ 53 mod Z.pos q) in *. clearbody v l rr.
    unfold binary_round_aux. rewrite shr_fexp_normal by (unfold normal; lia). rewrite rec_m, loc_record.
    pose proof (rne_bounds v l) as Hb. set (w := round_nearest_even v l) in *. clearbody w.
    assert (Hw : normal w) by (unfold normal; lia).
    exists (Z.to_pos w), 0. rewrite final_normal by (assumption || lia). rewrite Z2Pos.id by (unfold normal in Hw; lia).
    split; [f_equal; lia|]. split; [assumption|]. split; [lia|]. change (2 ^ 0) with 1. rewrite Hdm. nia.
Qed.

(** * Multiplication *)

Lemma multiply_near : forall p e q f, normal (Z.pos p) -> normal (Z.pos q) -> -200 <= e <= 200 -> -200 <= f <= 200 ->
  exists m h, SFmul 53 1024 (S754_finite false p e) (S754_finite false q f) = S754_finite false m (e + f + h) /\
    normal (Z.pos m) /\ 52 <= h <= 54 /\
    Z.pos m * 2 ^ h - 2 ^ h <= Z.pos p * Z.pos q <= Z.pos m * 2 ^ h + 2 ^ h.
Proof.
  intros p e q f Hp Hq He Hf. cbn [SFmul xorb].
  change (Z.pos (p * q)) with (Z.pos p * Z.pos q). 
  set (a := Z.pos p * Z.pos q).
  assert (Ha : 2 ^ 104 <= a < 2 ^ 106) by (unfold a, normal in *; change (2 ^ 104) with (2 ^ 52 * 2 ^ 52); change (2 ^ 106) with (2 ^ 53 * 2 ^ 53); nia).
  assert (Hd : exists k, 52 <= k <= 53 /\ 2 ^ (k + 52) <= a < 2 ^ (k + 53)).
  { destruct (Z_lt_le_dec a (2 ^ 105)) as [L|G]; [exists 52|exists 53]; (split; [lia|]); [change (2 ^ (52 + 52)) with (2 ^ 104); change (2 ^ (52 + 53)) with (2 ^ 105)|change (2 ^ (53 + 52)) with (2 ^ 105); change (2 ^ (53 + 53)) with (2 ^ 106)]; lia. }
  destruct Hd as [k [Hk Hb]]. clearbody a. clear Hp Hq p q.
  assert (Hdg : Zdigits2 a = k + 53) by (apply digits_unique; [replace (k + 53 - 1) with (k + 52) by lia; assumption|lia]).
  unfold binary_round_aux, shr_fexp at 1. rewrite Hdg.
  replace (fexp 53 1024 (k + 53 + (e + f)) - (e + f)) with k by (unfold fexp, emin; lia).
  cbn [shr_record_of_loc]. destruct k as [|x|x] eqn:Ek; try lia. cbn [shr].
  assert (Ha0 : 0 <= a) by lia.
  assert (Hsh := shifted_iter x a 0 _ Ha0 ltac:(lia) (shifted_0 a)). change (0 + Z.pos x) with (Z.pos x) in *. rewrite <- Ek in *. 
  assert (Hk1 : 1 <= k) by lia.
  rewrite (rne_up a k _ Hk1 Ha0 Hsh).
  pose proof (pow_pos k ltac:(lia)) as HP. pose proof (Z.div_mod a (2 ^ k) ltac:(lia)) as Hdm. pose proof (Z.mod_pos_bound a (2 ^ k) HP) as Hmb.
  pose proof (up_range (a / 2 ^ k) (a mod 2 ^ k) (2 ^ k)) as Hu.
  assert (Hn : normal (a / 2 ^ k)).
  { rewrite (Z.pow_add_r 2 k 52), (Z.pow_add_r 2 k 53) in Hb by lia. unfold normal. split.
    - apply Z.div_le_lower_bound; lia.
    - apply Z.div_lt_upper_bound; lia. }
  set (r := a mod 2 ^ k) in *. set (u := up (a / 2 ^ k) r (2 ^ k)) in *. set (v := a / 2 ^ k) in *. clearbody u r v.
  assert (Hv : 2 ^ 52 <= v + u <= 2 ^ 53) by (unfold normal in Hn; lia).
  replace (Z.pos x) with k by lia.
  destruct (final_rounded (v + u) (e + f + k) Hv ltac:(lia)) as [m [e' [H1 [H2 [H3 H4]]]]].
  exists m, (e' - (e + f)). split; [etransitivity; [exact H1|f_equal; lia]|]. split; [assumption|]. split; [lia|].
  assert (E : 2 ^ (e' - (e + f)) = 2 ^ (e' - (e + f + k)) * 2 ^ k) by (rewrite <- Z.pow_add_r by lia; f_equal; lia).
  assert (G : 1 <= 2 ^ (e' - (e + f + k))) by (pose proof (pow_pos (e' - (e + f + k)) ltac:(lia)); lia).
  rewrite E, Z.mul_assoc, H4, Hdm. nia.
Qed.

(** * Conversion to an integer *)

Lemma int_of_near : forall m e k, 0 <= k -> 0 <= e + k -> Z.pos m * 2 ^ (e + k) < 2 ^ 63 * 2 ^ k ->
  let i := int_of (S754_finite false m e) in i * 2 ^ k <= Z.pos m * 2 ^ (e + k) < (i + 1) * 2 ^ k /\ 0 <= i.
Proof.
  intros m e k Hk He Hlt. unfold int_of. cbv zeta. set (v := if 0 <=? e then _ else _).
  assert (Hv : v * 2 ^ k <= Z.pos m * 2 ^ (e + k) < (v + 1) * 2 ^ k /\ 0 <= v).
  { unfold v. pose proof (pow_pos k Hk) as HP. destruct (Z.leb_spec 0 e) as [L|G].
    - rewrite (Z.pow_add_r 2 e k) by lia. pose proof (pow_pos e L). nia.
    - replace (2 ^ k) with (2 ^ (- e) * 2 ^ (e + k)) by (rewrite <- Z.pow_add_r by lia; f_equal; lia).
      pose proof (pow_pos (- e) ltac:(lia)) as HE. pose proof (pow_pos (e + k) He) as HQ.
      pose proof (Z.div_mod (Z.pos m) (2 ^ (- e)) ltac:(lia)) as Hdm. pose proof (Z.mod_pos_bound (Z.pos m) (2 ^ (- e)) HE) as Hmb.
      assert (0 <= Z.pos m / 2 ^ (- e)) by (apply Z.div_pos; lia).
      set (a := Z.pos m / 2 ^ (- e)) in *. set (b := Z.pos m mod 2 ^ (- e)) in *. set (x := 2 ^ (- e)) in *. set (y := 2 ^ (e + k)) in *.
      clearbody a b x y. rewrite Hdm. split; [nia|assumption]. }
  clearbody v. pose proof (pow_pos k Hk) as HP.
  assert (Hr : v <= int64_max) by (unfold int64_max; change (2 ^ 63) with 9223372036854775808 in *; nia).
  replace (Z.leb int64_min v) with true by (symmetry; apply Z.leb_le; unfold int64_min; lia).
  replace (Z.leb v int64_max) with true by (symmetry; apply Z.leb_le; assumption). exact Hv.
Qed.

Lemma float_exact : forall a, 0 < a < 2 ^ 53 -> exists p e, float_of a = S754_finite false p e /\ normal (Z.pos p) /\
  -52 <= e <= 12 /\ Z.pos p * 2 ^ (e + 52) = a * 2 ^ 52.
Proof.
  intros a Ha. change (float_of a) with (of_uint64 a). destruct (of_uint64_spec a) as [p [e [H1 [H2 [H3 H4]]]]]; [lia|].
  exists p, e. rewrite nearest_small in H4 by lia. auto.
Qed.

Lemma abstract_near : forall c i g D U1 X1 U2 X2, 0 < c -> 0 < i -> 0 < g -> 0 < D -> 0 < U1 -> 0 < U2 ->
  2 ^ 52 * U1 <= X1 -> c * X1 - c * U1 <= i * D <= c * X1 + c * U1 ->
  2 ^ 52 * U2 <= X2 -> X2 - U2 <= X1 * g <= X2 + U2 ->
  2 ^ 50 * (c * X2) <= (2 ^ 50 + 1) * (i * g * D) /\ (2 ^ 50 - 1) * (i * g * D) <= 2 ^ 50 * (c * X2).
Proof.
  intros c i g D U1 X1 U2 X2 Hc Hi Hg HD HU1 HU2 H1 [H2 H3] H4 [H5 H6].
  assert (A1 : (2 ^ 52 - 1) * (c * X1) <= 2 ^ 52 * (i * D)) by nia.
  assert (A2 : 2 ^ 52 * (i * D) <= (2 ^ 52 + 1) * (c * X1)) by nia.
  assert (B1 : (2 ^ 52 - 1) * X2 <= 2 ^ 52 * (X1 * g)) by lia.
  assert (B2 : 2 ^ 52 * (X1 * g) <= (2 ^ 52 + 1) * X2) by lia.
  clear H2 H3 H5 H6 H1 H4.
  assert (C1 : (2 ^ 52 - 1) * ((2 ^ 52 - 1) * (c * X2)) <= 2 ^ 52 * (2 ^ 52 * (i * g * D))).
  { apply Z.le_trans with ((2 ^ 52 - 1) * (2 ^ 52 * (c * (X1 * g)))).
    - apply Z.mul_le_mono_nonneg_l; [lia|]. replace ((2 ^ 52 - 1) * (c * X2)) with (c * ((2 ^ 52 - 1) * X2)) by ring.
      replace (2 ^ 52 * (c * (X1 * g))) with (c * (2 ^ 52 * (X1 * g))) by ring. apply Z.mul_le_mono_nonneg_l; lia.
    - replace ((2 ^ 52 - 1) * (2 ^ 52 * (c * (X1 * g)))) with (2 ^ 52 * g * ((2 ^ 52 - 1) * (c * X1))) by ring.
      replace (2 ^ 52 * (2 ^ 52 * (i * g * D))) with (2 ^ 52 * g * (2 ^ 52 * (i * D))) by ring. apply Z.mul_le_mono_nonneg_l; lia. }
  assert (C2 : 2 ^ 52 * (2 ^ 52 * (i * g * D)) <= (2 ^ 52 + 1) * ((2 ^ 52 + 1) * (c * X2))).
  { apply Z.le_trans with ((2 ^ 52 + 1) * (2 ^ 52 * (c * (X1 * g)))).
    - replace ((2 ^ 52 + 1) * (2 ^ 52 * (c * (X1 * g)))) with (2 ^ 52 * g * ((2 ^ 52 + 1) * (c * X1))) by ring.
      replace (2 ^ 52 * (2 ^ 52 * (i * g * D))) with (2 ^ 52 * g * (2 ^ 52 * (i * D))) by ring. apply Z.mul_le_mono_nonneg_l; lia.
    - apply Z.mul_le_mono_nonneg_l; [lia|]. replace ((2 ^ 52 + 1) * (c * X2)) with (c * ((2 ^ 52 + 1) * X2)) by ring.
      replace (2 ^ 52 * (c * (X1 * g))) with (c * (2 ^ 52 * (X1 * g))) by ring. apply Z.mul_le_mono_nonneg_l; lia. }
  assert (HT : 0 < i * g * D) by nia. set (T := i * g * D) in *. set (Y := c * X2) in *. clearbody T Y. lia.
Qed.

(** The interval, [n] times, is the idle timeout up to rounding. *)
Lemma interval_near : forall n s, 0 < n < 2 ^ 10 -> 0 < s < 2 ^ 33 -> 
  let i := int_of (SFmul 53 1024 (SFdiv 53 1024 (float_of s) (float_of n)) (float_of 1000000000)) in
  2 ^ 50 * (n * i) <= (2 ^ 50 + 1) * (s * 1000000000) /\ (2 ^ 50 - 1) * (s * 1000000000) <= 2 ^ 50 * (n * (i + 1)).
Proof.
  intros n s Hn Hs. cbv zeta.
  destruct (float_exact s) as [p [e [E1 [Hp [He Vs]]]]]; [lia|]. destruct (float_exact n) as [q [f [E2 [Hq [Hf Vn]]]]]; [lia|].
  destruct (float_exact 1000000000) as [p3 [e3 [E3 [Hp3 [He3 Vg]]]]]; [lia|]. rewrite E1, E2, E3. clear E1 E2 E3.
  destruct (divide_near p e q f Hp Hq ltac:(lia) ltac:(lia)) as [m1 [d [D1 [N1 [Hd V1]]]]]. rewrite D1. clear D1.
  destruct (multiply_near m1 (e - f - 53 + d) p3 e3 N1 Hp3 ltac:(lia) ltac:(lia)) as [m2 [h [D2 [N2 [Hh V2]]]]]. rewrite D2. clear D2.
  set (G := 1000000000) in *.
  remember (e - f - 53 + d) as g eqn:Eg. remember (g + e3 + h) as g2 eqn:Eg2.
  assert (P52 : 2 ^ 52 = 4503599627370496) by reflexivity.
  assert (W1 : n * (Z.pos m1 * 2 ^ (g + 400)) - n * 2 ^ (g + 400) <= s * 2 ^ 400 <= n * (Z.pos m1 * 2 ^ (g + 400)) + n * 2 ^ (g + 400)).
  { pose proof (pow_pos (e - 1 + 400) ltac:(lia)) as HP.
    assert (I1 : n * 2 ^ (g + 400) * 2 ^ 52 = 2 ^ d * Z.pos q * 2 ^ (e - 1 + 400)).
    { replace (n * 2 ^ (g + 400) * 2 ^ 52) with (n * 2 ^ 52 * 2 ^ (g + 400)) by ring. rewrite <- Vn.
      replace (2 ^ d * Z.pos q * 2 ^ (e - 1 + 400)) with (Z.pos q * (2 ^ d * 2 ^ (e - 1 + 400))) by ring. rewrite <- Z.mul_assoc. f_equal.
      rewrite <- !Z.pow_add_r by lia. f_equal. lia. }
    assert (I2 : s * 2 ^ 400 * 2 ^ 52 = Z.pos p * 2 ^ 53 * 2 ^ (e - 1 + 400)).
    { replace (s * 2 ^ 400 * 2 ^ 52) with (s * 2 ^ 52 * 2 ^ 400) by ring. rewrite <- Vs. rewrite <- !Z.mul_assoc. f_equal.
      rewrite <- !Z.pow_add_r by lia. f_equal. lia. }
    revert I1 I2 V1 HP P52. clear. generalize (2 ^ 400), (2 ^ (e - 1 + 400)), (2 ^ (g + 400)), (2 ^ d), (2 ^ 52), (2 ^ 53), (Z.pos m1), (Z.pos p), (Z.pos q).
    intros K a u b c1 c2 m x y I1 I2 [L R] HP P52. apply (Z.mul_le_mono_nonneg_r _ _ a) in L; [|lia]. apply (Z.mul_le_mono_nonneg_r _ _ a) in R; [|lia].
    replace ((m * b * y - b * y) * a) with (m * (b * y * a) - b * y * a) in L by ring.
    replace ((m * b * y + b * y) * a) with (m * (b * y * a) + b * y * a) in R by ring.
    rewrite <- I1, <- I2 in *. replace (m * (n * u * c1)) with (n * (m * u) * c1) in * by ring.
    assert (0 < c1) by lia. clear P52. split; nia. }
  assert (W2 : Z.pos m2 * 2 ^ (g2 + 400) - 2 ^ (g2 + 400) <= Z.pos m1 * 2 ^ (g + 400) * G <= Z.pos m2 * 2 ^ (g2 + 400) + 2 ^ (g2 + 400)).
  { pose proof (pow_pos (g + e3 + 400) ltac:(lia)) as HP.
    assert (I1 : 2 ^ (g2 + 400) = 2 ^ h * 2 ^ (g + e3 + 400)) by (rewrite <- Z.pow_add_r by lia; f_equal; lia).
    assert (I2 : Z.pos m1 * 2 ^ (g + 400) * G * 2 ^ 52 = Z.pos m1 * Z.pos p3 * 2 ^ (g + e3 + 400) * 2 ^ 52).
    { replace (Z.pos m1 * 2 ^ (g + 400) * G * 2 ^ 52) with (Z.pos m1 * (G * 2 ^ 52 * 2 ^ (g + 400))) by ring. rewrite <- Vg.
      rewrite <- !Z.mul_assoc. do 2 f_equal. rewrite <- !Z.pow_add_r by lia. f_equal. lia. }
    apply Z.mul_reg_r in I2; [|rewrite P52; lia]. rewrite I1, I2.
    revert V2 HP. clear. generalize (2 ^ h), (2 ^ (g + e3 + 400)), (Z.pos m1 * Z.pos p3), (Z.pos m2). intros b a x m [L R] HP. split; nia. }
  pose proof (pow_pos 400 ltac:(lia)) as HD. pose proof (pow_pos (g + 400) ltac:(lia)) as HU1. pose proof (pow_pos (g2 + 400) ltac:(lia)) as HU2.
  assert (Hg2 : 0 <= g2 + 400) by lia.
  assert (F1 : 2 ^ 52 * 2 ^ (g + 400) <= Z.pos m1 * 2 ^ (g + 400)) by (unfold normal in N1; nia).
  assert (F2 : 2 ^ 52 * 2 ^ (g2 + 400) <= Z.pos m2 * 2 ^ (g2 + 400)) by (unfold normal in N2; nia).
  assert (HG : 0 < G) by (unfold G; lia).
  destruct (abstract_near n s G (2 ^ 400) (2 ^ (g + 400)) (Z.pos m1 * 2 ^ (g + 400)) (2 ^ (g2 + 400)) (Z.pos m2 * 2 ^ (g2 + 400))
              ltac:(lia) ltac:(lia) HG HD HU1 HU2 F1 W1 F2 W2) as [T1 T2].
  assert (Hlt : Z.pos m2 * 2 ^ (g2 + 400) < 2 ^ 63 * 2 ^ 400).
  { revert T1 HD Hn Hs. clear. unfold G. generalize (2 ^ 400), (Z.pos m2 * 2 ^ (g2 + 400)). intros D X T1 HD Hn Hs.
    change (2 ^ 50) with 1125899906842624 in *. change (2 ^ 63) with 9223372036854775808. change (2 ^ 33) with 8589934592 in *.
    destruct (Z_lt_le_dec X (9223372036854775808 * D)) as [L|R]; [assumption|]. exfalso.
    assert (1125899906842624 * (1 * (9223372036854775808 * D)) <= 1125899906842624 * (n * X)) by nia.
    assert (s * 1000000000 * D <= 8589934592 * 1000000000 * D) by nia. lia. }
  destruct (int_of_near m2 g2 400 ltac:(lia) Hg2 Hlt) as [[J1 J2] J3]. set (i := int_of _) in *. clearbody i.
  revert J1 J2 T1 T2 HD Hn HG Hs. clear. generalize (2 ^ 400), (Z.pos m2 * 2 ^ (g2 + 400)). intros D X J1 J2 T1 T2 HD Hn HG Hs.
  change (2 ^ 50) with 1125899906842624 in *.
  assert (Q1 : n * (i * D) <= n * X) by (apply Z.mul_le_mono_nonneg_l; lia).
  assert (Q2 : n * X <= n * ((i + 1) * D)) by (apply Z.mul_le_mono_nonneg_l; lia).
  split; apply Z.mul_le_mono_pos_r with D; try assumption; nia.
Qed.

Lemma interval_close : forall n s, 0 < n < 2 ^ 10 -> 0 < s <= 1125899 ->
  let i := int_of (SFmul 53 1024 (SFdiv 53 1024 (float_of s) (float_of n)) (float_of 1000000000)) in
  n * i <= s * 1000000000 <= n * (i + 1).
Proof.
  intros n s Hn Hs i. destruct (interval_near n s Hn ltac:(lia)) as [H1 H2]. fold i in H1, H2. clearbody i.
  change (2 ^ 50) with 1125899906842624 in *. set (a := n * i) in *. set (b := n * (i + 1)) in *. clearbody a b. lia.
Qed.
