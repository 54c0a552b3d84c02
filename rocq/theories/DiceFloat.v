(** Adding and comparing binary64 numbers that are not negative. *)
From Coq Require Import ZArith Lia Bool QArith Qabs Floats.SpecFloat.
From Verif Require Import GoStr Policy Stats StatsFloat Dice PolicySpec DiceSpec.
Local Open Scope Z_scope.

(** Numbers in units of 2^-1074, of which all binary64 numbers are multiples. *)
Definition units (x : f64) : Z := match x with S754_finite false m e => Z.pos m * 2 ^ (e + 1074) | _ => 0 end.

Lemma bounded_spec : forall m e, bounded 53 1024 m e = true -> -1074 <= e <= 971 /\ fexp 53 1024 (Z.pos (digits2_pos m) + e) = e.
Proof.
  intros m e H. unfold bounded, canonical_mantissa in H. apply andb_true_iff in H. destruct H as [H1 H2].
  apply Zeq_bool_eq in H1. apply Zle_bool_imp_le in H2. split; [|exact H1]. unfold fexp, emin in H1. lia.
Qed.

Lemma bounded_intro : forall m e, e <= 971 -> fexp 53 1024 (Z.pos (digits2_pos m) + e) = e -> bounded 53 1024 m e = true.
Proof.
  intros m e H1 H2. unfold bounded, canonical_mantissa. rewrite H2. apply andb_true_iff. split; [now apply Zeq_is_eq_bool|apply Zle_imp_le_bool; lia].
Qed.

Lemma units_nonneg : forall x, 0 <= units x.
Proof. intros [s|s| |[|] m e]; cbn [units]; lia. Qed.

(** * Comparing *)

Lemma compare_units : forall x y, weighty x -> weighty y -> SFcompare x y = Some (units x ?= units y).
Proof.
  intros x y Hx Hy.
  destruct x as [s|s| |s m e]; try contradiction; destruct y as [s'|s'| |s' m' e']; try contradiction; cbn [SFcompare units weighty] in *; f_equal.
  - destruct Hy as [-> By]. apply bounded_spec in By. pose proof (pow_pos (e' + 1074) ltac:(lia)). symmetry. apply Z.compare_lt_iff. lia.
  - destruct Hx as [-> Bx]. apply bounded_spec in Bx. pose proof (pow_pos (e + 1074) ltac:(lia)). symmetry. apply Z.compare_gt_iff. lia.
  - destruct Hx as [-> Bx], Hy as [-> By]. apply bounded_spec in Bx, By. destruct Bx as [Re Ce], By as [Re' Ce'].
    assert (K : forall m1 e1 m2 e2, -1074 <= e1 -> -1074 <= e2 -> fexp 53 1024 (Z.pos (digits2_pos m1) + e1) = e1 -> fexp 53 1024 (Z.pos (digits2_pos m2) + e2) = e2 -> e1 < e2 ->
      Z.pos m1 * 2 ^ (e1 + 1074) < Z.pos m2 * 2 ^ (e2 + 1074)).
    { intros m1 e1 m2 e2 R1 R2 C1 C2 Hlt. pose proof (digits_pos m1) as D1. pose proof (digits_pos m2) as D2.
      set (d1 := Z.pos (digits2_pos m1)) in *. set (d2 := Z.pos (digits2_pos m2)) in *. assert (1 <= d1 /\ 1 <= d2) as [P1 P2] by (unfold d1, d2; lia).
      unfold fexp, emin in C1, C2. assert (Hd : d1 + e1 <= d2 - 1 + e2) by lia.
      pose proof (pow_pos (e1 + 1074) ltac:(lia)) as Q1. pose proof (pow_pos (e2 + 1074) ltac:(lia)) as Q2.
      assert (S1 : Z.pos m1 * 2 ^ (e1 + 1074) < 2 ^ (d1 + e1 + 1074)) by (replace (d1 + e1 + 1074) with (d1 + (e1 + 1074)) by lia; rewrite (Z.pow_add_r 2 d1) by lia; apply Z.mul_lt_mono_pos_r; lia).
      assert (S2 : 2 ^ (d2 - 1 + e2 + 1074) <= Z.pos m2 * 2 ^ (e2 + 1074)) by (replace (d2 - 1 + e2 + 1074) with ((d2 - 1) + (e2 + 1074)) by lia; rewrite (Z.pow_add_r 2 (d2 - 1)) by lia; apply Z.mul_le_mono_nonneg_r; lia).
      assert (S3 : 2 ^ (d1 + e1 + 1074) <= 2 ^ (d2 - 1 + e2 + 1074)) by (apply Z.pow_le_mono_r; lia). lia. }
    destruct (Z.compare_spec e e') as [E|L|G].
    + subst e'. pose proof (pow_pos (e + 1074) ltac:(lia)) as P. change (Pos.compare_cont Eq m m') with (m ?= m')%positive.
      destruct (Pos.compare_spec m m') as [E|L|G]; symmetry; [apply Z.compare_eq_iff; subst; lia|apply Z.compare_lt_iff; apply Z.mul_lt_mono_pos_r; lia|apply Z.compare_gt_iff; apply Z.mul_lt_mono_pos_r; lia].
    + symmetry. apply Z.compare_lt_iff. apply K; lia.
    + symmetry. apply Z.compare_gt_iff. apply K; lia.
Qed.

Lemma lt_units : forall x y, weighty x -> weighty y -> f64_lt x y = (units x <? units y).
Proof. intros x y Hx Hy. unfold f64_lt, SFltb. rewrite compare_units by assumption. unfold Z.ltb. destruct (units x ?= units y); reflexivity. Qed.

Lemma eq_units : forall x y, weighty x -> weighty y -> SFeqb x y = (units x =? units y).
Proof. intros x y Hx Hy. unfold SFeqb. rewrite compare_units by assumption. rewrite Z.eqb_compare. destruct (units x ?= units y); reflexivity. Qed.

(** * Rounding *)

Lemma aux_exact : forall m e, bounded 53 1024 m e = true -> binary_round_aux 53 1024 false (Z.pos m) e loc_Exact = S754_finite false m e.
Proof.
  intros m e B. apply bounded_spec in B. destruct B as [R C]. unfold binary_round_aux, shr_fexp. cbn [Zdigits2]. rewrite C, Z.sub_diag.
  cbn [shr shr_record_of_loc shr_m loc_of_shr_record round_nearest_even Zdigits2]. rewrite C, Z.sub_diag. cbn [shr shr_record_of_loc shr_m].
  replace (Zle_bool e (1024 - 53)) with true by (symmetry; apply Zle_imp_le_bool; lia). reflexivity.
Qed.

Lemma digits_shift : forall p m k, 0 <= k -> Z.pos m = Z.pos p * 2 ^ k -> Z.pos (digits2_pos m) = Z.pos (digits2_pos p) + k.
Proof.
  intros p m k Hk E. pose proof (digits_pos p) as D. pose proof (pow_pos k Hk) as P.
  change (Z.pos (digits2_pos m)) with (Zdigits2 (Z.pos m)). apply digits_unique; [|lia].
  set (d := Z.pos (digits2_pos p)) in *. assert (1 <= d) by (unfold d; lia).
  replace (d + k - 1) with ((d - 1) + k) by lia. rewrite !Z.pow_add_r by lia. rewrite E. nia.
Qed.

Lemma normal_bounded : forall m e, normal (Z.pos m) -> -1074 <= e <= 971 -> bounded 53 1024 m e = true.
Proof.
  intros m e H R. apply bounded_intro; [lia|]. change (Z.pos (digits2_pos m)) with (Zdigits2 (Z.pos m)).
  rewrite (digits_unique (Z.pos m) 53) by (unfold normal in H; cbn in *; lia). unfold fexp, emin. lia.
Qed.

(** Half a unit in the last place of numbers between 1 and 2. *)
Lemma round_near : forall p e, -1074 <= e -> Z.pos p * 2 ^ (e + 1074) < 2 ^ 1075 ->
  weighty (binary_round 53 1024 false p e) /\
  2 * Z.abs (units (binary_round 53 1024 false p e) - Z.pos p * 2 ^ (e + 1074)) <= 2 ^ 1022.
Proof.
  intros p e He Hv. pose proof (digits_pos p) as Hp. set (d := Z.pos (digits2_pos p)) in *. assert (Hd : 1 <= d) by (unfold d; lia).
  assert (Hde : d + e <= 1).
  { destruct (Z_le_gt_dec (d + e) 1) as [L|G]; [exact L|]. exfalso. pose proof (pow_pos (e + 1074) ltac:(lia)) as P.
    assert (2 ^ 1075 <= 2 ^ ((d - 1) + (e + 1074))) by (apply Z.pow_le_mono_r; lia). rewrite (Z.pow_add_r 2 (d - 1)) in H by lia. nia. }
  assert (Pbig : 0 < 2 ^ 1022) by (apply pow_pos; lia). remember (2 ^ 1022) as big eqn:Eb. clear Hv.
  unfold binary_round. fold d. set (f := fexp 53 1024 (d + e)).
  assert (Hf : f = Z.max (d + e - 53) (-1074)) by reflexivity.
  destruct (Z_le_gt_dec f e) as [L|G].
  - (* exact *)
    assert (Hal : exists m, shl_align p e f = (m, f) /\ Z.pos m = Z.pos p * 2 ^ (e - f)).
    { unfold shl_align. destruct (f - e) as [|x|x] eqn:E; try lia.
      - exists p. replace f with e by lia. split; [reflexivity|]. rewrite Z.sub_diag. lia.
      - eexists. split; [reflexivity|]. rewrite shift_pos_correct, Z.mul_comm. replace (e - f) with (Z.pos x) by lia. reflexivity. }
    destruct Hal as [m [-> Hm]]. assert (B : bounded 53 1024 m f = true).
    { apply bounded_intro; [lia|]. rewrite (digits_shift p m (e - f)) by (lia || assumption). fold d. replace (d + (e - f) + f) with (d + e) by lia. reflexivity. }
    rewrite aux_exact by exact B. cbn [weighty units]. split; [split; [reflexivity|exact B]|].
    rewrite Hm, <- Z.mul_assoc, <- Z.pow_add_r by lia. replace (e - f + (f + 1074)) with (e + 1074) by lia. rewrite Z.sub_diag. cbn. lia.
  - assert (Hk : exists x, f - e = Z.pos x) by (destruct (f - e) as [|x|x] eqn:E; try lia; now exists x). destruct Hk as [x Hx].
    assert (Hal : shl_align p e f = (p, e)) by (unfold shl_align; now rewrite Hx). rewrite Hal.
    set (z := binary_round_aux 53 1024 false (Z.pos p) e loc_Exact). assert (Ez : z = binary_round_aux 53 1024 false (Z.pos p) e loc_Exact) by reflexivity. clearbody z.
    unfold binary_round_aux, shr_fexp at 1 in Ez. change (Zdigits2 (Z.pos p)) with d in Ez. fold f in Ez. rewrite Hx in Ez.
    cbn [shr_record_of_loc shr] in Ez.
    assert (Hsh := shifted_iter x (Z.pos p) 0 _ ltac:(lia) ltac:(lia) (shifted_0 (Z.pos p))). change (0 + Z.pos x) with (Z.pos x) in *.
    rewrite (rne_up (Z.pos p) (Z.pos x) _) in Ez by (assumption || lia). clear Hsh.
    assert (Hkd : Z.pos x = d - 53) by lia. rewrite Hkd in Ez. assert (Hd54 : 54 <= d) by lia.
    pose proof (pow_pos (d - 53) ltac:(lia)) as HP. pose proof (Z.div_mod (Z.pos p) (2 ^ (d - 53)) ltac:(lia)) as Hdm.
    pose proof (Z.mod_pos_bound (Z.pos p) (2 ^ (d - 53)) HP) as Hmb.
    assert (Hq : 2 ^ 52 <= Z.pos p / 2 ^ (d - 53) < 2 ^ 53).
    { split; [apply Z.div_le_lower_bound|apply Z.div_lt_upper_bound]; try lia; rewrite <- Z.pow_add_r by lia.
      - replace (d - 53 + 52) with (d - 1) by lia. lia.
      - replace (d - 53 + 53) with d by lia. lia. }
    set (q := Z.pos p / 2 ^ (d - 53)) in *. set (r := Z.pos p mod 2 ^ (d - 53)) in *. set (P := 2 ^ (d - 53)) in *.
    assert (Hu : 2 * Z.abs ((q + up q r P) * P - Z.pos p) <= P).
    { unfold up. rewrite Hdm. destruct (Z.ltb_spec P (2 * r)) as [A|A]; cbn [orb]; [replace ((q + 1) * P - (P * q + r)) with (P - r) by ring; lia|].
      destruct (Z.eqb_spec P (2 * r)) as [B|B]; destruct (Z.odd q); cbn [andb];
        [replace ((q + 1) * P - (P * q + r)) with (P - r) by ring|replace ((q + 0) * P - (P * q + r)) with (- r) by ring|replace ((q + 0) * P - (P * q + r)) with (- r) by ring|replace ((q + 0) * P - (P * q + r)) with (- r) by ring]; lia. }
    pose proof (up_range q r P) as Hur. assert (Hv : 2 ^ 52 <= q + up q r P <= 2 ^ 53) by lia. set (v := q + up q r P) in *. clearbody v.
    destruct (final_rounded v (e + (d - 53)) ltac:(lia) ltac:(lia)) as [m [e' [H1 [H2 [H3 H4]]]]]. rewrite H1 in Ez. subst z.
    cbn [weighty units]. split; [split; [reflexivity|apply normal_bounded; [exact H2|lia]]|].
    assert (E1 : Z.pos m * 2 ^ (e' + 1074) = v * P * 2 ^ (e + 1074)).
    { rewrite <- H4. unfold P. rewrite <- !Z.mul_assoc, <- !Z.pow_add_r by lia. do 2 f_equal. lia. }
    rewrite E1. clear H1 H2 H4 E1. pose proof (pow_pos (e + 1074) ltac:(lia)) as PE. rewrite <- Z.mul_sub_distr_r, Z.abs_mul, (Z.abs_eq (2 ^ (e + 1074))) by lia.
    assert (E2 : P * 2 ^ (e + 1074) <= big).
    { unfold P. rewrite <- Z.pow_add_r by lia. rewrite Eb. apply Z.pow_le_mono_r; lia. }
    rewrite Z.mul_assoc. eapply Z.le_trans; [|exact E2]. apply Z.mul_le_mono_nonneg_r; [lia|exact Hu].
Qed.

Lemma add_near : forall x y, weighty x -> weighty y -> units x + units y < 2 ^ 1075 ->
  weighty (f64_add x y) /\ 2 * Z.abs (units (f64_add x y) - (units x + units y)) <= 2 ^ 1022.
Proof.
  intros x y Hx Hy Hv. assert (Pbig : 0 < 2 ^ 1022) by (apply pow_pos; lia). unfold f64_add.
  destruct x as [s|s| |s m e]; try contradiction; destruct y as [s'|s'| |s' m' e']; try contradiction; cbn [SFadd].
  - assert (forall b, weighty (S754_zero b) /\ 2 * Z.abs (units (S754_zero b) - (units (S754_zero s) + units (S754_zero s'))) <= 2 ^ 1022) by (intros b; cbn [weighty units]; split; [exact I|change (0 - (0 + 0)) with 0; cbn [Z.abs]; lia]).
    destruct (eqb s s'); apply H.
  - split; [exact Hy|]. cbn [units]. destruct s'; cbn [weighty] in Hy; [destruct Hy; discriminate|].
    match goal with |- 2 * Z.abs (?a - (0 + ?a)) <= _ => replace (a - (0 + a)) with 0 by ring end. cbn [Z.abs]. lia.
  - split; [exact Hx|]. cbn [units]. destruct s; cbn [weighty] in Hx; [destruct Hx; discriminate|].
    match goal with |- 2 * Z.abs (?a - (?a + 0)) <= _ => replace (a - (a + 0)) with 0 by ring end. cbn [Z.abs]. lia.
  - cbn [weighty] in Hx, Hy. destruct Hx as [-> Bx], Hy as [-> By]. apply bounded_spec in Bx, By. cbn [units cond_Zopp] in *. 
    assert (Al : forall n f g, f <= g -> Z.pos (fst (shl_align n g f)) = Z.pos n * 2 ^ (g - f)).
    { intros n f g H. unfold shl_align. destruct (f - g) as [|u|u] eqn:E; try lia; cbn [fst].
      - replace (g - f) with 0 by lia. lia.
      - rewrite shift_pos_correct, Z.mul_comm. replace (g - f) with (Z.pos u) by lia. reflexivity. }
    set (z := Z.min e e'). rewrite !Al by (unfold z; lia).
    assert (Hz : -1074 <= z) by (unfold z; lia). assert (Hz1 : z <= e) by (unfold z; lia). assert (Hz2 : z <= e') by (unfold z; lia). clearbody z.
    pose proof (pow_pos (e - z) ltac:(lia)). pose proof (pow_pos (e' - z) ltac:(lia)).
    assert (S1 : (Z.pos m * 2 ^ (e - z) + Z.pos m' * 2 ^ (e' - z)) * 2 ^ (z + 1074) = Z.pos m * 2 ^ (e + 1074) + Z.pos m' * 2 ^ (e' + 1074)).
    { rewrite Z.mul_add_distr_r, <- !Z.mul_assoc, <- !Z.pow_add_r by lia. do 3 f_equal; lia. }
    rewrite <- S1 in *. destruct (Z.pos m * 2 ^ (e - z) + Z.pos m' * 2 ^ (e' - z)) as [|p|p] eqn:E; try lia.
    cbn [binary_normalize]. apply round_near; [exact Hz|exact Hv].
Qed.

(** * The dice *)

Lemma two_63 : of_uint64 (2 ^ 63) = S754_finite false (Z.to_pos (2 ^ 52)) 11.
Proof. vm_compute. reflexivity. Qed.

Lemma divide_63 : forall p e, normal (Z.pos p) -> -64 <= e <= 64 ->
  SFdiv 53 1024 (S754_finite false p e) (S754_finite false (Z.to_pos (2 ^ 52)) 11) = S754_finite false p (e - 63).
Proof.
  intros p e Hp He. cbn [SFdiv]. unfold SFdiv_core_binary.
  rewrite (digits_unique (Z.pos p) 53), (digits_unique (Z.pos (Z.to_pos (2 ^ 52))) 53) by (unfold normal in *; cbn in *; lia).
  replace (Z.min (fexp 53 1024 (53 + e - (53 + 11))) (e - 11)) with (e - 11 - 53) by (unfold fexp, emin; lia).
  cbv zeta. replace (e - 11 - (e - 11 - 53)) with 53 by lia. rewrite div_eucl_eq, Z.shiftl_mul_pow2 by lia.
  change (Z.pos (Z.to_pos (2 ^ 52))) with (2 ^ 52). replace (Z.pos p * 2 ^ 53) with (Z.pos p * 2 * 2 ^ 52) by (rewrite <- Z.mul_assoc; reflexivity).
  rewrite Z.div_mul, Z.mod_mul by lia. cbn [xorb].
  replace (new_location (2 ^ 52) 0) with loc_Exact by (vm_compute; reflexivity).
  unfold binary_round_aux, shr_fexp at 1. unfold normal in Hp. rewrite (digits_unique (Z.pos p * 2) 54) by (cbn in *; lia).
  replace (fexp 53 1024 (54 + (e - 11 - 53)) - (e - 11 - 53)) with 1 by (unfold fexp, emin; lia).
  cbn [shr iter_pos shr_record_of_loc]. rewrite shr_1_spec by lia. rewrite Z.div_mul by lia.
  replace (Z.odd (Z.pos p * 2)) with false by (rewrite Z.odd_mul; cbn [Z.odd]; now rewrite andb_false_r).
  cbn [shr_m loc_of_shr_record round_nearest_even orb].
  rewrite final_normal by (unfold normal; lia). f_equal. lia.
Qed.

Lemma dice_units : forall i, 0 <= i < 2 ^ 63 -> weighty (float64_of i) /\ units (float64_of i) = (if i =? 0 then 0 else nearest i) * 2 ^ 1011.
Proof.
  intros i Hi. unfold float64_of. rewrite two_63. destruct (Z.eqb_spec i 0) as [->|Hn].
  - cbn [of_uint64 binary_normalize SFdiv xorb]. split; [exact I|reflexivity].
  - destruct (of_uint64_spec i ltac:(lia)) as (p & e & E & Hp & He & Hv). rewrite E, divide_63 by (assumption || lia).
    cbn [weighty units]. split; [split; [reflexivity|apply normal_bounded; [exact Hp|lia]]|].
    replace (e - 63 + 1074) with ((e + 52) + 959) by lia. rewrite Z.pow_add_r, Z.mul_assoc, Hv by lia.
    rewrite <- Z.mul_assoc, <- Z.pow_add_r by lia. reflexivity.
Qed.

Lemma nearest_near : forall i, 0 < i < 2 ^ 63 -> Z.abs (nearest i - i) <= 512.
Proof.
  intros i Hi. unfold nearest. destruct (Z.ltb_spec i (2 ^ 53)) as [H|H]; [lia|].
  destruct (big_quotient i H) as [Hk [_ [He Hr]]]. cbv zeta in *. set (k := Z.log2 i - 52) in *.
  assert (Hk10 : k <= 10) by (assert (Z.log2 i < 63) by (apply Z.log2_lt_pow2; lia); unfold k; lia).
  assert (HP : 2 ^ k <= 1024) by (change 1024 with (2 ^ 10); apply Z.pow_le_mono_r; lia).
  set (P := 2 ^ k) in *. set (q := i / P) in *. set (r := i mod P) in *. rewrite He. unfold up.
  destruct (Z.ltb_spec P (2 * r)) as [A|A]; cbn [orb]; [replace ((q + 1) * P - (P * q + r)) with (P - r) by ring; lia|].
  destruct (Z.eqb_spec P (2 * r)) as [B|B]; destruct (Z.odd q); cbn [andb];
    [replace ((q + 1) * P - (P * q + r)) with (P - r) by ring|replace ((q + 0) * P - (P * q + r)) with (- r) by ring|replace ((q + 0) * P - (P * q + r)) with (- r) by ring|replace ((q + 0) * P - (P * q + r)) with (- r) by ring]; lia.
Qed.

(** The values of Int63 that are not drawn anew. *)
Lemma accepted : forall i, 0 <= i < 2 ^ 63 -> SFeqb (float64_of i) (of_uint64 1) = negb (i <? 2 ^ 63 - 512).
Proof.
  intros i Hi. destruct (dice_units i Hi) as [W U].
  assert (E1 : of_uint64 1 = S754_finite false (Z.to_pos (2 ^ 52)) (-52)) by (vm_compute; reflexivity).
  assert (B1 : bounded 53 1024 (Z.to_pos (2 ^ 52)) (-52) = true) by (vm_compute; reflexivity).
  assert (W1 : weighty (of_uint64 1)) by (rewrite E1; cbn [weighty]; now split).
  assert (U1 : units (of_uint64 1) = 2 ^ 63 * 2 ^ 1011) by (rewrite E1; vm_compute; reflexivity).
  rewrite eq_units, U, U1 by assumption. pose proof (pow_pos 1011 ltac:(lia)) as P. set (b := 2 ^ 1011) in *. clearbody b.
  assert (K : (if i =? 0 then 0 else nearest i) = 2 ^ 63 <-> 2 ^ 63 - 512 <= i).
  { destruct (Z.eqb_spec i 0) as [->|Hn]; [lia|]. split; intros H.
    - destruct (Z_le_gt_dec (2 ^ 63 - 512) i) as [L|G]; [exact L|]. exfalso.
      pose proof (nearest_mono i (2 ^ 63 - 513) ltac:(lia) ltac:(lia)) as M.
      replace (nearest (2 ^ 63 - 513)) with (2 ^ 63 - 1024) in M by (vm_compute; reflexivity). lia.
    - pose proof (nearest_mono (2 ^ 63 - 512) i ltac:(lia) H) as M1. pose proof (nearest_mono i (2 ^ 63) ltac:(lia) ltac:(lia)) as M2.
      replace (nearest (2 ^ 63 - 512)) with (2 ^ 63) in M1 by (vm_compute; reflexivity).
      replace (nearest (2 ^ 63)) with (2 ^ 63) in M2 by (vm_compute; reflexivity). lia. }
  set (x := if i =? 0 then 0 else nearest i) in *. clearbody x.
  destruct (Z.ltb_spec i (2 ^ 63 - 512)) as [L|G]; cbn [negb].
  - apply Z.eqb_neq. intros E. apply Z.mul_reg_r in E; lia.
  - apply Z.eqb_eq. f_equal. apply K. exact G.
Qed.
