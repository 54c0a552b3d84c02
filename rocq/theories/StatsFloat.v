(** Division and comparison of binary64 numbers, as far as Stats needs them. *)
From Coq Require Import ZArith Lia Bool Zpow_facts.
From Coq Require Import Floats.SpecFloat.
From Verif Require Import Stats.
Local Open Scope Z_scope.

Lemma pow_pos : forall k, 0 <= k -> 0 < 2 ^ k.
Proof. intros k H. apply Z.pow_pos_nonneg; lia. Qed.

Lemma pow_S : forall k, 0 <= k -> 2 ^ (k + 1) = 2 * 2 ^ k.
Proof. intros k H. rewrite Z.add_1_r, Z.pow_succ_r by assumption. reflexivity. Qed.

(** * Digits *)

Lemma digits_pos : forall p, 2 ^ (Z.pos (digits2_pos p) - 1) <= Z.pos p < 2 ^ Z.pos (digits2_pos p).
Proof.
  induction p as [p IH|p IH|]; cbn [digits2_pos]; [| |cbn; lia]; rewrite Pos2Z.inj_succ;
    replace (Z.succ (Z.pos (digits2_pos p)) - 1) with ((Z.pos (digits2_pos p) - 1) + 1) by lia;
    rewrite pow_S by lia; rewrite Z.pow_succ_r by lia; lia.
Qed.

Lemma digits_unique : forall m d, 2 ^ (d - 1) <= m < 2 ^ d -> 1 <= d -> Zdigits2 m = d.
Proof.
  intros m d H Hd. assert (Hm : 0 < m) by (pose proof (pow_pos (d - 1) ltac:(lia)); lia).
  destruct m as [|p|p]; try lia. cbn [Zdigits2]. pose proof (digits_pos p) as Hp.
  set (e := Z.pos (digits2_pos p)) in *. assert (He : 1 <= e) by (unfold e; lia).
  destruct (Z.lt_trichotomy d e) as [L|[E|L]]; [|congruence|]; exfalso.
  - assert (2 ^ d <= 2 ^ (e - 1)) by (apply Z.pow_le_mono_r; lia). lia.
  - assert (2 ^ e <= 2 ^ (d - 1)) by (apply Z.pow_le_mono_r; lia). lia.
Qed.

(** * Rounding *)

Lemma loc_record : forall m l, loc_of_shr_record (shr_record_of_loc m l) = l.
Proof. intros m [|[| |]]; reflexivity. Qed.

Lemma rec_m : forall m l, shr_m (shr_record_of_loc m l) = m.
Proof. intros m [|[| |]]; reflexivity. Qed.

Lemma rne_bounds : forall m l, m <= round_nearest_even m l <= m + 1.
Proof. intros m [|[| |]]; cbn [round_nearest_even]; try destruct (Z.even m); lia. Qed.

Definition normal (m : Z) : Prop := 2 ^ 52 <= m < 2 ^ 53.

Lemma shr_fexp_normal : forall m e l, normal m -> -1074 <= e -> shr_fexp 53 1024 m e l = (shr_record_of_loc m l, e).
Proof.
  intros m e l Hm He. unfold shr_fexp. rewrite (digits_unique m 53) by (cbn in *; unfold normal in Hm; lia).
  unfold fexp, emin. replace (Z.max (53 + e - 53) (3 - 1024 - 53) - e) with 0 by lia. reflexivity.
Qed.

Lemma final_normal : forall m e, normal m -> -1074 <= e <= 971 ->
  (let '(mrs, e'') := shr_fexp 53 1024 m e loc_Exact in
   match shr_m mrs with
   | Z0 => S754_zero false
   | Zpos p => if Zle_bool e'' (1024 - 53) then S754_finite false p e'' else S754_infinity false
   | _ => S754_nan
   end) = S754_finite false (Z.to_pos m) e.
Proof.
  intros m e Hm He. rewrite shr_fexp_normal by (assumption || lia). cbn [shr_record_of_loc shr_m].
  unfold normal in Hm. destruct m as [|p|p]; try lia.
  replace (Zle_bool e (1024 - 53)) with true by (symmetry; apply Zle_imp_le_bool; lia). reflexivity.
Qed.

Lemma final_overflow : forall e, -1074 <= e <= 970 ->
  (let '(mrs, e'') := shr_fexp 53 1024 (2 ^ 53) e loc_Exact in
   match shr_m mrs with
   | Z0 => S754_zero false
   | Zpos p => if Zle_bool e'' (1024 - 53) then S754_finite false p e'' else S754_infinity false
   | _ => S754_nan
   end) = S754_finite false (Z.to_pos (2 ^ 52)) (e + 1).
Proof.
  intros e He. unfold shr_fexp. rewrite (digits_unique (2 ^ 53) 54) by (cbn; lia).
  unfold fexp, emin. replace (Z.max (54 + e - 53) (3 - 1024 - 53) - e) with 1 by lia.
  cbn [shr shr_record_of_loc]. 
  replace (Zle_bool (e + 1) (1024 - 53)) with true by (symmetry; apply Zle_imp_le_bool; lia). reflexivity.
Qed.

(** What rounding leaves: a normal number with the same value. *)
Lemma final_rounded : forall m e, 2 ^ 52 <= m <= 2 ^ 53 -> -1074 <= e <= 970 ->
  exists p e', (let '(mrs, e'') := shr_fexp 53 1024 m e loc_Exact in
   match shr_m mrs with
   | Z0 => S754_zero false
   | Zpos p => if Zle_bool e'' (1024 - 53) then S754_finite false p e'' else S754_infinity false
   | _ => S754_nan
   end) = S754_finite false p e' /\ normal (Z.pos p) /\ (e <= e' <= e + 1) /\ Z.pos p * 2 ^ (e' - e) = m.
Proof.
  intros m e Hm He. destruct (Z.eq_dec m (2 ^ 53)) as [->|Hne].
  - exists (Z.to_pos (2 ^ 52)), (e + 1). split; [apply final_overflow; lia|]. split; [cbn; unfold normal; lia|].
    split; [lia|]. replace (e + 1 - e) with 1 by lia. reflexivity.
  - exists (Z.to_pos m), e. split; [apply final_normal; unfold normal; lia|]. rewrite Z2Pos.id by lia.
    split; [unfold normal; lia|]. split; [lia|]. rewrite Z.sub_diag, Z.pow_0_r. lia.
Qed.

(** Shifting right by [k] places. *)
Record shifted (a k : Z) (r : shr_record) : Prop := {
  sh_m : shr_m r = a / 2 ^ k;
  sh_r : shr_r r = (2 ^ k <=? 2 * (a mod 2 ^ k));
  sh_s : shr_s r = negb ((if shr_r r then 2 ^ k else 0) =? 2 * (a mod 2 ^ k)) }.

Lemma shr_1_spec : forall m r s, 0 <= m -> shr_1 {| shr_m := m; shr_r := r; shr_s := s |} = {| shr_m := m / 2; shr_r := Z.odd m; shr_s := r || s |}.
Proof.
  intros m r s H. destruct m as [|[p|p|]|p]; try lia; cbn [shr_1 Z.odd]; f_equal.
  - change (Z.pos p~1) with (2 * Z.pos p + 1). rewrite Z.mul_comm, Z.div_add_l by lia. cbn. lia.
  - change (Z.pos p~0) with (2 * Z.pos p). rewrite Z.mul_comm, Z.div_mul by lia. reflexivity.
Qed.

Lemma shifted_S : forall a k r, 0 <= a -> 0 <= k -> shifted a k r -> shifted a (k + 1) (shr_1 r).
Proof.
  intros a k [m r s] Ha Hk [Hm Hr Hs]. cbn [shr_m shr_r shr_s] in *.
  pose proof (pow_pos k Hk) as HP. assert (Hm0 : 0 <= m) by (rewrite Hm; apply Z.div_pos; lia).
  rewrite shr_1_spec by assumption.
  pose proof (Z.mod_pos_bound a (2 ^ k) HP) as Hb. pose proof (Z.div_mod a (2 ^ k) ltac:(lia)) as Hd.
  assert (Hq : a / 2 ^ (k + 1) = m / 2) by (rewrite pow_S by assumption; rewrite (Z.mul_comm 2), <- Z.div_div by lia; now rewrite Hm).
  pose proof (pow_pos (k + 1) ltac:(lia)) as HP1.
  pose proof (Z.div_mod a (2 ^ (k + 1)) ltac:(lia)) as Hd1. rewrite Hq in Hd1.
  pose proof (Z.div_mod m 2 ltac:(lia)) as Hd2. pose proof (Zmod_odd m) as Ho.
  rewrite pow_S in Hd1 by assumption.
  assert (Hrho : a mod 2 ^ (k + 1) = (if Z.odd m then 2 ^ k else 0) + a mod 2 ^ k).
  { rewrite pow_S by assumption. rewrite <- Hm in Hd. destruct (Z.odd m); nia. }
  constructor; cbn [shr_m shr_r shr_s].
  - congruence.
  - rewrite Hrho, pow_S by assumption. destruct (Z.odd m); symmetry; [apply Z.leb_le|apply Z.leb_gt]; lia.
  - rewrite Hrho, Hs, pow_S by assumption.
    destruct r; symmetry in Hr; [apply Z.leb_le in Hr|apply Z.leb_gt in Hr]; cbn [orb].
    + symmetry. apply negb_true_iff, Z.eqb_neq. destruct (Z.odd m); lia.
    + f_equal. destruct (Z.eqb_spec 0 (2 * (a mod 2 ^ k))); symmetry; [apply Z.eqb_eq|apply Z.eqb_neq]; destruct (Z.odd m); lia.
Qed.

Lemma shifted_iter : forall p a k r, 0 <= a -> 0 <= k -> shifted a k r -> shifted a (k + Z.pos p) (iter_pos shr_1 p r).
Proof.
  induction p as [p IH|p IH|]; intros a k r Ha Hk H; cbn [iter_pos].
  - replace (k + Z.pos p~1) with (((k + 1) + Z.pos p) + Z.pos p) by lia. apply IH; [lia|lia|]. apply IH; [lia|lia|]. now apply shifted_S.
  - replace (k + Z.pos p~0) with ((k + Z.pos p) + Z.pos p) by lia. apply IH; [lia|lia|]. apply IH; [lia|lia|assumption].
  - now apply shifted_S.
Qed.

Lemma shifted_0 : forall a, shifted a 0 {| shr_m := a; shr_r := false; shr_s := false |}.
Proof.
  intros a. constructor; cbn [shr_m shr_r shr_s]; rewrite ?Z.pow_0_r, ?Z.div_1_r, ?Z.mod_1_r; reflexivity.
Qed.

(** * Integers as numbers *)

(** The nearest number to [a], as an integer: ties to even. *)
Definition up (q r p : Z) : Z := if (p <? 2 * r) || ((p =? 2 * r) && Z.odd q) then 1 else 0.
Definition nearest (a : Z) : Z :=
  if a <? 2 ^ 53 then a
  else let k := Z.log2 a - 52 in (a / 2 ^ k + up (a / 2 ^ k) (a mod 2 ^ k) (2 ^ k)) * 2 ^ k.

Lemma rne_up : forall a k r, 1 <= k -> 0 <= a -> shifted a k r ->
  round_nearest_even (shr_m r) (loc_of_shr_record r) = a / 2 ^ k + up (a / 2 ^ k) (a mod 2 ^ k) (2 ^ k).
Proof.
  intros a k [m r s] Hk Ha [Hm Hr Hs]. cbn [shr_m shr_r shr_s] in *. rewrite <- Hm. clear Hm. unfold up.
  pose proof (pow_pos k ltac:(lia)) as HP. pose proof (Z.mod_pos_bound a (2 ^ k) HP) as Hb.
  set (rho := a mod 2 ^ k) in *. set (P := 2 ^ k) in *.
  destruct r; symmetry in Hr; [apply Z.leb_le in Hr|apply Z.leb_gt in Hr].
  - destruct (Z.eqb_spec P (2 * rho)) as [E|E]; cbn [negb] in Hs; subst s; cbn [loc_of_shr_record round_nearest_even].
    + replace (P <? 2 * rho) with false by (symmetry; apply Z.ltb_ge; lia). cbn [orb andb].
      rewrite <- Z.negb_odd. destruct (Z.odd m); cbn [negb]; lia.
    + replace (P <? 2 * rho) with true by (symmetry; apply Z.ltb_lt; lia). reflexivity.
  - replace (P <? 2 * rho) with false by (symmetry; apply Z.ltb_ge; lia).
    replace (P =? 2 * rho) with false by (symmetry; apply Z.eqb_neq; lia). cbn [orb andb].
    destruct s; cbn [loc_of_shr_record round_nearest_even]; lia.
Qed.

Lemma log2_bounds : forall a, 0 < a -> 0 <= Z.log2 a /\ 2 ^ Z.log2 a <= a < 2 * 2 ^ Z.log2 a.
Proof. intros a H. split; [apply Z.log2_nonneg|]. pose proof (Z.log2_spec a H). rewrite Z.pow_succ_r in *; [lia|apply Z.log2_nonneg]. Qed.

Lemma big_quotient : forall a, 2 ^ 53 <= a -> let k := Z.log2 a - 52 in 1 <= k /\ normal (a / 2 ^ k) /\ a = 2 ^ k * (a / 2 ^ k) + a mod 2 ^ k /\ 0 <= a mod 2 ^ k < 2 ^ k.
Proof.
  intros a Ha k. destruct (log2_bounds a) as [H0 [H1 H2]]; [lia|].
  assert (Hk : 53 <= Z.log2 a) by (apply Z.log2_le_pow2; lia).
  assert (E : 2 ^ Z.log2 a = 2 ^ 52 * 2 ^ k) by (rewrite <- Z.pow_add_r by (unfold k; lia); f_equal; unfold k; lia).
  pose proof (pow_pos k ltac:(unfold k; lia)) as HP.
  pose proof (Z.div_mod a (2 ^ k) ltac:(lia)) as Hd. pose proof (Z.mod_pos_bound a (2 ^ k) HP) as Hb.
  split; [unfold k; lia|]. split; [|split; assumption].
  unfold normal. split; [apply Z.div_le_lower_bound; lia|apply Z.div_lt_upper_bound; lia].
Qed.

Lemma up_range : forall q r p, 0 <= up q r p <= 1.
Proof. intros q r p. unfold up. destruct (_ || _); lia. Qed.

(** of_uint64 gives the nearest normal number. *)
Lemma of_uint64_spec : forall a, 0 < a < 2 ^ 64 -> exists p e, of_uint64 a = S754_finite false p e /\ normal (Z.pos p) /\
  -52 <= e <= 12 /\ Z.pos p * 2 ^ (e + 52) = nearest a * 2 ^ 52.
Proof.
  intros a [Ha Hlt]. destruct a as [|p|p]; try lia. unfold of_uint64. cbn [binary_normalize]. unfold binary_round.
  pose proof (digits_pos p) as Hp. set (d := Z.pos (digits2_pos p)) in *.
  assert (Hd1 : 1 <= d) by (unfold d; lia).
  assert (Hd2 : d <= 64).
  { destruct (Z_le_gt_dec d 64) as [L|G]; [assumption|]. exfalso. assert (2 ^ 64 <= 2 ^ (d - 1)) by (apply Z.pow_le_mono_r; lia). lia. }
  rewrite Z.add_0_r. replace (fexp 53 1024 d) with (d - 53) by (unfold fexp, emin; lia).
  unfold nearest. destruct (Z_lt_le_dec (Z.pos p) (2 ^ 53)) as [Hs|Hb].
  - replace (Z.pos p <? 2 ^ 53) with true by (symmetry; apply Z.ltb_lt; lia).
    assert (Hd3 : d <= 53).
    { destruct (Z_le_gt_dec d 53) as [L|G]; [assumption|]. exfalso. assert (2 ^ 53 <= 2 ^ (d - 1)) by (apply Z.pow_le_mono_r; lia). lia. }
    assert (Hal : exists m, shl_align p 0 (d - 53) = (m, d - 53) /\ Z.pos m = Z.pos p * 2 ^ (53 - d)).
    { unfold shl_align. rewrite Z.sub_0_r. destruct (d - 53) as [|x|x] eqn:E; try lia.
      - exists p. split; [reflexivity|]. replace (53 - d) with 0 by lia. lia.
      - eexists. split; [reflexivity|]. rewrite shift_pos_correct, Z.mul_comm. replace (53 - d) with (Z.pos x) by lia. reflexivity. }
    destruct Hal as [m [Hal Hm]]. rewrite Hal.
    assert (Hn : normal (Z.pos m)).
    { unfold normal. rewrite Hm. pose proof (pow_pos (53 - d) ltac:(lia)) as HP.
      replace (2 ^ 52) with (2 ^ (d - 1) * 2 ^ (53 - d)) by (rewrite <- Z.pow_add_r by lia; f_equal; lia).
      replace (2 ^ 53) with (2 ^ d * 2 ^ (53 - d)) by (rewrite <- Z.pow_add_r by lia; f_equal; lia). nia. }
    unfold binary_round_aux. rewrite shr_fexp_normal by (assumption || lia). cbn [shr_record_of_loc shr_m loc_of_shr_record round_nearest_even].
    exists m, (d - 53). rewrite (final_normal (Z.pos m)) by (assumption || lia). split; [reflexivity|]. split; [assumption|]. split; [lia|].
    rewrite Hm. rewrite <- Z.mul_assoc, <- Z.pow_add_r by lia. do 2 f_equal. lia.
  - replace (Z.pos p <? 2 ^ 53) with false by (symmetry; apply Z.ltb_ge; lia).
    assert (Hd3 : 54 <= d).
    { destruct (Z_lt_le_dec d 54) as [L|G]; [|assumption]. exfalso. assert (2 ^ d <= 2 ^ 53) by (apply Z.pow_le_mono_r; lia). lia. }
    assert (Hlog : Z.log2 (Z.pos p) = d - 1).
    { apply Z.log2_unique; [lia|]. replace (Z.succ (d - 1)) with d by lia. assumption. }
    destruct (big_quotient (Z.pos p) Hb) as [Hk [Hn [Heq Hr]]]. rewrite Hlog in *. cbv zeta.
    replace (d - 1 - 52) with (d - 53) in * by lia. set (k := d - 53) in *.
    assert (Hal : shl_align p 0 k = (p, 0)).
    { unfold shl_align. rewrite Z.sub_0_r. destruct k; try lia; reflexivity. }
    rewrite Hal. unfold binary_round_aux, shr_fexp at 1.
    change (Zdigits2 (Z.pos p)) with d. replace (fexp 53 1024 (d + 0) - 0) with k by (unfold fexp, emin, k; lia).
    cbn [shr_record_of_loc]. destruct k as [|x|x] eqn:Ek; try lia. cbn [shr].
    assert (Hsh := shifted_iter x (Z.pos p) 0 _ ltac:(lia) ltac:(lia) (shifted_0 (Z.pos p))).
    change (0 + Z.pos x) with (Z.pos x) in *.
    rewrite (rne_up (Z.pos p) (Z.pos x) _) by (assumption || lia).
    set (v := Z.pos p / 2 ^ Z.pos x + up (Z.pos p / 2 ^ Z.pos x) (Z.pos p mod 2 ^ Z.pos x) (2 ^ Z.pos x)) in *.
    assert (Hv : 2 ^ 52 <= v <= 2 ^ 53) by (unfold v; pose proof (up_range (Z.pos p / 2 ^ Z.pos x) (Z.pos p mod 2 ^ Z.pos x) (2 ^ Z.pos x)); unfold normal in Hn; lia).
    destruct (final_rounded v (Z.pos x) Hv ltac:(lia)) as [m [e [H1 [H2 [H3 H4]]]]].
    exists m, e. split; [exact H1|]. split; [assumption|]. split; [lia|].
    rewrite <- H4, <- !Z.mul_assoc. f_equal. rewrite <- !Z.pow_add_r by lia. f_equal. lia.
Qed.

(** * The nearest number is monotone and commutes with doubling *)

Lemma nearest_double : forall b, 0 < b -> nearest (2 * b) = 2 * nearest b.
Proof.
  intros b Hb. unfold nearest. destruct (Z.ltb_spec (2 * b) (2 ^ 53)) as [H|H].
  - replace (b <? 2 ^ 53) with true by (symmetry; apply Z.ltb_lt; lia). reflexivity.
  - cbv zeta. rewrite Z.log2_double by assumption. replace (Z.succ (Z.log2 b) - 52) with (Z.log2 b - 52 + 1) by lia.
    destruct (Z.ltb_spec b (2 ^ 53)) as [H1|H1].
    + assert (Hl : Z.log2 b = 52) by (apply Z.log2_unique; [lia|change (Z.succ 52) with 53; lia]). rewrite Hl. change (52 - 52 + 1) with 1. change (2 ^ 1) with 2.
      rewrite (Z.mul_comm 2 b), Z.div_mul, Z.mod_mul by lia. unfold up. cbn [Z.mul Z.ltb Z.eqb Z.compare orb andb]. lia.
    + destruct (big_quotient b H1) as [Hk _]. cbv zeta in Hk. set (k := Z.log2 b - 52) in *.
      rewrite pow_S by lia. pose proof (pow_pos k ltac:(lia)) as HP.
      rewrite Z.div_mul_cancel_l, Zmult_mod_distr_l by lia.
      replace (up (b / 2 ^ k) (2 * (b mod 2 ^ k)) (2 * 2 ^ k)) with (up (b / 2 ^ k) (b mod 2 ^ k) (2 ^ k)); [lia|].
      unfold up. replace (2 * 2 ^ k <? 2 * (2 * (b mod 2 ^ k))) with (2 ^ k <? 2 * (b mod 2 ^ k)).
      2:{ destruct (Z.ltb_spec (2 ^ k) (2 * (b mod 2 ^ k))); symmetry; [apply Z.ltb_lt|apply Z.ltb_ge]; lia. }
      replace (2 * 2 ^ k =? 2 * (2 * (b mod 2 ^ k))) with (2 ^ k =? 2 * (b mod 2 ^ k)); [reflexivity|].
      destruct (Z.eqb_spec (2 ^ k) (2 * (b mod 2 ^ k))); symmetry; [apply Z.eqb_eq|apply Z.eqb_neq]; lia.
Qed.

Lemma nearest_small : forall a, a < 2 ^ 53 -> nearest a = a.
Proof. intros a H. unfold nearest. replace (a <? 2 ^ 53) with true by (symmetry; apply Z.ltb_lt; lia). reflexivity. Qed.

Lemma nearest_range : forall a, 0 < a -> 2 ^ Z.log2 a <= nearest a <= 2 * 2 ^ Z.log2 a.
Proof.
  intros a Ha. unfold nearest. destruct (log2_bounds a Ha) as [H0 [H1 H2]]. destruct (Z.ltb_spec a (2 ^ 53)) as [H|H]; [lia|].
  destruct (big_quotient a H) as [Hk [Hn _]]. cbv zeta in *. set (k := Z.log2 a - 52) in *.
  assert (E : 2 ^ Z.log2 a = 2 ^ 52 * 2 ^ k) by (rewrite <- Z.pow_add_r by lia; f_equal; unfold k; lia).
  pose proof (up_range (a / 2 ^ k) (a mod 2 ^ k) (2 ^ k)). pose proof (pow_pos k ltac:(lia)). unfold normal in Hn. rewrite E.
  set (u := up _ _ _) in *. set (q := a / 2 ^ k) in *. change (2 ^ 53) with (2 * 2 ^ 52) in Hn. nia.
Qed.

Lemma nearest_mono : forall a b, 0 < a -> a <= b -> nearest a <= nearest b.
Proof.
  intros a b Ha Hab. pose proof (Z.log2_le_mono a b Hab) as Hl.
  destruct (Z.eq_dec (Z.log2 a) (Z.log2 b)) as [E|E].
  - unfold nearest. rewrite <- E. cbv zeta. destruct (Z.ltb_spec a (2 ^ 53)) as [H1|H1], (Z.ltb_spec b (2 ^ 53)) as [H2|H2]; try lia.
    + exfalso. assert (53 <= Z.log2 b) by (apply Z.log2_le_pow2; lia). assert (Z.log2 a < 53) by (apply Z.log2_lt_pow2; lia). lia.
    + destruct (big_quotient a H1) as [Hk [_ [Ea Hra]]]. destruct (big_quotient b H2) as [_ [_ [Eb Hrb]]]. cbv zeta in *. rewrite <- E in Eb, Hrb.
      set (k := Z.log2 a - 52) in *. pose proof (pow_pos k ltac:(lia)) as HP. set (P := 2 ^ k) in *.
      apply Z.mul_le_mono_nonneg_r; [lia|]. assert (Hq : a / P <= b / P) by (apply Z.div_le_mono; lia).
      destruct (Z.eq_dec (a / P) (b / P)) as [Eq|Ne].
      * rewrite <- Eq in *. assert (Hr : a mod P <= b mod P) by lia. unfold up.
        destruct (Z.ltb_spec P (2 * (a mod P))), (Z.ltb_spec P (2 * (b mod P))), (Z.eqb_spec P (2 * (a mod P))), (Z.eqb_spec P (2 * (b mod P))); destruct (Z.odd (a / P)); cbn [orb andb]; lia.
      * pose proof (up_range (a / P) (a mod P) P). pose proof (up_range (b / P) (b mod P) P). lia.
  - pose proof (nearest_range a Ha). pose proof (nearest_range b ltac:(lia)).
    assert (2 * 2 ^ Z.log2 a <= 2 ^ Z.log2 b); [|lia]. rewrite <- Z.pow_succ_r by apply Z.log2_nonneg. apply Z.pow_le_mono_r; lia.
Qed.

(** * Division *)

Lemma div_eucl_eq : forall a b, Z.div_eucl a b = (a / b, a mod b).
Proof. intros a b. unfold Z.div, Z.modulo. now destruct (Z.div_eucl a b). Qed.

Lemma quotient_large : forall ma mb, normal ma -> normal mb -> mb <= ma -> 2 ^ 53 <= ma * 2 ^ 53 / mb <= 2 ^ 54 - 2.
Proof.
  intros ma mb [Ha1 Ha2] [Hb1 Hb2] H. split; [apply Z.div_le_lower_bound; lia|].
  assert (ma * 2 ^ 53 / mb < 2 ^ 54 - 1); [|lia]. apply Z.div_lt_upper_bound; lia.
Qed.

Lemma quotient_small : forall ma mb, normal ma -> normal mb -> ma < mb -> 2 ^ 52 <= ma * 2 ^ 53 / mb <= 2 ^ 53 - 2.
Proof.
  intros ma mb [Ha1 Ha2] [Hb1 Hb2] H. split; [apply Z.div_le_lower_bound; lia|].
  assert (ma * 2 ^ 53 / mb < 2 ^ 53 - 1); [|lia]. apply Z.div_lt_upper_bound; lia.
Qed.

Lemma divide_normal : forall p e q f, normal (Z.pos p) -> normal (Z.pos q) -> -64 <= e <= 64 -> -64 <= f <= 64 ->
  exists m, divide64 (S754_finite false p e) (S754_finite false q f) =
    S754_finite false m (e - f - 53 + (if Z.pos q <=? Z.pos p then 1 else 0)) /\ normal (Z.pos m).
Proof.
  intros p e q f Hp Hq He Hf. unfold divide64. cbn [SFdiv]. unfold SFdiv_core_binary.
  rewrite (digits_unique (Z.pos p) 53), (digits_unique (Z.pos q) 53) by (unfold normal in *; cbn in *; lia).
  replace (Z.min (fexp 53 1024 (53 + e - (53 + f))) (e - f)) with (e - f - 53) by (unfold fexp, emin; lia).
  cbv zeta. replace (e - f - (e - f - 53)) with 53 by lia. rewrite div_eucl_eq, Z.shiftl_mul_pow2 by lia.
  set (l := new_location (Z.pos q) (Z.pos p * 2 ^ 53 mod Z.pos q)). cbn [xorb].
  destruct (Z.leb_spec (Z.pos q) (Z.pos p)) as [H|H].
  - pose proof (quotient_large _ _ Hp Hq H) as Hv. set (v := Z.pos p * 2 ^ 53 / Z.pos q) in *. clearbody v l.
    unfold binary_round_aux, shr_fexp at 1. rewrite (digits_unique v 54) by (cbn in *; lia).
    replace (fexp 53 1024 (54 + (e - f - 53)) - (e - f - 53)) with 1 by (unfold fexp, emin; lia). cbn [shr iter_pos].
    destruct (shr_record_of_loc v l) as [m0 r0 s0] eqn:Er. assert (m0 = v) by (pose proof (rec_m v l) as X; rewrite Er in X; exact X). subst m0.
    rewrite shr_1_spec by lia. cbn [shr_m].
    set (w := round_nearest_even _ _).
    assert (Hw : normal w).
    { pose proof (Z.div_mod v 2 ltac:(lia)) as Hd. pose proof (Zmod_odd v) as Ho. unfold normal.
      pose proof (rne_bounds (v / 2) (loc_of_shr_record {| shr_m := v / 2; shr_r := Z.odd v; shr_s := r0 || s0 |})) as Hb. fold w in Hb.
      assert (Hw : Z.odd v = false -> w = v / 2) by (intros Eo; unfold w; rewrite Eo; destruct (r0 || s0); reflexivity).
      clearbody w. destruct (Z.odd v); [lia|]. specialize (Hw eq_refl). lia. }
    exists (Z.to_pos w). rewrite final_normal by (assumption || lia). rewrite Z2Pos.id by (unfold normal in Hw; lia). split; [reflexivity|assumption].
  - pose proof (quotient_small _ _ Hp Hq H) as Hv. set (v := Z.pos p * 2 ^ 53 / Z.pos q) in *. clearbody v l.
    unfold binary_round_aux. rewrite shr_fexp_normal by (unfold normal; lia). rewrite rec_m, loc_record.
    set (w := round_nearest_even v l). assert (Hw : normal w) by (unfold normal; pose proof (rne_bounds v l) as Hb; fold w in Hb; lia).
    exists (Z.to_pos w). rewrite final_normal by (assumption || lia). rewrite Z2Pos.id by (unfold normal in Hw; lia).
    split; [f_equal; lia|assumption].
Qed.

Lemma at_least_two : forall m e, normal (Z.pos m) -> at_least64 (S754_finite false m e) threshold = (-51 <=? e).
Proof.
  intros m e Hm. unfold at_least64, threshold.
  replace (of_uint64 2) with (S754_finite false 4503599627370496 (-51)) by (vm_compute; reflexivity).
  unfold SFleb. cbn [SFcompare]. unfold normal in Hm. change (2 ^ 52) with 4503599627370496 in Hm.
  destruct (Z.compare_spec (-51) e) as [E|L|G].
  - destruct (Pos.compare_cont Eq 4503599627370496 m) eqn:C; symmetry; try (apply Z.leb_le; lia).
    change (Pos.compare 4503599627370496 m = Gt) in C. apply Pos.compare_gt_iff, Pos2Z.pos_lt_pos in C.
    exfalso. exact (Z.lt_irrefl _ (Z.lt_le_trans _ _ _ C (proj1 Hm))).
  - symmetry. apply Z.leb_le. lia.
  - symmetry. apply Z.leb_gt. lia.
Qed.

(** Comparing two normal numbers by exponent and mantissa. *)
Lemma double_iff : forall p e q f, normal p -> normal q -> -52 <= e -> -52 <= f ->
  (2 * (q * 2 ^ (f + 52)) <= p * 2 ^ (e + 52) <-> -51 <= e - f - 53 + (if q <=? p then 1 else 0)).
Proof.
  intros p e q f [Hp1 Hp2] [Hq1 Hq2] He Hf.
  destruct (Z_lt_le_dec e f) as [L|G].
  - assert (HF : 2 ^ 1 <= 2 ^ (f - e)) by (apply Z.pow_le_mono_r; lia).
    replace (f + 52) with ((e + 52) + (f - e)) by lia. rewrite Z.pow_add_r by lia.
    pose proof (pow_pos (e + 52) ltac:(lia)) as HP. change (2 ^ 1) with 2 in HF.
    generalize dependent (2 ^ (f - e)). generalize dependent (2 ^ (e + 52)). intros P HP F HF.
    split; [|destruct (q <=? p); lia]. intros H0. exfalso.
    assert (q * (2 * P) <= q * (P * F)) by (apply Z.mul_le_mono_nonneg_l; nia).
    assert (p * P < (4 * q) * P) by (apply Z.mul_lt_mono_pos_r; lia). lia.
  - destruct (Z.eq_dec (e - f) 0) as [E0|N0]; [|destruct (Z.eq_dec (e - f) 1) as [E1|N1]].
    + replace e with f in * by lia. pose proof (pow_pos (f + 52) ltac:(lia)) as HP. generalize dependent (2 ^ (f + 52)). intros P HP.
      split; [|destruct (q <=? p); lia]. intros H0. exfalso. assert (p * P < (2 * q) * P) by (apply Z.mul_lt_mono_pos_r; lia). lia.
    + replace (e + 52) with ((f + 52) + 1) by lia. rewrite pow_S by lia.
      pose proof (pow_pos (f + 52) ltac:(lia)) as HP. generalize dependent (2 ^ (f + 52)). intros P HP.
      destruct (Z.leb_spec q p) as [H|H]; split; intros H0; try lia.
      * assert (q * P <= p * P) by (apply Z.mul_le_mono_nonneg_r; lia). lia.
      * exfalso. assert (p * P < q * P) by (apply Z.mul_lt_mono_pos_r; lia). lia.
    + assert (Hge : 2 <= e - f) by (clear - G N0 N1; lia).
      assert (HF : 2 ^ 2 <= 2 ^ (e - f)) by (apply Z.pow_le_mono_r; [reflexivity|exact Hge]).
      replace (e + 52) with ((f + 52) + (e - f)) by lia. rewrite (Z.pow_add_r 2 (f + 52) (e - f)) by lia.
      pose proof (pow_pos (f + 52) ltac:(lia)) as HP. change (2 ^ 2) with 4 in HF.
      generalize dependent (2 ^ (e - f)). generalize dependent (2 ^ (f + 52)). intros P HP F HF.
      split; [destruct (q <=? p); lia|]. intros _.
      assert (p * (P * 4) <= p * (P * F)) by (apply Z.mul_le_mono_nonneg_l; [lia|apply Z.mul_le_mono_nonneg_l; lia]).
      assert ((2 * q) * P <= (4 * p) * P) by (apply Z.mul_le_mono_nonneg_r; lia). lia.
Qed.

(** ** The comparison of stats.go:67 is one of nearest numbers *)
Lemma ratio_spec : forall a b, 0 < a < 2 ^ 64 -> 0 < b < 2 ^ 64 ->
  (at_least64 (divide64 (of_uint64 a) (of_uint64 b)) threshold = true <-> 2 * nearest b <= nearest a).
Proof.
  intros a b Ha Hb. destruct (of_uint64_spec a Ha) as [p [e [Ea [Hp [He Va]]]]]. destruct (of_uint64_spec b Hb) as [q [f [Eb [Hq [Hf Vb]]]]].
  rewrite Ea, Eb. destruct (divide_normal p e q f Hp Hq ltac:(lia) ltac:(lia)) as [m [Em Hm]]. rewrite Em, at_least_two by assumption.
  rewrite Z.leb_le, <- (double_iff (Z.pos p) e (Z.pos q) f) by (assumption || lia). rewrite Va, Vb.
  generalize (nearest a) (nearest b). intros x y. lia.
Qed.

Lemma ratio_complete : forall a b, 0 < b -> 2 * b <= a -> a < 2 ^ 64 -> at_least64 (divide64 (of_uint64 a) (of_uint64 b)) threshold = true.
Proof.
  intros a b Hb Hab Ha. apply ratio_spec; [lia|lia|]. rewrite <- nearest_double by assumption. apply nearest_mono; lia.
Qed.

Lemma ratio_sound : forall a b, 0 < b -> 0 <= a < 2 ^ 53 -> b < 2 ^ 53 -> at_least64 (divide64 (of_uint64 a) (of_uint64 b)) threshold = true -> 2 * b <= a.
Proof.
  intros a b Hb Ha Hb2 H. destruct (Z.eq_dec a 0) as [->|Hne].
  - exfalso. destruct (of_uint64_spec b ltac:(lia)) as [q [f [Eb _]]]. rewrite Eb in H. vm_compute in H. discriminate.
  - apply ratio_spec in H; [|lia|lia]. rewrite !nearest_small in H by lia. assumption.
Qed.
