(** Dates: [date_of] is the calendar. *)
From Coq Require Import String Ascii List Bool ZArith NArith Lia.
From Verif Require Import GoStr CertText CertTextSpec.
Import ListNotations.
Local Open Scope Z_scope.

Definition before (y : Z) : Z := 365 * (y - 1) + (y - 1) / 4 - (y - 1) / 100 + (y - 1) / 400.
Definition b2z (b : bool) : Z := if b then 1 else 0.
Definition first_of (lp : bool) (m : Z) : Z := nth (Z.to_nat (m - 1)) days_before 0 + b2z (lp && (2 <? m)).
Definition len (lp : bool) (m : Z) : Z :=
  if existsb (Z.eqb m) [1; 3; 5; 7; 8; 10; 12] then 31 else if existsb (Z.eqb m) [4; 6; 9; 11] then 30 else 28 + b2z lp.
Definition valid (x : Z * Z * Z) : Prop := let '(y, m, d) := x in 1 <= m <= 12 /\ 1 <= d <= len (is_leap y) m.
Definition num (x : Z * Z * Z) : Z := let '(y, m, d) := x in before y + first_of (is_leap y) m + d - 1 - 719162.

Lemma is_leap_spec : forall y, is_leap y = true <-> leap y.
Proof.
  intros y. unfold is_leap, leap. rewrite andb_true_iff, orb_true_iff, negb_true_iff, !Z.eqb_eq, Z.eqb_neq. reflexivity.
Qed.

Lemma len_spec : forall y m n, 1 <= m <= 12 -> (length_of y m n <-> n = len (is_leap y) m).
Proof.
  intros y m n H. assert (L := is_leap_spec y). unfold length_of, len. cbn [In existsb].
  assert (C : m = 1 \/ m = 2 \/ m = 3 \/ m = 4 \/ m = 5 \/ m = 6 \/ m = 7 \/ m = 8 \/ m = 9 \/ m = 10 \/ m = 11 \/ m = 12) by lia.
  repeat (destruct C as [->|C]; [cbn; split; [intros X; destruct X as [X|[X|X]]; destruct (is_leap y); unfold b2z; intuition (try congruence; try lia)
                                          |intros ->; destruct (is_leap y); unfold b2z; intuition (try congruence; try lia)]|]).
  subst m. cbn. split; [intros X; destruct X as [X|[X|X]]; intuition (try congruence; try lia)|intros ->; intuition (try congruence; try lia)].
Qed.

Definition upto (n : nat) : list Z := map Z.of_nat (seq 0 n).
Lemma in_upto : forall n z, 0 <= z < Z.of_nat n -> In z (upto n).
Proof. intros n z H. unfold upto. apply in_map_iff. exists (Z.to_nat z). split; [lia|]. apply in_seq. lia. Qed.

Definition md_ok (lp : bool) (yd : Z) : bool :=
  let (m, d) := month_day lp yd in
  (1 <=? m) && (m <=? 12) && (1 <=? d) && (d <=? len lp m) && (first_of lp m + d - 1 =? yd).
Lemma month_day_ok : forall lp yd, 0 <= yd < 365 + b2z lp ->
  let (m, d) := month_day lp yd in 1 <= m <= 12 /\ 1 <= d <= len lp m /\ first_of lp m + d - 1 = yd.
Proof.
  intros lp yd H. assert (A : md_ok lp yd = true).
  { assert (B : forallb (md_ok lp) (upto (365 + if lp then 1 else 0)) = true) by (destruct lp; vm_compute; reflexivity).
    rewrite forallb_forall in B. apply B. apply in_upto. destruct lp; cbn [b2z] in H; lia. }
  unfold md_ok in A. destruct (month_day lp yd) as [m d]. rewrite !andb_true_iff, !Z.leb_le, Z.eqb_eq in A. lia.
Qed.

Definition dm_ok (lp : bool) (m d : Z) : bool :=
  negb ((1 <=? m) && (m <=? 12) && (1 <=? d) && (d <=? len lp m)) ||
  (let (m', d') := month_day lp (first_of lp m + d - 1) in (m' =? m) && (d' =? d)) &&
  (0 <=? first_of lp m + d - 1) && (first_of lp m + d - 1 <? 365 + b2z lp).
Lemma day_month_ok : forall lp m d, 1 <= m <= 12 -> 1 <= d <= len lp m ->
  month_day lp (first_of lp m + d - 1) = (m, d) /\ 0 <= first_of lp m + d - 1 < 365 + b2z lp.
Proof.
  intros lp m d Hm Hd. assert (A : dm_ok lp m d = true).
  { assert (B : forallb (fun m => forallb (dm_ok lp m) (upto 32)) (upto 13) = true) by (destruct lp; vm_compute; reflexivity).
    rewrite forallb_forall in B. assert (L : len lp m <= 31) by (unfold len; destruct (existsb (Z.eqb m) [1; 3; 5; 7; 8; 10; 12]); [lia|]; destruct (existsb (Z.eqb m) [4; 6; 9; 11]); destruct lp; cbn [b2z]; lia).
    specialize (B m (in_upto 13 m ltac:(lia))). cbv beta in B. rewrite forallb_forall in B. apply B. apply in_upto. lia. }
  unfold dm_ok in A. replace ((1 <=? m) && (m <=? 12) && (1 <=? d) && (d <=? len lp m)) with true in A.
  - cbn [negb orb] in A. rewrite !andb_true_iff, Z.leb_le, Z.ltb_lt in A. destruct A as [[A B] C]. split; [|lia].
    destruct (month_day lp (first_of lp m + d - 1)) as [m' d']. rewrite andb_true_iff, !Z.eqb_eq in A. destruct A as [-> ->]. reflexivity.
  - symmetry. rewrite !andb_true_iff, !Z.leb_le. lia.
Qed.

Lemma before_next : forall y, before (y + 1) = before y + 365 + b2z (is_leap y).
Proof.
  intros y. unfold before. replace (y + 1 - 1) with y by lia.
  assert (L4 : y / 4 = (y - 1) / 4 + b2z (y mod 4 =? 0)) by (destruct (Z.eqb_spec (y mod 4) 0); unfold b2z; Z.to_euclidean_division_equations; lia).
  assert (L100 : y / 100 = (y - 1) / 100 + b2z (y mod 100 =? 0)) by (destruct (Z.eqb_spec (y mod 100) 0); unfold b2z; Z.to_euclidean_division_equations; lia).
  assert (L400 : y / 400 = (y - 1) / 400 + b2z (y mod 400 =? 0)) by (destruct (Z.eqb_spec (y mod 400) 0); unfold b2z; Z.to_euclidean_division_equations; lia).
  rewrite L4, L100, L400. unfold is_leap.
  assert (A : y mod 400 = 0 -> y mod 100 = 0) by (clear; intros Hy; Z.to_euclidean_division_equations; lia).
  assert (B : y mod 100 = 0 -> y mod 4 = 0) by (clear; intros Hy; Z.to_euclidean_division_equations; lia).
  destruct (Z.eqb_spec (y mod 4) 0), (Z.eqb_spec (y mod 100) 0), (Z.eqb_spec (y mod 400) 0); cbn [b2z negb andb orb]; lia.
Qed.

Lemma before_le : forall y y', y < y' -> before y + 365 + b2z (is_leap y) <= before y'.
Proof.
  intros y y' H. rewrite <- before_next. replace y' with (y + 1 + Z.of_nat (Z.to_nat (y' - y - 1))) by lia.
  induction (Z.to_nat (y' - y - 1)) as [|k IH]; [rewrite Z.add_0_r; lia|].
  replace (y + 1 + Z.of_nat (S k)) with (y + 1 + Z.of_nat k + 1) by lia. rewrite (before_next (y + 1 + Z.of_nat k)).
  destruct (is_leap (y + 1 + Z.of_nat k)); cbn [b2z]; lia.
Qed.

Lemma num_inj : forall x x', valid x -> valid x' -> num x = num x' -> x = x'.
Proof.
  intros [[y m] d] [[y' m'] d'] [Hm Hd] [Hm' Hd'] E. unfold num in E.
  destruct (day_month_ok _ _ _ Hm Hd) as [A B]. destruct (day_month_ok _ _ _ Hm' Hd') as [A' B'].
  assert (y = y').
  { destruct (Z.lt_trichotomy y y') as [L|[L|L]]; [|exact L|]; apply before_le in L; lia. }
  subst y'. assert (F : first_of (is_leap y) m + d - 1 = first_of (is_leap y) m' + d' - 1) by lia. rewrite F, A' in A. injection A as <- <-. reflexivity.
Qed.

Lemma year_split : forall D, exists n4 n3 n2 n1 t,
  D / 146097 = n4 /\ (D - 146097 * n4) / 36524 - (D - 146097 * n4) / 36524 / 4 = n3 /\
  (D - 146097 * n4 - 36524 * n3) / 1461 = n2 /\
  (D - 146097 * n4 - 36524 * n3 - 1461 * n2) / 365 - (D - 146097 * n4 - 36524 * n3 - 1461 * n2) / 365 / 4 = n1 /\
  D - 146097 * n4 - 36524 * n3 - 1461 * n2 - 365 * n1 = t /\
  0 <= n3 <= 3 /\ 0 <= n2 <= 24 /\ 0 <= n1 <= 3 /\ 0 <= t /\ (t < 365 \/ t = 365 /\ n1 = 3 /\ (n2 < 24 \/ n3 = 3)).
Proof.
  intros D. set (n4 := D / 146097). set (q := D - 146097 * n4).
  assert (Q : 0 <= q < 146097) by (unfold q, n4; Z.to_euclidean_division_equations; lia).
  set (n3 := q / 36524 - q / 36524 / 4). set (r := q - 36524 * n3).
  assert (R : 0 <= n3 <= 3 /\ 0 <= r <= 36524 /\ (r = 36524 -> n3 = 3)) by (unfold r, n3; clearbody q; Z.to_euclidean_division_equations; lia).
  set (n2 := r / 1461). set (s := r - 1461 * n2).
  assert (T : 0 <= n2 <= 24 /\ 0 <= s < 1461 /\ r = 1461 * n2 + s) by (unfold s, n2; clearbody r; Z.to_euclidean_division_equations; lia).
  set (n1 := s / 365 - s / 365 / 4). set (t := s - 365 * n1).
  assert (U : 0 <= n1 <= 3 /\ 0 <= t <= 365 /\ (t = 365 -> n1 = 3 /\ s = 1460)) by (unfold t, n1; clearbody s; Z.to_euclidean_division_equations; lia).
  exists n4, n3, n2, n1, t. do 5 (split; [reflexivity|]). lia.
Qed.

Lemma date_ok : forall n, valid (date_of n) /\ num (date_of n) = n.
Proof.
  intros n. unfold date_of. cbv zeta. destruct (year_split (n + 719162)) as [n4 [n3 [n2 [n1 [t [E4 [E3 [E2 [E1 [Et [B3 [B2 [B1 [T0 T1]]]]]]]]]]]]]].
  rewrite E4, E3, E2, E1, Et. set (y := 400 * n4 + 100 * n3 + 4 * n2 + n1 + 1).
  assert (Bf : before y = 146097 * n4 + 36524 * n3 + 1461 * n2 + 365 * n1).
  { unfold before, y. replace (400 * n4 + 100 * n3 + 4 * n2 + n1 + 1 - 1) with (400 * n4 + 100 * n3 + 4 * n2 + n1) by lia.
    clear - B1 B2 B3. Z.to_euclidean_division_equations. lia. }
  assert (Lp : n1 = 3 -> n2 < 24 \/ n3 = 3 -> is_leap y = true).
  { intros -> H. unfold is_leap, y. rewrite andb_true_iff, orb_true_iff, negb_true_iff, !Z.eqb_eq, Z.eqb_neq.
    clear - B2 B3 H. split; [Z.to_euclidean_division_equations; lia|].
    destruct (Z.eq_dec n2 24) as [->|N2]; [right; assert (n3 = 3) by lia; subst n3; Z.to_euclidean_division_equations; lia|].
    left. intros X. assert (X4 : (400 * n4 + 100 * n3 + 4 * n2 + 3 + 1) / 100 = 4 * n4 + n3) by (symmetry; apply (Z.div_unique _ _ _ (4 * n2 + 4)); lia).
    assert (X5 := Z.div_mod (400 * n4 + 100 * n3 + 4 * n2 + 3 + 1) 100 ltac:(lia)). lia. }
  assert (Tl : 0 <= t < 365 + b2z (is_leap y)).
  { destruct T1 as [T1|[T1 [T2 T3]]]; [destruct (is_leap y); cbn [b2z]; lia|]. rewrite (Lp T2 T3). cbn [b2z]. lia. }
  assert (M := month_day_ok (is_leap y) t Tl). destruct (month_day (is_leap y) t) as [m d]. cbn [fst snd]. destruct M as [M1 [M2 M3]].
  split; [split; assumption|]. unfold num. lia.
Qed.

Lemma date_unique : forall x n, valid x -> num x = n -> date_of n = x.
Proof. intros x n V E. destruct (date_ok n) as [V' E']. apply num_inj; [assumption|assumption|congruence]. Qed.

Lemma first_next : forall lp m, 1 <= m < 12 -> first_of lp (m + 1) = first_of lp m + len lp m.
Proof.
  intros lp m H. assert (C : m = 1 \/ m = 2 \/ m = 3 \/ m = 4 \/ m = 5 \/ m = 6 \/ m = 7 \/ m = 8 \/ m = 9 \/ m = 10 \/ m = 11) by lia.
  repeat (destruct C as [->|C]; [destruct lp; reflexivity|]). subst m. destruct lp; reflexivity.
Qed.
Lemma first_last : forall lp, first_of lp 12 + 31 = 365 + b2z lp.
Proof. destruct lp; reflexivity. Qed.
Lemma first_first : forall lp, first_of lp 1 = 0.
Proof. destruct lp; reflexivity. Qed.
Lemma len_pos : forall lp m, 28 <= len lp m.
Proof. intros lp m. unfold len. destruct (existsb _ _); [lia|]. destruct (existsb _ _); [lia|]. destruct lp; cbn; lia. Qed.

Lemma month_of : forall y m n, length_of y m n -> 1 <= m <= 12.
Proof. intros y m n H. unfold length_of in H. cbn [In] in H. intuition lia. Qed.

Lemma tomorrow_num : forall x x', tomorrow x x' -> valid x /\ valid x' /\ num x' = num x + 1.
Proof.
  intros [[y m] d] x' [n [L [Hd H]]]. assert (Hm := month_of _ _ _ L). apply (len_spec y m n Hm) in L. subst n.
  destruct H as [[H ->]|[[-> [N ->]]|[-> [-> ->]]]]; unfold valid, num.
  - split; [split; lia|]. split; [split; lia|]. lia.
  - assert (Lp := len_pos (is_leap y) (m + 1)). split; [split; lia|]. split; [split; lia|]. rewrite first_next by lia. lia.
  - assert (Lp := len_pos (is_leap (y + 1)) 1). split; [split; lia|]. split; [split; lia|]. rewrite first_first, before_next.
    assert (F := first_last (is_leap y)). change (len (is_leap y) 12) with 31. lia.
Qed.

Lemma tomorrow_date : forall n, tomorrow (date_of n) (date_of (n + 1)).
Proof.
  intros n. destruct (date_ok n) as [V E]. destruct (date_of n) as [[y m] d] eqn:Q. destruct V as [Hm Hd].
  assert (X : exists x', tomorrow (y, m, d) x').
  { cbn [tomorrow]. destruct (Z.lt_ge_cases d (len (is_leap y) m)) as [L|L].
    - exists (y, m, d + 1), (len (is_leap y) m). split; [now apply len_spec|]. split; [lia|]. left. now split.
    - assert (d = len (is_leap y) m) by lia. destruct (Z.eq_dec m 12) as [->|N].
      + exists (y + 1, 1, 1), (len (is_leap y) 12). split; [now apply len_spec|]. split; [lia|]. right. right. repeat split; assumption.
      + exists (y, m + 1, 1), (len (is_leap y) m). split; [now apply len_spec|]. split; [lia|]. right. left. repeat split; assumption. }
  destruct X as [x' T]. destruct (tomorrow_num _ _ T) as [_ [V' E']]. rewrite (date_unique x' (n + 1)); [exact T|exact V'|rewrite E', E; reflexivity].
Qed.

Lemma date_dated : forall n, dated n (date_of n).
Proof.
  assert (P : forall k, dated (Z.of_nat k) (date_of (Z.of_nat k))).
  { induction k as [|k IH]; [exact da_epoch|]. replace (Z.of_nat (S k)) with (Z.of_nat k + 1) by lia.
    exact (da_after _ _ _ IH (tomorrow_date _)). }
  assert (Q : forall k, dated (- Z.of_nat k) (date_of (- Z.of_nat k))).
  { induction k as [|k IH]; [exact da_epoch|]. replace (- Z.of_nat (S k)) with (- Z.of_nat k - 1) by lia.
    apply (da_before _ _ _ IH). assert (T := tomorrow_date (- Z.of_nat k - 1)). replace (- Z.of_nat k - 1 + 1) with (- Z.of_nat k) in T by lia. exact T. }
  intros n. destruct (Z.le_ge_cases 0 n) as [H|H].
  - specialize (P (Z.to_nat n)). rewrite Z2Nat.id in P by lia. exact P.
  - specialize (Q (Z.to_nat (- n))). rewrite Z2Nat.id in Q by lia. replace (- - n) with n in Q by lia. exact Q.
Qed.

Lemma dated_exactly : forall n x, dated n x <-> date_of n = x.
Proof.
  intros n x. split; [|intros <-; apply date_dated].
  intros H. induction H as [|n x x' D IH T|n x x' D IH T]; [reflexivity| |].
  - destruct (tomorrow_num _ _ T) as [V [V' E]]. apply date_unique; [exact V'|]. rewrite E, <- IH. destruct (date_ok n) as [_ ->]. reflexivity.
  - destruct (tomorrow_num _ _ T) as [V' [V E]]. apply date_unique; [exact V'|]. rewrite <- IH in E. destruct (date_ok n) as [_ En]. rewrite En in E. lia.
Qed.

(** * Digits *)
Local Open Scope string_scope.

Lemma zeros_length : forall n, String.length (zeros n) = n.
Proof. induction n as [|n IH]; [reflexivity|]. cbn. now rewrite IH. Qed.
Lemma zeros_all : forall n i c, String.get i (zeros n) = Some c -> c = "0"%char.
Proof.
  induction n as [|n IH]; intros i c H; [destruct i; discriminate|]. destruct i as [|i]; cbn in H; [now injection H|exact (IH _ _ H)].
Qed.
Lemma append_length : forall a b, String.length (a ++ b) = (String.length a + String.length b)%nat.
Proof. induction a as [|c a IH]; intros b; [reflexivity|]. cbn. now rewrite IH. Qed.

Lemma pad_digits : forall w n, in_digits w n (pad w n).
Proof.
  intros w n. unfold in_digits, pad. cbv zeta. rewrite append_length, zeros_length. split; [lia|].
  exists (zeros (w - String.length (itoa_Z n))). split; [reflexivity|]. split; [apply zeros_all|].
  destruct (w - String.length (itoa_Z n))%nat eqn:E; [left; reflexivity|right; lia].
Qed.

Lemma date_text_true : forall t, exists x, dated (t / (24 * 3600 * 1000000000))%Z x /\ written_date x (date_text t).
Proof.
  intros t. exists (date_of (t / (24 * 3600 * 1000000000))%Z). split; [apply date_dated|]. unfold date_text.
  change Tls.day with (24 * 3600 * 1000000000)%Z. destruct (date_of (t / (24 * 3600 * 1000000000))%Z) as [[y m] d].
  exists (pad 4 y), (pad 2 m), (pad 2 d). split; [reflexivity|]. split; [apply pad_digits|]. split; apply pad_digits.
Qed.
