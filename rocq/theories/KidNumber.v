(** The numbers of JSON: the reader of Kid reads exactly the texts of KidSpec. *)
From Coq Require Import String Ascii List Bool ZArith NArith Lia Arith.
From Verif Require Import GoStr Json Kid KidSpec KidUtf8 KidChars.
Import ListNotations.
Local Open Scope string_scope.

Lemma overflows_iff : forall m e, overflows m e = true <-> too_large m e.
Proof.
  intros m e. unfold overflows, too_large. generalize (2 ^ 1024 - 2 ^ 970)%Z as B. intros B.
  destruct (Z.leb_spec 0 e) as [He|He].
  - rewrite Z.leb_le. split.
    + intros H. exists 0%Z. rewrite Z.add_0_r, Z.pow_0_r, Z.mul_1_r. split; [lia|]. split; [exact He|exact H].
    + intros (k & Hk & _ & H). rewrite (Z.pow_add_r 10 e k He Hk), Z.mul_assoc in H.
      apply Z.mul_le_mono_pos_r in H; [exact H|]. apply Z.pow_pos_nonneg; lia.
  - rewrite Z.leb_le. split.
    + intros H. exists (- e)%Z. rewrite Z.add_opp_diag_r, Z.pow_0_r, Z.mul_1_r. split; [lia|]. split; [lia|exact H].
    + intros (k & Hk & Hek & H). replace k with (- e + (e + k))%Z in H at 1 by lia.
      rewrite (Z.pow_add_r 10 (- e) (e + k)) in H by lia. rewrite Z.mul_assoc in H.
      apply Z.mul_le_mono_pos_r in H; [exact H|]. apply Z.pow_pos_nonneg; lia.
Qed.

Definition no_digit (s : string) : Prop := forall c s', s = String c s' -> is_dig c = false.
Definition digits_only (s : string) : Prop := Forall digit (list_ascii_of_string s).
Definition dv (v : Z) (s : string) : Z := fold_left (fun z c => z * 10 + (Z.of_N (N_of_ascii c) - 48))%Z (list_ascii_of_string s) v.

Lemma digit_is : forall c, is_dig c = true <-> digit c.
Proof. intros c. unfold is_dig, digit, within. apply N_in_true. Qed.

Lemma digits_run : forall ds r n v, digits_only ds -> no_digit r ->
  digits n v (ds ++ r) = ((n + Z.of_nat (String.length ds))%Z, dv v ds, r).
Proof.
  induction ds as [|c ds IH]; intros r n v D N.
  - cbn [append String.length]. replace (n + Z.of_nat 0)%Z with n by lia. unfold dv. cbn [list_ascii_of_string fold_left].
    destruct r as [|c r]; [reflexivity|]. cbn [digits]. now rewrite (N c r eq_refl).
  - unfold digits_only in D. cbn [list_ascii_of_string] in D. inversion D as [|c' l Hc Hds]. subst c' l.
    cbn [append digits]. rewrite (proj2 (digit_is c) Hc). rewrite IH by assumption.
    unfold dv. cbn [list_ascii_of_string fold_left String.length]. f_equal. f_equal; [lia|].
    f_equal. unfold digit, within in Hc. lia.
Qed.

Lemma digits_split : forall s, exists ds r, s = ds ++ r /\ digits_only ds /\ no_digit r.
Proof.
  induction s as [|c s (ds & r & -> & D & N)].
  - exists "", "". split; [reflexivity|]. split; [constructor|]. intros c s' H. discriminate H.
  - destruct (is_dig c) eqn:E.
    + exists (String c ds), r. split; [reflexivity|]. split; [constructor; [now apply digit_is|exact D]|exact N].
    + exists "", (String c (ds ++ r)). split; [reflexivity|]. split; [constructor|]. intros c' s' H. injection H as <- _. exact E.
Qed.

Lemma dv_app : forall a b v, dv v (a ++ b) = dv (dv v a) b.
Proof.
  intros a b v. unfold dv. replace (list_ascii_of_string (a ++ b)) with (list_ascii_of_string a ++ list_ascii_of_string b)%list; [now rewrite fold_left_app|].
  induction a as [|c a IH]; [reflexivity|]. cbn [append list_ascii_of_string List.app]. now rewrite IH.
Qed.

Lemma next_is_some : forall c s r, next_is c s = Some r <-> s = String c r.
Proof.
  intros c s r. destruct s as [|d s]; cbn [next_is]; [split; discriminate|].
  destruct (Ascii.eqb d c) eqn:E.
  - apply Ascii.eqb_eq in E. subst d. split; intros H; injection H as ->; reflexivity.
  - split; [discriminate|]. intros H. injection H as -> _. now rewrite Ascii.eqb_refl in E.
Qed.
Lemma next_is_none : forall c s, next_is c s = None <-> forall r, s <> String c r.
Proof.
  intros c s. destruct (next_is c s) as [r|] eqn:E.
  - apply next_is_some in E. split; [discriminate|]. intros H. now destruct (H r).
  - split; [|reflexivity]. intros _ r H. apply next_is_some in H. congruence.
Qed.

(** What may not follow a number *)
Definition number_end (s : string) : Prop :=
  forall c s', s = String c s' -> is_dig c = false /\ c <> "."%char /\ c <> "e"%char /\ c <> "E"%char.

Lemma end_no_digit : forall s, number_end s -> no_digit s.
Proof. intros s H c s' E. now destruct (H c s' E). Qed.

Definition exponent_is (exponent : string) (e : Z) : Prop :=
  (exponent = "" /\ e = 0%Z) \/
  (exists mark plus ds, exponent = mark ++ plus ++ ds /\ (mark = "e" \/ mark = "E") /\ decimal ds /\
     ((plus = "" \/ plus = "+") /\ e = decimal_value ds \/ plus = "-" /\ e = (- decimal_value ds)%Z)).

Lemma decimal_run : forall ds r v, decimal ds -> no_digit r ->
  exists n, (0 < n)%Z /\ n = Z.of_nat (String.length ds) /\ digits 0 v (ds ++ r) = (n, dv v ds, r).
Proof.
  intros ds r v [N D] H. exists (Z.of_nat (String.length ds)). split; [destruct ds; [now destruct N|cbn [String.length]; lia]|].
  split; [reflexivity|]. rewrite (digits_run ds r 0 v D H). reflexivity.
Qed.

Lemma decimal_head : forall ds r, decimal ds -> exists c s, ds ++ r = String c s /\ digit c.
Proof.
  intros ds r [N D]. destruct ds as [|c ds]; [now destruct N|]. cbn [list_ascii_of_string] in D. inversion D as [|c' l Hc Hl]. exists c, (ds ++ r). now split.
Qed.

Lemma digit_not : forall c d, digit c -> is_dig d = false -> c <> d.
Proof. intros c d H N ->. apply digit_is in H. congruence. Qed.

Lemma read_exponent_complete : forall x e rest, exponent_is x e -> number_end rest -> read_exponent (x ++ rest) = Some (e, rest).
Proof.
  intros x e rest H N. destruct H as [(-> & ->)|(mark & plus & ds & -> & M & D & P)].
  - cbn [append]. destruct rest as [|c r]; [reflexivity|]. cbn [read_exponent]. destruct (N c r eq_refl) as (_ & _ & N1 & N2).
    apply Ascii.eqb_neq in N1, N2. now rewrite N1, N2.
  - rewrite !app_assoc_s. destruct (decimal_run ds rest 0 D (end_no_digit rest N)) as (n & Hn & _ & R).
    assert (T : (if Z.eqb n 0 then @None Z else Some 0%Z) = Some 0%Z) by (destruct (Z.eqb_spec n 0); [lia|reflexivity]).
    assert (G : forall (y : Z), (if Z.eqb n 0 then None else Some (y, rest)) = Some (y, rest)) by (intros y; destruct (Z.eqb_spec n 0); [lia|reflexivity]).
    assert (Mk : exists mc, mark = String mc "" /\ (Ascii.eqb mc "e" || Ascii.eqb mc "E")%bool = true) by (destruct M as [-> | ->]; eexists; split; reflexivity).
    destruct Mk as (mc & -> & Em). cbn [append read_exponent]. rewrite Em.
    destruct P as [[[-> | ->] ->]|[-> ->]].
    + cbn [append]. destruct (decimal_head ds rest D) as (c & s & E & Hc).
      rewrite (proj2 (next_is_none "-" (ds ++ rest))); [|intros r X; rewrite E in X; injection X as -> _; now apply (digit_not "-" "-" Hc)].
      rewrite (proj2 (next_is_none "+" (ds ++ rest))); [|intros r X; rewrite E in X; injection X as -> _; now apply (digit_not "+" "+" Hc)].
      cbv beta iota. rewrite R. apply G.
    + cbn [append next_is]. change (Ascii.eqb "+" "-") with false. change (Ascii.eqb "+" "+") with true. cbv beta iota. rewrite R. apply G.
    + cbn [append next_is]. change (Ascii.eqb "-" "-") with true. cbv beta iota. rewrite R. apply G.
Qed.

Lemma read_exponent_sound : forall s e r, read_exponent s = Some (e, r) -> exists x, s = x ++ r /\ exponent_is x e.
Proof.
  intros s e r H. destruct s as [|c s]; cbn [read_exponent] in H.
  - injection H as <- <-. exists "". split; [reflexivity|now left].
  - destruct (Ascii.eqb c "e" || Ascii.eqb c "E")%bool eqn:Em.
    2: { injection H as <- <-. exists "". split; [reflexivity|now left]. }
    assert (M : String c "" = "e" \/ String c "" = "E").
    { apply orb_true_iff in Em. rewrite !Ascii.eqb_eq in Em. destruct Em as [-> | ->]; [now left|now right]. }
    assert (Main : forall plus s2 (neg : bool), s = plus ++ s2 -> (if neg then plus = "-" else plus = "" \/ plus = "+") ->
       (let '(n, e, s3) := digits 0 0 s2 in if Z.eqb n 0 then None else Some (if neg then Z.opp e else e, s3)) = Some (e, r) ->
       exists x, String c s = x ++ r /\ exponent_is x e).
    { intros plus s2 neg Es Hp G. destruct (digits_split s2) as (ds & r' & -> & D & N). rewrite (digits_run ds r' 0 0 D N) in G. cbv beta iota in G.
      destruct (Z.eqb_spec (0 + Z.of_nat (String.length ds)) 0) as [Z0|Z0]; [discriminate G|]. injection G as G1 G2. subst r'.
      exists (String c "" ++ plus ++ ds). split; [rewrite !app_assoc_s; cbn [append]; now rewrite Es|]. right.
      exists (String c ""), plus, ds. split; [reflexivity|]. split; [exact M|]. split; [split; [intros ->; now apply Z0|exact D]|].
      destruct neg; subst e; [right|left]; (split; [exact Hp|reflexivity]). }
    destruct (next_is "-" s) as [s2|] eqn:E1.
    + apply next_is_some in E1. apply (Main "-" s2 true); [exact E1|reflexivity|exact H].
    + destruct (next_is "+" s) as [s2|] eqn:E2.
      * apply next_is_some in E2. apply (Main "+" s2 false); [exact E2|now right|exact H].
      * apply (Main "" s false); [reflexivity|now left|exact H].
Qed.

Definition frac_is (point frac : string) : Prop := (point = "" /\ frac = "") \/ (point = "." /\ decimal frac).

Lemma exponent_head : forall x e rest, exponent_is x e -> number_end rest -> no_digit (x ++ rest) /\ forall r, x ++ rest <> String "." r.
Proof.
  intros x e rest H N. destruct H as [(-> & ->)|(mark & plus & ds & -> & M & _)].
  - cbn [append]. split; [now apply end_no_digit|]. intros r ->. destruct (N "."%char r eq_refl) as (_ & X & _). now apply X.
  - destruct M as [-> | ->]; cbn [append]; (split; [intros c s' E; injection E as <- _; reflexivity|intros r; discriminate]).
Qed.

Lemma read_number_complete : forall t m e rest, number t m e -> number_end rest -> read_number (t ++ rest) = Some (overflows m e, rest).
Proof.
  intros t m e rest H N. destruct H as [sign whole point frac x e Hs Hw Hz Hf Hx].
  fold (frac_is point frac) in Hf. fold (exponent_is x e) in Hx.
  destruct (exponent_head x e rest Hx N) as [X1 X2]. pose proof (read_exponent_complete x e rest Hx N) as RX.
  set (after := x ++ rest) in *.
  assert (T1 : no_digit (point ++ frac ++ after)).
  { destruct Hf as [(-> & ->)|(-> & Hf)]; [exact X1|]. cbn [append]. intros c s' E. injection E as <- _. reflexivity. }
  assert (FR : forall v, match next_is "." (point ++ frac ++ after) with
                  | Some s3 => let '(n, m', s4) := digits 0 v s3 in if Z.eqb n 0 then None else Some (n, m', s4)
                  | None => Some (0%Z, v, point ++ frac ++ after)
                  end = Some (Z.of_nat (String.length frac), dv v frac, after)).
  { intros v. destruct Hf as [(-> & ->)|(-> & Hf)].
    - cbn [append]. rewrite (proj2 (next_is_none "." after) X2). reflexivity.
    - rewrite (proj2 (next_is_some "." ("." ++ frac ++ after) (frac ++ after)) eq_refl).
      destruct (decimal_run frac after v Hf X1) as (n & Hn & -> & ->). destruct (Z.eqb_spec (Z.of_nat (String.length frac)) 0); [lia|reflexivity]. }
  set (tail := point ++ frac ++ after) in *.
  assert (Shape : (sign ++ whole ++ point ++ frac ++ x) ++ rest = sign ++ whole ++ tail) by (rewrite !app_assoc_s; reflexivity).
  rewrite Shape. unfold read_number.
  assert (S1 : match next_is "-" (sign ++ whole ++ tail) with Some s1 => s1 | None => sign ++ whole ++ tail end = whole ++ tail).
  { destruct Hs as [-> | ->].
    - cbn [append]. rewrite (proj2 (next_is_none "-" (whole ++ tail))); [reflexivity|]. intros r E.
      destruct (decimal_head whole tail Hw) as (c & s & E' & Hc). rewrite E' in E. injection E as -> _. now apply (digit_not "-" "-" Hc).
    - rewrite (proj2 (next_is_some "-" ("-" ++ whole ++ tail) (whole ++ tail)) eq_refl). reflexivity. }
  rewrite S1.
  assert (W : match next_is "0" (whole ++ tail) with
               | Some s2 => Some (0%Z, s2)
               | None => let '(n, m, s2) := digits 0 0 (whole ++ tail) in if Z.eqb n 0 then None else Some (m, s2)
               end = Some (dv 0 whole, tail)).
  { destruct Hz as [-> |Hz].
    - rewrite (proj2 (next_is_some "0" ("0" ++ tail) tail) eq_refl). reflexivity.
    - rewrite (proj2 (next_is_none "0" (whole ++ tail))).
      + destruct (decimal_run whole tail 0 Hw T1) as (n & Hn & _ & ->). destruct (Z.eqb_spec n 0); [lia|reflexivity].
      + intros r E. destruct whole as [|c w]; [now destruct Hw as [Hw _]|]. cbn [append] in E. injection E as -> _. exact (Hz w eq_refl). }
  rewrite W, FR, RX. unfold decimal_value. fold (dv 0 (whole ++ frac)). rewrite dv_app. reflexivity.
Qed.

Lemma read_number_sound : forall s b r, read_number s = Some (b, r) -> exists t m e, s = t ++ r /\ number t m e /\ b = overflows m e.
Proof.
  intros s b r H. unfold read_number in H.
  assert (exists sign s1, s = sign ++ s1 /\ (sign = "" \/ sign = "-") /\ match next_is "-" s with Some s1 => s1 | None => s end = s1) as (sign & s1 & Es & Hs & E1).
  { destruct (next_is "-" s) as [s1|] eqn:E; [apply next_is_some in E; exists "-", s1|exists "", s]; (split; [|split; [|reflexivity]]); auto. }
  rewrite E1 in H. clear E1.
  destruct (match next_is "0" s1 with
               | Some s2 => Some (0%Z, s2)
               | None => let '(n, m, s2) := digits 0 0 s1 in if Z.eqb n 0 then None else Some (m, s2)
               end) as [[m s2]|] eqn:W; [|discriminate H].
  assert (exists whole, s1 = whole ++ s2 /\ decimal whole /\ (whole = "0" \/ forall s, whole <> "0" ++ s) /\ m = dv 0 whole) as (whole & Ew & Hw & Hz & ->).
  { destruct (next_is "0" s1) as [s2'|] eqn:E.
    - injection W as <- <-. apply next_is_some in E. exists "0". split; [exact E|]. split; [split; [discriminate|]|split; [now left|reflexivity]].
      constructor; [unfold digit, within; cbn; lia|constructor].
    - destruct (digits_split s1) as (ds & r' & -> & D & N). rewrite (digits_run ds r' 0 0 D N) in W. cbv beta iota in W.
      destruct (Z.eqb_spec (0 + Z.of_nat (String.length ds)) 0) as [Z0|Z0]; [discriminate W|]. injection W as <- <-.
      exists ds. split; [reflexivity|]. split; [split; [intros ->; now apply Z0|exact D]|]. split; [|reflexivity]. right. intros q ->.
      apply (proj1 (next_is_none "0" _) E (q ++ r')). reflexivity. }
  destruct (match next_is "." s2 with
                  | Some s3 => let '(n, m', s4) := digits 0 (dv 0 whole) s3 in if Z.eqb n 0 then None else Some (n, m', s4)
                  | None => Some (0%Z, dv 0 whole, s2)
                  end) as [[[n m'] s4]|] eqn:F; [|discriminate H].
  assert (exists point frac, s2 = point ++ frac ++ s4 /\ frac_is point frac /\ n = Z.of_nat (String.length frac) /\ m' = dv (dv 0 whole) frac) as (point & frac & Ef & Hf & -> & ->).
  { destruct (next_is "." s2) as [s3|] eqn:E.
    - apply next_is_some in E. destruct (digits_split s3) as (ds & r' & -> & D & N). rewrite (digits_run ds r' 0 _ D N) in F. cbv beta iota in F.
      destruct (Z.eqb_spec (0 + Z.of_nat (String.length ds)) 0) as [Z0|Z0]; [discriminate F|]. injection F as <- <- <-.
      exists ".", ds. split; [exact E|]. split; [right; split; [reflexivity|split; [intros ->; now apply Z0|exact D]]|]. split; [lia|reflexivity].
    - injection F as <- <- <-. exists "", "". split; [reflexivity|]. split; [now left|]. split; reflexivity. }
  destruct (read_exponent s4) as [[e s5]|] eqn:X; [|discriminate H]. injection H as <- <-.
  apply read_exponent_sound in X. destruct X as (x & Ex & Hx).
  exists (sign ++ whole ++ point ++ frac ++ x), (decimal_value (whole ++ frac)), (e - Z.of_nat (String.length frac))%Z.
  split; [rewrite !app_assoc_s; now rewrite Es, Ew, Ef, Ex|]. split; [constructor; assumption|].
  unfold decimal_value. fold (dv 0 (whole ++ frac)). now rewrite dv_app.
Qed.
