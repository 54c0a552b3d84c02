(** Lemmas for Thm_Tls. *)
From Coq Require Import String Ascii List Bool ZArith NArith Lia Arith.
From Verif Require Import GoStr Tls TlsSpec.
Import ListNotations.
Local Open Scope string_scope.

(** * Serial numbers *)

Lemma hex_digit_value : forall n, (n < 16)%N -> hex_value1 (hex_digit n) = Some n.
Proof.
  intros n H. unfold hex_digit, hex_value1.
  assert (E : forall m, (m < 256)%N -> N_of_ascii (ascii_of_N m) = m) by (intros m Hm; now apply N_ascii_embedding).
  destruct (N.ltb_spec n 10) as [Hn|Hn]; rewrite E by lia.
  - replace (48 <=? n + 48)%N with true by (symmetry; apply N.leb_le; lia).
    replace (n + 48 <=? 57)%N with true by (symmetry; apply N.leb_le; lia). cbn [andb]. f_equal. lia.
  - replace (n + 55 <=? 57)%N with false by (symmetry; apply N.leb_gt; lia). rewrite andb_false_r.
    replace (65 <=? n + 55)%N with true by (symmetry; apply N.leb_le; lia).
    replace (n + 55 <=? 70)%N with true by (symmetry; apply N.leb_le; lia). cbn [andb]. f_equal. lia.
Qed.

Lemma hex_value_app : forall a b acc, hex_value acc (a ++ b) = match hex_value acc a with Some n => hex_value n b | None => None end.
Proof.
  induction a as [|c a IH]; intros b acc; cbn [append hex_value]; [reflexivity|].
  destruct (hex_value1 c); [apply IH|reflexivity].
Qed.

Definition digits_only (s : string) : Prop := forall a c b, s = a ++ String c b -> exists d, hex_value1 c = Some d.

Lemma hex_loop_app : forall f n acc, hex_loop f n acc = hex_loop f n "" ++ acc.
Proof.
  induction f as [|f IH]; intros n acc; cbn [hex_loop]; [reflexivity|].
  destruct (N.eqb (n / 16) 0); [reflexivity|]. rewrite IH, (IH _ (String _ "")).
  now rewrite append_assoc.
Qed.

Lemma size_div16 : forall n f, (n < 2 ^ N.of_nat (S f))%N -> (n / 16 < 2 ^ N.of_nat f)%N.
Proof.
  intros n f H. apply N.div_lt_upper_bound; [lia|]. rewrite Nnat.Nat2N.inj_succ, N.pow_succ_r' in H. lia.
Qed.

(** [hex] gives the digits of the number: value, first digit, length. *)
Lemma hex_loop_spec : forall f n, (n < 2 ^ N.of_nat f)%N -> f <> 0 ->
  hex_value 0 (hex_loop f n "") = Some n /\
  (exists d, has_digits n d /\ String.length (hex_loop f n "") = d) /\
  exists c s, hex_loop f n "" = String c s /\ (n = 0%N \/ hex_value1 c <> Some 0%N).
Proof.
  induction f as [|f IH]; intros n H Hf; [contradiction|]. cbn [hex_loop].
  pose proof (N.mod_lt n 16 ltac:(lia)) as Hm. pose proof (N.div_mod n 16 ltac:(lia)) as Hd.
  destruct (N.eqb_spec (n / 16) 0) as [E|E].
  - cbn [hex_value String.length]. rewrite hex_digit_value by assumption. rewrite E in Hd.
    split; [f_equal; lia|]. split.
    + exists 1. split; [|reflexivity]. destruct (N.eq_dec n 0) as [->|Hn]; [left; auto|right].
      split; [lia|]. cbn. lia.
    + exists (hex_digit (n mod 16)), "". split; [reflexivity|]. rewrite hex_digit_value by assumption.
      destruct (N.eq_dec n 0) as [->|Hn]; [now left|right]. intros X. injection X as X. lia.
  - rewrite hex_loop_app.
    assert (Hlt : (n / 16 < 2 ^ N.of_nat f)%N) by (apply size_div16; exact H).
    assert (Hf' : f <> 0) by (intros ->; cbn in Hlt; lia).
    destruct (IH (n / 16)%N Hlt Hf') as [H1 [[d [H2 H3]] [c [s [H4 H5]]]]].
    split; [|split].
    + rewrite hex_value_app, H1. cbn [hex_value]. rewrite hex_digit_value by assumption. f_equal. lia.
    + exists (S d). split; [|rewrite length_append, H3; cbn [String.length]; lia].
      right. split; [lia|]. destruct H2 as [[H2 _]|[H2 H6]]; [contradiction|].
      replace (S d - 1) with (S (d - 1)) by lia. rewrite (Nnat.Nat2N.inj_succ (d - 1)), (Nnat.Nat2N.inj_succ d), !N.pow_succ_r'.
      clear IH H H1 Hlt H4 H5. remember (16 ^ N.of_nat (d - 1))%N as a eqn:Ea. remember (16 ^ N.of_nat d)%N as b eqn:Eb. clear Ea Eb.
      clear H3 E. revert Hm Hd H6. generalize (n / 16)%N (n mod 16)%N. intros q r Hr Hn Hq. lia.
    + rewrite H4. exists c, (s ++ String (hex_digit (n mod 16)) ""). split; [reflexivity|]. destruct H5 as [H5|H5]; [contradiction|now right].
Qed.

Lemma hex_spec : forall n, hex_value 0 (hex n) = Some n /\
  (exists d, has_digits n d /\ String.length (hex n) = d) /\
  exists c s, hex n = String c s /\ (n = 0%N \/ hex_value1 c <> Some 0%N).
Proof.
  intros n. unfold hex. apply hex_loop_spec; [|discriminate].
  assert (H : (n < 2 ^ N.of_nat (N.size_nat n))%N).
  { rewrite <- (Nnat.N2Nat.id (N.of_nat (N.size_nat n))), Nnat.Nat2N.id.
    destruct n as [|p]; [cbn; lia|]. cbn [N.size_nat]. 
    assert (Hp : forall p, (N.pos p < 2 ^ N.of_nat (Pos.size_nat p))%N).
    { clear. induction p as [p IH|p IH|]; cbn [Pos.size_nat]; rewrite ?Nnat.Nat2N.inj_succ, ?N.pow_succ_r'; try lia. }
    apply Hp. }
  rewrite Nnat.Nat2N.inj_succ, N.pow_succ_r'. lia.
Qed.

Lemma has_digits_unique : forall n d e, has_digits n d -> has_digits n e -> d = e.
Proof.
  intros n d e H1 H2. destruct H1 as [[-> ->]|[H1 H3]], H2 as [[H2 ->]|[H2 H4]]; try lia.
  - destruct (Nat.lt_trichotomy d e) as [H|[H|H]]; [|assumption|]; exfalso; apply (N.lt_irrefl n).
    + eapply N.lt_le_trans; [apply H3|]. eapply N.le_trans; [|apply H4]. apply N.pow_le_mono_r; lia.
    + eapply N.lt_le_trans; [apply H4|]. eapply N.le_trans; [|apply H3]. apply N.pow_le_mono_r; lia.
Qed.

(** Strings of hexadecimal digits. *)
Lemma digits_tail : forall c s acc n, hex_value acc (String c s) = Some n -> exists d, hex_value1 c = Some d /\ hex_value (acc * 16 + d) s = Some n.
Proof. intros c s acc n H. cbn [hex_value] in H. destruct (hex_value1 c) as [d|]; [now exists d|discriminate]. Qed.

Lemma digits_any : forall s acc n acc', hex_value acc s = Some n -> exists m, hex_value acc' s = Some m.
Proof.
  induction s as [|c s IH]; intros acc n acc' H; [now exists acc'|].
  apply digits_tail in H. destruct H as [d [H1 H2]]. cbn [hex_value]. rewrite H1. eapply IH. exact H2.
Qed.

Lemma pair_ok : forall a b d e, hex_value1 a = Some d -> hex_value1 b = Some e -> pair_of_digits (String a (String b "")).
Proof. intros a b d e Ha Hb. split; [reflexivity|]. cbn [hex_value]. rewrite Ha, Hb. eexists. reflexivity. Qed.

Lemma concat_cons : forall a b s ps, String.concat "" (String a (String b s) :: ps) = String a (String b (s ++ String.concat "" ps)).
Proof. intros a b s ps. cbn [String.concat append]. destruct ps; cbn [append]; [now rewrite append_nil_r|reflexivity]. Qed.

Lemma join_cons : forall a b p ps, join "-" (String a (String b "") :: p :: ps) = String a (String b (String "-" (join "-" (p :: ps)))).
Proof. reflexivity. Qed.

(** The dashed form of a digit string of even length. *)
Lemma dash_even : forall m s acc n, String.length s = 2 * S m -> hex_value acc s = Some n ->
  exists t ps, dash s = Some t /\ t = join "-" ps /\ ps <> [] /\ Forall pair_of_digits ps /\ String.concat "" ps = s /\ length ps = S m.
Proof.
  induction m as [|m IH]; intros s acc n Hl Hv.
  - destruct s as [|a [|b [|]]]; cbn [String.length] in Hl; try lia.
    apply digits_tail in Hv. destruct Hv as [d [Ha Hv]]. apply digits_tail in Hv. destruct Hv as [e [Hb _]].
    exists (String a (String b "")), [String a (String b "")]. repeat split; try discriminate.
    constructor; [eapply pair_ok; eassumption|constructor].
  - destruct s as [|a [|b s]]; cbn [String.length] in Hl; try lia.
    apply digits_tail in Hv. destruct Hv as [d [Ha Hv]]. apply digits_tail in Hv. destruct Hv as [e [Hb Hv]].
    destruct (IH s _ _ ltac:(lia) Hv) as [t [ps [H1 [H2 [H3 [H4 [H5 H6]]]]]]].
    destruct s as [|c s]; [cbn in Hl; lia|].
    exists (String a (String b (String "-" t))), (String a (String b "") :: ps).
    split; [cbn [dash]; cbn [dash] in H1; rewrite H1; reflexivity|].
    split; [destruct ps as [|p ps]; [contradiction|]; rewrite join_cons, <- H2; reflexivity|].
    split; [discriminate|]. split; [constructor; [eapply pair_ok; eassumption|assumption]|].
    split; [rewrite concat_cons, H5; reflexivity|]. cbn [length]. lia.
Qed.

Lemma dash_odd : forall m s, String.length s = 2 * m + 1 -> dash s = None.
Proof.
  induction m as [|m IH]; intros s Hl.
  - destruct s as [|a [|b s]]; cbn [String.length] in Hl; try lia. reflexivity.
  - destruct s as [|a [|b s]]; cbn [String.length] in Hl; try lia.
    destruct s as [|c s]; [cbn in Hl; lia|]. cbn [dash]. assert (H := IH (String c s) ltac:(lia)). cbn [dash] in H. rewrite H. reflexivity.
Qed.

(** The digits as printed: padded or not. *)
Lemma show_even : forall s serial m, String.length s = 2 * S m -> hex_value 0 s = Some serial ->
  (forall c d r, s = String c (String d r) -> hex_value1 c = Some 0%N -> hex_value1 d = Some 0%N -> r = "") ->
  exists t, (if Nat.ltb 2 (String.length s) then dash s else Some s) = Some t /\ shows t serial.
Proof.
  intros s serial m Hl Hv Hz. destruct (dash_even m s _ _ Hl Hv) as [t [ps [H1 [H2 [H3 [H4 [H5 H6]]]]]]].
  assert (Hs : shows t serial).
  { exists ps. repeat (split; [assumption|]). rewrite H5. split; [assumption|].
    intros Hh. destruct ps as [|p ps]; [contradiction|]. cbn [hd] in Hh. subst p.
    assert (E : s = String "0" (String "0" (String.concat "" ps))) by (rewrite <- H5; apply (concat_cons "0" "0" "" ps)).
    specialize (Hz _ _ _ E eq_refl eq_refl). rewrite E, Hz in Hl. cbn [String.length] in Hl.
    cbn [length] in H6. destruct ps; [reflexivity|cbn [length] in H6; lia]. }
  destruct (Nat.ltb_spec 2 (String.length s)) as [Hlt|Hge].
  - exists t. auto.
  - exists s. split; [reflexivity|]. destruct s as [|a [|b [|]]]; cbn [String.length] in *; try lia.
    cbn [dash] in H1. injection H1 as <-. exact Hs.
Qed.

Definition unprintable (d : nat) : Prop := Nat.odd d = true /\ 3 <= d /\ d <> 31.

Lemma even_half : forall d, Nat.even d = true -> 1 <= d -> exists m, d = 2 * S m.
Proof. intros d H Hd. apply Nat.even_spec in H. destruct H as [m ->]. exists (m - 1). lia. Qed.

Lemma format_serial_spec : forall n d, has_digits n d ->
  (unprintable d -> format_serial n = None) /\ (~ unprintable d -> exists t, format_serial n = Some t /\ shows t n).
Proof.
  intros n d Hd. destruct (hex_spec n) as [H1 [[d' [H2 H3]] [c [s [H4 H5]]]]].
  assert (Hdd : d' = d) by (exact (has_digits_unique n d' d H2 Hd)). rewrite Hdd in H3. clear Hdd H2 d'.
  unfold format_serial. cbv zeta. rewrite H3. split.
  - intros [Ho [Hge Hne]]. replace (Nat.eqb d 1) with false by (symmetry; apply Nat.eqb_neq; lia).
    replace (Nat.eqb d 31) with false by (symmetry; apply Nat.eqb_neq; lia). cbn [orb]. rewrite H3.
    destruct (Nat.ltb_spec 2 d); [|lia]. apply Nat.odd_spec in Ho. destruct Ho as [m Ho]. apply (dash_odd m). lia.
  - intros Hn. destruct (Nat.eqb d 1 || Nat.eqb d 31) eqn:E.
    + assert (Hodd : d = 1 \/ d = 31) by (apply orb_true_iff in E; rewrite !Nat.eqb_eq in E; exact E).
      assert (Hl : exists m, String.length ("0" ++ hex n) = 2 * S m).
      { change ("0" ++ hex n) with (String "0" (hex n)). cbn [String.length]. rewrite H3. destruct Hodd as [-> | ->]; [exists 0|exists 15]; reflexivity. }
      destruct Hl as [m Hl]. eapply show_even; [exact Hl| |].
      * change ("0" ++ hex n) with (String "0" (hex n)). cbn [hex_value]. exact H1.
      * intros x y r Heq Hx Hy. change ("0" ++ hex n) with (String "0" (hex n)) in Heq. injection Heq as <- Heq.
        rewrite H4 in Heq. injection Heq as <- <-. destruct H5 as [->|H5]; [|contradiction].
        vm_compute in H4. injection H4 as _ <-. reflexivity.
    + apply orb_false_iff in E. rewrite !Nat.eqb_neq in E. destruct E as [E1 E2].
      assert (Hev : Nat.even d = true).
      { rewrite <- Nat.negb_odd. destruct (Nat.odd d) eqn:Ho; [|reflexivity]. exfalso. apply Hn. split; [assumption|].
        assert (1 <= d) by (destruct Hd as [[_ ->]|[? _]]; lia). split; [|assumption].
        destruct d as [|[|[|]]]; try lia; discriminate. }
      destruct (even_half d Hev) as [m Hm]; [destruct Hd as [[_ ->]|[? _]]; lia|].
      destruct (show_even (hex n) n m) as [t [Ht1 Ht2]]; [lia|assumption| |].
      * intros x y r Heq Hx Hy. rewrite H4 in Heq. injection Heq as <- ->. destruct H5 as [->|H5]; [|contradiction].
        vm_compute in H4. discriminate.
      * rewrite H3 in Ht1. rewrite H3. exists t. split; assumption.
Qed.

Lemma digits_exist : forall n, exists d, has_digits n d.
Proof. intros n. destruct (hex_spec n) as [_ [[d [H _]] _]]. now exists d. Qed.

Lemma unprintable_dec : forall d, unprintable d \/ ~ unprintable d.
Proof.
  intros d. unfold unprintable. destruct (Nat.odd d); [|right; intros [H _]; discriminate].
  destruct (le_dec 3 d), (Nat.eq_dec d 31); tauto.
Qed.

Lemma format_serial_panics : forall n, format_serial n = None <-> exists d, has_digits n d /\ Nat.odd d = true /\ 3 <= d /\ d <> 31.
Proof.
  intros n. split.
  - intros H. destruct (digits_exist n) as [d Hd]. exists d. split; [assumption|].
    destruct (unprintable_dec d) as [Hu|Hu]; [exact Hu|]. exfalso.
    destruct (format_serial_spec n d Hd) as [_ Hs]. destruct (Hs Hu) as [t [Ht _]]. congruence.
  - intros [d [Hd Hu]]. now apply (format_serial_spec n d Hd).
Qed.

Lemma format_serial_shows : forall n t, format_serial n = Some t -> shows t n.
Proof.
  intros n t H. destruct (digits_exist n) as [d Hd]. destruct (format_serial_spec n d Hd) as [H1 H2].
  destruct (unprintable_dec d) as [Hu|Hu]; [rewrite (H1 Hu) in H; discriminate|].
  destruct (H2 Hu) as [t' [Ht Hs]]. congruence.
Qed.

(** * The earliest certificate *)

Lemma scan_links_spec : forall chain i links si e l' si',
  scan_links i chain links si e = (l', si') -> i = length links ->
  l' = (links ++ map new_link chain)%list /\
  ((si' = si /\ forall m, In m (map new_link chain) -> (e <= lk_remaining m)%Z) \/
   (i <= si' < i + length chain /\ exists l, nth_error (map new_link chain) (si' - i) = Some l /\ (lk_remaining l < e)%Z /\
     (forall j m, nth_error (map new_link chain) j = Some m -> (lk_remaining l <= lk_remaining m)%Z) /\
     (forall j m, nth_error (map new_link chain) j = Some m -> j < si' - i -> (lk_remaining l < lk_remaining m)%Z))).
Proof.
  induction chain as [|c chain IH]; intros i links si e l' si' H Hi; cbn [scan_links map] in *.
  - injection H as <- <-. rewrite app_nil_r. split; [reflexivity|]. left. split; [reflexivity|]. intros m [].
  - assert (Hi' : S i = length (links ++ [new_link c])%list) by (rewrite app_length; cbn; lia).
    destruct (Z.ltb_spec (lk_remaining (new_link c)) e) as [Hlt|Hge].
    + destruct (IH _ _ _ _ _ _ H Hi') as [H1 H2]. split; [rewrite H1, <- app_assoc; reflexivity|]. right.
      destruct H2 as [[-> H2]|[H2 [l [H3 [H4 [H5 H6]]]]]].
      * split; [cbn [length]; lia|]. exists (new_link c). rewrite Nat.sub_diag. split; [reflexivity|]. split; [assumption|]. split.
        -- intros [|j] m Hm; cbn [nth_error] in Hm; [injection Hm as <-; lia|]. apply H2. eapply nth_error_In. exact Hm.
        -- intros j m _ Hj. lia.
      * split; [cbn [length]; lia|]. exists l. replace (si' - i) with (S (si' - S i)) by lia. cbn [nth_error].
        split; [assumption|]. split; [lia|]. split.
        -- intros [|j] m Hm; cbn [nth_error] in Hm; [injection Hm as <-; lia|]. eapply H5. exact Hm.
        -- intros [|j] m Hm Hj; cbn [nth_error] in Hm; [injection Hm as <-; lia|]. eapply H6; [exact Hm|lia].
    + destruct (IH _ _ _ _ _ _ H Hi') as [H1 H2]. split; [rewrite H1, <- app_assoc; reflexivity|].
      destruct H2 as [[-> H2]|[H2 [l [H3 [H4 [H5 H6]]]]]].
      * left. split; [reflexivity|]. intros m [<-|Hm]; auto.
      * right. split; [cbn [length]; lia|]. exists l. replace (si' - i) with (S (si' - S i)) by lia. cbn [nth_error].
        split; [assumption|]. split; [assumption|]. split.
        -- intros [|j] m Hm; cbn [nth_error] in Hm; [injection Hm as <-; lia|]. eapply H5. exact Hm.
        -- intros [|j] m Hm Hj; cbn [nth_error] in Hm; [injection Hm as <-; lia|]. eapply H6; [exact Hm|lia].
Qed.

Definition flag_link (l : link) : link := Link (lk_cert l) (lk_remaining l) (lk_total l) (lk_browser l) true (lk_ca l).

Lemma flag_nth_spec : forall ls n, n < length ls -> exists ls', flag_nth n ls = Some ls' /\
  forall j, nth_error ls' j = if Nat.eqb n j then option_map flag_link (nth_error ls j) else nth_error ls j.
Proof.
  induction ls as [|l ls IH]; intros n Hn; cbn [length] in Hn; [lia|]. destruct n as [|n]; cbn [flag_nth].
  - eexists. split; [reflexivity|]. intros [|j]; reflexivity.
  - destruct (IH n ltac:(lia)) as [ls' [H1 H2]]. rewrite H1. cbn [option_map]. eexists. split; [reflexivity|].
    intros [|j]; cbn [nth_error Nat.eqb]; [reflexivity|apply H2].
Qed.

Lemma remaining_le : forall c, (lk_remaining (new_link c) <= int64_max)%Z.
Proof. intros [c now]. cbn [new_link lk_remaining]. unfold time_sub, int64_min, int64_max. lia. Qed.

Lemma parse_links_spec : forall chain, chain <> [] -> exists links i, parse_tls_links chain = Some links /\
  (forall j, nth_error links j = if Nat.eqb i j then option_map flag_link (nth_error (map new_link chain) j) else nth_error (map new_link chain) j) /\
  i < length chain /\ earliest_at (map new_link chain) i.
Proof.
  intros chain Hne. unfold parse_tls_links.
  destruct (scan_links 0 chain [] 0 int64_max) as [l si] eqn:E.
  destruct (scan_links_spec _ _ _ _ _ _ _ E eq_refl) as [H1 H2]. cbn [app] in H1. subst l.
  assert (Hsi : si < length chain /\ earliest_at (map new_link chain) si).
  { destruct H2 as [[-> H2]|[H2 [l [H3 [H4 [H5 H6]]]]]].
    - destruct chain as [|c chain]; [contradiction|]. split; [cbn; lia|].
      exists (new_link c). split; [reflexivity|]. split; [|intros j m _ Hj; lia].
      intros j m Hm. apply nth_error_In in Hm. specialize (H2 m Hm). pose proof (remaining_le c). lia.
    - split; [lia|]. rewrite Nat.sub_0_r in *. exists l. auto. }
  destruct Hsi as [Hs1 Hs2]. destruct (flag_nth_spec (map new_link chain) si) as [ls' [F1 F2]]; [rewrite map_length; exact Hs1|].
  exists ls', si. auto.
Qed.

Lemma flag_remaining : forall l, lk_remaining (flag_link l) = lk_remaining l.
Proof. reflexivity. Qed.

Lemma new_link_unflagged : forall c, lk_earliest (new_link c) = false.
Proof. intros [c now]. reflexivity. Qed.

(** C53 *)
Lemma earliest_flagged : forall chain, chain <> [] -> exists links i, parse_tls_links chain = Some links /\
  map lk_cert links = map fst chain /\ earliest_at links i /\ forall j, flagged_at links j <-> j = i.
Proof.
  intros chain Hne. destruct (parse_links_spec chain Hne) as [links [i [H1 [H2 [H3 H4]]]]].
  exists links, i. split; [assumption|].
  assert (Hlk : forall j, option_map lk_cert (nth_error links j) = option_map fst (nth_error chain j)).
  { intros j. rewrite H2, nth_error_map. destruct (Nat.eqb i j); destruct (nth_error chain j) as [[c now]|]; reflexivity. }
  assert (Hlr : forall j m, nth_error links j = Some m -> exists m', nth_error (map new_link chain) j = Some m' /\ lk_remaining m = lk_remaining m').
  { intros j m Hm. rewrite H2 in Hm. destruct (Nat.eqb i j); [|now exists m].
    destruct (nth_error (map new_link chain) j) as [m'|]; [|discriminate]. injection Hm as <-. now exists m'. }
  split; [|split].
  - clear - Hlk. revert chain Hlk. induction links as [|l links IH]; intros [|c chain] H; cbn [map].
    + reflexivity.
    + specialize (H 0). discriminate.
    + specialize (H 0). discriminate.
    + f_equal; [specialize (H 0); cbn in H; congruence|]. apply IH. intros j. apply (H (S j)).
  - destruct H4 as [l [L1 [L2 L3]]]. exists (flag_link l). split; [rewrite H2, Nat.eqb_refl, L1; reflexivity|]. split.
    + intros j m Hm. destruct (Hlr _ _ Hm) as [m' [Hm1 Hm2]]. rewrite Hm2. cbn [flag_link lk_remaining]. eapply L2. exact Hm1.
    + intros j m Hm Hj. destruct (Hlr _ _ Hm) as [m' [Hm1 Hm2]]. rewrite Hm2. cbn [flag_link lk_remaining]. eapply L3; eassumption.
  - intros j. split.
    + intros [l [Hl1 Hl2]]. rewrite H2 in Hl1. destruct (Nat.eqb_spec i j) as [E|E]; [congruence|].
      rewrite nth_error_map in Hl1. destruct (nth_error chain j) as [c|]; [|discriminate]. injection Hl1 as <-.
      rewrite new_link_unflagged in Hl2. discriminate.
    + intros ->. destruct H4 as [l [L1 _]]. exists (flag_link l). split; [rewrite H2, Nat.eqb_refl, L1; reflexivity|reflexivity].
Qed.

(** The flagged certificate really expires first, if the loop takes less than a second, dates are whole
    seconds and within 292 years. *)
Lemma earliest_expires_first : forall chain links i t0 c now, parse_tls_links chain = Some links -> flagged_at links i -> nth_error chain i = Some (c, now) ->
  (forall d n, In (d, n) chain -> (t0 <= n < t0 + 1000000000)%Z /\ (exists s, ct_not_after d = s * 1000000000)%Z /\ (int64_min <= ct_not_after d - n <= int64_max)%Z) ->
  forall d n, In (d, n) chain -> (ct_not_after c <= ct_not_after d)%Z.
Proof.
  intros chain links i t0 c now HP HF Hc Hall d n Hin.
  assert (Hne : chain <> []) by (intros ->; destruct i; discriminate).
  destruct (earliest_flagged chain Hne) as [links' [i' [E1 [_ [_ E4]]]]]. rewrite HP in E1. injection E1 as <-.
  destruct (parse_links_spec chain Hne) as [l2 [i2 [P1 [P2 [P3 [l [P4 [P5 P6]]]]]]]]. rewrite HP in P1. injection P1 as <-.
  assert (i2 = i).
  { apply E4 in HF. subst i'. apply E4. exists (flag_link l). split; [rewrite P2, Nat.eqb_refl, P4; reflexivity|reflexivity]. }
  subst i2. rewrite nth_error_map, Hc in P4. injection P4 as <-.
  apply In_nth_error in Hin. destruct Hin as [j Hj].
  assert (Hle := P5 j (new_link (d, n)) ltac:(rewrite nth_error_map, Hj; reflexivity)).
  destruct (Hall c now (nth_error_In _ _ Hc)) as [A1 [[s A2] A3]]. destruct (Hall d n (nth_error_In _ _ Hj)) as [B1 [[r B2] B3]].
  cbn [new_link lk_remaining] in Hle. unfold time_sub, int64_min, int64_max in *. lia.
Qed.

(** * Warnings *)

Lemma filter_one : forall (links : list link) i l, nth_error links i = Some l -> (forall j, flagged_at links j <-> j = i) -> filter lk_earliest links = [l].
Proof.
  induction links as [|m links IH]; intros i l Hl Hf; [destruct i; discriminate|].
  cbn [filter]. destruct (lk_earliest m) eqn:Em.
  - assert (0 = i) by (apply Hf; now exists m). subst i. cbn in Hl. injection Hl as ->. f_equal.
    destruct (filter lk_earliest links) as [|x r] eqn:E; [reflexivity|]. exfalso.
    assert (Hx : In x (filter lk_earliest links)) by (rewrite E; now left).
    apply filter_In in Hx. destruct Hx as [Hx1 Hx2]. apply In_nth_error in Hx1. destruct Hx1 as [j Hj].
    assert (S j = 0) by (apply Hf; exists x; split; assumption). discriminate.
  - destruct i as [|i].
    + exfalso. destruct (Hf 0) as [_ H]. destruct (H eq_refl) as [x [Hx1 Hx2]]. cbn in Hx1. injection Hx1 as <-. congruence.
    + apply (IH i); [exact Hl|]. intros j. split.
      * intros [x [Hx1 Hx2]]. assert (S j = S i) by (apply Hf; exists x; split; assumption). lia.
      * intros ->. destruct (Hf (S i)) as [_ H]. destruct (H eq_refl) as [x Hx]. exists x. exact Hx.
Qed.

Lemma event_right : forall chain links, parse_tls_links chain = Some links ->
  (forall l, In l links -> format_serial (ct_serial (lk_cert l)) <> None) ->
  exists events, log_cert_stats links = Some events /\ right_event links events.
Proof.
  intros chain links HP Hs.
  assert (Hne : chain <> []) by (intros ->; discriminate).
  destruct (earliest_flagged chain Hne) as [links' [i [E1 [_ [[l [E3 [E4 _]]] E5]]]]]. rewrite HP in E1. injection E1 as <-.
  unfold log_cert_stats. replace (forallb _ links) with true.
  2:{ symmetry. apply forallb_forall. intros x Hx. specialize (Hs x Hx). destruct (format_serial _); [reflexivity|contradiction]. }
  rewrite (filter_one links i l E3 E5). cbn [map]. eexists. split; [reflexivity|].
  exists (if Z.ltb (lk_remaining l) (30 * day) then Warn else Debug). split; [reflexivity|].
  change thirty_days with (30 * day)%Z. destruct (Z.ltb_spec (lk_remaining l) (30 * day)) as [H|H].
  - split; [|reflexivity]. intros _. exists l. split; [eapply nth_error_In; exact E3|assumption].
  - split; [discriminate|]. intros [m [Hm1 Hm2]]. exfalso. apply In_nth_error in Hm1. destruct Hm1 as [j Hj]. specialize (E4 _ _ Hj). lia.
Qed.

Lemma check_links : forall verify clock chain links, check_cert_chain verify clock chain = Checked links ->
  exists ts, parse_tls_links ts = Some links.
Proof.
  intros verify clock chain links H. unfold check_cert_chain in H.
  destruct chain as [|[leaf|] chain]; try discriminate.
  destruct (split_cert_pools _) as [pools|]; [|discriminate].
  destruct (verify leaf _) as [[|found ?]|]; [destruct (ct_dns leaf); discriminate| |discriminate].
  destruct (ct_dns leaf); [discriminate|].
  destruct (parse_tls_links _) as [ls|] eqn:E; [|discriminate]. injection H as <-. eexists. exact E.
Qed.

(** A day of the daemon. *)
Lemma day_right : forall verify clock chain links, check_cert_chain verify clock chain = Checked links ->
  (forall l, In l links -> format_serial (ct_serial (lk_cert l)) <> None) ->
  exists events, (forall rest, health_check (Checked links :: rest) = events :: health_check rest) /\ right_event links events.
Proof.
  intros verify clock chain links H Hs. destruct (check_links _ _ _ _ H) as [ts Hts].
  destruct (event_right _ _ Hts Hs) as [events [H1 H2]]. exists events. split; [|assumption].
  intros rest. cbn [health_check]. now rewrite H1.
Qed.

Lemma health_days : forall days, (forall d, In d days -> exists links, d = Checked links /\ (exists ts, parse_tls_links ts = Some links) /\
    forall l, In l links -> format_serial (ct_serial (lk_cert l)) <> None) ->
  Forall2 (fun d events => exists links, d = Checked links /\ right_event links events) days (health_check days).
Proof.
  induction days as [|d days IH]; intros H; [constructor|].
  destruct (H d (or_introl eq_refl)) as [links [-> [[ts Hts] Hs]]].
  destruct (event_right _ _ Hts Hs) as [events [H1 H2]]. cbn [health_check]. rewrite H1. constructor.
  - now exists links.
  - apply IH. intros d' Hd. apply H. now right.
Qed.

Lemma health_dead : forall before links after, log_cert_stats links = None ->
  length (health_check (before ++ Checked links :: after)) <= length before.
Proof.
  induction before as [|d before IH]; intros links after H; cbn [app health_check length].
  - rewrite H. apply le_n.
  - assert (IH' := IH links after H).
    destruct d as [ls| |].
    + destruct (log_cert_stats ls); cbn [length]; lia.
    + cbn [length]. lia.
    + cbn [length]. lia.
Qed.

(** * Trust roots *)

Lemma pools_spec : forall chain, exists inter root, split_cert_pools (map Some chain) = Some (inter, root) /\
  root = filter is_root chain /\ inter = filter (fun c => ct_ca c && negb (is_root c)) chain.
Proof.
  induction chain as [|c chain IH]; cbn [map split_cert_pools filter]; [now exists [], []|].
  destruct IH as [inter [root [H1 [H2 H3]]]]. rewrite H1. destruct (ct_ca c) eqn:Ec.
  - destruct (is_root c) eqn:Er; cbn [negb andb]; do 2 eexists; (split; [reflexivity|]); split; congruence.
  - unfold is_root at 1. rewrite Ec. cbn [andb]. do 2 eexists; (split; [reflexivity|]); split; assumption.
Qed.

Lemma is_root_iff : forall chain c, cn_decides chain -> In c chain -> (is_root c = true <-> self_issued c).
Proof.
  intros chain c H Hc. unfold is_root, self_issued. rewrite andb_true_iff, String.eqb_eq. split.
  - intros [H1 H2]. split; [assumption|]. now apply (H c Hc).
  - intros [H1 H2]. split; [assumption|]. now rewrite H2.
Qed.

Lemma pools_right : forall chain, cn_decides chain -> exists inter root, split_cert_pools (map Some chain) = Some (inter, root) /\
  (forall c, In c root <-> In c chain /\ self_issued c) /\ (forall c, In c inter <-> In c chain /\ subordinate c) /\
  vo_roots (verify_options_of (inter, root)) = (match root with [] => None | _ => Some root end) /\
  vo_inter (verify_options_of (inter, root)) = (match inter with [] => None | _ => Some inter end).
Proof.
  intros chain H. destruct (pools_spec chain) as [inter [root [H1 [H2 H3]]]]. exists inter, root. split; [assumption|].
  split; [|split; [|split; reflexivity]].
  - intros c. rewrite H2, filter_In. split; intros [A B]; (split; [assumption|]); now apply (is_root_iff chain).
  - intros c. rewrite H3, filter_In, andb_true_iff, negb_true_iff. unfold subordinate. split.
    + intros [A [B C]]. split; [assumption|]. split; [assumption|]. intros E.
      assert (is_root c = true); [|congruence]. apply (is_root_iff chain c H A). now split.
    + intros [A [B C]]. split; [assumption|]. split; [assumption|]. destruct (is_root c) eqn:E; [|reflexivity].
      apply (is_root_iff chain c H A) in E. destruct E. contradiction.
Qed.

(** Without any assumption on names: roots need equal common names. *)
Lemma pools_cn : forall chain inter root, split_cert_pools (map Some chain) = Some (inter, root) ->
  (forall c, In c root <-> In c chain /\ ct_ca c = true /\ cn (ct_issuer c) = cn (ct_subject c)) /\
  (forall c, In c inter <-> In c chain /\ ct_ca c = true /\ cn (ct_issuer c) <> cn (ct_subject c)).
Proof.
  intros chain inter root H. destruct (pools_spec chain) as [i [r [H1 [H2 H3]]]]. rewrite H in H1. injection H1 as <- <-.
  split; intros c; [rewrite H2|rewrite H3]; rewrite filter_In; unfold is_root; rewrite ?andb_true_iff, ?negb_true_iff, ?andb_false_iff, ?String.eqb_eq, ?String.eqb_neq.
  - tauto.
  - destruct (ct_ca c); intuition discriminate.
Qed.

(** * Cases *)

Definition second : Z := 1000000000.
Definition root_ca : cert := Cert 4097 true (Name "CA" "") (Name "CA" "") [] 0 (3000 * day).
Definition inter_ca : cert := Cert 4660 true (Name "CA" "") (Name "Sub" "") [] 0 (900 * day).
Definition site (serial : N) (days : Z) : cert := Cert serial false (Name "Sub" "") (Name "www" "") ["www.example.org"] 0 (days * day).
(** A verifier that checks nothing but the dates. *)
Definition dates (now : Z) (leaf : cert) (o : verify_options) : option (list (list cert)) :=
  if Z.leb now (ct_not_after leaf) then Some [[leaf]] else None.

Lemma dates_verify : forall now, verifies_at now (dates now).
Proof.
  intros now leaf o chains ch H Hin. unfold dates in H. destruct (Z.leb_spec now (ct_not_after leaf)); [|discriminate].
  injection H as <-. destruct Hin as [<-|[]]. split; [now exists []|]. intros c [<-|[]]. assumption.
Qed.

Lemma serial_refuted : exists n, forall t, format_serial n <> Some t.
Proof. exists 256%N. intros t. vm_compute. discriminate. Qed.

(** An expired certificate is not reported. *)
Lemma expired_silent : forall now verify clock leaf chain, verifies_at now verify -> (ct_not_after leaf < now)%Z ->
  (forall o, verify leaf o <> Some []) -> ~ In None chain ->
  check_cert_chain verify clock (Some leaf :: chain) = Unverified /\ forall rest, health_check (check_cert_chain verify clock (Some leaf :: chain) :: rest) = [] :: health_check rest.
Proof.
  intros now verify clock leaf chain HV He Hn Hp.
  assert (H : check_cert_chain verify clock (Some leaf :: chain) = Unverified).
  { unfold check_cert_chain.
    assert (Hm : exists l, Some leaf :: chain = map Some l).
    { assert (Hc : exists l, chain = map Some l).
      { clear - Hp. induction chain as [|[c|] chain IH]; [now exists []| |exfalso; apply Hp; now left].
        destruct IH as [l ->]; [intros X; apply Hp; now right|]. now exists (c :: l). }
      destruct Hc as [l ->]. now exists (leaf :: l). }
    destruct Hm as [l Hl]. rewrite Hl. destruct (pools_spec l) as [inter [root [H1 _]]]. rewrite H1.
    destruct (verify leaf (verify_options_of (inter, root))) as [[|ch chains]|] eqn:E; [exfalso; exact (Hn _ E)| |reflexivity].
    exfalso. destruct (HV _ _ _ ch E (or_introl eq_refl)) as [[rest ->] Hall]. specialize (Hall leaf (or_introl eq_refl)). lia. }
  split; [assumption|]. intros rest. now rewrite H.
Qed.

Lemma odd_serial_silent : exists now verify clock chain links, verifies_at now verify /\ (forall o c, verify c o <> Some []) /\
  check_cert_chain verify clock chain = Checked links /\ (exists l, In l links /\ (lk_remaining l < thirty_days)%Z) /\
  forall later, health_check (check_cert_chain verify clock chain :: later) = [].
Proof.
  exists day, (dates day), (fun _ => day), [Some (site 256 3)]. eexists. split; [apply dates_verify|].
  split; [intros o c; unfold dates; destruct (Z.leb _ _); discriminate|].
  split; [vm_compute; reflexivity|]. split; [eexists; split; [left; reflexivity|vm_compute; reflexivity]|].
  intros later. vm_compute. reflexivity.
Qed.

Lemma expired_refuted : exists now verify clock c, verifies_at now verify /\ (ct_not_after c - now < thirty_days)%Z /\
  format_serial (ct_serial c) <> None /\ health_check [check_cert_chain verify clock [Some c]] = [[]].
Proof.
  exists (4 * day)%Z, (dates (4 * day)), (fun _ => 4 * day)%Z, (site 4660 3). split; [apply dates_verify|].
  split; [vm_compute; reflexivity|]. split; [vm_compute; discriminate|]. vm_compute. reflexivity.
Qed.

(** A CA with the common name of its issuer but another name counts as a root. *)
Lemma roots_refuted : exists c inter root, split_cert_pools [Some c] = Some (inter, root) /\ In c root /\ subordinate c /\ ~ self_issued c.
Proof.
  exists (Cert 4660 true (Name "CA" "O=Public") (Name "CA" "O=Internal") [] 0 day). do 2 eexists.
  split; [vm_compute; reflexivity|]. split; [now left|].
  split; [split; [reflexivity|discriminate]|]. intros [_ H]. discriminate.
Qed.
