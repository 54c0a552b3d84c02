From Coq Require Import String Ascii List Bool NArith Arith Lia.
From Verif Require Import GoStr Regex RegexSpec RegexProofs RegexGrammar.
Import ListNotations.
Local Open Scope string_scope.

Scheme written_ind' := Minimality for written Sort Prop
  with sequence_ind' := Minimality for sequence Sort Prop
  with item_ind' := Minimality for item Sort Prop
  with atom_ind' := Minimality for atom Sort Prop.
Combined Scheme grammar_ind from written_ind', sequence_ind', item_ind', atom_ind'.

(* ------------------------------------------------------------------ *)
(** * Expressions as the parser builds them *)

Definition nums (rs : list (ascii * ascii)) : list (N * N) :=
  map (fun p => (N_of_ascii (fst p), N_of_ascii (snd p))) rs.

Fixpoint of_rx (x : rx) : re :=
  match x with
  | XEmpty => REps
  | XLit c => chr c
  | XAny => RCls true [(10, 10)%N]
  | XStart => RBol
  | XEnd => REol
  | XSet neg rs => RCls neg (nums rs)
  | XSeq a b => RCat (of_rx a) (of_rx b)
  | XAlt a b => RAlt (of_rx a) (of_rx b)
  | XRep a lo hi => apply_rep (of_rx a) lo hi
  end.

Lemma N_in_between : forall lo hi c,
  N_in (N_of_ascii lo) (N_of_ascii hi) (N_of_ascii c) = true <-> between lo hi c.
Proof.
  intros lo hi c. unfold N_in, between. rewrite andb_true_iff, !N.leb_le. tauto.
Qed.

Lemma in_set_nums : forall rs c,
  existsb (fun p => N_in (fst p) (snd p) (N_of_ascii c)) (nums rs) = true <-> in_set rs c.
Proof.
  intros rs c. unfold in_set, nums. rewrite existsb_exists. split.
  - intros [[a b] [Hin H]]. apply in_map_iff in Hin. destruct Hin as [[lo hi] [E Hin]].
    cbn [fst snd] in E, H. injection E as <- <-. exists lo, hi. split; [assumption | now apply N_in_between].
  - intros [lo [hi [Hin H]]]. exists (N_of_ascii lo, N_of_ascii hi). split.
    + apply in_map_iff. now exists (lo, hi).
    + cbn [fst snd]. now apply N_in_between.
Qed.

Lemma set_match : forall neg rs c,
  cls_match neg (nums rs) c = true <-> (if neg then ~ in_set rs c else in_set rs c).
Proof.
  intros neg rs c. unfold cls_match. pose proof (in_set_nums rs c) as H.
  destruct neg; destruct (existsb _ _); cbn; intuition congruence.
Qed.

Lemma any_match : forall c, cls_match true [(10, 10)%N] c = true <-> c <> "010"%char.
Proof.
  intros c. change [(10, 10)%N] with (nums [("010", "010")]%char). rewrite set_match.
  unfold in_set, between. split.
  - intros H E. apply H. exists "010"%char, "010"%char. subst c. split; [now left | lia].
  - intros H [lo [hi [[E|[]] Hb]]]. injection E as <- <-. apply H.
    assert (E : N_of_ascii c = N_of_ascii "010") by lia.
    rewrite <- (ascii_N_embedding c), E. reflexivity.
Qed.

(** ** Repetition *)
Lemma rpow_times : forall a P, (forall pre m post, Matches a pre m post <-> P pre m post) ->
  forall n pre m post, Matches (rpow a n) pre m post <-> times P n pre m post.
Proof.
  intros a P HP. induction n as [|n IH]; intros pre m post; cbn [rpow times].
  - split; [intros H; now inversion H | intros ->; constructor].
  - split.
    + intros H. apply inv_cat in H. destruct H as [x [y [-> [Hx Hy]]]]. exists x, y.
      split; [reflexivity|]. split; [now apply HP | now apply IH].
    + intros [x [y [-> [Hx Hy]]]]. constructor; [now apply HP | now apply IH].
Qed.

Lemma ropt_times : forall a P, (forall pre m post, Matches a pre m post <-> P pre m post) ->
  forall k pre m post, Matches (ropt a k) pre m post <-> exists n, (n <= k)%nat /\ times P n pre m post.
Proof.
  intros a P HP. induction k as [|k IH]; intros pre m post; cbn [ropt].
  - split.
    + intros H. inversion H; subst. exists 0. split; [lia | reflexivity].
    + intros [n [Hn H]]. assert (n = 0) by lia. subst n. cbn in H. subst m. constructor.
  - split.
    + intros H. inversion H as [| | |? ? ? ? ? H1|? ? ? ? ? H1| | | |]; subst; clear H.
      * apply inv_cat in H1. destruct H1 as [x [y [-> [Hx Hy]]]].
        apply IH in Hy. destruct Hy as [n [Hn Hy]]. exists (S n). split; [lia|].
        exists x, y. split; [reflexivity|]. split; [now apply HP | assumption].
      * inversion H1; subst. exists 0. split; [lia | reflexivity].
    + intros [n [Hn H]]. destruct n as [|n].
      * cbn in H. subst m. apply M_alt_r. constructor.
      * destruct H as [x [y [-> [Hx Hy]]]]. apply M_alt_l. constructor; [now apply HP|].
        apply IH. exists n. split; [lia | assumption].
Qed.

Lemma star_times : forall a P, (forall pre m post, Matches a pre m post <-> P pre m post) ->
  forall pre m post, Matches (RStar a) pre m post <-> exists n, times P n pre m post.
Proof.
  intros a P HP pre m post. split.
  - intros H. remember (RStar a) as r eqn:Er. induction H; try discriminate; injection Er as ->.
    + exists 0. reflexivity.
    + destruct (IHMatches2 eq_refl) as [n Hn]. exists (S n), x, y.
      split; [reflexivity|]. split; [now apply HP | assumption].
  - intros [n H]. revert pre m H. induction n as [|n IH]; intros pre m H; cbn [times] in H.
    + subst m. constructor.
    + destruct H as [x [y [-> [Hx Hy]]]]. apply M_star_cons; [now apply HP | now apply IH].
Qed.

Lemma times_add : forall P n k pre m post,
  times P (n + k) pre m post <->
  exists x y, m = x ++ y /\ times P n pre x (y ++ post) /\ times P k (pre ++ x) y post.
Proof.
  intros P. induction n as [|n IH]; intros k pre m post; cbn [times Nat.add].
  - split.
    + intros H. exists "", m. rewrite append_nil_r. auto.
    + intros [x [y [-> [-> H]]]]. now rewrite append_nil_r in H.
  - split.
    + intros [x [y [-> [Hx Hy]]]]. apply IH in Hy. destruct Hy as [y1 [y2 [-> [H1 H2]]]].
      exists (x ++ y1), y2. split; [now rewrite append_assoc|]. split.
      * exists x, y1. split; [reflexivity|]. rewrite append_assoc in Hx. auto.
      * now rewrite <- append_assoc.
    + intros [x [y [-> [[x1 [x2 [-> [H1 H2]]]] H3]]]]. exists x1, (x2 ++ y).
      split; [now rewrite append_assoc|]. split; [now rewrite append_assoc|].
      apply IH. exists x2, y. split; [reflexivity|]. split; [assumption|]. now rewrite append_assoc.
Qed.

Lemma rep_times : forall a P, (forall pre m post, Matches a pre m post <-> P pre m post) ->
  forall lo hi pre m post, match hi with Some h => (lo <= h)%nat | None => True end ->
  (Matches (apply_rep a lo hi) pre m post <->
   exists n, (lo <= n)%nat /\ match hi with Some h => (n <= h)%nat | None => True end /\ times P n pre m post).
Proof.
  intros a P HP lo hi pre m post Hok. unfold apply_rep. destruct hi as [h|]; split.
  - intros H. apply inv_cat in H. destruct H as [x [y [-> [Hx Hy]]]].
    apply (rpow_times a P HP) in Hx. apply (ropt_times a P HP) in Hy. destruct Hy as [n [Hn Hy]].
    exists (lo + n). split; [lia|]. split; [lia|]. apply times_add. eauto.
  - intros [n [H1 [H2 H]]]. replace n with (lo + (n - lo)) in H by lia. apply times_add in H.
    destruct H as [x [y [-> [Hx Hy]]]]. constructor; [now apply (rpow_times a P HP)|].
    apply (ropt_times a P HP). exists (n - lo). split; [lia | assumption].
  - intros H. apply inv_cat in H. destruct H as [x [y [-> [Hx Hy]]]].
    apply (rpow_times a P HP) in Hx. apply (star_times a P HP) in Hy. destruct Hy as [n Hy].
    exists (lo + n). split; [lia|]. split; [exact I|]. apply times_add. eauto.
  - intros [n [H1 [_ H]]]. replace n with (lo + (n - lo)) in H by lia. apply times_add in H.
    destruct H as [x [y [-> [Hx Hy]]]]. constructor; [now apply (rpow_times a P HP)|].
    apply (star_times a P HP). eauto.
Qed.

(** Counts in order *)
Fixpoint orderly (x : rx) : Prop :=
  match x with
  | XSeq a b | XAlt a b => orderly a /\ orderly b
  | XRep a lo hi => orderly a /\ match hi with Some h => (lo <= h)%nat | None => True end
  | _ => True
  end.

Lemma of_rx_means : forall x, orderly x -> forall pre m post,
  Matches (of_rx x) pre m post <-> means x pre m post.
Proof.
  induction x as [|c| | | |neg rs|a IHa b IHb|a IHa b IHb|a IHa lo hi]; intros Ho pre m post;
    cbn [of_rx means orderly] in *.
  - split; [intros H; now inversion H | intros ->; constructor].
  - split.
    + intros H. apply inv_cls in H. destruct H as [d [-> H]]. apply chr_match in H. now subst.
    + intros ->. constructor. now apply chr_match.
  - split.
    + intros H. apply inv_cls in H. destruct H as [d [-> H]]. exists d. split; [reflexivity | now apply any_match].
    + intros [c [-> H]]. constructor. now apply any_match.
  - split; [intros H; apply inv_bol in H; tauto | intros [-> ->]; constructor].
  - split; [intros H; now inversion H | intros [-> ->]; constructor].
  - split.
    + intros H. apply inv_cls in H. destruct H as [d [-> H]]. exists d. split; [reflexivity | now apply set_match].
    + intros [c [-> H]]. constructor. now apply set_match.
  - destruct Ho as [Ha Hb]. split.
    + intros H. apply inv_cat in H. destruct H as [x [y [-> [Hx Hy]]]]. exists x, y.
      split; [reflexivity|]. split; [now apply IHa | now apply IHb].
    + intros [x [y [-> [Hx Hy]]]]. constructor; [now apply IHa | now apply IHb].
  - destruct Ho as [Ha Hb]. split.
    + intros H. inversion H; subst; [left; now apply IHa | right; now apply IHb].
    + intros [H|H]; [apply M_alt_l; now apply IHa | apply M_alt_r; now apply IHb].
  - destruct Ho as [Ha Hh]. apply rep_times; [exact (IHa Ha) | assumption].
Qed.

Lemma operator_order : forall s n h, operator s n h -> match h with Some m => (n <= m)%nat | None => True end.
Proof.
  intros s n h H. destruct H as [| | |s n h _ H]; auto. destruct h as [m|]; [|exact I]. destruct H as [_ H]. lia.
Qed.

Lemma grammar_orderly :
  (forall x s, written x s -> orderly x) /\ (forall x s, sequence x s -> orderly x) /\
  (forall x s, item x s -> orderly x) /\ (forall x s, atom x s -> orderly x).
Proof.
  apply grammar_ind; intros; cbn [orderly]; auto.
  split; [assumption|]. eapply operator_order; eassumption.
Qed.

(* ------------------------------------------------------------------ *)
(** * Counts *)

Definition led_by_digit (s : string) : bool :=
  match s with String c _ => N_in 48 57 (N_of_ascii c) | EmptyString => false end.

Lemma digit_in : forall c, N_in 48 57 (N_of_ascii c) = true <-> digit c.
Proof. intros c. exact (N_in_between "0" "9" c). Qed.

(** The parser stops counting beyond 1000. *)
Definition sat (v w : nat) : Prop := (v <= 1000 /\ w = v)%nat \/ (1000 < v /\ 1000 < w)%nat.

Lemma ltb_sat : forall v w, sat v w -> Nat.ltb 1000 w = Nat.ltb 1000 v.
Proof.
  intros v w [[H ->]|[H1 H2]]; [reflexivity|]. apply Nat.ltb_lt in H1, H2. congruence.
Qed.

Lemma sat_step : forall a a' d, sat a a' ->
  sat (10 * a + d) (if Nat.ltb 1000 a' then a' else 10 * a' + d).
Proof.
  intros a a' d H. destruct (Nat.ltb 1000 a') eqn:E.
  - apply Nat.ltb_lt in E. destruct H as [[H ->]|[H1 H2]]; [lia|]. right. lia.
  - apply Nat.ltb_ge in E. destruct H as [[H ->]|[H1 H2]]; [|lia].
    unfold sat. lia.
Qed.

Lemma parse_num_digits : forall t rest, all_chars digit t -> led_by_digit rest = false ->
  forall a a', sat a a' -> exists w, parse_num (Some a') (t ++ rest) = (Some w, rest) /\ sat (value a t) w.
Proof.
  induction t as [|c t IH]; intros rest Ht Hr a a' Ha; cbn [append all_chars value] in *.
  - exists a'. split; [|assumption]. destruct rest as [|c rest]; [reflexivity|].
    cbn [led_by_digit] in Hr. cbn [parse_num]. now rewrite Hr.
  - destruct Ht as [Hc Ht]. apply digit_in in Hc. cbn [parse_num]. rewrite Hc. cbn zeta.
    apply (IH rest Ht Hr). apply sat_step. assumption.
Qed.

Lemma parse_num_first : forall c t rest, digit c -> all_chars digit t -> led_by_digit rest = false ->
  exists w, parse_num None (String c t ++ rest) = (Some w, rest) /\ sat (value 0 (String c t)) w.
Proof.
  intros c t rest Hc Ht Hr. apply digit_in in Hc. cbn [append parse_num value]. rewrite Hc. cbn zeta.
  apply parse_num_digits; [assumption | assumption |].
  left. split; [|reflexivity]. unfold N_in in Hc. apply andb_true_iff in Hc. rewrite !N.leb_le in Hc. lia.
Qed.

Lemma parse_int_numeral : forall t n rest, numeral t n -> led_by_digit rest = false ->
  exists w, parse_int (t ++ rest) = (Some w, rest) /\ sat n w.
Proof.
  intros t n rest [H0 [Hd [Hz Hv]]] Hr. destruct t as [|c t]; [congruence|].
  destruct Hd as [Hc Ht]. destruct (parse_num_first c t rest Hc Ht Hr) as [w [E1 E2]].
  rewrite Hv in E2. exists w. split; [|assumption]. rewrite <- E1. clear E1 E2 Hv H0.
  unfold parse_int. destruct t as [|d t]; cbn [append].
  - destruct rest as [|d rest]; [reflexivity|]. cbn [led_by_digit] in Hr. now rewrite Hr, andb_false_r.
  - destruct (Ascii.eqb c "0") eqn:E; [|reflexivity]. apply Ascii.eqb_eq in E. subst c.
    specialize (Hz _ eq_refl). discriminate.
Qed.

Lemma parse_num_inv : forall s a w rest, parse_num (Some a) s = (Some w, rest) ->
  exists t, s = t ++ rest /\ all_chars digit t /\ led_by_digit rest = false.
Proof.
  induction s as [|c s IH]; intros a w rest H; cbn [parse_num] in H.
  - injection H as _ <-. exists "". cbn. auto.
  - destruct (N_in 48 57 (N_of_ascii c)) eqn:E.
    + apply IH in H. destruct H as [t [-> [H1 H2]]]. exists (String c t). cbn [append all_chars].
      split; [reflexivity|]. split; [|assumption]. split; [now apply digit_in | assumption].
    + injection H as _ <-. exists "". cbn [append all_chars led_by_digit]. auto.
Qed.

Lemma parse_int_some : forall s w rest, parse_int s = (Some w, rest) ->
  exists t n, s = t ++ rest /\ numeral t n /\ sat n w /\ led_by_digit rest = false.
Proof.
  intros s w rest H.
  assert (G : parse_num None s = (Some w, rest) /\
              (forall c t, s = String c t -> c = "0"%char -> led_by_digit t = false)).
  { unfold parse_int in H. destruct s as [|c [|d s]].
    - split; [assumption | intros; discriminate].
    - split; [assumption|]. intros c' t E _. injection E as _ <-. reflexivity.
    - destruct (Ascii.eqb c "0" && N_in 48 57 (N_of_ascii d))%bool eqn:E; [discriminate|].
      split; [assumption|]. intros c' t E' ->. injection E' as -> <-. cbn [led_by_digit].
      now rewrite Ascii.eqb_refl in E. }
  clear H. destruct G as [H Hz]. destruct s as [|c s]; [discriminate|].
  pose proof H as H'. cbn [parse_num] in H'.
  destruct (N_in 48 57 (N_of_ascii c)) eqn:Ec; [|discriminate]. cbn zeta in H'.
  apply parse_num_inv in H'. destruct H' as [t [-> [Ht Hr]]]. apply digit_in in Ec.
  destruct (parse_num_first c t rest Ec Ht Hr) as [w' [E1 E2]].
  change (String c (t ++ rest)) with (String c t ++ rest) in H. rewrite H in E1. injection E1 as <-.
  exists (String c t), (value 0 (String c t)). split; [reflexivity|]. split; [|split; assumption].
  split; [discriminate|]. split; [split; assumption|]. split; [|reflexivity].
  intros u E. injection E as -> <-. specialize (Hz _ _ eq_refl eq_refl).
  destruct t as [|d t]; [reflexivity|]. cbn [append led_by_digit] in Hz. destruct Ht as [Hd _].
  apply digit_in in Hd. congruence.
Qed.

Lemma parse_int_none : forall s rest, parse_int s = (None, rest) -> rest = s.
Proof.
  assert (G : forall s a rest, parse_num a s = (None, rest) -> rest = s).
  { induction s as [|c s IH]; intros a rest H; cbn [parse_num] in H; [injection H as _ <-; reflexivity|].
    destruct (N_in 48 57 (N_of_ascii c)); [|injection H as _ <-; reflexivity].
    exfalso. cbn zeta in H. clear IH. revert H.
    match goal with |- context [Some ?x] => generalize x as v end.
    induction s as [|d s IH]; intros v H; cbn [parse_num] in H; [discriminate|].
    destruct (N_in 48 57 (N_of_ascii d)); [|discriminate]. exact (IH _ H). }
  intros s rest H. unfold parse_int in H. destruct s as [|c [|d s]]; [eapply G; exact H | eapply G; exact H|].
  destruct (Ascii.eqb c "0" && _)%bool; [now injection H | eapply G; exact H].
Qed.

Definition allowedb (n : nat) (h : option nat) : bool :=
  negb (Nat.ltb 1000 n || match h with Some m => (Nat.ltb 1000 m || Nat.ltb m n)%bool | None => false end).

Lemma allowedb_spec : forall n h, allowedb n h = true <-> allowed n h.
Proof.
  intros n h. unfold allowedb, allowed. rewrite negb_true_iff, orb_false_iff, Nat.ltb_ge.
  destruct h as [m|]; [rewrite orb_false_iff, !Nat.ltb_ge; lia | tauto].
Qed.

(** The text begins with a count. *)
Lemma parse_braces_count : forall u n h s rest, count u n h -> String "{" s = u ++ rest ->
  parse_braces s = if allowedb n h then QRep n h rest else QErr.
Proof.
  intros u n h s rest H E. destruct H as [t n Ht|t n Ht|t n t2 m Ht Ht2]; cbn [append] in E; injection E as ->;
    unfold parse_braces; rewrite !append_assoc; cbn [append].
  - destruct (parse_int_numeral t n (String "}" rest) Ht eq_refl) as [w [-> Hw]].
    change (Ascii.eqb "}" "}") with true. cbn iota.
    unfold allowedb. rewrite (ltb_sat _ _ Hw).
    destruct Hw as [[H ->]|[H1 H2]].
    + apply Nat.ltb_ge in H. rewrite H, Nat.ltb_irrefl. reflexivity.
    + apply Nat.ltb_lt in H1. rewrite H1. reflexivity.
  - destruct (parse_int_numeral t n (String "," (String "}" rest)) Ht eq_refl) as [w [-> Hw]].
    change (Ascii.eqb "," "}") with false. change (Ascii.eqb "," ",") with true. cbn iota.
    assert (Ep : parse_int (String "}" rest) = (None, String "}" rest)) by (destruct rest; reflexivity).
    rewrite Ep. change (Ascii.eqb "}" "}") with true. cbn iota.
    unfold allowedb. rewrite (ltb_sat _ _ Hw), orb_false_r.
    destruct Hw as [[H ->]|[H1 H2]]; [apply Nat.ltb_ge in H; rewrite H; reflexivity|].
    apply Nat.ltb_lt in H1. rewrite H1. reflexivity.
  - rewrite append_assoc. cbn [append].
    destruct (parse_int_numeral t n (String "," (t2 ++ String "}" rest)) Ht eq_refl) as [w [-> Hw]].
    change (Ascii.eqb "," "}") with false. change (Ascii.eqb "," ",") with true. cbn iota.
    destruct (parse_int_numeral t2 m (String "}" rest) Ht2 eq_refl) as [w2 [-> Hw2]].
    change (Ascii.eqb "}" "}") with true. cbn iota.
    unfold allowedb. rewrite (ltb_sat _ _ Hw), (ltb_sat _ _ Hw2).
    destruct Hw as [[H ->]|[H1 H2]].
    + destruct Hw2 as [[H2 ->]|[H2 H3]].
      * rewrite <- orb_assoc. destruct (_ || _)%bool; reflexivity.
      * apply Nat.ltb_lt in H2. rewrite H2, orb_true_r. cbn [orb]. rewrite orb_true_r. reflexivity.
    + apply Nat.ltb_lt in H1. rewrite H1. reflexivity.
Qed.

Lemma parse_braces_inv : forall s, parse_braces s = QNone \/
  exists u n h rest, count u n h /\ String "{" s = u ++ rest.
Proof.
  intros s. destruct (parse_braces s) eqn:E; [now left| |]; right.
  all: unfold parse_braces in E.
  all: destruct (parse_int s) as [[w|] r] eqn:E1; [|discriminate].
  all: apply parse_int_some in E1; destruct E1 as [t [n [-> [Ht [Hw _]]]]].
  all: destruct r as [|c r]; [discriminate|].
  all: destruct (Ascii.eqb c "}") eqn:Ec;
    [apply Ascii.eqb_eq in Ec; subst c; exists ("{" ++ t ++ "}"), n, (Some n), r;
     split; [now constructor | now rewrite !append_assoc] |].
  all: destruct (Ascii.eqb c ",") eqn:Ec2; [|discriminate]; apply Ascii.eqb_eq in Ec2; subst c.
  all: destruct (parse_int r) as [[w2|] r2] eqn:E2.
  all: try (apply parse_int_some in E2; destruct E2 as [t2 [m [-> [Ht2 [Hw2 _]]]]]).
  all: try (apply parse_int_none in E2; subst r2).
  all: match type of E with context [match ?x with EmptyString => _ | _ => _ end] => destruct x as [|d r3] end;
    [discriminate|].
  all: destruct (Ascii.eqb d "}") eqn:Ed; [|discriminate]; apply Ascii.eqb_eq in Ed; subst d.
  all: [> exists ("{" ++ t ++ "," ++ t2 ++ "}"), n, (Some m), r3 | exists ("{" ++ t ++ ",}"), n, None, r3
        | exists ("{" ++ t ++ "," ++ t2 ++ "}"), n, (Some m), r3 | exists ("{" ++ t ++ ",}"), n, None, r3 ].
  all: split; [|cbn [append]; rewrite !append_assoc; cbn [append]; rewrite ?append_assoc; reflexivity].
  - exact (count_range _ _ _ _ Ht Ht2).
  - exact (count_from _ _ Ht).
  - exact (count_range _ _ _ _ Ht Ht2).
  - exact (count_from _ _ Ht).
Qed.

Lemma parse_braces_none : forall s, parse_braces s = QNone <-> ~ counted (String "{" s).
Proof.
  intros s. split.
  - intros H [u [n [h [t [Hc E]]]]]. rewrite (parse_braces_count u n h s t Hc E) in H.
    destruct (allowedb n h); discriminate.
  - intros H. destruct (parse_braces_inv s) as [E|[u [n [h [t [Hc E]]]]]]; [assumption|].
    exfalso. apply H. now exists u, n, h, t.
Qed.

Lemma parse_braces_rep : forall s n h rest, parse_braces s = QRep n h rest ->
  exists u, String "{" s = u ++ rest /\ count u n h /\ allowed n h.
Proof.
  intros s n h rest H. destruct (parse_braces_inv s) as [E|[u [n' [h' [t [Hc E]]]]]]; [congruence|].
  rewrite (parse_braces_count u n' h' s t Hc E) in H. destruct (allowedb n' h') eqn:Ea; [|discriminate].
  injection H as <- <- <-. exists u. split; [assumption|]. split; [assumption | now apply allowedb_spec].
Qed.

Lemma count_brace : forall u n h, count u n h -> exists t, u = String "{" t.
Proof. intros u n h H. destruct H; eexists; reflexivity. Qed.

Lemma counted_brace : forall s, counted s -> exists t, s = String "{" t.
Proof.
  intros s [u [n [h [t [Hc ->]]]]]. apply count_brace in Hc. destruct Hc as [v ->]. now exists (v ++ t).
Qed.

(* ------------------------------------------------------------------ *)
(** * Sets *)

Lemma is_punct_spec : forall c, is_punct c = true <-> escapable c.
Proof.
  intros c. unfold is_punct, is_alnum, escapable. cbn zeta.
  rewrite andb_true_iff, N.ltb_lt, negb_true_iff, !orb_false_iff.
  assert (Hd := digit_in c).
  assert (HA := N_in_between "A" "Z" c). assert (Ha := N_in_between "a" "z" c).
  change (N_of_ascii "A") with 65%N in HA. change (N_of_ascii "Z") with 90%N in HA.
  change (N_of_ascii "a") with 97%N in Ha. change (N_of_ascii "z") with 122%N in Ha.
  unfold letter.
  destruct (N_in 48 57 _), (N_in 65 90 _), (N_in 97 122 _); intuition congruence.
Qed.

Lemma not_escapable_letter : forall c, letter c -> ~ escapable c.
Proof. intros c H [_ [_ H']]. contradiction. Qed.

Lemma shorthand_letter : forall neg rs c, shorthand neg rs c -> letter c.
Proof.
  intros neg rs c H. unfold letter, between.
  destruct H; cbn [N_of_ascii N_of_digits]; first [left; split; vm_compute; discriminate | right; split; vm_compute; discriminate].
Qed.

Lemma set_char_sound : forall s c rest, parse_cls_char s = Some (c, rest) ->
  exists u, s = u ++ rest /\ set_char c u.
Proof.
  intros s c rest H. destruct s as [|d s]; [discriminate|]. cbn [parse_cls_char] in H.
  destruct (Ascii.eqb d "\") eqn:E.
  - apply Ascii.eqb_eq in E. subst d. destruct s as [|e s]; [discriminate|].
    destruct (is_punct e) eqn:Ee; [|discriminate]. injection H as -> ->.
    exists (String "\" (String c "")). split; [reflexivity|]. constructor. now apply is_punct_spec.
  - injection H as -> ->. exists (String c ""). split; [reflexivity|]. constructor. now apply Ascii.eqb_neq.
Qed.

Lemma set_char_complete : forall c u rest, set_char c u -> parse_cls_char (u ++ rest) = Some (c, rest).
Proof.
  intros c u rest H. destruct H as [c H|c H]; cbn [append parse_cls_char].
  - apply Ascii.eqb_neq in H. now rewrite H.
  - rewrite Ascii.eqb_refl. apply is_punct_spec in H. now rewrite H.
Qed.

Lemma peek_spec : forall c s t, peek c s = Some t <-> s = String c t.
Proof.
  intros c s t. destruct s as [|d s]; cbn [peek]; [split; discriminate|].
  destruct (Ascii.eqb d c) eqn:E.
  - apply Ascii.eqb_eq in E. subst d. split; intros H; injection H as <-; reflexivity.
  - apply Ascii.eqb_neq in E. split; [discriminate | intros H; injection H as -> ->; congruence].
Qed.

Lemma peek_none : forall c s, peek c s = None <-> forall t, s <> String c t.
Proof.
  intros c s. split.
  - intros H t E. apply peek_spec in E. congruence.
  - intros H. destruct (peek c s) as [t|] eqn:E; [|reflexivity]. apply peek_spec in E. now apply H in E.
Qed.

Lemma peek2_spec : forall c d s t, peek2 c d s = Some t <-> s = String c (String d t).
Proof.
  intros c d s t. unfold peek2. destruct (peek c s) as [u|] eqn:E.
  - apply peek_spec in E. subst s. rewrite peek_spec. split; [intros ->; reflexivity | now intros H; injection H].
  - split; [discriminate|]. intros ->. cbn [peek] in E. now rewrite Ascii.eqb_refl in E.
Qed.

Lemma peek2_none : forall c d s, peek2 c d s = None <-> forall t, s <> String c (String d t).
Proof.
  intros c d s. split.
  - intros H t E. apply peek2_spec in E. congruence.
  - intros H. destruct (peek2 c d s) as [t|] eqn:E; [|reflexivity]. apply peek2_spec in E. now apply H in E.
Qed.

Lemma cls_escape_sound : forall s rs' rest, cls_escape s = Some (rs', rest) ->
  exists rs c, shorthand false rs c /\ rs' = nums rs /\ s = String "\" (String c rest).
Proof.
  intros s rs' rest H. unfold cls_escape in H.
  destruct (peek2 "\" "d" s) as [t|] eqn:E1.
  { apply peek2_spec in E1. injection H as <- <-. exists digits_set, "d"%char. split; [constructor | split; [reflexivity | assumption]]. }
  destruct (peek2 "\" "w" s) as [t|] eqn:E2.
  { apply peek2_spec in E2. injection H as <- <-. exists word_set, "w"%char. split; [constructor | split; [reflexivity | assumption]]. }
  destruct (peek2 "\" "s" s) as [t|] eqn:E3; [|discriminate].
  apply peek2_spec in E3. injection H as <- <-. exists space_set, "s"%char. split; [constructor | split; [reflexivity | assumption]].
Qed.

Lemma cls_escape_complete : forall rs c t, shorthand false rs c ->
  cls_escape (String "\" (String c t)) = Some (nums rs, t).
Proof. intros rs c t H. inversion H; subst; reflexivity. Qed.

Lemma cls_escape_none : forall c u t, set_char c u -> cls_escape (u ++ t) = None.
Proof.
  intros c u t H. destruct (cls_escape (u ++ t)) as [[rs' rest]|] eqn:E; [|reflexivity]. exfalso.
  apply cls_escape_sound in E. destruct E as [rs [d [Hd [_ E]]]].
  destruct H as [c H|c H]; cbn [append] in E; injection E as E1 E2.
  - congruence.
  - subst d. apply shorthand_letter in Hd. exact (not_escapable_letter _ Hd H).
Qed.

Lemma set_char_bracket : forall c u t v, set_char c u -> u ++ t = String "]" v -> u = "]".
Proof. intros c u t v H E. destruct H as [c H|c H]; cbn [append] in E; [injection E as -> _; reflexivity | discriminate]. Qed.

Lemma no_bracket : forall rs t, set_body false rs (String "]" t) -> False.
Proof.
  enough (G : forall first rs s, set_body first rs s -> forall t, first = false -> s = String "]" t -> False)
    by (intros rs t H; exact (G _ _ _ H t eq_refl eq_refl)).
  intros first rs s H t. destruct H as [|b rs c rs' t' H1 H2|b c s0 rs t' H1 H2 H3 H4 H5|b lo hi s0 u rs t' H1 H2 H3 H4 H5 H6]; intros Ef Es.
  - discriminate.
  - discriminate.
  - pose proof (set_char_bracket _ _ _ _ H1 Es) as E. apply H2 in E. congruence.
  - pose proof (set_char_bracket _ _ _ _ H1 Es) as E. apply H2 in E. congruence.
Qed.

Lemma no_dash_bracket : forall rs t, set_body false rs (String "-" (String "]" t)) -> False.
Proof.
  enough (G : forall first rs s, set_body first rs s -> forall t, first = false -> s = String "-" (String "]" t) -> False)
    by (intros rs t H; exact (G _ _ _ H t eq_refl eq_refl)).
  intros first rs s H t. destruct H as [|b rs c rs' t' H1 H2|b c s0 rs t' H1 H2 H3 H4 H5|b lo hi s0 u rs t' H1 H2 H3 H4 H5 H6]; intros Ef Es.
  - discriminate.
  - discriminate.
  - destruct H1 as [c H1|c H1]; cbn [append] in Es; [|discriminate]. injection Es as -> ->.
    exact (no_bracket _ _ H5).
  - destruct H1 as [lo H1|lo H1]; cbn [append] in Es; discriminate.
Qed.

Lemma parse_cls_sound : forall f first acc s rs' rest, parse_cls f first acc s = Some (rs', rest) ->
  exists rs body, s = body ++ String "]" rest /\ rs' = (acc ++ nums rs)%list /\ set_body first rs body.
Proof.
  induction f as [|f IH]; intros first acc s rs' rest H; [discriminate|]. cbn [parse_cls] in H.
  destruct (if first then None else peek "]" s) as [r0|] eqn:E.
  - destruct first; [discriminate|]. apply peek_spec in E. injection H as <- <-. exists [], "".
    split; [assumption|]. split; [now rewrite app_nil_r | constructor].
  - destruct (cls_item s) as [[rs1 r1]|] eqn:E1; [|discriminate].
    apply IH in H. destruct H as [rs [body [-> [-> Hb]]]]. unfold cls_item in E1.
    destruct (cls_escape s) as [[re rr]|] eqn:Ee.
    + injection E1 as -> ->. apply cls_escape_sound in Ee. destruct Ee as [rs2 [c [Hc [-> ->]]]].
      exists (rs2 ++ rs)%list, (String "\" (String c body)). split; [reflexivity|]. split.
      * unfold nums. now rewrite map_app, app_assoc.
      * now constructor.
    + destruct (peek2 "[" ":" s) as [?|] eqn:Ep; [discriminate|].
      destruct (parse_cls_char s) as [[lo s1]|] eqn:Ec; [|discriminate].
      apply set_char_sound in Ec. destruct Ec as [u [-> Hu]].
      assert (Hf : u = "]" -> first = true).
      { intros ->. destruct first; [reflexivity|]. discriminate. }
      assert (Hp : forall v, u ++ body <> String "[" (String ":" v) \/ s1 <> body ++ String "]" rest).
      { intros v. destruct (string_dec s1 (body ++ String "]" rest)) as [->|N]; [left | now right].
        intros Ev. rewrite <- append_assoc, Ev in Ep. discriminate. }
      assert (Hsingle : s1 = body ++ String "]" rest -> (forall d v, body <> String "-" (String d v)) ->
                        set_body first ((lo, lo) :: rs) (u ++ body)).
      { intros Es Hd. constructor; auto. intros v. destruct (Hp v); [assumption | contradiction]. }
      destruct (peek "-" s1) as [s2|] eqn:E2.
      * apply peek_spec in E2. destruct (peek "]" s2) as [s3|] eqn:E3.
        -- apply peek_spec in E3. injection E1 as <- E1.
           exists ((lo, lo) :: rs), (u ++ body). split; [now rewrite append_assoc, E1|].
           split; [now rewrite <- app_assoc|].
           apply Hsingle; [assumption|]. intros d v Ed. subst body.
           rewrite E1, E3 in E2. cbn [append] in E2. injection E2 as -> _. exact (no_dash_bracket _ _ Hb).
        -- destruct (parse_cls_char s2) as [[hi s4]|] eqn:E4; [|discriminate].
           destruct (N.ltb (N_of_ascii hi) (N_of_ascii lo)) eqn:El; [discriminate|]. injection E1 as <- ->.
           apply set_char_sound in E4. destruct E4 as [u2 [-> Hu2]].
           exists ((lo, hi) :: rs), (u ++ "-" ++ u2 ++ body). split.
           { rewrite E2, append_assoc. cbn [append]. now rewrite append_assoc. }
           split; [now rewrite <- app_assoc|]. apply sb_range; auto.
           ++ intros ->. discriminate.
           ++ now apply N.ltb_ge.
      * injection E1 as <- E1. exists ((lo, lo) :: rs), (u ++ body). split; [now rewrite append_assoc, E1|].
        split; [now rewrite <- app_assoc|].
        apply Hsingle; [assumption|]. intros d v ->. rewrite E1 in E2. discriminate.
Qed.

Lemma set_char_length : forall c u, set_char c u -> (1 <= String.length u)%nat.
Proof. intros c u H. destruct H; cbn; lia. Qed.

Lemma parse_cls_complete : forall first rs body, set_body first rs body -> forall f acc rest,
  (String.length body < f)%nat -> parse_cls f first acc (body ++ String "]" rest) = Some ((acc ++ nums rs)%list, rest).
Proof.
  intros first rs body H. induction H as [|first rs c rs' t H1 H2 IH|first c s rs t H1 H2 H3 H4 H5 IH|first lo hi s u rs t H1 H2 H3 H4 H5 H6 IH];
    intros f acc rest Hf; (destruct f as [|f]; [lia|]); cbn [parse_cls].
  - cbn [append]. rewrite (proj2 (peek_spec "]" (String "]" rest) rest)) by reflexivity.
    now rewrite app_nil_r.
  - cbn [append]. replace (if first then None else peek "]" _) with (@None string) by (destruct first; reflexivity).
    unfold cls_item. rewrite (cls_escape_complete rs c _ H1).
    rewrite IH by (cbn in Hf; lia). unfold nums. now rewrite map_app, app_assoc.
  - rewrite append_assoc.
    replace (if first then None else peek "]" _) with (@None string).
    2: { destruct first; [reflexivity|]. symmetry. apply peek_none. intros v E.
         apply (set_char_bracket _ _ _ _ H1) in E. apply H2 in E. discriminate. }
    unfold cls_item. rewrite (cls_escape_none c s _ H1).
    rewrite (proj2 (peek2_none "[" ":" _)).
    2: { intros v E. destruct H1 as [c H1|c H1]; cbn [append] in E; [|discriminate]. injection E as -> E.
         destruct t as [|d t]; [discriminate|]. cbn [append] in E. injection E as -> E. exact (H4 t eq_refl). }
    rewrite (set_char_complete _ _ _ H1).
    assert (Hs : parse_cls f false (acc ++ [(N_of_ascii c, N_of_ascii c)])%list (t ++ String "]" rest) =
                 Some ((acc ++ nums ((c, c) :: rs))%list, rest)).
    { rewrite IH; [now rewrite <- app_assoc|]. apply set_char_length in H1. rewrite length_append in Hf. lia. }
    destruct (peek "-" (t ++ String "]" rest)) as [s2|] eqn:E2; [|exact Hs].
    apply peek_spec in E2. destruct t as [|d t]; [discriminate|]. cbn [append] in E2. injection E2 as -> <-.
    destruct t as [|e t]; [|now exfalso; apply (H3 e t)]. exact Hs.
  - rewrite append_assoc. cbn [append]. rewrite append_assoc.
    replace (if first then None else peek "]" _) with (@None string).
    2: { destruct first; [reflexivity|]. symmetry. apply peek_none. intros v E.
         apply (set_char_bracket _ _ _ _ H1) in E. apply H2 in E. discriminate. }
    unfold cls_item. rewrite (cls_escape_none lo s _ H1).
    rewrite (proj2 (peek2_none "[" ":" _)).
    2: { intros v E. destruct H1 as [c H1|c H1]; cbn [append] in E; discriminate. }
    rewrite (set_char_complete _ _ _ H1).
    rewrite (proj2 (peek_spec "-" (String "-" (u ++ t ++ String "]" rest)) _) eq_refl).
    rewrite (proj2 (peek_none "]" _)).
    2: { intros v E. apply (set_char_bracket _ _ _ _ H3) in E. contradiction. }
    rewrite (set_char_complete _ _ _ H3). apply N.ltb_ge in H5. rewrite H5.
    rewrite IH; [now rewrite <- app_assoc|].
    rewrite length_append in Hf. cbn [String.length append] in Hf. rewrite length_append in Hf. lia.
Qed.

Lemma parse_class_sound : forall s r rest, parse_class s = Some (r, rest) ->
  exists x u, String "[" s = u ++ rest /\ atom x u /\ r = of_rx x.
Proof.
  intros s r rest H. unfold parse_class in H. destruct (peek "^" s) as [s'|] eqn:E.
  - apply peek_spec in E. subst s. destruct (parse_cls _ _ _ _) as [[rs r1]|] eqn:E1; [|discriminate].
    injection H as <- <-. apply parse_cls_sound in E1. destruct E1 as [rs0 [body [-> [-> Hb]]]].
    exists (XSet true rs0), ("[^" ++ body ++ "]"). split; [cbn [append]; now rewrite append_assoc|].
    split; [now constructor | reflexivity].
  - destruct (parse_cls _ _ _ _) as [[rs r1]|] eqn:E1; [|discriminate].
    injection H as <- <-. apply parse_cls_sound in E1. destruct E1 as [rs0 [body [-> [-> Hb]]]].
    exists (XSet false rs0), ("[" ++ body ++ "]"). split; [cbn [append]; now rewrite append_assoc|].
    split; [|reflexivity]. constructor; [assumption|]. intros t ->. discriminate.
Qed.

Lemma parse_class_complete : forall rs s rest, set_body true rs s -> (forall t, s <> String "^" t) ->
  parse_class (s ++ String "]" rest) = Some (RCls false (nums rs), rest).
Proof.
  intros rs s rest H Hn. unfold parse_class. rewrite (proj2 (peek_none "^" _)).
  2: { intros t E. destruct s as [|c s]; [inversion H; subst|].
       - destruct s; discriminate.
       - destruct s; discriminate.
       - cbn [append] in E. injection E as -> E. exact (Hn s eq_refl). }
  rewrite (parse_cls_complete _ _ _ H); [reflexivity|]. rewrite length_append. lia.
Qed.

Lemma parse_negated_complete : forall rs s rest, set_body true rs s ->
  parse_class (String "^" (s ++ String "]" rest)) = Some (RCls true (nums rs), rest).
Proof.
  intros rs s rest H. unfold parse_class. cbn [peek]. rewrite Ascii.eqb_refl.
  rewrite (parse_cls_complete _ _ _ H); [reflexivity|]. rewrite length_append. lia.
Qed.

(* ------------------------------------------------------------------ *)
(** * Operators *)

Lemma quant1_sound : forall s n h rest, parse_quant1 s = QRep n h rest -> exists o, s = o ++ rest /\ operator o n h.
Proof.
  intros s n h rest H. destruct s as [|c s]; [discriminate|]. cbn [parse_quant1] in H.
  destruct (Ascii.eqb c "*") eqn:E1.
  { apply Ascii.eqb_eq in E1. injection H as <- <- <-. exists "*". subst c. split; [reflexivity | constructor]. }
  destruct (Ascii.eqb c "+") eqn:E2.
  { apply Ascii.eqb_eq in E2. injection H as <- <- <-. exists "+". subst c. split; [reflexivity | constructor]. }
  destruct (Ascii.eqb c "?") eqn:E3.
  { apply Ascii.eqb_eq in E3. injection H as <- <- <-. exists "?". subst c. split; [reflexivity | constructor]. }
  destruct (Ascii.eqb c "{") eqn:E4; [|discriminate]. apply Ascii.eqb_eq in E4. subst c.
  apply parse_braces_rep in H. destruct H as [u [E [Hc Ha]]]. exists u. split; [assumption | now constructor].
Qed.

Lemma quant1_brace : forall s, parse_quant1 (String "{" s) = parse_braces s.
Proof. reflexivity. Qed.

Lemma quant1_complete : forall o n h rest, operator o n h -> parse_quant1 (o ++ rest) = QRep n h rest.
Proof.
  intros o n h rest H. destruct H as [| | |o n h Hc Ha]; [reflexivity | reflexivity | reflexivity |].
  destruct (count_brace _ _ _ Hc) as [t Et]. rewrite Et in *. cbn [append]. rewrite quant1_brace.
  rewrite (parse_braces_count (String "{" t) n h (t ++ rest) rest Hc eq_refl).
  apply allowedb_spec in Ha. now rewrite Ha.
Qed.

Lemma quant1_none : forall s, ~ counted s ->
  (forall c t, s = String c t -> c <> "*"%char /\ c <> "+"%char /\ c <> "?"%char) -> parse_quant1 s = QNone.
Proof.
  intros s Hc H. destruct s as [|c s]; [reflexivity|]. destruct (H c s eq_refl) as [H1 [H2 H3]].
  apply Ascii.eqb_neq in H1, H2, H3. cbn [parse_quant1]. rewrite H1, H2, H3.
  destruct (Ascii.eqb c "{") eqn:E; [|reflexivity]. apply Ascii.eqb_eq in E. subst c.
  now apply parse_braces_none.
Qed.

(* ------------------------------------------------------------------ *)
(** * Where a sequence ends *)

Definition stops (s : string) : Prop := s = "" \/ exists t, s = String "|" t \/ s = String ")" t.

Definition inner (c : ascii) : Prop := c <> "|"%char /\ c <> ")"%char.

Lemma all_chars_app : forall P s t, all_chars P s -> all_chars P t -> all_chars P (s ++ t).
Proof. intros P s t. induction s as [|c s IH]; cbn [append all_chars]; [auto | intros [H1 H2] H3; auto]. Qed.

Lemma digit_inner : forall s, all_chars digit s -> all_chars inner s.
Proof.
  induction s as [|c s IH]; cbn [all_chars]; [auto|]. intros [H1 H2]. split; [|auto].
  destruct H1 as [Ha Hb]. cbv in Ha, Hb.
  split; intros ->; cbv in Ha, Hb; congruence.
Qed.

Lemma count_inner : forall u n h, count u n h -> all_chars inner u.
Proof.
  assert (K : forall a, Ascii.eqb a "|" = false -> Ascii.eqb a ")" = false -> inner a)
    by (intros a Ha Hb; split; now apply Ascii.eqb_neq).
  intros u n h H. destruct H as [s n Hs|s n Hs|s n t m Hs Ht]; destruct Hs as [_ [Hs _]]; apply digit_inner in Hs.
  - cbn [append all_chars]. split; [now apply K|]. apply all_chars_app; [assumption|]. cbn [all_chars]. auto.
  - cbn [append all_chars]. split; [now apply K|]. apply all_chars_app; [assumption|]. cbn [all_chars]. auto.
  - destruct Ht as [_ [Ht _]]. apply digit_inner in Ht.
    cbn [append all_chars]. split; [now apply K|]. apply all_chars_app; [assumption|]. cbn [append all_chars].
    split; [now apply K|]. apply all_chars_app; [assumption|]. cbn [all_chars]. auto.
Qed.

Lemma inner_prefix : forall u t v rest, all_chars inner u -> stops rest -> u ++ v = t ++ rest -> exists w, t = u ++ w.
Proof.
  induction u as [|c u IH]; intros t v rest Hu Hs E; [now exists t|]. destruct Hu as [Hc Hu].
  destruct t as [|d t]; cbn [append] in E.
  - exfalso. subst rest. destruct Hs as [Hs|[w [Hs|Hs]]]; [discriminate| |];
      injection Hs as -> _; destruct Hc; congruence.
  - injection E as -> E. destruct (IH t v rest Hu Hs E) as [w ->]. now exists w.
Qed.

Lemma counted_inner : forall t rest, stops rest -> counted (t ++ rest) -> counted t.
Proof.
  intros t rest Hs [u [n [h [v [Hc E]]]]]. symmetry in E.
  destruct (inner_prefix u t v rest (count_inner _ _ _ Hc) Hs E) as [w ->]. now exists u, n, h, w.
Qed.

Lemma counted_app : forall t rest, counted t -> counted (t ++ rest).
Proof.
  intros t rest [u [n [h [v [Hc ->]]]]]. exists u, n, h, (v ++ rest). split; [assumption | apply append_assoc].
Qed.

(** First characters *)
Lemma atom_first : forall x s, atom x s -> exists c t, s = String c t /\
  c <> "*"%char /\ c <> "+"%char /\ c <> "?"%char /\ c <> "|"%char /\ c <> ")"%char.
Proof.
  assert (K : forall c t, existsb (Ascii.eqb c) ["*"; "+"; "?"; "|"; ")"]%char = false ->
              exists c' t', String c t = String c' t' /\
              c' <> "*"%char /\ c' <> "+"%char /\ c' <> "?"%char /\ c' <> "|"%char /\ c' <> ")"%char).
  { intros c t H. exists c, t. split; [reflexivity|]. cbn [existsb] in H.
    repeat (apply orb_false_iff in H; destruct H as [?H H]).
    repeat split; apply Ascii.eqb_neq; assumption. }
  intros x s H. destruct H as [c H|c H|neg rs c H| | | |rs s H1 H2|rs s H1|y s H|y s H]; try (apply K; reflexivity).
  exists c, "". split; [reflexivity|].
  repeat split; intros ->; apply H; unfold special; cbn [In]; tauto.
Qed.

Lemma item_first : forall x s, item x s -> exists c t, s = String c t /\
  c <> "*"%char /\ c <> "+"%char /\ c <> "?"%char /\ c <> "|"%char /\ c <> ")"%char.
Proof.
  intros x s H. destruct H as [x s H|x s o n h H _]; apply atom_first in H; destruct H as [c [t [-> H]]].
  - eauto.
  - exists c, (t ++ o). split; [reflexivity | assumption].
Qed.

Lemma sequence_plain : forall y t rest, sequence y t -> stops rest -> parse_quant1 (t ++ rest) = QNone.
Proof.
  intros y t rest H Hs. destruct H as [|x y s t Hi _ Hc].
  - destruct Hs as [->|[v [->| ->]]]; reflexivity.
  - apply quant1_none; [intros K; exact (Hc (counted_inner _ _ Hs K))|].
    apply item_first in Hi. destruct Hi as [c [v [-> H]]]. intros c' v' E. cbn [append] in E.
    injection E as <- _. tauto.
Qed.

(* ------------------------------------------------------------------ *)
(** * The parser accepts only expressions of the grammar *)

Lemma parse_quant_sound : forall a s q rest x u0, parse_quant a s = Some (q, rest) -> atom x u0 -> a = of_rx x ->
  exists y u, s = u ++ rest /\ item y (u0 ++ u) /\ q = of_rx y.
Proof.
  intros a s q rest x u0 H Hx ->. unfold parse_quant in H.
  destruct (parse_quant1 s) as [|n h r|] eqn:E; [| |discriminate].
  - injection H as <- <-. exists x, "". rewrite append_nil_r. split; [reflexivity|]. split; [now constructor | reflexivity].
  - destruct (parse_quant1 r); [|discriminate|discriminate]. injection H as <- <-.
    apply quant1_sound in E. destruct E as [o [-> Ho]]. exists (XRep x n h), o.
    split; [reflexivity|]. split; [now constructor | reflexivity].
Qed.

Lemma parse_escape_sound : forall d r, parse_escape d = Some r -> exists x, atom x (String "\" (String d "")) /\ r = of_rx x.
Proof.
  intros d r H. unfold parse_escape in H.
  assert (K : forall neg rs c, shorthand neg rs c -> d = c ->
              exists x, atom x (String "\" (String d "")) /\ RCls neg (nums rs) = of_rx x).
  { intros neg rs c Hs ->. exists (XSet neg rs). split; [now apply a_shorthand | reflexivity]. }
  destruct (Ascii.eqb d "d") eqn:E1; [apply Ascii.eqb_eq in E1; injection H as <-; exact (K _ _ _ sh_d E1)|].
  destruct (Ascii.eqb d "D") eqn:E2; [apply Ascii.eqb_eq in E2; injection H as <-; exact (K _ _ _ sh_D E2)|].
  destruct (Ascii.eqb d "w") eqn:E3; [apply Ascii.eqb_eq in E3; injection H as <-; exact (K _ _ _ sh_w E3)|].
  destruct (Ascii.eqb d "W") eqn:E4; [apply Ascii.eqb_eq in E4; injection H as <-; exact (K _ _ _ sh_W E4)|].
  destruct (Ascii.eqb d "s") eqn:E6; [apply Ascii.eqb_eq in E6; injection H as <-; exact (K _ _ _ sh_s E6)|].
  destruct (Ascii.eqb d "S") eqn:E7; [apply Ascii.eqb_eq in E7; injection H as <-; exact (K _ _ _ sh_S E7)|].
  destruct (is_punct d) eqn:E5; [|discriminate]. injection H as <-. exists (XLit d).
  split; [|reflexivity]. constructor. now apply is_punct_spec.
Qed.

Lemma parser_sound : forall f,
  (forall s r rest, p_alt f s = Some (r, rest) -> exists x u, s = u ++ rest /\ written x u /\ r = of_rx x /\
      (rest = "" \/ exists t, rest = String ")" t)) /\
  (forall s r rest, p_cat f s = Some (r, rest) -> exists x u, s = u ++ rest /\ sequence x u /\ r = of_rx x /\ stops rest) /\
  (forall s r rest, p_atom f s = Some (r, rest) -> (forall c t, s = String c t -> inner c) -> exists x u, s = u ++ rest /\ atom x u /\ r = of_rx x /\ ~ counted s).
Proof.
  induction f as [|f [IHalt [IHcat IHatom]]].
  - split; [|split]; intros; discriminate.
  - split; [|split].
    + intros s r rest H. cbn [p_alt] in H.
      destruct (p_cat f s) as [[a r1]|] eqn:E; [|discriminate]. apply IHcat in E.
      destruct E as [x [u [-> [Hx [-> Hs]]]]].
      destruct r1 as [|c r1].
      { injection H as <- <-. exists x, u. split; [reflexivity|]. split; [now constructor|]. split; [reflexivity | now left]. }
      destruct (Ascii.eqb c "|") eqn:Ec.
      * apply Ascii.eqb_eq in Ec. subst c. destruct (p_alt f r1) as [[b r2]|] eqn:E2; [|discriminate].
        apply IHalt in E2. destruct E2 as [y [v [-> [Hy [-> Hr]]]]]. injection H as <- <-.
        exists (XAlt x y), (u ++ "|" ++ v). split; [now rewrite append_assoc|].
        split; [now constructor|]. split; [reflexivity | assumption].
      * injection H as <- <-. exists x, u. split; [reflexivity|]. split; [now constructor|]. split; [reflexivity|].
        destruct Hs as [Hs|[t [Hs|Hs]]]; [discriminate| |]; injection Hs as -> ->; [rewrite Ascii.eqb_refl in Ec; discriminate|]. right. now exists t.
    + intros s r rest H. cbn [p_cat] in H.
      destruct s as [|c s].
      { injection H as <- <-. exists XEmpty, "". split; [reflexivity|]. split; [constructor|]. split; [reflexivity | now left]. }
      destruct (Ascii.eqb c "|" || Ascii.eqb c ")")%bool eqn:Ec.
      { injection H as <- <-. exists XEmpty, "". split; [reflexivity|]. split; [constructor|]. split; [reflexivity|].
        right. exists s. apply orb_true_iff in Ec. destruct Ec as [Ec|Ec]; apply Ascii.eqb_eq in Ec; subst c; auto. }
      destruct (p_atom f (String c s)) as [[a r1]|] eqn:E; [|discriminate]. apply IHatom in E.
      2: { intros c' t' Ht. injection Ht as <- _. apply orb_false_iff in Ec. destruct Ec as [Ec1 Ec2].
           split; now apply Ascii.eqb_neq. }
      destruct E as [x [u [Es [Hx [Ea Hc]]]]].
      destruct (parse_quant a r1) as [[q r2]|] eqn:E2; [|discriminate].
      apply (parse_quant_sound a r1 q r2 x u) in E2; [|assumption|assumption].
      destruct E2 as [y [v [-> [Hy ->]]]].
      destruct (p_cat f r2) as [[b r3]|] eqn:E3; [|discriminate]. apply IHcat in E3.
      destruct E3 as [z [w [-> [Hz [-> Hs]]]]]. injection H as <- <-.
      exists (XSeq y z), ((u ++ v) ++ w). split; [rewrite Es, !append_assoc; reflexivity|].
      split; [|split; [reflexivity | assumption]]. constructor; [assumption | assumption|].
      intros K. apply Hc. rewrite Es. replace (u ++ v ++ w ++ r3) with (((u ++ v) ++ w) ++ r3) by now rewrite !append_assoc.
      now apply counted_app.
    + intros s r rest H Hi. cbn [p_atom] in H.
      destruct s as [|c s]; [discriminate|].
      destruct (Ascii.eqb c "{") eqn:Eb.
      { apply Ascii.eqb_eq in Eb. subst c.
        change (Ascii.eqb "{" "(") with false in H. change (Ascii.eqb "{" "[") with false in H.
        change (Ascii.eqb "{" ".") with false in H. change (Ascii.eqb "{" "^") with false in H.
        change (Ascii.eqb "{" "$") with false in H. change (Ascii.eqb "{" "\") with false in H.
        change (Ascii.eqb "{" "*" || Ascii.eqb "{" "+" || Ascii.eqb "{" "?")%bool with false in H.
        cbn iota in H. destruct (parse_braces s) eqn:E; [|discriminate|discriminate].
        injection H as <- <-. exists (XLit "{"), "{". split; [reflexivity|].
        split; [constructor; unfold special; cbn [In]; intuition discriminate|]. split; [reflexivity|].
        now apply parse_braces_none. }
      enough (G : exists x u, String c s = u ++ rest /\ atom x u /\ r = of_rx x).
      { destruct G as [x [u [E [Hx ->]]]]. exists x, u. split; [assumption|]. split; [assumption|]. split; [reflexivity|].
        intros K. apply counted_brace in K. destruct K as [t K]. injection K as -> _. discriminate. }
      destruct (Ascii.eqb c "(") eqn:E1.
      { apply Ascii.eqb_eq in E1. subst c.
        destruct (strip_noncapture s) as [s1|] eqn:E; [|discriminate].
        destruct (p_alt f s1) as [[a r1]|] eqn:E1; [|discriminate].
        destruct (peek ")" r1) as [r2|] eqn:E2; [|discriminate]. apply peek_spec in E2. subst r1.
        injection H as <- <-. apply IHalt in E1. destruct E1 as [x [u [-> [Hx [-> _]]]]].
        unfold strip_noncapture in E. destruct (peek2 "?" ":" s) as [s2|] eqn:E3.
        - apply peek2_spec in E3. subst s. injection E as ->. exists x, ("(?:" ++ u ++ ")").
          split; [cbn [append]; now rewrite append_assoc|]. split; [now constructor | reflexivity].
        - destruct (peek "?" s); [discriminate|]. injection E as ->. exists x, ("(" ++ u ++ ")").
          split; [cbn [append]; now rewrite append_assoc|]. split; [now constructor | reflexivity]. }
      destruct (Ascii.eqb c "[") eqn:E2.
      { apply Ascii.eqb_eq in E2. subst c. apply parse_class_sound in H. exact H. }
      destruct (Ascii.eqb c ".") eqn:E3.
      { apply Ascii.eqb_eq in E3. subst c. injection H as <- <-. exists XAny, ".". split; [reflexivity|]. split; [constructor | reflexivity]. }
      destruct (Ascii.eqb c "^") eqn:E4.
      { apply Ascii.eqb_eq in E4. subst c. injection H as <- <-. exists XStart, "^". split; [reflexivity|]. split; [constructor | reflexivity]. }
      destruct (Ascii.eqb c "$") eqn:E5.
      { apply Ascii.eqb_eq in E5. subst c. injection H as <- <-. exists XEnd, "$". split; [reflexivity|]. split; [constructor | reflexivity]. }
      destruct (Ascii.eqb c "\") eqn:E6.
      { apply Ascii.eqb_eq in E6. subst c. destruct s as [|d s]; [discriminate|].
        destruct (parse_escape d) as [r0|] eqn:E; [|discriminate]. injection H as <- <-.
        apply parse_escape_sound in E. destruct E as [x [Hx ->]].
        exists x, (String "\" (String d "")). split; [reflexivity|]. split; [assumption | reflexivity]. }
      destruct (Ascii.eqb c "*" || Ascii.eqb c "+" || Ascii.eqb c "?")%bool eqn:E7; [discriminate|].
      injection H as <- <-. exists (XLit c), (String c ""). split; [reflexivity|]. split; [|reflexivity].
      constructor. apply orb_false_iff in E7. destruct E7 as [E7 E9]. apply orb_false_iff in E7. destruct E7 as [E7 E8].
      apply Ascii.eqb_neq in E1, E2, E3, E4, E5, E6, E7, E8, E9. destruct (Hi c s eq_refl) as [H1 H2].
      unfold special. cbn [In]. intuition congruence.
Qed.

(* ------------------------------------------------------------------ *)
(** * and all of them, with the meaning they have there *)

Lemma parse_escape_complete : forall c, escapable c -> parse_escape c = Some (chr c).
Proof.
  intros c H. unfold parse_escape.
  assert (K : forall neg rs d, shorthand neg rs d -> Ascii.eqb c d = false).
  { intros neg rs d Hs. apply Ascii.eqb_neq. intros ->. exact (not_escapable_letter _ (shorthand_letter _ _ _ Hs) H). }
  rewrite (K _ _ _ sh_d), (K _ _ _ sh_D), (K _ _ _ sh_w), (K _ _ _ sh_W), (K _ _ _ sh_s), (K _ _ _ sh_S).
  apply is_punct_spec in H. now rewrite H.
Qed.

Lemma parse_shorthand_complete : forall neg rs c, shorthand neg rs c -> parse_escape c = Some (RCls neg (nums rs)).
Proof. intros neg rs c H. destruct H; reflexivity. Qed.

Lemma written_first : forall x s, written x s -> forall t, s <> String "?" t.
Proof.
  assert (G : forall x s, sequence x s -> forall t r, s ++ r = String "?" t -> s = "").
  { intros x s H t r E. destruct H as [|x y s1 s2 Hi _ _]; [reflexivity|]. apply item_first in Hi.
    destruct Hi as [c [v [-> H]]]. cbn [append] in E. injection E as -> _. tauto. }
  intros x s H t E. destruct H as [x s H|x y s s2 H _].
  - rewrite <- (append_nil_r s) in E. pose proof (G _ _ H _ _ E) as ->. discriminate.
  - pose proof (G _ _ H _ _ E) as ->. discriminate.
Qed.

Definition rest_ok (s : string) : Prop := s = "" \/ exists t, s = String ")" t.

Lemma rest_ok_stops : forall s, rest_ok s -> stops s.
Proof. intros s [->|[t ->]]; [now left | right; exists t; now right]. Qed.

Lemma p_atom_lit : forall f c s, ~ In c special -> ~ counted (String c s) -> p_atom (S f) (String c s) = Some (chr c, s).
Proof.
  intros f c s H Hc. unfold special in H. cbn [In] in H.
  assert (K : forall d, c <> d -> Ascii.eqb c d = false) by (intros d; apply Ascii.eqb_neq).
  cbn [p_atom].
  rewrite (K "("%char), (K "["%char), (K "."%char), (K "^"%char), (K "$"%char), (K "\"%char), (K "*"%char), (K "+"%char), (K "?"%char)
    by (intros ->; tauto). cbn [orb].
  destruct (Ascii.eqb c "{") eqn:E; [|reflexivity]. apply Ascii.eqb_eq in E. subst c.
  apply parse_braces_none in Hc. now rewrite Hc.
Qed.

Lemma parser_complete :
  (forall x s, written x s -> forall f rest, (3 * String.length s + 3 <= f)%nat -> rest_ok rest ->
     p_alt f (s ++ rest) = Some (of_rx x, rest)) /\
   (forall x s, sequence x s -> forall f rest, (3 * String.length s + 2 <= f)%nat -> stops rest ->
     p_cat f (s ++ rest) = Some (of_rx x, rest)) /\
   (forall x s, item x s -> forall f rest, (3 * String.length s + 1 <= f)%nat -> ~ counted (s ++ rest) ->
     parse_quant1 rest = QNone ->
     exists a r, p_atom f (s ++ rest) = Some (a, r) /\ parse_quant a r = Some (of_rx x, rest)) /\
   (forall x s, atom x s -> forall f rest, (3 * String.length s + 1 <= f)%nat -> ~ counted (s ++ rest) ->
     p_atom f (s ++ rest) = Some (of_rx x, rest)).
Proof.
  apply grammar_ind.
  - (* w_one *)
    intros x s _ IH f rest Hf Hr. destruct f as [|f]; [lia|]. cbn [p_alt].
    rewrite IH; [|lia|now apply rest_ok_stops]. destruct Hr as [->|[t ->]]; [reflexivity|].
    change (Ascii.eqb ")" "|") with false. reflexivity.
  - (* w_alt *)
    intros x y s t _ IH1 _ IH2 f rest Hf Hr. destruct f as [|f]; [lia|]. cbn [p_alt].
    rewrite append_assoc. cbn [append]. rewrite length_append in Hf. cbn [String.length append] in Hf.
    rewrite IH1; [|lia|right; exists (t ++ rest); now left].
    rewrite Ascii.eqb_refl. rewrite IH2; [reflexivity|lia|assumption].
  - (* q_end *)
    intros f rest Hf Hr. destruct f as [|f]; [lia|]. cbn [append].
    destruct Hr as [->|[t [->| ->]]]; reflexivity.
  - (* q_item *)
    intros x y s t Hi IH1 Hq IH2 Hc f rest Hf Hr. destruct f as [|f]; [lia|]. rewrite append_assoc.
    rewrite length_append in Hf.
    assert (Hc' : ~ counted (s ++ t ++ rest)).
    { rewrite <- append_assoc. intros K. exact (Hc (counted_inner _ _ Hr K)). }
    destruct (IH1 f (t ++ rest)) as [a [r [E1 E2]]]; [lia|assumption|now apply (sequence_plain y)|].
    destruct (item_first _ _ Hi) as [c [v [-> [_ [_ [_ [Hb Hp]]]]]]].
    cbn [append] in *. cbn [p_cat]. apply Ascii.eqb_neq in Hb, Hp. rewrite Hb, Hp. cbn [orb].
    rewrite E1, E2. cbn [String.length] in Hf. rewrite IH2; [reflexivity|lia|assumption].
  - (* i_atom *)
    intros x s _ IH f rest Hf Hc Hq. exists (of_rx x), rest. split; [now apply IH|].
    unfold parse_quant. now rewrite Hq.
  - (* i_rep *)
    intros x s o n h _ IH Ho f rest Hf Hc Hq. rewrite append_assoc in *. rewrite length_append in Hf.
    exists (of_rx x), (o ++ rest). split; [apply IH; [lia|assumption]|].
    unfold parse_quant. rewrite (quant1_complete _ _ _ _ Ho), Hq. reflexivity.
  - (* a_lit *)
    intros c H f rest Hf Hc. destruct f as [|f]; [cbn in Hf; lia|]. cbn [append] in *. now apply p_atom_lit.
  - (* a_escaped *)
    intros c H f rest Hf Hc. destruct f as [|f]; [cbn in Hf; lia|]. cbn [append].
    change (p_atom (S f) (String "\" (String c rest)))
      with (match parse_escape c with Some r => Some (r, rest) | None => None end).
    now rewrite (parse_escape_complete c H).
  - (* a_shorthand *)
    intros neg rs c H f rest Hf Hc. destruct f as [|f]; [cbn in Hf; lia|]. cbn [append].
    change (p_atom (S f) (String "\" (String c rest)))
      with (match parse_escape c with Some r => Some (r, rest) | None => None end).
    now rewrite (parse_shorthand_complete neg rs c H).
  - intros f rest Hf Hc. destruct f as [|f]; [cbn in Hf; lia|]. reflexivity.
  - intros f rest Hf Hc. destruct f as [|f]; [cbn in Hf; lia|]. reflexivity.
  - intros f rest Hf Hc. destruct f as [|f]; [cbn in Hf; lia|]. reflexivity.
  - (* a_set *)
    intros rs s H1 H2 f rest Hf Hc. destruct f as [|f]; [cbn in Hf; lia|]. cbn [append]. rewrite append_assoc. cbn [append].
    change (p_atom (S f) (String "[" (s ++ String "]" rest))) with (parse_class (s ++ String "]" rest)).
    now apply parse_class_complete.
  - (* a_negated *)
    intros rs s H1 f rest Hf Hc. destruct f as [|f]; [cbn in Hf; lia|]. cbn [append]. rewrite append_assoc. cbn [append].
    change (p_atom (S f) (String "[" (String "^" (s ++ String "]" rest)))) with (parse_class (String "^" (s ++ String "]" rest))).
    now apply parse_negated_complete.
  - (* a_group *)
    intros x s Hw IH f rest Hf Hc. destruct f as [|f]; [cbn in Hf; lia|]. cbn [append]. rewrite append_assoc. cbn [append].
    cbn [append String.length] in Hf. rewrite length_append in Hf. cbn [String.length] in Hf.
    cbn [p_atom]. change (Ascii.eqb "(" "(") with true. cbn iota.
    assert (Es : strip_noncapture (s ++ String ")" rest) = Some (s ++ String ")" rest)).
    { unfold strip_noncapture. pose proof (written_first _ _ Hw) as Hn.
      destruct s as [|c s]; [reflexivity|]. unfold peek2. cbn [append peek].
      destruct (Ascii.eqb c "?") eqn:E; [|reflexivity]. apply Ascii.eqb_eq in E. subst c. now exfalso; apply (Hn s). }
    rewrite Es, IH; [|lia|right; now exists rest].
    now rewrite (proj2 (peek_spec ")" (String ")" rest) rest) eq_refl).
  - (* a_noncapturing *)
    intros x s Hw IH f rest Hf Hc. destruct f as [|f]; [cbn in Hf; lia|]. cbn [append]. rewrite append_assoc. cbn [append].
    cbn [append String.length] in Hf. rewrite length_append in Hf. cbn [String.length] in Hf.
    cbn [p_atom]. change (Ascii.eqb "(" "(") with true. cbn iota.
    change (strip_noncapture (String "?" (String ":" (s ++ String ")" rest)))) with (Some (s ++ String ")" rest)).
    cbn iota. rewrite IH; [|lia|right; now exists rest].
    now rewrite (proj2 (peek_spec ")" (String ")" rest) rest) eq_refl).
Qed.

(** * Compilation *)

Lemma compile_written : forall p x, written x p -> re_compile p = Some (of_rx x).
Proof.
  intros p x H. unfold re_compile.
  pose proof (proj1 parser_complete x p H (3 * String.length p + 3) "" (le_n _) (or_introl eq_refl)) as E.
  rewrite append_nil_r in E. now rewrite E.
Qed.

Lemma compile_only_written : forall p r, re_compile p = Some r -> exists x, written x p /\ r = of_rx x.
Proof.
  intros p r H. unfold re_compile in H. destruct (p_alt _ p) as [[r' rest]|] eqn:E; [|discriminate].
  destruct rest; [|discriminate]. injection H as ->.
  apply (proj1 (parser_sound _)) in E. destruct E as [x [u [-> [Hx [-> _]]]]].
  rewrite append_nil_r. eauto.
Qed.

Lemma found_occurs : forall x p s, written x p -> (Occurs (of_rx x) s <-> found x s).
Proof.
  intros x p s H. pose proof (of_rx_means x (proj1 grammar_orderly x p H)) as G. unfold Occurs, found. split.
  - intros [pre [m [post [-> Hm]]]]. exists pre, m, post. split; [reflexivity | now apply G].
  - intros [pre [m [post [-> Hm]]]]. exists pre, m, post. split; [reflexivity | now apply G].
Qed.

Lemma leads_prefix : forall x p s, written x p -> (PrefixMatches (of_rx x) s <-> leads x s).
Proof.
  intros x p s H. pose proof (of_rx_means x (proj1 grammar_orderly x p H)) as G. unfold PrefixMatches, leads. split.
  - intros [m [post [-> Hm]]]. exists m, post. split; [reflexivity | now apply G].
  - intros [m [post [-> Hm]]]. exists m, post. split; [reflexivity | now apply G].
Qed.

Lemma compiles_iff : forall p, (exists r, re_compile p = Some r) <-> exists x, written x p.
Proof.
  intros p. split.
  - intros [r H]. apply compile_only_written in H. destruct H as [x [H _]]. eauto.
  - intros [x H]. apply compile_written in H. eauto.
Qed.

Lemma compiled_matches : forall p x r s, written x p -> re_compile p = Some r -> (match_string r s = true <-> found x s).
Proof.
  intros p x r s H E. rewrite (compile_written p x H) in E. injection E as <-.
  rewrite match_string_spec. now apply found_occurs with p.
Qed.

(** Readings of the same text mean the same. *)
Lemma written_unique : forall x y p, written x p -> written y p -> forall s, found x s <-> found y s.
Proof.
  intros x y p Hx Hy s. rewrite <- (found_occurs x p s Hx), <- (found_occurs y p s Hy).
  apply compile_written in Hx, Hy. rewrite Hx in Hy. injection Hy as ->. reflexivity.
Qed.

Lemma caret_uncounted : forall t, ~ counted (String "^" t).
Proof. intros t H. apply counted_brace in H. destruct H as [u H]. discriminate. Qed.

(** "^" in front of an expression anchors the first alternative. *)
Definition anchored (x : rx) : rx := match x with XAlt a b => XAlt (XSeq XStart a) b | _ => XSeq XStart x end.

Lemma sequence_not_alt : forall x s, sequence x s -> forall a b, x <> XAlt a b.
Proof. intros x s H. destruct H; discriminate. Qed.

Lemma sequence_caret : forall x s, sequence x s -> sequence (XSeq XStart x) (String "^" s).
Proof.
  intros x s H. exact (q_item XStart x "^" s (i_atom _ _ a_start) H (caret_uncounted _)).
Qed.

Lemma written_caret : forall x p, written x p -> written (anchored x) ("^" ++ p).
Proof.
  intros x p H. destruct H as [x s H|x y s t H Ht]; cbn [append].
  - replace (anchored x) with (XSeq XStart x).
    + constructor. now apply sequence_caret.
    + destruct x; try reflexivity. now elim (sequence_not_alt _ _ H x1 x2).
  - cbn [anchored]. exact (w_alt _ _ (String "^" s) t (sequence_caret _ _ H) Ht).
Qed.

(** The same after an operator *)
Definition loosened (n : nat) (h : option nat) (x : rx) : rx :=
  match x with XAlt a b => XAlt (XSeq (XRep XStart n h) a) b | _ => XSeq (XRep XStart n h) x end.

Lemma sequence_operator : forall o n h x s, operator o n h -> sequence x s ->
  sequence (XSeq (XRep XStart n h) x) (String "^" (o ++ s)).
Proof.
  intros o n h x s Ho H.
  exact (q_item (XRep XStart n h) x (String "^" o) s (i_rep _ "^" _ _ _ a_start Ho) H (caret_uncounted _)).
Qed.

Lemma written_operator : forall o n h x p, operator o n h -> written x p -> written (loosened n h x) ("^" ++ o ++ p).
Proof.
  intros o n h x p Ho H. destruct H as [x s H|x y s t H Ht]; cbn [append].
  - replace (loosened n h x) with (XSeq (XRep XStart n h) x).
    + constructor. now apply sequence_operator.
    + destruct x; try reflexivity. now elim (sequence_not_alt _ _ H x1 x2).
  - cbn [loosened]. rewrite <- append_assoc.
    exact (w_alt _ _ (String "^" (o ++ s)) t (sequence_operator _ _ _ _ _ Ho H) Ht).
Qed.

Lemma found_alt : forall a b s, found (XAlt a b) s <-> found a s \/ found b s.
Proof.
  intros a b s. unfold found. cbn [means]. split.
  - intros (pre & m & post & E & [H|H]); [left|right]; eauto.
  - intros [(pre & m & post & E & H)|(pre & m & post & E & H)]; eauto 6.
Qed.

Lemma found_start : forall a s, found (XSeq XStart a) s <-> leads a s.
Proof.
  intros a s. unfold found, leads. cbn [means]. split.
  - intros (pre & m & post & -> & x & y & -> & [-> ->] & H). exists y, post. auto.
  - intros (m & post & -> & H). exists "", m, post. split; [reflexivity|]. exists "", m. auto.
Qed.

Lemma times_start : forall n pre m post, times (means XStart) n pre m post <-> m = "" /\ (n = 0 \/ pre = "").
Proof.
  induction n as [|n IH]; intros pre m post; cbn [times means].
  - tauto.
  - split.
    + intros (x & y & -> & [-> ->] & H). apply IH in H. destruct H as [-> _]. split; [reflexivity | now right].
    + intros [-> [H| ->]]; [discriminate|]. exists "", "". split; [reflexivity|]. split; [auto|].
      apply IH. split; [reflexivity | now right].
Qed.

Lemma found_loose : forall n h a s, match h with Some m => (n <= m)%nat | None => True end ->
  (found (XSeq (XRep XStart n h) a) s <-> if Nat.eqb n 0 then found a s else leads a s).
Proof.
  intros n h a s Hh. destruct n as [|n]; cbn [Nat.eqb].
  - unfold found. split.
    + intros (pre & m & post & -> & H). cbn [means] in H. destruct H as (x & y & -> & (k & _ & _ & Hk) & H).
      apply times_start in Hk. destruct Hk as [-> _]. rewrite append_nil_r in H. exists pre, y, post. auto.
    + intros (pre & m & post & -> & H). exists pre, m, post. split; [reflexivity|]. cbn [means].
      exists "", m. split; [reflexivity|]. rewrite append_nil_r. split; [|assumption].
      exists 0. split; [lia|]. split; [destruct h; [lia | exact I] | reflexivity].
  - unfold found, leads. split.
    + intros (pre & m & post & -> & H). cbn [means] in H. destruct H as (x & y & -> & (k & Hk1 & _ & Hk) & H).
      apply times_start in Hk. destruct Hk as [-> [->| ->]]; [lia|]. exists y, post. auto.
    + intros (m & post & -> & H). exists "", m, post. split; [reflexivity|]. cbn [means].
      exists "", m. split; [reflexivity|]. split; [|assumption]. exists (S n). split; [lia|].
      split; [assumption|]. apply times_start. auto.
Qed.

(** What can follow "^" *)
Lemma sequence_caret_inv : forall z p, sequence z (String "^" p) ->
  (exists x, sequence x p) \/ exists o n h q x, operator o n h /\ p = o ++ q /\ sequence x q.
Proof.
  intros z p H. remember (String "^" p) as s eqn:Es. destruct H as [|x y s1 t Hi Hq _]; [discriminate|].
  assert (Ha : forall x u v, atom x u -> u ++ v = String "^" p -> u = "^").
  { intros x0 u v Hx E. destruct Hx; cbn [append] in E; try discriminate; try reflexivity.
    injection E as -> _. exfalso. apply H. unfold special. cbn [In]. tauto. }
  destruct Hi as [x s1 Hx|x s1 o n h Hx Ho].
  - pose proof (Ha x s1 t Hx Es) as ->. injection Es as <-. left. eauto.
  - rewrite append_assoc in Es. pose proof (Ha x s1 _ Hx Es) as ->. injection Es as <-. right. eauto 9.
Qed.

Lemma written_caret_inv : forall z p, written z ("^" ++ p) ->
  (exists x, written x p) \/ exists o n h q x, operator o n h /\ p = o ++ q /\ written x q.
Proof.
  intros z p H. cbn [append] in H. remember (String "^" p) as s eqn:Es. destruct H as [z s H|x y s t H Ht].
  - subst s. apply sequence_caret_inv in H. destruct H as [[x H]|(o & n & h & q & x & Ho & -> & H)].
    + left. exists x. now constructor.
    + right. exists o, n, h, q, x. split; [assumption|]. split; [reflexivity | now constructor].
  - destruct s as [|c s]; [discriminate|]. cbn [append] in Es. injection Es as -> <-.
    apply sequence_caret_inv in H. destruct H as [[a H]|(o & n & h & q & a & Ho & -> & H)].
    + left. exists (XAlt a y). exact (w_alt _ _ s t H Ht).
    + right. exists o, n, h, (q ++ "|" ++ t), (XAlt a y). split; [assumption|].
      split; [now rewrite append_assoc | now constructor].
Qed.
