From Coq Require Import String Ascii List Bool NArith Arith Lia.
From Verif Require Import GoStr Regex RegexSpec.
Import ListNotations.
Local Open Scope string_scope.

(** Inversion of [Matches]. *)
Lemma inv_cls : forall neg rs pre m post, Matches (RCls neg rs) pre m post ->
  exists c, m = String c "" /\ cls_match neg rs c = true.
Proof. intros neg rs pre m post H. inversion H; subst. eexists; split; eauto. Qed.

Lemma inv_cat : forall a b pre m post, Matches (RCat a b) pre m post ->
  exists x y, m = x ++ y /\ Matches a pre x (y ++ post) /\ Matches b (pre ++ x) y post.
Proof. intros a b pre m post H. inversion H; subst. exists x, y. auto. Qed.

Lemma inv_bol : forall pre m post, Matches RBol pre m post -> pre = "" /\ m = "".
Proof. intros pre m post H. inversion H; subst. auto. Qed.

(* ------------------------------------------------------------------ *)
(** * The matcher *)

Lemma bt_star : forall total a s, bt total (RStar a) s = star_loop total a (String.length s) s.
Proof.
  intros total a s. cbn [bt].
  generalize (String.length s) as fuel. intros fuel. revert s.
  induction fuel as [|f IH]; intros s; [reflexivity|].
  cbn [star_loop]. f_equal. apply flat_map_ext. intros t.
  destruct (Nat.ltb _ _); [apply IH | reflexivity].
Qed.

Definition sound_for (r : re) : Prop := forall pre s t,
  In t (bt (String.length (pre ++ s)) r s) -> exists m, s = m ++ t /\ Matches r pre m t.

Lemma app_self_nil : forall a b : string, a = b ++ a -> b = "".
Proof.
  intros a b H. assert (E : String.length a = String.length (b ++ a)) by now rewrite <- H.
  rewrite length_append in E. destruct b; [reflexivity | cbn in E; lia].
Qed.

Lemma length0 : forall s, String.length s = 0 -> s = "".
Proof. destruct s; [reflexivity | discriminate]. Qed.

Lemma star_sound : forall a, sound_for a -> forall fuel pre s t,
  In t (star_loop (String.length (pre ++ s)) a fuel s) ->
  exists m, s = m ++ t /\ Matches (RStar a) pre m t.
Proof.
  intros a Ha. induction fuel as [|f IH]; intros pre s t H; cbn [star_loop] in H.
  - destruct H as [->|[]]. exists "". split; [reflexivity | constructor].
  - apply in_app_or in H. destruct H as [H | [->|[]]].
    + apply in_flat_map in H. destruct H as [u [Hu Ht]].
      destruct (Nat.ltb _ _) eqn:Hlt; [|contradiction].
      destruct (Ha pre s u Hu) as [x [-> Hx]].
      rewrite <- append_assoc in Ht.
      destruct (IH (pre ++ x) u t Ht) as [y [-> Hy]].
      exists (x ++ y). split; [now rewrite append_assoc | now constructor].
    + exists "". split; [reflexivity | constructor].
Qed.

Lemma bt_sound : forall r, sound_for r.
Proof.
  induction r as [|neg rs|a IHa b IHb|a IHa b IHb|a IHa| |]; intros pre s t H.
  - destruct H as [->|[]]. exists "". split; [reflexivity | constructor].
  - cbn [bt] in H. destruct s as [|c s]; [contradiction|].
    destruct (cls_match neg rs c) eqn:E; [|contradiction].
    destruct H as [->|[]]. exists (String c ""). split; [reflexivity | now constructor].
  - cbn [bt] in H. apply in_flat_map in H. destruct H as [u [Hu Ht]].
    destruct (IHa pre s u Hu) as [x [-> Hx]].
    rewrite <- append_assoc in Ht.
    destruct (IHb (pre ++ x) u t Ht) as [y [-> Hy]].
    exists (x ++ y). split; [now rewrite append_assoc | now constructor].
  - cbn [bt] in H. apply in_app_or in H. destruct H as [H|H].
    + destruct (IHa pre s t H) as [m [E Hm]]. exists m. split; [assumption | now constructor].
    + destruct (IHb pre s t H) as [m [E Hm]]. exists m. split; [assumption | now apply M_alt_r].
  - rewrite bt_star in H. eapply star_sound; eassumption.
  - cbn [bt] in H. destruct (Nat.eqb _ _) eqn:E; [|contradiction].
    destruct H as [->|[]]. apply Nat.eqb_eq in E. rewrite length_append in E.
    assert (pre = "") by (apply length0; lia). subst pre.
    exists "". split; [reflexivity | constructor].
  - cbn [bt] in H. destruct s; [|contradiction]. destruct H as [<-|[]].
    exists "". split; [reflexivity | constructor].
Qed.

Lemma star_complete : forall a,
  (forall pre m t, Matches a pre m t -> In t (bt (String.length (pre ++ m ++ t)) a (m ++ t))) ->
  forall pre m t, Matches (RStar a) pre m t ->
  forall fuel, String.length m <= fuel ->
  In t (star_loop (String.length (pre ++ m ++ t)) a fuel (m ++ t)).
Proof.
  intros a Ha pre m t H. remember (RStar a) as r eqn:Er.
  induction H; try discriminate; inversion Er; subst a0; clear Er.
  - intros fuel _. destruct fuel; cbn [star_loop]; [now left | apply in_or_app; right; now left].
  - intros fuel Hf. specialize (IHMatches2 eq_refl).
    destruct x as [|c x].
    + change ("" ++ y) with y in *. rewrite append_nil_r in *. now apply IHMatches2.
    + destruct fuel as [|f]; [cbn in Hf; lia|].
      cbn [star_loop]. apply in_or_app. left. apply in_flat_map.
      exists (y ++ post). rewrite (append_assoc (String c x) y post). split.
      * apply Ha. assumption.
      * replace (Nat.ltb _ _) with true.
        -- specialize (IHMatches2 f).
           rewrite <- (append_assoc pre (String c x)).
           apply IHMatches2. rewrite length_append in Hf. cbn in Hf. lia.
        -- symmetry. apply Nat.ltb_lt. cbn. rewrite !length_append. lia.
Qed.

Lemma bt_complete : forall r pre m t,
  Matches r pre m t -> In t (bt (String.length (pre ++ m ++ t)) r (m ++ t)).
Proof.
  induction r as [|neg rs|a IHa b IHb|a IHa b IHb|a IHa| |]; intros pre m t H.
  - inversion H; subst. now left.
  - apply inv_cls in H. destruct H as [c [-> E]]. cbn [bt append]. rewrite E. now left.
  - apply inv_cat in H. destruct H as [x [y [-> [Hx Hy]]]].
    cbn [bt]. apply in_flat_map. exists (y ++ t). split.
    + rewrite (append_assoc x y t). now apply IHa.
    + rewrite (append_assoc x y t), <- (append_assoc pre x). now apply IHb.
  - inversion H; subst; cbn [bt]; apply in_or_app; [left; now apply IHa | right; now apply IHb].
  - rewrite bt_star. apply star_complete; auto. rewrite length_append. lia.
  - inversion H; subst. cbn [bt append]. rewrite Nat.eqb_refl. now left.
  - inversion H; subst. now left.
Qed.

Lemma take_app : forall m t, take (String.length (m ++ t) - String.length t) (m ++ t) = m.
Proof.
  intros m t. rewrite length_append, Nat.add_sub.
  induction m as [|c m IH]; cbn; [now destruct t | now rewrite IH].
Qed.

(** Everything [find] returns is a match. *)
Lemma find_from_sound : forall r s pre m,
  find_from (String.length (pre ++ s)) r s = Some m ->
  exists p post, s = p ++ m ++ post /\ Matches r (pre ++ p) m post.
Proof.
  intros r. induction s as [|c s IH]; intros pre m H; cbn [find_from] in H.
  - destruct (bt _ r "") as [|t ts] eqn:E; [discriminate|].
    destruct (bt_sound r pre "" t) as [x [Ex Hx]]; [rewrite E; now left|].
    destruct x; [|discriminate]. destruct t; [|discriminate].
    inversion H; subst m. exists "", "". split; [reflexivity|]. now rewrite append_nil_r.
  - destruct (bt _ r (String c s)) as [|t ts] eqn:E.
    + replace (pre ++ String c s) with ((pre ++ String c "") ++ s) in H
        by now rewrite append_assoc.
      destruct (IH _ _ H) as [p [post [-> Hm]]].
      exists (String c p), post. split; [reflexivity|].
      now rewrite append_assoc in Hm.
    + destruct (bt_sound r pre (String c s) t) as [x [Ex Hx]]; [rewrite E; now left|].
      assert (Em : m = take (String.length (String c s) - String.length t) (String c s))
        by (destruct s; inversion H; reflexivity).
      rewrite Ex, take_app in Em. subst m. exists "", t. cbn [append].
      split; [assumption | now rewrite append_nil_r].
Qed.

Lemma find_sound : forall r s m, find r s = Some m ->
  exists pre post, s = pre ++ m ++ post /\ Matches r pre m post.
Proof.
  intros r s m H. destruct (find_from_sound r s "" m H) as [p [post [E Hm]]].
  now exists p, post.
Qed.

Lemma find_from_none : forall r s pre,
  find_from (String.length (pre ++ s)) r s = None ->
  forall p m post, s = p ++ m ++ post -> ~ Matches r (pre ++ p) m post.
Proof.
  intros r. induction s as [|c s IH]; intros pre H p m post E Hm; cbn [find_from] in H.
  - destruct p; [|discriminate]. rewrite append_nil_r in Hm. cbn [append] in E.
    pose proof (bt_complete _ _ _ _ Hm) as Hin. rewrite <- E in Hin.
    destruct (bt _ r ""); [contradiction | discriminate].
  - destruct (bt _ r (String c s)) as [|t ts] eqn:Eb; [|discriminate].
    destruct p as [|d p].
    + rewrite append_nil_r in Hm. cbn [append] in E.
      pose proof (bt_complete _ _ _ _ Hm) as Hin. rewrite <- E, Eb in Hin. contradiction.
    + cbn [append] in E. inversion E; subst d s.
      replace (pre ++ String c (p ++ m ++ post)) with ((pre ++ String c "") ++ p ++ m ++ post) in H
        by now rewrite append_assoc.
      apply (IH (pre ++ String c "") H p m post eq_refl). now rewrite append_assoc.
Qed.

Lemma find_none : forall r s, find r s = None -> ~ Occurs r s.
Proof.
  intros r s H [pre [m [post [E Hm]]]].
  exact (find_from_none r s "" H pre m post E Hm).
Qed.

Theorem match_string_spec : forall r s, match_string r s = true <-> Occurs r s.
Proof.
  intros r s. unfold match_string. destruct (find r s) as [m|] eqn:E.
  - split; [intros _ | reflexivity].
    destruct (find_sound _ _ _ E) as [pre [post [-> Hm]]]. now exists pre, m, post.
  - split; [discriminate | intros H; now apply find_none in E].
Qed.

(** Leftmost: if a match starts at the front of the text, the match found starts there too. *)
Lemma find_front : forall r s t ts,
  bt (String.length s) r s = t :: ts -> find r s = Some (take (String.length s - String.length t) s).
Proof. intros r s t ts H. unfold find. destruct s; cbn [find_from]; now rewrite H. Qed.

(* ------------------------------------------------------------------ *)
(** * Anchoring *)

Lemma bol_anchored : forall r, Anchored (RCat RBol r).
Proof.
  intros r pre m post H. apply inv_cat in H. destruct H as [x [y [_ [H _]]]].
  now apply inv_bol in H.
Qed.

Lemma bol_prefix : forall r s,
  match_string (RCat RBol r) s = true <-> PrefixMatches r s.
Proof.
  intros r s. rewrite match_string_spec. split.
  - intros [pre [m [post [-> H]]]]. apply inv_cat in H. destruct H as [x [y [-> [Hx Hy]]]].
    apply inv_bol in Hx. destruct Hx as [-> ->].
    exists y, post. split; [reflexivity | assumption].
  - intros [m [post [-> H]]]. exists "", m, post. split; [reflexivity|].
    change m with ("" ++ m). constructor; [constructor | assumption].
Qed.

(** The expression for a literal string, as the parser builds it. *)
Fixpoint lit (p : string) : re :=
  match p with
  | EmptyString => REps
  | String c p' => RCat (chr c) (lit p')
  end.

Lemma chr_match : forall c d, cls_match false [(N_of_ascii c, N_of_ascii c)] d = true <-> d = c.
Proof.
  intros c d. unfold cls_match. cbn [existsb fst snd]. rewrite xorb_false_l.
  unfold N_in. rewrite orb_false_r, andb_true_iff, !N.leb_le.
  split.
  - intros [H1 H2]. rewrite <- (ascii_N_embedding c), <- (ascii_N_embedding d). f_equal. lia.
  - intros ->. lia.
Qed.

Lemma lit_matches : forall p pre m post, Matches (lit p) pre m post <-> m = p.
Proof.
  induction p as [|c p IH]; intros pre m post; cbn [lit].
  - split; [intros H; now inversion H | intros ->; constructor].
  - split.
    + intros H. apply inv_cat in H. destruct H as [x [y [-> [Hx Hy]]]].
      apply inv_cls in Hx. destruct Hx as [d [-> E]].
      apply chr_match in E. apply IH in Hy. now subst.
    + intros ->. change (String c p) with (String c "" ++ p). constructor.
      * constructor. now apply chr_match.
      * now apply IH.
Qed.

(* ------------------------------------------------------------------ *)
(** * The parser *)

(** [rest] is what is left of [s] after taking something off its front. *)
Definition suffix_of (rest s : string) : Prop := exists x, s = x ++ rest.

Lemma suffix_refl : forall s, suffix_of s s.
Proof. intros s. now exists "". Qed.

Lemma suffix_trans : forall a b c, suffix_of a b -> suffix_of b c -> suffix_of a c.
Proof. intros a b c [x ->] [y ->]. exists (y ++ x). now rewrite append_assoc. Qed.

Lemma suffix_cons : forall c s, suffix_of s (String c s).
Proof. intros c s. now exists (String c ""). Qed.

Lemma suffix_cons_trans : forall c a s, suffix_of a s -> suffix_of a (String c s).
Proof. intros c a s H. eapply suffix_trans; [exact H | apply suffix_cons]. Qed.

Lemma suffix_length : forall a b, suffix_of a b -> String.length a <= String.length b.
Proof. intros a b [x ->]. rewrite length_append. lia. Qed.

Lemma suffix_has_char : forall ch a b, suffix_of a b -> has_char ch b = false -> has_char ch a = false.
Proof.
  intros ch a b [x ->]. induction x as [|c x IH]; cbn; [auto|].
  rewrite orb_false_iff. intros [_ H]. auto.
Qed.

Lemma parse_num_suffix : forall s acc n rest, parse_num acc s = (n, rest) -> suffix_of rest s.
Proof.
  induction s as [|c s IH]; intros acc n rest H; cbn [parse_num] in H.
  - inversion H. apply suffix_refl.
  - destruct (N_in 48 57 (N_of_ascii c)).
    + apply suffix_cons_trans. eapply IH. exact H.
    + inversion H. apply suffix_refl.
Qed.

Lemma parse_int_suffix : forall s n rest, parse_int s = (n, rest) -> suffix_of rest s.
Proof.
  intros s n rest H. unfold parse_int in H.
  destruct s as [|c [|d s]]; [eapply parse_num_suffix; exact H | eapply parse_num_suffix; exact H |].
  destruct (Ascii.eqb c "0" && N_in 48 57 (N_of_ascii d))%bool; [|eapply parse_num_suffix; exact H].
  injection H as _ <-. apply suffix_refl.
Qed.

Ltac break H :=
  match type of H with
  | context [match ?x with _ => _ end] => destruct x eqn:?
  end.

Lemma parse_braces_suffix : forall s mn mx rest,
  parse_braces s = QRep mn mx rest -> suffix_of rest s.
Proof.
  intros s mn mx rest H. unfold parse_braces in H.
  destruct (parse_int s) as [o r] eqn:E1. apply parse_int_suffix in E1.
  destruct o as [n|]; [|discriminate]. destruct r as [|c r]; [discriminate|].
  assert (Hr : suffix_of r s) by (eapply suffix_trans; [apply suffix_cons | exact E1]).
  destruct (Ascii.eqb c "}").
  - destruct (Nat.ltb 1000 n); inversion H; subst. assumption.
  - destruct (Ascii.eqb c ","); [|discriminate].
    destruct (parse_int r) as [o2 r2] eqn:E2. apply parse_int_suffix in E2.
    destruct o2 as [m|]; (destruct r2 as [|d r2]; [discriminate|]);
      (destruct (Ascii.eqb d "}"); [|discriminate]);
      (match type of H with context [if ?b then _ else _] => destruct b end; [discriminate|]);
      inversion H; subst;
      (eapply suffix_trans; [apply suffix_cons | eapply suffix_trans; [exact E2 | exact Hr]]).
Qed.

Lemma parse_quant1_suffix : forall s mn mx rest,
  parse_quant1 s = QRep mn mx rest -> suffix_of rest s.
Proof.
  intros s mn mx rest H. destruct s as [|c s]; [discriminate|]. cbn [parse_quant1] in H.
  apply suffix_cons_trans.
  destruct (Ascii.eqb c "*"); [inversion H; apply suffix_refl|].
  destruct (Ascii.eqb c "+"); [inversion H; apply suffix_refl|].
  destruct (Ascii.eqb c "?"); [inversion H; apply suffix_refl|].
  destruct (Ascii.eqb c "{"); [|discriminate]. eapply parse_braces_suffix; exact H.
Qed.

Lemma parse_quant_suffix : forall a s q rest,
  parse_quant a s = Some (q, rest) -> suffix_of rest s.
Proof.
  intros a s q rest H. unfold parse_quant in H.
  destruct (parse_quant1 s) as [|mn mx r|] eqn:E; [inversion H; apply suffix_refl| |discriminate].
  destruct (parse_quant1 r); inversion H; subst. eapply parse_quant1_suffix; exact E.
Qed.

Lemma parse_cls_char_suffix : forall s c rest,
  parse_cls_char s = Some (c, rest) -> suffix_of rest s /\ String.length rest < String.length s.
Proof.
  intros s c rest H. destruct s as [|d s]; [discriminate|]. cbn [parse_cls_char] in H.
  destruct (Ascii.eqb d "\").
  - destruct s as [|e s]; [discriminate|]. destruct (is_punct e); [|discriminate].
    inversion H; subst. split; [apply suffix_cons_trans, suffix_cons | cbn; lia].
  - inversion H; subst. split; [apply suffix_cons | cbn; lia].
Qed.

Lemma peek_suffix : forall c s s', peek c s = Some s' -> suffix_of s' s.
Proof.
  intros c [|d s] s' H; [discriminate|]. cbn [peek] in H. destruct (Ascii.eqb d c); [|discriminate].
  inversion H. apply suffix_cons.
Qed.

Lemma peek2_suffix : forall c d s s', peek2 c d s = Some s' -> suffix_of s' s.
Proof.
  intros c d s s' H. unfold peek2 in H. destruct (peek c s) as [s1|] eqn:E; [|discriminate].
  eapply suffix_trans; [eapply peek_suffix; exact H | eapply peek_suffix; exact E].
Qed.

Lemma cls_item_suffix : forall s rs rest, cls_item s = Some (rs, rest) -> suffix_of rest s.
Proof.
  intros s rs rest H. unfold cls_item in H. destruct (cls_escape s) as [[a b]|] eqn:E.
  - inversion H; subst. unfold cls_escape in E.
    repeat match type of E with
           | match ?x with _ => _ end = _ => destruct x eqn:?
           end; inversion E; subst; eapply peek2_suffix; eassumption.
  - destruct (peek2 "[" ":" s); [discriminate|].
    destruct (parse_cls_char s) as [[lo s1]|] eqn:E1; [|discriminate].
    apply parse_cls_char_suffix in E1. destruct E1 as [E1 _].
    destruct (peek "-" s1) as [s2|] eqn:E2; [|inversion H; subst; assumption].
    apply peek_suffix in E2.
    destruct (peek "]" s2); [inversion H; subst; assumption|].
    destruct (parse_cls_char s2) as [[hi s3]|] eqn:E3; [|discriminate].
    apply parse_cls_char_suffix in E3. destruct E3 as [E3 _].
    destruct (N.ltb _ _); inversion H; subst.
    eapply suffix_trans; [exact E3|]. eapply suffix_trans; [exact E2 | exact E1].
Qed.

Lemma parse_cls_suffix : forall f first acc s rs rest,
  parse_cls f first acc s = Some (rs, rest) -> suffix_of rest s.
Proof.
  induction f as [|f IH]; intros first acc s rs rest H; [discriminate|]. cbn [parse_cls] in H.
  destruct (if first then None else peek "]" s) as [r0|] eqn:E.
  - inversion H; subst. destruct first; [discriminate | eapply peek_suffix; exact E].
  - destruct (cls_item s) as [[rs1 r1]|] eqn:E1; [|discriminate].
    eapply suffix_trans; [eapply IH; exact H | eapply cls_item_suffix; exact E1].
Qed.

Lemma parse_class_suffix : forall s r rest, parse_class s = Some (r, rest) -> suffix_of rest s.
Proof.
  intros s r rest H. unfold parse_class in H.
  destruct (peek "^" s) as [s'|] eqn:E; destruct (parse_cls _ _ _ _) as [[rs r1]|] eqn:E1;
    inversion H; subst; apply parse_cls_suffix in E1; [|assumption].
  eapply suffix_trans; [exact E1 | eapply peek_suffix; exact E].
Qed.

Lemma strip_suffix : forall s s1, strip_noncapture s = Some s1 -> suffix_of s1 s.
Proof.
  intros s s1 H. unfold strip_noncapture in H. destruct (peek2 "?" ":" s) as [s'|] eqn:E.
  - inversion H; subst. eapply peek2_suffix; exact E.
  - destruct (peek "?" s); inversion H; subst. apply suffix_refl.
Qed.

Lemma p_suffix : forall f,
  (forall s r rest, p_alt f s = Some (r, rest) -> suffix_of rest s) /\
  (forall s r rest, p_cat f s = Some (r, rest) -> suffix_of rest s) /\
  (forall s r rest, p_atom f s = Some (r, rest) ->
      suffix_of rest s /\ String.length rest < String.length s).
Proof.
  induction f as [|f [IHalt [IHcat IHatom]]].
  - repeat split; intros; discriminate.
  - split; [|split].
    + intros s r rest H. cbn [p_alt] in H.
      destruct (p_cat f s) as [[a r1]|] eqn:E; [|discriminate]. apply IHcat in E.
      destruct r1 as [|c r1]; [inversion H; subst; assumption|].
      destruct (Ascii.eqb c "|"); [|inversion H; subst; assumption].
      destruct (p_alt f r1) as [[b r2]|] eqn:E2; [|discriminate]. apply IHalt in E2.
      inversion H; subst.
      eapply suffix_trans; [exact E2|]. eapply suffix_trans; [apply suffix_cons | exact E].
    + intros s r rest H. cbn [p_cat] in H.
      destruct s as [|c s]; [inversion H; apply suffix_refl|].
      destruct (Ascii.eqb c "|" || Ascii.eqb c ")")%bool; [inversion H; apply suffix_refl|].
      destruct (p_atom f (String c s)) as [[a r1]|] eqn:E; [|discriminate]. apply IHatom in E.
      destruct (parse_quant a r1) as [[q r2]|] eqn:E2; [|discriminate]. apply parse_quant_suffix in E2.
      destruct (p_cat f r2) as [[b r3]|] eqn:E3; [|discriminate]. apply IHcat in E3.
      inversion H; subst. eapply suffix_trans; [exact E3|]. eapply suffix_trans; [exact E2 | apply E].
    + intros s r rest H. cbn [p_atom] in H.
      destruct s as [|c s]; [discriminate|].
      assert (G : suffix_of rest s -> suffix_of rest (String c s) /\
                   String.length rest < String.length (String c s)).
      { intros G. split; [now apply suffix_cons_trans | apply suffix_length in G; cbn; lia]. }
      apply G. clear G.
      destruct (Ascii.eqb c "(").
      { destruct (strip_noncapture s) as [s1|] eqn:E; [|discriminate]. apply strip_suffix in E.
        destruct (p_alt f s1) as [[a r1]|] eqn:E1; [|discriminate]. apply IHalt in E1.
        destruct (peek ")" r1) as [r2|] eqn:E2; [|discriminate]. apply peek_suffix in E2.
        inversion H; subst. eapply suffix_trans; [|exact E].
        eapply suffix_trans; [exact E2 | exact E1]. }
      destruct (Ascii.eqb c "["); [eapply parse_class_suffix; exact H|].
      destruct (Ascii.eqb c "."); [inversion H; apply suffix_refl|].
      destruct (Ascii.eqb c "^"); [inversion H; apply suffix_refl|].
      destruct (Ascii.eqb c "$"); [inversion H; apply suffix_refl|].
      destruct (Ascii.eqb c "\").
      { destruct s as [|d s]; [discriminate|]. destruct (parse_escape d); inversion H; subst.
        apply suffix_cons. }
      destruct (Ascii.eqb c "*" || Ascii.eqb c "+" || Ascii.eqb c "?")%bool; [discriminate|].
      destruct (Ascii.eqb c "{").
      { destruct (parse_braces s); inversion H; subst. apply suffix_refl. }
      inversion H; subst. apply suffix_refl.
Qed.

(** With enough fuel the amount of fuel does not matter. *)
Lemma p_fuel : forall f,
  (forall g s, 3 * String.length s + 3 <= f -> f <= g -> p_alt g s = p_alt f s) /\
  (forall g s, 3 * String.length s + 2 <= f -> f <= g -> p_cat g s = p_cat f s) /\
  (forall g s, 3 * String.length s + 1 <= f -> f <= g -> p_atom g s = p_atom f s).
Proof.
  induction f as [|f [IHalt [IHcat IHatom]]].
  - repeat split; intros; lia.
  - split; [|split]; intros g s Hf Hg; (destruct g as [|g]; [lia|]).
    + cbn [p_alt]. rewrite (IHcat g s) by lia.
      destruct (p_cat f s) as [[a r1]|] eqn:E; [|reflexivity].
      destruct r1 as [|c r1]; [reflexivity|].
      destruct (Ascii.eqb c "|"); [|reflexivity].
      apply (proj1 (proj2 (p_suffix f))) in E. apply suffix_length in E. cbn in E.
      rewrite (IHalt g r1) by lia. reflexivity.
    + cbn [p_cat]. destruct s as [|c s]; [reflexivity|].
      destruct (Ascii.eqb c "|" || Ascii.eqb c ")")%bool; [reflexivity|].
      rewrite (IHatom g (String c s)) by lia.
      destruct (p_atom f (String c s)) as [[a r1]|] eqn:E; [|reflexivity].
      apply (proj2 (proj2 (p_suffix f))) in E. destruct E as [_ E].
      destruct (parse_quant a r1) as [[q r2]|] eqn:E2; [|reflexivity].
      apply parse_quant_suffix in E2. apply suffix_length in E2.
      rewrite (IHcat g r2) by lia. reflexivity.
    + cbn [p_atom]. destruct s as [|c s]; [reflexivity|].
      destruct (Ascii.eqb c "("); [|reflexivity].
      destruct (strip_noncapture s) as [s1|] eqn:E; [|reflexivity].
      apply strip_suffix in E. apply suffix_length in E. cbn in Hf.
      rewrite (IHalt g s1) by lia. reflexivity.
Qed.

Lemma p_cat_fuel : forall f g s,
  3 * String.length s + 2 <= f -> 3 * String.length s + 2 <= g -> p_cat g s = p_cat f s.
Proof.
  intros f g s Hf Hg. destruct (Nat.le_ge_cases f g) as [H|H].
  - apply (proj1 (proj2 (p_fuel f))); assumption.
  - symmetry. apply (proj1 (proj2 (p_fuel g))); assumption.
Qed.

(** Literal text parses to the expression for it. *)
Lemma literal_char : forall c p, literal (String c p) = true ->
  Ascii.eqb c "*" = false /\ Ascii.eqb c "+" = false /\ Ascii.eqb c "?" = false /\
  Ascii.eqb c "(" = false /\ Ascii.eqb c ")" = false /\ Ascii.eqb c "[" = false /\
  Ascii.eqb c "|" = false /\ Ascii.eqb c "\" = false /\ Ascii.eqb c "." = false /\
  Ascii.eqb c "^" = false /\ Ascii.eqb c "$" = false /\ Ascii.eqb c "{" = false /\ literal p = true.
Proof.
  intros c p H. cbn [literal] in H. apply andb_true_iff in H. destruct H as [H Hp].
  unfold is_meta in H. cbn [existsb] in H. apply negb_true_iff in H.
  repeat (apply orb_false_iff in H; destruct H as [? H]).
  repeat split; assumption.
Qed.

Lemma parse_quant_literal : forall r p, literal p = true -> parse_quant r p = Some (r, p).
Proof.
  intros r p H. unfold parse_quant. destruct p as [|c p]; [reflexivity|].
  apply literal_char in H. cbn [parse_quant1].
  destruct H as [-> [-> [-> [? [? [? [? [? [? [? [? [-> ?]]]]]]]]]]]]. reflexivity.
Qed.

Lemma p_cat_literal : forall p f, literal p = true -> 3 * String.length p + 2 <= f ->
  p_cat f p = Some (lit p, "").
Proof.
  induction p as [|c p IH]; intros f H Hf; (destruct f as [|f]; [lia|]); cbn [p_cat lit].
  - reflexivity.
  - pose proof (literal_char _ _ H) as HL.
    destruct HL as [E1 [E2 [E3 [E4 [E5 [E6 [E7 [E8 [E9 [E10 [E11 [E12 Hp]]]]]]]]]]]].
    rewrite E7, E5. cbn [orb].
    destruct f as [|f]; [cbn in Hf; lia|].
    replace (p_atom (S f) (String c p)) with (Some (chr c, p))
      by (cbn [p_atom]; rewrite E4, E6, E9, E10, E11, E8, E1, E2, E3, E12; reflexivity).
    rewrite parse_quant_literal by assumption.
    rewrite IH; [reflexivity | assumption | cbn in Hf; lia].
Qed.

(** "^" followed by a path that does not begin with a repetition operator. *)
Lemma parse_quant_none : forall a p, starts_quant p = false -> parse_quant a p = Some (a, p).
Proof.
  intros a p H. unfold parse_quant. destruct p as [|c p]; [reflexivity|].
  cbn [starts_quant] in H. apply orb_false_iff in H. destruct H as [H H4].
  apply orb_false_iff in H. destruct H as [H H3]. apply orb_false_iff in H. destruct H as [H1 H2].
  cbn [parse_quant1]. now rewrite H1, H2, H3, H4.
Qed.

Lemma p_cat_caret : forall f p, starts_quant p = false ->
  p_cat (S (S f)) (String "^" p) =
  match p_cat (S f) p with Some (b, rest) => Some (RCat RBol b, rest) | None => None end.
Proof.
  intros f p Hq. remember (S f) as g eqn:Eg. cbn [p_cat].
  change (Ascii.eqb "^" "|" || Ascii.eqb "^" ")")%bool with false. cbn [orb].
  replace (p_atom g (String "^" p)) with (Some (RBol, p)) by (subst g; reflexivity).
  now rewrite parse_quant_none by assumption.
Qed.

Lemma compile_caret_eq : forall p, starts_quant p = false ->
  re_compile ("^" ++ p) =
  match (match p_cat (3 * String.length p + 2) p with
         | Some (b, rest) => Some (RCat RBol b, rest) | None => None end) with
  | Some (a, EmptyString) => Some a
  | Some (a, String c rest') =>
      if Ascii.eqb c "|" then
        match p_alt (3 * String.length p + 5) rest' with
        | Some (b, EmptyString) => Some (RAlt a b)
        | _ => None
        end
      else None
  | None => None
  end.
Proof.
  intros p Hq. unfold re_compile.
  replace (3 * String.length ("^" ++ p) + 3) with (S (3 * String.length p + 5)) by (cbn; lia).
  cbn [p_alt append].
  replace (3 * String.length p + 5) with (S (S (3 * String.length p + 3))) at 1 by lia.
  rewrite p_cat_caret by assumption.
  rewrite (p_cat_fuel (3 * String.length p + 2) (S (3 * String.length p + 3)) p) by lia.
  destruct (p_cat (3 * String.length p + 2) p) as [[b [|c rest]]|]; try reflexivity.
  destruct (Ascii.eqb c "|"); [|reflexivity].
  destruct (p_alt _ rest) as [[b' [|c' rest']]|]; reflexivity.
Qed.

Lemma compile_literal : forall p, literal p = true -> re_compile p = Some (lit p).
Proof.
  intros p H. unfold re_compile.
  replace (3 * String.length p + 3) with (S (3 * String.length p + 2)) by lia.
  cbn [p_alt]. now rewrite p_cat_literal by (auto; lia).
Qed.

Lemma literal_no_quant : forall p, literal p = true -> starts_quant p = false.
Proof.
  intros [|c p] H; [reflexivity|]. apply literal_char in H. cbn [starts_quant].
  destruct H as [-> [-> [-> [? [? [? [? [? [? [? [? [-> ?]]]]]]]]]]]]. reflexivity.
Qed.

Lemma compile_caret_literal : forall p, literal p = true ->
  re_compile ("^" ++ p) = Some (RCat RBol (lit p)).
Proof.
  intros p H. rewrite compile_caret_eq by now apply literal_no_quant.
  now rewrite p_cat_literal by (auto; lia).
Qed.

Lemma caret_literal_match : forall p r s, literal p = true -> re_compile ("^" ++ p) = Some r ->
  match_string r s = String.prefix p s.
Proof.
  intros p r s Hl H. rewrite compile_caret_literal in H by assumption. inversion H; subst r.
  apply eq_true_iff_eq. rewrite bol_prefix, prefix_spec. unfold PrefixMatches. split.
  - intros [m [post [-> Hm]]]. apply lit_matches in Hm. subst. now exists post.
  - intros [t ->]. exists p, t. split; [reflexivity | now apply lit_matches].
Qed.

(* ------------------------------------------------------------------ *)
(** * Text after the match does not matter if no class accepts its first byte *)

Fixpoint rejects (c : ascii) (r : re) : bool :=
  match r with
  | REps => true
  | RCls neg rs => negb (cls_match neg rs c)
  | RCat a b | RAlt a b => (rejects c a && rejects c b)%bool
  | RStar _ | RBol | REol => false
  end.

Lemma flat_map_map {A B C} (f : B -> list C) (g : A -> B) (l : list A) :
  flat_map f (map g l) = flat_map (fun x => f (g x)) l.
Proof. induction l as [|x l IH]; cbn; [reflexivity | now rewrite IH]. Qed.

Lemma map_flat_map {A B C} (f : B -> C) (g : A -> list B) (l : list A) :
  map f (flat_map g l) = flat_map (fun x => map f (g x)) l.
Proof. induction l as [|x l IH]; cbn; [reflexivity | now rewrite map_app, IH]. Qed.

Lemma bt_app : forall c rest r, rejects c r = true -> forall n k a,
  bt n r (a ++ String c rest) = map (fun t => t ++ String c rest) (bt k r a).
Proof.
  intros c rest. induction r as [|neg rs|x IHx y IHy|x IHx y IHy|x IHx| |];
    intros Hr n k a; cbn [rejects] in Hr; try discriminate.
  - reflexivity.
  - cbn [bt]. destruct a as [|d a]; cbn [append].
    + apply negb_true_iff in Hr. now rewrite Hr.
    + destruct (cls_match neg rs d); reflexivity.
  - apply andb_true_iff in Hr. destruct Hr as [Hx Hy]. cbn [bt].
    rewrite (IHx Hx n k a), flat_map_map, map_flat_map.
    apply flat_map_ext. intros t. now apply IHy.
  - apply andb_true_iff in Hr. destruct Hr as [Hx Hy]. cbn [bt].
    rewrite (IHx Hx n k a), (IHy Hy n k a). now rewrite map_app.
Qed.
