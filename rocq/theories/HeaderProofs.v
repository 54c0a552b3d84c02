(** Lemmas about headers. *)
From Coq Require Import String Ascii List Bool NArith Lia.
From Verif Require Import GoStr Header HeaderSpec.
Import ListNotations.
Local Open Scope string_scope.

Lemma upper_lower : forall c, upper (lower c) = upper c.
Proof. intros [[] [] [] [] [] [] [] []]; reflexivity. Qed.
Lemma lower_upper : forall c, lower (upper c) = lower c.
Proof. intros [[] [] [] [] [] [] [] []]; reflexivity. Qed.
Lemma lower_idem : forall c, lower (lower c) = lower c.
Proof. intros [[] [] [] [] [] [] [] []]; reflexivity. Qed.
Lemma token_upper : forall c, token_char (upper c) = token_char c.
Proof. intros [[] [] [] [] [] [] [] []]; reflexivity. Qed.
Lemma token_lower : forall c, token_char (lower c) = token_char c.
Proof. intros [[] [] [] [] [] [] [] []]; reflexivity. Qed.
Lemma dash_upper : forall c, Ascii.eqb (upper c) "-" = Ascii.eqb c "-".
Proof. intros [[] [] [] [] [] [] [] []]; reflexivity. Qed.
Lemma dash_lower : forall c, Ascii.eqb (lower c) "-" = Ascii.eqb c "-".
Proof. intros [[] [] [] [] [] [] [] []]; reflexivity. Qed.

Lemma tokens_upper : forall s, all_chars token_char (to_upper s) = all_chars token_char s.
Proof. induction s as [|c s IH]; cbn [to_upper all_chars]; [reflexivity | now rewrite token_upper, IH]. Qed.

Lemma canon_from_upper : forall s u, canon_from u (to_upper s) = canon_from u s.
Proof.
  induction s as [|c s IH]; intros u; cbn [to_upper canon_from]; [reflexivity|].
  rewrite dash_upper, IH. destruct u; [now rewrite upper_idem | now rewrite lower_upper].
Qed.

Lemma canon_from_idem : forall s u, canon_from u (canon_from u s) = canon_from u s.
Proof.
  induction s as [|c s IH]; intros u; cbn [canon_from]; [reflexivity|].
  destruct u; [rewrite upper_idem, dash_upper | rewrite lower_idem, dash_lower]; now rewrite IH.
Qed.

Lemma tokens_canon_from : forall s u, all_chars token_char (canon_from u s) = all_chars token_char s.
Proof.
  induction s as [|c s IH]; intros u; cbn [canon_from all_chars]; [reflexivity|].
  rewrite IH. destruct u; [now rewrite token_upper | now rewrite token_lower].
Qed.

Lemma canon_idem : forall k, canon (canon k) = canon k.
Proof.
  intros k. unfold canon. destruct (all_chars token_char k) eqn:E.
  - rewrite tokens_canon_from, E. apply canon_from_idem.
  - now rewrite E.
Qed.

(** Names that differ in letter case only have one canonical form, if one of them is a token. *)
Lemma fold_canon : forall a b, equal_fold a b = true -> all_chars token_char b = true -> canon a = canon b.
Proof.
  intros a b H Hb. unfold equal_fold in H. apply String.eqb_eq in H. unfold canon.
  assert (Ha : all_chars token_char a = true) by now rewrite <- tokens_upper, H, tokens_upper.
  rewrite Ha, Hb. now rewrite <- canon_from_upper, H, canon_from_upper.
Qed.

Lemma should_proxy_canonical : forall k, canon k = k ->
  (should_proxy_header k = false <-> In k never_copied).
Proof.
  intros k Hk. unfold should_proxy_header. rewrite negb_false_iff, existsb_exists. split.
  - intros [d [Hd Hf]]. destruct Hd as [<-|[<-|[<-|[<-|[]]]]];
      apply fold_canon in Hf; try reflexivity; rewrite Hk in Hf; rewrite Hf; cbn; auto.
  - intros H. exists k. split; [|apply equal_fold_refl]. exact H.
Qed.

Lemma values_app : forall k a b, values k (a ++ b)%list = (values k a ++ values k b)%list.
Proof. intros k a b. unfold values. now rewrite filter_app, map_app. Qed.

Lemma values_add : forall k k' v h,
  values k (add k' v h) = (values k h ++ if String.eqb (canon k') k then [v] else [])%list.
Proof.
  intros k k' v h. unfold add. rewrite values_app. f_equal. unfold values. cbn [filter fst].
  now destruct (String.eqb (canon k') k).
Qed.

Lemma values_set : forall k k' v h,
  values k (set k' v h) = if String.eqb (canon k') k then [v] else values k h.
Proof.
  intros k k' v h. unfold set. rewrite values_app. destruct (String.eqb_spec (canon k') k) as [<-|n].
  - replace (values (canon k') (filter (fun p => negb (String.eqb (fst p) (canon k'))) h)) with (@nil string).
    + unfold values. cbn [filter fst]. now rewrite String.eqb_refl.
    + unfold values. induction h as [|p h IH]; [reflexivity|]. cbn [filter].
      destruct (String.eqb (fst p) (canon k')) eqn:E; cbn [negb filter]; [exact IH|]. now rewrite E.
  - unfold values at 2. cbn [filter fst]. destruct (String.eqb_spec (canon k') k); [congruence|].
    cbn [map]. rewrite app_nil_r. unfold values. f_equal. induction h as [|p h IH]; [reflexivity|].
    cbn [filter]. destruct (String.eqb_spec (fst p) (canon k')) as [E|E]; cbn [negb].
    + destruct (String.eqb_spec (fst p) k); [congruence | exact IH].
    + cbn [filter]. destruct (String.eqb (fst p) k); now rewrite IH.
Qed.

Lemma values_copy : forall src dst k, canonical_keys src ->
  values k (copy_headers src dst) =
  (values k dst ++ if existsb (String.eqb k) never_copied then [] else values k src)%list.
Proof.
  unfold copy_headers. induction src as [|[a v] src IH]; intros dst k Hc; cbn [fold_left fst snd].
  - destruct (existsb _ _); now rewrite app_nil_r.
  - assert (Ha : canon a = a) by (apply (Hc a v); now left).
    assert (Hc' : canonical_keys src) by (intros x y Hxy; apply (Hc x y); now right).
    rewrite IH by assumption. destruct (should_proxy_header a) eqn:E.
    + rewrite values_add, Ha, <- app_assoc. f_equal. unfold values at 2. cbn [filter fst].
      destruct (String.eqb_spec a k) as [<-|n].
      * destruct (existsb (String.eqb a) never_copied) eqn:E2; [|reflexivity].
        apply mem_str_In in E2. apply (should_proxy_canonical a Ha) in E2. congruence.
      * now destruct (existsb _ _).
    + f_equal. apply (should_proxy_canonical a Ha) in E. destruct (existsb (String.eqb k) never_copied) eqn:E2; [reflexivity|].
      unfold values. cbn [filter fst]. destruct (String.eqb_spec a k) as [<-|n]; [|reflexivity].
      apply mem_str_In in E. unfold mem_str in E. congruence.
Qed.
