(** Lemmas for C95. *)
From Coq Require Import List Bool ZArith Arith Lia.
From Verif Require Import Stats StatsSpec StatsProofs Sampler SamplerSpec.
Import ListNotations.

Lemma readings_app : forall w a b, readings w (a ++ b) = readings w a ++ readings w b.
Proof. intros. apply flat_map_app. Qed.

Lemma uses_app : forall w a b, uses w (a ++ b) = uses w a + uses w b.
Proof. intros. unfold uses. now rewrite filter_app, app_length. Qed.

Lemma map_same : forall A B (f : A -> B) x n, map f (repeat x n) = repeat (f x) n.
Proof. intros A B f x n. induction n as [|n IH]; [reflexivity|]. cbn. now rewrite IH. Qed.

Definition pending (p : place) : list (option Z) := match p with Measured m | After m => [m] | _ => [] end.

Section SamplerProofs.
Variable pid time : Z.
Notation step := (sampler_step pid time).
Notation exec := (sampler_exec pid time).

(** The sizes of both goroutines so far *)
Record inv (s : sampler) (ls : list slabel) (a b : list Z) : Prop := {
  iv_a : readings Logging ls = map Some a ++ pending (sm_logging s) /\ uses Logging ls = length a;
  iv_b : readings Keeping ls = map Some b ++ pending (sm_keeping s) /\ uses Keeping ls = length b;
  iv_logged : sm_logged s = a;
  iv_hist : sm_history s = kept_history pid time b;
  iv_lock : (sm_locked s = true <-> (measuring s Logging \/ measuring s Keeping)) /\ ~ (measuring s Logging /\ measuring s Keeping);
  iv_run : sm_panic s = false }.

Lemma exec_snoc : forall ls l s, exec s (ls ++ [l]) = match exec s ls with Some s' => step s' l | None => None end.
Proof.
  induction ls as [|x ls IH]; intros l s; cbn [app sampler_exec]; [now destruct (step s l)|].
  destruct (step s x); [apply IH|reflexivity].
Qed.

Lemma kept_step : forall first later x, kept_history pid time ((first :: later) ++ [x]) =
  option_map (fun h => append_sample h (Sample pid x time)) (kept_history pid time (first :: later)).
Proof.
  intros first later x. cbn [kept_history option_map app]. f_equal.
  pose proof (history_any (repeat (Sample pid first time) 24) (map (fun r => Sample pid r time) later)) as [H1 _]; [now rewrite repeat_length|].
  pose proof (history_any (repeat (Sample pid first time) 24) (map (fun r => Sample pid r time) (later ++ [x]))) as [H2 _]; [now rewrite repeat_length|].
  assert (M : forall l, map (fun r => Sample pid r time) (last_of 24 (repeat first 24 ++ l)) = last_of 24 (repeat (Sample pid first time) 24 ++ map (fun r => Sample pid r time) l)).
  { intro l. unfold last_of. rewrite <- skipn_map, map_app, map_same. rewrite !app_length, !repeat_length, map_length. reflexivity. }
  rewrite !M, <- H1, <- H2, map_app, fold_left_app. reflexivity.
Qed.

Lemma kept_first : forall x, kept_history pid time [x] = Some (repeat (Sample pid x time) history_max).
Proof. intro x. reflexivity. Qed.

Lemma init_inv : inv sampler_init [] [] [].
Proof. constructor; try reflexivity; try (split; reflexivity). cbn. split; [split; [discriminate|intros [[]|[]]]|intros [[] _]]. Qed.

(** One step: the invariant goes on, or the process ends with a failed measurement. *)
Lemma step_inv : forall s ls a b l s', inv s ls a b -> step s l = Some s' ->
  (exists a' b', inv s' (ls ++ [l]) a' b') \/
  (exists w, l = Do w AUse /\ at_place s w = After None /\ s' = use pid time s w None).
Proof.
  intros s ls a b l s' [[A1 A2] [B1 B2] Hl Hh [L1 L2] Hr] H. unfold sampler_step in H. rewrite Hr in H.
  destruct l as [w act]. unfold measuring in L1, L2. cbn [at_place] in L1, L2.
  destruct s as [lk pl pk hist lg pn]. cbn [sm_locked sm_logging sm_keeping sm_history sm_logged sm_panic] in *. subst pn.
  destruct w; cbn [at_place sm_logging sm_keeping] in H.
  - destruct pl as [| |m|m|]; destruct act as [|m'| | |]; cbn [sm_locked] in H; try discriminate H;
      cbn [pending] in A1, B1; rewrite ?app_nil_r in A1; rewrite ?app_nil_r in B1.
    + destruct lk; [discriminate|]. injection H as <-. left. exists a, b.
      constructor; cbn; rewrite ?readings_app, ?uses_app; cbn; rewrite ?app_nil_r, ?Nat.add_0_r; try assumption; try (split; assumption); try reflexivity.
      * unfold measuring in *. cbn. split; [split; [intros _; left; exact I|reflexivity]|]. intros [_ H]. discriminate (proj2 L1 (or_intror H)).
    + injection H as <-. left. exists a, b. 
      constructor; cbn; rewrite ?readings_app, ?uses_app; cbn; rewrite ?app_nil_r, ?Nat.add_0_r; try assumption; try (split; assumption); try reflexivity.
      * split; [now rewrite A1|exact A2].
    + injection H as <-. left. exists a, b.
      constructor; cbn; rewrite ?readings_app, ?uses_app; cbn; rewrite ?app_nil_r, ?Nat.add_0_r; try assumption; try (split; assumption); try reflexivity.
      * unfold measuring in *. cbn. split; [split; [discriminate|intros [[]|H]; elim L2; split; [exact I|exact H]]|]. intros [[] _].
    + destruct m as [rss|]; [|right; exists Logging; injection H as <-; now split].
      injection H as <-. left. exists (a ++ [rss]), b.
      constructor; cbn; rewrite ?readings_app, ?uses_app; cbn; rewrite ?app_nil_r, ?Nat.add_0_r; try assumption; try (split; assumption); try reflexivity.
      * rewrite A1, map_app, app_length. cbn. split; [reflexivity|]. rewrite A2. reflexivity.
      * now rewrite Hl.
    + injection H as <-. left. exists a, b.
      constructor; cbn; rewrite ?readings_app, ?uses_app; cbn; rewrite ?app_nil_r, ?Nat.add_0_r; try assumption; try (split; assumption); try reflexivity.
  - destruct pk as [| |m|m|]; destruct act as [|m'| | |]; cbn [sm_locked] in H; try discriminate H;
      cbn [pending] in A1, B1; rewrite ?app_nil_r in A1; rewrite ?app_nil_r in B1.
    + destruct lk; [discriminate|]. injection H as <-. left. exists a, b.
      constructor; cbn; rewrite ?readings_app, ?uses_app; cbn; rewrite ?app_nil_r, ?Nat.add_0_r; try assumption; try (split; assumption); try reflexivity.
      * unfold measuring in *. cbn. split; [split; [intros _; right; exact I|reflexivity]|]. intros [H _]. discriminate (proj2 L1 (or_introl H)).
    + injection H as <-. left. exists a, b. 
      constructor; cbn; rewrite ?readings_app, ?uses_app; cbn; rewrite ?app_nil_r, ?Nat.add_0_r; try assumption; try (split; assumption); try reflexivity.
      * split; [now rewrite B1|exact B2].
    + injection H as <-. left. exists a, b.
      constructor; cbn; rewrite ?readings_app, ?uses_app; cbn; rewrite ?app_nil_r, ?Nat.add_0_r; try assumption; try (split; assumption); try reflexivity.
      * unfold measuring in *. cbn. split; [split; [discriminate|intros [H|[]]; elim L2; split; [exact H|exact I]]|]. intros [_ []].
    + destruct m as [rss|]; [|right; exists Keeping; injection H as <-; now split].
      left. exists a, (b ++ [rss]). destruct hist as [h|].
      * injection H as <-. destruct b as [|f b']; [discriminate Hh|].
        constructor; rewrite ?readings_app, ?uses_app; cbn [sm_logging sm_keeping sm_history sm_logged sm_panic pending]; try assumption.
        -- cbn. rewrite app_nil_r, Nat.add_0_r. split; assumption.
        -- rewrite B1, B2. rewrite map_app, !app_length. cbn. rewrite app_nil_r. split; reflexivity.
        -- rewrite kept_step, <- Hh. reflexivity.
        -- split; assumption.
        -- reflexivity.
      * injection H as <-. destruct b as [|f b']; [|discriminate Hh].
        constructor; rewrite ?readings_app, ?uses_app; cbn [sm_logging sm_keeping sm_history sm_logged sm_panic pending]; try assumption.
        -- cbn. rewrite app_nil_r, Nat.add_0_r. split; assumption.
        -- rewrite B1, B2. cbn. split; reflexivity.
        -- reflexivity.
        -- split; assumption.
        -- reflexivity.
    + injection H as <-. left. exists a, b.
      constructor; cbn; rewrite ?readings_app, ?uses_app; cbn; rewrite ?app_nil_r, ?Nat.add_0_r; try assumption; try (split; assumption); try reflexivity.
Qed.

Lemma exec_inv : forall ls s, exec sampler_init ls = Some s ->
  (exists a b, inv s ls a b) \/
  (exists ls0 s0 a b w, ls = ls0 ++ [Do w AUse] /\ inv s0 ls0 a b /\ at_place s0 w = After None /\ s = use pid time s0 w None).
Proof.
  intros ls. induction ls as [|l ls IH] using rev_ind; intros s H.
  - injection H as <-. left. exists [], []. exact init_inv.
  - rewrite exec_snoc in H. destruct (exec sampler_init ls) as [s1|] eqn:E; [|discriminate].
    destruct (IH s1 eq_refl) as [[a [b Iv]]|[ls0 [s0 [a [b [w [_ [_ [_ ->]]]]]]]]].
    + destruct (step_inv _ _ _ _ _ _ Iv H) as [H1|[w [-> [H2 H3]]]]; [now left|].
      right. exists ls, s1, a, b, w. split; [reflexivity|]. split; [exact Iv|]. now split.
    + destruct w; unfold sampler_step in H; cbn in H; discriminate.
Qed.

Lemma same_refl : forall w, same w w = true.
Proof. now intros []. Qed.

(** What a goroutine used before the process ends *)
Lemma inv_used : forall s ls a b, inv s ls a b -> used Logging ls = map Some a /\ used Keeping ls = map Some b.
Proof.
  intros s ls a b [[A1 A2] [B1 B2] _ _ _ _]. unfold used. rewrite A1, A2, B1, B2.
  split; rewrite firstn_app, map_length, Nat.sub_diag, firstn_O, app_nil_r; rewrite <- (map_length Some) at 1; apply firstn_all.
Qed.

Lemma panic_used : forall s ls a b w, inv s ls a b -> at_place s w = After None -> In None (used w (ls ++ [Do w AUse])).
Proof.
  intros s ls a b w [[A1 A2] [B1 B2] _ _ _ _] P. unfold used. rewrite readings_app, uses_app.
  destruct w; cbn [at_place] in P; rewrite P in *; cbn [pending] in *; cbn [readings flat_map same app]; rewrite app_nil_r.
  - rewrite A1, A2. change (uses Logging [Do Logging AUse]) with 1. rewrite firstn_all2 by (rewrite app_length, map_length; cbn; lia).
    apply in_or_app. right. now left.
  - rewrite B1, B2. change (uses Keeping [Do Keeping AUse]) with 1. rewrite firstn_all2 by (rewrite app_length, map_length; cbn; lia).
    apply in_or_app. right. now left.
Qed.

Lemma used_other : forall w w' ls, same w' w = false -> used w' (ls ++ [Do w AUse]) = used w' ls.
Proof.
  intros w w' ls H. unfold used. rewrite readings_app, uses_app. cbn. rewrite app_nil_r. unfold uses at 2. cbn [filter]. rewrite H. cbn. now rewrite Nat.add_0_r.
Qed.

Lemma no_none : forall l : list Z, ~ In None (map Some l).
Proof. intros l H. apply in_map_iff in H. destruct H as [x [H _]]. discriminate. Qed.

Lemma panics_iff : forall ls s, exec sampler_init ls = Some s ->
  (sm_panic s = true <-> In None (used Logging ls) \/ In None (used Keeping ls)).
Proof.
  intros ls s H. destruct (exec_inv _ _ H) as [[a [b Iv]]|[ls0 [s0 [a [b [w [-> [Iv [P ->]]]]]]]]].
  - destruct (inv_used _ _ _ _ Iv) as [-> ->]. rewrite (iv_run _ _ _ _ Iv). split; [discriminate|].
    intros [H1|H1]; elim (no_none _ H1).
  - pose proof (panic_used _ _ _ _ _ Iv P) as Hn. split; [intros _|reflexivity]. destruct w; [now left|now right].
Qed.

Lemma history_right : forall ls s b, exec sampler_init ls = Some s -> used Keeping ls = map Some b -> sm_history s = kept_history pid time b.
Proof.
  assert (Inj : forall x y : list Z, map Some x = map Some y -> x = y).
  { induction x as [|u x IH]; intros [|v y] H; try discriminate; [reflexivity|]. injection H as -> H. f_equal. now apply IH. }
  intros ls s b H U. destruct (exec_inv _ _ H) as [[a' [b' Iv]]|[ls0 [s0 [a' [b' [w [-> [Iv [P ->]]]]]]]]].
  - destruct (inv_used _ _ _ _ Iv) as [_ U']. rewrite U' in U. apply Inj in U. subst b'. exact (iv_hist _ _ _ _ Iv).
  - destruct w.
    + rewrite used_other in U by reflexivity. destruct (inv_used _ _ _ _ Iv) as [_ U']. rewrite U' in U. apply Inj in U. subst b'. exact (iv_hist _ _ _ _ Iv).
    + pose proof (panic_used _ _ _ _ _ Iv P) as Hn. rewrite U in Hn. elim (no_none _ Hn).
Qed.

Lemma logged_right : forall ls s a, exec sampler_init ls = Some s -> used Logging ls = map Some a -> sm_logged s = a.
Proof.
  assert (Inj : forall x y : list Z, map Some x = map Some y -> x = y).
  { induction x as [|u x IH]; intros [|v y] H; try discriminate; [reflexivity|]. injection H as -> H. f_equal. now apply IH. }
  intros ls s a H U. destruct (exec_inv _ _ H) as [[a' [b' Iv]]|[ls0 [s0 [a' [b' [w [-> [Iv [P ->]]]]]]]]].
  - destruct (inv_used _ _ _ _ Iv) as [U' _]. rewrite U' in U. apply Inj in U. subst a'. exact (iv_logged _ _ _ _ Iv).
  - destruct w.
    + pose proof (panic_used _ _ _ _ _ Iv P) as Hn. rewrite U in Hn. elim (no_none _ Hn).
    + rewrite used_other in U by reflexivity. destruct (inv_used _ _ _ _ Iv) as [U' _]. rewrite U' in U. apply Inj in U. subst a'. exact (iv_logged _ _ _ _ Iv).
Qed.

Lemma exclusive : forall ls s, exec sampler_init ls = Some s -> ~ (measuring s Logging /\ measuring s Keeping).
Proof.
  intros ls s H. destruct (exec_inv _ _ H) as [[a [b Iv]]|[ls0 [s0 [a [b [w [-> [Iv [P ->]]]]]]]]].
  - exact (proj2 (iv_lock _ _ _ _ Iv)).
  - destruct w; exact (proj2 (iv_lock _ _ _ _ Iv)).
Qed.

Ltac finish :=
  match goal with L1 : _ <-> _, L2 : ~ _, OkA : forall m, In m _ -> _, OkB : forall m, In m _ -> _ |- _ =>
    try (exfalso; apply L2; split; exact I); try (exfalso; exact (OkA None (or_introl eq_refl) eq_refl)); try (exfalso; exact (OkB None (or_introl eq_refl) eq_refl));
    match goal with
    | lk : bool |- _ => destruct lk;
        [try solve [exfalso; destruct (proj1 L1 eq_refl) as [[]|[]]]|try discriminate (proj2 L1 (or_introl I)); try discriminate (proj2 L1 (or_intror I))]
    end
  end;
  eexists; (split; [cbn; reflexivity|]); (split; [reflexivity|]); cbn; intros m Hm; decompose [or] Hm; try contradiction; subst; discriminate.

(** Whoever has the lock gives it back, so either goroutine gets to its next measurement. *)
Lemma sampling_goes_on : forall ls s w, exec sampler_init ls = Some s ->
  (forall m, In m (readings Logging ls ++ readings Keeping ls) -> m <> None) ->
  forall x, exists ls' s', exec s ls' = Some s' /\ at_place s' w = Measured (Some x) /\
    (forall m, In m (readings Logging ls' ++ readings Keeping ls') -> m <> None).
Proof.
  intros ls s w H Ok x. destruct (exec_inv _ _ H) as [[a [b Iv]]|[ls0 [s0 [a [b [w0 [-> [Iv [P ->]]]]]]]]].
  - destruct Iv as [[A1 A2] [B1 B2] Hl Hh [L1 L2] Hr]. rewrite A1, B1 in Ok.
    assert (OkA : forall m, In m (pending (sm_logging s)) -> m <> None) by (intros m Hm; apply Ok; rewrite !in_app_iff; tauto).
    assert (OkB : forall m, In m (pending (sm_keeping s)) -> m <> None) by (intros m Hm; apply Ok; rewrite !in_app_iff; tauto).
    clear A1 A2 B1 B2 Hl Ok H. unfold measuring in *. destruct s as [lk pl pk hist lg pn]. cbn in *. subst pn. clear Hh.
    destruct w.
    + exists (match pk with Inside => [Do Keeping (AMeasure (Some 0%Z)); Do Keeping AUnlock] | Measured _ => [Do Keeping AUnlock] | _ => [] end ++
        match pl with Before => [Do Logging ALock] | Inside => [] | Measured _ => [Do Logging AUnlock; Do Logging AUse; Do Logging AWake; Do Logging ALock]
        | After _ => [Do Logging AUse; Do Logging AWake; Do Logging ALock] | Asleep => [Do Logging AWake; Do Logging ALock] end ++ [Do Logging (AMeasure (Some x))]).
      destruct pk as [| |mk|mk|]; destruct pl as [| |[ml|]|[ml|]|]; finish.
    + exists (match pl with Inside => [Do Logging (AMeasure (Some 0%Z)); Do Logging AUnlock] | Measured _ => [Do Logging AUnlock] | _ => [] end ++
        match pk with Before => [Do Keeping ALock] | Inside => []
        | Measured _ => Do Keeping AUnlock :: Do Keeping AUse :: (if hist then [Do Keeping AWake] else []) ++ [Do Keeping ALock]
        | After _ => Do Keeping AUse :: (if hist then [Do Keeping AWake] else []) ++ [Do Keeping ALock] | Asleep => [Do Keeping AWake; Do Keeping ALock] end ++ [Do Keeping (AMeasure (Some x))]).
      destruct pl as [| |mk|mk|]; destruct pk as [| |[ml|]|[ml|]|]; destruct hist as [h|]; finish.
  - exfalso. destruct Iv as [[A1 A2] [B1 B2] _ _ _ _]. apply (Ok None); [|reflexivity]. rewrite !readings_app. cbn [readings flat_map app]. rewrite !app_nil_r, in_app_iff.
    destruct w0; cbn [at_place] in P; rewrite P in *; [left; rewrite A1|right; rewrite B1]; apply in_or_app; right; now left.
Qed.

Lemma sampling_ends : exists ls s, exec sampler_init ls = Some s /\ sm_panic s = true.
Proof. exists [Do Logging ALock; Do Logging (AMeasure None); Do Logging AUnlock; Do Logging AUse]. eexists. split; [reflexivity|reflexivity]. Qed.

End SamplerProofs.
