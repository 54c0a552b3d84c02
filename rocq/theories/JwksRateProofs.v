(** Lemmas for C46. *)
From Coq Require Import List Bool ZArith Lia.
From Verif Require Import JwksRate JwksRateSpec.
Import ListNotations.

Lemma nth_set : forall A i (x : A) l j, nth_error (set_nth i x l) j =
  if Nat.eqb i j then match nth_error l i with Some _ => Some x | None => None end else nth_error l j.
Proof.
  intros A i x l. revert i. induction l as [|y l IH]; intros [|i] [|j]; cbn [set_nth nth_error Nat.eqb]; try reflexivity.
  - now destruct (Nat.eqb i j).
  - apply IH.
Qed.

(** What is known of the goroutine holding the lock. *)
Definition holder_ok (s : rate) (p : gpc) : Prop :=
  match r_starts s with
  | [] => False
  | t :: before =>
      match p with
      | GFetch | GTest => r_count s = length before
      | GSleep u => r_count s = length before /\ (t + slow_wait <= u)%Z
      | GCount => r_count s = length before /\ (before <> [] -> t + slow_wait <= r_now s)%Z
      | GRelease => r_count s = S (length before) /\ (before <> [] -> t + slow_wait <= r_now s)%Z
      | GTry | GEnd => False
      end
  end.

Inductive spaced : list Z -> Prop :=
| sp_nil : spaced []
| sp_one : forall t, spaced [t]
| sp_two : forall t u, (u <= t)%Z -> spaced [t; u]
| sp_more : forall t u v l, (u + slow_wait <= t)%Z -> spaced (u :: v :: l) -> spaced (t :: u :: v :: l).

Record rate_inv (s : rate) : Prop := RateInv {
  ri_spaced : spaced (r_starts s);
  ri_past : match r_starts s with t :: _ => (t <= r_now s)%Z | [] => True end;
  ri_one : at_most_one s;
  ri_hold : forall i p, nth_error (r_gs s) i = Some p -> refreshing p -> r_locked s = true /\ holder_ok s p;
  ri_free : r_locked s = false -> r_count s = length (r_starts s) /\
    match r_starts s with t :: _ :: _ => (t + slow_wait <= r_now s)%Z | _ => True end }.

Lemma rate_inv_init : forall now, rate_inv (rate_init now).
Proof.
  intros now. constructor.
  - constructor.
  - exact I.
  - intros [|i] j p q H; discriminate.
  - intros [|i] p H; discriminate.
  - intros _. split; [reflexivity|exact I].
Qed.

(** Goroutine [i], which held the lock, goes on to [p]. *)
Lemma holder_moves : forall s s' i p0 p, rate_inv s -> nth_error (r_gs s) i = Some p0 -> refreshing p0 ->
  r_now s' = r_now s -> r_starts s' = r_starts s -> r_gs s' = set_nth i p (r_gs s) ->
  (refreshing p -> r_locked s' = true /\ holder_ok s' p) ->
  (r_locked s' = false -> r_count s' = length (r_starts s') /\
    match r_starts s' with t :: _ :: _ => (t + slow_wait <= r_now s')%Z | _ => True end) ->
  rate_inv s'.
Proof.
  intros s s' i p0 p [I1 I2 I3 I4 I5] Hi Hp0 En Es Eg Hh Hf.
  assert (Honly : forall j q, nth_error (r_gs s') j = Some q -> refreshing q -> j = i /\ q = p).
  { intros j q Hj Hq. rewrite Eg, nth_set, Hi in Hj. destruct (Nat.eqb_spec i j) as [->|Hne]; [split; congruence|].
    elim Hne. eapply I3; eauto. }
  constructor.
  - now rewrite Es.
  - now rewrite Es, En.
  - intros j k q r Hj Hk Hq Hr. destruct (Honly _ _ Hj Hq), (Honly _ _ Hk Hr). congruence.
  - intros j q Hj Hq. destruct (Honly _ _ Hj Hq) as [-> ->]. auto.
  - exact Hf.
Qed.

Lemma rate_inv_step : forall s l s', rate_inv s -> rate_step s l = Some s' -> rate_inv s'.
Proof.
  intros s l s' HI H. assert (HI' := HI). destruct HI' as [I1 I2 I3 I4 I5]. destruct l as [|i|d]; cbn [rate_step] in H.
  - injection H as <-. 
    assert (Hsame : forall j q, nth_error (r_gs s ++ [GTry]) j = Some q -> refreshing q -> nth_error (r_gs s) j = Some q).
    { intros j q Hj Hq. destruct (Nat.ltb_spec j (length (r_gs s))) as [Hl|Hl].
      - now rewrite nth_error_app1 in Hj.
      - rewrite nth_error_app2 in Hj by lia. destruct (j - length (r_gs s)) as [|[|m]]; cbn in Hj; try discriminate.
        injection Hj as <-. destruct Hq. }
    constructor; cbn [r_now r_locked r_count r_gs r_starts]; auto.
    + intros j k q r Hj Hk Hq Hr. eapply I3; eauto.
    + intros j q Hj Hq. destruct (I4 j q (Hsame _ _ Hj Hq) Hq). split; assumption.
  - destruct (nth_error (r_gs s) i) as [[| | |u| | |]|] eqn:Hi; try discriminate.
    + destruct (r_locked s) eqn:Hl.
      * injection H as <-. constructor; cbn [moved r_now r_locked r_count r_gs r_starts]; auto.
        -- intros j k q r Hj Hk Hq Hr. cbn [moved r_gs] in Hj, Hk. rewrite nth_set, Hi in Hj, Hk.
           destruct (Nat.eqb i j); [injection Hj as <-; destruct Hq|]. destruct (Nat.eqb i k); [injection Hk as <-; destruct Hr|].
           eapply I3; eauto.
        -- intros j q Hj Hq. rewrite nth_set, Hi in Hj. destruct (Nat.eqb i j); [injection Hj as <-; destruct Hq|].
           destruct (I4 j q Hj Hq). split; assumption.
        -- congruence.
      * injection H as <-. destruct (I5 eq_refl) as [F1 F2].
        assert (Hnone : forall j q, nth_error (r_gs s) j = Some q -> ~ refreshing q).
        { intros j q Hj Hq. destruct (I4 j q Hj Hq). discriminate. }
        assert (Honly : forall j q, nth_error (set_nth i GFetch (r_gs s)) j = Some q -> refreshing q -> j = i /\ q = GFetch).
        { intros j q Hj Hq. rewrite nth_set, Hi in Hj. destruct (Nat.eqb_spec i j); [split; congruence|]. elim (Hnone _ _ Hj Hq). }
        constructor; cbn [r_now r_locked r_count r_gs r_starts].
        -- destruct (r_starts s) as [|t [|u l]]; constructor; auto.
        -- lia.
        -- intros j k q r Hj Hk Hq Hr. destruct (Honly _ _ Hj Hq), (Honly _ _ Hk Hr). congruence.
        -- intros j q Hj Hq. destruct (Honly _ _ Hj Hq) as [-> ->]. split; [reflexivity|]. cbn. exact F1.
        -- discriminate.
    + injection H as <-. destruct (I4 i _ Hi I) as [L H4]. eapply (holder_moves s _ i _ _ HI Hi I); try reflexivity.
      * intros _. split; [exact L|exact H4].
      * cbn [moved r_locked]. congruence.
    + injection H as <-. destruct (I4 i _ Hi I) as [L H4]. eapply (holder_moves s _ i _ _ HI Hi I); try reflexivity.
      * intros _. split; [exact L|]. unfold holder_ok in *. cbn [moved r_starts r_count r_now].
        destruct (r_starts s) as [|t before]; [destruct H4|]. destruct (Nat.ltb_spec 0 (r_count s)) as [Hc|Hc].
        -- split; [assumption|]. lia.
        -- split; [assumption|]. intros Hb. destruct before; [contradiction|]. cbn [length] in H4. lia.
      * cbn [moved r_locked]. congruence.
    + destruct (Z.leb_spec u (r_now s)) as [Hu|]; [|discriminate]. injection H as <-.
      destruct (I4 i _ Hi I) as [L H4]. eapply (holder_moves s _ i _ _ HI Hi I); try reflexivity.
      * intros _. split; [exact L|]. unfold holder_ok in *. cbn [moved r_starts r_count r_now].
        destruct (r_starts s) as [|t before]; [destruct H4|]. destruct H4. split; [assumption|]. lia.
      * cbn [moved r_locked]. congruence.
    + injection H as <-. destruct (I4 i _ Hi I) as [L H4]. eapply (holder_moves s _ i _ _ HI Hi I); try reflexivity.
      * intros _. split; [exact L|]. unfold holder_ok in *. cbn [r_starts r_count r_now].
        destruct (r_starts s) as [|t before]; [destruct H4|]. destruct H4. split; [lia|assumption].
      * cbn [r_locked]. congruence.
    + injection H as <-. destruct (I4 i _ Hi I) as [L H4]. eapply (holder_moves s _ i _ _ HI Hi I); try reflexivity.
      * intros [].
      * intros _. cbn [r_starts r_count r_now]. unfold holder_ok in H4. destruct (r_starts s) as [|t before]; [destruct H4|].
        destruct H4 as [H5 H6]. split; [exact H5|]. destruct before; [exact I|]. apply H6. discriminate.
  - destruct (Z.leb_spec 0 d) as [Hd|]; [|discriminate]. injection H as <-. constructor; cbn [r_now r_locked r_count r_gs r_starts]; auto.
    + destruct (r_starts s); [exact I|lia].
    + intros j q Hj Hq. destruct (I4 j q Hj Hq) as [L H4]. split; [assumption|].
      unfold holder_ok in *. cbn [r_starts r_count r_now]. destruct (r_starts s) as [|t before]; [destruct H4|].
      destruct q; auto; destruct H4 as [H5 H6]; (split; [assumption|]); intros Hb; specialize (H6 Hb); lia.
    + intros L. destruct (I5 L) as [F1 F2]. split; [assumption|]. destruct (r_starts s) as [|t [|u l]]; auto. lia.
Qed.

Lemma rate_inv_exec : forall ls s s', rate_inv s -> rate_exec s ls = Some s' -> rate_inv s'.
Proof.
  induction ls as [|l ls IH]; intros s s' HI H; cbn [rate_exec] in H; [injection H as <-; assumption|].
  destruct (rate_step s l) as [s1|] eqn:E; [|discriminate]. eapply IH; [|exact H]. eapply rate_inv_step; eassumption.
Qed.

Lemma spaced_tail : forall t l, spaced (t :: l) -> spaced l.
Proof. intros t l H. inversion H; subst; try constructor; assumption. Qed.

Lemma spaced_apart : forall l, spaced l -> ten_seconds_apart l.
Proof.
  intros l H. unfold ten_seconds_apart. intros a t1 b t2 c first ->.
  induction a as [|x a IH]; cbn [app] in H; [|apply IH; eapply spaced_tail; exact H].
  revert t1 H. induction b as [|y b IHb]; intros t1 H; cbn [app] in H.
  - inversion H as [|t E|t u Hl E|t u v l Hl Hs E].
    + destruct c; discriminate.
    + subst. unfold slow_wait in Hl. lia.
  - assert (Hy := IHb y (spaced_tail _ _ H)).
    inversion H as [|t E|t u Hl E|t u v l Hl Hs E].
    + destruct b; discriminate.
    + subst. unfold slow_wait in Hl. lia.
Qed.

Lemma refresh_rate : forall now ls s, rate_exec (rate_init now) ls = Some s -> at_most_one s /\ ten_seconds_apart (r_starts s).
Proof.
  intros now ls s H. apply rate_inv_exec in H; [|apply rate_inv_init]. destruct H as [I1 I2 I3 I4 I5].
  split; [assumption|]. now apply spaced_apart.
Qed.

(** Whoever calls while nobody refreshes gets to refresh. *)
Lemma refresh_possible : forall s, r_locked s = false -> exists s', rate_exec s [Call; Run (length (r_gs s))] = Some s' /\ r_starts s' = r_now s :: r_starts s.
Proof.
  intros s H. cbn [rate_exec rate_step r_gs]. rewrite nth_error_app2, PeanoNat.Nat.sub_diag by lia. cbn [nth_error r_locked]. rewrite H.
  eexists. split; reflexivity.
Qed.

(** The lock is held only by a refresh that is running, and sleeps end within ten seconds. *)
Definition lock_inv (s : rate) : Prop :=
  (r_locked s = true -> exists i p, nth_error (r_gs s) i = Some p /\ refreshing p) /\
  (forall i u, nth_error (r_gs s) i = Some (GSleep u) -> (u <= r_now s + slow_wait)%Z).

Lemma lock_inv_step : forall s l s', rate_inv s -> lock_inv s -> rate_step s l = Some s' -> lock_inv s'.
Proof.
  intros s l s' HI [K1 K2] H. destruct HI as [I1 I2 I3 I4 I5]. destruct l as [|i|d]; cbn [rate_step] in H.
  - injection H as <-. split; cbn [r_locked r_gs r_now].
    + intros L. destruct (K1 L) as (i & p & Hi & Hp). exists i, p. split; [|exact Hp]. rewrite nth_error_app1; [exact Hi|]. apply nth_error_Some. congruence.
    + intros i u Hi. destruct (Nat.ltb_spec i (length (r_gs s))) as [Hl|Hl].
      * rewrite nth_error_app1 in Hi by exact Hl. now apply (K2 i).
      * rewrite nth_error_app2 in Hi by exact Hl. destruct (i - length (r_gs s)) as [|[|m]]; discriminate Hi.
  - assert (Same : forall j u q, nth_error (set_nth i q (r_gs s)) j = Some (GSleep u) -> q <> GSleep u -> (u <= r_now s + slow_wait)%Z).
    { intros j u q Hj Hq. rewrite nth_set in Hj. destruct (Nat.eqb i j); [|now apply (K2 j)].
      destruct (nth_error (r_gs s) i); [injection Hj as ->; now destruct Hq|discriminate Hj]. }
    assert (Here : forall q p, nth_error (r_gs s) i = Some p -> nth_error (set_nth i q (r_gs s)) i = Some q)
      by (intros q p Hp; now rewrite nth_set, Nat.eqb_refl, Hp).
    destruct (nth_error (r_gs s) i) as [[| | |u| | |]|] eqn:Hi; try discriminate H.
    + destruct (r_locked s) eqn:L; injection H as <-; split; cbn [moved r_locked r_gs r_now].
      * intros _. destruct (K1 eq_refl) as (j & p & Hj & Hp). exists j, p. split; [|exact Hp]. rewrite nth_set.
        destruct (Nat.eqb_spec i j) as [<-|]; [|exact Hj]. rewrite Hi in Hj. injection Hj as <-. destruct Hp.
      * intros j u Hj. apply (Same j u GEnd Hj). discriminate.
      * intros _. exists i, GFetch. split; [exact (Here GFetch GTry eq_refl)|exact I].
      * intros j u Hj. apply (Same j u GFetch Hj). discriminate.
    + injection H as <-. split; cbn [moved r_locked r_gs r_now].
      * intros _. exists i, GTest. split; [exact (Here GTest GFetch eq_refl)|exact I].
      * intros j u Hj. apply (Same j u GTest Hj). discriminate.
    + injection H as <-. split; cbn [moved r_locked r_gs r_now].
      * intros _. eexists i, _. split; [exact (Here _ GTest eq_refl)|]. destruct (Nat.ltb 0 (r_count s)); exact I.
      * intros j u Hj. destruct (Nat.ltb 0 (r_count s)); [|apply (Same j u GCount Hj); discriminate].
        destruct (Z.eq_dec (r_now s + slow_wait) u) as [<-|N]; [lia|]. apply (Same j u _ Hj). congruence.
    + destruct (Z.leb u (r_now s)); [|discriminate H]. injection H as <-. split; cbn [moved r_locked r_gs r_now].
      * intros _. exists i, GCount. split; [exact (Here GCount (GSleep u) eq_refl)|exact I].
      * intros j w Hj. apply (Same j w GCount Hj). discriminate.
    + injection H as <-. split; cbn [r_locked r_gs r_now].
      * intros _. exists i, GRelease. split; [exact (Here GRelease GCount eq_refl)|exact I].
      * intros j u Hj. apply (Same j u GRelease Hj). discriminate.
    + injection H as <-. split; cbn [r_locked r_gs r_now]; [discriminate|]. intros j u Hj. apply (Same j u GEnd Hj). discriminate.
  - destruct (Z.leb_spec 0 d) as [Hd|]; [|discriminate H]. injection H as <-. split; cbn [r_locked r_gs r_now]; [exact K1|].
    intros i u Hi. specialize (K2 i u Hi). lia.
Qed.

Lemma lock_inv_exec : forall ls s s', rate_inv s -> lock_inv s -> rate_exec s ls = Some s' -> lock_inv s'.
Proof.
  induction ls as [|l ls IH]; intros s s' HI HL H; cbn [rate_exec] in H; [injection H as <-; assumption|].
  destruct (rate_step s l) as [s1|] eqn:E; [|discriminate]. eapply IH; [| |exact H]; [eapply rate_inv_step|eapply lock_inv_step]; eassumption.
Qed.

Lemma lock_exactly : forall now ls s, rate_exec (rate_init now) ls = Some s ->
  (r_locked s = true <-> exists i p, nth_error (r_gs s) i = Some p /\ refreshing p).
Proof.
  intros now ls s H. assert (L : lock_inv s).
  { eapply lock_inv_exec; [apply rate_inv_init| |exact H]. split; [discriminate|]. intros [|i] u E; discriminate E. }
  assert (R := rate_inv_exec _ _ _ (rate_inv_init now) H). split; [apply L|]. intros (i & p & Hi & Hp). now destruct (ri_hold s R i p Hi Hp).
Qed.

(** A running refresh comes to its end. *)
Definition finishes (i : nat) (s : rate) (by_then : Z) : Prop :=
  exists ls s', (forall l, In l ls -> l = Run i \/ exists d, l = Pass d) /\ rate_exec s ls = Some s' /\ (r_now s' <= by_then)%Z /\
    nth_error (r_gs s') i = Some GEnd /\ r_locked s' = false /\ r_starts s' = r_starts s.

Lemma finishes_step : forall i s l s1 t, (l = Run i \/ exists d, l = Pass d) -> rate_step s l = Some s1 -> r_starts s1 = r_starts s ->
  finishes i s1 t -> finishes i s t.
Proof.
  intros i s l s1 t Hl Hs He (ls & s' & A & B & C & D & E & F). exists (l :: ls), s'. split; [intros x [<-|I]; [exact Hl|now apply A]|].
  split; [cbn [rate_exec]; now rewrite Hs|]. split; [exact C|]. split; [exact D|]. split; [exact E|congruence].
Qed.

Lemma set_here : forall A i (x y : A) l, nth_error l i = Some y -> nth_error (set_nth i x l) i = Some x.
Proof. intros A i x y l H. now rewrite nth_set, PeanoNat.Nat.eqb_refl, H. Qed.

Lemma from_release : forall i s, nth_error (r_gs s) i = Some GRelease -> finishes i s (r_now s).
Proof.
  intros i s H. exists [Run i], (Rate (r_now s) false (r_count s) (set_nth i GEnd (r_gs s)) (r_starts s)).
  split; [intros l [<-|[]]; now left|]. split; [cbn [rate_exec rate_step]; now rewrite H|]. cbn [r_now r_gs r_locked r_starts].
  split; [lia|]. split; [now apply (set_here gpc i GEnd GRelease)|]. now split.
Qed.

Lemma from_count : forall i s, nth_error (r_gs s) i = Some GCount -> finishes i s (r_now s).
Proof.
  intros i s H. eapply (finishes_step i s (Run i)); [now left|cbn [rate_step]; rewrite H; reflexivity|reflexivity|].
  apply (from_release i (Rate (r_now s) (r_locked s) (S (r_count s)) (set_nth i GRelease (r_gs s)) (r_starts s))).
  now apply (set_here gpc i GRelease GCount).
Qed.

Lemma from_sleep : forall i s u, nth_error (r_gs s) i = Some (GSleep u) -> (u <= r_now s + slow_wait)%Z -> finishes i s (r_now s + slow_wait).
Proof.
  intros i s u H Hu. assert (W : (0 <= slow_wait)%Z) by (unfold slow_wait; lia).
  eapply (finishes_step i s (Pass slow_wait)); [right; now exists slow_wait|cbn [rate_step]; destruct (Z.leb_spec 0 slow_wait); [reflexivity|lia]|reflexivity|].
  eapply (finishes_step i _ (Run i)); [now left|cbn [rate_step r_gs r_now]; rewrite H; destruct (Z.leb_spec u (r_now s + slow_wait)); [reflexivity|lia]|reflexivity|].
  match goal with |- finishes i ?s1 _ => apply (from_count i s1) end. cbn [moved r_gs]. now apply (set_here gpc i GCount (GSleep u)).
Qed.

Lemma finishes_later : forall i s t t', (t <= t')%Z -> finishes i s t -> finishes i s t'.
Proof. intros i s t t' H (ls & s' & A & B & C & D). exists ls, s'. split; [exact A|]. split; [exact B|]. split; [lia|exact D]. Qed.

Lemma from_test : forall i s, nth_error (r_gs s) i = Some GTest -> finishes i s (r_now s + slow_wait).
Proof.
  intros i s H. assert (W : (0 <= slow_wait)%Z) by (unfold slow_wait; lia).
  eapply (finishes_step i s (Run i)); [now left|cbn [rate_step]; rewrite H; reflexivity|reflexivity|].
  destruct (Nat.ltb 0 (r_count s)).
  - match goal with |- finishes i ?s1 _ => apply (from_sleep i s1 (r_now s + slow_wait)) end; [|cbn [moved r_now]; lia].
    cbn [moved r_gs]. now apply (set_here gpc i _ GTest).
  - match goal with |- finishes i ?s1 _ => apply (finishes_later i s1 (r_now s)); [lia|]; apply (from_count i s1) end.
    cbn [moved r_gs]. now apply (set_here gpc i _ GTest).
Qed.

Lemma refresh_ends : forall now ls s i p, rate_exec (rate_init now) ls = Some s -> nth_error (r_gs s) i = Some p -> refreshing p ->
  exists ls' s', (forall l, In l ls' -> l = Run i \/ exists d, l = Pass d) /\ rate_exec s ls' = Some s' /\ (r_now s' <= r_now s + 10000000000)%Z /\
    nth_error (r_gs s') i = Some GEnd /\ r_locked s' = false /\ r_starts s' = r_starts s.
Proof.
  intros now ls s i p H Hi Hp. assert (L : lock_inv s).
  { eapply lock_inv_exec; [apply rate_inv_init| |exact H]. split; [discriminate|]. intros [|k] u E; discriminate E. }
  change 10000000000%Z with slow_wait. assert (W : (0 <= slow_wait)%Z) by (unfold slow_wait; lia).
  assert (F : finishes i s (r_now s + slow_wait)); [|exact F].
  destruct p as [| | |u| | |]; try (now destruct Hp).
  - eapply (finishes_step i s (Run i)); [now left|cbn [rate_step]; rewrite Hi; reflexivity|reflexivity|].
    match goal with |- finishes i ?s1 _ => apply (from_test i s1) end. cbn [moved r_gs]. now apply (set_here gpc i _ GFetch).
  - now apply from_test.
  - apply (from_sleep i s u Hi). now apply (proj2 L i).
  - apply (finishes_later i s (r_now s)); [lia|]. now apply from_count.
  - apply (finishes_later i s (r_now s)); [lia|]. now apply from_release.
Qed.
