(** Proofs about many requests at once. *)
From Coq Require Import String List Bool ZArith Arith Lia.
From Verif Require Import GoStr Config Exchange Jwt JwksRate JwksRateProofs Machine MachineSpec MachineProofs Handler SystemSpec Startup Process ProcessSpec ProcessProofs
  SequentialSpec SequentialProofs ConcurrentSpec.
Import Verif.Startup Verif.Process Verif.ProcessSpec ListNotations.

Definition with_state (s : state) (v : visit) : visit := Visit (v_in v) (v_chance v) (v_out v) s (v_rotated v).

Lemma labels_go : forall k k' l es, labels_of k (Go k' l :: es) = if Nat.eqb k' k then (l :: labels_of k es)%list else labels_of k es.
Proof. intros k k' l es. unfold labels_of. cbn [flat_map]. now destruct (Nat.eqb k' k). Qed.

Lemma labels_app : forall k es es', labels_of k (es ++ es') = (labels_of k es ++ labels_of k es')%list.
Proof. intros k es es'. unfold labels_of. apply flat_map_app. Qed.

Lemma labels_map : forall k k' ls, labels_of k (map (Go k') ls) = if Nat.eqb k' k then ls else [].
Proof.
  intros k k' ls. induction ls as [|l ls IH]; [now destruct (Nat.eqb k' k)|]. cbn [map]. rewrite labels_go, IH. now destruct (Nat.eqb k' k).
Qed.

Lemma visits_same : forall vs : list visit,
  Forall2 (fun v v' => v_in v' = v_in v /\ v_chance v' = v_chance v /\ v_out v' = v_out v /\ v_rotated v' = v_rotated v) vs vs.
Proof. induction vs as [|v vs IH]; [apply Forall2_nil|apply Forall2_cons; [auto|exact IH]]. Qed.

(** Any interleaving of steps the requests can take can be taken. *)
Lemma interleaved : forall E L nr cfg f es p, p_dead p = false -> only_requests p es ->
  (forall k v c, nth_error (p_visits p) k = Some v -> v_out v = Upstream c -> exec c (v_state v) (labels_of k es) = Some (f k)) ->
  exists p', process_exec E L nr cfg p es = Some p' /\ same_otherwise p p' /\
    forall k v, nth_error (p_visits p) k = Some v ->
      nth_error (p_visits p') k = Some (match v_out v with Upstream _ => with_state (f k) v | _ => v end).
Proof.
  intros E L nr cfg f. induction es as [|e es IH]; intros p Hd Ho Hf.
  - exists p. split; [reflexivity|]. split.
    + repeat (split; [reflexivity|]). apply visits_same.
    + intros k v Hv. rewrite Hv. destruct (v_out v) eqn:Eo; try reflexivity. pose proof (Hf k v c Hv Eo) as X. cbn in X. injection X as <-.
      now destruct v.
  - destruct (Ho e (or_introl eq_refl)) as (k0 & l & v0 & c0 & -> & Hv0 & Ho0).
    pose proof (Hf k0 v0 c0 Hv0 Ho0) as X. rewrite labels_go, Nat.eqb_refl in X. cbn [exec] in X.
    destruct (step c0 (v_state v0) l) as [s|] eqn:Es; [|discriminate X].
    set (p1 := with_visits (set_nth k0 (with_state s v0) (p_visits p)) p).
    assert (St : process_step E L nr cfg p (Go k0 l) = Some p1).
    { unfold process_step. rewrite Hd. unfold go_on. rewrite Hv0, Ho0, Es. unfold p1, with_state. now rewrite Ho0. }
    assert (V1 : forall k, nth_error (p_visits p1) k = if Nat.eqb k0 k then Some (with_state s v0) else nth_error (p_visits p) k).
    { intros k. unfold p1. cbn [p_visits with_visits]. rewrite nth_set. destruct (Nat.eqb_spec k0 k) as [->|]; [now rewrite Hv0|reflexivity]. }
    destruct (IH p1) as (p' & E1 & S1 & N1).
    + exact Hd.
    + intros e He. destruct (Ho e (or_intror He)) as (k & l' & v & c & -> & Hv & Hc). destruct (Nat.eqb_spec k0 k) as [->|N].
      * exists k, l', (with_state s v0), c0. split; [reflexivity|]. rewrite V1, Nat.eqb_refl. split; [reflexivity|exact Ho0].
      * exists k, l', v, c. split; [reflexivity|]. rewrite V1, (proj2 (Nat.eqb_neq _ _) N). split; [exact Hv|exact Hc].
    + intros k v c Hv Hc. rewrite V1 in Hv. destruct (Nat.eqb_spec k0 k) as [->|N].
      * injection Hv as <-. cbn [with_state v_out v_state] in Hc |- *. rewrite Ho0 in Hc. injection Hc as <-. exact X.
      * pose proof (Hf k v c Hv Hc) as Y. rewrite labels_go, (proj2 (Nat.eqb_neq _ _) N) in Y. exact Y.
    + exists p'. split; [cbn [process_exec]; rewrite St; exact E1|]. split.
      * destruct S1 as (A1 & A2 & A3 & A4 & A5 & A6 & A7 & A8 & A9). unfold same_otherwise. unfold p1 in A1, A2, A3, A4, A5, A6, A7, A8. cbn [with_visits p_now p_jwts p_locked p_count p_gs p_dead p_starts p_docs] in *.
        repeat (split; [assumption|]). unfold p1 in A9. cbn [with_visits p_visits] in A9. clear - A9 Hv0. revert k0 Hv0 A9.
        generalize (p_visits p') as ws. induction (p_visits p) as [|v vs IHv]; intros ws k0 Hv0 A9; [now destruct k0|].
        destruct k0 as [|k0]; cbn [set_nth] in A9; inversion A9 as [|? w ? ws' W1 W2]; subst.
        -- cbn in Hv0. injection Hv0 as ->. constructor; [exact W1|exact W2].
        -- constructor; [exact W1|]. exact (IHv ws' k0 Hv0 W2).
      * intros k v Hv. specialize (N1 k). rewrite V1 in N1. destruct (Nat.eqb_spec k0 k) as [->|N].
        -- rewrite Hv in Hv0. injection Hv0 as ->. rewrite (N1 _ eq_refl). cbn [with_state v_out]. rewrite Ho0. reflexivity.
        -- now apply N1.
Qed.

Lemma same_length : forall p p', same_otherwise p p' -> length (p_visits p') = length (p_visits p).
Proof. intros p p' (_ & _ & _ & _ & _ & _ & _ & _ & F). induction F; cbn [length]; congruence. Qed.

Lemma same_out : forall p p' k v0 v, same_otherwise p p' -> nth_error (p_visits p) k = Some v0 -> nth_error (p_visits p') k = Some v -> v_out v = v_out v0.
Proof.
  intros p p' k v0 v (_ & _ & _ & _ & _ & _ & _ & _ & F). revert k. induction F as [|a b la lb (_ & _ & X & _) F IH]; intros [|k] E0 Hv; try discriminate Hv; cbn in Hv, E0.
  - injection Hv as <-. injection E0 as <-. exact X.
  - exact (IH k E0 Hv).
Qed.

Lemma visits_ext : forall A (l l' : list A), length l = length l' -> (forall k v, nth_error l k = Some v -> nth_error l' k = Some v) -> l = l'.
Proof.
  induction l as [|x l IH]; intros [|y l'] H N; cbn [length] in H; try lia; [reflexivity|].
  pose proof (N 0 x eq_refl) as X. cbn in X. injection X as ->. f_equal. apply IH; [lia|]. intros k v Hv. exact (N (S k) v Hv).
Qed.

(** The state after requests went on depends on what each of them did, not on the order among them. *)
Lemma order_free : forall E L nr cfg p es es' p1, process_exec E L nr cfg p es = Some p1 -> p_dead p = false -> only_requests p es -> only_requests p es' ->
  (forall k, labels_of k es = labels_of k es') -> process_exec E L nr cfg p es' = Some p1.
Proof.
  intros E L nr cfg p es es' p1 H Hd Ho Ho' Hl.
  set (f := fun k => match nth_error (p_visits p1) k with Some v => v_state v | None => init end).
  assert (Hf : forall k v c, nth_error (p_visits p) k = Some v -> v_out v = Upstream c -> exec c (v_state v) (labels_of k es) = Some (f k)).
  { intros k v c Hv Hc. destruct (visit_goes _ _ _ _ _ _ _ _ _ H Hv) as (v' & Hv' & _ & _ & _ & _ & G & _). unfold f. rewrite Hv'. exact (G c Hc). }
  destruct (interleaved E L nr cfg f es p Hd Ho Hf) as (q & Q1 & Q2 & Q3). rewrite H in Q1. injection Q1 as <-.
  destruct (interleaved E L nr cfg f es' p Hd Ho') as (q & R1 & R2 & R3). { intros k v c. rewrite <- Hl. apply Hf. }
  rewrite R1. f_equal. assert (V : p_visits q = p_visits p1).
  { apply visits_ext; [now rewrite (same_length _ _ Q2), (same_length _ _ R2)|]. intros k v Hv.
    destruct (nth_error (p_visits p) k) as [v0|] eqn:E0.
    - rewrite (R3 k v0 E0) in Hv. rewrite (Q3 k v0 E0). exact Hv.
    - apply nth_error_None in E0. assert (k < length (p_visits q)) by (apply nth_error_Some; congruence). rewrite (same_length _ _ R2) in *. lia. }
  destruct Q2 as (A1 & A2 & A3 & A4 & A5 & A6 & A7 & A8 & _), R2 as (B1 & B2 & B3 & B4 & B5 & B6 & B7 & B8 & _).
  destruct q, p1. cbn in *. congruence.
Qed.

(** * A run for each request *)


  Fixpoint plan_of (g : nat -> list label) (vs : list visit) (k : nat) : list event :=
    match vs with
    | [] => []
    | v :: vs' => ((match v_out v with Upstream _ => map (Go k) (g k) | _ => [] end) ++ plan_of g vs' (S k))%list
    end.

Lemma plan_labels_low : forall g vs k j, j < k -> labels_of j (plan_of g vs k) = [].
Proof.
  intros g. induction vs as [|v vs IH]; intros k j H; [reflexivity|]. cbn [plan_of]. rewrite labels_app, IH by lia.
  destruct (v_out v); try reflexivity. rewrite labels_map, (proj2 (Nat.eqb_neq k j)) by lia. reflexivity.
Qed.

Lemma plan_labels : forall g vs k j v, nth_error vs j = Some v ->
  labels_of (k + j) (plan_of g vs k) = match v_out v with Upstream _ => g (k + j) | _ => [] end.
Proof.
  intros g. induction vs as [|w vs IH]; intros k j v Hv; [now destruct j|]. cbn [plan_of]. rewrite labels_app. destruct j as [|j].
  - cbn in Hv. injection Hv as ->. rewrite Nat.add_0_r, plan_labels_low, app_nil_r by lia. destruct (v_out v); try reflexivity.
    now rewrite labels_map, Nat.eqb_refl.
  - replace (k + S j) with (S k + j) by lia. rewrite (IH (S k) j v Hv).
    replace (labels_of (S k + j) (match v_out w with Upstream _ => map (Go k) (g k) | _ => [] end)) with (@nil label); [reflexivity|].
    destruct (v_out w); try reflexivity. rewrite labels_map, (proj2 (Nat.eqb_neq k (S k + j))) by lia. reflexivity.
Qed.

Lemma plan_events : forall g vs k e, In e (plan_of g vs k) -> exists j v c l, e = Go (k + j) l /\ nth_error vs j = Some v /\ v_out v = Upstream c /\ In l (g (k + j)).
Proof.
  intros g. induction vs as [|w vs IH]; intros k e H; [destruct H|]. cbn [plan_of] in H. apply in_app_or in H. destruct H as [H|H].
  - destruct (v_out w) eqn:Ew; try (now destruct H). apply in_map_iff in H. destruct H as (l & <- & Hl). exists 0, w, c, l.
    rewrite Nat.add_0_r. now split.
  - destruct (IH (S k) e H) as (j & v & c' & l & -> & Hv & Hc & Hl). exists (S j), v, c', l. replace (k + S j) with (S k + j) by lia. now split.
Qed.

(** If each request can go on to a state with [Q], they all can. *)
Lemma all_go_on : forall E L nr cfg (Q : nat -> visit -> conf -> list label -> state -> Prop) p, p_dead p = false ->
  (forall k v c, nth_error (p_visits p) k = Some v -> v_out v = Upstream c -> exists ls s, exec c (v_state v) ls = Some s /\ Q k v c ls s) ->
  exists es p', process_exec E L nr cfg p es = Some p' /\ only_requests p es /\ same_otherwise p p' /\
    forall k v c, nth_error (p_visits p) k = Some v -> v_out v = Upstream c ->
      exists s, nth_error (p_visits p') k = Some (with_state s v) /\ Q k v c (labels_of k es) s.
Proof.
  intros E L nr cfg Q p Hd HQ.
  assert (C : forall n vs, n + length vs = length (p_visits p) -> (forall j v, nth_error vs j = Some v -> nth_error (p_visits p) (n + j) = Some v) ->
    exists g f, forall j v c, nth_error vs j = Some v -> v_out v = Upstream c -> exec c (v_state v) (g (n + j)) = Some (f (n + j)) /\ Q (n + j) v c (g (n + j)) (f (n + j))).
  { intros n vs. revert n. induction vs as [|v vs IH]; intros n Hl Hv.
    - exists (fun _ => []), (fun _ => init). intros [|j] v c H; discriminate H.
    - destruct (IH (S n)) as (g & f & G); [cbn [length] in Hl; lia|intros j w Hw; replace (S n + j) with (n + S j) by lia; exact (Hv (S j) w Hw)|].
      assert (F : exists ls s, forall c, v_out v = Upstream c -> exec c (v_state v) ls = Some s /\ Q n v c ls s).
      { destruct (v_out v) as [| | |c|] eqn:Eo; try (exists [], init; intros c' Hc'; discriminate Hc').
        pose proof (Hv 0 v eq_refl) as V0. rewrite Nat.add_0_r in V0. destruct (HQ n v c V0 Eo) as (ls & s & X & Y).
        exists ls, s. intros c' Hc'. injection Hc' as <-. now split. }
      destruct F as (ls & s & F). exists (fun k => if Nat.eqb k n then ls else g k), (fun k => if Nat.eqb k n then s else f k).
      intros [|j] w c Hw Hc.
      + cbn in Hw. injection Hw as <-. rewrite Nat.add_0_r, Nat.eqb_refl. now apply F.
      + rewrite (proj2 (Nat.eqb_neq (n + S j) n)) by lia. replace (n + S j) with (S n + j) by lia. now apply G. }
  destruct (C 0 (p_visits p) eq_refl (fun j v H => H)) as (g & f & G). cbn [Nat.add] in G.
  set (es := plan_of g (p_visits p) 0).
  assert (L1 : forall k v c, nth_error (p_visits p) k = Some v -> v_out v = Upstream c -> labels_of k es = g k).
  { intros k v c Hv Hc. pose proof (plan_labels g (p_visits p) 0 k v Hv) as X. rewrite Hc in X. exact X. }
  assert (O : only_requests p es).
  { intros e He. destruct (plan_events _ _ _ _ He) as (j & v & c & l & -> & Hv & Hc & _). exists j, l, v, c. now split. }
  destruct (interleaved E L nr cfg f es p Hd O) as (p' & P1 & P2 & P3).
  { intros k v c Hv Hc. rewrite (L1 k v c Hv Hc). exact (proj1 (G k v c Hv Hc)). }
  exists es, p'. split; [exact P1|]. split; [exact O|]. split; [exact P2|]. intros k v c Hv Hc. exists (f k). split.
  - rewrite (P3 k v Hv), Hc. reflexivity.
  - rewrite (L1 k v c Hv Hc). exact (proj2 (G k v c Hv Hc)).
Qed.

Lemma after_more : forall m es es' p p', after m es p -> executes m p es' = Some p' -> after m (es ++ es') p'.
Proof.
  intros m es es' p p' [Hu H] H'. split; [exact Hu|]. unfold executes in *. rewrite ProcessProofs.exec_app, H. exact H'.
Qed.

(** Each state of a request is one of a run. *)
Lemma visit_run : forall m es p k v c, after m es p -> nth_error (p_visits p) k = Some v -> v_out v = Upstream c ->
  exists ls, exec c init ls = Some (v_state v).
Proof.
  intros m es p k v c [_ H] Hv Hc. revert k v c Hv Hc. unfold executes in H.
  refine (exec_inv _ _ _ _ (fun p => forall k v c, nth_error (p_visits p) k = Some v -> v_out v = Upstream c -> exists ls, exec c init ls = Some (v_state v)) _ es _ p _ H).
  - clear. intros p e p' IH Hs k v c Hv Hc. unfold process_step in Hs. destruct (p_dead p); [discriminate Hs|]. destruct e as [i ch|k' l|k' doc|d].
    + destruct (arrive_inv _ _ _ _ _ _ _ _ Hs) as (_ & V & _). rewrite V in Hv. destruct (Nat.lt_ge_cases k (length (p_visits p))) as [Hl|Hl].
      * rewrite nth_error_app1 in Hv by exact Hl. exact (IH k v c Hv Hc).
      * rewrite nth_error_app2 in Hv by exact Hl. destruct (k - length (p_visits p)) as [|[|n]]; try discriminate Hv. cbn in Hv. injection Hv as <-.
        exists []. reflexivity.
    + destruct (go_inv _ _ _ _ Hs) as (w & c' & s & Hw & Ho & Hst & ->). cbn [p_visits with_visits] in Hv. rewrite nth_set in Hv.
      destruct (Nat.eqb_spec k' k) as [->|N].
      * rewrite Hw in Hv. cbn in Hv. injection Hv as <-. cbn [v_out v_state] in *. rewrite Ho in Hc. injection Hc as <-.
        destruct (IH k w c' Hw Ho) as (ls & X). exists (ls ++ [l])%list. rewrite MachineProofs.exec_app, X. cbn [exec]. now rewrite Hst.
      * exact (IH k v c Hv Hc).
    + destruct (load_moves _ _ _ _ Hs) as (n & M). rewrite (moves_visits _ _ _ _ _ M) in Hv. exact (IH k v c Hv Hc).
    + unfold wait in Hs. destruct (Z.leb 0 d); [|discriminate Hs]. injection Hs as <-. exact (IH k v c Hv Hc).
  - intros [|k] v c Hv; discriminate Hv.
Qed.

(** * C35 *)

Lemma all_settle : forall m es p, after m es p -> p_dead p = false ->
  exists es' p', after m (es ++ es') p' /\ (forall e, In e es' -> exists k l, e = Go k l /\ own_step l = true) /\ same_otherwise p p' /\
    forall v, In v (p_visits p') -> settled v.
Proof.
  intros m es p H Hd.
  destruct (all_go_on (li_env (dm_listener m)) (dm_lib m) (dm_new m) (li_config (dm_listener m))
    (fun k v c ls s => forallb own_step ls = true /\ finished s) p Hd) as (es' & p' & E1 & O & S & Q).
  - intros k v c Hv Hc. destruct (visit_run m es p k v c H Hv Hc) as (ls0 & X). destruct (always_finishes c ls0 _ X) as (ls & s & A & B & C).
    exists ls, s. now split.
  - exists es', p'. split; [exact (after_more m es es' p p' H E1)|]. split; [|split; [exact S|]].
    + intros e He. destruct (O e He) as (k & l & v & c & -> & Hv & Hc). exists k, l. split; [reflexivity|].
      destruct (Q k v c Hv Hc) as (s & _ & F & _). rewrite forallb_forall in F. apply F. unfold labels_of. apply in_flat_map. exists (Go k l).
      split; [exact He|]. rewrite Nat.eqb_refl. now left.
    + intros v Hv. apply In_nth_error in Hv. destruct Hv as (k & Hv). assert (K : k < length (p_visits p)) by (rewrite <- (same_length _ _ S); apply nth_error_Some; congruence).
      destruct (nth_error (p_visits p) k) as [v0|] eqn:E0; [|apply nth_error_None in E0; lia].
      destruct (v_out v0) as [| | |c|] eqn:Eo.
      4:{ destruct (Q k v0 c E0 Eo) as (s & V & _ & F). rewrite Hv in V. injection V as ->. right. exact F. }
      all: left; intros c Hc; rewrite (same_out _ _ _ _ _ S E0 Hv) in Hc; congruence.
Qed.

(** * C114 *)

Lemma request_sequential : forall m k i ch es1 es es2 p v c n r, comes_in k i ch es1 es es2 -> after m es p ->
  nth_error (p_visits p) k = Some v -> v_out v = Upstream c -> on_time c init (labels_of k es2) -> further c n -> s_out (v_state v) = [r] ->
  exists fs, sequential c n fs r /\ happened (labels_of k es2) fs /\ s_sent (v_state v) = repeat (c_request c) (length fs).
Proof.
  intros m k i ch es1 es es2 p v c n r Hc H Hv Ho Ht Hn Hr. destruct (visit_of _ _ _ _ _ _ _ _ Hc H) as (p1 & v' & _ & _ & Hv' & _ & _ & _ & _ & X & _).
  rewrite Hv in Hv'. injection Hv' as <-. exact (run_sequential c n _ _ r (X c Ho) Ht Hr Hn).
Qed.

Lemma requests_possible : forall m es p (plan : nat -> list fate * response), after m es p -> p_dead p = false ->
  (forall k v c, nth_error (p_visits p) k = Some v -> v_out v = Upstream c ->
     v_state v = init /\ c_ok c = true /\ valid_fates (fst (plan k)) /\ exists n, further c n /\ sequential c n (fst (plan k)) (snd (plan k))) ->
  exists es' p', after m (es ++ es') p' /\ only_requests p es' /\ same_otherwise p p' /\
    forall k v c, nth_error (p_visits p') k = Some v -> v_out v = Upstream c ->
      s_pc (v_state v) = PDone /\ s_out (v_state v) = [snd (plan k)] /\ s_sent (v_state v) = repeat (c_request c) (length (fst (plan k))) /\
      happened (labels_of k es') (fst (plan k)) /\ on_time c init (labels_of k es').
Proof.
  intros m es p plan H Hd HP.
  destruct (all_go_on (li_env (dm_listener m)) (dm_lib m) (dm_new m) (li_config (dm_listener m))
    (fun k v c ls s => s_pc s = PDone /\ s_out s = [snd (plan k)] /\ s_sent s = repeat (c_request c) (length (fst (plan k))) /\ happened ls (fst (plan k)) /\ on_time c init ls) p Hd)
    as (es' & p' & E1 & O & S & Q).
  - intros k v c Hv Hc. destruct (HP k v c Hv Hc) as (I & Ok & Vf & n & Fn & Sq).
    destruct (run_exists c n (fst (plan k)) (snd (plan k)) Ok Fn Vf Sq) as (ls & s & A & B & C & D & F & G).
    exists ls, s. rewrite I. split; [exact A|]. split; [exact C|]. split; [exact D|]. split; [exact F|]. split; [exact G|exact B].
  - exists es', p'. split; [exact (after_more m es es' p p' H E1)|]. split; [exact O|]. split; [exact S|].
    intros k v c Hv Hc. assert (K : k < length (p_visits p)) by (rewrite <- (same_length _ _ S); apply nth_error_Some; congruence).
    destruct (nth_error (p_visits p) k) as [v0|] eqn:E0; [|apply nth_error_None in E0; lia].
    assert (Eo : v_out v0 = Upstream c).
    { rewrite <- (same_out _ _ _ _ _ S E0 Hv). exact Hc. }
    destruct (Q k v0 c E0 Eo) as (s & V & R). rewrite Hv in V. injection V as ->. exact R.
Qed.

Lemma order_free_after : forall m es0 p es es' p1, after m es0 p -> executes m p es = Some p1 -> p_dead p = false -> only_requests p es -> only_requests p es' ->
  (forall k, labels_of k es = labels_of k es') -> executes m p es' = Some p1.
Proof. intros m es0 p es es' p1 _. unfold executes. apply order_free. Qed.
