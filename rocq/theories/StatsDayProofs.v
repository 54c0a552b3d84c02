(** Lemmas for Thm_StatsDay. *)
From Coq Require Import List Bool ZArith Lia Arith.
From Verif Require Import Stats StatsSpec StatsProofs StatsDay StatsDaySpec.
Import ListNotations.

Lemma history_skip : forall first ks, history first ks = skipn (length ks) (repeat first 24 ++ ks).
Proof.
  intros first ks. rewrite history_recent. unfold last_of. f_equal. rewrite app_length, repeat_length. lia.
Qed.

Lemma nth_skip : forall A n (l : list A) k, nth_error (skipn n l) k = nth_error l (n + k).
Proof.
  intros A n; induction n as [|n IH]; intros l k; [reflexivity|]. destruct l as [|x l]; cbn [skipn plus nth_error]; [now destruct k|apply IH].
Qed.

(** Position [k] of what fills the history and what follows is the sample [k - 23]. *)
Lemma nth_fill : forall (first : sample) ks k, nth_error (repeat first 24 ++ ks) k = nth_error (first :: ks) (k - 23) \/ 24 + length ks <= k.
Proof.
  intros first ks k. destruct (Nat.lt_ge_cases k 24) as [L|G].
  - left. replace (k - 23) with 0 by lia. rewrite nth_error_app1 by (rewrite repeat_length; exact L). cbn [nth_error].
    rewrite (nth_error_nth' _ first) by (rewrite repeat_length; exact L). f_equal. apply nth_repeat.
  - left. rewrite nth_error_app2 by (rewrite repeat_length; exact G). rewrite repeat_length. replace (k - 23) with (S (k - 24)) by lia. reflexivity.
Qed.

Lemma nth_fill' : forall (first : sample) ks k, nth_error (repeat first 24 ++ ks) k = nth_error (first :: ks) (k - 23).
Proof.
  intros first ks k. destruct (nth_fill first ks k) as [E|L]; [exact E|].
  rewrite (proj2 (nth_error_None _ _)) by (rewrite app_length, repeat_length; lia).
  symmetry. apply nth_error_None. cbn [length]. lia.
Qed.

(** What a report says of the samples so far *)
Lemma message_says : forall first ks, Forall sound_sample (first :: ks) ->
  (snd (log_samples (history first ks)) = true <->
   exists j s u, length ks - 23 <= j /\ nth_error (first :: ks) (length ks - 23) = Some s /\ nth_error (first :: ks) j = Some u /\ doubled s u).
Proof.
  intros first ks F. pose proof (history_full first ks) as L.
  assert (I : forall k, nth_error (history first ks) k = nth_error (first :: ks) (length ks + k - 23)).
  { intros k. rewrite history_skip, nth_skip. apply nth_fill'. }
  rewrite Forall_forall in F.
  assert (Sd : forall s, In s (history first ks) -> sound_sample s).
  { intros s H. apply In_nth_error in H. destruct H as [k H]. rewrite I in H. apply F. eapply nth_error_In. exact H. }
  destruct (history first ks) as [|o h] eqn:E; [discriminate L|].
  assert (P : present (o :: h)). { intros s H. apply (Sd s H). }
  assert (O : nth_error (first :: ks) (length ks - 23) = Some o). { specialize (I 0). rewrite Nat.add_0_r in I. rewrite <- I. reflexivity. }
  pose proof (proj2 (Sd o (or_introl eq_refl))) as Bo.
  rewrite message_iff. split.
  - intros [g [G H]]. apply In_nth_error in G. destruct G as [k G].
    assert (K : k < 24). { rewrite <- L. rewrite present_rates in G by exact P. rewrite <- (map_length (growth o)). apply nth_error_Some. rewrite G. discriminate. }
    destruct (nth_error (o :: h) k) as [u|] eqn:U; [|apply nth_error_None in U; lia].
    pose proof (proj2 (Sd u (nth_error_In _ _ U))) as Bu.
    destruct (flagged_iff o h k u P U) as [g' [G' D]]; [lia|exact Bo|].
    rewrite G in G'. injection G' as <-. exists (length ks + k - 23), o, u. repeat split; [lia|exact O| |apply D; exact H].
    rewrite <- I. exact U.
  - intros [j [s [u [J [S1 [U D]]]]]]. rewrite O in S1. injection S1 as <-.
    assert (Lj : j < S (length ks)). { change (S (length ks)) with (length (first :: ks)). apply nth_error_Some. rewrite U. discriminate. }
    assert (U' : nth_error (o :: h) (j + 23 - length ks) = Some u).
    { rewrite I. replace (length ks + (j + 23 - length ks) - 23) with j; [exact U|]. lia. }
    pose proof (proj2 (Sd u (nth_error_In _ _ U'))) as Bu.
    destruct (flagged_iff o h _ u P U') as [g [G D']]; [lia|exact Bo|].
    exists g. split; [eapply nth_error_In; exact G|apply D'; exact D].
Qed.

(** * Time *)

Lemma later_all : forall p t ts u, (0 <= p)%Z -> more_apart p (t :: ts) -> In u ts -> (t + p < u)%Z.
Proof.
  intros p t ts u Hp. revert t. induction ts as [|v ts IH]; intros t M H; [destruct H|].
  destruct M as [A M]. destruct H as [<-|H]; [lia|]. specialize (IH v M H). lia.
Qed.

(** The samples before some time are the first so many. *)
Lemma before_first : forall p (kept : list (Z * sample)) t, (0 <= p)%Z -> more_apart p (map fst kept) ->
  exists m, filter (fun k => Z.ltb (fst k) t) kept = firstn m kept /\ m <= length kept /\
    forall k a s, nth_error kept k = Some (a, s) -> ((a < t)%Z <-> k < m).
Proof.
  intros p kept t Hp. induction kept as [|[a s] kept IH]; intros M.
  - exists 0. split; [reflexivity|]. split; [apply le_n|]. intros k a s H. destruct k; discriminate.
  - pose proof (fun u => later_all p a (map fst kept) u Hp M) as Lt.
    destruct M as [_ M]. destruct (IH M) as [m [F [Lm C]]]. cbn [filter fst]. destruct (Z.ltb_spec a t) as [Y|N].
    + exists (S m). cbn [firstn length]. split; [now rewrite F|]. split; [lia|]. intros k b u H. destruct k as [|k]; cbn [nth_error] in H.
      * injection H as <- <-. lia.
      * rewrite (C k b u H). lia.
    + exists 0. cbn [firstn]. assert (E : m = 0).
      { destruct m as [|m]; [reflexivity|]. destruct kept as [|[b u] kept]; [cbn in Lm; lia|].
        pose proof (proj2 (C 0 b u eq_refl)) as C0. specialize (Lt b (or_introl eq_refl)). lia. }
      subst m. cbn [firstn] in F. split; [exact F|]. split; [apply Nat.le_0_l|]. intros k b u H. destruct k as [|k]; cbn [nth_error] in H.
      * injection H as <- <-. lia.
      * specialize (Lt b). assert (In b (map fst kept)) as Hin. { apply (in_map fst) with (x := (b, u)). eapply nth_error_In. exact H. } specialize (Lt Hin). lia.
Qed.

Lemma next_report : forall p x reports, at_most_apart p reports -> match reports with [] => True | r :: _ => (r <= x + p)%Z end ->
  (exists r, In r reports /\ (x < r)%Z) -> exists r, In r reports /\ (x < r <= x + p)%Z.
Proof.
  intros p x reports. induction reports as [|r reports IH]; intros A B [r1 [H X]]; [destruct H|].
  destruct (Z.lt_ge_cases x r) as [Y|N]; [exists r; split; [now left|lia]|].
  destruct H as [<-|H]; [lia|]. destruct A as [A1 A].
  destruct IH as [r2 [H2 X2]]; [exact A| |exists r1; split; [exact H|exact X]|exists r2; split; [now right|exact X2]].
  destruct reports as [|u reports]; [exact I|]. lia.
Qed.

Lemma apart_nth : forall p ts k a b, (0 <= p)%Z -> more_apart p ts -> nth_error ts k = Some a -> nth_error ts (S k) = Some b -> (a + p < b)%Z.
Proof.
  intros p ts. induction ts as [|t ts IH]; intros k a b Hp M A B; [destruct k; discriminate|].
  destruct k as [|k].
  - cbn in A, B. injection A as ->. destruct ts as [|u ts]; [discriminate|]. injection B as ->. destruct M as [M _]. lia.
  - cbn [nth_error] in A, B. destruct M as [_ M]. exact (IH k a b Hp M A B).
Qed.

Lemma first_least : forall p ts k a, (0 <= p)%Z -> more_apart p ts -> nth_error ts k = Some a -> match ts with [] => False | t :: _ => (t <= a)%Z end.
Proof.
  intros p ts k a Hp M H. destruct ts as [|t ts]; [destruct k; discriminate|]. destruct k as [|k].
  - injection H as ->. lia.
  - cbn [nth_error] in H. apply nth_error_In in H. pose proof (later_all p t ts a Hp M H). lia.
Qed.

(** * The claim *)

Lemma nth_firstn_some : forall A m (l : list A) k x, nth_error (firstn m l) k = Some x -> nth_error l k = Some x.
Proof.
  intros A m; induction m as [|m IH]; intros l k x H; [destruct k; discriminate|].
  destruct l as [|y l]; [exact H|]. destruct k as [|k]; [exact H|]. cbn [firstn nth_error] in *. now apply IH.
Qed.

Lemma nth_firstn_lt : forall A m (l : list A) k, k < m -> nth_error (firstn m l) k = nth_error l k.
Proof.
  intros A m; induction m as [|m IH]; intros l k H; [lia|].
  destruct l as [|y l]; [reflexivity|]. destruct k as [|k]; [reflexivity|]. cbn [firstn nth_error]. apply IH. lia.
Qed.

Lemma forall_firstn : forall A (P : A -> Prop) m l, Forall P l -> Forall P (firstn m l).
Proof.
  intros A P m; induction m as [|m IH]; intros l F; [constructor|]. destruct l; [constructor|]. inversion F; subst. cbn [firstn]. constructor; [assumption|now apply IH].
Qed.

(** A report only tells what is so. *)
Lemma told_so : forall p first kept r, (0 <= p)%Z -> more_apart p (map fst kept) -> Forall sound_sample (first :: map snd kept) ->
  message_at first kept r = true -> exists i j, doubles (first :: map snd kept) i j /\ over (first :: map snd kept) i.
Proof.
  intros p first kept r Hp M F T. destruct (before_first p kept r Hp M) as [m [E [Lm _]]].
  unfold message_at, history_at in T. rewrite E, <- firstn_map in T.
  assert (F' : Forall sound_sample (first :: firstn m (map snd kept))). { inversion F; subst. constructor; [assumption|now apply forall_firstn]. }
  apply (message_says _ _ F') in T. destruct T as [j [s [u [J [S1 [U D]]]]]].
  rewrite firstn_length, map_length, Nat.min_l in * by exact Lm.
  change (first :: firstn m (map snd kept)) with (firstn (S m) (first :: map snd kept)) in *.
  assert (Lj : j < S m). { assert (N : j < length (firstn (S m) (first :: map snd kept))). { apply nth_error_Some. rewrite U. discriminate. }
    rewrite firstn_length in N. lia. }
  apply nth_firstn_some in S1, U.
  assert (Ne : m - 23 <> j).
  { intros <-. rewrite S1 in U. injection U as <-. unfold doubled in D. rewrite Forall_forall in F. destruct (F s (nth_error_In _ _ S1)) as [_ B]. lia. }
  exists (m - 23), j. split.
  - split; [lia|]. split; [lia|]. exists s, u. auto.
  - unfold over. cbn [length]. rewrite map_length. destruct (Nat.le_gt_cases m 23); [left; lia|right; lia].
Qed.

(** Whatever is so comes to be told. *)
Lemma comes_told : forall p first kept reports i j, (0 <= p)%Z -> more_apart p (map fst kept) -> at_most_apart p reports ->
  Forall sound_sample (first :: map snd kept) ->
  (forall r a, hd_error reports = Some r -> hd_error (map fst kept) = Some a -> (r <= a + p)%Z) ->
  (forall a, In a (map fst kept) -> exists r, In r reports /\ (a < r)%Z) ->
  doubles (first :: map snd kept) i j -> over (first :: map snd kept) i ->
  exists r, In r reports /\ message_at first kept r = true.
Proof.
  intros p first kept reports i j Hp M R F B Z0 [Lij [Lj [s [u [S1 [U D]]]]]] O.
  assert (Jn : j <= length kept). { assert (N : j < length (first :: map snd kept)). { apply nth_error_Some. rewrite U. discriminate. } cbn [length] in N. rewrite map_length in N. lia. }
  (* told after n samples *)
  set (n := if Nat.eqb i 0 then j else i + 23).
  assert (Hn : 1 <= n <= length kept /\ n - 23 = i /\ j <= n).
  { unfold n. destruct O as [O|O].
    - subst i. cbn [Nat.eqb]. lia.
    - cbn [length] in O. rewrite map_length in O. destruct (Nat.eqb_spec i 0); lia. }
  clearbody n. destruct Hn as [[N1 N2] [N3 N4]].
  destruct (nth_error kept (n - 1)) as [[a x]|] eqn:K; [|apply nth_error_None in K; lia].
  assert (Ka : nth_error (map fst kept) (n - 1) = Some a). { rewrite nth_error_map, K. reflexivity. }
  destruct (next_report p a reports R) as [r [Hr X]].
  - destruct reports as [|r0 reports]; [exact I|]. pose proof (first_least _ _ _ _ Hp M Ka) as L.
    destruct (map fst kept) as [|t ts]; [destruct L|]. specialize (B r0 t eq_refl eq_refl). lia.
  - apply Z0. eapply nth_error_In. exact Ka.
  - exists r. split; [exact Hr|]. destruct (before_first p kept r Hp M) as [m [E [Lm C]]].
    assert (Em : m = n).
    { pose proof (proj1 (C _ _ _ K)). destruct (nth_error kept n) as [[b y]|] eqn:K'.
      - pose proof (proj2 (C _ _ _ K')).
        assert (Kb : nth_error (map fst kept) (S (n - 1)) = Some b). { replace (S (n - 1)) with n by lia. rewrite nth_error_map, K'. reflexivity. }
        pose proof (apart_nth _ _ _ _ _ Hp M Ka Kb). lia.
      - apply nth_error_None in K'. lia. }
    subst m. unfold message_at, history_at. rewrite E, <- firstn_map.
    assert (F' : Forall sound_sample (first :: firstn n (map snd kept))). { inversion F; subst. constructor; [assumption|now apply forall_firstn]. }
    apply (message_says _ _ F'). rewrite firstn_length, map_length, Nat.min_l by exact N2.
    change (first :: firstn n (map snd kept)) with (firstn (S n) (first :: map snd kept)).
    exists j, s, u. rewrite !nth_firstn_lt by lia. rewrite N3. split; [lia|]. auto.
Qed.

Lemma told_exactly : forall p first kept reports, (0 <= p)%Z -> more_apart p (map fst kept) -> at_most_apart p reports ->
  Forall sound_sample (first :: map snd kept) ->
  (forall r a, hd_error reports = Some r -> hd_error (map fst kept) = Some a -> (r <= a + p)%Z) ->
  (forall a, In a (map fst kept) -> exists r, In r reports /\ (a < r)%Z) ->
  ((exists r, In r reports /\ message_at first kept r = true) <->
   exists i j, doubles (first :: map snd kept) i j /\ over (first :: map snd kept) i).
Proof.
  intros p first kept reports Hp M R F B Z0. split.
  - intros [r [_ T]]. exact (told_so p first kept r Hp M F T).
  - intros [i [j [D O]]]. exact (comes_told p first kept reports i j Hp M R F B Z0 D O).
Qed.

(** * Cases *)

(** Samples of these sizes, the first one taken 4 seconds after the start, then every 3602 seconds *)
Definition hourly (sizes : list Z) : list (Z * sample) :=
  map (fun k => (4 + 3602 * Z.of_nat (fst k), Sample 1 (snd k) 0)%Z) (combine (seq 0 (length sizes)) sizes).
Definition mega (n : Z) : Z := (n * 1048576)%Z.

(** Slow growth: 100, 150 for 23 hours, 200 from then on *)
Definition slow_first : sample := Sample 1 (mega 100) 0.
Definition slow_kept : list (Z * sample) := hourly (map mega (repeat 150 23 ++ repeat 200 12)%Z).

Fixpoint sound_samples (l : list sample) : bool :=
  match l with [] => true | s :: l' => (negb (Z.eqb (s_pid s) 0) && Z.ltb 0 (s_rss s) && Z.ltb (s_rss s) (2 ^ 53) && sound_samples l')%bool end.
Lemma sound_all : forall l, sound_samples l = true -> Forall sound_sample l.
Proof.
  intros l; induction l as [|s l IH]; intros H; [constructor|]. cbn [sound_samples] in H. rewrite !andb_true_iff in H. destruct H as [[[A B] C] D].
  constructor; [|now apply IH]. apply negb_true_iff, Z.eqb_neq in A. apply Z.ltb_lt in B, C. split; [exact A|]. split; [exact B|exact C].
Qed.
Definition no_doubles (l : list sample) : bool :=
  forallb (fun i => forallb (fun d => match nth_error l i, nth_error l (i + S d) with
    | Some s, Some u => negb (Z.leb (2 * s_rss s) (s_rss u)) | _, _ => true end) (seq 0 23)) (seq 0 (length l)).
Lemma no_doubles_none : forall l, no_doubles l = true -> ~ exists i j, doubles l i j.
Proof.
  intros l H [i [j [L1 [L2 [s [u [A [B D]]]]]]]]. unfold no_doubles in H. rewrite forallb_forall in H.
  assert (Hi : In i (seq 0 (length l))). { apply in_seq. split; [lia|]. apply nth_error_Some. rewrite A. discriminate. }
  specialize (H i Hi). rewrite forallb_forall in H. specialize (H (j - i - 1)).
  rewrite A in H. replace (i + S (j - i - 1)) with j in H by lia. rewrite B in H.
  assert (Hj : In (j - i - 1) (seq 0 23)) by (apply in_seq; lia). specialize (H Hj).
  apply negb_true_iff, Z.leb_gt in H. unfold doubled in D. lia.
Qed.

Lemma slow_apart : more_apart 3600 (map fst slow_kept).
Proof. vm_compute. repeat split. Qed.
Lemma slow_sound : Forall sound_sample (slow_first :: map snd slow_kept).
Proof. apply sound_all. vm_compute. reflexivity. Qed.

Lemma slow_untold : exists first kept u, more_apart 3600 (map fst kept) /\ Forall sound_sample (first :: map snd kept) /\
  nth_error (first :: map snd kept) 24 = Some u /\ doubled first u /\ forall r, message_at first kept r = false.
Proof.
  exists slow_first, slow_kept, (Sample 1 (mega 200) 0). split; [exact slow_apart|]. split; [exact slow_sound|].
  split; [vm_compute; reflexivity|]. split; [vm_compute; discriminate|].
  intros r. destruct (message_at slow_first slow_kept r) eqn:E; [|reflexivity]. exfalso.
  destruct (told_so 3600 slow_first slow_kept r) as [i [j [D _]]]; [lia|exact slow_apart|exact slow_sound|exact E|].
  apply (no_doubles_none (slow_first :: map snd slow_kept)); [vm_compute; reflexivity|]. exists i, j. exact D.
Qed.

(** A peak: 100, one hour of 300, then 50 *)
Definition peak_kept : list (Z * sample) := hourly (map mega (300 :: repeat 50 20)%Z).
Lemma fallen_told : exists first kept r u, more_apart 3600 (map fst kept) /\ Forall sound_sample (first :: map snd kept) /\
  last (history_at first kept r) first = u /\ hd_error (history_at first kept r) = Some first /\ (s_rss u < s_rss first)%Z /\
  message_at first kept r = true.
Proof.
  exists slow_first, peak_kept, 72000%Z, (Sample 1 (mega 50) 0). split; [vm_compute; repeat split|]. split; [apply sound_all; vm_compute; reflexivity|].
  split; [vm_compute; reflexivity|]. split; [vm_compute; reflexivity|]. split; [vm_compute; reflexivity|]. vm_compute. reflexivity.
Qed.
