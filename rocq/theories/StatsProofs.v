(** Lemmas for Thm_Stats. *)
From Coq Require Import List Bool ZArith Arith Lia.
From Coq Require Import Floats.SpecFloat.
From Verif Require Import Stats StatsSpec StatsFloat.
Import ListNotations.

(** * History *)

Lemma last_of_short : forall A n (l : list A), length l <= n -> last_of n l = l.
Proof. intros A n l H. unfold last_of. now replace (length l - n) with 0 by lia. Qed.

Lemma last_of_length : forall A n (l : list A), length (last_of n l) = Nat.min n (length l).
Proof. intros A n l. unfold last_of. rewrite skipn_length. lia. Qed.

Lemma last_of_app : forall A n (x y : list A), last_of n (last_of n x ++ y) = last_of n (x ++ y).
Proof.
  intros A n x y. unfold last_of at 1 3. rewrite !app_length, last_of_length.
  destruct (le_lt_dec (length x) n) as [H|H].
  - rewrite last_of_short by assumption. now replace (Nat.min n (length x)) with (length x) by lia.
  - unfold last_of. assert (E : (x ++ y = firstn (length x - n) x ++ (skipn (length x - n) x ++ y))%list) by now rewrite app_assoc, firstn_skipn.
    rewrite E. clear E.
    rewrite (skipn_app _ (firstn (length x - n) x)).
    assert (Hf : length (firstn (length x - n) x) = length x - n) by (rewrite firstn_length; lia). rewrite Hf.
    rewrite (skipn_all2 (firstn (length x - n) x)) by lia. cbn [app]. f_equal. lia.
Qed.

Lemma append_last : forall h s, append_sample (last_of 24 h) s = last_of 24 (h ++ [s]).
Proof.
  intros h s. rewrite <- last_of_app. assert (Hl := last_of_length _ 24 h). set (l := last_of 24 h) in *. clearbody l.
  unfold append_sample, history_max. destruct (Nat.leb_spec 24 (length l)) as [H|H].
  - assert (E : length l = 24) by lia. unfold last_of. rewrite app_length, E. destruct l as [|a l]; [discriminate|]. reflexivity.
  - unfold last_of. rewrite app_length. cbn [length]. now replace (length l + 1 - 24) with 0 by lia.
Qed.

Lemma append_many : forall later h, fold_left append_sample later (last_of 24 h) = last_of 24 (h ++ later).
Proof.
  induction later as [|s later IH]; intros h; cbn [fold_left]; [now rewrite app_nil_r|].
  rewrite append_last, IH, <- app_assoc. reflexivity.
Qed.

Lemma history_recent : forall first later, history first later = last_of 24 (repeat first 24 ++ later).
Proof. intros first later. unfold history. rewrite <- append_many. f_equal. Qed.

Lemma history_any : forall h later, length h <= 24 -> fold_left append_sample later h = last_of 24 (h ++ later) /\ length (fold_left append_sample later h) <= 24.
Proof.
  intros h later H. rewrite <- (last_of_short _ 24 h) at 1 3 by assumption. rewrite append_many, last_of_length. split; [reflexivity|lia].
Qed.

Lemma history_full : forall first later, length (history first later) = 24.
Proof. intros first later. rewrite history_recent, last_of_length, app_length, repeat_length. lia. Qed.

(** * Growth *)

Lemma absent_unflagged : forall h, ~ present h -> fst (log_samples h) = map (fun _ => no_growth) h /\ snd (log_samples h) = false.
Proof.
  intros h H. assert (E : existsb (fun s => Z.eqb (s_pid s) 0) h = true).
  { destruct (existsb (fun s => Z.eqb (s_pid s) 0) h) eqn:E; [reflexivity|]. exfalso. apply H. intros s Hs He.
    assert (X : existsb (fun s => Z.eqb (s_pid s) 0) h = true) by (apply existsb_exists; exists s; split; [assumption|now apply Z.eqb_eq]). congruence. }
  unfold log_samples. rewrite E. cbn [fst snd]. split; [reflexivity|]. clear. induction h as [|s h IH]; [reflexivity|exact IH].
Qed.

Lemma present_rates : forall o h, present (o :: h) -> fst (log_samples (o :: h)) = map (growth o) (o :: h).
Proof.
  intros o h H. unfold log_samples. replace (existsb _ (o :: h)) with false; [reflexivity|]. symmetry.
  destruct (existsb (fun s => Z.eqb (s_pid s) 0) (o :: h)) eqn:E; [|reflexivity]. exfalso.
  apply existsb_exists in E. destruct E as [s [H1 H2]]. apply Z.eqb_eq in H2. exact (H s H1 H2).
Qed.

Lemma flagged : forall o h i s, present (o :: h) -> nth_error (o :: h) i = Some s ->
  exists g, nth_error (fst (log_samples (o :: h))) i = Some g /\ g = growth o s.
Proof. intros o h i s H Hi. rewrite present_rates by assumption. rewrite nth_error_map, Hi. now exists (growth o s). Qed.

Lemma doubled_flagged : forall o h i s, present (o :: h) -> nth_error (o :: h) i = Some s -> uint64 (s_rss s) -> (0 < s_rss o)%Z -> doubled o s ->
  exists g, nth_error (fst (log_samples (o :: h))) i = Some g /\ g_high g = true.
Proof.
  intros o h i s H Hi Hu Ho Hd. destruct (flagged o h i s H Hi) as [g [Hg ->]]. exists (growth o s). split; [assumption|].
  cbn [growth g_high]. destruct Hu. now apply ratio_complete.
Qed.

Lemma flagged_doubled : forall o h i s g, present (o :: h) -> nth_error (o :: h) i = Some s -> (0 <= s_rss s < 2 ^ 53)%Z -> (0 < s_rss o < 2 ^ 53)%Z ->
  nth_error (fst (log_samples (o :: h))) i = Some g -> g_high g = true -> doubled o s.
Proof.
  intros o h i s g H Hi Hs Ho Hg Hh. destruct (flagged o h i s H Hi) as [g' [Hg' ->]]. rewrite Hg in Hg'. injection Hg' as ->.
  cbn [growth g_high] in Hh. unfold doubled. apply ratio_sound; [lia|lia|lia|assumption].
Qed.

Lemma flagged_iff : forall o h i s, present (o :: h) -> nth_error (o :: h) i = Some s -> (0 <= s_rss s < 2 ^ 53)%Z -> (0 < s_rss o < 2 ^ 53)%Z ->
  exists g, nth_error (fst (log_samples (o :: h))) i = Some g /\ (g_high g = true <-> doubled o s).
Proof.
  intros o h i s H Hi Hs Ho. destruct (flagged o h i s H Hi) as [g [Hg E]]. exists g. split; [assumption|]. split.
  - intros Hh. eapply flagged_doubled; eassumption.
  - intros Hd. destruct (doubled_flagged o h i s H Hi) as [g' [Hg' Hh']]; [unfold uint64; lia|lia|assumption|]. congruence.
Qed.

Lemma message_iff : forall h, snd (log_samples h) = true <-> exists g, In g (fst (log_samples h)) /\ g_high g = true.
Proof. intros h. unfold log_samples. cbn [fst snd]. apply existsb_exists. Qed.

(** Exactly: the nearest binary64 numbers are compared. *)
Lemma flagged_nearest : forall o h i s, present (o :: h) -> nth_error (o :: h) i = Some s -> (0 < s_rss s < 2 ^ 64)%Z -> (0 < s_rss o < 2 ^ 64)%Z ->
  exists g, nth_error (fst (log_samples (o :: h))) i = Some g /\ (g_high g = true <-> (2 * nearest (s_rss o) <= nearest (s_rss s))%Z).
Proof.
  intros o h i s H Hi Hs Ho. destruct (flagged o h i s H Hi) as [g [Hg ->]]. exists (growth o s). split; [assumption|]. apply ratio_spec; assumption.
Qed.

Lemma huge_refuted : exists o s h, present [o; s] /\ uint64 (s_rss o) /\ uint64 (s_rss s) /\ (0 < s_rss o)%Z /\ fst (log_samples [o; s]) = h /\
  map g_high h = [false; true] /\ ~ doubled o s.
Proof.
  exists (Sample 1 (2 ^ 53) 0), (Sample 1 (2 ^ 54 - 1) 1). eexists. split; [intros x [<-|[<-|[]]]; discriminate|].
  unfold uint64, doubled. cbn [s_rss]. split; [lia|]. split; [lia|]. split; [lia|]. split; [vm_compute; reflexivity|]. split; [reflexivity|lia].
Qed.

Lemma zero_refuted : exists o s h, present [o; s] /\ uint64 (s_rss o) /\ uint64 (s_rss s) /\ fst (log_samples [o; s]) = h /\
  map g_high h = [false; false] /\ doubled o s.
Proof.
  exists (Sample 1 0 0), (Sample 1 0 1). eexists. split; [intros x [<-|[<-|[]]]; discriminate|].
  unfold uint64, doubled. cbn [s_rss]. split; [lia|]. split; [lia|]. split; [vm_compute; reflexivity|]. split; [reflexivity|lia].
Qed.

(** * Both goroutines *)

Definition boot (s : sample) : world := World (repeat s history_max) AIdle LIdle.

Lemma crash_refuted : exists s ts, s_pid s <> 0%Z /\ (forall t, In t ts -> t = TAppend s \/ t = TLog) /\ crashed (run (boot s) ts).
Proof.
  exists (Sample 1 100 0), ([TAppend (Sample 1 100 0); TAppend (Sample 1 100 0); TAppend (Sample 1 100 0); TLog; TAppend (Sample 1 100 0)] ++ repeat TLog 28)%list.
  split; [discriminate|]. split; [|vm_compute; reflexivity].
  intros t Ht. apply in_app_or in Ht. destruct Ht as [Ht|Ht].
  - destruct Ht as [<-|[<-|[<-|[<-|[<-|[]]]]]]; auto.
  - apply repeat_spec in Ht. auto.
Qed.

Definition rated (o : sample) (h : list sample) (k : nat) (rates : list (nat * growth_rate)) : Prop :=
  map snd rates = map (growth o) (skipn k h).

Definition consistent (w : world) : Prop :=
  let h := w_hist w in
  match w_log w with
  | LIdle => True
  | LMade n => w_app w = AIdle /\ n = length h
  | LCheck n k => w_app w = AIdle /\ n = length h /\ k <= n /\ present (skipn k h)
  | LChecked n => w_app w = AIdle /\ n = length h /\ present h
  | LRate n k rates => w_app w = AIdle /\ n = length h /\ k <= n /\ present h /\ match h with [] => rates = [] | o :: _ => rated o h k rates end
  | LDone n rates => w_app w = AIdle /\ reported n rates = fst (log_samples h)
  | LCrash => False
  end.

Lemma map_const : forall A B (b : B) (l : list A), map (fun _ => b) l = repeat b (length l).
Proof. induction l as [|a l IH]; cbn; congruence. Qed.

Lemma skipn_nth : forall A (l : list A) k x, nth_error l k = Some x -> skipn k l = x :: skipn (S k) l.
Proof. induction l as [|a l IH]; intros [|k] x H; try discriminate; cbn in *; [congruence|]. now apply IH. Qed.

Lemma consistent_step : forall w t, consistent w -> match t with TAppend _ => w_log w = LIdle | TLog => w_app w = AIdle end -> consistent (turn_step w t).
Proof.
  intros [h a l] t HI Ht. destruct t as [s|].
  - cbn [w_log] in Ht. subst l. unfold turn_step. cbn [w_log]. unfold append_step, consistent. cbn [w_app w_log w_hist].
    destruct a; exact I.
  - cbn [w_app] in Ht. subst a. unfold turn_step. cbn [w_log]. destruct l as [|n|n k|n|n k rates|n rates|]; unfold log_step, consistent in *; cbn [w_app w_log w_hist] in *.
    + split; reflexivity.
    + destruct HI as [_ ->]. repeat split; [apply le_n|]. rewrite skipn_all. intros s [].
    + destruct HI as [_ [-> [Hk Hp]]]. destruct k as [|k]; cbn [w_app w_log w_hist].
      * repeat split. exact Hp.
      * destruct (nth_error h k) as [s|] eqn:E; [|apply nth_error_None in E; lia].
        destruct (Z.eqb_spec (s_pid s) 0) as [Z0|NZ]; cbn [w_app w_log w_hist].
        -- split; [reflexivity|]. cbn [reported]. destruct (absent_unflagged h) as [-> _]; [|symmetry; apply map_const].
           intros X. apply (X s); [eapply nth_error_In; exact E|assumption].
        -- repeat split; [lia|]. rewrite (skipn_nth _ _ _ _ E). intros x [<-|Hx]; [assumption|exact (Hp x Hx)].
    + destruct HI as [_ [-> Hp]]. split; [reflexivity|]. split; [reflexivity|]. split; [apply le_n|]. split; [exact Hp|].
      destruct h; [reflexivity|]. unfold rated. now rewrite skipn_all.
    + destruct HI as [_ [-> [Hk [Hp Hr]]]]. destruct k as [|k]; cbn [w_app w_log w_hist].
      * split; [reflexivity|]. destruct h as [|o h]; [now subst rates|].
        unfold rated in Hr. cbn [skipn] in Hr. rewrite present_rates by exact Hp.
        unfold reported. destruct rates as [|r rates]; [discriminate|exact Hr].
      * destruct (nth_error h k) as [s|] eqn:E; [|apply nth_error_None in E; lia].
        destruct h as [|o h]; [destruct k; discriminate|].
        destruct (Nat.ltb_spec k (length (o :: h))) as [L|G]; [|lia]. cbn [w_app w_log w_hist].
        split; [reflexivity|]. split; [reflexivity|]. split; [lia|]. split; [exact Hp|].
        unfold rated in *. cbn [map snd]. rewrite (skipn_nth _ _ _ _ E). cbn [map]. f_equal. exact Hr.
    + exact I.
    + exact HI.
Qed.

Lemma whole_consistent : forall ts w, consistent w -> reports_whole w ts -> consistent (run w ts).
Proof.
  unfold run. induction ts as [|t ts IH]; intros w HI H; cbn [fold_left]; [assumption|].
  cbn [reports_whole] in H. destruct H as [H1 H2]. apply IH; [|assumption]. apply consistent_step; assumption.
Qed.

Lemma whole_right : forall s ts, reports_whole (boot s) ts -> ~ crashed (run (boot s) ts) /\
  forall n rates, w_log (run (boot s) ts) = LDone n rates -> reported n rates = fst (log_samples (w_hist (run (boot s) ts))).
Proof.
  intros s ts H. assert (HI := whole_consistent ts (boot s) I H). unfold consistent in HI. split.
  - intros X. unfold crashed in X. rewrite X in HI. exact HI.
  - intros n rates X. rewrite X in HI. apply HI.
Qed.

(** What the appender does between reports is append_sample. *)
Lemma append_turns : forall h s, length h = 24 ->
  run (World h AIdle LIdle) [TAppend s; TAppend s; TAppend s; TAppend s] = World (append_sample h s) AIdle LIdle.
Proof.
  intros h s H. unfold run. cbn [fold_left]. unfold turn_step at 4. cbn [w_log]. unfold append_step at 1. cbn [w_app w_hist w_log].
  rewrite H. cbn [Nat.leb history_max]. destruct h as [|x h]; [discriminate|].
  unfold append_sample. rewrite H. reflexivity.
Qed.
