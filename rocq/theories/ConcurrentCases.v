(** A case for Thm_Concurrent: two requests at once. *)
From Coq Require Import String List Bool ZArith Lia.
From Verif Require Import GoStr Header Config Exchange ExchangeProofs Jwt Machine MachineSpec MachineRaces Handler HandlerCases SystemSpec Startup Process ProcessSpec ProcessProofs ProcessCases
  SequentialSpec SequentialProofs ConcurrentSpec ConcurrentProofs.
Import Verif.Startup Verif.Process Verif.ProcessSpec ListNotations.
Local Open Scope string_scope.

Definition pair_in : list event := [Arrive plain_get (chance_at 1600000000); Arrive plain_get (chance_at 1600000000)].
Definition conf_at (k : nat) : conf :=
  match nth_error (p_visits (state_after pair_in)) k with
  | Some v => match v_out v with Upstream c => c | _ => gets 1 end
  | None => gets 1
  end.

(** The first attempt for one of them fails and the second is answered; the other's first attempt times out, and so does
    the request during the second. *)
Definition fates (k : nat) : list fate * response :=
  if Nat.eqb k 0 then ([Fails; Good created "ok"], proxied (c_env (conf_at 0)) 0 (c_down (conf_at 0)) created "ok")
  else ([TimesOut; Over], gave_up_downstream (conf_at 1) 0).

Lemma pair_after : after daemon0 pair_in (state_after pair_in).
Proof. apply reaches; vm_compute; reflexivity. Qed.

Lemma pair_conf : forall k v c, nth_error (p_visits (state_after pair_in)) k = Some v -> v_out v = Upstream c -> c = conf_at k.
Proof. intros k v c Hv Hc. unfold conf_at. now rewrite Hv, Hc. Qed.

Lemma pair_init : forall k v, nth_error (p_visits (state_after pair_in)) k = Some v -> (k = 0 \/ k = 1) /\ v_state v = init.
Proof.
  intros k v Hv. assert (L : length (p_visits (state_after pair_in)) = 2) by (vm_compute; reflexivity).
  assert (S0 : option_map v_state (nth_error (p_visits (state_after pair_in)) 0) = Some init) by (vm_compute; reflexivity).
  assert (S1 : option_map v_state (nth_error (p_visits (state_after pair_in)) 1) = Some init) by (vm_compute; reflexivity).
  assert (K : k < 2) by (rewrite <- L; apply nth_error_Some; congruence).
  destruct k as [|[|k]]; [| |lia].
  - rewrite Hv in S0. injection S0 as S0. split; [now left|exact S0].
  - rewrite Hv in S1. injection S1 as S1. split; [now right|exact S1].
Qed.

Lemma pair_ok : forall k, k = 0 \/ k = 1 -> c_ok (conf_at k) = true /\ c_max (conf_at k) = 4%Z /\ repeatable (conf_at k).
Proof. intros k [->| ->]; (split; [vm_compute; reflexivity|]); (split; [vm_compute; reflexivity|]); vm_compute; tauto. Qed.

Lemma pair_planned : forall k v c, nth_error (p_visits (state_after pair_in)) k = Some v -> v_out v = Upstream c ->
  v_state v = init /\ c_ok c = true /\ valid_fates (fst (fates k)) /\ exists n, further c n /\ sequential c n (fst (fates k)) (snd (fates k)).
Proof.
  intros k v c Hv Hc. rewrite (pair_conf k v c Hv Hc). destruct (pair_init k v Hv) as [K I]. split; [exact I|].
  destruct (pair_ok k K) as (Ok & M & R). split; [exact Ok|]. split.
  - unfold fates. destruct (Nat.eqb k 0); intros rs body H; cbn [fst In] in H.
    + destruct H as [H|[H|[]]]; [discriminate H|]. injection H as <- <-. discriminate.
    + destruct H as [H|[H|[]]]; discriminate H.
  - exists 3. split.
    + split; [intros _; rewrite M; reflexivity|]. intro N. elim (N R).
    + destruct K as [-> | ->]; cbn [fates Nat.eqb fst snd].
      * apply sq_again; [now left|]. now apply sq_good.
      * apply sq_again; [now right|]. apply sq_over.
Qed.

Lemma pair_upstream : forall k, k = 0 \/ k = 1 -> exists v, nth_error (p_visits (state_after pair_in)) k = Some v /\ v_out v = Upstream (conf_at k).
Proof.
  intros k K. assert (U : match nth_error (p_visits (state_after pair_in)) k with Some v => match v_out v with Upstream _ => true | _ => false end | None => false end = true)
    by (destruct K as [-> | ->]; vm_compute; reflexivity).
  destruct (nth_error (p_visits (state_after pair_in)) k) as [v|] eqn:E; [|discriminate U]. exists v. split; [reflexivity|].
  destruct (v_out v) as [| | |c|] eqn:Eo; try discriminate U. f_equal. exact (pair_conf k v c E Eo).
Qed.

Lemma pair_orders : let es := [Go 0 (LMain 0); Go 1 (LMain 0)] in let es' := [Go 1 (LMain 0); Go 0 (LMain 0)] in
  (exists p1, executes daemon0 (state_after pair_in) es = Some p1) /\ p_dead (state_after pair_in) = false /\
  only_requests (state_after pair_in) es /\ only_requests (state_after pair_in) es' /\ forall k, labels_of k es = labels_of k es'.
Proof.
  intros es es'.
  assert (O : forall e, In e es \/ In e es' -> exists k l v c, e = Go k l /\ nth_error (p_visits (state_after pair_in)) k = Some v /\ v_out v = Upstream c).
  { assert (X : forall k, k = 0 \/ k = 1 -> exists k' l v c, Go k (LMain 0) = Go k' l /\ nth_error (p_visits (state_after pair_in)) k' = Some v /\ v_out v = Upstream c).
    { intros k K. destruct (pair_upstream k K) as (v & V & C). exists k, (LMain 0), v, (conf_at k). split; [reflexivity|]. split; [exact V|exact C]. }
    intros e [[<-|[<-|[]]]|[<-|[<-|[]]]]; apply X; (now left) || (now right). }
  split.
  - assert (V : match executes daemon0 (state_after pair_in) es with Some _ => true | None => false end = true) by (vm_compute; reflexivity).
    destruct (executes daemon0 (state_after pair_in) es) as [p1|]; [|discriminate V]. now exists p1.
  - split; [vm_compute; reflexivity|]. split; [intros e He; apply O; now left|]. split; [intros e He; apply O; now right|].
    intros [|[|k]]; reflexivity.
Qed.

Lemma single_on_time : exists v c, nth_error (p_visits (state_after single)) 0 = Some v /\ v_out v = Upstream c /\
  on_time c init (labels_of 0 (tl single)) /\ further c 3 /\ exists r, s_out (v_state v) = [r].
Proof.
  assert (U : match nth_error (p_visits (state_after single)) 0 with
              | Some v => match v_out v with Upstream c => true | _ => false end && Nat.eqb (length (s_out (v_state v))) 1 | None => false end = true) by (vm_compute; reflexivity).
  assert (C : match nth_error (p_visits (state_after single)) 0 with
              | Some v => match v_out v with Upstream c => on_time c init (labels_of 0 (tl single)) /\ c_max c = 4%Z /\ repeatable c | _ => False end | None => False end) by (vm_compute; tauto).
  destruct (nth_error (p_visits (state_after single)) 0) as [v|]; [|discriminate U]. exists v.
  destruct (v_out v) as [| | |c|]; try discriminate U. exists c. destruct C as (C1 & C2 & C3). split; [reflexivity|]. split; [reflexivity|].
  split; [exact C1|]. split; [split; [intros _; rewrite C2; reflexivity|intro N; elim (N C3)]|].
  cbn [andb] in U. destruct (s_out (v_state v)) as [|r [|r' l]]; try discriminate U. now exists r.
Qed.
