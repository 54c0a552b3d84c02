(** Lemmas for Thm_StartupExact: exactly which timeouts are those configured. *)
From Coq Require Import String List Bool ZArith Lia.
From Verif Require Import GoStr ConfigSpec ConfigProofs Config JwtProofs Startup StartupSpec StartupProofs.
Import Verif.Config ListNotations.
Local Open Scope Z_scope.

Lemma wrap_exact : forall z, wrap64 z = z <-> -9223372036854775808 <= z <= 9223372036854775807.
Proof.
  intros z. split; [intros H; pose proof (wrap64_range z) as R; rewrite H in R; exact R|]. intros H. apply wrap64_id. exact H.
Qed.

Lemma seconds_exact : forall v d s, filled v d s -> -9223372036 <= d <= 9223372036 ->
  (lasts v d (seconds s) <-> -9223372036 <= v <= 9223372036).
Proof.
  intros v d s F D. assert (U : forall s', filled v d s' -> s' = s) by (intros s' F'; destruct F as [[? ->]|[? ->]], F' as [[? ->]|[? ->]]; congruence).
  unfold lasts, seconds. split.
  - intros [s' [F' E]]. rewrite (U s' F') in E. apply wrap_exact in E. destruct F as [[-> _]|[_ <-]]; lia.
  - intros H. exists s. split; [exact F|]. apply wrap_exact. destruct F as [[_ ->]|[_ ->]]; lia.
Qed.

Lemma write_exact : forall v d s, filled v d s -> -9223372036 <= d + 1 <= 9223372036 ->
  (lasts v d (wrap64 (seconds s + 1000000000) - 1000000000) <-> -9223372036 <= v + 1 <= 9223372036).
Proof.
  intros v d s F D. assert (U : forall s', filled v d s' -> s' = s) by (intros s' F'; destruct F as [[? ->]|[? ->]], F' as [[? ->]|[? ->]]; congruence).
  unfold lasts, seconds. destruct (wrap64_eq (s * 1000000000)) as [k [-> Hk]].
  destruct (wrap64_eq (s * 1000000000 - k * 18446744073709551616 + 1000000000)) as [m [-> Hm]]. split.
  - intros [s' [F' E]]. rewrite (U s' F') in E. destruct F as [[-> _]|[_ <-]]; lia.
  - intros H. exists s. split; [exact F|]. destruct F as [[_ ->]|[_ ->]]; lia.
Qed.

Lemma listener_exactly : forall p h l c0, listens p h l -> told (pl_parse p) h c0 ->
  let d := c_down c0 in let v := li_server l in
  sv_read_header v = sv_read v /\
  (lasts (d_read_timeout d) 120 (sv_read v) <-> -9223372036 <= d_read_timeout d <= 9223372036) /\
  (lasts (d_idle_timeout d) 120 (sv_idle v) <-> -9223372036 <= d_idle_timeout d <= 9223372036) /\
  (lasts (d_roundtrip_timeout d) 240 (sv_write v - 1000000000) <-> -9223372036 <= d_roundtrip_timeout d + 1 <= 9223372036).
Proof.
  intros p h l c0 H Ht. cbv zeta. destruct (start_inv p h l H) as [c1 [c [Ht1 [Hb [_ [_ [_ [_ [Hs _]]]]]]]]].
  assert (c1 = c0) by exact (told_unique _ _ _ _ Ht1 Ht). subst c1. rewrite Hs.
  destruct (boot_down_filled _ _ _ _ _ Hb) as [F1 [F2 [F3 _]]]. cbn [scaffold_server sv_read sv_read_header sv_idle sv_write].
  split; [reflexivity|]. split; [apply seconds_exact; [exact F1|lia]|]. split; [apply seconds_exact; [exact F3|lia]|].
  unfold write_timeout. apply write_exact; [exact F2|lia].
Qed.

Lemma client_exactly : forall p h l c0, listens p h l -> told (pl_parse p) h c0 ->
  let u := c_up c0 in let k := li_client l in
  cl_handshake k = cl_dial k /\
  (lasts (up_socket_timeout u) 3 (cl_dial k) <-> -9223372036 <= up_socket_timeout u <= 9223372036) /\
  (lasts (up_idle_timeout u) 120 (cl_idle k) <-> -9223372036 <= up_idle_timeout u <= 9223372036).
Proof.
  intros p h l c0 H Ht. cbv zeta. destruct (start_inv p h l H) as [c1 [c [Ht1 [Hb [_ [_ [_ [Hc _]]]]]]]].
  assert (c1 = c0) by exact (told_unique _ _ _ _ Ht1 Ht). subst c1. rewrite Hc.
  destruct (boot_up_filled _ _ _ _ _ Hb) as [F1 [F2 [F3 [_ [_ F4]]]]].
  cbn [scaffold_client cl_dial cl_handshake cl_idle].
  split; [reflexivity|]. split; apply seconds_exact; try assumption; lia.
Qed.
