(** C115: what one value of the stream is. *)
From Coq Require Import List ZArith QArith Qpower.
From Verif Require Import GoStr Stats Policy Dice DiceSpec Balance BalanceSpec DrawCallsSpec DrawCallsProofs DrawCallsCases.
Local Open Scope Z_scope.

(** Int63 is called until it gives a number below 2^63 - 512, and the generator is left as these calls leave it. *)
Theorem C115_draw : forall G g g' d, bits63 G ->
  (throws G g g' d <-> exists n, (forall k, (k < n)%nat -> 2 ^ 63 - 512 <= call_gives G g k) /\ call_gives G g n < 2 ^ 63 - 512 /\
    d = float64_of (call_gives G g n) /\ g' = after_calls G (S n) g).
Proof. exact one_draw. Qed.
Print Assumptions C115_draw.

(** The value is that number divided by 2^63, up to half a unit in the last place of numbers from 1/2 to 1. *)
Theorem C115_value : forall G g g' d, bits63 G -> throws G g g' d ->
  exists n, g' = after_calls G (S n) g /\ (forall k, (k < n)%nat -> 2 ^ 63 - 512 <= call_gives G g k) /\
    weighty d /\ within half_ulp (value d) (inject_Z (call_gives G g n) * Qpower 2 (-63)).
Proof. exact draw_near. Qed.
Print Assumptions C115_value.

Example C115_draw_case : bits63 topped /\
  throws topped (0 : g_state topped) (2 : g_state topped) (float64_of (2 ^ 61)) /\ (value (float64_of (2 ^ 61)) == 1 # 4)%Q.
Proof. exact (conj topped_bits topped_draw). Qed.
