(** A generator whose first value is rounded to 1. *)
From Coq Require Import ZArith QArith Lia Floats.SpecFloat.
From Verif Require Import GoStr Stats Policy Dice DiceSpec Balance DrawCallsSpec.
Local Open Scope Z_scope.

(** 2^63 - 1 first, 2^61 afterwards *)
Definition topped : rng := Rng Z (fun t => t) (fun g => (g + 1, if g =? 0 then 2 ^ 63 - 1 else 2 ^ 61)).

Lemma topped_bits : bits63 topped.
Proof. intros g. cbn [topped g_int63 snd]. destruct (g =? 0); lia. Qed.

(** The first draw takes two calls and gives a quarter. *)
Lemma topped_draw : throws topped (0 : g_state topped) (2 : g_state topped) (float64_of (2 ^ 61)) /\ (value (float64_of (2 ^ 61)) == 1 # 4)%Q.
Proof.
  split; [|vm_compute; reflexivity]. apply (th_again topped (0 : g_state topped) (1 : g_state topped) (2 : g_state topped) (2 ^ 63 - 1) (float64_of (2 ^ 61))); [reflexivity|vm_compute; reflexivity|].
  apply (th_done topped (1 : g_state topped) (2 : g_state topped) (2 ^ 61)); [reflexivity|vm_compute; reflexivity].
Qed.
