(** A proxy that makes one attempt after the other, in one thread, as the specification of the handler with
    its goroutines and timers (C114). *)
From Coq Require Import String List Bool ZArith.
From Verif Require Import GoStr Header Exchange Machine MachineSpec.
Import ListNotations.

(** What becomes of an attempt: a whole answer, a failure (no answer, one with status 500 or above, or a
    broken body), the read timeout, or the end of the time for the whole request. *)
Inductive fate := Good (rs : up_response) (body : string) | Fails | TimesOut | Over.

(** [sequential c k fs r]: with at most [k] attempts after the first, attempts with fates [fs] lead to
    response [r]. *)
Inductive sequential (c : conf) : nat -> list fate -> response -> Prop :=
| sq_good : forall k rs body dice, (ur_status rs < 500)%Z -> sequential c k [Good rs body] (proxied (c_env c) dice (c_down c) rs body)
| sq_over : forall k dice, sequential c k [Over] (gave_up_downstream c dice)
| sq_again : forall k f fs r, f = Fails \/ f = TimesOut -> sequential c k fs r -> sequential c (S k) (f :: fs) r
| sq_fails : forall dice, sequential c 0 [Fails] (gave_up_error c dice)
| sq_times_out : forall dice, sequential c 0 [TimesOut] (gave_up_upstream c dice).

(** [k] attempts are permitted after the first. *)
Definition further (c : conf) (k : nat) : Prop :=
  (repeatable c -> Z.of_nat (S k) = Z.max 1 (c_max c)) /\ (~ repeatable c -> k = 0).

(** The fates are those of the attempts in run [ls]. *)
Definition happened (ls : list label) (fs : list fate) : Prop :=
  forall i f, nth_error fs i = Some f ->
    match f with
    | Good rs body => answered ls i rs /\ In (LRead i body true) ls
    | Fails => failed_attempt ls i
    | TimesOut => In (LUpTimer i) ls
    | Over => In LDwnTimer ls
    end.

(** Upstream statuses that can be passed on *)
Definition valid_fates (fs : list fate) : Prop := forall rs body, In (Good rs body) fs -> (100 <= ur_status rs)%Z.
