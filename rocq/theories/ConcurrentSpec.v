(** Vocabulary for statements about many requests at once (C35, C90 and C114 for a process). *)
From Coq Require Import String List Bool ZArith.
From Verif Require Import GoStr Config Exchange Jwt Machine MachineSpec Handler SystemSpec Startup Process ProcessSpec.
Import ListNotations.

(** Nothing is left to do for the request. *)
Definition settled (v : visit) : Prop := (forall c, v_out v <> Upstream c) \/ finished (v_state v).

(** Events of requests that came in before *)
Definition only_requests (p : process) (es : list event) : Prop :=
  forall e, In e es -> exists k l v c, e = Go k l /\ nth_error (p_visits p) k = Some v /\ v_out v = Upstream c.

(** Everything but the states of requests is as before, and they are the same requests. *)
Definition same_otherwise (p p' : process) : Prop :=
  p_now p' = p_now p /\ p_jwts p' = p_jwts p /\ p_locked p' = p_locked p /\ p_count p' = p_count p /\ p_gs p' = p_gs p /\
  p_dead p' = p_dead p /\ p_starts p' = p_starts p /\ p_docs p' = p_docs p /\
  Forall2 (fun v v' => v_in v' = v_in v /\ v_chance v' = v_chance v /\ v_out v' = v_out v /\ v_rotated v' = v_rotated v) (p_visits p) (p_visits p').
