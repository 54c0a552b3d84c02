(** Vocabulary for statements about runs. *)
From Coq Require Import String List Bool ZArith.
From Verif Require Import GoStr Header Exchange Machine.
Import ListNotations.
Local Open Scope string_scope.

(** Labels of the handler itself. *)
Definition is_main (l : label) : bool := match l with LMain _ | LSel _ => true | _ => false end.

Fixpoint main_count (ls : list label) : nat :=
  match ls with [] => 0 | l :: ls' => (if is_main l then 1 else 0) + main_count ls' end.

(** Steps that do not need an upstream server: the handler and the timers. *)
Definition own_step (l : label) : bool :=
  match l with LMain _ | LSel _ | LUpTimer _ | LDwnTimer => true | _ => false end.

Definition finished (s : state) : Prop := s_pc s = PDone \/ s_pc s = PPanic.

(** A goroutine writes while its own attempt is the current one. *)
Definition timely (s : state) (l : label) : Prop :=
  match l with
  | LSetResp i | LStatus i | LGz i => i = s_cur s
  | _ => True
  end.

Fixpoint on_time (c : conf) (s : state) (ls : list label) : Prop :=
  match ls with
  | [] => True
  | l :: ls' => timely s l /\ match step c s l with Some s' => on_time c s' ls' | None => True end
  end.

(** Methods that may be sent again. *)
Definition repeatable (c : conf) : Prop :=
  In (w_method (c_down c)) ["GET"; "HEAD"; "OPTIONS"; "TRACE"; "PUT"; "DELETE"].

(** The handler has not yet looked at the downstream timer for the last time. *)
Definition undecided (s : state) : Prop :=
  match s_pc s with
  | PStart | PSelHdr | PRetHdr | PProc _ | PSelBody | PRetBody | PCheck1 _ _ | PRetry | PFin1 => True
  | _ => False
  end.

(** The handler has not yet looked at the upstream timer of the current attempt for the last time. *)
Definition unjudged (s : state) : Prop :=
  match s_pc s with
  | PSelHdr | PRetHdr | PProc _ | PSelBody | PRetBody | PCheck1 _ _ | PCheck2 _ _ | PRetry | PFin1 | PFin2 => True
  | _ => False
  end.

(** The three ways to give up. *)
Definition gave_up_downstream (c : conf) (dice : nat) : response :=
  send_status (c_env c) dice (c_down c) 504 "gateway timeout triggered by downstream event".
Definition gave_up_upstream (c : conf) (dice : nat) : response :=
  send_status (c_env c) dice (c_down c) 504 "gateway timeout triggered by upstream attempt".
Definition gave_up_error (c : conf) (dice : nat) : response :=
  send_status (c_env c) dice (c_down c) 502 "bad gateway triggered. unable to process upstream response".

(** In run [ls] attempt [i] got response [rs], respectively failed. *)
Definition answered (ls : list label) (i : nat) (rs : up_response) : Prop := In (LDo i (Some rs)) ls.
Definition failed_attempt (ls : list label) (i : nat) : Prop :=
  In (LDo i None) ls \/ (exists b, In (LRead i b false) ls) \/
  (exists rs, answered ls i rs /\ (500 <= ur_status rs)%Z).

(** No further attempt is permitted. *)
Definition exhausted (c : conf) (s : state) : Prop := repeatable c -> (c_max c <= Z.of_nat (length (s_sent s)))%Z.

(** What a response written in state [s] after run [ls] can be, whatever the schedule. *)
Definition kind (c : conf) (ls : list label) (s : state) (r : response) : Prop :=
  (exists dice, r = gave_up_downstream c dice /\ In LDwnTimer ls) \/
  (exists dice, r = gave_up_upstream c dice /\ In (LUpTimer (s_cur s)) ls /\ exhausted c s) \/
  (exists dice, r = gave_up_error c dice /\ ~ In (LUpTimer (s_cur s)) ls /\ exhausted c s) \/
  (exists i rs, answered ls i rs /\ rp_status r = ur_status rs).

(** What it can be if goroutines write on time: a failure of the last permitted attempt, or the whole
    answer of the current one. *)
Definition exact_kind (c : conf) (ls : list label) (s : state) (r : response) : Prop :=
  (exists dice, r = gave_up_downstream c dice /\ In LDwnTimer ls) \/
  (exists dice, r = gave_up_upstream c dice /\ In (LUpTimer (s_cur s)) ls /\ exhausted c s) \/
  (exists dice, r = gave_up_error c dice /\ failed_attempt ls (s_cur s) /\ ~ In (LUpTimer (s_cur s)) ls /\ exhausted c s) \/
  (exists dice rs body, answered ls (s_cur s) rs /\ In (LRead (s_cur s) body true) ls /\ (ur_status rs < 500)%Z /\
     r = proxied (c_env c) dice (c_down c) rs body).

(** An upstream status that is no HTTP status but is passed on. *)
Definition bad_code (ls : list label) : Prop :=
  exists i rs, answered ls i rs /\ valid_code (ur_status rs) = false /\ (ur_status rs < 500)%Z.

(** What the response of a whole run can be if goroutines write on time; attempts are numbered from 0
    and [n] is the number of the last one. *)
Definition in_order (c : conf) (ls : list label) (n : nat) (r : response) : Prop :=
  (exists dice, r = gave_up_downstream c dice /\ In LDwnTimer ls) \/
  ((forall i, i < n -> failed_attempt ls i \/ In (LUpTimer i) ls) /\
   ((exists dice, r = gave_up_upstream c dice /\ In (LUpTimer n) ls /\ (repeatable c -> (c_max c <= Z.of_nat (S n))%Z)) \/
    (exists dice, r = gave_up_error c dice /\ failed_attempt ls n /\ (repeatable c -> (c_max c <= Z.of_nat (S n))%Z)) \/
    (exists dice rs body, answered ls n rs /\ In (LRead n body true) ls /\ (ur_status rs < 500)%Z /\
       r = proxied (c_env c) dice (c_down c) rs body))).
