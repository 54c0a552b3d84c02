(** Vocabulary for statements about the labels a process draws (C115). *)
From Coq Require Import String Ascii List Bool ZArith NArith.
From Verif Require Import GoStr Policy Config Exchange Jwt Machine Handler Startup Process ProcessSpec Balance.
Import ListNotations.
Local Open Scope string_scope.

(** A process [m] with generator [G], whose sort.Sort is [srt], goes on from state [p] and [b]. *)
Definition goes (G : rng) (srt : fpolicy -> fpolicy) (m : daemon) : process -> chances G -> list event -> process -> chances G -> Prop :=
  lives G srt (li_env (dm_listener m)) (dm_lib m) (dm_new m) (li_config (dm_listener m)).

(** It has done so from the start. *)
Definition has_gone (G : rng) (srt : fpolicy -> fpolicy) (m : daemon) (es : list event) (p : process) (b : chances G) : Prop :=
  up m /\ goes G srt m (process_init (li_config (dm_listener m)) (dm_since m)) (chances_init G (li_config (dm_listener m))) es p b.

(** The policy from which a request draws *)
Definition draws_from (m : daemon) (p : process) (i : incoming) (ch : chance) : option string :=
  draws (li_env (dm_listener m)) (dm_lib m) (config_at m p) ch i.

Definition policy_of (m : daemon) (pol : string) : fpolicy := policy_in (c_policies (li_config (dm_listener m))) pol.

(** The policies from which requests draw while [es] happen, in order, with the labels drawn *)
Fixpoint drawn_labels (m : daemon) (p : process) (es : list event) : list (string * string) :=
  match es with
  | [] => []
  | e :: es' =>
      (match e with
       | Arrive i ch => match draws_from m p i ch with Some pol => [(pol, ch_label ch (policy_of m pol))] | None => [] end
       | _ => []
       end ++ match executes m p [e] with Some p' => drawn_labels m p' es' | None => [] end)%list
  end.

(** Event [e] in state [p] has an error document or the about page rendered. *)
Definition rendered (m : daemon) (p : process) (e : event) : bool :=
  match e with
  | Arrive i ch => answers_at_once (serve (li_env (dm_listener m)) (dm_lib m) (dm_new m) (config_at m p) ch i)
  | Go k (LMain _) => match nth_error (p_visits p) k with Some v => renders (v_state v) | None => false end
  | _ => false
  end.

(** None is while [es] happen. *)
Fixpoint none_rendered (m : daemon) (p : process) (es : list event) : Prop :=
  match es with
  | [] => True
  | e :: es' => rendered m p e = false /\ match executes m p [e] with Some p' => none_rendered m p' es' | None => True end
  end.

(** Consecutive values of the dice *)
Inductive stream (G : rng) : g_state G -> list f64 -> g_state G -> Prop :=
| st_nil : forall g, stream G g [] g
| st_cons : forall g g1 d ds g2, throws G g g1 d -> stream G g1 ds g2 -> stream G g (d :: ds) g2.

(** Sorting a policy again changes nothing (insertion sort, which sort.Sort is for fewer than 12 entries). *)
Definition settles (srt : fpolicy -> fpolicy) : Prop := forall p, srt (srt p) = srt p.

(** How often [L] is among some labels *)
Definition count_label (L : string) (l : list string) : nat := List.length (filter (fun x => String.eqb x L) l).
