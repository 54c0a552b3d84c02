(** The random numbers of a process (policy.go:29-49, responses.go:149-152): one generator of math/rand that all
    requests share, and the policies, which are sorted in place.

    Simplifications.  What one step of [Process] takes from the generator is taken at once, and sorting a policy is
    one step (for overlapping sorts see Policy).  The label of a request is drawn in the order of arrival. *)
From Coq Require Import String Ascii List Bool ZArith NArith Floats.SpecFloat.
From Verif Require Import GoStr Header Policy Config Routing Stats Dice Exchange Jwt JwksRate Machine Handler Process.
Import ListNotations.
Local Open Scope string_scope.

(** A generator: its states, Seed, and Int63 *)
Record rng := Rng { g_state : Type; g_seed : Z -> g_state; g_int63 : g_state -> g_state * Z }.

(** math/rand rand.go, Rand.Float64 (Go 1.15), see [draw] of Dice: from one state to another, with the value *)
Inductive throws (G : rng) : g_state G -> g_state G -> f64 -> Prop :=
| th_again : forall g g1 g2 i d, g_int63 G g = (g1, i) -> SFeqb (float64_of i) (of_uint64 1) = true -> throws G g1 g2 d -> throws G g g2 d
| th_done : forall g g1 i, g_int63 G g = (g1, i) -> SFeqb (float64_of i) (of_uint64 1) = false -> throws G g g1 (float64_of i).

(** The global generator, and Runner.Policies as it is now *)
Record chances (G : rng) := Chances { b_gen : g_state G; b_policies : smap fpolicy }.
Arguments Chances {G}.
Arguments b_gen {G}.
Arguments b_policies {G}.

(** An unknown policy is the empty one (route.go:57-58). *)
Definition policy_in (m : smap fpolicy) (pol : string) : fpolicy := match lookup pol m with Some p => p | None => [] end.

Section Balance.
  Variable G : rng.
  Variable srt : fpolicy -> fpolicy.   (* sort.Sort *)
  Variable E : env.
  Variable L : library.
  Variable new_request : string -> string -> bool.
  Variable cfg : config jwt.

  (** proxyhandler.go:33-66 with route.go:47-60: the policy from which a request draws a label, if it comes to that *)
  Definition draws (c : config jwt) (ch : chance) (i : incoming) : option string :=
    match mux_serve (about_paths (c_routes c)) i with
    | TProxy =>
        if validate (parse_incoming E (ch_fresh ch) (i_req i)) then
          match select_route (c_routes c) (q_raw_uri (i_req i)) with
          | Some r =>
              match (if has_jwt r then check_jwt L c (ch_now ch) r (get "Authorization" (q_header (i_req i))) else Valid) with
              | Valid =>
                  match lookup (r_resource r) (c_resources c) with
                  | Some (Some _) => if String.eqb (r_policy r) "" then None else Some (r_policy r)
                  | _ => None
                  end
              | _ => None
              end
          | None => None
          end
        else None
    | _ => None
    end.

  (** policy.go:29-49 *)
  Definition draw_label (pol : string) (ch : chance) (b b' : chances G) : Prop :=
    exists g d, throws G (b_gen b) g d /\
      ch_label ch (policy_in (c_policies cfg) pol) = fst (resolve_f srt d (policy_in (b_policies b) pol)) /\
      b' = Chances g (match lookup pol (b_policies b) with Some p => insert pol (snd (resolve_f srt d p)) (b_policies b) | None => b_policies b end).

  (** responses.go:149-152; on the platforms the code is built for, Int is Int63.  [now] is in nanoseconds. *)
  Definition greet (now : Z) (dice : nat) (b b' : chances G) : Prop :=
    exists g n, g_int63 G (g_seed G (unix now)) = (g, n) /\ dice = Z.to_nat n /\ b' = Chances g (b_policies b).

  (** An error document or the about page is rendered when a request comes in. *)
  Definition answers_at_once (o : outcome) : bool := match o with About _ | Answered _ => true | _ => false end.

  (** An error document is rendered at this step of the handler (proxyhandler.go:94-102 and 252). *)
  Definition renders (s : state) : bool :=
    match s_pc s with
    | PErr => valid_code (a_status (cur s))
    | PFin1 => dwn_aborted s
    | PFin2 => true
    | _ => false
    end.

  (** What event [e] takes from the generator *)
  Definition takes (p : process) (e : event) (b b' : chances G) : Prop :=
    match e with
    | Arrive i ch =>
        exists b1,
          (match draws (current cfg p) ch i with Some pol => draw_label pol ch b b1 | None => b1 = b end) /\
          (if answers_at_once (serve E L new_request (current cfg p) ch i) then greet (p_now p) (ch_dice ch) b1 b' else b' = b1)
    | Go k (LMain dice) =>
        match nth_error (p_visits p) k with
        | Some v => if renders (v_state v) then greet (p_now p) dice b b' else b' = b
        | None => b' = b
        end
    | _ => b' = b
    end.

  Inductive lives : process -> chances G -> list event -> process -> chances G -> Prop :=
  | lv_nil : forall p b, lives p b [] p b
  | lv_cons : forall p b e p1 b1 es p2 b2, process_step E L new_request cfg p e = Some p1 -> takes p e b b1 -> lives p1 b1 es p2 b2 ->
      lives p b (e :: es) p2 b2.

  (** The generator is not seeded at the start, which is the same as seeding it with 1 (math/rand, Go 1.15). *)
  Definition chances_init : chances G := Chances (g_seed G 1) (c_policies cfg).
End Balance.
