(** C115: the labels a process draws come from one stream of dice; C13 for a process. *)
From Coq Require Import String List Bool ZArith QArith Qpower Permutation.
From Verif Require Import GoStr Header Policy PolicySpec Config ConfigSpec Routing Dice DiceSpec Exchange Jwt Machine Handler HandlerSpec SystemSpec Startup StartupSpec
  Process ProcessSpec Balance BalanceSpec BalanceProofs DiceCases BalanceCases.
Import Verif.Process ListNotations.
Local Open Scope string_scope.

(** As long as neither an error document nor the about page is rendered, the labels that requests draw, from whatever
    policies, are those for consecutive values of the generator, whatever else happens meanwhile.  Policies stay what
    the configuration says although they are sorted in place. *)
Theorem C115_stream : forall G srt m es0 p b es p' b', settles srt -> has_gone G srt m es0 p b -> goes G srt m p b es p' b' -> none_rendered m p es ->
  exists ds, stream G (b_gen b) ds (b_gen b') /\
    Forall2 (fun e d => snd e = fst (resolve_f srt d (policy_of m (fst e)))) (drawn_labels m p es) ds.
Proof. exact one_stream. Qed.
Print Assumptions C115_stream.

(** So other requests matter by what they draw from and how often, and by nothing else. *)
Theorem C115_number : forall G srt m es0 p b es q c es' q' c', settles srt -> has_gone G srt m es0 p b ->
  goes G srt m p b es q c -> goes G srt m p b es' q' c' -> none_rendered m p es -> none_rendered m p es' ->
  map fst (drawn_labels m p es) = map fst (drawn_labels m p es') -> drawn_labels m p es = drawn_labels m p es'.
Proof. exact only_number. Qed.
Print Assumptions C115_number.

(** Every process starts with the same stream: two that have the same policies, wherever and whenever they were started,
    give the same labels to their first requests. *)
Theorem C115_replicas : forall G srt m m' es p b es' p' b', settles srt -> (forall pol, policy_of m pol = policy_of m' pol) ->
  has_gone G srt m es p b -> has_gone G srt m' es' p' b' ->
  let p0 := process_init (li_config (dm_listener m)) (dm_since m) in let p0' := process_init (li_config (dm_listener m')) (dm_since m') in
  none_rendered m p0 es -> none_rendered m' p0' es' ->
  map fst (drawn_labels m p0 es) = map fst (drawn_labels m' p0' es') -> drawn_labels m p0 es = drawn_labels m' p0' es'.
Proof. exact replicas_alike. Qed.
Print Assumptions C115_replicas.

(** If the next N values of the generator are, in some order, N values spread evenly up to [eps], then of N requests that
    draw from a policy a label gets N times its stated weight, up to the bound of C109. *)
Theorem C115_share : forall G srt m es0 p b es p' b' pol ds g dice eps theta s L, settles srt -> reorders srt -> has_gone G srt m es0 p b ->
  goes G srt m p b es p' b' -> none_rendered m p es -> (forall e, In e (drawn_labels m p es) -> fst e = pol) ->
  let N := List.length (drawn_labels m p es) in
  N <> 0%nat -> stream G (b_gen b) ds g -> List.length ds = N -> Permutation ds (map dice (seq 0 N)) -> spread N eps dice -> (0 <= eps)%Q -> (0 <= theta)%Q ->
  (of_nat (List.length (policy_of m pol)) * (theta + Qpower 2 (-53)) < 1)%Q -> states theta (policy_of m pol) s -> (total_weight s <= 1)%Q -> L <> "default" ->
  within (of_nat (entries_of L s) * (1 + 2 * of_nat N * (eps + of_nat (List.length (policy_of m pol)) * (theta + Qpower 2 (-53)))))
    (of_nat (count_label L (map snd (drawn_labels m p es)))) (of_nat N * weight_of L s).
Proof. exact stream_share. Qed.
Print Assumptions C115_share.

Example C115_case : exists p b, has_gone counter by_weight splitter [] fresh_start (chances_init counter as_told) /\
  goes counter by_weight splitter fresh_start (chances_init counter as_told) (calm around) p b /\ none_rendered splitter fresh_start (calm around) /\
  map fst (drawn_labels splitter fresh_start (calm around)) = repeat "ab" 8 /\
  map snd (drawn_labels splitter fresh_start (calm around)) = ["blue"; "green"; "green"; "green"; "green"; "green"; "green"; "blue"] /\
  stream counter (b_gen (chances_init counter as_told)) around (1%Z : g_state counter) /\ Permutation around (map eighths (seq 0 8)) /\ spread 8 0 eighths /\
  settles by_weight /\ reorders by_weight /\ states 0 (policy_of splitter "ab") three_to_one_stated.
Proof. exact round_case. Qed.

(** Two requests for one URI that each come right after a document, in the same second, whatever happened before, go to
    the same URI upstream. *)
Theorem C115_document : forall G srt m es1 p1 b1 es2 p2 b2 x1 cx1 i1 ch1 q1 c1 x2 cx2 i2 ch2 q2 c2 v1 v2 u1 u2, settles srt ->
  has_gone G srt m es1 p1 b1 -> has_gone G srt m es2 p2 b2 ->
  goes G srt m p1 b1 [Arrive x1 cx1; Arrive i1 ch1] q1 c1 -> goes G srt m p2 b2 [Arrive x2 cx2; Arrive i2 ch2] q2 c2 ->
  rendered m p1 (Arrive x1 cx1) = true -> rendered m p2 (Arrive x2 cx2) = true -> unix (p_now p1) = unix (p_now p2) ->
  q_raw_uri (i_req i1) = q_raw_uri (i_req i2) -> q_uri (i_req i1) = q_uri (i_req i2) ->
  nth_error (p_visits q1) (S (List.length (p_visits p1))) = Some v1 -> nth_error (p_visits q2) (S (List.length (p_visits p2))) = Some v2 ->
  v_out v1 = Upstream u1 -> v_out v2 = Upstream u2 -> uq_uri (c_request u1) = uq_uri (c_request u2).
Proof. exact steered. Qed.
Print Assumptions C115_document.

Example C115_document_case : exists p1 b1 es2 p2 b2 i q1 c1 q2 c2 v1 v2 u1 u2,
  has_gone counter by_weight splitter [] p1 b1 /\ has_gone counter by_weight splitter es2 p2 b2 /\ List.length es2 = 2%nat /\
  goes counter by_weight splitter p1 b1 i q1 c1 /\ goes counter by_weight splitter p2 b2 i q2 c2 /\
  rendered splitter p1 (Arrive unknown (with_label 0 "blue")) = true /\ rendered splitter p2 (Arrive unknown (with_label 0 "blue")) = true /\
  i = [Arrive unknown (with_label 0 "blue"); Arrive wanted (with_label 0 "blue")] /\ unix (p_now p1) = unix (p_now p2) /\
  nth_error (p_visits q1) (S (List.length (p_visits p1))) = Some v1 /\ nth_error (p_visits q2) (S (List.length (p_visits p2))) = Some v2 /\
  v_out v1 = Upstream u1 /\ v_out v2 = Upstream u2.
Proof. exact document_case. Qed.

(** C13 does not hold of a process, whatever the generator: with a policy that gives no label more than three quarters,
    any number of requests, each after a request for an unknown path in the same second, draw one and the same label. *)
Theorem C13_process_refuted : forall G, (forall g, exists g' d, throws G g g' d) -> exists m srt s L x cx i ch, settles srt /\ reorders srt /\
  states 0 (policy_of m "ab") s /\ (total_weight s == 1)%Q /\ (forall l, weight_of l s <= 3 # 4)%Q /\
  forall n, exists p b, let es := concat (repeat [Arrive x cx; Arrive i ch] n) in
    has_gone G srt m es p b /\ drawn_labels m (process_init (li_config (dm_listener m)) (dm_since m)) es = repeat ("ab", L) n.
Proof. exact all_one_label. Qed.
Print Assumptions C13_process_refuted.

(** With the counter, against the labels of [C115_case] *)
Example C13_process_case : (forall g, exists g' d, throws counter g g' d) /\ exists p b, has_gone counter by_weight splitter (concat (repeat (pair_of 0 (eighths 1)) 8)) p b /\
  map snd (drawn_labels splitter fresh_start (concat (repeat (pair_of 0 (eighths 1)) 8))) = repeat "blue" 8.
Proof. exact steered_case. Qed.
