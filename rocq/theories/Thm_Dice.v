(** C109: the split of traffic with the weights as binary64 numbers and the dice as math/rand throws it. *)
From Coq Require Import String List Bool ZArith QArith Qpower.
From Verif Require Import GoStr Policy PolicySpec PolicyProofs Config ConfigSpec ConfigProofs Exchange ExchangeSpec Startup StartupSpec StartupCases Jwt Machine SystemSpec Handler HandlerSpec
  Decode DecodeSpec Dice DiceSpec DiceProofs DiceServe DiceCases.
Import ListNotations.
Local Open Scope string_scope.

(** For any dice with N values that are spread evenly up to [eps], and weights that are the stated ones up to [theta]:
    the number of values that lead to a label is N times its stated weight, up to one value per entry of the label and
    to what is lost by rounding. *)
Theorem C109_share : forall N srt dice eps theta p s L, (0 < N)%nat -> spread N eps dice -> (0 <= eps)%Q -> (0 <= theta)%Q ->
  (of_nat (List.length p) * (theta + Qpower 2 (-53)) < 1)%Q -> reorders srt -> states theta p s -> (total_weight s <= 1)%Q -> L <> "default" ->
  within (of_nat (entries_of L s) * (1 + 2 * of_nat N * (eps + of_nat (List.length p) * (theta + Qpower 2 (-53)))))
    (of_nat (resolved N srt dice p L)) (of_nat N * weight_of L s).
Proof. exact float_share. Qed.
Print Assumptions C109_share.

Example C109_case :
  spread 8 0 eighths /\ states 0 three_to_one three_to_one_stated /\ reorders (@rev (label_weight f64)) /\ (total_weight three_to_one_stated <= 1)%Q /\
  (of_nat (List.length three_to_one) * (0 + Qpower 2 (-53)) < 1)%Q /\
  resolved 8 (@rev _) eighths three_to_one "blue" = 2%nat /\ resolved 8 (@rev _) eighths three_to_one "green" = 6%nat /\
  states half_ulp ten_tenths tenths_stated /\ (total_weight tenths_stated == 1)%Q /\ ~ In "default" (map lw_label tenths_stated).
Proof. exact share_case. Qed.

(** Where the weights add up to 1, at most the share lost by rounding leads to none of the labels. *)
Theorem C109_default : forall N srt dice eps theta p s, (0 < N)%nat -> spread N eps dice -> (0 <= eps)%Q -> (0 <= theta)%Q ->
  (of_nat (List.length p) * (theta + Qpower 2 (-53)) < 1)%Q -> reorders srt -> states theta p s -> (total_weight s == 1)%Q ->
  ~ In "default" (map lw_label s) ->
  (of_nat (resolved N srt dice p "default") <= of_nat N * (eps + of_nat (List.length p) * (theta + Qpower 2 (-53))))%Q.
Proof. exact float_default. Qed.
Print Assumptions C109_default.

(** math/rand: every value of Int63 below 2^63 - 512 is a throw of the dice, the others are drawn anew, and the throws
    are spread evenly up to 2^-53. *)
Theorem C109_draw : forall i rest, (0 <= i < 2 ^ 63)%Z ->
  draw (i :: rest) = if (i <? 2 ^ 63 - 512)%Z then Some (float64_of i) else draw rest.
Proof. exact draw_one. Qed.
Print Assumptions C109_draw.

Theorem C109_even : spread go_values (Qpower 2 (-53)) go_dice.
Proof. exact go_spread. Qed.
Print Assumptions C109_even.

(** With that dice, and weights rounded to the nearest binary64 number, the share of a label is its stated weight up to
    about 3 n / 2^53 for n entries ... *)
Theorem C109_go_share : forall srt p s L, reorders srt -> (Z.of_nat (List.length p) <= 2 ^ 50)%Z -> states half_ulp p s ->
  (total_weight s <= 1)%Q -> L <> "default" ->
  within (of_nat (entries_of L s) * (of_nat (3 * List.length p + 4) * Qpower 2 (-53)))
    (of_nat (resolved go_values srt go_dice p L) / of_nat go_values) (weight_of L s).
Proof. exact go_share. Qed.
Print Assumptions C109_go_share.

(** ... and the share of requests that find no label although the weights add up to 1 is at most (2 n + 1) / 2^53. *)
Theorem C109_go_default : forall srt p s, reorders srt -> (Z.of_nat (List.length p) <= 2 ^ 50)%Z -> states half_ulp p s ->
  (total_weight s == 1)%Q -> ~ In "default" (map lw_label s) ->
  (of_nat (resolved go_values srt go_dice p "default") / of_nat go_values <= of_nat (2 * List.length p + 1) * Qpower 2 (-53))%Q.
Proof. exact go_default. Qed.
Print Assumptions C109_go_default.

(** From the document on: if a route names a policy of the document, then over all throws of the dice requests go to
    servers that have the label drawn, and each label gets the share the document states. *)
Theorem C109_document : forall p h float yaml d l uri res pol m el pm pl srt s (t : nat -> setting) (x : nat -> up_request),
  sorts_routes (pl_sort p) -> written_in p h float yaml d -> says ["routes"] d (DArr l) ->
  (forall e, route_for l uri e -> text_for "resource" e res /\ text_for "policy" e pol) -> pol <> "" -> pol <> "default" ->
  says ["resources"] d m -> entry res m (DArr el) -> says ["policies"] d pm -> entry pol pm (DArr pl) ->
  reorders srt -> Forall2 (weight_stated float) pl s -> (total_weight s <= 1)%Q -> (Z.of_nat (List.length pl) <= 2 ^ 50)%Z ->
  (forall k, (k < go_values)%nat -> StartupSpec.serves p h (t k) /\ asks (t k) (x k) /\ sized (t_req (t k)) /\ q_raw_uri (t_req (t k)) = uri /\
     forall q, lookup pol (c_policies (t_cfg (t k))) = Some q -> ch_label (t_chance (t k)) q = fst (resolve_f srt (go_dice k) q)) ->
  exists label,
    (forall k, (k < go_values)%nat -> exists sd sm u rest, In sd el /\ server_read sd sm /\ server_of (rm_url sm) u /\ uq_uri (x k) = base_url u ++ rest /\ In (label k) (rm_labels sm)) /\
    forall L, L <> "default" ->
      within (of_nat (entries_of L s) * (of_nat (3 * List.length pl + 4) * Qpower 2 (-53)))
        (of_nat (how_many go_values (fun k => String.eqb (label k) L)) / of_nat go_values) (weight_of L s).
Proof. exact document_share. Qed.
Print Assumptions C109_document.

Example C109_document_case :
  sorts_routes (pl_sort field1) /\ written_in field1 (host0 "split" "VERSION" "v1") float1 yaml1 split_doc /\
  says ["routes"] split_doc (DArr [split_route]) /\
  (forall e, route_for [split_route] "/x" e -> text_for "resource" e "todos" /\ text_for "policy" e "ab") /\
  says ["resources"] split_doc (DObj [("todos", DArr servers)]) /\ entry "todos" (DObj [("todos", DArr servers)]) (DArr servers) /\
  says ["policies"] split_doc (DObj [("ab", DArr weights)]) /\ entry "ab" (DObj [("ab", DArr weights)]) (DArr weights) /\
  Forall2 (weight_stated float1) weights three_to_one_stated /\
  (forall k, (k < go_values)%nat -> exists x, StartupSpec.serves field1 (host0 "split" "VERSION" "v1") (drawn (draw_of k)) /\
    asks (drawn (draw_of k)) x /\ sized (t_req (drawn (draw_of k))) /\ q_raw_uri (t_req (drawn (draw_of k))) = "/x" /\
    (uq_uri x = "http://localhost:60083/x" \/ uq_uri x = "http://localhost:60084/x") /\
    forall q, lookup "ab" (c_policies (t_cfg (drawn (draw_of k)))) = Some q -> ch_label (t_chance (drawn (draw_of k))) q = fst (resolve_f (@rev _) (go_dice k) q)).
Proof. exact document_case. Qed.
