(** Requests of HTTP/2 connections that net/http answers with 400. *)
From Coq Require Import String Ascii List Bool ZArith NArith Lia.
From Verif Require Import GoStr Header Exchange Handler Url UrlSpec Http2 Http2Spec Http2Req Http2ReqSpec Http2ReqProofs.
Import ListNotations.
Local Open Scope string_scope.

Lemma bad_inv : forall s, h2_read s = H2Bad -> let l := hs_fields s in
  let m := pseudo_value ":method" l in
  valid_fields l = true /\
  (m = "CONNECT" -> pseudo_value ":path" l = "" /\ pseudo_value ":scheme" l = "" /\ pseudo_value ":authority" l <> "") /\
  (m <> "CONNECT" -> m <> "" /\ pseudo_value ":path" l <> "" /\ (pseudo_value ":scheme" l = "http" \/ pseudo_value ":scheme" l = "https")) /\
  (m = "HEAD" -> hs_ended s = true) /\ h2_acceptable (h2_header (snd (split_fields l))) = false /\
  exists g raw, h2_target m (pseudo_value ":path" l) (pseudo_value ":authority" l) = Some (g, raw).
Proof.
  intros s H. unfold h2_read in H. destruct (valid_fields (hs_fields s)) eqn:V; cbn [negb] in H; [|discriminate H]. cbv zeta. split; [exact V|].
  set (l := hs_fields s) in *. set (m := pseudo_value ":method" l) in *. set (p := pseudo_value ":path" l) in *. set (c := pseudo_value ":scheme" l) in *.
  set (a := pseudo_value ":authority" l) in *. set (h := h2_header (snd (split_fields l))) in *.
  destruct (if String.eqb m "CONNECT" then _ else _) eqn:E; [discriminate H|].
  split; [|split]; [intros Em; rewrite Em in E; change (String.eqb "CONNECT" "CONNECT") with true in E; cbn iota in E; rewrite !orb_false_iff, !negb_false_iff, !String.eqb_eq, String.eqb_neq in E; tauto| |].
  { intros N. apply String.eqb_neq in N. rewrite N in E. rewrite !orb_false_iff, andb_false_iff, !negb_false_iff, !String.eqb_eq, !String.eqb_neq in E. tauto. }
  destruct (String.eqb m "HEAD" && negb (hs_ended s)) eqn:F; [discriminate H|].
  split. { intros Em. rewrite Em in F. change (String.eqb "HEAD" "HEAD") with true in F. now destruct (hs_ended s). }
  destruct (h2_target m p a) as [[g raw]|]; [|discriminate H]. destruct (h2_acceptable h) eqn:A; cbn [negb] in H.
  - destruct (if hs_ended s then _ else _) in H; discriminate H.
  - split; [reflexivity|]. now exists g, raw.
Qed.

Lemma bad_iff : forall s, h2_read s = H2Bad <->
  formed (hs_fields s) /\ ~ unconnected (hs_fields s) /\
  exists m target, request_for (hs_fields s) m target /\ (m = "HEAD" -> hs_ended s = true) /\ (m <> "CONNECT" -> read_target m target <> None).
Proof.
  intros s. split.
  - intros H. destruct (bad_inv s H) as (V & C & N & HD & A & g & raw & T). cbv zeta in *. set (l := hs_fields s) in *.
    split; [now apply fields_valid_iff|]. split; [intros U; apply (unconnected_iff _ V) in U; congruence|]. exists (pseudo_value ":method" l), raw.
    unfold h2_target in T. destruct (String.eqb_spec (pseudo_value ":method" l) "CONNECT") as [E|E].
    + injection T as _ <-. destruct (C E) as (C1 & C2 & C3). split; [|split; [exact HD|intros F; now elim F]].
      split; [apply one_value; [exact V|reflexivity|rewrite E; discriminate]|]. split; [rewrite E; discriminate|].
      split; [exact C3|]. split; [|intros F; now elim F]. intros _. split; [now apply one_value|]. split; now apply no_value_in.
    + destruct (N E) as (N1 & N2 & N3). destruct (parse_go true _) eqn:P; [|discriminate T]. injection T as _ <-. split; [|split; [exact HD|]].
      * split; [now apply one_value|]. split; [exact N1|]. split; [exact N2|].
        split; [intros F; now elim E|]. intros _. split; [now apply one_value|].
        rewrite one_value; [|exact V|reflexivity|destruct N3 as [-> | ->]; discriminate]. destruct N3 as [-> | ->]; cbn; tauto.
      * intros F. unfold read_target. apply String.eqb_neq in F. rewrite F. cbn [andb]. rewrite P. discriminate.
  - intros (V & U & m & target & (M & Mn & Tn & RC & RN) & HD & RT). apply fields_valid_iff in V. rewrite <- (unconnected_iff _ V) in U. apply not_true_is_false in U.
    unfold h2_read. rewrite V. cbn [negb]. rewrite (value_is _ ":method" m V eq_refl M), U. cbn [negb].
    destruct (String.eqb_spec m "CONNECT") as [E|N].
    + destruct (RC E) as (A & P & S0). rewrite (value_none _ ":path" V eq_refl P), (value_none _ ":scheme" V eq_refl S0), (value_is _ ":authority" target V eq_refl A).
      apply String.eqb_neq in Tn. rewrite Tn. cbn [String.eqb negb orb]. subst m. change (String.eqb "CONNECT" "HEAD") with false. cbn [andb]. reflexivity.
    + destruct (RN N) as (P & S0). rewrite (value_is _ ":path" target V eq_refl P). apply String.eqb_neq in Mn, Tn. rewrite Mn, Tn.
      assert (X : negb (String.eqb (pseudo_value ":scheme" (hs_fields s)) "https") && negb (String.eqb (pseudo_value ":scheme" (hs_fields s)) "http") = false).
      { destruct S0 as [S0|[S0|[]]]; rewrite (value_is _ ":scheme" _ V eq_refl (eq_sym S0)); reflexivity. }
      rewrite X. cbn [orb]. assert (Y : String.eqb m "HEAD" && negb (hs_ended s) = false).
      { destruct (String.eqb_spec m "HEAD") as [E|_]; [now rewrite (HD E)|reflexivity]. }
      rewrite Y. specialize (RT N). unfold read_target in RT. unfold h2_target. apply String.eqb_neq in N. rewrite N in *. cbn [andb] in RT.
      destruct (parse_go true target); [|now elim RT]. reflexivity.
Qed.
