(** The shares of servers, from the document on. *)
From Coq Require Import String List Bool ZArith QArith Qpower Lia Permutation Floats.SpecFloat Arith.
From Verif Require Import GoStr Policy PolicySpec PolicyProofs ConfigSpec ConfigProofs Exchange ExchangeSpec Startup StartupSpec Jwt Machine SystemSpec SystemProofs Handler HandlerSpec
  Config Decode DecodeSpec DecodeProofs DecodeStart DecodeServe Dice DiceSpec DiceFloat DiceProofs.
Import ListNotations.
Local Open Scope string_scope.

Lemma stated_read : forall float l p s, Forall2 (weight_read float) l p -> Forall2 (weight_stated float) l s -> states half_ulp p s.
Proof.
  intros float l p s H. revert s. induction H as [|e w l p H1 H2 IH]; intros s Hs; inversion Hs as [|? x ? s' S1 S2]; subst; constructor.
  - destruct S1 as (Hl & text & v & Hh & Hv & W & Hq & Hw). destruct H1 as [(L1 & L2 & _) (F1 & _)].
    assert (E1 : lw_label w = lw_label x).
    { destruct Hl as [Hl|[Hl1 Hl2]]; [exact (L1 _ _ Hl eq_refl)|rewrite Hl2; exact (L2 Hl1)]. }
    assert (E2 : lw_weight w = v) by (apply (F1 _ _ Hh); exists text; now split).
    rewrite E2. split; [exact E1|]. split; [exact W|]. split; [exact Hq|exact Hw].
  - exact (IH s' S2).
Qed.

Lemma same_length : forall A B (R : A -> B -> Prop) l l', Forall2 R l l' -> List.length l' = List.length l.
Proof. intros A B R l l' H. induction H as [|x y l l' H1 H2 IH]; cbn [List.length]; [reflexivity|now rewrite IH]. Qed.

Lemma document_share_any : forall M, Z.of_nat M = (2 ^ 63 - 512)%Z -> forall p h float yaml d l uri res pol m el pm pl srt s (t : nat -> setting) (x : nat -> up_request),
  sorts_routes (pl_sort p) -> written_in p h float yaml d -> says ["routes"] d (DArr l) ->
  (forall e, route_for l uri e -> text_for "resource" e res /\ text_for "policy" e pol) -> pol <> "" -> pol <> "default" ->
  says ["resources"] d m -> entry res m (DArr el) -> says ["policies"] d pm -> entry pol pm (DArr pl) ->
  reorders srt -> Forall2 (weight_stated float) pl s -> (total_weight s <= 1)%Q -> (Z.of_nat (List.length pl) <= 2 ^ 50)%Z ->
  (forall k, (k < M)%nat -> StartupSpec.serves p h (t k) /\ asks (t k) (x k) /\ sized (t_req (t k)) /\ q_raw_uri (t_req (t k)) = uri /\
     forall q, lookup pol (c_policies (t_cfg (t k))) = Some q -> ch_label (t_chance (t k)) q = fst (resolve_f srt (go_dice k) q)) ->
  exists label,
    (forall k, (k < M)%nat -> exists sd sm u rest, In sd el /\ server_read sd sm /\ server_of (rm_url sm) u /\ uq_uri (x k) = base_url u ++ rest /\ In (label k) (rm_labels sm)) /\
    forall L, L <> "default" ->
      within (of_nat (entries_of L s) * (of_nat (3 * List.length pl + 4) * Qpower 2 (-53)))
        (of_nat (how_many M (fun k => String.eqb (label k) L)) / of_nat M) (weight_of L s).
Proof.
  intros M EM p h float yaml d l uri res pol m el pm pl srt s t x Hsr W Hl Hr Hp1 Hp2 Hm He Hpm Hpe Hs Hst Htot Hlen Ht.
  destruct (policies_read float d) as (PR & _ & _). destruct (PR pm pol _ Hpm Hpe) as (q & Lq & Fq & _). specialize (Fq pl eq_refl). clear PR.
  pose proof (stated_read float pl q s Fq Hst) as Sq. assert (Eq : List.length q = List.length pl) by (exact (same_length _ _ _ _ _ Fq)).
  exists (fun k => fst (resolve_f srt (go_dice k) q)). split.
  - intros k Hk. destruct (Ht k Hk) as (Hv & Ha & Hz & Eu & Hc).
    assert (Lk : lookup pol (c_policies (t_cfg (t k))) = Some q).
    { destruct Hv as (li & c0 & _ & Tc & _ & Hu). assert (E := told_document _ _ _ _ _ _ W Tc). subst c0.
      destruct Hu as (_ & cfg1 & Hb & _ & Ep & _). rewrite Ep, (boot_policies _ _ _ _ _ Hb), lookup_insert.
      destruct (String.eqb_spec "default" pol) as [E|_]; [now elim Hp2|exact Lq]. }
    destruct (document_targets p h (t k) float yaml d l (x k) Hsr W Hl Hv Ha Hz) as (e & rest & RF & T1 & _).
    rewrite Eu in RF. destruct (Hr e RF) as [Tr Tp]. destruct (T1 res m el Tr Hm He) as (sd & sm & u & I & S1 & S2 & S3 & S4).
    destruct (S4 pol Tp) as [[C _]|[_ S5]]; [now elim Hp1|]. rewrite Lk, (Hc q Lk) in S5. exists sd, sm, u, rest.
    split; [exact I|]. split; [exact S1|]. split; [exact S2|]. split; [exact S3|exact S5].
  - intros L HL. rewrite <- Eq in Hlen |- *. pose proof (go_share_any M EM srt q s L Hs Hlen Sq Htot HL) as G. unfold resolved in G. exact G.
Qed.

Lemma document_share : forall p h float yaml d l uri res pol m el pm pl srt s (t : nat -> setting) (x : nat -> up_request),
  sorts_routes (pl_sort p) -> written_in p h float yaml d -> says ["routes"] d (DArr l) ->
  (forall e, route_for l uri e -> text_for "resource" e res /\ text_for "policy" e pol) -> pol <> "" -> pol <> "default" ->
  says ["resources"] d m -> entry res m (DArr el) -> says ["policies"] d pm -> entry pol pm (DArr pl) ->
  reorders srt -> Forall2 (weight_stated float) pl s -> (total_weight s <= 1)%Q -> (Z.of_nat (List.length pl) <= 2 ^ 50)%Z ->
  (forall k, (k < go_values)%nat -> StartupSpec.serves p h (t k) /\ asks (t k) (x k) /\ sized (t_req (t k)) /\ q_raw_uri (t_req (t k)) = uri /\
     forall q, lookup pol (c_policies (t_cfg (t k))) = Some q -> ch_label (t_chance (t k)) q = fst (resolve_f srt (go_dice k) q)) ->
  exists label,
    (forall k, (k < go_values)%nat -> exists sd sm u rest, In sd el /\ server_read sd sm /\ server_of (rm_url sm) u /\ uq_uri (x k) = base_url u ++ rest /\ In (label k) (rm_labels sm)) /\
    forall L, L <> "default" ->
      within (of_nat (entries_of L s) * (of_nat (3 * List.length pl + 4) * Qpower 2 (-53)))
        (of_nat (how_many go_values (fun k => String.eqb (label k) L)) / of_nat go_values) (weight_of L s).
Proof. exact (document_share_any go_values go_values_Z). Qed.
