(** Proofs about a process that reads its configuration from a document. *)
From Coq Require Import String Ascii List Bool ZArith NArith Lia.
From Verif Require Import GoStr NumberSpec Regex RegexSpec RegexGrammar Header Policy ConfigSpec ConfigProofs Exchange ExchangeSpec Startup StartupSpec StartupProofs
  JwtSpec JwtProofs JwtKeys Machine SystemSpec Handler HandlerSpec HandlerProofs Config Jwt Decode DecodeSpec DecodeProofs.
Import ListNotations.
Local Open Scope string_scope.

Lemma told_text : forall parse h c0, told parse h c0 <-> exists text, config_text h text /\ c0 = parse text /\ c_routes c0 <> [].
Proof.
  intros parse h c0. unfold told, config_text. destruct (h_flag h) as [[|a f]|].
  - split.
    + intros [H [[H1 ->]|[H1 (text & H2 & ->)]]].
      * exists (h_env h "J8ACFG_YML"). split; [left; split; [exact H1|reflexivity]|]. split; [reflexivity|exact H].
      * exists text. split; [right; split; [exact H1|exact H2]|]. split; [reflexivity|exact H].
    + intros (text & [[H1 ->]|[H1 H2]] & -> & H); (split; [exact H|]).
      * left. split; [exact H1|reflexivity].
      * right. split; [exact H1|]. exists text. split; [exact H2|reflexivity].
  - split.
    + intros [H (text & H1 & ->)]. exists text. split; [exact H1|]. split; [reflexivity|exact H].
    + intros (text & H1 & -> & H). split; [exact H|]. exists text. split; [exact H1|reflexivity].
  - split.
    + intros [H [[H1 ->]|[H1 (text & H2 & ->)]]].
      * exists (h_env h "J8ACFG_YML"). split; [left; split; [exact H1|reflexivity]|]. split; [reflexivity|exact H].
      * exists text. split; [right; split; [exact H1|exact H2]|]. split; [reflexivity|exact H].
    + intros (text & [[H1 ->]|[H1 H2]] & -> & H); (split; [exact H|]).
      * left. split; [exact H1|reflexivity].
      * right. split; [exact H1|]. exists text. split; [exact H2|reflexivity].
Qed.

Lemma text_one : forall h t t', config_text h t -> config_text h t' -> t = t'.
Proof.
  intros h t t'. unfold config_text. destruct (h_flag h) as [[|a f]|]; [|congruence|].
  all: intros [[H1 ->]|[H1 H2]] [[H3 ->]|[H3 H4]]; [reflexivity|contradiction|contradiction|congruence].
Qed.

Lemma told_document : forall p h pf yaml d c0, written_in p h pf yaml d -> told (pl_parse p) h c0 -> c0 = decode pf d.
Proof.
  intros p h pf yaml d c0 [P (text & T & Y)] H. apply told_text in H. destruct H as (text' & T' & -> & _).
  rewrite (text_one _ _ _ T' T), P. unfold parse. now rewrite Y.
Qed.

(** * Definitions of jwts have no keys yet *)

Lemma insert_In : forall A (P : string * A -> Prop) k a m, P (k, a) -> (forall e, In e m -> P e) -> forall e, In e (insert k a m) -> P e.
Proof.
  intros A P k a m H. induction m as [|[k' b] m IH]; cbn [insert]; intros HA e I.
  - destruct I as [<-|[]]. exact H.
  - destruct (String.eqb k' k).
    + destruct I as [<-|I]; [exact H|]. apply HA. now right.
    + destruct I as [<-|I]; [apply HA; now left|]. apply IH; [|exact I]. intros e' I'. apply HA. now right.
Qed.

Lemma map_In : forall A (P : string * A -> Prop) dec zero d, (forall k v, P (k, dec v zero)) ->
  forall m, (forall e, In e m -> P e) -> forall e, In e (to_map dec zero d m) -> P e.
Proof.
  intros A P dec zero d H. destruct d; cbn [to_map]; intros m0 Hm; try exact Hm; [intros e []|].
  revert m0 Hm. induction ms as [|[k v] ms IH]; intros m0 Hm; [exact Hm|]. cbn [fold_left fst snd]. apply IH.
  intros e I. exact (insert_In A P k _ m0 (H k v) Hm e I).
Qed.

Lemma config_jwt : forall pf (P : string * option jwt -> Prop),
  (forall k v, P (k, to_pointer (to_struct set_jwt) zero_jwt v None)) ->
  forall d e, In e (c_jwt (decode pf d)) -> P e.
Proof.
  intros pf P H d. unfold decode. destruct d; cbn [to_struct]; try (intros e []).
  assert (Z : forall e, In e (c_jwt zero_config) -> P e) by (intros e []). revert Z. generalize zero_config.
  induction ms as [|[k v] ms IH]; intros c Z; [exact Z|]. cbn [fold_left fst snd]. apply IH. intros e I.
  rewrite (f_jwts pf k v c) in I. destruct (String.eqb "JWT" (to_upper k)); [|exact (Z e I)].
  exact (map_In _ P _ _ v H _ Z e I).
Qed.

Lemma decoded_blank : forall pf d name j, In (name, Some j) (c_jwt (decode pf d)) -> blank j.
Proof.
  intros pf d name j I.
  apply (config_jwt pf (fun e => forall j, snd e = Some j -> blank j)) with (d := d) (e := (name, Some j)); [|exact I|reflexivity].
  intros k v j' E. destruct (jwt_reads v) as (H1 & H2 & H3 & _). destruct v; try discriminate E; injection E as <-; (split; [exact H1|]; split; [exact H2|exact H3]).
Qed.

Lemma document_in_use : forall p h pf yaml d l, sorts_routes (pl_sort p) -> written_in p h pf yaml d -> listens p h l ->
  in_use (pl_source p) (pl_sort p) (decode pf d) (li_config l).
Proof.
  intros p h pf yaml d l Hs W H. destruct (start_inv p h l H) as (c0 & c & Ht & _).
  assert (E := told_document _ _ _ _ _ _ W Ht). subst c0. apply (started_in_use p h l _ Hs H Ht). apply decoded_blank.
Qed.

(** * Requests *)

Lemma Forall2_left : forall A B (R : A -> B -> Prop) l l' b, Forall2 R l l' -> In b l' -> exists a, In a l /\ R a b.
Proof.
  intros A B R l l' b F. induction F as [|x y l l' H F IH]; intros [].
  - subst y. exists x. split; [now left|exact H].
  - destruct (IH H0) as (a & H1 & H2). exists a. split; [now right|exact H2].
Qed.
Lemma Forall2_right : forall A B (R : A -> B -> Prop) l l' a, Forall2 R l l' -> In a l -> exists b, In b l' /\ R a b.
Proof.
  intros A B R l l' a F. induction F as [|x y l l' H F IH]; intros [].
  - subst x. exists y. split; [now left|exact H].
  - destruct (IH H0) as (b & H1 & H2). exists b. split; [now right|exact H2].
Qed.

Lemma text_read : forall n e s x, text_for n e s -> read_as text_doc "" n e x -> x = s.
Proof. intros n e s x [H|[H ->]] (R1 & R2 & _); [exact (R1 _ _ H eq_refl)|exact (R2 H)]. Qed.

Lemma route_field : forall e r n f s, route_read e r -> In (n, f) route_settings -> text_for n e s -> f r = s.
Proof. intros e r n f s [_ R] I T. exact (text_read n e s (f r) T (R n f I)). Qed.
Lemma jwt_field : forall e j n f s, jwt_read e j -> In (n, f) jwt_settings -> text_for n e s -> f j = s.
Proof. intros e j n f s (_ & _ & _ & R) I T. exact (text_read n e s (f j) T (R n f I)). Qed.

Lemma entry_null : forall pf d m n je, says ["jwt"] d m -> entry n m je -> forall j0,
  lookup n (c_jwt (decode pf d)) = Some (Some j0) -> jwt_read je j0.
Proof.
  intros pf d m n je Hm He j0 H. destruct (jwts_read pf d) as (J & _ & _).
  destruct (J m n je Hm He) as [[_ E]|[_ (j & E & R)]]; rewrite E in H; [discriminate H|]. injection H as <-. exact R.
Qed.

Lemma document_guards : forall p h t pf yaml d l c, sorts_routes (pl_sort p) -> written_in p h pf yaml d -> says ["routes"] d (DArr l) ->
  StartupSpec.serves p h t -> t_serve t = Upstream c -> sized (t_req t) -> (0 <= ch_now (t_chance t))%Z ->
  exists e, route_for l (q_raw_uri (t_req t)) e /\
    forall n m je, text_for "jwt" e n -> n <> "" -> says ["jwt"] d m -> entry n m je ->
      exists docs j, lookup n (c_jwt (t_cfg t)) = Some (Some j) /\ defined_by (pl_source p) n je docs j /\
        token_for (pl_source p) (t_lib t) (ch_now (t_chance t)) n je docs j (get "Authorization" (q_header (t_req t))).
Proof.
  intros p h t pf yaml d l c Hs W Hl (li & c0 & _ & Ht & _ & Hu) Hv Hq Hn.
  assert (E := told_document _ _ _ _ _ _ W Ht). subst c0.
  destruct (upstream_token _ _ _ _ _ _ _ _ _ _ Hu Hv Hq) as (r & Hr & Hj).
  destruct (in_use_boot _ _ _ _ Hu) as (_ & c1 & Hb & Hc & _). assert (Hr' := Hr). rewrite Hc in Hr'.
  destruct (select_longest _ _ _ _ _ _ _ Hs Hb Hr') as [(r0 & I0 & B0 & M0) Hmax].
  destruct (routes_read pf d) as (R & _ & _). assert (F := R l Hl). clear R.
  destruct (Forall2_left _ _ _ _ _ _ F I0) as (e & Ie & Re). exists e. split.
  { split; [exact Ie|]. exists (r_path r0). split; [exact (proj2 Re "path" r_path (or_introl eq_refl))|]. split; [exact M0|].
    intros e' s' I' T' M'. destruct (Forall2_right _ _ _ _ _ _ F I') as (r' & Ir & Rr).
    assert (P := route_field e' r' "path" r_path s' Rr (or_introl eq_refl) T'). subst s'.
    destruct B0 as [B0 _]. rewrite <- B0. exact (Hmax r' Ir M'). }
  intros n m je Hje Nn Hm He.
  assert (J : r_jwt r = n).
  { destruct B0 as (_ & _ & _ & _ & B & _). rewrite B. apply (route_field e r0 "jwt" r_jwt n Re); [|exact Hje]. do 4 right. now left. }
  rewrite J in Hj. destruct (Hj Nn) as (j0 & docs & j & token & L0 & L1 & Hre & Hb1 & Hval & Hkey).
  assert (Rj := entry_null pf d m n je Hm He j0 L0). exists docs, j. split; [exact L1|]. split; [exists j0; split; [exact Rj|exact Hre]|].
  exists token. split; [exact Hb1|]. split.
  - intros alg Ha Hi. assert (A := jwt_field je j0 "alg" j_alg alg Rj (or_intror (or_introl eq_refl)) (or_introl Ha)). subst alg.
    destruct (Hkey Hi) as (kid & k & cl & K1 & K2 & K3 & K4). exists kid, k, cl. split; [exact K1|]. split; [exact K2|]. split; [exact K3|].
    destruct K4 as [[K4 K5]|K4]; [left|right; exact K4]. exists j0. split; [|split; [exact K4|exact K5]].
    intros key T. apply (jwt_field je j0 "key" j_key key Rj); [do 2 right; now left|exact T].
  - intros cl s skew Hp Hd Hsk Hcf.
    assert (A := jwt_field je j0 "acceptableSkewSeconds" j_skew s Rj ltac:(do 4 right; now left) Hsk). subst s.
    destruct (reached_skew _ _ _ _ _ Hre) as (skew' & S1 & _ & S3). cbn [named j_skew] in S3.
    assert (skew' = skew) by exact (skew_configured_one _ _ _ S3 Hcf). subst skew'.
    exact (in_time_of _ _ _ _ _ _ _ _ _ _ _ Hre Hb1 S1 Hn Hval Hp Hd).
Qed.

Lemma unreadable : forall p h pf yaml text, (forall t, pl_parse p t = parse pf yaml t) -> config_text h text ->
  (yaml text = None \/ exists d, yaml text = Some d /\ (silent ["routes"] d \/ exists v, says ["routes"] d v /\ forall e l, v <> DArr (e :: l))) ->
  forall l, ~ listens p h l.
Proof.
  intros p h pf yaml text P T H l L. destruct (start_inv p h l L) as (c0 & c & Ht & _). apply told_text in Ht.
  destruct Ht as (text' & T' & -> & N). rewrite (text_one _ _ _ T' T), P in N. unfold parse in N. apply N.
  destruct H as [->|(d & -> & H)]; [reflexivity|]. destruct (routes_read pf d) as (R1 & R2 & R3). destruct H as [X|(v & X & H)]; [exact (R2 X)|].
  destruct v as [| | | |[|e r]|]; try (apply (R3 _ X); intros ? Q; discriminate Q).
  - assert (F := R1 [] X). now inversion F.
  - now elim (H e r).
Qed.
