From Coq Require Import String Ascii List Bool ZArith NArith Lia.
From Verif Require Import GoStr NumberSpec NumberProofs TextSpec TextProofs Policy Config ConfigProofs Jwt JwtProofs Handler HandlerCases Decode DecodeSpec DecodeProofs DecodeLastSpec.
Import ListNotations.
Local Open Scope string_scope.

(** A decoder that stores values of the right type, and else leaves what is there *)
Record keeping {A} (is : doc -> A -> Prop) (dec : doc -> A -> A) : Prop := {
  k_right : forall v a old, is v a -> dec v old = a;
  k_wrong : forall v old, (forall a, ~ is v a) -> dec v old = old;
  k_either : forall v, (exists a, is v a) \/ (forall a, ~ is v a) }.

Lemma keeping_int : keeping number_doc to_int.
Proof.
  split.
  - intros v a old (t & -> & H). cbn [to_int]. apply atoi_iff in H. now rewrite H.
  - intros v old H. destruct v; try reflexivity. cbn [to_int]. destruct (atoi literal) as [z|] eqn:E; [|reflexivity]. elim (H z). exists literal. split; [reflexivity|now apply atoi_iff].
  - intros v. destruct v as [|b|literal|t|l|ms]; try (right; intros a (t0 & E & _); discriminate E).
    destruct (atoi literal) as [z|] eqn:E; [left; exists z, literal; split; [reflexivity|now apply atoi_iff]|right].
    intros a (t & F & H). injection F as <-. apply atoi_iff in H. congruence.
Qed.
Lemma keeping_string : keeping text_doc to_string.
Proof.
  split; [intros v a old ->; reflexivity| |].
  - intros v old H. destruct v; try reflexivity. now elim (H s).
  - intros v. destruct v as [|b|literal|t|l|ms]; try (right; intros a E; discriminate E). left. now exists t.
Qed.
Lemma keeping_bool : keeping flag_doc to_bool.
Proof.
  split; [intros v a old ->; reflexivity| |].
  - intros v old H. destruct v; try reflexivity. now elim (H b).
  - intros v. destruct v as [|b|literal|t|l|ms]; try (right; intros a E; discriminate E). left. now exists b.
Qed.

Lemma fold_last : forall A B u (get : A -> B) set dec is n, field u get set dec -> to_upper n = u -> keeping is dec ->
  forall ms old, last_said is (get old) n ms (get (fold_left (fun a e => set (fst e) (snd e) a) ms old)).
Proof.
  intros A B u get set dec is n F N K ms. induction ms as [|[k v] ms IH] using rev_ind; intros old; [right; split; [intros k v y []|reflexivity]|].
  rewrite fold_left_app. cbn [fold_left fst snd]. rewrite F.
  assert (SL : same_letters n k <-> u = to_upper k) by (rewrite same_upper, N; reflexivity).
  destruct (String.eqb_spec u (to_upper k)) as [E|E].
  - apply SL in E. destruct (k_either is dec K v) as [(a & I)|W].
    + left. exists ms, k, v, []. split; [reflexivity|]. split; [exact E|]. split; [now rewrite (k_right is dec K v a _ I)|]. intros k' v' y [].
    + rewrite (k_wrong is dec K v _ W). destruct (IH old) as [(a & k0 & v0 & b & -> & S0 & I & L)|[L X]].
      * left. exists a, k0, v0, (b ++ [(k, v)])%list. split; [now rewrite <- app_assoc|]. split; [exact S0|]. split; [exact I|].
        intros k' v' y J S1. apply in_app_or in J. destruct J as [J|[J|[]]]; [exact (L k' v' y J S1)|]. injection J as <- <-. exact (W y).
      * right. split; [|exact X]. intros k' v' y J S1. apply in_app_or in J. destruct J as [J|[J|[]]]; [exact (L k' v' y J S1)|]. injection J as <- <-. exact (W y).
  - assert (NS : ~ same_letters n k) by (intros S1; apply SL in S1; contradiction).
    destruct (IH old) as [(a & k0 & v0 & b & -> & S0 & I & L)|[L X]].
    + left. exists a, k0, v0, (b ++ [(k, v)])%list. split; [now rewrite <- app_assoc|]. split; [exact S0|]. split; [exact I|].
      intros k' v' y J S1. apply in_app_or in J. destruct J as [J|[J|[]]]; [exact (L k' v' y J S1)|]. injection J as <- <-. contradiction.
    + right. split; [|exact X]. intros k' v' y J S1. apply in_app_or in J. destruct J as [J|[J|[]]]; [exact (L k' v' y J S1)|]. injection J as <- <-. contradiction.
Qed.

Section Last.
  Variable pf : string -> option f64.

  Lemma down_last : forall B u (get : downstream -> B) dec is n d ms, field u get set_down dec -> to_upper n = u -> keeping is dec ->
    says ["connection"; "downstream"] d (DObj ms) -> last_said is (get zero_down) n ms (get (c_down (decode pf d))).
  Proof.
    intros B u get dec is n d ms F N K (w & H & w' & H' & E). cbn [says] in E. subst w'. unfold decode.
    change (c_down (to_struct (set_config pf) d zero_config)) with (fst (connections (to_struct (set_config pf) d zero_config))).
    rewrite (field_held _ _ _ connections _ _ "connection" d w zero_config (f_connection pf) eq_refl H).
    rewrite (field_held _ _ _ fst _ _ "downstream" w (DObj ms) _ f_down eq_refl H'). cbn [to_struct]. exact (fold_last _ _ u get set_down dec is n F N K ms zero_down).
  Qed.

  Lemma up_last : forall B u (get : upstream -> B) dec is n d ms, field u get set_up dec -> to_upper n = u -> keeping is dec ->
    says ["connection"; "upstream"] d (DObj ms) -> last_said is (get zero_up) n ms (get (c_up (decode pf d))).
  Proof.
    intros B u get dec is n d ms F N K (w & H & w' & H' & E). cbn [says] in E. subst w'. unfold decode.
    change (c_up (to_struct (set_config pf) d zero_config)) with (snd (connections (to_struct (set_config pf) d zero_config))).
    rewrite (field_held _ _ _ connections _ _ "connection" d w zero_config (f_connection pf) eq_refl H).
    rewrite (field_held _ _ _ snd _ _ "upstream" w (DObj ms) _ f_up eq_refl H'). cbn [to_struct]. exact (fold_last _ _ u get set_up dec is n F N K ms zero_up).
  Qed.

  Lemma numbers_last : forall d p n f ms, In ((p ++ [n])%list, f) number_settings -> says p d (DObj ms) -> last_said number_doc 0%Z n ms (f (decode pf d)).
  Proof.
    intros d p n f ms H S0.
    assert (P : p = ["connection"; "downstream"] \/ p = ["connection"; "upstream"]).
    { repeat (destruct H as [H|H]; [apply (f_equal fst) in H; cbn [fst] in H;
        match type of H with [?a; ?b; ?c] = _ => change [a; b; c] with ([a; b] ++ [c])%list in H end; apply app_inj_tail in H; destruct H as [<- _]; tauto|]). destruct H. }
    destruct P as [-> | ->]; cbn [app] in H.
    - repeat (destruct H as [H|H]; [first [discriminate H|injection H as <- <-]|]); [..|destruct H];
        first [(eapply (down_last _ _ _ _ _ _ d ms f_read); [reflexivity|exact keeping_int|exact S0])|(eapply (down_last _ _ _ _ _ _ d ms f_trip); [reflexivity|exact keeping_int|exact S0])|
               (eapply (down_last _ _ _ _ _ _ d ms f_idle); [reflexivity|exact keeping_int|exact S0])|(eapply (down_last _ _ _ _ _ _ d ms f_max); [reflexivity|exact keeping_int|exact S0])|
               (eapply (down_last _ _ _ _ _ _ d ms f_listen); [reflexivity|exact keeping_int|exact S0])].
    - repeat (destruct H as [H|H]; [first [discriminate H|injection H as <- <-]|]); [..|destruct H];
        first [(eapply (up_last _ _ _ _ _ _ d ms f_pool); [reflexivity|exact keeping_int|exact S0])|(eapply (up_last _ _ _ _ _ _ d ms f_upidle); [reflexivity|exact keeping_int|exact S0])|
               (eapply (up_last _ _ _ _ _ _ d ms f_socket); [reflexivity|exact keeping_int|exact S0])|(eapply (up_last _ _ _ _ _ _ d ms f_upread); [reflexivity|exact keeping_int|exact S0])|
               (eapply (up_last _ _ _ _ _ _ d ms f_attempts); [reflexivity|exact keeping_int|exact S0])].
  Qed.

  Lemma texts_last : forall d n f ms, In (["connection"; "downstream"; n], f) text_settings -> says ["connection"; "downstream"] d (DObj ms) -> last_said text_doc "" n ms (f (decode pf d)).
  Proof.
    intros d n f ms H S0. repeat (destruct H as [H|H]; [injection H as <- <-|]); [..|destruct H];
        first [(eapply (down_last _ _ _ _ _ _ d ms f_mode); [reflexivity|exact keeping_string|exact S0])|(eapply (down_last _ _ _ _ _ _ d ms f_cert); [reflexivity|exact keeping_string|exact S0])|
               (eapply (down_last _ _ _ _ _ _ d ms f_secret); [reflexivity|exact keeping_string|exact S0])].
  Qed.

  Lemma flag_last : forall d ms, says ["connection"; "upstream"] d (DObj ms) -> last_said flag_doc false "tlsInsecureSkipVerify" ms (up_skip_verify (c_up (decode pf d))).
  Proof. intros d ms S0. (eapply (up_last _ _ _ _ _ _ d ms f_skip); [reflexivity|exact keeping_bool|exact S0]). Qed.

  Lemma routes_last : forall d l, says ["routes"] d (DArr l) -> Forall2 route_last l (c_routes (decode pf d)).
  Proof.
    intros d l (w & H & E). cbn [says] in E. subst w. unfold decode.
    rewrite (field_held _ _ _ _ _ _ "routes" d (DArr l) zero_config (f_routes pf) eq_refl H). cbn [to_slice c_routes zero_config].
    rewrite elements_map. apply map_read. intros v ms n f -> I. cbn [to_struct].
    repeat (destruct I as [I|I]; [injection I as <- <-|]); [..|destruct I];
      first [(eapply (fold_last _ _ _ _ _ _ _ _ f_path); [reflexivity|exact keeping_string])|(eapply (fold_last _ _ _ _ _ _ _ _ f_transform); [reflexivity|exact keeping_string])|
             (eapply (fold_last _ _ _ _ _ _ _ _ f_resource); [reflexivity|exact keeping_string])|(eapply (fold_last _ _ _ _ _ _ _ _ f_policy); [reflexivity|exact keeping_string])|
             (eapply (fold_last _ _ _ _ _ _ _ _ f_jwt); [reflexivity|exact keeping_string])].
  Qed.
End Last.
