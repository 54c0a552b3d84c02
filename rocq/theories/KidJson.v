(** The texts of JSON: the reader of Kid reads exactly the texts of KidSpec. *)
From Coq Require Import String Ascii List Bool ZArith NArith Lia Arith.
From Verif Require Import GoStr Json Kid KidSpec KidUtf8 KidChars KidNumber.
Import ListNotations.
Local Open Scope string_scope.

Lemma ws_is : forall c, is_ws c = true <-> In (N_of_ascii c) [32; 9; 10; 13]%N.
Proof.
  intros c. unfold is_ws. cbn [In]. rewrite !orb_true_iff, !N.eqb_eq. intuition congruence.
Qed.

Lemma skip_blank : forall w s, blank w -> skip_ws (w ++ s) = skip_ws s.
Proof. intros w s H. induction H as [|c w I H IH]; [reflexivity|]. cbn [append skip_ws]. rewrite (proj2 (ws_is c) I). exact IH. Qed.

Lemma skip_split : forall s, exists w, blank w /\ s = w ++ skip_ws s.
Proof.
  induction s as [|c s (w & B & E)]; [exists ""; split; [constructor|reflexivity]|]. cbn [skip_ws]. destruct (is_ws c) eqn:W.
  - exists (String c w). split; [constructor; [now apply ws_is|exact B]|]. cbn [append]. now rewrite <- E.
  - exists "". split; [constructor|reflexivity].
Qed.

Lemma skip_none : forall c s, is_ws c = false -> skip_ws (String c s) = String c s.
Proof. intros c s H. cbn [skip_ws]. now rewrite H. Qed.

Lemma word_iff : forall w s r, read_word w s = Some r <-> s = w ++ r.
Proof.
  induction w as [|c w IH]; intros s r; cbn [read_word append].
  - split; intros H; [now injection H|now f_equal].
  - destruct (next_is c s) as [s'|] eqn:E.
    + apply next_is_some in E. subst s. rewrite IH. split; [now intros ->|intros H; now injection H].
    + split; [discriminate|]. intros H. exfalso. exact (proj1 (next_is_none c s) E (w ++ r) H).
Qed.

Lemma read_value_eq : forall fuel depth c s1, read_value (S fuel) depth (String c s1) =
      if Ascii.eqb c quote then match read_chars s1 with Some (v, r) => Some (JString v, r) | None => None end
      else if Ascii.eqb c "{" then
        if N.ltb depth max_depth then
          match next_is "}" (skip_ws s1) with
          | Some r => Some (JObject [], r)
          | None => match read_members fuel (depth + 1)%N (skip_ws s1) with Some (l, r) => Some (JObject l, r) | None => None end
          end
        else None
      else if Ascii.eqb c "[" then
        if N.ltb depth max_depth then
          match next_is "]" (skip_ws s1) with
          | Some r => Some (JArray [], r)
          | None => match read_elements fuel (depth + 1)%N (skip_ws s1) with Some (l, r) => Some (JArray l, r) | None => None end
          end
        else None
      else if Ascii.eqb c "t" then option_map (pair (JBool true)) (read_word "true" (String c s1))
      else if Ascii.eqb c "f" then option_map (pair (JBool false)) (read_word "false" (String c s1))
      else if Ascii.eqb c "n" then option_map (pair JNull) (read_word "null" (String c s1))
      else match read_number (String c s1) with Some (large, r) => Some (JNum large, r) | None => None end.
Proof. reflexivity. Qed.

Lemma read_elements_eq : forall fuel depth s, read_elements (S fuel) depth s =
      match read_value fuel depth s with
      | None => None
      | Some (v, r) =>
          match next_is "," (skip_ws r) with
          | Some r2 => match read_elements fuel depth (skip_ws r2) with Some (l, r3) => Some (v :: l, r3) | None => None end
          | None => match next_is "]" (skip_ws r) with Some r2 => Some ([v], r2) | None => None end
          end
      end.
Proof. reflexivity. Qed.

Lemma read_members_eq : forall fuel depth s, read_members (S fuel) depth s =
      match next_is quote s with
      | None => None
      | Some s1 =>
          match read_chars s1 with
          | None => None
          | Some (k, s2) =>
              match next_is ":" (skip_ws s2) with
              | None => None
              | Some s3 =>
                  match read_value fuel depth (skip_ws s3) with
                  | None => None
                  | Some (v, r) =>
                      match next_is "," (skip_ws r) with
                      | Some r2 => match read_members fuel depth (skip_ws r2) with Some (l, r3) => Some ((k, v) :: l, r3) | None => None end
                      | None => match next_is "}" (skip_ws r) with Some r2 => Some ([(k, v)], r2) | None => None end
                      end
                  end
              end
          end
      end.
Proof. reflexivity. Qed.

(** * What is read stands for what is given *)

Lemma read_sound : forall fuel,
  (forall d s v r, read_value fuel d s = Some (v, r) -> exists t, s = t ++ r /\ value d v t) /\
  (forall d s l r, read_elements fuel d s = Some (l, r) -> exists t, s = t ++ String "]" r /\ elements d l t) /\
  (forall d s l r, read_members fuel d s = Some (l, r) -> exists t, s = t ++ String "}" r /\ members d l t).
Proof.
  induction fuel as [|fuel (IV & IE & IM)]; [repeat split; intros d s v r H; discriminate H|]. split; [|split].
  - intros d s v r H. destruct s as [|c s1]; [discriminate H|]. rewrite read_value_eq in H.
    destruct (Ascii.eqb c quote) eqn:E1; [|destruct (Ascii.eqb c "{") eqn:E2; [|destruct (Ascii.eqb c "[") eqn:E3; [|
      destruct (Ascii.eqb c "t") eqn:E4; [|destruct (Ascii.eqb c "f") eqn:E5; [|destruct (Ascii.eqb c "n") eqn:E6]]]]].
    + apply Ascii.eqb_eq in E1. subst c. destruct (read_chars s1) as [[x q]|] eqn:R; [|discriminate H]. injection H as <- <-.
      destruct (read_chars_sound _ s1 (le_n _) x q R) as (t & -> & C). exists ("""" ++ t ++ """"). split; [|now constructor].
      change ("""" ++ t ++ """") with (String quote (t ++ String quote "")). cbn [append]. now rewrite app_assoc_s.
    + apply Ascii.eqb_eq in E2. subst c. destruct (N.ltb_spec d max_depth) as [D|D]; [|discriminate H]. unfold max_depth in D.
      destruct (skip_split s1) as (w & B & Es). destruct (next_is "}" (skip_ws s1)) as [q|] eqn:N.
      * apply next_is_some in N. injection H as <- <-. exists ("{" ++ w ++ "}"). split; [|now constructor].
        rewrite Es, N. rewrite ?app_assoc_s. reflexivity.
      * destruct (read_members fuel (d + 1) (skip_ws s1)) as [[l q]|] eqn:R; [|discriminate H]. injection H as <- <-.
        apply IM in R. destruct R as (t & Et & M). exists ("{" ++ w ++ t ++ "}"). split; [|now constructor].
        rewrite Es, Et. rewrite ?app_assoc_s. reflexivity.
    + apply Ascii.eqb_eq in E3. subst c. destruct (N.ltb_spec d max_depth) as [D|D]; [|discriminate H]. unfold max_depth in D.
      destruct (skip_split s1) as (w & B & Es). destruct (next_is "]" (skip_ws s1)) as [q|] eqn:N.
      * apply next_is_some in N. injection H as <- <-. exists ("[" ++ w ++ "]"). split; [|now constructor].
        rewrite Es, N. rewrite ?app_assoc_s. reflexivity.
      * destruct (read_elements fuel (d + 1) (skip_ws s1)) as [[l q]|] eqn:R; [|discriminate H]. injection H as <- <-.
        apply IE in R. destruct R as (t & Et & M). exists ("[" ++ w ++ t ++ "]"). split; [|now constructor].
        rewrite Es, Et. rewrite ?app_assoc_s. reflexivity.
    + destruct (read_word "true" (String c s1)) as [q|] eqn:R; [|discriminate H]. injection H as <- <-.
      apply word_iff in R. exists "true". split; [exact R|constructor].
    + destruct (read_word "false" (String c s1)) as [q|] eqn:R; [|discriminate H]. injection H as <- <-.
      apply word_iff in R. exists "false". split; [exact R|constructor].
    + destruct (read_word "null" (String c s1)) as [q|] eqn:R; [|discriminate H]. injection H as <- <-.
      apply word_iff in R. exists "null". split; [exact R|constructor].
    + destruct (read_number (String c s1)) as [[b q]|] eqn:R; [|discriminate H]. injection H as <- <-.
      apply read_number_sound in R. destruct R as (t & m & e & Es & N & ->). exists t. split; [exact Es|].
      apply v_number with m e; [exact N|apply overflows_iff].
  - intros d s l r H. rewrite read_elements_eq in H. destruct (read_value fuel d s) as [[v q]|] eqn:R; [|discriminate H].
    apply IV in R. destruct R as (t & -> & V). destruct (skip_split q) as (w & B & Eq).
    destruct (next_is "," (skip_ws q)) as [q2|] eqn:N.
    + apply next_is_some in N. destruct (read_elements fuel d (skip_ws q2)) as [[l' q3]|] eqn:R; [|discriminate H]. injection H as <- <-.
      apply IE in R. destruct R as (t' & E' & L). destruct (skip_split q2) as (w2 & B2 & Eq2).
      exists (t ++ w ++ "," ++ w2 ++ t'). split; [|now constructor]. rewrite Eq, N, Eq2, E'. rewrite ?app_assoc_s. reflexivity.
    + destruct (next_is "]" (skip_ws q)) as [q2|] eqn:N2; [|discriminate H]. injection H as <- <-. apply next_is_some in N2.
      exists (t ++ w). split; [|now constructor]. rewrite Eq, N2. rewrite ?app_assoc_s. reflexivity.
  - intros d s l r H. rewrite read_members_eq in H. destruct (next_is quote s) as [s1|] eqn:Q; [|discriminate H]. apply next_is_some in Q.
    destruct (read_chars s1) as [[k s2]|] eqn:C; [|discriminate H]. destruct (read_chars_sound _ s1 (le_n _) k s2 C) as (kt & E1 & K).
    destruct (skip_split s2) as (w1 & B1 & Es2). destruct (next_is ":" (skip_ws s2)) as [s3|] eqn:N1; [|discriminate H]. apply next_is_some in N1.
    destruct (skip_split s3) as (w2 & B2 & Es3). destruct (read_value fuel d (skip_ws s3)) as [[v q]|] eqn:R; [|discriminate H].
    apply IV in R. destruct R as (t & Et & V). destruct (skip_split q) as (w & B & Eq).
    destruct (next_is "," (skip_ws q)) as [q2|] eqn:N.
    + apply next_is_some in N. destruct (read_members fuel d (skip_ws q2)) as [[l' q3]|] eqn:R; [|discriminate H]. injection H as <- <-.
      apply IM in R. destruct R as (t' & E' & L). destruct (skip_split q2) as (w4 & B4 & Eq2).
      exists ("""" ++ kt ++ """" ++ w1 ++ ":" ++ w2 ++ t ++ w ++ "," ++ w4 ++ t'). split; [|now constructor].
      rewrite Q, E1, Es2, N1, Es3, Et, Eq, N, Eq2, E'. rewrite ?app_assoc_s. cbn [append]. rewrite ?app_assoc_s. reflexivity.
    + destruct (next_is "}" (skip_ws q)) as [q2|] eqn:N2; [|discriminate H]. injection H as <- <-. apply next_is_some in N2.
      exists ("""" ++ kt ++ """" ++ w1 ++ ":" ++ w2 ++ t ++ w). split; [|now constructor].
      rewrite Q, E1, Es2, N1, Es3, Et, Eq, N2. rewrite ?app_assoc_s. cbn [append]. rewrite ?app_assoc_s. reflexivity.
Qed.

(** * What is given is read *)

Scheme value_ind2 := Induction for value Sort Prop
  with elements_ind2 := Induction for elements Sort Prop
  with members_ind2 := Induction for members Sort Prop.
Combined Scheme json_ind2 from value_ind2, elements_ind2, members_ind2.

Definition starts (t : string) : Prop := exists c s, t = String c s /\ is_ws c = false /\ c <> "]"%char /\ c <> "}"%char.

Lemma number_head : forall t m e, number t m e -> exists c s, t = String c s /\ (digit c \/ c = "-"%char).
Proof.
  intros t m e H. destruct H as [sign whole point frac x e Hs Hw Hz Hf Hx].
  destruct Hs as [-> | ->]; [|eexists; eexists; split; [reflexivity|now right]].
  destruct (decimal_head whole (point ++ frac ++ x) Hw) as (c & s & E & Hc). exists c, s. split; [exact E|now left].
Qed.

Lemma digit_starts : forall c, digit c \/ c = "-"%char -> is_ws c = false /\ c <> "]"%char /\ c <> "}"%char /\
  Ascii.eqb c quote = false /\ Ascii.eqb c "{" = false /\ Ascii.eqb c "[" = false /\ Ascii.eqb c "t" = false /\ Ascii.eqb c "f" = false /\ Ascii.eqb c "n" = false.
Proof.
  intros c [H | ->]; [|repeat split; discriminate].
  assert (X : forall d, is_dig d = false -> Ascii.eqb c d = false) by (intros d N; apply Ascii.eqb_neq; now apply digit_not).
  split. { destruct (is_ws c) eqn:W; [|reflexivity]. apply ws_is in W. unfold digit, within in H. cbn [In] in W. lia. }
  split; [now apply digit_not|]. split; [now apply digit_not|]. repeat split; apply X; reflexivity.
Qed.

Lemma value_starts : forall d v t, value d v t -> starts t.
Proof.
  intros d v t H. destruct H as [d|d|d|d t m e b N B|d t s C|d w D B|d w l t D B E|d w D B|d w l t D B M];
    try (eexists; eexists; split; [reflexivity|]; repeat split; discriminate).
  destruct (number_head t m e N) as (c & s & -> & Hc). destruct (digit_starts c Hc) as (W & N1 & N2 & _). exists c, s. tauto.
Qed.

Lemma elements_starts : forall d l t, elements d l t -> starts t.
Proof.
  intros d l t H. destruct H as [d v t w V B|d v t w1 w2 l r V B1 B2 E]; destruct (value_starts d v t V) as (c & s & -> & X); eexists; eexists; (split; [reflexivity|exact X]).
Qed.
Lemma members_starts : forall d l t, members d l t -> starts t.
Proof.
  intros d l t H. destruct H; (eexists; eexists; split; [reflexivity|]; repeat split; discriminate).
Qed.

Lemma skip_starts : forall w t s, blank w -> starts t -> skip_ws (w ++ t ++ s) = t ++ s.
Proof. intros w t s B (c & t' & -> & W & _). rewrite (skip_blank w _ B). cbn [append]. now apply skip_none. Qed.
Lemma skip_to : forall w c s, blank w -> is_ws c = false -> skip_ws (w ++ String c s) = String c s.
Proof. intros w c s B W. rewrite (skip_blank w _ B). now apply skip_none. Qed.

Lemma next_here : forall c s, next_is c (String c s) = Some s.
Proof. intros c s. now apply next_is_some. Qed.
Lemma next_other : forall c d s, Ascii.eqb d c = false -> next_is c (String d s) = None.
Proof. intros c d s H. cbn [next_is]. now rewrite H. Qed.

Lemma starts_not : forall c t s, starts t -> c = "]"%char \/ c = "}"%char -> next_is c (t ++ s) = None.
Proof.
  intros c t s (d & t' & -> & _ & N1 & N2) H. cbn [append]. apply next_other. apply Ascii.eqb_neq. destruct H as [-> | ->]; assumption.
Qed.

Lemma blank_end : forall w c s, blank w -> c = ","%char \/ c = "]"%char \/ c = "}"%char -> number_end (w ++ String c s).
Proof.
  intros w c s B C. destruct B as [|d w I B]; intros x y E; cbn [append] in E; injection E as <- _.
  - destruct C as [-> |[-> | ->]]; repeat split; discriminate.
  - assert (Hd : forall e, ~ In (N_of_ascii e) [32; 9; 10; 13]%N -> d <> e) by (intros e H ->; now apply H).
    split. { destruct (is_dig d) eqn:D; [|reflexivity]. apply digit_is in D. unfold digit, within in D. cbn [In] in I. lia. }
    repeat split; apply Hd; cbn; intros X; repeat destruct X as [X|X]; try discriminate X; exact X.
Qed.
Lemma blank_end0 : forall w, blank w -> number_end w.
Proof.
  intros w B. destruct B as [|d w I B]; intros x y E; [discriminate E|]. injection E as <- _.
  assert (Hd : forall e, ~ In (N_of_ascii e) [32; 9; 10; 13]%N -> d <> e) by (intros e H ->; now apply H).
  split. { destruct (is_dig d) eqn:D; [|reflexivity]. apply digit_is in D. unfold digit, within in D. cbn [In] in I. lia. }
  repeat split; apply Hd; cbn; intros X; repeat destruct X as [X|X]; try discriminate X; exact X.
Qed.

Lemma read_complete :
  (forall d v t, value d v t -> forall fuel rest, String.length t <= fuel -> number_end rest -> read_value fuel d (t ++ rest) = Some (v, rest)) /\
  (forall d l t, elements d l t -> forall fuel rest, String.length t < fuel -> read_elements fuel d (t ++ String "]" rest) = Some (l, rest)) /\
  (forall d l t, members d l t -> forall fuel rest, String.length t < fuel -> read_members fuel d (t ++ String "}" rest) = Some (l, rest)).
Proof.
  apply json_ind2.
  - intros d [|fuel] rest F N; [cbn in F; lia|]. reflexivity.
  - intros d [|fuel] rest F N; [cbn in F; lia|]. reflexivity.
  - intros d [|fuel] rest F N; [cbn in F; lia|]. reflexivity.
  - intros d t m e b H B fuel rest F N. destruct (number_head t m e H) as (c & s & E & Hc).
    pose proof (read_number_complete t m e rest H N) as R. subst t. cbn [append] in R |- *. destruct fuel as [|fuel]; [cbn in F; lia|].
    rewrite read_value_eq. destruct (digit_starts c Hc) as (_ & _ & _ & -> & -> & -> & -> & -> & ->). rewrite R. f_equal. f_equal. f_equal.
    apply eq_true_iff_eq. rewrite overflows_iff. symmetry. exact B.
  - intros d t s C fuel rest F N. destruct fuel as [|fuel]; [cbn in F; lia|].
    change ("""" ++ t ++ """") with (String quote (t ++ String quote "")). cbn [append]. rewrite read_value_eq. rewrite Ascii.eqb_refl.
    rewrite app_assoc_s. cbn [append]. rewrite (read_chars_complete t s C rest). reflexivity.
  - intros d w D B fuel rest F N. destruct fuel as [|fuel]; [cbn in F; lia|]. cbn [append]. rewrite read_value_eq.
    change (Ascii.eqb "[" quote) with false. change (Ascii.eqb "[" "{") with false. change (Ascii.eqb "[" "[") with true. cbv beta iota.
    destruct (N.ltb_spec d max_depth) as [D'|D']; [|unfold max_depth in D'; lia].
    rewrite app_assoc_s. cbn [append]. rewrite (skip_to w "]" rest B eq_refl), next_here. reflexivity.
  - intros d w l t D B E IH fuel rest F N. destruct fuel as [|fuel]; [cbn in F; lia|]. cbn [append] in F |- *. rewrite read_value_eq.
    change (Ascii.eqb "[" quote) with false. change (Ascii.eqb "[" "{") with false. change (Ascii.eqb "[" "[") with true. cbv beta iota.
    destruct (N.ltb_spec d max_depth) as [D'|D']; [|unfold max_depth in D'; lia].
    rewrite ?app_assoc_s. cbn [append]. rewrite (skip_starts w t _ B (elements_starts _ _ _ E)).
    rewrite (starts_not "]" t _ (elements_starts _ _ _ E) (or_introl eq_refl)). rewrite IH; [reflexivity|].
    cbn [String.length] in F. rewrite ?length_append in F. cbn [String.length] in F. lia.
  - intros d w D B fuel rest F N. destruct fuel as [|fuel]; [cbn in F; lia|]. cbn [append]. rewrite read_value_eq.
    change (Ascii.eqb "{" quote) with false. change (Ascii.eqb "{" "{") with true. cbv beta iota.
    destruct (N.ltb_spec d max_depth) as [D'|D']; [|unfold max_depth in D'; lia].
    rewrite app_assoc_s. cbn [append]. rewrite (skip_to w "}" rest B eq_refl), next_here. reflexivity.
  - intros d w l t D B E IH fuel rest F N. destruct fuel as [|fuel]; [cbn in F; lia|]. cbn [append] in F |- *. rewrite read_value_eq.
    change (Ascii.eqb "{" quote) with false. change (Ascii.eqb "{" "{") with true. cbv beta iota.
    destruct (N.ltb_spec d max_depth) as [D'|D']; [|unfold max_depth in D'; lia].
    rewrite ?app_assoc_s. cbn [append]. rewrite (skip_starts w t _ B (members_starts _ _ _ E)).
    rewrite (starts_not "}" t _ (members_starts _ _ _ E) (or_intror eq_refl)). rewrite IH; [reflexivity|].
    cbn [String.length] in F. rewrite ?length_append in F. cbn [String.length] in F. lia.
  - intros d v t w V IH B fuel rest F. destruct fuel as [|fuel]; [lia|]. rewrite length_append in F. rewrite read_elements_eq, app_assoc_s.
    rewrite IH; [|lia|apply blank_end; auto]. rewrite (skip_to w "]" rest B eq_refl).
    rewrite (next_other "," "]" rest eq_refl), next_here. reflexivity.
  - intros d v t w1 w2 l r V IV B1 B2 E IE fuel rest F. destruct fuel as [|fuel]; [lia|]. rewrite ?length_append in F. cbn [String.length] in F.
    rewrite read_elements_eq, ?app_assoc_s. cbn [append]. rewrite IV; [|lia|apply blank_end; auto].
    rewrite (skip_to w1 "," _ B1 eq_refl), next_here. rewrite ?app_assoc_s. rewrite (skip_starts w2 r _ B2 (elements_starts _ _ _ E)).
    rewrite IE; [reflexivity|lia].
  - intros d kt k w1 w2 v t w3 C B1 B2 V IV B3 fuel rest F. destruct fuel as [|fuel]; [lia|]. rewrite ?length_append in F. cbn [String.length] in F.
    rewrite read_members_eq, ?app_assoc_s. cbn [append]. rewrite (next_here quote). rewrite ?app_assoc_s. cbn [append].
    rewrite (read_chars_complete kt k C). rewrite ?app_assoc_s. cbn [append]. rewrite (skip_to w1 ":" _ B1 eq_refl), next_here.
    rewrite ?app_assoc_s. rewrite (skip_starts w2 t _ B2 (value_starts _ _ _ V)). rewrite IV; [|lia|apply blank_end; auto].
    rewrite (skip_to w3 "}" rest B3 eq_refl). rewrite (next_other "," "}" rest eq_refl), next_here. reflexivity.
  - intros d kt k w1 w2 v t w3 w4 l r C B1 B2 V IV B3 B4 M IM fuel rest F. destruct fuel as [|fuel]; [lia|]. rewrite ?length_append in F. cbn [String.length] in F.
    rewrite ?length_append in F. cbn [String.length] in F.
    rewrite read_members_eq, ?app_assoc_s. cbn [append]. rewrite (next_here quote). rewrite ?app_assoc_s. cbn [append].
    rewrite (read_chars_complete kt k C). rewrite ?app_assoc_s. cbn [append]. rewrite (skip_to w1 ":" _ B1 eq_refl), next_here.
    rewrite ?app_assoc_s. rewrite (skip_starts w2 t _ B2 (value_starts _ _ _ V)). rewrite ?app_assoc_s. cbn [append].
    rewrite IV; [|lia|apply blank_end; auto].
    rewrite (skip_to w3 "," _ B3 eq_refl), next_here. rewrite ?app_assoc_s. rewrite (skip_starts w4 r _ B4 (members_starts _ _ _ M)).
    rewrite IM; [reflexivity|lia].
Qed.

Lemma read_json_iff : forall s v, read_json s = Some v <-> json_text v s.
Proof.
  intros s v. unfold read_json, json_text. split.
  - intros H. destruct (skip_split s) as (w1 & B1 & E1). destruct (read_value _ 0 (skip_ws s)) as [[v' r]|] eqn:R; [|discriminate H].
    apply (proj1 (read_sound _)) in R. destruct R as (t & E2 & V). destruct (skip_split r) as (w2 & B2 & E3).
    destruct (skip_ws r) as [|c q]; [|discriminate H]. injection H as <-. exists w1, t, w2. split; [exact B1|]. split; [exact B2|]. split; [|exact V].
    rewrite E1, E2, E3. f_equal. f_equal. clear. induction w2 as [|c w IH]; [reflexivity|]. cbn [append]. now rewrite IH.
  - intros (w1 & t & w2 & B1 & B2 & -> & V). rewrite (skip_starts w1 t w2 B1 (value_starts _ _ _ V)).
    rewrite (proj1 read_complete 0%N v t V); [|rewrite !length_append; lia|now apply blank_end0].
    assert (E : skip_ws w2 = "").
    { clear V. induction B2 as [|c w I B IH]; [reflexivity|]. cbn [skip_ws]. now rewrite (proj2 (ws_is c) I). }
    now rewrite E.
Qed.

(** * Ranges and members *)

Lemma large_iff : forall v, has_large v = false <-> in_range v.
Proof.
  fix IH 1. intros v. destruct v as [|b|b|s|l|l].
  - split; [intros _; constructor|reflexivity].
  - split; [intros _; constructor|reflexivity].
  - cbn [has_large]. split; [intros ->; constructor|intros H; now inversion H].
  - split; [intros _; constructor|reflexivity].
  - cbn [has_large]. assert (A : existsb has_large l = false <-> forall v, In v l -> in_range v).
    { induction l as [|x l IL]; cbn [existsb]; [split; [intros _ v []|reflexivity]|]. rewrite orb_false_iff, IL. rewrite (IH x). split.
      - intros [H1 H2] v [<-|I]; [exact H1|now apply H2].
      - intros H. split; [apply H; now left|intros v I; apply H; now right]. }
    rewrite A. split; [intros H; now constructor|intros H; now inversion H].
  - cbn [has_large]. assert (A : existsb (fun m => has_large (snd m)) l = false <-> forall k v, In (k, v) l -> in_range v).
    { induction l as [|[k0 x] l IL]; cbn [existsb snd]; [split; [intros _ k v []|reflexivity]|]. rewrite orb_false_iff, IL. rewrite (IH x). split.
      - intros [H1 H2] k v [E|I]; [injection E as _ <-; exact H1|now apply (H2 k)].
      - intros H. split; [apply (H k0); now left|intros k v I; apply (H k); now right]. }
    rewrite A. split; [intros H; now constructor|intros H; now inversion H].
Qed.

Lemma last_member_some : forall k l v, last_member k l = Some v <->
  exists before after, l = (before ++ (k, v) :: after)%list /\ forall w, ~ In (k, w) after.
Proof.
  intros k l v. split.
  - revert v. induction l as [|[k' x] l IH]; intros v H; cbn [last_member] in H; [discriminate H|].
    destruct (last_member k l) as [w|] eqn:E.
    + injection H as <-. destruct (IH w eq_refl) as (b & a & -> & N). exists ((k', x) :: b), a. split; [reflexivity|exact N].
    + destruct (String.eqb_spec k' k) as [-> |]; [|discriminate H]. injection H as <-. exists [], l. split; [reflexivity|].
      clear IH. intros w I. induction l as [|[k' y] l IL]; [exact I|]. cbn [last_member] in E.
      destruct (last_member k l) eqn:E2; [discriminate E|]. destruct I as [I|I]; [injection I as -> _; now rewrite String.eqb_refl in E|now apply IL].
  - intros (b & a & -> & N). induction b as [|[k' x] b IH]; cbn [List.app last_member].
    + assert (E : last_member k a = None).
      { induction a as [|[k' x] a IA]; [reflexivity|]. cbn [last_member]. rewrite IA by (intros w I; apply (N w); now right).
        destruct (String.eqb_spec k' k) as [-> |]; [|reflexivity]. exfalso. apply (N x). now left. }
      rewrite E, String.eqb_refl. reflexivity.
    + now rewrite IH.
Qed.
