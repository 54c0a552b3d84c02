(** atoi reads the text of 64-bit integers. *)
From Coq Require Import String Ascii ZArith NArith Bool Lia.
From Verif Require Import GoStr NumberSpec.
Local Open Scope string_scope.

Lemma digit_val_some : forall c d, digit_val c = Some d <-> (48 <= N_of_ascii c <= 57)%N /\ d = (Z.of_N (N_of_ascii c) - 48)%Z.
Proof.
  intros c d. unfold digit_val, N_in. destruct (N.leb_spec 48 (N_of_ascii c)); destruct (N.leb_spec (N_of_ascii c) 57); cbn [andb].
  - split; [intro H1; injection H1 as <-; split; [split; assumption|reflexivity]|intros [_ ->]; reflexivity].
  - split; [discriminate|intros [[_ H1] _]; lia].
  - split; [discriminate|intros [[H1 _] _]; lia].
  - split; [discriminate|intros [[H1 _] _]; lia].
Qed.

Lemma digits_val_app : forall s a t, digits_val a (s ++ t) = match digits_val a s with Some v => digits_val v t | None => None end.
Proof. induction s as [|c s IH]; intros a t; cbn [append digits_val]; [reflexivity|]. destruct (digit_val c); [apply IH|reflexivity]. Qed.

Lemma numeral_digits : forall s n, numeral s n -> s <> "" /\ digits_val 0 s = Some n.
Proof.
  induction 1 as [c H|s n c _ [IH1 IH2] H].
  - split; [discriminate|]. cbn [digits_val]. rewrite (proj2 (digit_val_some c _) (conj H eq_refl)). reflexivity.
  - split; [now destruct s|]. rewrite digits_val_app, IH2. cbn [digits_val]. rewrite (proj2 (digit_val_some c _) (conj H eq_refl)). f_equal. lia.
Qed.

Lemma last_split : forall s, s = "" \/ exists t c, s = t ++ String c "".
Proof.
  induction s as [|c s [->|[t [d ->]]]]; [now left| |].
  - right. now exists "", c.
  - right. now exists (String c t), d.
Qed.

Lemma digits_numeral : forall k s n, String.length s <= k -> s <> "" -> digits_val 0 s = Some n -> numeral s n.
Proof.
  induction k as [|k IH]; intros s n L N H; [destruct s; [now elim N|cbn in L; lia]|].
  destruct (last_split s) as [->|[t [c ->]]]; [now elim N|]. rewrite digits_val_app in H.
  destruct (digits_val 0 t) as [v|] eqn:E; [|discriminate]. cbn [digits_val] in H. destruct (digit_val c) as [d|] eqn:Ed; [|discriminate].
  apply digit_val_some in Ed. destruct Ed as [Ed ->]. injection H as <-.
  destruct t as [|c' t].
  - cbn [digits_val] in E. injection E as <-. cbn [append]. exact (nu_one c Ed).
  - replace (v * 10 + (Z.of_N (N_of_ascii c) - 48))%Z with (10 * v + (Z.of_N (N_of_ascii c) - 48))%Z by lia.
    apply nu_more; [|exact Ed]. apply IH; [|discriminate|exact E]. rewrite length_append in L. cbn [String.length] in L |- *. lia.
Qed.

Lemma numeral_start : forall s n, numeral s n -> exists c t, s = String c t /\ (48 <= N_of_ascii c <= 57)%N.
Proof.
  induction 1 as [c H|s n c _ [c' [t [-> IH]]] H]; [now exists c, ""|]. exists c', (t ++ String c "")%string. now split.
Qed.

Lemma in_int64_iff : forall z, in_int64 z = true <-> (- 2 ^ 63 <= z < 2 ^ 63)%Z.
Proof.
  intro z. unfold in_int64, int64_min, int64_max. rewrite andb_true_iff, !Z.leb_le. change (2 ^ 63)%Z with 9223372036854775808%Z. lia.
Qed.

Lemma atoi_iff : forall s z, atoi s = Some z <-> int64_text s z.
Proof.
  intros s z. unfold int64_text. rewrite <- in_int64_iff. unfold atoi. split.
  - intro H. destruct s as [|c r]; [discriminate|].
    assert (B : forall neg r, match r with EmptyString => None | _ => match digits_val 0 r with
           | Some v => let z := if neg : bool then (- v)%Z else v in if in_int64 z then Some z else None | None => None end end = Some z ->
        exists n, numeral r n /\ z = (if neg then - n else n)%Z /\ in_int64 z = true).
    { clear. intros neg r H. destruct r as [|c r]; [discriminate|]. destruct (digits_val 0 (String c r)) as [v|] eqn:E; [|discriminate]. cbv zeta in H.
      destruct (in_int64 (if neg then (- v)%Z else v)) eqn:Ei; [|discriminate]. injection H as <-. exists v.
      split; [apply (digits_numeral _ _ _ (le_n _)); [discriminate|exact E]|]. now split. }
    destruct (Ascii.eqb_spec c "-") as [->|]; [|destruct (Ascii.eqb_spec c "+") as [->|]].
    + destruct (B true r H) as [n' [H1 [H2 H3]]]. split; [|exact H3]. exists r, n'. split; [exact H1|]. right. right. now split.
    + destruct (B false r H) as [n' [H1 [H2 H3]]]. split; [|exact H3]. exists r, n'. split; [exact H1|]. right. left. now split.
    + destruct (B false (String c r) H) as [n' [H1 [H2 H3]]]. split; [|exact H3]. exists (String c r), n'. split; [exact H1|]. left. now split.
  - intros [[t [n [Hn Hs]]] Hi]. destruct (numeral_digits _ _ Hn) as [Hne Hd]. destruct (numeral_start _ _ Hn) as [c [t' [Et Hc]]].
    destruct Hs as [[-> ->]|[[-> ->]|[-> ->]]].
    + rewrite Et in *. destruct (Ascii.eqb_spec c "-") as [->|]; [cbn in Hc; lia|]. destruct (Ascii.eqb_spec c "+") as [->|]; [cbn in Hc; lia|].
      rewrite Hd. cbv zeta. now rewrite Hi.
    + change (Ascii.eqb "+" "-") with false. rewrite Ascii.eqb_refl. cbv iota. destruct t; [now elim Hne|]. rewrite Hd. cbv zeta. now rewrite Hi.
    + rewrite Ascii.eqb_refl. destruct t; [now elim Hne|]. rewrite Hd. cbv zeta. now rewrite Hi.
Qed.

Lemma atoi_none : forall s, atoi s = None <-> forall z, ~ int64_text s z.
Proof.
  intro s. split.
  - intros H z H1. apply atoi_iff in H1. congruence.
  - intro H. destruct (atoi s) as [z|] eqn:E; [|reflexivity]. elim (H z). now apply atoi_iff.
Qed.

Lemma int64_text_one : forall s z z', int64_text s z -> int64_text s z' -> z = z'.
Proof. intros s z z' H H'. apply atoi_iff in H, H'. congruence. Qed.
