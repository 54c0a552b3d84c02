(** The strings of JSON: the reader of Kid reads exactly the texts of KidSpec. *)
From Coq Require Import String Ascii List Bool ZArith NArith Lia Arith.
From Verif Require Import GoStr Json Kid KidSpec KidUtf8.
Import ListNotations.
Local Open Scope string_scope.

(** * Strings *)

Lemma strip_quote : forall q t s r, ~ In quote (list_ascii_of_string q) -> t ++ String quote r = q ++ s -> exists t', t = q ++ t'.
Proof.
  induction q as [|c q IH]; intros t s r N H; [now exists t|]. destruct t as [|d t]; cbn [append] in H; injection H as H1 H2.
  - exfalso. apply N. left. now symmetry.
  - subst d. destruct (IH t s r) as [t' ->]; [intros I; apply N; now right|exact H2|]. now exists t'.
Qed.

Lemma hex_of_is : forall c n, hex_of c = Some n <-> hex_digit_is c n.
Proof.
  intros c n. unfold hex_of, N_in. split.
  - intros H. destruct (_ && _)%bool eqn:E1 in H; [|destruct (_ && _)%bool eqn:E2 in H; [|destruct (_ && _)%bool eqn:E3 in H; [|discriminate H]]];
      injection H as <-; constructor; unfold within;
      match goal with E : (_ && _)%bool = true |- _ => apply andb_true_iff in E; rewrite !N.leb_le in E; exact E end.
  - intros H. destruct H as [c W|c W|c W]; unfold within in W; set (m := N_of_ascii c) in *; lead_solve; reflexivity.
Qed.

Lemma hex_quote : forall n, ~ hex_digit_is quote n.
Proof. intros n H. apply hex_of_is in H. discriminate H. Qed.

Lemma hex4_is : forall a b c d n, hex4 a b c d = Some n <-> u_escape ("\u" ++ String a (String b (String c (String d "")))) n.
Proof.
  intros a b c d n. unfold hex4. split.
  - intros H. destruct (hex_of a) as [w|] eqn:A; [|discriminate H]. destruct (hex_of b) as [x|] eqn:B; [|discriminate H].
    destruct (hex_of c) as [y|] eqn:C; [|discriminate H]. destruct (hex_of d) as [z|] eqn:D; [|discriminate H]. injection H as <-.
    replace (((w * 16 + x) * 16 + y) * 16 + z)%N with (w * 4096 + x * 256 + y * 16 + z)%N by lia.
    constructor; now apply hex_of_is.
  - intros H. inversion H as [a' b' c' d' w x y z A B C D]. subst a' b' c' d'.
    apply hex_of_is in A, B, C, D. rewrite A, B, C, D. f_equal. lia.
Qed.

Lemma escape_shape : forall p n, u_escape p n -> exists a b c d, p = "\u" ++ String a (String b (String c (String d ""))) /\ hex4 a b c d = Some n.
Proof.
  intros p n H. destruct H as [a b c d w x y z A B C D]. exists a, b, c, d. split; [reflexivity|]. apply hex4_is. now constructor.
Qed.

Lemma hex_bound : forall c n, hex_digit_is c n -> (n < 16)%N.
Proof. intros c n H. destruct H as [c W|c W|c W]; unfold within in W; lia. Qed.
Lemma escape_bound : forall p n, u_escape p n -> (n < 65536)%N.
Proof. intros p n H. destruct H as [a b c d w x y z A B C D]. apply hex_bound in A, B, C, D. lia. Qed.

Lemma escape_no_quote : forall p n, u_escape p n -> ~ In quote (list_ascii_of_string p).
Proof.
  intros p n H. destruct H as [a b c d w x y z A B C D]. cbn [append list_ascii_of_string In].
  intros [E|[E|[E|[E|[E|[E|[]]]]]]]; try discriminate E; subst; eapply hex_quote; eassumption.
Qed.

Lemma point_no_quote : forall u n c t r, code_point u n -> String c t = u ++ r -> (128 <= N_of_ascii c)%N -> ~ In quote (list_ascii_of_string u).
Proof.
  intros u n c t r H E Hc. assert (Q : N_of_ascii quote = 34%N) by reflexivity.
  destruct H as [a W|a b W1 W2|a b e W1 W2|a b e f W1 W2 W3]; cbn [append] in E; injection E as <- _; unfold within in *;
    cbn [list_ascii_of_string In]; intros I; repeat destruct I as [I|I]; try exact I; subst; rewrite Q in *; lia.
Qed.

Lemma surrogate_not : forall u n, code_point u n -> ~ (55296 <= n <= 57343)%N.
Proof.
  intros u n H. destruct H as [a W|a b W1 W2|a b c W1 W2|a b c d W1 W2 W3]; unfold within in *; lia.
Qed.

Lemma N_in_true : forall a b n, N_in a b n = true <-> (a <= n <= b)%N.
Proof. intros a b n. unfold N_in. rewrite andb_true_iff, !N.leb_le. reflexivity. Qed.
Lemma N_in_false : forall a b n, N_in a b n = false <-> ~ (a <= n <= b)%N.
Proof. intros a b n. rewrite <- N_in_true. destruct (N_in a b n); split; intros H; try discriminate; try reflexivity; now exfalso; apply H. Qed.

Lemma read_one_high : forall d, (128 <= N_of_ascii d)%N -> read_chars (String d "") = None.
Proof.
  intros d H. rewrite read_cons. unfold read_step. rewrite (above d quote), (above d backslash) by (try exact H; reflexivity).
  destruct (N.ltb_spec (N_of_ascii d) 32); [reflexivity|]. destruct (N.ltb_spec (N_of_ascii d) 128); [lia|].
  destruct (lead d) as [[[m lo] hi]|]; reflexivity.
Qed.

Lemma read_two_high : forall d e, (128 <= N_of_ascii d)%N -> (128 <= N_of_ascii e)%N -> read_chars (String d (String e "")) = None.
Proof.
  intros d e H He. pose proof (read_one_high e He) as R.
  rewrite read_cons. unfold read_step.
  rewrite (above d quote), (above d backslash) by (try exact H; reflexivity).
  destruct (N.ltb_spec (N_of_ascii d) 32); [reflexivity|]. destruct (N.ltb_spec (N_of_ascii d) 128); [lia|].
  rewrite R. destruct (lead d) as [[[m lo] hi]|]; [|reflexivity]. cbv beta iota. destruct (negb _); [reflexivity|]. destruct m as [|[|[|m]]]; reflexivity.
Qed.

(** The reader at a byte that starts no character *)
Lemma read_bad : forall c s, (128 <= N_of_ascii c)%N -> (forall u n r, code_point u n -> String c s <> u ++ r) ->
  read_chars (String c s) = push replaced (read_chars s).
Proof.
  intros c s Hc No. rewrite read_cons. unfold read_step. rewrite (above c quote), (above c backslash) by (try exact Hc; reflexivity).
  destruct (N.ltb_spec (N_of_ascii c) 32); [lia|]. destruct (N.ltb_spec (N_of_ascii c) 128); [lia|].
  destruct (lead c) as [[[m lo] hi]|] eqn:L; [|reflexivity]. destruct s as [|d s]; [reflexivity|].
  destruct (byte_in lo hi d) eqn:Bd; cbn [negb]; [|reflexivity]. apply of_bytes in Bd.
  destruct (lead_cases c m lo hi L) as [(-> & W & -> & ->)|[(-> & W)|(-> & W)]].
  - exfalso. eapply (No (String c (String d "")) _ s); [constructor; eassumption|reflexivity].
  - assert (Hd : (128 <= N_of_ascii d)%N) by (unfold within in Bd; destruct W as [(_ & -> & _)|[(_ & -> & _)|(_ & -> & _)]]; lia).
    destruct s as [|e s]; [now rewrite (read_one_high d Hd)|].
    destruct (cont e) eqn:Be; cbn [negb]; [|reflexivity]. apply of_bytes in Be. exfalso.
    eapply (No (String c (String d (String e ""))) _ s); [constructor; [|exact Be]|reflexivity].
    destruct W as [(W & -> & ->)|[(W & -> & ->)|(W & -> & ->)]]; tauto.
  - assert (Hd : (128 <= N_of_ascii d)%N) by (unfold within in Bd; destruct W as [(_ & -> & _)|[(_ & -> & _)|(_ & -> & _)]]; lia).
    destruct s as [|e s]; [now rewrite (read_one_high d Hd)|].
    destruct (cont e) eqn:Be; cbn [negb]; [|reflexivity]. apply of_bytes in Be.
    assert (He : (128 <= N_of_ascii e)%N) by (unfold within in Be; lia).
    destruct s as [|f s]; [now rewrite (read_two_high d e Hd He)|].
    destruct (cont f) eqn:Bf; cbn [negb]; [|reflexivity]. apply of_bytes in Bf. exfalso.
    eapply (No (String c (String d (String e (String f "")))) _ s); [constructor; [|exact Be|exact Bf]|reflexivity].
    destruct W as [(W & -> & ->)|[(W & -> & ->)|(W & -> & ->)]]; tauto.
Qed.

Lemma point_high : forall c s u n r, (128 <= N_of_ascii c)%N -> code_point u n -> String c s = u ++ r -> (128 <= n)%N /\ exists w, u = String c w.
Proof.
  intros c s u n r Hc H E. destruct H as [a W|a b W1 W2|a b e W1 W2|a b e f W1 W2 W3]; cbn [append] in E; injection E as <- _; unfold within in *;
    (split; [lia|eexists; reflexivity]).
Qed.

(** A byte starts a character or it does not. *)
Lemma point_dec : forall c s, (128 <= N_of_ascii c)%N ->
  (exists u n r, code_point u n /\ String c s = u ++ r) \/ (forall u n r, code_point u n -> String c s <> u ++ r).
Proof.
  intros c s Hc.
  assert (Short : forall a, code_point (String a "") (N_of_ascii a) -> a = c -> False).
  { intros a H ->. inversion H. unfold within in *. lia. }
  destruct (lead c) as [[[m lo] hi]|] eqn:L.
  2: { right. intros u n r H E.
       destruct H as [a W|a b W1 W2|a b e W1 W2|a b e f W1 W2 W3]; cbn [append] in E; injection E as <- E2.
       - unfold within in W. lia.
       - rewrite (lead_2 c W1) in L. discriminate L.
       - destruct (lead_3 c b W1) as (x & y & G & _). rewrite G in L. discriminate L.
       - destruct (lead_4 c b W1) as (x & y & G & _). rewrite G in L. discriminate L. }
  assert (Inv : forall u n r, code_point u n -> String c s = u ++ r ->
     exists d s1, s = String d s1 /\ byte_in lo hi d = true /\
      (m = 1 \/ exists e s2, s1 = String e s2 /\ cont e = true /\ (m = 2 \/ exists f s3, s2 = String f s3 /\ cont f = true))).
  { intros u n r H E.
    destruct H as [a W|a b W1 W2|a b e W1 W2|a b e f W1 W2 W3]; cbn [append] in E; injection E as <- E2.
    - unfold within in W. lia.
    - rewrite (lead_2 c W1) in L. injection L as <- <- <-. exists b, r. split; [exact E2|]. split; [now apply in_bytes|now left].
    - destruct (lead_3 c b W1) as (x & y & G & I). rewrite G in L. injection L as <- <- <-. exists b, (String e r). split; [exact E2|].
      split; [exact I|]. right. exists e, r. split; [reflexivity|]. split; [now apply in_bytes|now left].
    - destruct (lead_4 c b W1) as (x & y & G & I). rewrite G in L. injection L as <- <- <-. exists b, (String e (String f r)). split; [exact E2|].
      split; [exact I|]. right. exists e, (String f r). split; [reflexivity|]. split; [now apply in_bytes|].
      right. exists f, r. split; [reflexivity|now apply in_bytes]. }
  destruct s as [|d s].
  { right. intros u n r H E. destruct (Inv u n r H E) as (d & s1 & F & _). discriminate F. }
  destruct (byte_in lo hi d) eqn:Bd.
  2: { right. intros u n r H E. destruct (Inv u n r H E) as (d' & s1 & F & B & _). injection F as <- _. congruence. }
  destruct (lead_cases c m lo hi L) as [(-> & W & -> & ->)|[(-> & W)|(-> & W)]].
  - left. exists (String c (String d "")). eexists. exists s. split; [|reflexivity]. constructor; [exact W|now apply of_bytes].
  - destruct s as [|e s].
    { right. intros u n r H E. destruct (Inv u n r H E) as (d' & s1 & F & B & [X|(e & s2 & F2 & _)]); [discriminate X|].
      injection F as _ <-. discriminate F2. }
    destruct (cont e) eqn:Be.
    2: { right. intros u n r H E. destruct (Inv u n r H E) as (d' & s1 & F & B & [X|(e' & s2 & F2 & B2 & _)]); [discriminate X|].
         injection F as _ <-. injection F2 as <- _. congruence. }
    left. exists (String c (String d (String e ""))). eexists. exists s. split; [|reflexivity].
    apply of_bytes in Bd, Be. constructor; [|exact Be]. destruct W as [(W & -> & ->)|[(W & -> & ->)|(W & -> & ->)]]; tauto.
  - destruct s as [|e s].
    { right. intros u n r H E. destruct (Inv u n r H E) as (d' & s1 & F & B & [X|(e & s2 & F2 & _)]); [discriminate X|].
      injection F as _ <-. discriminate F2. }
    destruct (cont e) eqn:Be.
    2: { right. intros u n r H E. destruct (Inv u n r H E) as (d' & s1 & F & B & [X|(e' & s2 & F2 & B2 & _)]); [discriminate X|].
         injection F as _ <-. injection F2 as <- _. congruence. }
    destruct s as [|f s].
    { right. intros u n r H E. destruct (Inv u n r H E) as (d' & s1 & F & B & [X|(e' & s2 & F2 & B2 & [X|(f & s3 & F3 & _)])]); [discriminate X|discriminate X|].
      injection F as _ <-. injection F2 as _ <-. discriminate F3. }
    destruct (cont f) eqn:Bf.
    2: { right. intros u n r H E. destruct (Inv u n r H E) as (d' & s1 & F & B & [X|(e' & s2 & F2 & B2 & [X|(f' & s3 & F3 & B3)])]); [discriminate X|discriminate X|].
         injection F as _ <-. injection F2 as _ <-. injection F3 as <- _. congruence. }
    left. exists (String c (String d (String e (String f "")))). eexists. exists s. split; [|reflexivity].
    apply of_bytes in Bd, Be, Bf. constructor; [|exact Be|exact Bf]. destruct W as [(W & -> & ->)|[(W & -> & ->)|(W & -> & ->)]]; tauto.
Qed.

Lemma high_head : forall u n, code_point u n -> (128 <= n)%N -> exists a w, u = String a w /\ (128 <= N_of_ascii a)%N.
Proof.
  intros u n H Hn. destruct H as [a W|a b W1 W2|a b c W1 W2|a b c d W1 W2 W3]; unfold within in *; eexists; eexists; (split; [reflexivity|lia]).
Qed.

(** One escape of four digits *)
Lemma read_u : forall a b c d u s, hex4 a b c d = Some u -> N_in 55296 57343 u = false ->
  read_chars ("\u" ++ String a (String b (String c (String d "")))  ++ s) = push (encode_rune u) (read_chars s).
Proof. intros a b c d u s H N. cbn [append]. rewrite read_cons. unfold read_step. cbv beta iota. rewrite H, N. reflexivity. Qed.

Lemma read_pair : forall a b c d u a' b' c' d' w s, hex4 a b c d = Some u -> hex4 a' b' c' d' = Some w ->
  (55296 <= u <= 56319)%N -> (56320 <= w <= 57343)%N ->
  read_chars ("\u" ++ String a (String b (String c (String d ("\u" ++ String a' (String b' (String c' (String d' s)))))))) =
  push (encode_rune ((u - 55296) * 1024 + (w - 56320) + 65536)%N) (read_chars s).
Proof.
  intros a b c d u a' b' c' d' w s H1 H2 U W. cbn [append]. rewrite read_cons. unfold read_step. cbv beta iota. rewrite H1.
  replace (N_in 55296 57343 u) with true by (symmetry; apply N_in_true; lia).
  rewrite H2. replace (u <? 56320)%N with true by (symmetry; apply N.ltb_lt; lia).
  replace (N_in 56320 57343 w) with true by (symmetry; apply N_in_true; lia). reflexivity.
Qed.

Lemma read_lone : forall a b c d u s, hex4 a b c d = Some u -> (55296 <= u <= 57343)%N ->
  (forall q m s', s = q ++ s' -> u_escape q m -> ~ ((u <= 56319)%N /\ (56320 <= m <= 57343)%N)) ->
  read_chars ("\u" ++ String a (String b (String c (String d s)))) = push replaced (read_chars s).
Proof.
  intros a b c d u s H U No. cbn [append]. rewrite read_cons. unfold read_step. cbv beta iota. rewrite H.
  replace (N_in 55296 57343 u) with true by (symmetry; apply N_in_true; lia).
  destruct s as [|b0 [|v [|g1 [|g2 [|g3 [|g4 s4]]]]]]; try reflexivity.
  destruct (Ascii.eqb b0 backslash && Ascii.eqb v "u")%bool eqn:E; [|reflexivity].
  destruct (hex4 g1 g2 g3 g4) as [w|] eqn:G; [|reflexivity].
  destruct ((u <? 56320)%N && N_in 56320 57343 w)%bool eqn:B; [|reflexivity]. exfalso.
  apply andb_true_iff in E. destruct E as [E1 E2]. apply Ascii.eqb_eq in E1, E2. subst b0 v.
  apply andb_true_iff in B. destruct B as [B1 B2]. apply N.ltb_lt in B1. apply N_in_true in B2.
  apply hex4_is in G. apply (No ("\u" ++ String g1 (String g2 (String g3 (String g4 "")))) w s4 eq_refl G). split; [lia|exact B2].
Qed.

Lemma read_chars_complete : forall t v, chars t v -> forall r, read_chars (t ++ String quote r) = Some (v, r).
Proof.
  intros t v H. induction H as [|u n t v P Hn N1 N2 H IH|e x t v I H IH|p n u t v P U H IH|p n q m u t v P Q Hn Hm U H IH|p n t v P Hn No H IH|c t v Hc No H IH]; intros r.
  - reflexivity.
  - rewrite app_assoc_s. destruct (N.lt_ge_cases n 128) as [L|L].
    + destruct P as [a W|a b W1 W2|a b c W1 W2|a b c d W1 W2 W3]; unfold within in *; [|lia|lia|lia].
      cbn [append]. rewrite read_cons. unfold read_step. cbv beta iota. destruct (Ascii.eqb a quote) eqn:E1; [apply Ascii.eqb_eq in E1; subst a; now exfalso; apply N1|].
      destruct (N.ltb_spec (N_of_ascii a) 32); [lia|]. destruct (Ascii.eqb a backslash) eqn:E2; [apply Ascii.eqb_eq in E2; subst a; now exfalso; apply N2|].
      destruct (N.ltb_spec (N_of_ascii a) 128); [|lia]. rewrite IH. reflexivity.
    + rewrite (read_multi u n _ P L (high_head u n P L)), IH. reflexivity.
  - cbn [append]. cbn [In] in I. repeat destruct I as [I|I]; try (now destruct I); injection I as <- <-; rewrite read_cons; unfold read_step; cbn -[read_chars]; rewrite IH; reflexivity.
  - destruct (escape_shape p n P) as (a & b & c & d & -> & X). rewrite app_assoc_s.
    rewrite (app_assoc_s "\u"). rewrite (read_u a b c d n (t ++ String quote r) X); [|apply N_in_false; exact (surrogate_not u n U)].
    rewrite IH, (encode_is u n U). reflexivity.
  - destruct (escape_shape p n P) as (a & b & c & d & -> & X). destruct (escape_shape q m Q) as (a' & b' & c' & d' & -> & Y).
    rewrite !app_assoc_s. cbn [append].
    pose proof (read_pair a b c d n a' b' c' d' m (t ++ String quote r) X Y Hn Hm) as R. cbn [append] in R. rewrite R, IH, (encode_is u _ U). reflexivity.
  - destruct (escape_shape p n P) as (a & b & c & d & -> & X). rewrite !app_assoc_s.
    pose proof (read_lone a b c d n (t ++ String quote r) X Hn) as R. cbn [append] in R |- *. rewrite R, IH; [reflexivity|].
    intros q m s' E Q. destruct (strip_quote q t s' r (escape_no_quote q m Q) E) as [t' E']. exact (No q m t' E' Q).
  - cbn [append]. rewrite read_bad; [now rewrite IH|exact Hc|]. intros u n s' P E.
    assert (E' : (String c t) ++ String quote r = u ++ s') by exact E.
    destruct (strip_quote u (String c t) s' r (point_no_quote u n c _ s' P E Hc) E') as [t' F]. exact (No u n t' P F).
Qed.

Lemma push_inv : forall p o v r, push p o = Some (v, r) -> exists v', o = Some (v', r) /\ v = p ++ v'.
Proof. intros p [[v' r']|] v r H; [|discriminate H]. injection H as <- <-. now exists v'. Qed.

Lemma read_chars_sound : forall k s, String.length s <= k -> forall v r, read_chars s = Some (v, r) -> exists t, s = t ++ String quote r /\ chars t v.
Proof.
  induction k as [|k IH]; intros s Hk v r H.
  - destruct s as [|c s]; [discriminate H|cbn in Hk; lia].
  - destruct s as [|c s]; [discriminate H|]. cbn [String.length] in Hk.
    destruct (N.lt_ge_cases (N_of_ascii c) 128) as [Lc|Lc].
    2: { destruct (point_dec c s Lc) as [(u & n & s' & P & E)|No].
         - destruct (point_high c s u n s' Lc P E) as [Hn [w U]]. rewrite E in H.
           rewrite (read_multi u n s' P Hn (high_head u n P Hn)) in H. apply push_inv in H. destruct H as (v' & H & ->).
           subst u. cbn [append] in E. injection E as E. assert (Hs' : String.length s' <= k) by (subst s; rewrite length_append in Hk; lia).
           destruct (IH s' Hs' v' r H) as (t & -> & C). exists (String c w ++ t). split; [rewrite app_assoc_s; cbn [append]; now rewrite E|].
           apply ch_plain with n; [exact P|lia|intros X; injection X as X _; subst c; cbn in Lc; lia|intros X; injection X as X _; subst c; cbn in Lc; lia|exact C].
         - rewrite (read_bad c s Lc No) in H. apply push_inv in H. destruct H as (v' & H & ->).
           destruct (IH s ltac:(lia) v' r H) as (t & -> & C). exists (String c t). split; [reflexivity|].
           apply ch_bad; [exact Lc| |exact C]. intros u n s' P E. apply (No u n (s' ++ String quote r) P). rewrite <- app_assoc_s, <- E. reflexivity. }
    rewrite read_cons in H. unfold read_step in H. destruct (Ascii.eqb c quote) eqn:Eq.
    { apply Ascii.eqb_eq in Eq. injection H as <- <-. subst c. exists "". split; [reflexivity|constructor]. }
    destruct (N.ltb_spec (N_of_ascii c) 32) as [L32|L32]; [discriminate H|].
    destruct (Ascii.eqb c backslash) eqn:Eb.
    2: { destruct (N.ltb_spec (N_of_ascii c) 128) as [_|L]; [|lia]. apply push_inv in H. destruct H as (v' & H & ->).
         destruct (IH s ltac:(lia) v' r H) as (t & -> & C). exists (String c "" ++ t). split; [reflexivity|].
         apply ch_plain with (N_of_ascii c); [constructor; unfold within; lia|exact L32| | |exact C]; intros X; injection X as ->;
           [rewrite (Ascii.eqb_refl) in Eq; discriminate Eq|discriminate Eb]. }
    apply Ascii.eqb_eq in Eb. subst c. destruct s as [|e s]; [discriminate H|]. cbn [String.length] in Hk.
    destruct (Ascii.eqb e "u") eqn:Eu.
    + apply Ascii.eqb_eq in Eu. subst e. destruct s as [|h1 [|h2 [|h3 [|h4 s]]]]; try discriminate H. cbn [String.length] in Hk.
      destruct (hex4 h1 h2 h3 h4) as [u|] eqn:X; [|discriminate H]. pose proof (proj1 (hex4_is _ _ _ _ _) X) as P.
      pose proof (escape_bound _ _ P) as Bu.
      assert (Lone : forall v0, (55296 <= u <= 57343)%N ->
         (forall q m s', s = q ++ s' -> u_escape q m -> ~ ((u <= 56319)%N /\ (56320 <= m <= 57343)%N)) ->
         push replaced (read_chars s) = Some (v0, r) ->
         exists t, String backslash (String "u" (String h1 (String h2 (String h3 (String h4 s))))) = t ++ String quote r /\ chars t v0).
      { intros v0 U No G. apply push_inv in G. destruct G as (v' & G & ->). destruct (IH s ltac:(lia) v' r G) as (t & -> & C).
        exists (("\u" ++ String h1 (String h2 (String h3 (String h4 "")))) ++ t). split; [reflexivity|].
        apply ch_lone with u; [exact P|exact U| |exact C]. intros q m t' E Q. apply (No q m (t' ++ String quote r)); [now rewrite <- app_assoc_s, <- E|exact Q]. }
      destruct (N_in 55296 57343 u) eqn:NU.
      * apply N_in_true in NU.
        destruct s as [|b0 [|v0 [|g1 [|g2 [|g3 [|g4 s4]]]]]];
          try (apply Lone in H; [exact H|exact NU|]; intros q m s' E Q; destruct (escape_shape q m Q) as (a & b & c & d & -> & _); discriminate E).
        destruct (Ascii.eqb b0 backslash && Ascii.eqb v0 "u")%bool eqn:E.
        2: { apply Lone in H; [exact H|exact NU|]. intros q m s' E' Q. destruct (escape_shape q m Q) as (a & b & c & d & -> & _).
             cbn [append] in E'. injection E' as -> -> _ _ _ _ _. discriminate E. }
        apply andb_true_iff in E. destruct E as [E1 E2]. apply Ascii.eqb_eq in E1, E2. subst b0 v0.
        destruct (hex4 g1 g2 g3 g4) as [w|] eqn:G.
        2: { apply Lone in H; [exact H|exact NU|]. intros q m s' E' Q. destruct (escape_shape q m Q) as (a & b & c & d & -> & G').
             cbn [append] in E'. injection E' as -> -> -> -> _. rewrite G' in G. discriminate G. }
        destruct ((u <? 56320)%N && N_in 56320 57343 w)%bool eqn:B.
        2: { apply Lone in H; [exact H|exact NU|]. intros q m s' E' Q. destruct (escape_shape q m Q) as (a & b & c & d & -> & G').
             cbn [append] in E'. injection E' as -> -> -> -> _. rewrite G' in G. injection G as ->. intros [Y1 Y2].
             apply andb_false_iff in B. destruct B as [B|B]; [apply N.ltb_ge in B; lia|apply N_in_false in B; now apply B]. }
        apply andb_true_iff in B. destruct B as [B1 B2]. apply N.ltb_lt in B1. apply N_in_true in B2.
        apply push_inv in H. destruct H as (v' & H & ->). cbn [String.length] in Hk. destruct (IH s4 ltac:(lia) v' r H) as (t & -> & C).
        exists (("\u" ++ String h1 (String h2 (String h3 (String h4 "")))) ++ ("\u" ++ String g1 (String g2 (String g3 (String g4 "")))) ++ t).
        split; [reflexivity|]. apply ch_pair with u w; [exact P|now apply hex4_is|lia|exact B2| |exact C]. apply encode_point; lia.
      * apply N_in_false in NU. apply push_inv in H. destruct H as (v' & H & ->). destruct (IH s ltac:(lia) v' r H) as (t & -> & C).
        exists (("\u" ++ String h1 (String h2 (String h3 (String h4 "")))) ++ t). split; [reflexivity|].
        apply ch_unicode with u; [exact P| |exact C]. apply encode_point; [lia|exact NU].
    + destruct (short_escape e) as [x|] eqn:X; [|discriminate H]. apply push_inv in H. destruct H as (v' & H & ->).
      destruct (IH s ltac:(lia) v' r H) as (t & -> & C). exists (String "\" (String e t)). split; [reflexivity|].
      rewrite <- (ascii_N_embedding e). cbn [append]. rewrite <- (ascii_N_embedding x). apply ch_short; [|exact C].
      unfold short_escape in X. cbn [In].
      repeat match type of X with
      | (if ?b then _ else _) = _ => let B := fresh "B" in destruct b eqn:B
      end; try discriminate X; injection X as <-;
      rewrite ?orb_true_iff, ?Ascii.eqb_eq in *; repeat match goal with B : _ \/ _ |- _ => destruct B as [B|B] end; subst e; cbn; tauto.
Qed.
