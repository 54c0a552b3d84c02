(** What cannot occur in the JSON bodies. *)
From Coq Require Import String Ascii List Bool ZArith NArith Lia.
From Coq Require Import DecimalString Decimal.
From Verif Require Import GoStr Json JsonSpec JsonProofs.
Import ListNotations.
Local Open Scope string_scope.

Definition plain1 (c : ascii) : bool := rng 32 127 c && negb (Ascii.eqb c "<") && negb (Ascii.eqb c ">") && negb (Ascii.eqb c "&").

(** UTF-8 with the characters excluded *)
Inductive plain : string -> Prop :=
| plain_nil : plain ""
| plain_1 : forall a s, plain1 a = true -> plain s -> plain (String a s)
| plain_2 : forall a b s, rng 194 223 a = true -> rng 128 191 b = true -> plain s -> plain (String a (String b s))
| plain_3 : forall a b c s,
    (rng 224 224 a = true /\ rng 160 191 b = true) \/
    ((rng 225 236 a = true \/ rng 238 239 a = true) /\ rng 128 191 b = true) \/
    (rng 237 237 a = true /\ rng 128 159 b = true) ->
    rng 128 191 c = true -> line_sep a b c = false -> plain s -> plain (String a (String b (String c s)))
| plain_4 : forall a b c d s,
    (rng 240 240 a = true /\ rng 144 191 b = true) \/
    (rng 241 243 a = true /\ rng 128 191 b = true) \/
    (rng 244 244 a = true /\ rng 128 143 b = true) ->
    rng 128 191 c = true -> rng 128 191 d = true -> plain s -> plain (String a (String b (String c (String d s)))).

Lemma plain_app : forall a b, plain a -> plain b -> plain (a ++ b).
Proof.
  intros a b H Hb. induction H as [|x s H1 H IH|x y s H1 H2 H IH|x y z s H1 H2 H3 H IH|x y z w s H1 H2 H3 H IH]; cbn [append].
  - exact Hb.
  - now apply plain_1.
  - now apply plain_2.
  - now apply plain_3.
  - now apply plain_4.
Qed.

Fixpoint plain_ascii (s : string) : bool := match s with EmptyString => true | String c s' => plain1 c && plain_ascii s' end.
Lemma plain_by : forall s, plain_ascii s = true -> plain s.
Proof.
  induction s as [|c s IH]; intros H; [constructor|]. cbn [plain_ascii] in H. apply andb_true_iff in H. destruct H as [H1 H2].
  apply plain_1; [exact H1|exact (IH H2)].
Qed.

Lemma plain_byte : forall c, N.ltb (N_of_ascii c) 128 = true -> plain (escape_byte c).
Proof. intros c H. apply plain_by. destruct c as [[] [] [] [] [] [] [] []]; try discriminate H; reflexivity. Qed.

Lemma plain_sep : forall c, byte_in 168 169 c = true -> plain1 (hex_digit (N.modulo (N_of_ascii c) 16)) = true.
Proof. intros c H. destruct c as [[] [] [] [] [] [] [] []]; try discriminate H; reflexivity. Qed.

Lemma lead_two : forall c lo hi, lead c = Some (1%nat, lo, hi) -> rng 194 223 c = true /\ lo = 128%N /\ hi = 191%N.
Proof. intros c lo hi H. destruct c as [[] [] [] [] [] [] [] []]; try discriminate H; cbv in H; injection H as <- <-; repeat split. Qed.
Lemma lead_three : forall c lo hi d, lead c = Some (2%nat, lo, hi) -> byte_in lo hi d = true ->
  (rng 224 224 c = true /\ rng 160 191 d = true) \/ ((rng 225 236 c = true \/ rng 238 239 c = true) /\ rng 128 191 d = true) \/ (rng 237 237 c = true /\ rng 128 159 d = true).
Proof.
  intros c lo hi d H Hd. change (byte_in lo hi d) with (rng lo hi d) in Hd.
  destruct c as [[] [] [] [] [] [] [] []]; try discriminate H; cbv in H; injection H as <- <-;
    first [left; split; [reflexivity|exact Hd] | right; left; split; [first [left; reflexivity | right; reflexivity]|exact Hd] | right; right; split; [reflexivity|exact Hd]].
Qed.
Lemma lead_four : forall c n lo hi d, lead c = Some (S (S (S n)), lo, hi) -> byte_in lo hi d = true ->
  (rng 240 240 c = true /\ rng 144 191 d = true) \/ (rng 241 243 c = true /\ rng 128 191 d = true) \/ (rng 244 244 c = true /\ rng 128 143 d = true).
Proof.
  intros c n lo hi d H Hd. change (byte_in lo hi d) with (rng lo hi d) in Hd.
  destruct c as [[] [] [] [] [] [] [] []]; try discriminate H; cbv in H; injection H as _ <- <-;
    first [left; split; [reflexivity|exact Hd] | right; left; split; [reflexivity|exact Hd] | right; right; split; [reflexivity|exact Hd]].
Qed.

Lemma plain_escape_any : forall n s, (String.length s <= n)%nat -> plain (escape s).
Proof.
  induction n as [|n IH]; intros s Hn.
  - destruct s; [|cbn in Hn; lia]. constructor.
  - destruct s as [|c s1]; [constructor|]. cbn [String.length] in Hn.
    assert (R : forall t, (String.length t <= n)%nat -> plain (replacement ++ escape t)).
    { intros t Ht. apply plain_app; [now apply plain_by|exact (IH t Ht)]. }
    cbn [escape]. destruct (N.ltb (N_of_ascii c) 128) eqn:Ec.
    + apply plain_app; [exact (plain_byte c Ec)|apply IH; lia].
    + destruct (lead c) as [[[more lo] hi]|] eqn:El; [|apply R; lia].
      destruct s1 as [|d s2]; [apply R; cbn; lia|]. cbn [String.length] in Hn.
      destruct (byte_in lo hi d) eqn:Ed; [|apply R; cbn; lia]. cbn [negb].
      destruct more as [|[|[|more]]].
      * exfalso. destruct c as [[] [] [] [] [] [] [] []]; discriminate El.
      * destruct (lead_two c lo hi El) as (H1 & -> & ->). apply plain_2; [exact H1|exact Ed|apply IH; lia].
      * destruct s2 as [|e s3]; [apply R; cbn; lia|]. cbn [String.length] in Hn.
        destruct (cont e) eqn:Ee; [|apply R; cbn; lia]. cbn [negb]. destruct (line_sep c d e) eqn:Els.
        -- assert (Es : byte_in 168 169 e = true) by (unfold line_sep in Els; apply andb_true_iff in Els; apply Els).
           apply plain_app; [now apply plain_by|]. apply plain_1; [exact (plain_sep e Es)|apply IH; lia].
        -- apply plain_3; [exact (lead_three c lo hi d El Ed)|exact Ee|exact Els|apply IH; lia].
      * destruct s2 as [|e s3]; [apply R; cbn; lia|]. destruct s3 as [|f s4]; [apply R; cbn; cbn in Hn; lia|].
        cbn [String.length] in Hn.
        destruct (cont e) eqn:Ee; [|apply R; cbn; lia]. destruct (cont f) eqn:Ef; [|apply R; cbn; lia]. cbn [negb andb].
        apply plain_4; [exact (lead_four c more lo hi d El Ed)|exact Ee|exact Ef|apply IH; lia].
Qed.
Lemma plain_escape : forall s, plain (escape s).
Proof. intros s. exact (plain_escape_any _ s (le_n _)). Qed.

Lemma plain_string : forall s, plain (json_string s).
Proof.
  intros s. unfold json_string. apply plain_1; [reflexivity|]. apply plain_app; [apply plain_escape|]. now apply plain_by.
Qed.

Lemma plain_uint : forall d, plain (NilEmpty.string_of_uint d).
Proof. induction d; cbn [NilEmpty.string_of_uint]; try (apply plain_1; [reflexivity|assumption]). constructor. Qed.
Lemma plain_itoa : forall n, plain (itoa n).
Proof.
  intros n. unfold itoa, NilZero.string_of_uint. destruct (N.to_uint n) eqn:E; try apply plain_uint. now apply plain_by.
Qed.
Lemma plain_itoa_Z : forall z, plain (itoa_Z z).
Proof. intros z. unfold itoa_Z. destruct z; try apply plain_itoa. apply plain_app; [now apply plain_by|apply plain_itoa]. Qed.

Ltac plain_text := repeat (apply plain_app; [first [apply plain_string | apply plain_itoa_Z | now apply plain_by]|]); now apply plain_by.

Lemma plain_about : forall g i v, plain (about_json g i v).
Proof. intros g i v. rewrite about_json_text. plain_text. Qed.
Lemma plain_status : forall g i v c m, plain (status_json g i v c m).
Proof. intros g i v c m. rewrite status_json_text. plain_text. Qed.

(** From [plain] to [inert] *)

Lemma rng_ge : forall lo hi c, rng lo hi c = true -> (lo <= code_of c <= hi)%N.
Proof. intros lo hi c H. unfold rng in H. apply andb_true_iff in H. destruct H as [H1 H2]. apply N.leb_le in H1, H2. now split. Qed.
Lemma rng_in : forall lo hi c, (lo <= code_of c <= hi)%N -> rng lo hi c = true.
Proof. intros lo hi c [H1 H2]. unfold rng. apply N.leb_le in H1, H2. now rewrite H1, H2. Qed.

Lemma plain_utf8 : forall s, plain s -> utf8 s.
Proof.
  intros s H. induction H as [|x s H1 H IH|x y s H1 H2 H IH|x y z s H1 H2 H3 H IH|x y z w s H1 H2 H3 H IH].
  - constructor.
  - apply utf8_1; [|exact IH]. unfold plain1 in H1. rewrite !andb_true_iff in H1. destruct H1 as [[[H1 _] _] _]. apply rng_ge in H1. apply rng_in. lia.
  - now apply utf8_2.
  - now apply utf8_3.
  - now apply utf8_4.
Qed.

Definition fine (c : ascii) : Prop := (32 <= code_of c)%N /\ c <> "<"%char /\ c <> ">"%char /\ c <> "&"%char.
Lemma fine_high : forall c, (128 <= code_of c)%N -> fine c.
Proof. intros c H. split; [lia|]. repeat split; intros ->; vm_compute in H; contradiction H; reflexivity. Qed.
Lemma fine_plain1 : forall c, plain1 c = true -> fine c.
Proof.
  intros c H. unfold plain1 in H. rewrite !andb_true_iff, !negb_true_iff in H. destruct H as [[[H1 H2] H3] H4]. apply rng_ge in H1.
  split; [lia|]. apply Ascii.eqb_neq in H2, H3, H4. now split.
Qed.

Lemma high_3 : forall a b, (rng 224 224 a = true /\ rng 160 191 b = true) \/ ((rng 225 236 a = true \/ rng 238 239 a = true) /\ rng 128 191 b = true) \/ (rng 237 237 a = true /\ rng 128 159 b = true) ->
  (128 <= code_of a)%N /\ (128 <= code_of b <= 191)%N.
Proof. intros a b [[H1 H2]|[[[H1|H1] H2]|[H1 H2]]]; apply rng_ge in H1, H2; lia. Qed.
Lemma high_4 : forall a b, (rng 240 240 a = true /\ rng 144 191 b = true) \/ (rng 241 243 a = true /\ rng 128 191 b = true) \/ (rng 244 244 a = true /\ rng 128 143 b = true) ->
  (240 <= code_of a)%N /\ (128 <= code_of b <= 191)%N.
Proof. intros a b [[H1 H2]|[[H1 H2]|[H1 H2]]]; apply rng_ge in H1, H2; lia. Qed.

Lemma plain_fine : forall s, plain s -> forall a c b, s = a ++ String c b -> fine c.
Proof.
  intros s H. induction H as [|x s H1 H IH|x y s H1 H2 H IH|x y z s H1 H2 H3 H IH|x y z w s H1 H2 H3 H IH]; intros a c b E.
  - destruct a; discriminate E.
  - destruct a as [|a0 a]; cbn [append] in E; injection E as <- E; [exact (fine_plain1 x H1)|exact (IH a c b E)].
  - apply rng_ge in H1, H2. destruct a as [|a0 [|a1 a]]; cbn [append] in E.
    + injection E as <- _. apply fine_high. lia.
    + injection E as _ <- _. apply fine_high. lia.
    + injection E as _ _ E. exact (IH a c b E).
  - apply high_3 in H1. apply rng_ge in H2. destruct a as [|a0 [|a1 [|a2 a]]]; cbn [append] in E.
    + injection E as <- _. apply fine_high. lia.
    + injection E as _ <- _. apply fine_high. lia.
    + injection E as _ _ <- _. apply fine_high. lia.
    + injection E as _ _ _ E. exact (IH a c b E).
  - apply high_4 in H1. apply rng_ge in H2, H3. destruct a as [|a0 [|a1 [|a2 [|a3 a]]]]; cbn [append] in E.
    + injection E as <- _. apply fine_high. lia.
    + injection E as _ <- _. apply fine_high. lia.
    + injection E as _ _ <- _. apply fine_high. lia.
    + injection E as _ _ _ <- _. apply fine_high. lia.
    + injection E as _ _ _ _ E. exact (IH a c b E).
Qed.

Lemma plain_no_sep : forall s, plain s -> forall a x y z b, code_of x = 226%N -> code_of y = 128%N -> (code_of z = 168 \/ code_of z = 169)%N ->
  s <> a ++ String x (String y (String z b)).
Proof.
  intros s H. induction H as [|p s H1 H IH|p q s H1 H2 H IH|p q r s H1 H2 H3 H IH|p q r t s H1 H2 H3 H IH]; intros a x y z b Hx Hy Hz E.
  - destruct a; discriminate E.
  - destruct a as [|a0 a]; cbn [append] in E.
    + injection E as -> _. unfold plain1 in H1. rewrite !andb_true_iff in H1. destruct H1 as [[[H1 _] _] _]. apply rng_ge in H1. lia.
    + injection E as _ E. exact (IH a x y z b Hx Hy Hz E).
  - apply rng_ge in H1, H2. destruct a as [|a0 [|a1 a]]; cbn [append] in E.
    + injection E as -> _. lia.
    + injection E as _ -> _. lia.
    + injection E as _ _ E. exact (IH a x y z b Hx Hy Hz E).
  - apply high_3 in H1. apply rng_ge in H2. destruct a as [|a0 [|a1 [|a2 a]]]; cbn [append] in E.
    + injection E as -> -> -> _. unfold line_sep in H3. change N_of_ascii with code_of in H3. rewrite Hx, Hy in H3. cbn [N.eqb Pos.eqb andb] in H3.
      assert (X : byte_in 168 169 z = true) by (apply (rng_in 168 169 z); lia). congruence.
    + injection E as _ -> _. lia.
    + injection E as _ _ -> _. lia.
    + injection E as _ _ _ E. exact (IH a x y z b Hx Hy Hz E).
  - apply high_4 in H1. apply rng_ge in H2, H3. destruct a as [|a0 [|a1 [|a2 [|a3 a]]]]; cbn [append] in E.
    + injection E as -> _. lia.
    + injection E as _ -> _. lia.
    + injection E as _ _ -> _. lia.
    + injection E as _ _ _ -> _. lia.
    + injection E as _ _ _ _ E. exact (IH a x y z b Hx Hy Hz E).
Qed.

Lemma plain_inert : forall s, plain s -> inert s.
Proof.
  intros s H. split; [exact (plain_utf8 s H)|]. split; [exact (plain_fine s H)|]. intros a c b.
  destruct (N.eq_dec c 168) as [->|N1]; [left; apply (plain_no_sep s H); vm_compute; auto|].
  destruct (N.eq_dec c 169) as [->|N2]; [left; apply (plain_no_sep s H); vm_compute; auto|]. right. now split.
Qed.

Lemma bodies_inert : forall g i v c m, inert (about_json g i v) /\ inert (status_json g i v c m).
Proof. intros g i v c m. split; apply plain_inert; [apply plain_about|apply plain_status]. Qed.

(** A message made to leave the document *)
Definition attack : string := "</script>" ++ String (ascii_of_N 226) (String (ascii_of_N 128) (String (ascii_of_N 168) (String (ascii_of_N 255) (String (ascii_of_N 0) "")))).
Lemma attack_case : ~ inert attack /\
  status_json "Chuba!" "unknown" "v1" 400 attack =
  "{""j8a"":""Chuba!"",""ServerID"":""unknown"",""Version"":""v1"",""Code"":400,""Message"":""\u003c/script\u003e\u2028\ufffd\u0000""}".
Proof.
  split; [|vm_compute; reflexivity]. intros (_ & H & _). destruct (H "" "<"%char _ eq_refl) as (_ & N & _). now apply N.
Qed.
