(** The JSON bodies read back as what was put in. *)
From Coq Require Import String Ascii List Bool ZArith NArith Lia.
From Coq Require Import DecimalString DecimalN DecimalFacts Decimal.
From Verif Require Import GoStr Json JsonSpec.
Import ListNotations.
Local Open Scope string_scope.

Lemma cons_to_app : forall a b r, cons_to a (cons_to b r) = cons_to (a ++ b) r.
Proof. intros a b [[v rest]|]; cbn [cons_to]; [now rewrite append_assoc | reflexivity]. Qed.

(** One byte below 0x80, whatever it is. *)
Lemma read_escape_byte : forall c s, N.ltb (N_of_ascii c) 128 = true ->
  read_chars (escape_byte c ++ s) = cons_to (String c "") (read_chars s).
Proof.
  intros c s H. destruct c as [[] [] [] [] [] [] [] []]; try discriminate H; reflexivity.
Qed.

(** One raw byte from 0x80 on. *)
Lemma read_high : forall c s, N.ltb (N_of_ascii c) 128 = false ->
  read_chars (String c s) = cons_to (String c "") (read_chars s).
Proof.
  intros c s H. destruct c as [[] [] [] [] [] [] [] []]; try discriminate H; reflexivity.
Qed.

Lemma rng_byte : forall lo hi c, rng lo hi c = byte_in lo hi c.
Proof. reflexivity. Qed.

Lemma lead_high : forall c x, lead c = Some x -> N.ltb (N_of_ascii c) 128 = false.
Proof. intros c x H. destruct c as [[] [] [] [] [] [] [] []]; try reflexivity; discriminate H. Qed.

Lemma byte_high : forall lo hi c, (128 <= lo)%N -> byte_in lo hi c = true -> N.ltb (N_of_ascii c) 128 = false.
Proof.
  intros lo hi c Hl H. unfold byte_in, N_in in H. apply andb_true_iff in H. destruct H as [H _].
  apply N.leb_le in H. apply N.ltb_ge. lia.
Qed.

Lemma lead_2 : forall a, rng 194 223 a = true -> lead a = Some (1%nat, 128, 191)%N.
Proof. intros a H. unfold lead. unfold rng, code_of in H. unfold N_in. now rewrite H. Qed.

Lemma lead_3 : forall a b,
    (rng 224 224 a = true /\ rng 160 191 b = true) \/
    ((rng 225 236 a = true \/ rng 238 239 a = true) /\ rng 128 191 b = true) \/
    (rng 237 237 a = true /\ rng 128 159 b = true) ->
  exists lo hi, lead a = Some (2%nat, lo, hi) /\ byte_in lo hi b = true /\ (128 <= lo)%N.
Proof.
  intros a b [[Ha Hb]|[[[Ha|Ha] Hb]|[Ha Hb]]].
  - exists 160%N, 191%N. split; [|split; [exact Hb | lia]].
    destruct a as [[] [] [] [] [] [] [] []]; try discriminate Ha; reflexivity.
  - exists 128%N, 191%N. split; [|split; [exact Hb | lia]].
    destruct a as [[] [] [] [] [] [] [] []]; try discriminate Ha; reflexivity.
  - exists 128%N, 191%N. split; [|split; [exact Hb | lia]].
    destruct a as [[] [] [] [] [] [] [] []]; try discriminate Ha; reflexivity.
  - exists 128%N, 159%N. split; [|split; [exact Hb | lia]].
    destruct a as [[] [] [] [] [] [] [] []]; try discriminate Ha; reflexivity.
Qed.

Lemma lead_4 : forall a b,
    (rng 240 240 a = true /\ rng 144 191 b = true) \/
    (rng 241 243 a = true /\ rng 128 191 b = true) \/
    (rng 244 244 a = true /\ rng 128 143 b = true) ->
  exists lo hi, lead a = Some (3%nat, lo, hi) /\ byte_in lo hi b = true /\ (128 <= lo)%N.
Proof.
  intros a b [[Ha Hb]|[[Ha Hb]|[Ha Hb]]].
  - exists 144%N, 191%N. split; [|split; [exact Hb | lia]].
    destruct a as [[] [] [] [] [] [] [] []]; try discriminate Ha; reflexivity.
  - exists 128%N, 191%N. split; [|split; [exact Hb | lia]].
    destruct a as [[] [] [] [] [] [] [] []]; try discriminate Ha; reflexivity.
  - exists 128%N, 143%N. split; [|split; [exact Hb | lia]].
    destruct a as [[] [] [] [] [] [] [] []]; try discriminate Ha; reflexivity.
Qed.

Lemma read_line_sep : forall a b c s, line_sep a b c = true ->
  read_chars ("\u202" ++ String (hex_digit (N.modulo (N_of_ascii c) 16)) s) =
  cons_to (String a (String b (String c ""))) (read_chars s).
Proof.
  intros a b c s H. unfold line_sep in H. apply andb_true_iff in H. destruct H as [H Hc].
  apply andb_true_iff in H. destruct H as [Ha Hb]. apply N.eqb_eq in Ha. apply N.eqb_eq in Hb.
  assert (Ea : a = ascii_of_N 226) by now rewrite <- Ha, ascii_N_embedding.
  assert (Eb : b = ascii_of_N 128) by now rewrite <- Hb, ascii_N_embedding.
  rewrite Ea, Eb. destruct c as [[] [] [] [] [] [] [] []]; try discriminate Hc; reflexivity.
Qed.

(** Strings that are UTF-8 are read back exactly. *)
Lemma read_escape : forall s, utf8 s -> forall rest,
  read_chars (escape s ++ String quote rest) = Some (s, rest).
Proof.
  intros s H. induction H as [|a s Ha H IH|a b s Ha Hb H IH|a b c s Hab Hc H IH|a b c d s Hab Hc Hd H IH]; intros rest.
  - reflexivity.
  - cbn [escape]. assert (E : N.ltb (N_of_ascii a) 128 = true).
    { unfold rng, code_of in Ha. apply andb_true_iff in Ha. destruct Ha as [_ Ha]. apply N.leb_le in Ha. apply N.ltb_lt. lia. }
    rewrite E, append_assoc, read_escape_byte by assumption. now rewrite IH.
  - pose proof (lead_2 a Ha) as La. cbn [escape]. rewrite (lead_high _ _ La), La.
    change (byte_in 128 191 b) with (rng 128 191 b). rewrite Hb. cbn [negb].
    change ((String a (String b (escape s)) ++ String quote rest)) with (String a (String b (escape s ++ String quote rest))).
    rewrite read_high by exact (lead_high _ _ La).
    rewrite read_high by (apply (byte_high 128 191); [lia | exact Hb]).
    now rewrite IH.
  - destruct (lead_3 a b Hab) as [lo [hi [La [Lb Hlo]]]]. cbn [escape]. rewrite (lead_high _ _ La), La, Lb. cbn [negb].
    change (cont c) with (rng 128 191 c). rewrite Hc. cbn [negb]. destruct (line_sep a b c) eqn:E.
    + rewrite append_assoc.
      change (String (hex_digit (N_of_ascii c mod 16)) (escape s) ++ String quote rest) with
             (String (hex_digit (N_of_ascii c mod 16)) (escape s ++ String quote rest)).
      rewrite (read_line_sep a b c) by assumption. now rewrite IH.
    + change ((String a (String b (String c (escape s))) ++ String quote rest)) with
             (String a (String b (String c (escape s ++ String quote rest)))).
      rewrite read_high by exact (lead_high _ _ La).
      rewrite read_high by exact (byte_high lo hi b Hlo Lb).
      rewrite read_high by (apply (byte_high 128 191); [lia | exact Hc]).
      now rewrite IH.
  - destruct (lead_4 a b Hab) as [lo [hi [La [Lb Hlo]]]]. cbn [escape]. rewrite (lead_high _ _ La), La, Lb. cbn [negb].
    change (cont c) with (rng 128 191 c). change (cont d) with (rng 128 191 d). rewrite Hc, Hd. cbn [negb andb].
    change ((String a (String b (String c (String d (escape s)))) ++ String quote rest)) with
           (String a (String b (String c (String d (escape s ++ String quote rest))))).
    rewrite read_high by exact (lead_high _ _ La).
    rewrite read_high by exact (byte_high lo hi b Hlo Lb).
    rewrite read_high by (apply (byte_high 128 191); [lia | exact Hc]).
    rewrite read_high by (apply (byte_high 128 191); [lia | exact Hd]).
    now rewrite IH.
Qed.

(** ** Any bytes at all: the text is still a JSON string *)

Lemma read_replacement : forall s,
  read_chars (replacement ++ s) =
  cons_to (String (ascii_of_N 239) (String (ascii_of_N 191) (String (ascii_of_N 189) ""))) (read_chars s).
Proof. reflexivity. Qed.

Lemma read_escape_any : forall n s, (String.length s <= n)%nat -> forall rest,
  exists v, read_chars (escape s ++ String quote rest) = Some (v, rest).
Proof.
  induction n as [|n IH]; intros s Hn rest.
  - destruct s; [|cbn in Hn; lia]. exists "". reflexivity.
  - destruct s as [|c s1]; [exists ""; reflexivity|]. cbn [String.length] in Hn.
    assert (R : forall t, (String.length t <= n)%nat ->
              exists v, read_chars ((replacement ++ escape t) ++ String quote rest) = Some (v, rest)).
    { intros t Ht. rewrite append_assoc, read_replacement. destruct (IH t Ht rest) as [v ->]. eexists. reflexivity. }
    cbn [escape]. destruct (N.ltb (N_of_ascii c) 128) eqn:Ec.
    + rewrite append_assoc, read_escape_byte by assumption. destruct (IH s1 ltac:(lia) rest) as [v ->]. eexists. reflexivity.
    + destruct (lead c) as [[[more lo] hi]|] eqn:El; [|apply R; lia].
      destruct s1 as [|d s2]; [apply R; cbn; lia|]. cbn [String.length] in Hn.
      destruct (byte_in lo hi d) eqn:Ed; [|apply R; cbn; lia]. cbn [negb].
      assert (Hlo : (128 <= lo)%N).
      { destruct c as [[] [] [] [] [] [] [] []]; try discriminate El; cbv in El; injection El as <- <- <-; lia. }
      pose proof (byte_high lo hi d Hlo Ed) as Hd.
      destruct more as [|[|[|more]]].
      * exfalso. destruct c as [[] [] [] [] [] [] [] []]; discriminate El.
      * destruct (IH s2 ltac:(lia) rest) as [v Hv].
        change (String c (String d (escape s2)) ++ String quote rest) with (String c (String d (escape s2 ++ String quote rest))).
        rewrite !read_high by assumption. rewrite Hv. eexists. reflexivity.
      * destruct s2 as [|e s3]; [apply R; cbn; lia|]. cbn [String.length] in Hn.
        destruct (cont e) eqn:Ee; [|apply R; cbn; lia]. cbn [negb].
        destruct (IH s3 ltac:(lia) rest) as [v Hv]. destruct (line_sep c d e) eqn:Els.
        -- rewrite append_assoc.
           change (String (hex_digit (N_of_ascii e mod 16)) (escape s3) ++ String quote rest) with
                  (String (hex_digit (N_of_ascii e mod 16)) (escape s3 ++ String quote rest)).
           rewrite (read_line_sep c d e) by assumption. rewrite Hv. eexists. reflexivity.
        -- change (String c (String d (String e (escape s3))) ++ String quote rest) with
                  (String c (String d (String e (escape s3 ++ String quote rest)))).
           rewrite read_high by assumption. rewrite read_high by assumption.
           rewrite read_high by (apply (byte_high 128 191); [lia | exact Ee]). rewrite Hv. eexists. reflexivity.
      * destruct s2 as [|e s3]; [apply R; cbn; lia|]. destruct s3 as [|f s4]; [apply R; cbn; cbn in Hn; lia|].
        cbn [String.length] in Hn.
        destruct (cont e) eqn:Ee; [|apply R; cbn; lia]. destruct (cont f) eqn:Ef; [|apply R; cbn; lia]. cbn [negb andb].
        destruct (IH s4 ltac:(lia) rest) as [v Hv].
        change (String c (String d (String e (String f (escape s4)))) ++ String quote rest) with
               (String c (String d (String e (String f (escape s4 ++ String quote rest))))).
        rewrite read_high by assumption. rewrite read_high by assumption.
        rewrite read_high by (apply (byte_high 128 191); [lia | exact Ee]).
        rewrite read_high by (apply (byte_high 128 191); [lia | exact Ef]). rewrite Hv. eexists. reflexivity.
Qed.

(** ** Numbers *)

Fixpoint uval (acc : Z) (d : uint) : Z :=
  match d with
  | Nil => acc
  | D0 d => uval (acc * 10) d | D1 d => uval (acc * 10 + 1) d | D2 d => uval (acc * 10 + 2) d
  | D3 d => uval (acc * 10 + 3) d | D4 d => uval (acc * 10 + 4) d | D5 d => uval (acc * 10 + 5) d
  | D6 d => uval (acc * 10 + 6) d | D7 d => uval (acc * 10 + 7) d | D8 d => uval (acc * 10 + 8) d
  | D9 d => uval (acc * 10 + 9) d
  end.

Lemma read_digits_uint : forall d acc rest, starts_digit rest = false ->
  read_digits acc (NilEmpty.string_of_uint d ++ rest) = (uval acc d, rest).
Proof.
  induction d as [|d IH|d IH|d IH|d IH|d IH|d IH|d IH|d IH|d IH|d IH]; intros acc rest H;
    cbn [NilEmpty.string_of_uint uval append].
  - destruct rest as [|c r]; [reflexivity|]. cbn [read_digits]. cbn [starts_digit] in H. now rewrite H.
  - rewrite <- (IH (acc * 10)%Z rest H). cbn [read_digits]. cbn. f_equal. lia.
  - rewrite <- (IH (acc * 10 + 1)%Z rest H). reflexivity.
  - rewrite <- (IH (acc * 10 + 2)%Z rest H). reflexivity.
  - rewrite <- (IH (acc * 10 + 3)%Z rest H). reflexivity.
  - rewrite <- (IH (acc * 10 + 4)%Z rest H). reflexivity.
  - rewrite <- (IH (acc * 10 + 5)%Z rest H). reflexivity.
  - rewrite <- (IH (acc * 10 + 6)%Z rest H). reflexivity.
  - rewrite <- (IH (acc * 10 + 7)%Z rest H). reflexivity.
  - rewrite <- (IH (acc * 10 + 8)%Z rest H). reflexivity.
  - rewrite <- (IH (acc * 10 + 9)%Z rest H). reflexivity.
Qed.

Lemma uval_acc : forall d p, uval (Zpos p) d = Zpos (Pos.of_uint_acc d p).
Proof.
  induction d as [|d IH|d IH|d IH|d IH|d IH|d IH|d IH|d IH|d IH|d IH]; intros p; cbn [uval Pos.of_uint_acc];
    [reflexivity|..]; rewrite <- IH; f_equal; lia.
Qed.

Lemma uval_N : forall d, uval 0 d = Z.of_N (N.of_uint d).
Proof.
  unfold N.of_uint.
  induction d as [|d IH|d IH|d IH|d IH|d IH|d IH|d IH|d IH|d IH|d IH]; cbn [uval Pos.of_uint];
    [reflexivity | exact IH | ..]; apply (uval_acc d).
Qed.

Lemma read_itoa : forall n rest, starts_digit rest = false ->
  read_digits 0 (itoa n ++ rest) = (Z.of_N n, rest).
Proof.
  intros n rest H. unfold itoa.
  assert (E : exists d, NilZero.string_of_uint (N.to_uint n) = NilEmpty.string_of_uint d /\ N.of_uint d = n).
  { destruct (N.to_uint n) eqn:U.
    - exists (D0 Nil). split; [reflexivity|]. rewrite <- (DecimalN.Unsigned.of_to n), U. reflexivity.
    - exists (N.to_uint n). rewrite U. split; [reflexivity|]. rewrite <- U. apply DecimalN.Unsigned.of_to.
    - exists (N.to_uint n). rewrite U. split; [reflexivity|]. rewrite <- U. apply DecimalN.Unsigned.of_to.
    - exists (N.to_uint n). rewrite U. split; [reflexivity|]. rewrite <- U. apply DecimalN.Unsigned.of_to.
    - exists (N.to_uint n). rewrite U. split; [reflexivity|]. rewrite <- U. apply DecimalN.Unsigned.of_to.
    - exists (N.to_uint n). rewrite U. split; [reflexivity|]. rewrite <- U. apply DecimalN.Unsigned.of_to.
    - exists (N.to_uint n). rewrite U. split; [reflexivity|]. rewrite <- U. apply DecimalN.Unsigned.of_to.
    - exists (N.to_uint n). rewrite U. split; [reflexivity|]. rewrite <- U. apply DecimalN.Unsigned.of_to.
    - exists (N.to_uint n). rewrite U. split; [reflexivity|]. rewrite <- U. apply DecimalN.Unsigned.of_to.
    - exists (N.to_uint n). rewrite U. split; [reflexivity|]. rewrite <- U. apply DecimalN.Unsigned.of_to.
    - exists (N.to_uint n). rewrite U. split; [reflexivity|]. rewrite <- U. apply DecimalN.Unsigned.of_to. }
  destruct E as [d [-> <-]]. rewrite read_digits_uint by assumption. now rewrite uval_N.
Qed.

Lemma itoa_starts : forall n rest, exists c t, itoa n ++ rest = String c t /\
  (N.leb 48 (code_of c) && N.leb (code_of c) 57)%bool = true.
Proof.
  intros n rest. unfold itoa. destruct (N.to_uint n); cbn [NilZero.string_of_uint NilEmpty.string_of_uint append];
    eexists; eexists; split; reflexivity.
Qed.

Lemma read_value_int : forall z rest, starts_digit rest = false ->
  read_value (itoa_Z z ++ rest) = Some (JInt z, rest).
Proof.
  intros z rest H. unfold itoa_Z. destruct z as [|p|p].
  - destruct (itoa_starts (Z.to_N 0) rest) as [c [t [E D]]].
    pose proof (read_itoa (Z.to_N 0) rest H) as R. rewrite E in *. cbn [read_value starts_digit]. rewrite D.
    assert (is c 34 = false /\ is c 45 = false) as [-> ->].
    { unfold is. apply andb_true_iff in D. destruct D as [D1 D2]. apply N.leb_le in D1, D2.
      split; apply N.eqb_neq; lia. }
    now rewrite R.
  - destruct (itoa_starts (Z.to_N (Zpos p)) rest) as [c [t [E D]]].
    pose proof (read_itoa (Z.to_N (Zpos p)) rest H) as R. rewrite E in *. cbn [read_value starts_digit]. rewrite D.
    assert (is c 34 = false /\ is c 45 = false) as [-> ->].
    { unfold is. apply andb_true_iff in D. destruct D as [D1 D2]. apply N.leb_le in D1, D2.
      split; apply N.eqb_neq; lia. }
    rewrite R. reflexivity.
  - destruct (itoa_starts (Npos p) rest) as [c [t [E D]]].
    pose proof (read_itoa (Npos p) rest H) as R. rewrite append_assoc, E in *.
    change ("-" ++ String c t) with (String "-" (String c t)). cbn [read_value].
    change (is "-" 34) with false. change (is "-" 45) with true. cbn [starts_digit]. rewrite D.
    rewrite R. reflexivity.
Qed.

(** ** Objects *)

Lemma read_value_string : forall s v rest, read_chars (escape s ++ String quote rest) = Some (v, rest) ->
  read_value (json_string s ++ rest) = Some (JStr v, rest).
Proof.
  intros s v rest H. unfold json_string.
  change (String quote (escape s ++ String quote "") ++ rest) with (String quote ((escape s ++ String quote "") ++ rest)).
  cbn [read_value]. change (is quote 34) with true. rewrite append_assoc.
  change (String quote "" ++ rest) with (String quote rest). now rewrite H.
Qed.

Lemma read_string_key : forall s v rest, read_chars (escape s ++ String quote rest) = Some (v, rest) ->
  read_string (json_string s ++ rest) = Some (v, rest).
Proof.
  intros s v rest H. unfold json_string.
  change (String quote (escape s ++ String quote "") ++ rest) with (String quote ((escape s ++ String quote "") ++ rest)).
  cbn [read_string]. change (is quote 34) with true. rewrite append_assoc.
  change (String quote "" ++ rest) with (String quote rest). exact H.
Qed.

Lemma read_member_more : forall n k kt v vt s,
  (forall rest, read_string (kt ++ rest) = Some (k, rest)) ->
  read_value (vt ++ "," ++ s) = Some (v, "," ++ s) ->
  read_members (S n) (kt ++ ":" ++ vt ++ "," ++ s) =
  match read_members n s with Some ms => Some ((k, v) :: ms) | None => None end.
Proof.
  intros n k kt v vt s Hk Hv. cbn [read_members]. rewrite Hk. change (":" ++ vt ++ "," ++ s) with (String ":" (vt ++ "," ++ s)).
  cbn [expect]. change (is ":" 58) with true. cbn iota. rewrite Hv. reflexivity.
Qed.

Lemma read_member_last : forall n k kt v vt,
  (forall rest, read_string (kt ++ rest) = Some (k, rest)) ->
  read_value (vt ++ "}") = Some (v, "}") ->
  read_members (S n) (kt ++ ":" ++ vt ++ "}") = Some [(k, v)].
Proof.
  intros n k kt v vt Hk Hv. cbn [read_members]. rewrite Hk. change (":" ++ vt ++ "}") with (String ":" (vt ++ "}")).
  cbn [expect]. change (is ":" 58) with true. cbn iota. rewrite Hv. reflexivity.
Qed.

Lemma read_members_more_fuel : forall n m s ms, (n <= m)%nat -> read_members n s = Some ms -> read_members m s = Some ms.
Proof.
  induction n as [|n IH]; intros m s ms Hm H; [discriminate|].
  destruct m as [|m]; [lia|]. cbn [read_members] in *.
  destruct (read_string s) as [[k s1]|]; [|discriminate]. destruct (expect 58 s1) as [s2|]; [|discriminate].
  destruct (read_value s2) as [[v s3]|]; [|discriminate]. destruct (expect 44 s3) as [s4|]; [|assumption].
  destruct (read_members n s4) as [ms4|] eqn:E; [|discriminate]. now rewrite (IH m s4 ms4) by (assumption || lia).
Qed.

(** Readings of the text of a string value. *)
Definition reads_as (s v : string) : Prop := forall rest, read_chars (escape s ++ String quote rest) = Some (v, rest).

Lemma reads_utf8 : forall s, utf8 s -> reads_as s s.
Proof. intros s H rest. now apply read_escape. Qed.

Lemma reads_exists : forall s, exists v, reads_as s v.
Proof.
  intros s. destruct (read_escape_any (String.length s) s (le_n _) "") as [v Hv]. exists v. intros rest.
  (* the value does not depend on what follows *)
  destruct (read_escape_any (String.length s) s (le_n _) rest) as [v' Hv'].
  assert (G : forall n t w u, (String.length t <= n)%nat -> read_chars t = Some (w, u) ->
              forall x, read_chars (t ++ x) = Some (w, u ++ x)).
  { clear. induction n as [|n IH]; intros t w u Hn H x.
    - destruct t; [discriminate | cbn in Hn; lia].
    - destruct t as [|c t1]; [discriminate|]. cbn [String.length] in Hn.
      change (String c t1 ++ x) with (String c (t1 ++ x)). cbn [read_chars] in *.
      destruct (is c 34); [now injection H as <- <-|]. destruct (N.ltb (code_of c) 32); [discriminate|].
      assert (C : forall p t', (String.length t' <= n)%nat -> cons_to p (read_chars t') = Some (w, u) ->
                  cons_to p (read_chars (t' ++ x)) = Some (w, u ++ x)).
      { intros p t' Ht' Hc. destruct (read_chars t') as [[w' u']|] eqn:E; [|discriminate].
        cbn [cons_to] in Hc. injection Hc as <- <-. now rewrite (IH t' w' u' Ht' E x). }
      destruct (negb (is c 92)); [apply C; [lia | exact H]|].
      destruct t1 as [|e t2]; [discriminate|]. cbn [String.length] in Hn.
      change (String e t2 ++ x) with (String e (t2 ++ x)). cbv beta iota zeta in H |- *.
      destruct (is e 34); [apply C; [lia | exact H]|]. destruct (is e 92); [apply C; [lia | exact H]|].
      destruct (is e 47); [apply C; [lia | exact H]|]. destruct (is e 98); [apply C; [lia | exact H]|].
      destruct (is e 102); [apply C; [lia | exact H]|]. destruct (is e 110); [apply C; [lia | exact H]|].
      destruct (is e 114); [apply C; [lia | exact H]|]. destruct (is e 116); [apply C; [lia | exact H]|].
      destruct (is e 117); [|discriminate].
      destruct t2 as [|h1 [|h2 [|h3 [|h4 t3]]]]; try discriminate. cbn [String.length] in Hn. cbn [append].
      destruct (hex_val h1) as [a|]; [|discriminate]. destruct (hex_val h2) as [b|]; [|discriminate].
      destruct (hex_val h3) as [d|]; [|discriminate]. destruct (hex_val h4) as [f|]; [|discriminate].
      destruct (utf8_encode _) as [p|]; [|discriminate]. apply C; [lia | exact H]. }
  pose proof (G _ _ _ _ (le_n _) Hv rest) as H. rewrite append_assoc in H.
  change (String quote "" ++ rest) with (String quote rest) in H. exact H.
Qed.

Lemma key_reads : forall k, utf8 k -> forall rest, read_string (json_string k ++ rest) = Some (k, rest).
Proof. intros k H rest. apply read_string_key. now apply read_escape. Qed.

Ltac ascii_utf8 := repeat (apply utf8_1; [reflexivity|]); apply utf8_nil.

Lemma first_key_reads : forall rest, read_string (("""j8a""") ++ rest) = Some ("j8a", rest).
Proof. reflexivity. Qed.

Lemma about_json_text : forall g i v, about_json g i v =
  "{" ++ """j8a""" ++ ":" ++ json_string g ++ "," ++ json_string "ServerID" ++ ":" ++ json_string i ++ "," ++
  json_string "Version" ++ ":" ++ json_string v ++ "}".
Proof.
  intros g i v. unfold about_json, json_field. cbn [join]. rewrite !append_assoc. reflexivity.
Qed.

Lemma status_json_text : forall g i v c m, status_json g i v c m =
  "{" ++ """j8a""" ++ ":" ++ json_string g ++ "," ++ json_string "ServerID" ++ ":" ++ json_string i ++ "," ++
  json_string "Version" ++ ":" ++ json_string v ++ "," ++ json_string "Code" ++ ":" ++ itoa_Z c ++ "," ++
  json_string "Message" ++ ":" ++ json_string m ++ "}".
Proof.
  intros g i v c m. unfold status_json, json_field. cbn [join]. rewrite !append_assoc. reflexivity.
Qed.

Lemma about_reads : forall g i v g' i' v', reads_as g g' -> reads_as i i' -> reads_as v v' ->
  read_object (about_json g i v) = Some [("j8a", JStr g'); ("ServerID", JStr i'); ("Version", JStr v')].
Proof.
  intros g i v g' i' v' Hg Hi Hv. rewrite about_json_text. unfold read_object.
  match goal with |- context [expect 123 ("{" ++ ?x)] => change (expect 123 ("{" ++ x)) with (Some x) end.
  cbn iota. apply (read_members_more_fuel 3).
  - rewrite !length_append. unfold json_string. cbn [String.length]. rewrite !length_append. cbn [String.length]. lia.
  - rewrite (read_member_more 2 "j8a" _ (JStr g')); [|exact first_key_reads | apply read_value_string, Hg].
    rewrite (read_member_more 1 "ServerID" _ (JStr i')); [|apply key_reads; ascii_utf8 | apply read_value_string, Hi].
    rewrite (read_member_last 0 "Version" _ (JStr v')); [|apply key_reads; ascii_utf8 | apply read_value_string, Hv].
    reflexivity.
Qed.

Lemma status_reads : forall g i v c m g' i' v' m', reads_as g g' -> reads_as i i' -> reads_as v v' -> reads_as m m' ->
  read_object (status_json g i v c m) =
  Some [("j8a", JStr g'); ("ServerID", JStr i'); ("Version", JStr v'); ("Code", JInt c); ("Message", JStr m')].
Proof.
  intros g i v c m g' i' v' m' Hg Hi Hv Hm. rewrite status_json_text. unfold read_object.
  match goal with |- context [expect 123 ("{" ++ ?x)] => change (expect 123 ("{" ++ x)) with (Some x) end.
  cbn iota. apply (read_members_more_fuel 5).
  - rewrite !length_append. unfold json_string. cbn [String.length]. rewrite !length_append. cbn [String.length]. lia.
  - rewrite (read_member_more 4 "j8a" _ (JStr g')); [|exact first_key_reads | apply read_value_string, Hg].
    rewrite (read_member_more 3 "ServerID" _ (JStr i')); [|apply key_reads; ascii_utf8 | apply read_value_string, Hi].
    rewrite (read_member_more 2 "Version" _ (JStr v')); [|apply key_reads; ascii_utf8 | apply read_value_string, Hv].
    rewrite (read_member_more 1 "Code" _ (JInt c)); [|apply key_reads; ascii_utf8 | now apply read_value_int].
    rewrite (read_member_last 0 "Message" _ (JStr m')); [|apply key_reads; ascii_utf8 | apply read_value_string, Hm].
    reflexivity.
Qed.

Lemma status_faithful : forall g i v c m, utf8 g -> utf8 i -> utf8 v -> utf8 m ->
  read_object (status_json g i v c m) =
  Some [("j8a", JStr g); ("ServerID", JStr i); ("Version", JStr v); ("Code", JInt c); ("Message", JStr m)].
Proof. intros. apply status_reads; now apply reads_utf8. Qed.

Lemma about_faithful : forall g i v, utf8 g -> utf8 i -> utf8 v ->
  read_object (about_json g i v) = Some [("j8a", JStr g); ("ServerID", JStr i); ("Version", JStr v)].
Proof. intros. apply about_reads; now apply reads_utf8. Qed.

Lemma status_well_formed : forall g i v c m, exists g' i' v' m',
  read_object (status_json g i v c m) =
  Some [("j8a", JStr g'); ("ServerID", JStr i'); ("Version", JStr v'); ("Code", JInt c); ("Message", JStr m')] /\
  (utf8 g -> g' = g) /\ (utf8 i -> i' = i) /\ (utf8 v -> v' = v) /\ (utf8 m -> m' = m).
Proof.
  intros g i v c m. destruct (reads_exists g) as [g' Hg]. destruct (reads_exists i) as [i' Hi].
  destruct (reads_exists v) as [v' Hv]. destruct (reads_exists m) as [m' Hm].
  assert (U : forall s s', reads_as s s' -> utf8 s -> s' = s).
  { intros s s' H H8. specialize (H ""). pose proof (read_escape s H8 "") as H'. congruence. }
  exists g', i', v', m'. split; [now apply status_reads|]. repeat split; now apply U.
Qed.

Definition bad_byte : string := String (ascii_of_N 255) "".

Lemma not_utf8_lost :
  read_object (about_json "Chuba!" "unknown" bad_byte) =
  Some [("j8a", JStr "Chuba!"); ("ServerID", JStr "unknown");
        ("Version", JStr (String (ascii_of_N 239) (String (ascii_of_N 191) (String (ascii_of_N 189) ""))))].
Proof. vm_compute. reflexivity. Qed.

(** ** The message table *)

Lemma with_code_spec : forall code m,
  (In (code, m) http_responses -> with_code code = m) /\
  ((forall m', ~ In (code, m') http_responses) -> with_code code = "unspecified response code").
Proof.
  intros code m. unfold with_code. split.
  - intros H. assert (D : forall l : list (Z * string), NoDup (map fst l) -> In (code, m) l ->
      find (fun e => Z.eqb (fst e) code) l = Some (code, m)).
    { induction l as [|[k x] l IH]; intros Hn Hi; [destruct Hi|]. cbn [find fst]. cbn [map fst] in Hn. apply NoDup_cons_iff in Hn.
      destruct Hi as [Hi|Hi].
      - injection Hi as -> ->. now rewrite Z.eqb_refl.
      - destruct (Z.eqb_spec k code) as [->|]; [|now apply IH].
        exfalso. apply (proj1 Hn). now apply (in_map fst) in Hi. }
    rewrite D; [reflexivity | | assumption].
    assert (E : map fst http_responses = nodup Z.eq_dec (map fst http_responses)) by (vm_compute; reflexivity).
    rewrite E. apply NoDup_nodup.
  - intros H. destruct (find _ _) as [[k x]|] eqn:E; [|reflexivity]. apply find_some in E. destruct E as [E1 E2].
    cbn [fst] in E2. apply Z.eqb_eq in E2. subst k. now apply H in E1.
Qed.

Lemma huttese_in : forall dice, In (random_huttese dice) huttese.
Proof. intros dice. unfold random_huttese. apply nth_In. apply Nat.mod_upper_bound. discriminate. Qed.

Lemma huttese_utf8 : forall dice, utf8 (random_huttese dice).
Proof.
  intros dice. pose proof (huttese_in dice) as H. destruct H as [H|[H|[H|[H|[H|[H|[H|[]]]]]]]]; rewrite <- H; ascii_utf8.
Qed.

Lemma registered_phrase : forall code phrase, In (code, phrase) iana -> equal_fold (with_code code) phrase = true.
Proof.
  assert (F : forallb (fun e => equal_fold (with_code (fst e)) (snd e)) iana = true) by (vm_compute; reflexivity).
  rewrite forallb_forall in F. intros code phrase H. exact (F _ H).
Qed.

Lemma unknown_code : forall code, ~ In code (map fst iana) -> ~ In code informal ->
  with_code code = "unspecified response code".
Proof.
  intros code H1 H2. apply (proj2 (with_code_spec code "")). intros m Hm.
  assert (F : forallb (fun e => existsb (Z.eqb (fst e)) (map fst iana ++ informal)%list) http_responses = true)
    by (vm_compute; reflexivity).
  rewrite forallb_forall in F. specialize (F _ Hm). cbn [fst] in F. apply existsb_exists in F.
  destruct F as [x [Hx Hxc]]. apply Z.eqb_eq in Hxc. subst x. apply in_app_or in Hx. tauto.
Qed.

Lemma bytes_lost : exists v,
  read_object (about_json "Chuba!" "unknown" v) <>
  Some [("j8a", JStr "Chuba!"); ("ServerID", JStr "unknown"); ("Version", JStr v)].
Proof. exists bad_byte. rewrite not_utf8_lost. discriminate. Qed.
