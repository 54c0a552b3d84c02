(** UTF-8: the bytes that encode_rune gives and the reader accepts, and the code points of KidSpec. *)
From Coq Require Import String Ascii List Bool ZArith NArith Lia Arith.
From Verif Require Import GoStr Json Kid KidSpec.
Import ListNotations.
Local Open Scope string_scope.

Lemma app_assoc_s : forall a b c : string, (a ++ b) ++ c = a ++ b ++ c.
Proof. induction a as [|x a IH]; intros b c; [reflexivity|]. cbn [append]. now rewrite IH. Qed.

(** * Characters *)

Lemma lead_cases : forall c m lo hi, lead c = Some (m, lo, hi) ->
  (m = 1 /\ within 194 223 c /\ lo = 128%N /\ hi = 191%N) \/
  (m = 2 /\ ((within 224 224 c /\ lo = 160%N /\ hi = 191%N) \/ ((within 225 236 c \/ within 238 239 c) /\ lo = 128%N /\ hi = 191%N) \/ (within 237 237 c /\ lo = 128%N /\ hi = 159%N))) \/
  (m = 3 /\ ((within 240 240 c /\ lo = 144%N /\ hi = 191%N) \/ (within 241 243 c /\ lo = 128%N /\ hi = 191%N) \/ (within 244 244 c /\ lo = 128%N /\ hi = 143%N))).
Proof.
  intros c m lo hi. unfold lead, N_in, within. set (n := N_of_ascii c).
  repeat match goal with
  | |- context[if ?b then _ else _] =>
      let E := fresh "E" in destruct b eqn:E; rewrite ?orb_true_iff, ?andb_true_iff, ?N.leb_le, ?N.eqb_eq in E
  end; intros H; try discriminate H; injection H as <- <- <-; tauto || (try (left; lia)); right; try (left; lia); try (right; lia).
Qed.

Ltac lead_solve :=
  repeat match goal with
  | |- context[if ?b then _ else _] =>
      let E := fresh "E" in destruct b eqn:E;
      [rewrite ?orb_true_iff, ?andb_true_iff, ?N.leb_le, ?N.eqb_eq in E; try lia
      |rewrite ?orb_false_iff, ?andb_false_iff, ?N.leb_gt, ?N.eqb_neq in E; try lia]
  end.

Lemma lead_2 : forall a, within 194 223 a -> lead a = Some (1, 128%N, 191%N).
Proof. intros a H. unfold lead, N_in, within in *. set (n := N_of_ascii a) in *. lead_solve. reflexivity. Qed.

Lemma in_bytes : forall lo hi b, within lo hi b -> byte_in lo hi b = true.
Proof. intros lo hi b H. unfold byte_in, N_in, within in *. apply andb_true_iff. now rewrite !N.leb_le. Qed.
Lemma of_bytes : forall lo hi b, byte_in lo hi b = true -> within lo hi b.
Proof. intros lo hi b H. unfold byte_in, N_in, within in *. apply andb_true_iff in H. now rewrite !N.leb_le in H. Qed.

Lemma lead_3 : forall a b,
  (within 224 224 a /\ within 160 191 b) \/ ((within 225 236 a \/ within 238 239 a) /\ within 128 191 b) \/ (within 237 237 a /\ within 128 159 b) ->
  exists lo hi, lead a = Some (2, lo, hi) /\ byte_in lo hi b = true.
Proof.
  intros a b H. unfold lead, N_in.
  destruct H as [[H1 H2]|[[H1 H2]|[H1 H2]]]; apply in_bytes in H2; eexists; eexists; (split; [|exact H2]); unfold within in H1;
    set (n := N_of_ascii a) in *; lead_solve; reflexivity.
Qed.

Lemma lead_4 : forall a b,
  (within 240 240 a /\ within 144 191 b) \/ (within 241 243 a /\ within 128 191 b) \/ (within 244 244 a /\ within 128 143 b) ->
  exists lo hi, lead a = Some (3, lo, hi) /\ byte_in lo hi b = true.
Proof.
  intros a b H. unfold lead, N_in.
  destruct H as [[H1 H2]|[[H1 H2]|[H1 H2]]]; apply in_bytes in H2; eexists; eexists; (split; [|exact H2]); unfold within in H1;
    set (n := N_of_ascii a) in *; lead_solve; reflexivity.
Qed.

Lemma quote_code : forall c, Ascii.eqb c quote = true <-> N_of_ascii c = 34%N.
Proof.
  intros c. rewrite Ascii.eqb_eq. split; [intros ->; reflexivity|]. intros H. rewrite <- (ascii_N_embedding c), H. reflexivity.
Qed.
Lemma code_eqb : forall c d, N_of_ascii c <> N_of_ascii d -> Ascii.eqb c d = false.
Proof. intros c d H. apply Ascii.eqb_neq. intros ->. now apply H. Qed.

Lemma above : forall c d, (N_of_ascii d < 128)%N -> (128 <= N_of_ascii c)%N -> Ascii.eqb c d = false.
Proof. intros c d H1 H2. apply code_eqb. lia. Qed.

(** One step of the reader *)
Definition read_step (c : ascii) (s1 : string) : option (string * string) :=
      if Ascii.eqb c quote then Some ("", s1)
      else if N.ltb (N_of_ascii c) 32 then None
      else if Ascii.eqb c backslash then
        match s1 with
        | EmptyString => None
        | String e s2 =>
            if Ascii.eqb e "u" then
              match s2 with
              | String h1 (String h2 (String h3 (String h4 s3))) =>
                  match hex4 h1 h2 h3 h4 with
                  | None => None
                  | Some u =>
                      if N_in 55296 57343 u then
                        match s3 with
                        | String b (String v (String g1 (String g2 (String g3 (String g4 s4))))) =>
                            match Ascii.eqb b backslash && Ascii.eqb v "u", hex4 g1 g2 g3 g4 with
                            | true, Some w =>
                                if N.ltb u 56320 && N_in 56320 57343 w
                                then push (encode_rune ((u - 55296) * 1024 + (w - 56320) + 65536)%N) (read_chars s4)
                                else push replaced (read_chars s3)
                            | _, _ => push replaced (read_chars s3)
                            end
                        | _ => push replaced (read_chars s3)
                        end
                      else push (encode_rune u) (read_chars s3)
                  end
              | _ => None
              end
            else match short_escape e with Some x => push (String x "") (read_chars s2) | None => None end
        end
      else if N.ltb (N_of_ascii c) 128 then push (String c "") (read_chars s1)
      else match lead c with
           | None => push replaced (read_chars s1)
           | Some (more, lo, hi) =>
               match s1 with
               | EmptyString => None
               | String d s2 =>
                   if negb (byte_in lo hi d) then push replaced (read_chars s1)
                   else match more, s2 with
                        | 1, _ => push (String c (String d "")) (read_chars s2)
                        | _, EmptyString => None
                        | 2, String e s3 =>
                            if negb (cont e) then push replaced (read_chars s1)
                            else push (String c (String d (String e ""))) (read_chars s3)
                        | _, String e s3 =>
                            if negb (cont e) then push replaced (read_chars s1)
                            else match s3 with
                                 | EmptyString => None
                                 | String f s4 =>
                                     if negb (cont f) then push replaced (read_chars s1)
                                     else push (String c (String d (String e (String f "")))) (read_chars s4)
                                 end
                        end
               end
           end.

Lemma read_cons : forall c s, read_chars (String c s) = read_step c s.
Proof. reflexivity. Qed.

(** One step of the reader over a character of two to four bytes *)
Lemma read_multi : forall u n s, code_point u n -> (128 <= n)%N -> (exists a w, u = String a w /\ (128 <= N_of_ascii a)%N) ->
  read_chars (u ++ s) = push u (read_chars s).
Proof.
  intros u n s H Hn (a0 & w0 & U & Ha0). destruct H as [a W|a b W1 W2|a b c W1 W2|a b c d W1 W2 W3]; injection U as <- <-.
  - unfold within in W. lia.
  - cbn [append]. rewrite read_cons. unfold read_step. rewrite (above a quote), (above a backslash) by (try exact Ha0; reflexivity).
    destruct (N.ltb_spec (N_of_ascii a) 32); [lia|]. destruct (N.ltb_spec (N_of_ascii a) 128); [lia|].
    rewrite (lead_2 a W1). rewrite (in_bytes _ _ _ W2). reflexivity.
  - cbn [append]. rewrite read_cons. unfold read_step. rewrite (above a quote), (above a backslash) by (try exact Ha0; reflexivity).
    destruct (N.ltb_spec (N_of_ascii a) 32); [lia|]. destruct (N.ltb_spec (N_of_ascii a) 128); [lia|].
    destruct (lead_3 a b W1) as (lo & hi & -> & ->). cbn [negb]. unfold cont. rewrite (in_bytes _ _ _ W2). reflexivity.
  - cbn [append]. rewrite read_cons. unfold read_step. rewrite (above a quote), (above a backslash) by (try exact Ha0; reflexivity).
    destruct (N.ltb_spec (N_of_ascii a) 32); [lia|]. destruct (N.ltb_spec (N_of_ascii a) 128); [lia|].
    destruct (lead_4 a b W1) as (lo & hi & -> & ->). cbn [negb]. unfold cont. rewrite (in_bytes _ _ _ W2). cbn [negb].
    rewrite (in_bytes _ _ _ W3). reflexivity.
Qed.

(** UTF-8 encoding *)

Lemma div_is : forall x q r k : N, (x = k * q + r)%N -> (r < k)%N -> (x / k = q)%N /\ (x mod k = r)%N.
Proof.
  intros x q r k H1 H2. split; [symmetry; apply N.div_unique with r; assumption|symmetry; apply N.mod_unique with q; assumption].
Qed.

Lemma ascii_of : forall a n, n = N_of_ascii a -> ascii_of_N n = a.
Proof. intros a n ->. apply ascii_N_embedding. Qed.

Lemma encode_is : forall u n, code_point u n -> encode_rune n = u.
Proof.
  intros u n H. destruct H as [a W|a b W1 W2|a b c W1 W2|a b c d W1 W2 W3]; unfold encode_rune; unfold within in *.
  - destruct (N.ltb_spec (N_of_ascii a) 128); [|lia]. now rewrite ascii_N_embedding.
  - set (x := (N_of_ascii a - 192)%N). set (y := (N_of_ascii b - 128)%N).
    destruct (N.ltb_spec (x * 64 + y) 128); [lia|]. destruct (N.ltb_spec (x * 64 + y) 2048); [|lia].
    destruct (div_is (x * 64 + y) x y 64) as [-> ->]; [lia|lia|].
    rewrite (ascii_of a), (ascii_of b) by lia. reflexivity.
  - set (x := (N_of_ascii a - 224)%N) in *. set (y := (N_of_ascii b - 128)%N) in *. set (z := (N_of_ascii c - 128)%N) in *.
    assert (Hx : (x <= 15)%N) by lia. assert (Hy : (y < 64)%N) by lia. assert (Hz : (z < 64)%N) by lia.
    assert (Hlow : (32 <= x * 64 + y)%N) by lia.
    set (n := ((x * 64 + y) * 64 + z)%N).
    destruct (N.ltb_spec n 128); [lia|]. destruct (N.ltb_spec n 2048); [lia|]. destruct (N.ltb_spec n 65536); [|lia].
    destruct (div_is n (x * 64 + y) z 64) as [-> ->]; [lia|lia|].
    destruct (div_is n x (y * 64 + z) 4096) as [-> _]; [lia|lia|].
    destruct (div_is (x * 64 + y) x y 64) as [_ ->]; [lia|lia|].
    rewrite (ascii_of a), (ascii_of b), (ascii_of c) by lia. reflexivity.
  - set (x := (N_of_ascii a - 240)%N) in *. set (y := (N_of_ascii b - 128)%N) in *. set (z := (N_of_ascii c - 128)%N) in *. set (w := (N_of_ascii d - 128)%N) in *.
    assert (Hx : (x <= 4)%N) by lia. assert (Hy : (y < 64)%N) by lia. assert (Hz : (z < 64)%N) by lia. assert (Hw : (w < 64)%N) by lia.
    assert (Hlow : (16 <= x * 64 + y)%N) by lia.
    set (n := (((x * 64 + y) * 64 + z) * 64 + w)%N).
    destruct (N.ltb_spec n 128); [lia|]. destruct (N.ltb_spec n 2048); [lia|]. destruct (N.ltb_spec n 65536); [lia|].
    destruct (div_is n ((x * 64 + y) * 64 + z) w 64) as [-> ->]; [lia|lia|].
    destruct (div_is n (x * 64 + y) (z * 64 + w) 4096) as [-> _]; [lia|lia|].
    destruct (div_is n x ((y * 64 + z) * 64 + w) 262144) as [-> _]; [lia|lia|].
    destruct (div_is (x * 64 + y) x y 64) as [_ ->]; [lia|lia|].
    destruct (div_is ((x * 64 + y) * 64 + z) (x * 64 + y) z 64) as [_ ->]; [lia|lia|].
    rewrite (ascii_of a), (ascii_of b), (ascii_of c), (ascii_of d) by lia. reflexivity.
Qed.

Lemma code_of : forall n, (n < 256)%N -> N_of_ascii (ascii_of_N n) = n.
Proof. exact N_ascii_embedding. Qed.

Lemma encode_point : forall n, (n < 1114112)%N -> ~ (55296 <= n <= 57343)%N -> code_point (encode_rune n) n.
Proof.
  intros n H1 H2. unfold encode_rune.
  destruct (N.ltb_spec n 128) as [L|L].
  - rewrite <- (code_of n) at 2 by lia. constructor. unfold within. rewrite code_of by lia. lia.
  - destruct (N.ltb_spec n 2048) as [L2|L2].
    + pose proof (N.div_mod n 64 ltac:(lia)) as E. pose proof (N.mod_lt n 64 ltac:(lia)) as M.
      set (x := (n / 64)%N) in *. set (y := (n mod 64)%N) in *. clearbody x y.
      assert (G : code_point (String (ascii_of_N (192 + x)) (String (ascii_of_N (128 + y)) ""))
         ((N_of_ascii (ascii_of_N (192 + x)) - 192) * 64 + (N_of_ascii (ascii_of_N (128 + y)) - 128))).
      { constructor; unfold within; rewrite code_of by lia; lia. }
      rewrite !code_of in G by lia. replace n with ((192 + x - 192) * 64 + (128 + y - 128))%N by lia. exact G.
    + destruct (N.ltb_spec n 65536) as [L3|L3].
      * pose proof (N.div_mod n 64 ltac:(lia)) as E. pose proof (N.mod_lt n 64 ltac:(lia)) as M.
        assert (D : (n / 4096 = n / 64 / 64)%N) by (rewrite N.div_div by lia; reflexivity). rewrite D.
        set (q := (n / 64)%N) in *. set (z := (n mod 64)%N) in *.
        pose proof (N.div_mod q 64 ltac:(lia)) as E2. pose proof (N.mod_lt q 64 ltac:(lia)) as M2.
        set (x := (q / 64)%N) in *. set (y := (q mod 64)%N) in *. clearbody x y z q.
        assert (G : code_point (String (ascii_of_N (224 + x)) (String (ascii_of_N (128 + y)) (String (ascii_of_N (128 + z)) "")))
           (((N_of_ascii (ascii_of_N (224 + x)) - 224) * 64 + (N_of_ascii (ascii_of_N (128 + y)) - 128)) * 64 + (N_of_ascii (ascii_of_N (128 + z)) - 128))).
        { constructor; unfold within; rewrite !code_of by lia; lia. }
        rewrite !code_of in G by lia.
        replace n with (((224 + x - 224) * 64 + (128 + y - 128)) * 64 + (128 + z - 128))%N by lia. exact G.
      * pose proof (N.div_mod n 64 ltac:(lia)) as E. pose proof (N.mod_lt n 64 ltac:(lia)) as M.
        assert (D : (n / 4096 = n / 64 / 64)%N) by (rewrite N.div_div by lia; reflexivity). rewrite D.
        assert (D2 : (n / 262144 = n / 64 / 64 / 64)%N) by (rewrite !N.div_div by lia; reflexivity). rewrite D2. clear D D2.
        set (q := (n / 64)%N) in *. set (w := (n mod 64)%N) in *.
        pose proof (N.div_mod q 64 ltac:(lia)) as E2. pose proof (N.mod_lt q 64 ltac:(lia)) as M2.
        set (p := (q / 64)%N) in *. set (z := (q mod 64)%N) in *.
        pose proof (N.div_mod p 64 ltac:(lia)) as E3. pose proof (N.mod_lt p 64 ltac:(lia)) as M3.
        set (x := (p / 64)%N) in *. set (y := (p mod 64)%N) in *. clearbody x y z w p q.
        assert (G : code_point (String (ascii_of_N (240 + x)) (String (ascii_of_N (128 + y)) (String (ascii_of_N (128 + z)) (String (ascii_of_N (128 + w)) ""))))
           ((((N_of_ascii (ascii_of_N (240 + x)) - 240) * 64 + (N_of_ascii (ascii_of_N (128 + y)) - 128)) * 64 + (N_of_ascii (ascii_of_N (128 + z)) - 128)) * 64 + (N_of_ascii (ascii_of_N (128 + w)) - 128))).
        { constructor; unfold within; rewrite !code_of by lia; lia. }
        rewrite !code_of in G by lia.
        replace n with ((((240 + x - 240) * 64 + (128 + y - 128)) * 64 + (128 + z - 128)) * 64 + (128 + w - 128))%N by lia. exact G.
Qed.
