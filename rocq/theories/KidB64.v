(** base64url: b64_decode gives exactly the bytes of KidSpec. *)
From Coq Require Import String Ascii List Bool ZArith NArith Lia Arith.
From Verif Require Import GoStr Json Kid KidSpec.
Import ListNotations.
Local Open Scope string_scope.

(** * base64url *)

Lemma get_below : forall k c, String.get k alphabet = Some c -> k < 64.
Proof.
  intros k c. do 64 (destruct k as [|k]; [lia|]). cbn. destruct k; discriminate.
Qed.

Lemma sextet_get : forall k c, String.get k alphabet = Some c -> sextet c = Some (N.of_nat k).
Proof.
  intros k c. do 64 (destruct k as [|k]; [intro H; injection H as <-; reflexivity|]). cbn. destruct k; discriminate.
Qed.

Lemma get_sextet : forall c n, sextet c = Some n -> String.get (N.to_nat n) alphabet = Some c.
Proof.
  intros [[] [] [] [] [] [] [] []] n H; vm_compute in H; try discriminate H; injection H as <-; vm_compute; reflexivity.
Qed.

Lemma sextet_iff : forall c n, sextet c = Some n <-> String.get (N.to_nat n) alphabet = Some c.
Proof.
  intros c n. split; [apply get_sextet|]. intros H. apply sextet_get in H. now rewrite N2Nat.id in H.
Qed.

Definition reads (c : ascii) (n : N) : Prop := String.get (N.to_nat n) alphabet = Some c.

Lemma line_end : forall c, (N.eqb (N_of_ascii c) 10 || N.eqb (N_of_ascii c) 13)%bool = true -> sextet c = None.
Proof. intros [[] [] [] [] [] [] [] []] H; vm_compute in H; try discriminate H; reflexivity. Qed.

Lemma sextets_iff : forall s l, sextets s = Some l <-> Forall2 reads (list_ascii_of_string (on_one_line s)) l.
Proof.
  induction s as [|c s IH]; intros l.
  - cbn. split; [intros H; injection H as <-; constructor|intros H; inversion H; reflexivity].
  - cbn [sextets on_one_line]. destruct (N.eqb (N_of_ascii c) 10 || N.eqb (N_of_ascii c) 13)%bool eqn:E.
    + rewrite (line_end c E). apply IH.
    + cbn [list_ascii_of_string]. destruct (sextet c) as [n|] eqn:F.
      * split.
        -- destruct (sextets s) as [l'|]; [|discriminate]. intros H. injection H as <-. constructor; [now apply sextet_iff|now apply IH].
        -- intros H. inversion H as [|? m ? l' H1 H2]; subst. apply sextet_iff in H1. rewrite F in H1. injection H1 as ->.
           apply IH in H2. now rewrite H2.
      * split; [discriminate|]. intros H. inversion H as [|? m ? l' H1 H2]; subst. apply sextet_iff in H1. congruence.
Qed.

Lemma reads_below : forall c n, reads c n -> (n < 64)%N.
Proof. intros c n H. apply get_below in H. lia. Qed.

Fixpoint same_bits (a b : list bool) : bool :=
  match a, b with [], [] => true | x :: a', y :: b' => Bool.eqb x y && same_bits a' b' | _, _ => false end.
Lemma same_bits_eq : forall a b, same_bits a b = true -> a = b.
Proof.
  induction a as [|x a IH]; intros [|y b] H; cbn in H; try discriminate; [reflexivity|].
  apply andb_prop in H as [H1 H2]. apply eqb_prop in H1 as ->. now rewrite (IH b H2).
Qed.

Definition small : list N := map N.of_nat (seq 0 64).
Lemma in_small : forall n, (n < 64)%N -> In n small.
Proof. intros n H. apply in_map_iff. exists (N.to_nat n). split; [lia|]. apply in_seq. lia. Qed.

Lemma two_of : forall f : N -> N -> bool, forallb (fun a => forallb (f a) small) small = true ->
  forall a b, (a < 64)%N -> (b < 64)%N -> f a b = true.
Proof.
  intros f H a b Ha Hb. rewrite forallb_forall in H. specialize (H a (in_small a Ha)). rewrite forallb_forall in H. exact (H b (in_small b Hb)).
Qed.

Lemma byte1 : forall a b, (a < 64)%N -> (b < 64)%N -> bits 8 (N_of_ascii (ascii_of_N (a * 4 + b / 16))) = (bits 6 a ++ firstn 2 (bits 6 b))%list.
Proof.
  intros a b Ha Hb. apply same_bits_eq.
  apply (two_of (fun a b => same_bits (bits 8 (N_of_ascii (ascii_of_N (a * 4 + b / 16)))) (bits 6 a ++ firstn 2 (bits 6 b)))); try assumption.
  vm_compute. reflexivity.
Qed.
Lemma byte2 : forall b c, (b < 64)%N -> (c < 64)%N ->
  bits 8 (N_of_ascii (ascii_of_N (b mod 16 * 16 + c / 4))) = (skipn 2 (bits 6 b) ++ firstn 4 (bits 6 c))%list.
Proof.
  intros a b Ha Hb. apply same_bits_eq.
  apply (two_of (fun b c => same_bits (bits 8 (N_of_ascii (ascii_of_N (b mod 16 * 16 + c / 4)))) (skipn 2 (bits 6 b) ++ firstn 4 (bits 6 c)))); try assumption.
  vm_compute. reflexivity.
Qed.
Lemma byte3 : forall c d, (c < 64)%N -> (d < 64)%N -> bits 8 (N_of_ascii (ascii_of_N (c mod 4 * 64 + d))) = (skipn 4 (bits 6 c) ++ bits 6 d)%list.
Proof.
  intros a b Ha Hb. apply same_bits_eq.
  apply (two_of (fun c d => same_bits (bits 8 (N_of_ascii (ascii_of_N (c mod 4 * 64 + d)))) (skipn 4 (bits 6 c) ++ bits 6 d))); try assumption.
  vm_compute. reflexivity.
Qed.

Lemma bits_length : forall w n, length (bits w n) = w.
Proof. induction w as [|w IH]; intros n; [reflexivity|]. cbn [bits]. rewrite app_length, IH. cbn. lia. Qed.

Definition bytes (s : string) : list N := map N_of_ascii (list_ascii_of_string s).

Lemma octets_sound : forall k l t, length l < k -> Forall (fun n => (n < 64)%N) l -> octets l = Some t ->
  exists junk, flat_map (bits 6) l = (flat_map (bits 8) (bytes t) ++ junk)%list /\ length junk < 6.
Proof.
  induction k as [|k IH]; intros l t Hk F H; [lia|].
  destruct l as [|a [|b [|c [|d l]]]].
  - injection H as <-. exists []. split; [reflexivity|cbn; lia].
  - discriminate.
  - injection H as <-. inversion F as [|? ? Ha F1]; subst. inversion F1 as [|? ? Hb F2]; subst.
    exists (skipn 2 (bits 6 b)). split; [|rewrite skipn_length, bits_length; lia].
    unfold bytes. cbn [list_ascii_of_string map flat_map]. rewrite byte1 by assumption. rewrite !app_nil_r, <- app_assoc, firstn_skipn. reflexivity.
  - injection H as <-. inversion F as [|? ? Ha F1]; subst. inversion F1 as [|? ? Hb F2]; subst. inversion F2 as [|? ? Hc F3]; subst.
    exists (skipn 4 (bits 6 c)). split; [|rewrite skipn_length, bits_length; lia].
    unfold bytes. cbn [list_ascii_of_string map flat_map]. rewrite byte1, byte2 by assumption. rewrite !app_nil_r.
    rewrite <- !app_assoc. rewrite firstn_skipn. rewrite (app_assoc (firstn 2 _)), firstn_skipn. reflexivity.
  - cbn [octets] in H. destruct (octets l) as [s|] eqn:E; [|discriminate]. injection H as <-.
    inversion F as [|? ? Ha F1]; subst. inversion F1 as [|? ? Hb F2]; subst. inversion F2 as [|? ? Hc F3]; subst. inversion F3 as [|? ? Hd F4]; subst.
    destruct (IH l s) as (junk & J1 & J2); [cbn in Hk; lia|exact F4|exact E|].
    exists junk. split; [|exact J2].
    unfold bytes. cbn [list_ascii_of_string map flat_map]. rewrite byte1, byte2, byte3 by assumption.
    fold (bytes s). rewrite <- !app_assoc. rewrite <- J1.
    rewrite (app_assoc (firstn 4 _)), firstn_skipn. rewrite (app_assoc (firstn 2 _)), firstn_skipn. reflexivity.
Qed.

Lemma octets_some : forall k l, length l < k -> (forall q, length l <> 4 * q + 1) -> exists t, octets l = Some t.
Proof.
  induction k as [|k IH]; intros l Hk H; [lia|].
  destruct l as [|a [|b [|c [|d l]]]].
  - now exists "".
  - exfalso. apply (H 0). reflexivity.
  - eexists. reflexivity.
  - eexists. reflexivity.
  - destruct (IH l) as [t E]; [cbn in Hk; lia| |].
    + intros q Q. apply (H (S q)). cbn [length]. lia.
    + cbn [octets]. rewrite E. eexists. reflexivity.
Qed.

Lemma flat_length : forall w l, length (flat_map (bits w) l) = w * length l.
Proof. induction l as [|n l IH]; [cbn; lia|]. cbn [flat_map length]. rewrite app_length, bits_length, IH. lia. Qed.

Definition of_bits (l : list bool) : ascii :=
  match l with [a; b; c; d; e; f; g; h] => Ascii h g f e d c b a | _ => zero end.
Lemma of_bits_bits : forall a, of_bits (bits 8 (N_of_ascii a)) = a.
Proof. intros [[] [] [] [] [] [] [] []]; vm_compute; reflexivity. Qed.

Lemma bits8_inj : forall a b : ascii, bits 8 (N_of_ascii a) = bits 8 (N_of_ascii b) -> a = b.
Proof. intros a b H. apply (f_equal of_bits) in H. now rewrite !of_bits_bits in H. Qed.

Lemma flat8_inj : forall s t j j', (flat_map (bits 8) (bytes s) ++ j = flat_map (bits 8) (bytes t) ++ j')%list -> length j < 6 -> length j' < 6 -> s = t.
Proof.
  induction s as [|a s IH]; intros t j j' H L1 L2.
  - destruct t as [|b t]; [reflexivity|]. apply (f_equal (@length bool)) in H. rewrite !app_length, !flat_length in H. cbn [bytes list_ascii_of_string map length] in H. lia.
  - destruct t as [|b t].
    + apply (f_equal (@length bool)) in H. rewrite !app_length, !flat_length in H. cbn [bytes list_ascii_of_string map length] in H. lia.
    + unfold bytes in H. cbn [list_ascii_of_string map flat_map] in H. rewrite <- !app_assoc in H.
      assert (E : bits 8 (N_of_ascii a) = bits 8 (N_of_ascii b)).
      { apply (f_equal (firstn 8)) in H. rewrite !firstn_app, !bits_length in H. rewrite !Nat.sub_diag, !firstn_O, !app_nil_r in H.
        rewrite !firstn_all2 in H by (rewrite bits_length; lia). exact H. }
      rewrite E in H. apply app_inv_head in H. apply bits8_inj in E as ->. now rewrite (IH t j j' H L1 L2).
Qed.

Lemma b64_iff : forall head text, b64_decode head = Some text <-> b64 (on_one_line head) text.
Proof.
  intros head text. unfold b64_decode. split.
  - destruct (sextets head) as [l|] eqn:E; [|discriminate]. intros H. apply sextets_iff in E.
    assert (F : Forall (fun n => (n < 64)%N) l).
    { clear H. induction E as [|c n cs ns H1 H2 IH]; constructor; [now apply reads_below in H1|exact IH]. }
    destruct (octets_sound (S (length l)) l text) as (junk & J1 & J2); [lia|exact F|exact H|].
    exists l, junk. split; [exact E|]. split; [exact J1|exact J2].
  - intros (ns & junk & H1 & H2 & H3).
    assert (E : sextets head = Some ns) by now apply sextets_iff.
    rewrite E.
    assert (F : Forall (fun n => (n < 64)%N) ns).
    { clear H2 E. induction H1 as [|c n cs ms H1 H2 IH]; constructor; [now apply reads_below in H1|exact IH]. }
    destruct (octets_some (S (length ns)) ns) as [t T]; [lia| |].
    + intros q Q. apply (f_equal (@length bool)) in H2. rewrite app_length, !flat_length in H2. lia.
    + rewrite T. destruct (octets_sound (S (length ns)) ns t) as (j' & J1 & J2); [lia|exact F|exact T|].
      rewrite J1 in H2. fold (bytes text) in H2. now rewrite (flat8_inj t text j' junk H2 J2 H3).
Qed.
