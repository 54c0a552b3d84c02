(** Proofs for Thm_Text. *)
From Coq Require Import String Ascii List Bool Arith NArith ZArith Lia.
From Verif Require Import GoStr Header HeaderSpec Json NumberSpec HeadProofs TextSpec.
Import ListNotations.
Local Open Scope string_scope.

Fixpoint idx (s : string) (c : ascii) : option nat :=
  match s with
  | EmptyString => None
  | String d s' => if Ascii.eqb d c then Some 0 else option_map S (idx s' c)
  end.

Lemma idx_some : forall s c i, idx s c = Some i -> at_index s i c.
Proof.
  unfold at_index. induction s as [|d s IH]; intros c i H; [discriminate H|]. cbn [idx] in H. destruct (Ascii.eqb_spec d c) as [->|].
  - injection H as <-. reflexivity.
  - destruct (idx s c) as [j|] eqn:E; [|discriminate H]. injection H as <-. cbn [String.get]. now apply IH.
Qed.

Lemma idx_none : forall s c, idx s c = None -> ~ char_of s c.
Proof.
  induction s as [|d s IH]; intros c H [i G]; unfold at_index in G; [destruct i; discriminate G|]. cbn [idx] in H.
  destruct (Ascii.eqb_spec d c) as [->|N]; [discriminate H|]. destruct (idx s c) as [j|] eqn:E; [discriminate H|].
  destruct i; cbn [String.get] in G; [congruence|]. apply (IH c E). now exists i.
Qed.

Lemma char_of_iff : forall s c, char_of s c <-> idx s c <> None.
Proof.
  intros s c. destruct (idx s c) as [i|] eqn:E.
  - split; [discriminate|]. intros _. exists i. now apply idx_some.
  - split; [intros H; destruct (idx_none s c E H)|congruence].
Qed.

(** * Capitals *)

Definition cap_check (c : ascii) : bool :=
  match idx small_letters c with
  | Some i => match String.get i big_letters with Some d => Ascii.eqb d (upper c) | None => false end
  | None => Ascii.eqb (upper c) c
  end.

Lemma cap_checked : forall c, cap_check c = true.
Proof. intros [[] [] [] [] [] [] [] []]; reflexivity. Qed.

Lemma upper_capital : forall c, capital c (upper c).
Proof.
  intros c. pose proof (cap_checked c) as H. unfold cap_check in H. destruct (idx small_letters c) as [i|] eqn:E.
  - left. exists i. split; [now apply idx_some|]. unfold at_index. destruct (String.get i big_letters) as [d|]; [|discriminate H].
    apply Ascii.eqb_eq in H. now subst d.
  - right. split; [now apply idx_none|now apply Ascii.eqb_eq].
Qed.

Lemma small_distinct : forall i j, i < 26 -> j < 26 -> String.get i small_letters = String.get j small_letters -> i = j.
Proof.
  intros i j Hi Hj. do 26 (destruct i as [|i]; [do 26 (destruct j as [|j]; [cbn; congruence|]); lia|]). lia.
Qed.

Lemma get_bound : forall s i c, String.get i s = Some c -> i < String.length s.
Proof. induction s as [|d s IH]; intros [|i] c H; cbn in *; try discriminate; [lia|]. apply IH in H. lia. Qed.

Lemma capital_one : forall c d e, capital c d -> capital c e -> d = e.
Proof.
  intros c d e [(i & I1 & I2)|[N ->]] [(j & J1 & J2)|[M ->]]; try reflexivity.
  - assert (i = j). { apply small_distinct; [exact (get_bound _ _ _ I1)|exact (get_bound _ _ _ J1)|unfold at_index in *; congruence]. }
    subst j. unfold at_index in *. congruence.
  - destruct M. now exists i.
  - destruct N. now exists j.
Qed.

Lemma capitals_upper : forall s, capitals s (to_upper s).
Proof. induction s as [|c s IH]; [exact I|]. cbn [to_upper capitals]. split; [apply upper_capital|exact IH]. Qed.

Lemma capitals_iff : forall s t, capitals s t <-> t = to_upper s.
Proof.
  intros s t. split; [|intros ->; apply capitals_upper]. revert t. induction s as [|c s IH]; intros [|d t] H; cbn [capitals] in H; try contradiction; [reflexivity|].
  destruct H as [H1 H2]. cbn [to_upper]. rewrite (IH t H2), (capital_one c d (upper c) H1 (upper_capital c)). reflexivity.
Qed.

Lemma equal_fold_iff : forall s t, equal_fold s t = true <-> same_letters s t.
Proof.
  intros s t. unfold equal_fold, same_letters. rewrite String.eqb_eq. split.
  - intros H. exists (to_upper s). split; [apply capitals_upper|]. rewrite H. apply capitals_upper.
  - intros (u & A & B). apply capitals_iff in A, B. congruence.
Qed.

(** * Fields *)

Lemma join_joined : forall sep fs, joined sep fs (join sep fs).
Proof.
  intros sep fs. induction fs as [|f [|g fs] IH]; [constructor|constructor|]. change (join sep (f :: g :: fs)) with (f ++ sep ++ join sep (g :: fs)). now constructor.
Qed.

Lemma joined_iff : forall sep fs s, joined sep fs s <-> s = join sep fs.
Proof.
  intros sep fs s. split; [|intros ->; apply join_joined]. intros H. induction H as [|f|f g fs s _ IH]; [reflexivity|reflexivity|].
  change (join sep (f :: g :: fs)) with (f ++ sep ++ join sep (g :: fs)). now rewrite IH.
Qed.

(** * Header names *)

Lemma token_checked : forall c, token_char c = match idx (small_letters ++ big_letters ++ "0123456789" ++ "!#$%&'*+-.^_`|~") c with Some _ => true | None => false end.
Proof. intros [[] [] [] [] [] [] [] []]; reflexivity. Qed.

Lemma token_iff : forall c, token_char c = true <-> name_char c.
Proof.
  intros c. unfold name_char. rewrite token_checked, char_of_iff. destruct (idx _ c); split; congruence.
Qed.

Lemma upper_checked : forall c, Ascii.eqb (upper c) c = match idx small_letters c with Some _ => false | None => true end.
Proof. intros [[] [] [] [] [] [] [] []]; reflexivity. Qed.

Lemma lower_checked : forall c, Ascii.eqb (lower c) c = match idx big_letters c with Some _ => false | None => true end.
Proof. intros [[] [] [] [] [] [] [] []]; reflexivity. Qed.

Lemma upper_fixed : forall c, upper c = c <-> ~ char_of small_letters c.
Proof.
  intros c. rewrite <- Ascii.eqb_eq, upper_checked, char_of_iff. destruct (idx small_letters c); split; try congruence; try discriminate.
  intros H. destruct H. discriminate.
Qed.

Lemma lower_fixed : forall c, lower c = c <-> ~ char_of big_letters c.
Proof.
  intros c. rewrite <- Ascii.eqb_eq, lower_checked, char_of_iff. destruct (idx big_letters c); split; try congruence; try discriminate.
  intros H. destruct H. discriminate.
Qed.

Lemma all_chars_iff : forall f k, all_chars f k = true <-> forall c, char_of k c -> f c = true.
Proof.
  intros f. induction k as [|d k IH]; cbn [all_chars].
  - split; [|reflexivity]. intros _ c [i H]. destruct i; discriminate H.
  - rewrite andb_true_iff, IH. split.
    + intros [A B] c [i H]. unfold at_index in H. destruct i; cbn [String.get] in H; [congruence|]. apply B. now exists i.
    + intros H. split; [apply H; now exists 0|]. intros c [i G]. apply H. now exists (S i).
Qed.

Definition spelled (up : bool) (k : string) : Prop :=
  forall i c, at_index k i c ->
    ((i = 0 /\ up = true) \/ (exists j, i = S j /\ at_index k j "-") -> ~ char_of small_letters c) /\
    ((i = 0 /\ up = false) \/ (i <> 0 /\ ~ at_index k (Nat.pred i) "-") -> ~ char_of big_letters c).

Lemma canon_from_iff : forall k up, canon_from up k = k <-> spelled up k.
Proof.
  induction k as [|d k IH]; intros up.
  - split; [|reflexivity]. intros _ i c H. unfold at_index in H. destruct i; discriminate H.
  - cbn [canon_from].
    assert (T : String (if up then upper d else lower d) (canon_from (Ascii.eqb d "-") k) = String d k <->
                (if up then upper d else lower d) = d /\ canon_from (Ascii.eqb d "-") k = k).
    { split; [intros H; injection H as H1 H2; now split|intros [H1 H2]; now rewrite H1, H2]. }
    rewrite T, IH. unfold spelled, at_index. split.
    + intros [A B] [|i] c H.
      * cbn [String.get] in H. injection H as <-. split.
        -- intros [[_ ->]|(j & J & _)]; [now apply upper_fixed|discriminate J].
        -- intros [[_ ->]|[N _]]; [now apply lower_fixed|congruence].
      * cbn [String.get] in H. destruct (B i c H) as [B1 B2]. split.
        -- intros [[N _]|(j & J & K)]; [discriminate N|]. injection J as <-. apply B1. destruct i; cbn [String.get] in K.
           ++ left. split; [reflexivity|]. injection K as ->. reflexivity.
           ++ right. now exists i.
        -- intros [[N _]|[_ K]]; [discriminate N|]. cbn [Nat.pred] in K. apply B2. destruct i; cbn [String.get] in K.
           ++ left. split; [reflexivity|]. apply Ascii.eqb_neq. intros ->. now apply K.
           ++ right. split; [discriminate|]. exact K.
    + intros H. split.
      * destruct (H 0 d eq_refl) as [H1 H2]. destruct up; [apply upper_fixed, H1; left; now split|apply lower_fixed, H2; left; now split].
      * intros i c G. destruct (H (S i) c G) as [H1 H2]. split.
        -- intros [[-> E]|(j & -> & K)]; apply H1; right.
           ++ exists 0. split; [reflexivity|]. apply Ascii.eqb_eq in E. now subst d.
           ++ exists (S j). split; [reflexivity|exact K].
        -- intros [[-> E]|[N K]]; apply H2; right; (split; [discriminate|]).
           ++ cbn [Nat.pred String.get]. intros Q. injection Q as ->. discriminate E.
           ++ destruct i; [congruence|]. exact K.
Qed.

Lemma canon_iff : forall k, canon k = k <-> well_spelled k.
Proof.
  intros k. unfold canon, well_spelled. destruct (all_chars token_char k) eqn:T.
  - rewrite canon_from_iff. pose proof (proj1 (all_chars_iff _ _) T) as A. unfold spelled. split.
    + intros H. right. intros i c G. destruct (H i c G) as [H1 H2]. split.
      * intros [->|K]; apply H1; [left; now split|now right].
      * intros N K. apply H2. right. now split.
    + intros [(c & C & N)|H]; [destruct N; apply token_iff; now apply A|]. intros i c G. destruct (H i c G) as [H1 H2]. split.
      * intros [[-> _]|K]; apply H1; [now left|now right].
      * intros [[_ Q]|[N K]]; [discriminate Q|now apply H2].
  - split; [|reflexivity]. intros _. left.
    assert (E : exists c, char_of k c /\ token_char c = false).
    { clear -T. induction k as [|d k IH]; cbn [all_chars] in T; [discriminate T|]. destruct (token_char d) eqn:D.
      - destruct (IH T) as (c & [i C] & N). exists c. split; [now exists (S i)|exact N].
      - exists d. split; [now exists 0|exact D]. }
    destruct E as (c & C & N). exists c. split; [exact C|]. rewrite <- token_iff. congruence.
Qed.

Lemma canonical_iff : forall h, canonical_keys h <-> forall k v, In (k, v) h -> well_spelled k.
Proof. intros h. unfold canonical_keys. split; intros H k v I; apply canon_iff, (H k v I). Qed.

(** [canon] changes case only, and what it gives is spelled well. *)
Lemma upper_upper : forall c, upper (lower c) = upper c.
Proof. intros [[] [] [] [] [] [] [] []]; reflexivity. Qed.

Lemma token_case : forall c, token_char (upper c) = token_char c /\ token_char (lower c) = token_char c.
Proof. intros [[] [] [] [] [] [] [] []]; split; reflexivity. Qed.

Lemma hyphen_case : forall c, Ascii.eqb (upper c) "-" = Ascii.eqb c "-" /\ Ascii.eqb (lower c) "-" = Ascii.eqb c "-".
Proof. intros [[] [] [] [] [] [] [] []]; split; reflexivity. Qed.

Lemma lower_idem : forall c, lower (lower c) = lower c.
Proof. intros [[] [] [] [] [] [] [] []]; reflexivity. Qed.

Lemma canon_from_letters : forall k up, to_upper (canon_from up k) = to_upper k.
Proof.
  induction k as [|d k IH]; intros up; cbn [canon_from to_upper]; [reflexivity|]. rewrite IH. f_equal. destruct up; [apply upper_idem|apply upper_upper].
Qed.

Lemma canon_from_idem : forall k up, canon_from up (canon_from up k) = canon_from up k.
Proof.
  induction k as [|d k IH]; intros up; cbn [canon_from]; [reflexivity|]. destruct up.
  - rewrite upper_idem, (proj1 (hyphen_case d)), IH. reflexivity.
  - rewrite lower_idem, (proj2 (hyphen_case d)), IH. reflexivity.
Qed.

Lemma canon_from_tokens : forall k up, all_chars token_char (canon_from up k) = all_chars token_char k.
Proof.
  induction k as [|d k IH]; intros up; cbn [canon_from all_chars]; [reflexivity|]. rewrite IH. destruct up; [rewrite (proj1 (token_case d))|rewrite (proj2 (token_case d))]; reflexivity.
Qed.

Lemma canon_spelled : forall k, well_spelled (canon k) /\ same_letters k (canon k).
Proof.
  intros k. split.
  - apply canon_iff. unfold canon. destruct (all_chars token_char k) eqn:T; [|now rewrite T]. rewrite canon_from_tokens, T. apply canon_from_idem.
  - apply equal_fold_iff. unfold equal_fold. apply String.eqb_eq. unfold canon. destruct (all_chars token_char k); [|reflexivity]. symmetry. apply canon_from_letters.
Qed.

(** * Greetings *)

Lemma greetings : forall g, (exists dice, random_huttese dice = g) <->
  In g ["Achuta!"; "Goodde da lodia!"; "H'chu apenkee!"; "Chuba!"; "Ka Cheesa Crispa Greedo?"; "De wanna wanga?"; "Peedunkee, caba dee unko!"].
Proof.
  intros g. split.
  - intros [d <-]. unfold random_huttese. apply nth_In. apply Nat.mod_upper_bound. discriminate.
  - intros [<-|[<-|[<-|[<-|[<-|[<-|[<-|[]]]]]]]]; [exists 0|exists 1|exists 2|exists 3|exists 4|exists 5|exists 6]; reflexivity.
Qed.

(** * Numbers *)

Lemma itoa_shortest : forall n s, itoa n = String "0" s -> s = "" /\ n = 0%N.
Proof.
  intros n s H. unfold itoa in H.
  assert (U : Decimal.unorm (N.to_uint n) = N.to_uint n) by (rewrite <- DecimalN.Unsigned.to_of, DecimalN.Unsigned.of_to; reflexivity).
  destruct (N.to_uint n) as [|d|d|d|d|d|d|d|d|d|d] eqn:E; cbn in H; try discriminate H.
  - assert (of : N.of_uint (N.to_uint n) = n) by apply DecimalN.Unsigned.of_to. rewrite E in of. injection H as <-. now split.
  - unfold Decimal.unorm in U. destruct (Decimal.nzhead (Decimal.D0 d)) eqn:Z.
    + injection U as <-. injection H as <-. split; [reflexivity|]. rewrite <- (DecimalN.Unsigned.of_to n), E. reflexivity.
    + exfalso. exact (DecimalFacts.nzhead_nonzero _ _ Z).
    + discriminate U.
    + discriminate U.
    + discriminate U.
    + discriminate U.
    + discriminate U.
    + discriminate U.
    + discriminate U.
    + discriminate U.
    + discriminate U.
Qed.

(** The decimal text of a number: digits without leading zeros, after a sign if it is negative *)
Lemma decimal_text : forall z, exists t, numeral t (Z.abs z) /\ (forall s, t = String "0" s -> s = "") /\
  itoa_Z z = (if Z.ltb z 0 then String "-" t else t).
Proof.
  intros z. exists (itoa (Z.to_N (Z.abs z))). split; [|split].
  - rewrite <- (Z2N.id (Z.abs z)) at 2 by lia. apply itoa_numeral.
  - intros s H. now apply itoa_shortest in H.
  - destruct z; reflexivity.
Qed.
