(** Proofs for C84: extract_kid finds exactly the kid a token names. *)
From Coq Require Import String Ascii List Bool ZArith NArith Lia Arith.
From Verif Require Import GoStr Kid KidSpec KidB64 KidJson.
Import ListNotations.
Local Open Scope string_scope.

Lemma split_head : forall s h l, split "." s = h :: l -> forall c, split "." (String c s) = (if Ascii.eqb c "." then "" :: h :: l else String c h :: l).
Proof. intros s h l H c. cbn [split]. rewrite H. reflexivity. Qed.

Lemma split_some : forall s, exists h l, split "." s = h :: l.
Proof.
  induction s as [|c s (h & l & E)]; [now exists "", []|]. rewrite (split_head s h l E c). destruct (Ascii.eqb c "."); eexists; eexists; reflexivity.
Qed.

Lemma first_split : forall token, first_part token (hd "" (split "." token)).
Proof.
  induction token as [|c s IH].
  - split; [|now left]. intros a b H. destruct a; discriminate H.
  - destruct (split_some s) as (h & l & E). rewrite (split_head s h l E c). rewrite E in IH. cbn [hd] in IH.
    destruct (Ascii.eqb_spec c "."%char) as [-> |N].
    + cbn [hd]. split; [intros a b H; destruct a; discriminate H|]. right. exists s. reflexivity.
    + cbn [hd]. destruct IH as [I1 I2]. split.
      * intros a b H. destruct a as [|d a]; cbn [append] in H; injection H as H1 H2; [now apply N|exact (I1 a b H2)].
      * destruct I2 as [-> |(rest & ->)]; [now left|right; now exists rest].
Qed.

Lemma first_unique : forall token h1 h2, first_part token h1 -> first_part token h2 -> h1 = h2.
Proof.
  assert (A : forall h r h', (forall a b, h' <> a ++ "." ++ b) -> h ++ "." ++ r = h' -> False).
  { intros h r h' N E. now apply (N h r). }
  intros token h1 h2 [N1 P1] [N2 P2].
  destruct P1 as [-> |(r1 & E1)]; destruct P2 as [E2|(r2 & E2)]; [now symmetry in E2| | |].
  - exfalso. exact (N1 h2 r2 E2).
  - exfalso. rewrite E1 in E2. exact (A h1 r1 h2 N2 E2).
  - rewrite E1 in E2. clear E1 A token. revert h2 N2 E2. induction h1 as [|c h1 IH]; intros h2 N2 E2.
    + destruct h2 as [|d h2]; [reflexivity|]. cbn [append] in E2. injection E2 as <- E2. exfalso. now apply (N2 "" h2).
    + destruct h2 as [|d h2]; cbn [append] in E2; injection E2 as H1 H2.
      * exfalso. subst c. now apply (N1 "" h1).
      * subst d. f_equal. apply IH; [intros a b ->; now apply (N1 (String c a) b)|intros a b ->; now apply (N2 (String c a) b)|exact H2].
Qed.

Lemma kid_iff : forall token k, k <> "" -> (extract_kid token = k <-> names_kid token k).
Proof.
  intros token k Hk. unfold extract_kid, names_kid, unmarshal. pose proof (first_split token) as FP. split.
  - destruct (b64_decode (hd "" (split "." token))) as [text|] eqn:B; [|intros <-; now destruct Hk].
    destruct (read_json text) as [[| | | | |l]|] eqn:J; try (intros <-; now destruct Hk).
    destruct (has_large (JObject l)) eqn:Lg; [intros <-; now destruct Hk|].
    destruct (last_member "kid" l) as [[| | |s| |]|] eqn:M; try (intros <-; now destruct Hk). intros ->.
    apply last_member_some in M. destruct M as (before & after & -> & N).
    exists (hd "" (split "." token)), text, before, after. split; [exact FP|]. split; [now apply b64_iff|].
    split; [now apply read_json_iff|]. split; [now apply large_iff|exact N].
  - intros (head & text & before & after & P & B & J & R & N).
    rewrite (first_unique token _ _ FP P). apply b64_iff in B. rewrite B. apply read_json_iff in J. rewrite J.
    apply large_iff in R. rewrite R.
    assert (M : last_member "kid" (before ++ ("kid", JString k) :: after) = Some (JString k)) by (apply last_member_some; now exists before, after).
    rewrite M. reflexivity.
Qed.

(** Without kid the answer is the empty text. *)
Lemma no_kid : forall token, (forall k, k <> "" -> ~ names_kid token k) <-> extract_kid token = "".
Proof.
  intros token. split.
  - intros H. destruct (string_dec (extract_kid token) "") as [E|E]; [exact E|]. exfalso. apply (H _ E). now apply kid_iff.
  - intros E k Hk H. apply kid_iff in H; [|exact Hk]. congruence.
Qed.
