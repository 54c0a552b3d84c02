(** Go strings, byte slices and the small part of package strings that the code uses.

    A Go string or []byte is a Coq [string], one [ascii] per byte.  Simplification: case mapping
    (strings.ToUpper, strings.EqualFold) is modelled for ASCII letters only; on the identifiers the
    code applies it to (methods, header names, modes, schemes) the two agree. *)
From Coq Require Import String Ascii List Bool ZArith NArith Lia.
From Coq Require Import DecimalString DecimalN.
Import ListNotations.
Local Open Scope string_scope.

(** [strings.HasPrefix(s, p)]; the standard library's [String.prefix] with Go's argument order. *)
Definition has_prefix (s p : string) : bool := String.prefix p s.

(** Drop the first [n] bytes: the slice expression [s[n:]]. *)
Fixpoint drop (n : nat) (s : string) : string :=
  match n, s with
  | O, _ => s
  | S n', String _ s' => drop n' s'
  | S _, EmptyString => EmptyString
  end.

(** [strings.Contains(s, sub)]. *)
Fixpoint contains (s sub : string) : bool :=
  String.prefix sub s ||
  match s with
  | EmptyString => false
  | String _ s' => contains s' sub
  end.

(** [strings.Replace(s, old, new, 1)]: the first occurrence only.  With an empty [old] Go inserts
    [new] at the front, which is what the first test gives. *)
Fixpoint replace_first (s old new : string) : string :=
  if String.prefix old s then new ++ drop (String.length old) s
  else match s with
       | EmptyString => EmptyString
       | String c s' => String c (replace_first s' old new)
       end.

(** [strings.Split(s, sep)] for a one-byte separator: always at least one field. *)
Fixpoint split (sep : ascii) (s : string) : list string :=
  match s with
  | EmptyString => [EmptyString]
  | String c s' =>
      if Ascii.eqb c sep then EmptyString :: split sep s'
      else match split sep s' with
           | f :: fs => String c f :: fs
           | [] => [String c EmptyString]
           end
  end.

(** [strings.Join(fields, sep)]. *)
Fixpoint join (sep : string) (fs : list string) : string :=
  match fs with
  | [] => EmptyString
  | [f] => f
  | f :: fs' => f ++ sep ++ join sep fs'
  end.

Definition N_in (lo hi n : N) : bool := (N.leb lo n && N.leb n hi)%bool.

(** ASCII part of unicode.ToUpper. *)
Definition upper (c : ascii) : ascii :=
  let n := N_of_ascii c in
  if N_in 97 122 n then ascii_of_N (n - 32) else c.

(** [strings.ToUpper(s)], ASCII only. *)
Fixpoint to_upper (s : string) : string :=
  match s with
  | EmptyString => EmptyString
  | String c s' => String (upper c) (to_upper s')
  end.

(** [strings.EqualFold(s, t)], ASCII only. *)
Definition equal_fold (s t : string) : bool := String.eqb (to_upper s) (to_upper t).

(** [strconv.Itoa] / [%d] for natural numbers. *)
Definition itoa (n : N) : string := NilZero.string_of_uint (N.to_uint n).

(** [strconv.Itoa] for integers. *)
Definition itoa_Z (z : Z) : string :=
  match z with
  | Zneg p => "-" ++ itoa (Npos p)
  | _ => itoa (Z.to_N z)
  end.

Definition digit_val (c : ascii) : option Z :=
  let n := N_of_ascii c in
  if N_in 48 57 n then Some (Z.of_N n - 48)%Z else None.

Fixpoint digits_val (acc : Z) (s : string) : option Z :=
  match s with
  | EmptyString => Some acc
  | String c s' =>
      match digit_val c with
      | Some d => digits_val (acc * 10 + d)%Z s'
      | None => None
      end
  end.

Definition int64_min : Z := (- 9223372036854775808)%Z.
Definition int64_max : Z := 9223372036854775807%Z.

(** Two's complement wrap-around of Go's int64 (and int on 64-bit platforms). *)
Definition wrap64 (z : Z) : Z :=
  ((z + 9223372036854775808) mod 18446744073709551616 - 9223372036854775808)%Z.

Definition in_int64 (z : Z) : bool := (Z.leb int64_min z && Z.leb z int64_max)%bool.

(** [strconv.Atoi] and [strconv.ParseInt(s, 10, 64)]: optional sign, at least one digit, decimal
    digits only, range check.  [None] is the error result. *)
Definition atoi (s : string) : option Z :=
  let body neg r :=
    match r with
    | EmptyString => None
    | _ => match digits_val 0 r with
           | Some v => let z := if neg : bool then (- v)%Z else v in
                       if in_int64 z then Some z else None
           | None => None
           end
    end in
  match s with
  | String c r =>
      if Ascii.eqb c "-" then body true r
      else if Ascii.eqb c "+" then body false r
      else body false s
  | EmptyString => None
  end.

(** Boolean membership in a list of strings. *)
Definition mem_str (x : string) (l : list string) : bool := existsb (String.eqb x) l.

(* ------------------------------------------------------------------ *)
(** * Facts *)

Lemma append_nil_r : forall s, s ++ "" = s.
Proof. induction s as [|c s IH]; cbn; [reflexivity | now rewrite IH]. Qed.

Lemma append_assoc : forall a b c : string, (a ++ b) ++ c = a ++ (b ++ c).
Proof. induction a as [|x a IH]; intros b c; cbn; [reflexivity | now rewrite IH]. Qed.

Lemma length_append : forall a b, String.length (a ++ b) = String.length a + String.length b.
Proof. induction a as [|x a IH]; intros b; cbn; [reflexivity | now rewrite IH]. Qed.

Lemma append_inj_l : forall a b c : string, a ++ b = a ++ c -> b = c.
Proof. induction a as [|x a IH]; intros b c H; cbn in H; [assumption | inversion H; now apply IH]. Qed.

Lemma append_inj_len : forall a b c d : string,
  String.length a = String.length c -> a ++ b = c ++ d -> a = c /\ b = d.
Proof.
  induction a as [|x a IH]; intros b c d Hl H; destruct c as [|y c]; cbn in *; try discriminate.
  - now split.
  - inversion H; subst. destruct (IH b c d) as [-> ->]; auto.
Qed.

Lemma prefix_spec : forall p s, String.prefix p s = true <-> exists t, s = p ++ t.
Proof.
  induction p as [|c p IH]; intros s.
  - split; [intros _; now exists s | destruct s; auto].
  - destruct s as [|d s].
    + split; [discriminate | intros [t H]; discriminate].
    + cbn [String.prefix]. destruct (Ascii.ascii_dec c d) as [->|n].
      * rewrite (IH s). split; intros [t H]; exists t; [now rewrite H | now inversion H].
      * split; [discriminate | intros [t H]; inversion H; congruence].
Qed.

Lemma prefix_app : forall p t, String.prefix p (p ++ t) = true.
Proof. intros p t. apply prefix_spec. now exists t. Qed.

Lemma prefix_empty : forall s, String.prefix "" s = true.
Proof. now destruct s. Qed.

Lemma drop_app : forall p t, drop (String.length p) (p ++ t) = t.
Proof. induction p as [|c p IH]; intros t; cbn; auto. Qed.

Lemma contains_spec : forall s sub, contains s sub = true <-> exists a b, s = a ++ sub ++ b.
Proof.
  induction s as [|c s IH]; intros sub; cbn [contains].
  - rewrite orb_false_r, prefix_spec. split.
    + intros [t H]. exists "", t. exact H.
    + intros [a [b H]]. destruct a; [now exists b | discriminate].
  - rewrite orb_true_iff, prefix_spec, IH. split.
    + intros [[t H]|[a [b H]]].
      * exists "", t. exact H.
      * exists (String c a), b. cbn. now rewrite H.
    + intros [a [b H]]. destruct a as [|d a].
      * left. now exists b.
      * right. exists a, b. now inversion H.
Qed.

Lemma replace_first_prefix : forall p t new, replace_first (p ++ t) p new = new ++ t.
Proof.
  intros p t new.
  assert (E : forall s, String.prefix p s = true -> replace_first s p new = new ++ drop (String.length p) s)
    by (intros s Hs; destruct s; cbn [replace_first]; now rewrite Hs).
  rewrite E by apply prefix_app. now rewrite drop_app.
Qed.

Lemma upper_idem : forall c, upper (upper c) = upper c.
Proof. intros [[] [] [] [] [] [] [] []]; reflexivity. Qed.

Lemma to_upper_idem : forall s, to_upper (to_upper s) = to_upper s.
Proof. induction s as [|c s IH]; cbn; [reflexivity | now rewrite upper_idem, IH]. Qed.

Lemma to_upper_length : forall s, String.length (to_upper s) = String.length s.
Proof. induction s as [|c s IH]; cbn; auto. Qed.

Lemma mem_str_In : forall x l, mem_str x l = true <-> In x l.
Proof.
  intros x l. unfold mem_str. rewrite existsb_exists. split.
  - intros [y [Hy E]]. apply String.eqb_eq in E. now subst.
  - intros H. exists x. split; [assumption | apply String.eqb_refl].
Qed.

Lemma equal_fold_refl : forall s, equal_fold s s = true.
Proof. intros s. apply String.eqb_refl. Qed.

(** Joining what was split gives the original back. *)
Lemma join_split : forall sep s, join (String sep "") (split sep s) = s.
Proof.
  intros sep. induction s as [|c s IH]; [reflexivity|].
  cbn [split]. destruct (Ascii.eqb_spec c sep) as [->|n].
  - destruct (split sep s) as [|f fs] eqn:E.
    + destruct s as [|d s]; cbn in E; [discriminate|].
      destruct (Ascii.eqb d sep); [discriminate|]. destruct (split sep s); discriminate.
    + change (join (String sep "") ("" :: f :: fs)) with (String sep (join (String sep "") (f :: fs))).
      now rewrite IH.
  - destruct (split sep s) as [|f fs] eqn:E.
    + destruct s as [|d s]; cbn in E; [discriminate|].
      destruct (Ascii.eqb d sep); [discriminate|]. destruct (split sep s); discriminate.
    + rewrite <- IH. destruct fs; reflexivity.
Qed.

Lemma wrap64_id : forall z, (int64_min <= z <= int64_max)%Z -> wrap64 z = z.
Proof.
  intros z H. unfold wrap64, int64_min, int64_max in *.
  rewrite Z.mod_small; lia.
Qed.

Lemma wrap64_range : forall z, (int64_min <= wrap64 z <= int64_max)%Z.
Proof.
  intros z. unfold wrap64, int64_min, int64_max.
  pose proof (Z.mod_pos_bound (z + 9223372036854775808) 18446744073709551616). lia.
Qed.
