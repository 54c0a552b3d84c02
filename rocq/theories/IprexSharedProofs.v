(** Lemmas for Thm_IprexShared. *)
From Coq Require Import String Ascii List Bool NArith Arith Lia.
From Verif Require Import GoStr Regex Iprex IprexShared IprexSharedSpec.
Import ListNotations.
Local Open Scope string_scope.

Lemma put_same : forall A i (x : A) l c, nth_error l i = Some c -> nth_error (put i x l) i = Some x.
Proof. intros A. induction i as [|i IH]; intros x [|y l] c H; try discriminate H; cbn in *; [reflexivity|]. exact (IH x l c H). Qed.

Lemma put_other : forall A i k (x : A) l, i <> k -> nth_error (put i x l) k = nth_error l k.
Proof.
  intros A. induction i as [|i IH]; intros k x [|y l] N; cbn [put]; try reflexivity.
  - destruct k; [congruence|reflexivity].
  - destruct k; [reflexivity|]. cbn [nth_error]. apply IH. congruence.
Qed.

Lemma put_length : forall A i (x : A) l, List.length (put i x l) = List.length l.
Proof. intros A. induction i as [|i IH]; intros x [|y l]; cbn; try reflexivity. now rewrite IH. Qed.

(** What has been found out at some point: fields that are known to be set, and patterns that did not match *)
Definition set_before (at_ : point) : list slot :=
  match at_ with
  | Test SlotS | Make SlotS => []
  | Test Slot6 | Make Slot6 => [SlotS]
  | Test SlotE | Make SlotE => [SlotS; Slot6]
  | Test Slot4 | Make Slot4 => [SlotS; Slot6; SlotE]
  | _ => [SlotS; Slot6; SlotE; Slot4]
  end.

Definition missed (at_ : point) : list slot :=
  match at_ with Match SlotS => [SlotE] | Match Slot6 => [SlotE; SlotS] | Match Slot4 => [SlotE; SlotS; Slot6] | _ => [] end.

Definition call_ok (p : patterns) (c : call) : Prop :=
  (forall x, In x (set_before (ca_at c)) -> get_slot x p = Some (made x)) /\
  (forall x, In x (missed (ca_at c)) -> find (made x) (ca_msg c) = None) /\
  ca_at c <> Crashed /\
  (forall a, ca_at c = Returned a -> a = extract_addr (ca_msg c)).

Definition finder_ok (s : finder) : Prop :=
  (forall x r, get_slot x (fi_patterns s) = Some r -> r = made x) /\ (forall c, In c (fi_calls s) -> call_ok (fi_patterns s) c).

Lemma made_s : made SlotS = re_ipv6s. Proof. vm_compute. reflexivity. Qed.
Lemma made_6 : made Slot6 = re_ipv6. Proof. vm_compute. reflexivity. Qed.
Lemma made_e : made SlotE = re_ipv64e. Proof. vm_compute. reflexivity. Qed.
Lemma made_4 : made Slot4 = re_ipv4. Proof. vm_compute. reflexivity. Qed.

Lemma get_set : forall x y r p, get_slot y (set_slot x r p) = if (match x, y with SlotS, SlotS | Slot6, Slot6 | SlotE, SlotE | Slot4, Slot4 => true | _, _ => false end) then Some r else get_slot y p.
Proof. intros [] [] r p; reflexivity. Qed.

Lemma set_keeps : forall x y p, get_slot y p = Some (made y) -> get_slot y (set_slot x (made x) p) = Some (made y).
Proof. intros x y p H. rewrite get_set. destruct x, y; try exact H; reflexivity. Qed.

Lemma ok_keeps : forall x p c, call_ok p c -> call_ok (set_slot x (made x) p) c.
Proof. intros x p c (H1 & H2 & H3 & H4). split; [|now split]. intros y Hy. apply set_keeps, H1, Hy. Qed.

Lemma extract_made : forall msg, extract_addr msg =
  match find (made SlotE) msg with
  | Some a => a
  | None => match find (made SlotS) msg with
            | Some a => a
            | None => match find (made Slot6) msg with
                      | Some a => a
                      | None => match find (made Slot4) msg with Some a => a | None => "not found" end
                      end
            end
  end.
Proof. intros msg. rewrite made_s, made_6, made_e, made_4. reflexivity. Qed.

Global Opaque made.

Lemma advance_ok : forall c p a p', (forall x r, get_slot x p = Some r -> r = made x) -> call_ok p c ->
  advance (ca_msg c) (ca_at c) p = Some (a, p') ->
  call_ok p' (Call (ca_msg c) a) /\ (p' = p \/ exists x, p' = set_slot x (made x) p).
Proof.
  intros [msg at_] p a p' Hp (H1 & H2 & H3 & H4) E. cbn [ca_msg ca_at] in *. destruct at_ as [x|x|x|addr|]; cbn [advance] in E; try discriminate E.
  - injection E as <- <-. split; [|now left]. destruct (get_slot x p) as [r|] eqn:G.
    + pose proof (Hp x r G) as ->. split; [|split; [|split]]; cbn [ca_at ca_msg].
      * intros y Hy. destruct x; cbn in Hy; repeat (destruct Hy as [<-|Hy]; [first [exact G|apply H1; cbn; tauto]|]); destruct Hy.
      * intros y Hy. destruct x; destruct Hy.
      * destruct x; discriminate.
      * intros b F. destruct x; discriminate F.
    + split; [exact H1|]. split; [intros y []|]. split; [discriminate|]. intros b F. discriminate F.
  - injection E as <- <-. split; [|right; now exists x]. split; [|split; [|split]]; cbn [ca_at ca_msg].
    + intros y Hy. rewrite get_set. destruct x; cbn in Hy; repeat (destruct Hy as [<-|Hy]; [first [reflexivity|apply H1; cbn; tauto]|]); destruct Hy.
    + intros y Hy. destruct x; destruct Hy.
    + destruct x; discriminate.
    + intros b F. destruct x; discriminate F.
  - injection E as <- <-. split; [|now left]. pose proof (H1 x ltac:(destruct x; cbn; tauto)) as G. rewrite G.
    destruct (find (made x) msg) as [b|] eqn:F.
    + split; [intros y Hy; apply H1; destruct x; exact Hy|]. split; [intros y []|]. split; [discriminate|]. cbn [ca_at ca_msg]. intros d Q. injection Q as <-.
      rewrite extract_made. destruct x; cbn [missed] in H2.
      * rewrite (H2 SlotE) by (cbn; tauto). now rewrite F.
      * rewrite (H2 SlotE), (H2 SlotS) by (cbn; tauto). now rewrite F.
      * now rewrite F.
      * rewrite (H2 SlotE), (H2 SlotS), (H2 Slot6) by (cbn; tauto). now rewrite F.
    + split; [|split; [|split]]; cbn [ca_at ca_msg].
      * intros y Hy. apply H1. destruct x; exact Hy.
      * intros y Hy. destruct x; cbn in Hy; repeat (destruct Hy as [<-|Hy]; [first [exact F|apply H2; cbn; tauto]|]); destruct Hy.
      * destruct x; discriminate.
      * intros d Q. destruct x; try discriminate Q. injection Q as <-. rewrite extract_made. cbn [missed] in H2.
        rewrite (H2 SlotE), (H2 SlotS), (H2 Slot6) by (cbn; tauto). now rewrite F.
Qed.

Lemma in_put : forall A i (x c : A) l, In c (put i x l) -> c = x \/ In c l.
Proof.
  intros A. induction i as [|i IH]; intros x c [|y l] H; cbn [put] in H; try (destruct H; fail).
  - destruct H as [<-|H]; [now left|right; now right].
  - destruct H as [<-|H]; [right; now left|]. destruct (IH x c l H) as [E|E]; [now left|right; now right].
Qed.

Lemma step_ok : forall s m s', finder_ok s -> finder_step s m = Some s' -> finder_ok s'.
Proof.
  intros s [msg|i] s' [Hp Hc] E; cbn [finder_step] in E.
  - injection E as <-. split; cbn [fi_patterns fi_calls]; [exact Hp|]. intros c Hin. apply in_app_or in Hin. destruct Hin as [Hin|[<-|[]]]; [now apply Hc|].
    split; [intros x []|]. split; [intros x []|]. split; [discriminate|]. intros a F. discriminate F.
  - destruct (nth_error (fi_calls s) i) as [c|] eqn:En; [|discriminate E]. pose proof (Hc c (nth_error_In _ _ En)) as Kc.
    destruct (advance (ca_msg c) (ca_at c) (fi_patterns s)) as [[a p]|] eqn:Ea; [|discriminate E]. injection E as <-.
    destruct (advance_ok c (fi_patterns s) a p Hp Kc Ea) as [K [->|[x ->]]]; split; cbn [fi_patterns fi_calls].
    + exact Hp.
    + intros d Hd. apply in_put in Hd. destruct Hd as [->|Hd]; [exact K|now apply Hc].
    + intros y r Hr. rewrite get_set in Hr. destruct x, y; try (injection Hr as <-; reflexivity); now apply Hp.
    + intros d Hd. apply in_put in Hd. destruct Hd as [->|Hd]; [exact K|]. apply ok_keeps. now apply Hc.
Qed.

Lemma run_ok : forall ms s s', finder_ok s -> finder_run s ms = Some s' -> finder_ok s'.
Proof.
  induction ms as [|m ms IH]; intros s s' H E; cbn [finder_run] in E; [now injection E as <-|].
  destruct (finder_step s m) as [s1|] eqn:E1; [|discriminate E]. exact (IH s1 s' (step_ok s m s1 H E1) E).
Qed.

Lemma searched_ok : forall ms s, searched ms s -> finder_ok s.
Proof.
  intros ms s H. apply (run_ok ms finder_init s); [|exact H]. split; [intros [] r F; discriminate F|intros c []].
Qed.

Lemma found_alone : forall ms s i c a, searched ms s -> nth_error (fi_calls s) i = Some c -> ca_at c = Returned a -> a = extract_addr (ca_msg c).
Proof. intros ms s i c a H En Ea. destruct (searched_ok ms s H) as [_ K]. destruct (K c (nth_error_In _ _ En)) as (_ & _ & _ & K4). now apply K4. Qed.

Lemma never_crashed : forall ms s i c, searched ms s -> nth_error (fi_calls s) i = Some c -> ca_at c <> Crashed.
Proof. intros ms s i c H En. destruct (searched_ok ms s H) as [_ K]. destruct (K c (nth_error_In _ _ En)) as (_ & _ & K3 & _). exact K3. Qed.

(** * Calls end *)

Definition left_of (at_ : point) : nat :=
  match at_ with
  | Test SlotS => 12 | Make SlotS => 11 | Test Slot6 => 10 | Make Slot6 => 9 | Test SlotE => 8 | Make SlotE => 7 | Test Slot4 => 6 | Make Slot4 => 5
  | Match SlotE => 4 | Match SlotS => 3 | Match Slot6 => 2 | Match Slot4 => 1 | Returned _ | Crashed => 0
  end.

Lemma advance_less : forall msg at_ p a p', advance msg at_ p = Some (a, p') -> left_of a < left_of at_.
Proof.
  intros msg [x|x|x|b|] p a p' E; cbn [advance] in E; try discriminate E; injection E as <- _.
  - destruct (get_slot x p); destruct x; cbn; lia.
  - destruct x; cbn; lia.
  - destruct (get_slot x p) as [r|]; [|destruct x; cbn; lia]. destruct (find r msg); destruct x; cbn; lia.
Qed.

Lemma run_snoc : forall ms s m, finder_run s (ms ++ [m])%list = match finder_run s ms with Some s' => finder_step s' m | None => None end.
Proof.
  induction ms as [|m' ms IH]; intros s m; cbn [app finder_run]; [now destruct (finder_step s m)|]. destruct (finder_step s m') as [s1|]; [apply IH|reflexivity].
Qed.

Lemma turns_snoc : forall i ms m, turns i (ms ++ [m])%list = turns i ms + turns i [m].
Proof. induction ms as [|[msg|k] ms IH]; intros m; cbn [app turns]; [lia|apply IH|]. rewrite IH. cbn [turns]. lia. Qed.

Lemma turns_left : forall ms s i c, searched ms s -> nth_error (fi_calls s) i = Some c -> turns i ms + left_of (ca_at c) <= 12.
Proof.
  assert (Z : forall ms s i, searched ms s -> nth_error (fi_calls s) i = None -> turns i ms = 0).
  { induction ms as [|m ms IH] using rev_ind; intros s i H E; [reflexivity|]. unfold searched in H. rewrite run_snoc in H.
    destruct (finder_run finder_init ms) as [s1|] eqn:R; [|discriminate H]. rewrite turns_snoc. destruct m as [msg|k]; cbn [finder_step] in H.
    - injection H as <-. cbn [fi_calls] in E. rewrite (IH s1 i R); [reflexivity|]. apply nth_error_None in E. rewrite app_length in E. apply nth_error_None. lia.
    - destruct (nth_error (fi_calls s1) k) as [c|] eqn:Ek; [|discriminate H]. destruct (advance _ _ _) as [[a p]|]; [|discriminate H]. injection H as <-. cbn [fi_calls] in E.
      assert (E1 : nth_error (fi_calls s1) i = None) by (apply nth_error_None in E; rewrite put_length in E; now apply nth_error_None).
      rewrite (IH s1 i R E1). cbn [turns]. destruct (Nat.eqb_spec k i) as [->|_]; [congruence|reflexivity]. }
  induction ms as [|m ms IH] using rev_ind; intros s i c H E.
  - injection H as <-. destruct i; discriminate E.
  - pose proof H as H0. unfold searched in H. rewrite run_snoc in H. destruct (finder_run finder_init ms) as [s1|] eqn:R; [|discriminate H].
    rewrite turns_snoc. destruct m as [msg|k]; cbn [finder_step] in H.
    + injection H as <-. cbn [fi_calls] in E. cbn [turns]. destruct (nth_error (fi_calls s1) i) as [c1|] eqn:E1.
      * rewrite nth_error_app1 in E by (apply nth_error_Some; congruence). rewrite E1 in E. injection E as <-. specialize (IH s1 i c1 R E1). lia.
      * rewrite (Z ms s1 i R E1). apply nth_error_In in E as Hin. apply nth_error_None in E1. rewrite nth_error_app2 in E by exact E1.
        destruct (i - List.length (fi_calls s1)) as [|q]; [injection E as <-; cbn; lia|]. destruct q; discriminate E.
    + destruct (nth_error (fi_calls s1) k) as [c1|] eqn:Ek; [|discriminate H]. destruct (advance _ _ _) as [[a p]|] eqn:Ea; [|discriminate H]. injection H as <-. cbn [fi_calls] in E.
      cbn [turns]. destruct (Nat.eqb_spec k i) as [->|N].
      * rewrite (put_same _ i _ _ _ Ek) in E. injection E as <-. cbn [ca_at]. specialize (IH s1 i c1 R Ek). apply advance_less in Ea. lia.
      * rewrite put_other in E by congruence. specialize (IH s1 i c R E). lia.
Qed.

Lemma call_ends : forall ms s i c, searched ms s -> nth_error (fi_calls s) i = Some c ->
  turns i ms <= 12 /\ ((exists a, ca_at c = Returned a) \/ exists s', searched (ms ++ [Goes i]) s').
Proof.
  intros ms s i c H E. split; [pose proof (turns_left ms s i c H E); lia|].
  unfold searched in *. rewrite run_snoc, H. cbn [finder_step]. rewrite E.
  destruct (ca_at c) as [x|x|x|a|] eqn:Ec; try (right; cbn [advance]; eexists; reflexivity); [left; now exists a|].
  exfalso. exact (never_crashed ms s i c H E Ec).
Qed.

(** * Races *)

Definition both : list move := [Begin "192.0.2.7:4711"; Begin "[2001:db8::1]:4712"; Goes 0].

Lemma races : exists ms s, searched ms s /\ racing s.
Proof.
  exists both. eexists. split; [reflexivity|]. exists 0, 1, SlotS. split; [discriminate|]. split; [eexists; split; reflexivity|].
  left. eexists. split; [reflexivity|now left].
Qed.

(** Once all patterns are there, nobody writes. *)
Lemma settled : forall ms s ms' s', searched ms s -> (forall x, get_slot x (fi_patterns s) <> None) -> (forall i x, ~ about_to_write s i x) ->
  searched (ms ++ ms') s' -> ~ racing s'.
Proof.
  intros ms s ms' s' H Hs Hw H'. unfold searched in *.
  assert (R : finder_run s ms' = Some s').
  { clear Hs Hw. revert s H. induction ms' as [|m ms' IH] using rev_ind in s', H' |- *; intros s H.
    - rewrite app_nil_r in H'. rewrite H in H'. exact H'.
    - rewrite app_assoc, run_snoc in H'. destruct (finder_run finder_init (ms ++ ms')) as [s1|] eqn:R; [|discriminate H'].
      rewrite run_snoc. now rewrite (IH s1 eq_refl s H). }
  clear H H'. assert (G : (forall x, get_slot x (fi_patterns s') <> None) /\ forall i x, ~ about_to_write s' i x).
  { revert s Hs Hw R. induction ms' as [|m ms' IH]; intros s Hs Hw R; cbn [finder_run] in R; [injection R as <-; now split|].
    destruct (finder_step s m) as [s1|] eqn:E; [|discriminate R]. apply (IH s1); try exact R.
    - intros x. destruct m as [msg|k]; cbn [finder_step] in E; [injection E as <-; apply Hs|].
      destruct (nth_error (fi_calls s) k) as [c|] eqn:Ek; [|discriminate E]. destruct (advance _ _ _) as [[a p]|] eqn:Ea; [|discriminate E]. injection E as <-. cbn [fi_patterns].
      destruct (ca_at c) as [y|y|y|b|] eqn:Ec; cbn [advance] in Ea; try discriminate Ea; injection Ea as _ <-; try apply Hs.
      exfalso. apply (Hw k y). exists c. now split.
    - intros i x (c & En & Ec). destruct m as [msg|k]; cbn [finder_step] in E.
      + injection E as <-. cbn [fi_calls] in En. destruct (nth_error (fi_calls s) i) as [c1|] eqn:E1.
        * rewrite nth_error_app1 in En by (apply nth_error_Some; congruence). rewrite E1 in En. injection En as <-. apply (Hw i x). exists c1. now split.
        * apply nth_error_None in E1. rewrite nth_error_app2 in En by exact E1. destruct (i - List.length (fi_calls s)) as [|q]; [injection En as <-; discriminate Ec|destruct q; discriminate En].
      + destruct (nth_error (fi_calls s) k) as [c1|] eqn:Ek; [|discriminate E]. destruct (advance _ _ _) as [[a p]|] eqn:Ea; [|discriminate E]. injection E as <-. cbn [fi_calls] in En.
        destruct (Nat.eq_dec k i) as [->|N].
        * rewrite (put_same _ i _ _ _ Ek) in En. injection En as <-. cbn [ca_at] in Ec. subst a.
          destruct (ca_at c1) as [y|y|y|b|] eqn:Ec1; cbn [advance] in Ea; try discriminate Ea; injection Ea as Ea _.
          -- destruct (get_slot y (fi_patterns s)) eqn:Gy; [destruct y; discriminate Ea|now apply (Hs y)].
          -- destruct y; discriminate Ea.
          -- destruct (get_slot y (fi_patterns s)) as [r|]; [|discriminate Ea]. destruct (find r (ca_msg c1)); [discriminate Ea|destruct y; discriminate Ea].
        * rewrite put_other in En by congruence. apply (Hw i x). exists c. now split. }
  intros (i & k & x & _ & W & _). exact (proj2 G i x W).
Qed.
