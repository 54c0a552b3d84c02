(** Lemmas for C93. *)
From Coq Require Import String List Bool Arith Lia.
From Verif Require Import GoStr JwksRate JwksRateProofs ProcessProofs Gzip GzipSpec.
Import ListNotations.
Local Open Scope string_scope.

Lemma append_assoc3 : forall a b c : string, (a ++ b) ++ c = a ++ (b ++ c).
Proof. induction a as [|x a IH]; intros b c; [reflexivity|]. cbn [append]. now rewrite IH. Qed.

Lemma append_nil_r : forall a : string, a ++ "" = a.
Proof. induction a as [|x a IH]; [reflexivity|]. cbn [append]. now rewrite IH. Qed.

Lemma in_without : forall A (x : A) i l, In x (without i l) -> In x l.
Proof.
  intros A x i l. revert i. induction l as [|y l IH]; intros [|i] H; cbn [without] in H; try easy.
  - now right.
  - destruct H as [H|H]; [now left|right; now apply (IH i)].
Qed.

Lemma nodup_without : forall A i (l : list A), NoDup l -> NoDup (without i l).
Proof.
  intros A i l. revert i. induction l as [|y l IH]; intros [|i] H; cbn [without]; try easy.
  - now inversion H.
  - inversion H as [|? ? H1 H2]. subst. constructor; [|now apply IH]. intro H3. apply H1. exact (in_without _ _ _ _ H3).
Qed.

Lemma without_taken : forall A i (x : A) l, NoDup l -> nth_error l i = Some x -> ~ In x (without i l).
Proof.
  intros A i x l. revert i. induction l as [|y l IH]; intros [|i] H E; cbn [without nth_error] in *; try discriminate.
  - injection E as <-. now inversion H.
  - inversion H as [|? ? H1 H2]. subst. intros [H3|H3].
    + subst y. apply H1. exact (nth_error_In _ _ E).
    + exact (IH i H2 E H3).
Qed.

Lemma nth_app1 : forall A (l : list A) y i x, nth_error l i = Some x -> nth_error (l ++ [y]) i = Some x.
Proof. intros A l y i x H. rewrite nth_error_app1; [exact H|]. apply nth_error_Some. congruence. Qed.

Lemma nth_app_last : forall A (l : list A) y, nth_error (l ++ [y]) (length l) = Some y.
Proof. intros A l y. rewrite nth_error_app2 by lia. now rewrite Nat.sub_diag. Qed.

Lemma nth_set_other : forall A i (x : A) l j, i <> j -> nth_error (set_nth i x l) j = nth_error l j.
Proof. intros A i x l j H. rewrite nth_set. apply Nat.eqb_neq in H. now rewrite H. Qed.

Lemma nth_lt : forall A (l : list A) i x, nth_error l i = Some x -> i < length l.
Proof. intros A l i x H. apply nth_error_Some. congruence. Qed.

Section GzipProofs.
Context {Z U : Type}.
Variable z_made z_fresh : Z.
Variable z_write : Z -> Ascii.ascii -> Z * string.
Variable z_close : Z -> Z * string.
Variable u_made : U.
Variable u_reset : string -> U.
Variable u_read : U -> option (string * U).

Notation gzips := (@gzips Z U).
Notation step := (gzip_step z_made z_fresh z_write z_close u_made u_reset u_read).
Notation exec := (gzip_exec z_made z_fresh z_write z_close u_made u_reset u_read).
Notation emits := (emits z_write z_close).
Notation yields := (yields u_read).

Lemma emits_one : forall st s a, emits st s a -> forall b, emits st s b -> a = b.
Proof.
  induction 1 as [st st' out H|st x rest st' out outs H H0 IH]; intros b Hb.
  - inversion Hb as [? ? ? H'|]. subst. congruence.
  - inversion Hb as [|? ? ? ? ? ? H' H0']. subst. rewrite H in H'. injection H' as <- <-. f_equal. now apply IH.
Qed.

Lemma emits_some : forall s st, exists out, emits st s out.
Proof.
  induction s as [|x s IH]; intro st.
  - destruct (z_close st) as [st' out] eqn:E. exists out. now apply em_end with st'.
  - destruct (z_write st x) as [st' out] eqn:E. destruct (IH st') as [outs H]. exists (out ++ outs). now apply em_byte with st'.
Qed.

Lemma yields_one : forall u a, yields u a -> forall b, yields u b -> a = b.
Proof.
  induction 1 as [u H|u out u' outs H H0 IH]; intros b Hb.
  - inversion Hb as [|? ? ? ? H']; subst; [reflexivity|congruence].
  - inversion Hb as [? H'|? ? ? ? H' H0']; subst; [congruence|]. rewrite H in H'. injection H' as <- <-. f_equal. now apply IH.
Qed.

(** * Writers *)

Definition zholds (p : zpc) : Prop := match p with ZGet | ZEnd => False | _ => True end.
Definition zstarted (p : zpc) : Prop := match p with ZGet | ZReset => False | _ => True end.

Definition writing (g : gzips) (c : zcall) (rest : string) : Prop :=
  exists st done, nth_error (g_wrts g) (zc_wrt c) = Some (Writer st (zc_buf c)) /\ nth_error (g_bufs g) (zc_buf c) = Some done /\
    forall outs, emits st rest outs -> emits z_fresh (zc_input c) (done ++ outs).

Definition written (g : gzips) (c : zcall) : Prop :=
  exists done, nth_error (g_bufs g) (zc_buf c) = Some done /\ emits z_fresh (zc_input c) done.

Definition zcall_ok (g : gzips) (c : zcall) : Prop :=
  match zc_pc c with
  | ZGet | ZReset => True
  | ZWrite rest => writing g c rest
  | ZClose => writing g c ""
  | ZPut | ZEnd => written g c
  end.

Record zinv (g : gzips) : Prop := {
  zi_pool : NoDup (g_zpool g);
  zi_in : forall w, In w (g_zpool g) -> w < length (g_wrts g);
  zi_hold : forall k c, nth_error (g_zcalls g) k = Some c -> zholds (zc_pc c) -> zc_wrt c < length (g_wrts g) /\ ~ In (zc_wrt c) (g_zpool g);
  zi_ok : forall k c, nth_error (g_zcalls g) k = Some c -> zcall_ok g c;
  zi_wrt : forall k k' c c', k <> k' -> nth_error (g_zcalls g) k = Some c -> nth_error (g_zcalls g) k' = Some c' ->
    zholds (zc_pc c) -> zholds (zc_pc c') -> zc_wrt c <> zc_wrt c';
  zi_buf : forall k k' c c', k <> k' -> nth_error (g_zcalls g) k = Some c -> nth_error (g_zcalls g) k' = Some c' ->
    zstarted (zc_pc c) -> zstarted (zc_pc c') -> zc_buf c <> zc_buf c' }.

Lemma started_lt : forall g k c, zinv g -> nth_error (g_zcalls g) k = Some c -> zstarted (zc_pc c) -> zc_buf c < length (g_bufs g).
Proof.
  intros g k c I E St. pose proof (zi_ok g I k c E) as Ok. unfold zcall_ok in Ok.
  destruct (zc_pc c); try contradiction St.
  - destruct Ok as [st [d [_ [H _]]]]. exact (nth_lt _ _ _ _ H).
  - destruct Ok as [st [d [_ [H _]]]]. exact (nth_lt _ _ _ _ H).
  - destruct Ok as [d [H _]]. exact (nth_lt _ _ _ _ H).
  - destruct Ok as [d [H _]]. exact (nth_lt _ _ _ _ H).
Qed.

Lemma zframe : forall g g' k c c', zinv g -> nth_error (g_zcalls g) k = Some c -> g_zcalls g' = set_nth k c' (g_zcalls g) ->
  (forall w x, nth_error (g_wrts g) w = Some x -> ~ (zholds (zc_pc c') /\ w = zc_wrt c') -> nth_error (g_wrts g') w = Some x) ->
  length (g_wrts g) <= length (g_wrts g') ->
  (forall b x, nth_error (g_bufs g) b = Some x -> ~ (zstarted (zc_pc c') /\ b = zc_buf c') -> nth_error (g_bufs g') b = Some x) ->
  NoDup (g_zpool g') ->
  (forall w, In w (g_zpool g') -> In w (g_zpool g) \/ (zholds (zc_pc c) /\ w = zc_wrt c)) ->
  (zholds (zc_pc c') -> zc_wrt c' < length (g_wrts g') /\ ~ In (zc_wrt c') (g_zpool g')) ->
  zcall_ok g' c' ->
  (zholds (zc_pc c') -> (zholds (zc_pc c) /\ zc_wrt c' = zc_wrt c) \/ In (zc_wrt c') (g_zpool g) \/ length (g_wrts g) <= zc_wrt c') ->
  (zstarted (zc_pc c') -> (zstarted (zc_pc c) /\ zc_buf c' = zc_buf c) \/ length (g_bufs g) <= zc_buf c') ->
  zinv g'.
Proof.
  intros g g' k c c' I E Calls Wrts Len Bufs Pool PoolIn Hold Ok From BFrom.
  assert (At : forall j d, nth_error (g_zcalls g') j = Some d -> (j = k /\ d = c') \/ (j <> k /\ nth_error (g_zcalls g) j = Some d)).
  { intros j d Hj. rewrite Calls, nth_set in Hj. destruct (Nat.eqb k j) eqn:Ek.
    - apply Nat.eqb_eq in Ek. rewrite E in Hj. injection Hj as <-. now left.
    - apply Nat.eqb_neq in Ek. right. split; [congruence|exact Hj]. }
  assert (OtherW : forall j d, j <> k -> nth_error (g_zcalls g) j = Some d -> zholds (zc_pc d) -> zholds (zc_pc c') -> zc_wrt d <> zc_wrt c').
  { intros j d Nj Hj Hd Hc. destruct (From Hc) as [[H1 H2]|[H1|H1]].
    - rewrite H2. exact (zi_wrt g I j k d c Nj Hj E Hd H1).
    - intro H2. rewrite <- H2 in H1. exact (proj2 (zi_hold g I j d Hj Hd) H1).
    - pose proof (proj1 (zi_hold g I j d Hj Hd)). lia. }
  assert (OtherB : forall j d, j <> k -> nth_error (g_zcalls g) j = Some d -> zstarted (zc_pc d) -> zstarted (zc_pc c') -> zc_buf d <> zc_buf c').
  { intros j d Nj Hj Hd Hc. destruct (BFrom Hc) as [[H1 H2]|H1].
    - rewrite H2. exact (zi_buf g I j k d c Nj Hj E Hd H1).
    - pose proof (started_lt g j d I Hj Hd). lia. }
  constructor.
  - exact Pool.
  - intros w Hw. destruct (PoolIn w Hw) as [H|[H ->]].
    + pose proof (zi_in g I w H). lia.
    + pose proof (proj1 (zi_hold g I k c E H)). lia.
  - intros j d Hj Hd. destruct (At j d Hj) as [[-> ->]|[Nj Hj']]; [now apply Hold|].
    split; [pose proof (proj1 (zi_hold g I j d Hj' Hd)); lia|]. intro Hin.
    destruct (PoolIn _ Hin) as [H|[H H']].
    + exact (proj2 (zi_hold g I j d Hj' Hd) H).
    + exact (zi_wrt g I j k d c Nj Hj' E Hd H H').
  - intros j d Hj. destruct (At j d Hj) as [[-> ->]|[Nj Hj']]; [exact Ok|].
    pose proof (zi_ok g I j d Hj') as Okd. pose proof (OtherW j d Nj Hj') as Wd. pose proof (OtherB j d Nj Hj') as Bd.
    unfold zcall_ok in *. destruct (zc_pc d) as [| |rest| | |].
    + exact Logic.I.
    + exact Logic.I.
    + destruct Okd as [st [dn [H1 [H2 H3]]]]. exists st, dn. split; [|split; [|exact H3]].
      * apply Wrts; [exact H1|]. intros [H4 H5]. exact (Wd Logic.I H4 H5).
      * apply Bufs; [exact H2|]. intros [H4 H5]. exact (Bd Logic.I H4 H5).
    + destruct Okd as [st [dn [H1 [H2 H3]]]]. exists st, dn. split; [|split; [|exact H3]].
      * apply Wrts; [exact H1|]. intros [H4 H5]. exact (Wd Logic.I H4 H5).
      * apply Bufs; [exact H2|]. intros [H4 H5]. exact (Bd Logic.I H4 H5).
    + destruct Okd as [dn [H1 H2]]. exists dn. split; [|exact H2]. apply Bufs; [exact H1|]. intros [H4 H5]. exact (Bd Logic.I H4 H5).
    + destruct Okd as [dn [H1 H2]]. exists dn. split; [|exact H2]. apply Bufs; [exact H1|]. intros [H4 H5]. exact (Bd Logic.I H4 H5).
  - intros i j d e Nij Hi Hj Hd He. destruct (At i d Hi) as [[-> ->]|[Ni Hi']]; destruct (At j e Hj) as [[-> ->]|[Nj Hj']].
    + now elim Nij.
    + intro H. exact (OtherW j e Nj Hj' He Hd (eq_sym H)).
    + exact (OtherW i d Ni Hi' Hd He).
    + exact (zi_wrt g I i j d e Nij Hi' Hj' Hd He).
  - intros i j d e Nij Hi Hj Hd He. destruct (At i d Hi) as [[-> ->]|[Ni Hi']]; destruct (At j e Hj) as [[-> ->]|[Nj Hj']].
    + now elim Nij.
    + intro H. exact (OtherB j e Nj Hj' He Hd (eq_sym H)).
    + exact (OtherB i d Ni Hi' Hd He).
    + exact (zi_buf g I i j d e Nij Hi' Hj' Hd He).
Qed.

Lemma append_to_here : forall bufs b s t, nth_error bufs b = Some t -> nth_error (append_to bufs b s) b = Some (t ++ s).
Proof. intros bufs b s t H. unfold append_to. rewrite H, nth_set, Nat.eqb_refl, H. reflexivity. Qed.

Lemma append_to_other : forall bufs b s b' t, nth_error bufs b' = Some t -> b' <> b -> nth_error (append_to bufs b s) b' = Some t.
Proof. intros bufs b s b' t H N. unfold append_to. destruct (nth_error bufs b); [|exact H]. rewrite nth_set_other by congruence. exact H. Qed.

Lemma zip_inv : forall g k place c g', zinv g -> nth_error (g_zcalls g) k = Some c ->
  zip_step z_made z_fresh z_write z_close g k place c = Some g' -> zinv g'.
Proof.
  intros g k place c g' I E H. unfold zip_step in H.
  pose proof (zi_ok g I k c E) as Ok. unfold zcall_ok in Ok.
  pose proof (zi_hold g I k c E) as Hold.
  destruct (zc_pc c) as [| |[|x rest]| | |] eqn:Pc.
  - destruct place as [i|].
    + destruct (nth_error (g_zpool g) i) as [w|] eqn:Ew; [|discriminate]. injection H as <-.
      apply (zframe g _ k c (ZCall (zc_input c) ZReset w (zc_buf c)) I E); cbn; try easy.
      * now apply nodup_without, (zi_pool g I).
      * intros w' H. left. exact (in_without _ _ _ _ H).
      * intros _. split; [exact (zi_in g I w (nth_error_In _ _ Ew))|]. exact (without_taken _ _ _ _ (zi_pool g I) Ew).
      * intros _. right. left. exact (nth_error_In _ _ Ew).
    + injection H as <-.
      apply (zframe g _ k c (ZCall (zc_input c) ZReset (length (g_wrts g)) (zc_buf c)) I E); cbn; try easy.
      * intros w x H _. now apply nth_app1.
      * rewrite app_length. lia.
      * intros b x H _. now apply nth_app1.
      * exact (zi_pool g I).
      * intros w H. now left.
      * intros _. split; [rewrite app_length; cbn; lia|]. intro H. pose proof (zi_in g I _ H). lia.
      * intros _. right. right. lia.
  - injection H as <-. destruct (Hold Logic.I) as [Lw Nw].
    apply (zframe g _ k c (ZCall (zc_input c) (ZWrite (zc_input c)) (zc_wrt c) (length (g_bufs g))) I E); cbn; try easy.
    + intros w x H N. rewrite nth_set_other; [exact H|]. intro. apply N. split; [exact Logic.I|congruence].
    + rewrite set_nth_length. lia.
    + intros b x H _. now apply nth_app1.
    + exact (zi_pool g I).
    + intros w H. now left.
    + intros _. rewrite set_nth_length. split; [exact Lw|exact Nw].
    + exists z_fresh, "". cbn. split; [|split].
      * rewrite nth_set, Nat.eqb_refl. destruct (nth_error (g_wrts g) (zc_wrt c)) eqn:En; [reflexivity|].
        apply nth_error_None in En. lia.
      * apply nth_app_last.
      * now intros outs H.
    + intros _. left. now rewrite Pc.
    + intros _. right. lia.
  - injection H as <-. destruct (Hold Logic.I) as [Lw Nw].
    apply (zframe g _ k c (ZCall (zc_input c) ZClose (zc_wrt c) (zc_buf c)) I E); cbn; try easy.
    + exact (zi_pool g I).
    + intros w H. now left.
    + intros _. left. now rewrite Pc.
    + intros _. left. now rewrite Pc.
  - destruct Ok as [st [dn [W [B Em]]]]. rewrite W in H. cbn [wr_state wr_dest] in H.
    destruct (z_write st x) as [st' out] eqn:Ez. injection H as <-. destruct (Hold Logic.I) as [Lw Nw].
    apply (zframe g _ k c (ZCall (zc_input c) (ZWrite rest) (zc_wrt c) (zc_buf c)) I E); cbn; try easy.
    + intros w y H N. rewrite nth_set_other; [exact H|]. intro. apply N. split; [exact Logic.I|congruence].
    + rewrite set_nth_length. lia.
    + intros b y H N. apply append_to_other; [exact H|]. intro. apply N. split; [exact Logic.I|congruence].
    + exact (zi_pool g I).
    + intros w H. now left.
    + intros _. rewrite set_nth_length. split; [exact Lw|exact Nw].
    + exists st', (dn ++ out). cbn. split; [|split].
      * now rewrite nth_set, Nat.eqb_refl, W.
      * now apply append_to_here.
      * intros outs H. rewrite append_assoc3. apply Em. now apply em_byte with st'.
    + intros _. left. now rewrite Pc.
    + intros _. left. now rewrite Pc.
  - destruct Ok as [st [dn [W [B Em]]]]. rewrite W in H. cbn [wr_state wr_dest] in H.
    destruct (z_close st) as [st' out] eqn:Ez. injection H as <-. destruct (Hold Logic.I) as [Lw Nw].
    apply (zframe g _ k c (ZCall (zc_input c) ZPut (zc_wrt c) (zc_buf c)) I E); cbn; try easy.
    + intros w y H N. rewrite nth_set_other; [exact H|]. intro. apply N. split; [exact Logic.I|congruence].
    + rewrite set_nth_length. lia.
    + intros b y H N. apply append_to_other; [exact H|]. intro. apply N. split; [exact Logic.I|congruence].
    + exact (zi_pool g I).
    + intros w H. now left.
    + intros _. rewrite set_nth_length. split; [exact Lw|exact Nw].
    + exists (dn ++ out). cbn. split; [now apply append_to_here|]. apply Em. now apply em_end with st'.
    + intros _. left. now rewrite Pc.
    + intros _. left. now rewrite Pc.
  - injection H as <-. destruct (Hold Logic.I) as [Lw Nw].
    apply (zframe g _ k c (ZCall (zc_input c) ZEnd (zc_wrt c) (zc_buf c)) I E); cbn; try easy.
    + constructor; [exact Nw|exact (zi_pool g I)].
    + intros w [H|H]; [right; rewrite Pc; now split|now left].
    + intros _. left. now rewrite Pc.
  - discriminate.
Qed.

Lemma zinv_same : forall g g', zinv g -> g_wrts g' = g_wrts g -> g_bufs g' = g_bufs g -> g_zpool g' = g_zpool g -> g_zcalls g' = g_zcalls g -> zinv g'.
Proof.
  intros [ws bs zp zc rs up uc] [ws' bs' zp' zc' rs' up' uc'] I. cbn. intros -> -> -> ->.
  destruct I as [I1 I2 I3 I4 I5 I6]. constructor; assumption.
Qed.

(** * Readers *)

Definition uholds (p : upc) : Prop := match p with UGet | UEnd => False | _ => True end.

Definition ucall_ok (g : gzips) (c : ucall) : Prop :=
  match uc_pc c with
  | UGet | UReset => True
  | URead => exists u, nth_error (g_rds g) (uc_rd c) = Some u /\ 
      (forall outs, yields u outs -> yields (u_reset (uc_input c)) (uc_dec c ++ outs)) /\
      (forall all, yields (u_reset (uc_input c)) all -> exists rest, yields u rest)
  | UPut | UEnd => yields (u_reset (uc_input c)) (uc_dec c)
  end.

Record uinv (g : gzips) : Prop := {
  ui_pool : NoDup (g_upool g);
  ui_in : forall w, In w (g_upool g) -> w < length (g_rds g);
  ui_hold : forall k c, nth_error (g_ucalls g) k = Some c -> uholds (uc_pc c) -> uc_rd c < length (g_rds g) /\ ~ In (uc_rd c) (g_upool g);
  ui_ok : forall k c, nth_error (g_ucalls g) k = Some c -> ucall_ok g c;
  ui_rd : forall k k' c c', k <> k' -> nth_error (g_ucalls g) k = Some c -> nth_error (g_ucalls g) k' = Some c' ->
    uholds (uc_pc c) -> uholds (uc_pc c') -> uc_rd c <> uc_rd c' }.

Lemma uframe : forall g g' k c c', uinv g -> nth_error (g_ucalls g) k = Some c -> g_ucalls g' = set_nth k c' (g_ucalls g) ->
  (forall w x, nth_error (g_rds g) w = Some x -> ~ (uholds (uc_pc c') /\ w = uc_rd c') -> nth_error (g_rds g') w = Some x) ->
  length (g_rds g) <= length (g_rds g') ->
  NoDup (g_upool g') ->
  (forall w, In w (g_upool g') -> In w (g_upool g) \/ (uholds (uc_pc c) /\ w = uc_rd c)) ->
  (uholds (uc_pc c') -> uc_rd c' < length (g_rds g') /\ ~ In (uc_rd c') (g_upool g')) ->
  ucall_ok g' c' ->
  (uholds (uc_pc c') -> (uholds (uc_pc c) /\ uc_rd c' = uc_rd c) \/ In (uc_rd c') (g_upool g) \/ length (g_rds g) <= uc_rd c') ->
  uinv g'.
Proof.
  intros g g' k c c' I E Calls Rds Len Pool PoolIn Hold Ok From.
  assert (At : forall j d, nth_error (g_ucalls g') j = Some d -> (j = k /\ d = c') \/ (j <> k /\ nth_error (g_ucalls g) j = Some d)).
  { intros j d Hj. rewrite Calls, nth_set in Hj. destruct (Nat.eqb k j) eqn:Ek.
    - apply Nat.eqb_eq in Ek. rewrite E in Hj. injection Hj as <-. now left.
    - apply Nat.eqb_neq in Ek. right. split; [congruence|exact Hj]. }
  assert (Other : forall j d, j <> k -> nth_error (g_ucalls g) j = Some d -> uholds (uc_pc d) -> uholds (uc_pc c') -> uc_rd d <> uc_rd c').
  { intros j d Nj Hj Hd Hc. destruct (From Hc) as [[H1 H2]|[H1|H1]].
    - rewrite H2. exact (ui_rd g I j k d c Nj Hj E Hd H1).
    - intro H2. rewrite <- H2 in H1. exact (proj2 (ui_hold g I j d Hj Hd) H1).
    - pose proof (proj1 (ui_hold g I j d Hj Hd)). lia. }
  constructor.
  - exact Pool.
  - intros w Hw. destruct (PoolIn w Hw) as [H|[H ->]].
    + pose proof (ui_in g I w H). lia.
    + pose proof (proj1 (ui_hold g I k c E H)). lia.
  - intros j d Hj Hd. destruct (At j d Hj) as [[-> ->]|[Nj Hj']]; [now apply Hold|].
    split; [pose proof (proj1 (ui_hold g I j d Hj' Hd)); lia|]. intro Hin.
    destruct (PoolIn _ Hin) as [H|[H H']].
    + exact (proj2 (ui_hold g I j d Hj' Hd) H).
    + exact (ui_rd g I j k d c Nj Hj' E Hd H H').
  - intros j d Hj. destruct (At j d Hj) as [[-> ->]|[Nj Hj']]; [exact Ok|].
    pose proof (ui_ok g I j d Hj') as Okd. pose proof (Other j d Nj Hj') as Wd.
    unfold ucall_ok in *. destruct (uc_pc d).
    + exact Logic.I.
    + exact Logic.I.
    + destruct Okd as [u [H1 H2]]. exists u. split; [|exact H2].
      apply Rds; [exact H1|]. intros [H4 H5]. exact (Wd Logic.I H4 H5).
    + exact Okd.
    + exact Okd.
  - intros i j d e Nij Hi Hj Hd He. destruct (At i d Hi) as [[-> ->]|[Ni Hi']]; destruct (At j e Hj) as [[-> ->]|[Nj Hj']].
    + now elim Nij.
    + intro H. exact (Other j e Nj Hj' He Hd (eq_sym H)).
    + exact (Other i d Ni Hi' Hd He).
    + exact (ui_rd g I i j d e Nij Hi' Hj' Hd He).
Qed.

Lemma unzip_inv : forall g k place c g', uinv g -> nth_error (g_ucalls g) k = Some c ->
  unzip_step u_made u_reset u_read g k place c = Some g' -> uinv g'.
Proof.
  intros g k place c g' I E H. unfold unzip_step in H.
  pose proof (ui_ok g I k c E) as Ok. unfold ucall_ok in Ok.
  pose proof (ui_hold g I k c E) as Hold.
  destruct (uc_pc c) eqn:Pc.
  - destruct place as [i|].
    + destruct (nth_error (g_upool g) i) as [w|] eqn:Ew; [|discriminate]. injection H as <-.
      apply (uframe g _ k c (UCall (uc_input c) UReset w (uc_dec c)) I E); cbn; try easy.
      * now apply nodup_without, (ui_pool g I).
      * intros w' H. left. exact (in_without _ _ _ _ H).
      * intros _. split; [exact (ui_in g I w (nth_error_In _ _ Ew))|]. exact (without_taken _ _ _ _ (ui_pool g I) Ew).
      * intros _. right. left. exact (nth_error_In _ _ Ew).
    + injection H as <-.
      apply (uframe g _ k c (UCall (uc_input c) UReset (length (g_rds g)) (uc_dec c)) I E); cbn; try easy.
      * intros w x H _. now apply nth_app1.
      * rewrite app_length. lia.
      * exact (ui_pool g I).
      * intros w H. now left.
      * intros _. split; [rewrite app_length; cbn; lia|]. intro H. pose proof (ui_in g I _ H). lia.
      * intros _. right. right. lia.
  - injection H as <-. destruct (Hold Logic.I) as [Lw Nw].
    apply (uframe g _ k c (UCall (uc_input c) URead (uc_rd c) "") I E); cbn; try easy.
    + intros w x H N. rewrite nth_set_other; [exact H|]. intro. apply N. split; [exact Logic.I|congruence].
    + rewrite set_nth_length. lia.
    + exact (ui_pool g I).
    + intros w H. now left.
    + intros _. rewrite set_nth_length. split; [exact Lw|exact Nw].
    + exists (u_reset (uc_input c)). cbn. split; [|split; [now intros outs H|intros all H; now exists all]].
      rewrite nth_set, Nat.eqb_refl. destruct (nth_error (g_rds g) (uc_rd c)) eqn:En; [reflexivity|].
      apply nth_error_None in En. lia.
    + intros _. left. now rewrite Pc.
  - destruct Ok as [u [W [Em Ex]]]. rewrite W in H. destruct (Hold Logic.I) as [Lw Nw].
    destruct (u_read u) as [[out u']|] eqn:Eu; injection H as <-.
    + apply (uframe g _ k c (UCall (uc_input c) URead (uc_rd c) (uc_dec c ++ out)) I E); cbn; try easy.
      * intros w y H N. rewrite nth_set_other; [exact H|]. intro. apply N. split; [exact Logic.I|congruence].
      * rewrite set_nth_length. lia.
      * exact (ui_pool g I).
      * intros w H. now left.
      * intros _. rewrite set_nth_length. split; [exact Lw|exact Nw].
      * exists u'. cbn. split; [now rewrite nth_set, Nat.eqb_refl, W|].
        split; [intros outs H; rewrite append_assoc3; apply Em; now apply yi_more with u'|].
        intros all H. destruct (Ex all H) as [r Hr]. inversion Hr as [? H'|? ? ? ? H' H0']; subst; [congruence|].
        rewrite Eu in H'. injection H' as _ <-. eexists. exact H0'.
      * intros _. left. now rewrite Pc.
    + apply (uframe g _ k c (UCall (uc_input c) UPut (uc_rd c) (uc_dec c)) I E); cbn; try easy.
      * exact (ui_pool g I).
      * intros w H. now left.
      * rewrite <- (append_nil_r (uc_dec c)). apply Em. now apply yi_end.
      * intros _. left. now rewrite Pc.
  - injection H as <-. destruct (Hold Logic.I) as [Lw Nw].
    apply (uframe g _ k c (UCall (uc_input c) UEnd (uc_rd c) (uc_dec c)) I E); cbn; try easy.
    + constructor; [exact Nw|exact (ui_pool g I)].
    + intros w [H|H]; [right; rewrite Pc; now split|now left].
  - discriminate.
Qed.

Lemma uinv_same : forall g g', uinv g -> g_rds g' = g_rds g -> g_upool g' = g_upool g -> g_ucalls g' = g_ucalls g -> uinv g'.
Proof.
  intros [ws bs zp zc rs up uc] [ws' bs' zp' zc' rs' up' uc'] I. cbn. intros -> -> ->.
  destruct I as [I1 I2 I3 I4 I5]. constructor; assumption.
Qed.

(** * The machine *)

Lemma nth_app_inv : forall A (l : list A) y i x, nth_error (l ++ [y]) i = Some x -> (nth_error l i = Some x) \/ x = y.
Proof.
  intros A l y i x H. destruct (Nat.lt_ge_cases i (length l)).
  - rewrite nth_error_app1 in H by assumption. now left.
  - rewrite nth_error_app2 in H by assumption. destruct (i - length l) as [|n]; cbn in H; [right; congruence|]. now destruct n.
Qed.

Lemma zip_keeps_u : forall (g : gzips) k place c g', zip_step z_made z_fresh z_write z_close g k place c = Some g' ->
  g_rds g' = g_rds g /\ g_upool g' = g_upool g /\ g_ucalls g' = g_ucalls g.
Proof.
  intros g k place c g' H. unfold zip_step in H. destruct (zc_pc c) as [| |[|x rest]| | |].
  - destruct place as [i|]; [destruct (nth_error (g_zpool g) i); [|discriminate]|]; injection H as <-; now split.
  - injection H as <-; now split.
  - injection H as <-; now split.
  - destruct (nth_error (g_wrts g) (zc_wrt c)) as [w|]; [|discriminate]. destruct (z_write (wr_state w) x). injection H as <-; now split.
  - destruct (nth_error (g_wrts g) (zc_wrt c)) as [w|]; [|discriminate]. destruct (z_close (wr_state w)). injection H as <-; now split.
  - injection H as <-; now split.
  - discriminate.
Qed.

Lemma unzip_keeps_z : forall (g : gzips) k place c g', unzip_step u_made u_reset u_read g k place c = Some g' ->
  g_wrts g' = g_wrts g /\ g_bufs g' = g_bufs g /\ g_zpool g' = g_zpool g /\ g_zcalls g' = g_zcalls g.
Proof.
  intros g k place c g' H. unfold unzip_step in H. destruct (uc_pc c).
  - destruct place as [i|]; [destruct (nth_error (g_upool g) i); [|discriminate]|]; injection H as <-; now repeat split.
  - injection H as <-; now repeat split.
  - destruct (nth_error (g_rds g) (uc_rd c)) as [w|]; [|discriminate]. destruct (u_read w) as [[? ?]|]; injection H as <-; now repeat split.
  - injection H as <-; now repeat split.
  - discriminate.
Qed.

Lemma zinv_call : forall g s, zinv g -> zinv (Gzips (g_wrts g) (g_bufs g) (g_zpool g) (g_zcalls g ++ [ZCall s ZGet 0 0])%list (g_rds g) (g_upool g) (g_ucalls g)).
Proof.
  intros g s I. constructor; cbn.
  - exact (zi_pool g I).
  - exact (zi_in g I).
  - intros k c H Hc. destruct (nth_app_inv _ _ _ _ _ H) as [H'| ->]; [exact (zi_hold g I k c H' Hc)|contradiction Hc].
  - intros k c H. destruct (nth_app_inv _ _ _ _ _ H) as [H'| ->]; [exact (zi_ok g I k c H')|exact Logic.I].
  - intros k k' c c' N H H' Hc Hc'. destruct (nth_app_inv _ _ _ _ _ H) as [H0| ->]; [|contradiction Hc].
    destruct (nth_app_inv _ _ _ _ _ H') as [H1| ->]; [|contradiction Hc']. exact (zi_wrt g I k k' c c' N H0 H1 Hc Hc').
  - intros k k' c c' N H H' Hc Hc'. destruct (nth_app_inv _ _ _ _ _ H) as [H0| ->]; [|contradiction Hc].
    destruct (nth_app_inv _ _ _ _ _ H') as [H1| ->]; [|contradiction Hc']. exact (zi_buf g I k k' c c' N H0 H1 Hc Hc').
Qed.

Lemma uinv_call : forall g s, uinv g -> uinv (Gzips (g_wrts g) (g_bufs g) (g_zpool g) (g_zcalls g) (g_rds g) (g_upool g) (g_ucalls g ++ [UCall s UGet 0 ""])%list).
Proof.
  intros g s I. constructor; cbn.
  - exact (ui_pool g I).
  - exact (ui_in g I).
  - intros k c H Hc. destruct (nth_app_inv _ _ _ _ _ H) as [H'| ->]; [exact (ui_hold g I k c H' Hc)|contradiction Hc].
  - intros k c H. destruct (nth_app_inv _ _ _ _ _ H) as [H'| ->]; [exact (ui_ok g I k c H')|exact Logic.I].
  - intros k k' c c' N H H' Hc Hc'. destruct (nth_app_inv _ _ _ _ _ H) as [H0| ->]; [|contradiction Hc].
    destruct (nth_app_inv _ _ _ _ _ H') as [H1| ->]; [|contradiction Hc']. exact (ui_rd g I k k' c c' N H0 H1 Hc Hc').
Qed.

Lemma step_inv : forall g l g', zinv g /\ uinv g -> step g l = Some g' -> zinv g' /\ uinv g'.
Proof.
  intros g l g' [Iz Iu] H. destruct l as [s|s|k place|k place|i|i]; cbn [gzip_step] in H.
  - injection H as <-. split; [now apply zinv_call|]. now apply (uinv_same g).
  - injection H as <-. split; [now apply (zinv_same g)|now apply uinv_call].
  - destruct (nth_error (g_zcalls g) k) as [c|] eqn:E; [|discriminate]. split; [exact (zip_inv g k place c g' Iz E H)|].
    destruct (zip_keeps_u _ _ _ _ _ H) as [H1 [H2 H3]]. now apply (uinv_same g).
  - destruct (nth_error (g_ucalls g) k) as [c|] eqn:E; [|discriminate]. split; [|exact (unzip_inv g k place c g' Iu E H)].
    destruct (unzip_keeps_z _ _ _ _ _ H) as [H1 [H2 [H3 H4]]]. now apply (zinv_same g).
  - injection H as <-. split; [|now apply (uinv_same g)]. destruct Iz as [I1 I2 I3 I4 I5 I6]. constructor; cbn; try assumption.
    + now apply nodup_without.
    + intros w H. exact (I2 w (in_without _ _ _ _ H)).
    + intros k c H Hc. destruct (I3 k c H Hc) as [H1 H2]. split; [exact H1|]. intro H3. exact (H2 (in_without _ _ _ _ H3)).
  - injection H as <-. split; [now apply (zinv_same g)|]. destruct Iu as [I1 I2 I3 I4 I5]. constructor; cbn; try assumption.
    + now apply nodup_without.
    + intros w H. exact (I2 w (in_without _ _ _ _ H)).
    + intros k c H Hc. destruct (I3 k c H Hc) as [H1 H2]. split; [exact H1|]. intro H3. exact (H2 (in_without _ _ _ _ H3)).
Qed.

Lemma init_inv : zinv (gzip_init) /\ uinv (gzip_init).
Proof.
  assert (Nn : forall A k, nth_error (@nil A) k = None) by (intros A [|k]; reflexivity).
  split; constructor; cbn [gzip_init g_wrts g_bufs g_zpool g_zcalls g_rds g_upool g_ucalls].
  - constructor.
  - intros w H. contradiction H.
  - intros k c H. rewrite Nn in H. discriminate.
  - intros k c H. rewrite Nn in H. discriminate.
  - intros k k' c c' _ H. rewrite Nn in H. discriminate.
  - intros k k' c c' _ H. rewrite Nn in H. discriminate.
  - constructor.
  - intros w H. contradiction H.
  - intros k c H. rewrite Nn in H. discriminate.
  - intros k c H. rewrite Nn in H. discriminate.
  - intros k k' c c' _ H. rewrite Nn in H. discriminate.
Qed.

Lemma exec_inv : forall ls g g', zinv g /\ uinv g -> exec g ls = Some g' -> zinv g' /\ uinv g'.
Proof.
  induction ls as [|l ls IH]; intros g g' I H; cbn [gzip_exec] in H; [injection H as <-; exact I|].
  destruct (step g l) as [g1|] eqn:E; [|discriminate]. exact (IH _ _ (step_inv _ _ _ I E) H).
Qed.

Lemma set_input : forall A B (f : A -> B) l k c c', nth_error l k = Some c -> f c' = f c -> map f (set_nth k c' l) = map f l.
Proof. intros A B f l k c c' H E. rewrite map_set_nth, E. apply set_nth_same. now rewrite nth_error_map, H. Qed.

Lemma zip_step_input : forall (g : gzips) k place c g', nth_error (g_zcalls g) k = Some c -> zip_step z_made z_fresh z_write z_close g k place c = Some g' ->
  map zc_input (g_zcalls g') = map zc_input (g_zcalls g).
Proof.
  intros g k place c g' E H. unfold zip_step in H. destruct (zc_pc c) as [| |[|x rest]| | |].
  - destruct place as [i|]; [destruct (nth_error (g_zpool g) i); [|discriminate]|]; injection H as <-; now apply (set_input _ _ _ _ _ c).
  - injection H as <-; now apply (set_input _ _ _ _ _ c).
  - injection H as <-; now apply (set_input _ _ _ _ _ c).
  - destruct (nth_error (g_wrts g) (zc_wrt c)) as [w|]; [|discriminate]. destruct (z_write (wr_state w) x). injection H as <-; now apply (set_input _ _ _ _ _ c).
  - destruct (nth_error (g_wrts g) (zc_wrt c)) as [w|]; [|discriminate]. destruct (z_close (wr_state w)). injection H as <-; now apply (set_input _ _ _ _ _ c).
  - injection H as <-; now apply (set_input _ _ _ _ _ c).
  - discriminate.
Qed.

Lemma unzip_step_input : forall (g : gzips) k place c g', nth_error (g_ucalls g) k = Some c -> unzip_step u_made u_reset u_read g k place c = Some g' ->
  map uc_input (g_ucalls g') = map uc_input (g_ucalls g).
Proof.
  intros g k place c g' E H. unfold unzip_step in H. destruct (uc_pc c).
  - destruct place as [i|]; [destruct (nth_error (g_upool g) i); [|discriminate]|]; injection H as <-; now apply (set_input _ _ _ _ _ c).
  - injection H as <-; now apply (set_input _ _ _ _ _ c).
  - destruct (nth_error (g_rds g) (uc_rd c)) as [w|]; [|discriminate]. destruct (u_read w) as [[? ?]|]; injection H as <-; now apply (set_input _ _ _ _ _ c).
  - injection H as <-; now apply (set_input _ _ _ _ _ c).
  - discriminate.
Qed.

Lemma exec_inputs : forall ls g g', exec g ls = Some g' ->
  map zc_input (g_zcalls g') = (map zc_input (g_zcalls g) ++ zip_inputs ls)%list /\
  map uc_input (g_ucalls g') = (map uc_input (g_ucalls g) ++ unzip_inputs ls)%list.
Proof.
  induction ls as [|l ls IH]; intros g g' H; cbn [gzip_exec] in H.
  - injection H as <-. cbn. rewrite !app_nil_r. now split.
  - destruct (step g l) as [g1|] eqn:E; [|discriminate]. destruct (IH _ _ H) as [H1 H2]. rewrite H1, H2. clear H1 H2 H IH.
    unfold zip_inputs, unzip_inputs. cbn [flat_map].
    destruct l as [s|s|k place|k place|i|i]; cbn [gzip_step] in E.
    + injection E as <-. cbn. rewrite map_app. cbn. rewrite <- app_assoc. now split.
    + injection E as <-. cbn. rewrite map_app. cbn. rewrite <- app_assoc. now split.
    + destruct (nth_error (g_zcalls g) k) as [c|] eqn:Ek; [|discriminate].
      destruct (zip_keeps_u _ _ _ _ _ E) as [_ [_ H3]]. rewrite H3, (zip_step_input _ _ _ _ _ Ek E). now split.
    + destruct (nth_error (g_ucalls g) k) as [c|] eqn:Ek; [|discriminate].
      destruct (unzip_keeps_z _ _ _ _ _ E) as [_ [_ [_ H3]]]. rewrite H3, (unzip_step_input _ _ _ _ _ Ek E). now split.
    + injection E as <-. now split.
    + injection E as <-. now split.
Qed.

Lemma gzip_alone : forall ls g k out, exec gzip_init ls = Some g -> zip_result g k = Some out ->
  exists input, nth_error (zip_inputs ls) k = Some input /\ emits z_fresh input out.
Proof.
  intros ls g k out H R. destruct (exec_inv _ _ _ init_inv H) as [I _]. destruct (exec_inputs _ _ _ H) as [Hi _]. cbn [gzip_init g_zcalls map app] in Hi.
  unfold zip_result in R. destruct (nth_error (g_zcalls g) k) as [c|] eqn:E; [|discriminate].
  pose proof (zi_ok g I k c E) as Ok. unfold zcall_ok in Ok. destruct (zc_pc c); try discriminate.
  destruct Ok as [dn [H1 H2]]. exists (zc_input c). split; [|congruence]. rewrite <- Hi. now rewrite nth_error_map, E.
Qed.

Lemma gunzip_alone : forall ls g k out, exec gzip_init ls = Some g -> unzip_result g k = Some out ->
  exists input, nth_error (unzip_inputs ls) k = Some input /\ yields (u_reset input) out.
Proof.
  intros ls g k out H R. destruct (exec_inv _ _ _ init_inv H) as [_ I]. destruct (exec_inputs _ _ _ H) as [_ Hi]. cbn [gzip_init g_ucalls map app] in Hi.
  unfold unzip_result in R. destruct (nth_error (g_ucalls g) k) as [c|] eqn:E; [|discriminate].
  pose proof (ui_ok g I k c E) as Ok. unfold ucall_ok in Ok. destruct (uc_pc c); try discriminate.
  injection R as <-. exists (uc_input c). split; [|exact Ok]. rewrite <- Hi. now rewrite nth_error_map, E.
Qed.

Lemma exec_app : forall ls ls' g, exec g (ls ++ ls') = match exec g ls with Some g' => exec g' ls' | None => None end.
Proof. induction ls as [|l ls IH]; intros ls' g; cbn [app gzip_exec]; [reflexivity|]. destruct (step g l); [apply IH|reflexivity]. Qed.

(** A call that has returned takes no more steps. *)
Lemma zend_kept : forall ls g g' k c, exec g ls = Some g' -> nth_error (g_zcalls g) k = Some c -> zc_pc c = ZEnd -> nth_error (g_zcalls g') k = Some c.
Proof.
  induction ls as [|l ls IH]; intros g g' k c H E P; cbn [gzip_exec] in H; [injection H as <-; exact E|].
  destruct (step g l) as [g1|] eqn:Es; [|discriminate]. apply (IH g1 g' k c H); [|exact P]. clear H IH.
  destruct l as [s|s|j place|j place|i|i]; cbn [gzip_step] in Es.
  - injection Es as <-. now apply nth_app1.
  - injection Es as <-. exact E.
  - destruct (nth_error (g_zcalls g) j) as [d|] eqn:Ej; [|discriminate].
    destruct (Nat.eq_dec j k) as [->|N].
    + rewrite E in Ej. injection Ej as <-. unfold zip_step in Es. rewrite P in Es. discriminate.
    + unfold zip_step in Es. destruct (zc_pc d) as [| |[|x rest]| | |].
      * destruct place as [i|]; [destruct (nth_error (g_zpool g) i); [|discriminate]|]; injection Es as <-; cbn; unfold zmoved; now rewrite nth_set_other.
      * injection Es as <-; cbn; unfold zmoved; now rewrite nth_set_other.
      * injection Es as <-; cbn; unfold zmoved; now rewrite nth_set_other.
      * destruct (nth_error (g_wrts g) (zc_wrt d)) as [w|]; [|discriminate]. destruct (z_write (wr_state w) x). injection Es as <-; cbn; unfold zmoved; now rewrite nth_set_other.
      * destruct (nth_error (g_wrts g) (zc_wrt d)) as [w|]; [|discriminate]. destruct (z_close (wr_state w)). injection Es as <-; cbn; unfold zmoved; now rewrite nth_set_other.
      * injection Es as <-; cbn; unfold zmoved; now rewrite nth_set_other.
      * discriminate.
  - destruct (nth_error (g_ucalls g) j) as [d|] eqn:Ej; [|discriminate].
    destruct (unzip_keeps_z _ _ _ _ _ Es) as [_ [_ [_ H3]]]. now rewrite H3.
  - injection Es as <-. exact E.
  - injection Es as <-. exact E.
Qed.

Lemma gzip_kept : forall ls g k out ls' g', exec gzip_init ls = Some g -> zip_result g k = Some out -> exec g ls' = Some g' ->
  zip_result g' k = Some out.
Proof.
  intros ls g k out ls' g' H R H'. destruct (gzip_alone _ _ _ _ H R) as [input [Hin Em]].
  unfold zip_result in R. destruct (nth_error (g_zcalls g) k) as [c|] eqn:E; [|discriminate].
  destruct (zc_pc c) eqn:P; try discriminate. pose proof (zend_kept _ _ _ _ _ H' E P) as E'.
  destruct (exec_inv _ _ _ (exec_inv _ _ _ init_inv H) H') as [I _].
  pose proof (zi_ok g' I k c E') as Ok. unfold zcall_ok in Ok. rewrite P in Ok. destruct Ok as [dn [H1 H2]].
  unfold zip_result. rewrite E', P, H1. f_equal.
  destruct (exec_inputs _ _ _ H) as [Hi _]. cbn [gzip_init g_zcalls map app] in Hi.
  assert (Ei : zc_input c = input). { rewrite <- Hi, nth_error_map, E in Hin. cbn in Hin. congruence. }
  rewrite Ei in H2. exact (emits_one _ _ _ H2 _ Em).
Qed.

(** * Calls return *)

Lemma zip_next : forall g k c, zinv g -> nth_error (g_zcalls g) k = Some c -> zc_pc c <> ZEnd ->
  exists g' c', step g (Zip k None) = Some g' /\ zinv g' /\ nth_error (g_zcalls g') k = Some c' /\
    zc_pc c' = match zc_pc c with ZGet => ZReset | ZReset => ZWrite (zc_input c) | ZWrite (String _ r) => ZWrite r | ZWrite EmptyString => ZClose | ZClose => ZPut | _ => ZEnd end.
Proof.
  intros g k c I E N.
  assert (Hs : exists g' c', zip_step z_made z_fresh z_write z_close g k None c = Some g' /\ nth_error (g_zcalls g') k = Some c' /\
    zc_pc c' = match zc_pc c with ZGet => ZReset | ZReset => ZWrite (zc_input c) | ZWrite (String _ r) => ZWrite r | ZWrite EmptyString => ZClose | ZClose => ZPut | _ => ZEnd end).
  { pose proof (zi_ok g I k c E) as Ok. unfold zcall_ok in Ok. unfold zip_step.
    destruct (zc_pc c) as [| |[|x rest]| | |] eqn:P; try (now elim N).
    - eexists _, _. split; [reflexivity|]. cbn. unfold zmoved. rewrite nth_set, Nat.eqb_refl, E. now split.
    - eexists _, _. split; [reflexivity|]. cbn. unfold zmoved. rewrite nth_set, Nat.eqb_refl, E. now split.
    - eexists _, _. split; [reflexivity|]. cbn. unfold zmoved. rewrite nth_set, Nat.eqb_refl, E. now split.
    - destruct Ok as [st [dn [W _]]]. rewrite W. cbn [wr_state]. destruct (z_write st x).
      eexists _, _. split; [reflexivity|]. cbn. unfold zmoved. rewrite nth_set, Nat.eqb_refl, E. now split.
    - destruct Ok as [st [dn [W _]]]. rewrite W. cbn [wr_state]. destruct (z_close st).
      eexists _, _. split; [reflexivity|]. cbn. unfold zmoved. rewrite nth_set, Nat.eqb_refl, E. now split.
    - eexists _, _. split; [reflexivity|]. cbn. unfold zmoved. rewrite nth_set, Nat.eqb_refl, E. now split. }
  destruct Hs as [g' [c' [H1 [H2 H3]]]]. exists g', c'. cbn [gzip_step]. rewrite E.
  split; [exact H1|]. split; [exact (zip_inv _ _ _ _ _ I E H1)|]. now split.
Qed.

Definition zleft (p : zpc) (input : string) : nat :=
  match p with
  | ZGet => 5 + String.length input | ZReset => 4 + String.length input | ZWrite r => 3 + String.length r
  | ZClose => 2 | ZPut => 1 | ZEnd => 0
  end.

Lemma zip_step_one_input : forall g k g' c, step g (Zip k None) = Some g' -> nth_error (g_zcalls g) k = Some c ->
  forall c', nth_error (g_zcalls g') k = Some c' -> zc_input c' = zc_input c.
Proof.
  intros g k g' c H E c' E'. cbn [gzip_step] in H. rewrite E in H. pose proof (zip_step_input _ _ _ _ _ E H) as Hm.
  assert (A : nth_error (map zc_input (g_zcalls g')) k = nth_error (map zc_input (g_zcalls g)) k) by now rewrite Hm.
  rewrite !nth_error_map, E, E' in A. cbn in A. congruence.
Qed.

Lemma zip_finishes : forall n g k c, zinv g -> nth_error (g_zcalls g) k = Some c -> zleft (zc_pc c) (zc_input c) = n ->
  exists g' c', exec g (repeat (Zip k None) n) = Some g' /\ nth_error (g_zcalls g') k = Some c' /\ zc_pc c' = ZEnd /\ zinv g'.
Proof.
  induction n as [|n IH]; intros g k c I E L.
  - exists g, c. split; [reflexivity|]. split; [exact E|]. split; [|exact I]. destruct (zc_pc c); try discriminate. reflexivity.
  - assert (N : zc_pc c <> ZEnd) by (intro P; rewrite P in L; discriminate).
    destruct (zip_next g k c I E N) as [g1 [c1 [H1 [I1 [E1 P1]]]]].
    pose proof (zip_step_one_input _ _ _ _ H1 E _ E1) as Ei.
    assert (L1 : zleft (zc_pc c1) (zc_input c1) = n).
    { rewrite P1, Ei. destruct (zc_pc c) as [| |[|x rest]| | |]; cbn in *; try lia; try congruence. }
    destruct (IH g1 k c1 I1 E1 L1) as [g' [c' [H2 H3]]]. exists g', c'. split; [|exact H3].
    cbn [repeat gzip_exec]. rewrite H1. exact H2.
Qed.

Lemma gzip_returns : forall ls g k input, exec gzip_init ls = Some g -> nth_error (zip_inputs ls) k = Some input ->
  exists n g' out, exec g (repeat (Zip k None) n) = Some g' /\ zip_result g' k = Some out.
Proof.
  intros ls g k input H Hin. destruct (exec_inv _ _ _ init_inv H) as [I _]. destruct (exec_inputs _ _ _ H) as [Hi _]. cbn [gzip_init g_zcalls map app] in Hi.
  rewrite <- Hi, nth_error_map in Hin. destruct (nth_error (g_zcalls g) k) as [c|] eqn:E; [|discriminate].
  destruct (zip_finishes _ g k c I E eq_refl) as [g' [c' [H1 [E' [P' I']]]]].
  pose proof (zi_ok g' I' k c' E') as Ok. unfold zcall_ok in Ok. rewrite P' in Ok. destruct Ok as [dn [H2 _]].
  exists (zleft (zc_pc c) (zc_input c)), g', dn. split; [exact H1|]. unfold zip_result. now rewrite E', P'.
Qed.

Lemma read_runs : forall u outs, yields u outs -> forall g k c, nth_error (g_ucalls g) k = Some c -> uc_pc c = URead -> nth_error (g_rds g) (uc_rd c) = Some u ->
  exists n g' out, exec g (repeat (Unzip k None) n) = Some g' /\ unzip_result g' k = Some out.
Proof.
  induction 1 as [u H|u out u' outs H H0 IH]; intros g k c E P R.
  - exists 2. cbn [repeat gzip_exec gzip_step]. rewrite E. unfold unzip_step at 1. rewrite P, R, H. cbn. unfold umoved. rewrite nth_set, Nat.eqb_refl, E. cbn.
    eexists _, _. split; [reflexivity|]. unfold unzip_result, umoved. cbn. rewrite nth_set, Nat.eqb_refl, nth_set, Nat.eqb_refl, E. reflexivity.
  - assert (Hs : exists g1 c1, unzip_step u_made u_reset u_read g k None c = Some g1 /\ nth_error (g_ucalls g1) k = Some c1 /\ uc_pc c1 = URead /\ nth_error (g_rds g1) (uc_rd c1) = Some u').
    { unfold unzip_step. rewrite P, R, H. eexists _, _. split; [reflexivity|]. cbn. unfold umoved. rewrite nth_set, Nat.eqb_refl, E.
      split; [reflexivity|]. split; [reflexivity|]. cbn. now rewrite nth_set, Nat.eqb_refl, R. }
    destruct Hs as [g1 [c1 [H1 [E1 [P1 R1]]]]]. destruct (IH g1 k c1 E1 P1 R1) as [n [g' [o [H2 H3]]]].
    exists (S n), g', o. split; [|exact H3]. cbn [repeat gzip_exec gzip_step]. rewrite E, H1. exact H2.
Qed.

Lemma gunzip_returns : forall ls g k input all, exec gzip_init ls = Some g -> nth_error (unzip_inputs ls) k = Some input -> yields (u_reset input) all ->
  exists n g' out, exec g (repeat (Unzip k None) n) = Some g' /\ unzip_result g' k = Some out.
Proof.
  intros ls g k input all H Hin Y. destruct (exec_inv _ _ _ init_inv H) as [_ I]. destruct (exec_inputs _ _ _ H) as [_ Hi]. cbn [gzip_init g_ucalls map app] in Hi.
  rewrite <- Hi, nth_error_map in Hin. clear Hi. destruct (nth_error (g_ucalls g) k) as [c|] eqn:E; [|discriminate].
  cbn in Hin. injection Hin as <-.
  assert (AtReset : forall g c, uinv g -> nth_error (g_ucalls g) k = Some c -> uc_pc c = UReset -> yields (u_reset (uc_input c)) all ->
    exists n g' out, exec g (repeat (Unzip k None) n) = Some g' /\ unzip_result g' k = Some out).
  { clear. intros g c I E P Y.
    assert (Hs : exists g1 c1, unzip_step u_made u_reset u_read g k None c = Some g1 /\ nth_error (g_ucalls g1) k = Some c1 /\ uc_pc c1 = URead /\
      nth_error (g_rds g1) (uc_rd c1) = Some (u_reset (uc_input c))).
    { unfold unzip_step. rewrite P. eexists _, _. split; [reflexivity|]. cbn. unfold umoved. rewrite nth_set, Nat.eqb_refl, E.
      split; [reflexivity|]. split; [reflexivity|]. cbn. rewrite nth_set, Nat.eqb_refl.
      destruct (nth_error (g_rds g) (uc_rd c)) eqn:En; [reflexivity|]. apply nth_error_None in En.
      pose proof (proj1 (ui_hold g I k c E ltac:(rewrite P; exact Logic.I))). lia. }
    destruct Hs as [g1 [c1 [H1 [E1 [P1 R1]]]]]. destruct (read_runs _ _ Y g1 k c1 E1 P1 R1) as [n [g' [o [H2 H3]]]].
    exists (S n), g', o. split; [|exact H3]. cbn [repeat gzip_exec gzip_step]. rewrite E, H1. exact H2. }
  pose proof (ui_ok g I k c E) as Ok. unfold ucall_ok in Ok. destruct (uc_pc c) eqn:P.
  - assert (Hs : exists g1 c1, unzip_step u_made u_reset u_read g k None c = Some g1 /\ nth_error (g_ucalls g1) k = Some c1 /\ uc_pc c1 = UReset /\ uc_input c1 = uc_input c).
    { unfold unzip_step. rewrite P. eexists _, _. split; [reflexivity|]. cbn. unfold umoved. rewrite nth_set, Nat.eqb_refl, E.
      split; [reflexivity|]. now split. }
    destruct Hs as [g1 [c1 [H1 [E1 [P1 In1]]]]]. rewrite <- In1 in Y.
    destruct (AtReset g1 c1 (unzip_inv _ _ _ _ _ I E H1) E1 P1 Y) as [n [g' [o [H2 H3]]]].
    exists (S n), g', o. split; [|exact H3]. cbn [repeat gzip_exec gzip_step]. rewrite E, H1. exact H2.
  - exact (AtReset g c I E P Y).
  - destruct Ok as [u [R [_ Ex]]]. destruct (Ex all Y) as [rest Hr]. exact (read_runs _ _ Hr g k c E P R).
  - exists 1. cbn [repeat gzip_exec gzip_step]. rewrite E. unfold unzip_step. rewrite P. eexists _, _. split; [reflexivity|].
    unfold unzip_result, umoved. cbn. rewrite nth_set, Nat.eqb_refl, E. reflexivity.
  - exists 0, g, (uc_dec c). split; [reflexivity|]. unfold unzip_result. now rewrite E, P.
Qed.

Lemma codings_functions :
  (forall s, exists out, emits z_fresh s out) /\
  (forall s a b, emits z_fresh s a -> emits z_fresh s b -> a = b) /\
  (forall s a b, yields (u_reset s) a -> yields (u_reset s) b -> a = b).
Proof.
  split; [intro s; apply emits_some|]. split.
  - intros s a b H. exact (emits_one _ _ _ H b).
  - intros s a b H. exact (yields_one _ _ H b).
Qed.

End GzipProofs.
