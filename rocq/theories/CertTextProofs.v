(** Lemmas for Thm_CertText. *)
From Coq Require Import String Ascii List Bool ZArith NArith Lia.
From Verif Require Import GoStr Tls TlsSpec TlsReport TlsReportSpec TlsReportProofs CertText CertTextSpec.
Import ListNotations.
Local Open Scope string_scope.

(** * Durations *)

Definition sz (u : unit_of_time) : Z :=
  match u with
  | Year => 31536000000000 | Week => 604800000000 | Day => 86400000000 | Hour => 3600000000
  | Minute => 60000000 | Second => 1000000 | Milli => 1000 | Micro => 1
  end%Z.

Lemma lasting_sz : forall u, (lasting u = 1000 * sz u)%Z.
Proof. destruct u; reflexivity. Qed.
Lemma sz_pos : forall u, (0 < sz u)%Z.
Proof. destruct u; reflexivity. Qed.

Definition eight : list unit_of_time := [Year; Week; Day; Hour; Minute; Second; Milli; Micro].
Lemma units_eight : units = map (fun u => (name_of u, sz u)) eight.
Proof. reflexivity. Qed.

Fixpoint amt (ps : list (Z * unit_of_time)) : Z := match ps with [] => 0 | (k, u) :: ps' => k * sz u + amt ps' end%Z.
Lemma amount_amt : forall ps, (amount ps = 1000 * amt ps)%Z.
Proof. induction ps as [|[k u] ps IH]; [reflexivity|]. cbn [amount amt]. rewrite IH, lasting_sz. lia. Qed.

Fixpoint pos (us : Z) (l : list unit_of_time) : list (Z * unit_of_time) :=
  match l with
  | [] => []
  | u :: l' => ((if (1 <=? us / sz u)%Z then [(us / sz u, u)%Z] else []) ++ pos (us mod sz u)%Z l')%list
  end.

Definition two (p : Z * unit_of_time) : list string := [itoa_Z (fst p); name_of (snd p) ++ (if Z.eqb (fst p) 1 then "" else "s")].

Lemma words_two : forall k u, (0 <= k)%Z -> words (k, name_of u) = if (1 <=? k)%Z then two (k, u) else [].
Proof.
  intros k u H. unfold words, two. cbn [fst snd]. destruct (Z.ltb_spec 1 k).
  - destruct (Z.leb_spec 1 k); [|lia]. destruct (Z.eqb_spec k 1); [lia|reflexivity].
  - destruct (Z.eqb_spec k 1) as [->|].
    + cbn. rewrite append_nil_r. reflexivity.
    + destruct (Z.leb_spec 1 k); [lia|reflexivity].
Qed.

Lemma counts_pos : forall l us, (0 <= us)%Z ->
  concat (map words (counts us (map (fun u => (name_of u, sz u)) l))) = concat (map two (pos us l)).
Proof.
  induction l as [|u l IH]; intros us H; [reflexivity|]. cbn [map counts concat pos]. assert (P := sz_pos u).
  rewrite Z.quot_div_nonneg by lia. rewrite words_two by (apply Z.div_pos; lia).
  replace (us - us / sz u * sz u)%Z with (us mod sz u)%Z by (rewrite Z.mod_eq by lia; lia).
  rewrite IH by (apply Z.mod_pos_bound; lia). destruct (1 <=? us / sz u)%Z; cbn [app map concat]; reflexivity.
Qed.

Lemma firstn_two : forall n ps, firstn (2 * n) (concat (map two ps)) = concat (map two (firstn n ps)).
Proof.
  induction n as [|n IH]; intros ps; [reflexivity|]. destruct ps as [|p ps]; [now rewrite firstn_nil|].
  replace (2 * S n) with (S (S (2 * n))) by lia. cbn [map concat two app firstn]. now rewrite IH.
Qed.

Lemma join_two : forall ps, join " " (concat (map two ps)) = join " " (map phrase ps).
Proof.
  induction ps as [|p ps IH]; [reflexivity|]. destruct ps as [|q ps]; [reflexivity|].
  change (join " " (map phrase (p :: q :: ps))) with (phrase p ++ " " ++ join " " (map phrase (q :: ps))).
  rewrite <- IH. cbn [map concat two app join]. unfold phrase. rewrite !append_assoc. reflexivity.
Qed.

Lemma durafmt_pos : forall n d, (0 < d)%Z -> durafmt n d = join " " (map phrase (firstn n (pos (d / 1000) eight))).
Proof.
  intros n d H. unfold durafmt. destruct (Z.eqb_spec d 0); [lia|]. destruct (Z.ltb_spec d 0); [lia|]. cbv zeta. cbn [append].
  rewrite units_eight, Z.quot_div_nonneg by lia. rewrite counts_pos by (apply Z.div_pos; lia). now rewrite firstn_two, join_two.
Qed.

Inductive good : list unit_of_time -> Prop :=
| good_last : good [Micro]
| good_more : forall u v l, (sz v < sz u)%Z -> good (v :: l) -> good (u :: v :: l).

Lemma eight_good : good eight.
Proof. repeat constructor. Qed.

Lemma good_below : forall l u v, good (u :: l) -> In v l -> (sz v < sz u)%Z.
Proof.
  induction l as [|w l IH]; intros u v G H; [contradiction|]. inversion G; subst. destruct H as [<-|H]; [assumption|].
  specialize (IH w v H4 H). lia.
Qed.

Lemma pos_all : forall l us, good l -> (0 <= us)%Z -> amt (pos us l) = us.
Proof.
  induction l as [|u l IH]; intros us G H; [inversion G|]. cbn [pos]. assert (P := sz_pos u).
  assert (M := Z.mod_pos_bound us (sz u) P). assert (D := Z.div_mod us (sz u) ltac:(lia)). assert (Q := Z.div_pos us (sz u) H P).
  assert (R : amt (pos (us mod sz u) l) = (us mod sz u)%Z).
  { inversion G; subst; [cbn [pos amt sz]; rewrite Z.mod_1_r; reflexivity|apply IH; [assumption|lia]]. }
  destruct (Z.leb_spec 1 (us / sz u)); cbn [app amt]; rewrite R; [lia|]. replace (us / sz u)%Z with 0%Z in D by lia. lia.
Qed.

Lemma pos_units : forall l us p, In p (pos us l) -> In (snd p) l /\ (1 <= fst p)%Z.
Proof.
  induction l as [|u l IH]; intros us p H; [contradiction|]. cbn [pos] in H. apply in_app_or in H. destruct H as [H|H].
  - destruct (Z.leb_spec 1 (us / sz u)); [|contradiction]. destruct H as [<-|[]]. split; [now left|assumption].
  - destruct (IH _ _ H). split; [now right|assumption].
Qed.

Lemma pos_falling : forall l us, good l -> falling (pos us l).
Proof.
  induction l as [|u l IH]; intros us G; [exact I|]. cbn [pos].
  assert (F : falling (pos (us mod sz u) l)). { inversion G; subst; [cbn [pos]; exact I|now apply IH]. }
  destruct (Z.leb_spec 1 (us / sz u)); [|exact F]. cbn [app falling]. split; [|exact F].
  destruct (pos (us mod sz u) l) as [|[k v] ps] eqn:E; [exact I|]. rewrite !lasting_sz.
  assert (In v l). { apply (pos_units l (us mod sz u) (k, v)). rewrite E. now left. }
  assert (X := good_below _ _ _ G H0). lia.
Qed.

Lemma falling_firstn : forall ps n, falling ps -> falling (firstn n ps).
Proof.
  induction ps as [|[k u] ps IH]; intros n F; [now rewrite firstn_nil|]. destruct n as [|n]; [exact I|]. cbn [firstn falling] in *. destruct F as [F1 F2].
  split; [|now apply IH]. destruct n as [|n]; [exact I|]. destruct ps as [|[k' v] ps]; [exact I|exact F1].
Qed.

Lemma greedy : forall l us n, good l -> (0 < us)%Z -> 1 <= n ->
  exists front k u, firstn n (pos us l) = (front ++ [(k, u)])%list /\ In u l /\
    (amt (firstn n (pos us l)) <= us < amt (firstn n (pos us l)) + (if Nat.eqb (length (firstn n (pos us l))) n then sz u else 1))%Z.
Proof.
  induction l as [|u l IH]; intros us n G H Hn; [inversion G|]. cbn [pos]. assert (P := sz_pos u).
  assert (M := Z.mod_pos_bound us (sz u) P). assert (D := Z.div_mod us (sz u) ltac:(lia)). assert (Q := Z.div_pos us (sz u) ltac:(lia) P).
  destruct (Z.leb_spec 1 (us / sz u)) as [K|K].
  - destruct n as [|n]; [lia|]. cbn [app firstn amt length]. destruct (Z.eq_dec (us mod sz u) 0) as [Z0|N0].
    + assert (E : pos (us mod sz u) l = []).
      { rewrite Z0. clear. induction l as [|v l IH]; [reflexivity|]. cbn [pos]. rewrite Z.div_0_l, Z.mod_0_l by (assert (X := sz_pos v); lia). exact IH. }
      rewrite E, firstn_nil. exists [], (us / sz u)%Z, u. split; [reflexivity|]. split; [now left|]. cbn [amt length].
      destruct (Nat.eqb 1 (S n)); lia.
    + destruct n as [|n].
      * cbn [firstn]. exists [], (us / sz u)%Z, u. split; [reflexivity|]. split; [now left|]. cbn [amt length Nat.eqb]. lia.
      * assert (G' : good l). { inversion G; subst; [exfalso; cbn in N0; rewrite Z.mod_1_r in N0; lia|assumption]. }
        destruct (IH (us mod sz u)%Z (S n) G' ltac:(lia) ltac:(lia)) as [fr [k [v [E [I1 B]]]]].
        exists ((us / sz u, u)%Z :: fr), k, v. split; [rewrite E; reflexivity|]. split; [now right|].
        change (Nat.eqb (S (length (firstn (S n) (pos (us mod sz u) l)))) (S (S n))) with (Nat.eqb (length (firstn (S n) (pos (us mod sz u) l))) (S n)).
        destruct (Nat.eqb (length (firstn (S n) (pos (us mod sz u) l))) (S n)); lia.
  - cbn [app]. assert (Z0 : (us / sz u = 0)%Z) by lia. rewrite Z0 in D.
    assert (G' : good l). { inversion G; subst; [exfalso; cbn in K; rewrite Z.div_1_r in K; lia|assumption]. }
    destruct (IH (us mod sz u)%Z n G' ltac:(lia) Hn) as [fr [k [v [E [I1 B]]]]].
    exists fr, k, v. split; [exact E|]. split; [now right|]. lia.
Qed.

Lemma durafmt_true : forall n d, 1 <= n -> (1000 <= d)%Z -> exists ps, durafmt n d = join " " (map phrase ps) /\ tells_truly n ps d.
Proof.
  intros n d Hn Hd. exists (firstn n (pos (d / 1000) eight)). split; [apply durafmt_pos; lia|].
  assert (U : (0 < d / 1000)%Z) by (apply Z.div_str_pos; lia).
  destruct (greedy eight (d / 1000) n eight_good U Hn) as [fr [k [u [E [_ B]]]]].
  assert (D := Z.div_mod d 1000 ltac:(lia)). assert (M := Z.mod_pos_bound d 1000 ltac:(lia)).
  split; [|split; [|split]].
  - split; [rewrite E, app_length; cbn; lia|apply firstn_le_length].
  - apply Forall_forall. intros p I1. apply (pos_units eight (d / 1000)). rewrite <- (firstn_skipn n). apply in_or_app. now left.
  - apply falling_firstn, pos_falling, eight_good.
  - exists fr, k, u. split; [exact E|]. rewrite amount_amt, lasting_sz.
    destruct (Nat.eqb (length (firstn n (pos (d / 1000) eight))) n); lia.
Qed.

(** One unit: the longest that fits *)
Lemma durafmt_one : forall d, (1000 <= d)%Z -> exists k u, durafmt 1 d = phrase (k, u) /\
  (1 <= k /\ k * lasting u <= d < (k + 1) * lasting u)%Z /\ forall v, (lasting v <= d)%Z -> (lasting v <= lasting u)%Z.
Proof.
  intros d H. rewrite durafmt_pos by lia. unfold eight.
  assert (U : (0 < d / 1000)%Z) by (apply Z.div_str_pos; lia).
  assert (D := Z.div_mod d 1000 ltac:(lia)). assert (M := Z.mod_pos_bound d 1000 ltac:(lia)). set (us := (d / 1000)%Z) in *.
  assert (X : forall l us0, good l -> (0 < us0)%Z -> exists k u rest, pos us0 l = (k, u) :: rest /\ k = (us0 / sz u)%Z /\ (1 <= k)%Z /\
    forall v, In v l -> (sz v <= us0)%Z -> (sz v <= sz u)%Z).
  { clear. induction l as [|u l IH]; intros us0 G H; [inversion G|]. cbn [pos]. assert (P := sz_pos u).
    destruct (Z.leb_spec 1 (us0 / sz u)) as [K|K].
    - exists (us0 / sz u)%Z, u, (pos (us0 mod sz u) l). split; [reflexivity|]. split; [reflexivity|]. split; [exact K|].
      intros v [<-|Hv] _; [lia|]. assert (B := good_below _ _ _ G Hv). lia.
    - assert (L : (us0 < sz u)%Z). { destruct (Z.lt_ge_cases us0 (sz u)); [assumption|]. assert (1 <= us0 / sz u)%Z by (apply Z.div_le_lower_bound; lia). lia. }
      rewrite (Z.mod_small us0 (sz u)) by lia.
      assert (G' : good l). { inversion G; subst; [cbn in L; lia|assumption]. }
      destruct (IH us0 G' H) as [k [u' [rest [E [E1 [E2 E3]]]]]]. exists k, u', rest. split; [exact E|]. split; [exact E1|]. split; [exact E2|].
      intros v [<-|Hv] B; [lia|now apply E3]. }
  destruct (X eight us eight_good U) as [k [u [rest [E [Ek [K F]]]]]]. unfold eight in E. rewrite E. cbn [firstn map join].
  exists k, u. split; [reflexivity|]. assert (P := sz_pos u). assert (Du := Z.div_mod us (sz u) ltac:(lia)). assert (Mu := Z.mod_pos_bound us (sz u) P).
  rewrite lasting_sz. split; [split; [exact K|]; rewrite Ek; nia|].
  intros v Hv. rewrite lasting_sz in *. assert (In v eight) by (destruct v; cbn; tauto). specialize (F v H0 ltac:(lia)). lia.
Qed.

Lemma durafmt_negative : forall n d, (int64_min < d < 0)%Z -> durafmt n d = "-" ++ durafmt n (- d).
Proof.
  intros n d H. unfold durafmt. destruct (Z.eqb_spec d 0); [lia|]. destruct (Z.eqb_spec (- d) 0); [lia|].
  destruct (Z.ltb_spec d 0); [|lia]. destruct (Z.ltb_spec (- d) 0); [lia|]. cbv zeta. rewrite wrap64_id; [reflexivity|].
  unfold int64_min, int64_max in *. lia.
Qed.
