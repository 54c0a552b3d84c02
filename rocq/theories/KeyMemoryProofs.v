(** Lemmas for Thm_KeyMemory. *)
From Coq Require Import String List Bool Arith Lia.
From Verif Require Import Jwt IprexShared IprexSharedProofs KeyMemory KeyMemorySpec.
Import ListNotations.

(** * Lists *)

Lemma nth_put_same : forall A i (x d : A) l, i < List.length l -> nth i (put i x l) d = x.
Proof. intros A. induction i as [|i IH]; intros x d [|y l] H; cbn in *; try lia; [reflexivity|]. apply IH. lia. Qed.

Lemma nth_put_other : forall A i k (x d : A) l, i <> k -> nth k (put i x l) d = nth k l d.
Proof. intros A. induction i as [|i IH]; intros [|k] x d [|y l] H; cbn; try reflexivity; try congruence. apply IH. congruence. Qed.

Lemma nth_error_put : forall A i k (x : A) l, i < List.length l -> nth_error (put i x l) k = if Nat.eqb i k then Some x else nth_error l k.
Proof.
  intros A i k x l H. destruct (Nat.eqb_spec i k) as [->|N]; [|now apply put_other].
  destruct (nth_error l k) as [c|] eqn:E; [exact (put_same A k x l c E)|]. apply nth_error_None in E. lia.
Qed.

Lemma cells_first : forall (arr : list (option (string * key))) K, (forall j, j < List.length arr -> nth_error arr j = Some (nth_error K j)) ->
  List.length K <= List.length arr -> firstn (List.length K) arr = map Some K.
Proof.
  induction arr as [|c arr IH]; intros [|k K] G R; cbn [firstn List.length map] in *; try reflexivity; [lia|].
  pose proof (G 0 ltac:(lia)) as G0. cbn in G0. injection G0 as ->. f_equal. apply IH; [|lia]. intros j Hj. exact (G (S j) ltac:(lia)).
Qed.

(** * Sets *)

Lemma set_snoc : forall kps kp, set_of (kps ++ [kp]) = upsert (set_of kps) kp.
Proof. intros kps kp. unfold set_of. now rewrite fold_left_app. Qed.

Lemma upsert_grows : forall ks kp, exists t, upsert ks kp = (ks ++ t)%list.
Proof. intros ks kp. unfold upsert. destruct (existsb _ ks); [exists []; now rewrite app_nil_r|now exists [kp]]. Qed.

Lemma set_grows : forall rest kps, exists t, set_of (kps ++ rest) = (set_of kps ++ t)%list.
Proof.
  induction rest as [|kp rest IH] using rev_ind; intros kps; [exists []; now rewrite !app_nil_r|].
  rewrite app_assoc, set_snoc. destruct (IH kps) as [t Et]. rewrite Et. destruct (upsert_grows (set_of kps ++ t) kp) as [u Eu].
  exists (t ++ u)%list. now rewrite Eu, app_assoc.
Qed.

Lemma loaded_snoc : forall l a, loaded (l ++ [a]) = (loaded l ++ match a with Upsert kp _ => [kp] | _ => [] end)%list.
Proof. induction l as [|b l IH]; intros a; [now destruct a|]. cbn [app loaded]. destruct b; cbn [app]; rewrite ?IH; reflexivity. Qed.

(** * The invariant *)

(** A length is one of the set after some of the loads. *)
Definition was_length (l : list access) (n : nat) : Prop := exists kps rest, loaded l = (kps ++ rest)%list /\ n = List.length (set_of kps).

Lemma was_now : forall l, was_length l (List.length (set_of (loaded l))).
Proof. intros l. exists (loaded l), []. now rewrite app_nil_r. Qed.

Lemma was_later : forall l a n, was_length l n -> was_length (l ++ [a]) n.
Proof. intros l a n (kps & rest & E & En). exists kps, (rest ++ match a with Upsert kp _ => [kp] | _ => [] end)%list. split; [|exact En]. now rewrite loaded_snoc, E, app_assoc. Qed.

Lemma was_le : forall l n, was_length l n -> n <= List.length (set_of (loaded l)).
Proof. intros l n (kps & rest & E & ->). rewrite E. destruct (set_grows rest kps) as [t ->]. rewrite app_length. lia. Qed.

Definition cell_at (K : keyset) (size j : nat) : cell :=
  if j <? size then match nth_error K j with Some kp => Got kp | None => Zero end else Beyond.

Definition reader_ok (l : list access) (s : memory) (r : reader) : Prop :=
  (forall p, r_ptr r = Some p -> p < List.length (m_heap s)) /\
  (forall n, r_len r = Some n -> was_length l n /\ List.length (r_seen r) <= n) /\
  (forall j c, nth_error (r_seen r) j = Some c ->
     exists p n, r_ptr r = Some p /\ r_len r = Some n /\ c = cell_at (set_of (loaded l)) (List.length (array s p)) j).

Definition goal_head (s : memory) : header := match m_new s with Some (h, _) => h | None => m_head s end.

Record mem_ok (l : list access) (s : memory) : Prop := MemOk {
  ok_cells : forall p j, p < List.length (m_heap s) -> j < List.length (array s p) -> nth_error (array s p) j = Some (nth_error (set_of (loaded l)) j);
  ok_full : forall p, S p < List.length (m_heap s) -> List.length (array s p) <= List.length (set_of (loaded l));
  ok_ptr : S (h_ptr (goal_head s)) = List.length (m_heap s);
  ok_len : h_len (goal_head s) = List.length (set_of (loaded l));
  ok_cap : h_cap (goal_head s) = List.length (array s (h_ptr (goal_head s)));
  ok_room : List.length (set_of (loaded l)) <= h_cap (goal_head s);
  ok_head : h_ptr (m_head s) < List.length (m_heap s);
  ok_was : was_length l (h_len (m_head s));
  ok_stored : forall h ws, m_new s = Some (h, ws) ->
     (In WPtr ws \/ h_ptr (m_head s) = h_ptr h) /\ (In WLen ws \/ h_len (m_head s) = h_len h) /\ (In WCap ws \/ h_cap (m_head s) = h_cap h);
  ok_readers : forall r, In r (m_readers s) -> reader_ok l s r }.

Lemma ok_init : mem_ok [] memory_init.
Proof.
  split; cbn.
  - intros [|p] j Hp Hj; cbn in *; lia.
  - intros p Hp. lia.
  - reflexivity.
  - reflexivity.
  - reflexivity.
  - lia.
  - lia.
  - exact (was_now []).
  - intros h ws F. discriminate F.
  - intros r [].
Qed.

Lemma in_put_reader : forall i (r c : reader) l, In c (put i r l) -> c = r \/ In c l.
Proof. intros. now apply in_put in H. Qed.

(** Moves of readers keep everything else. *)
Lemma keep_but_readers : forall l s a rs, mem_ok l s -> (match a with Upsert _ _ => False | _ => True end) ->
  (forall r, In r rs -> reader_ok l s r) -> mem_ok (l ++ [a]) (Memory (m_heap s) (m_head s) (m_new s) rs).
Proof.
  intros l s a rs [] Ha Hr. assert (El : loaded (l ++ [a]) = loaded l) by (rewrite loaded_snoc; destruct a; try (now rewrite app_nil_r); destruct Ha).
  split; cbn [m_heap m_head m_new m_readers]; unfold goal_head, array in *; cbn [m_heap m_head m_new]; rewrite ?El; try assumption.
  - now apply was_later.
  - intros r Hin. destruct (Hr r Hin) as (R1 & R2 & R3). split; [exact R1|]. split.
    + intros n En. destruct (R2 n En) as [W Ln]. split; [now apply was_later|exact Ln].
    + intros j c Ec. unfold array in *. cbn [m_heap]. rewrite El. exact (R3 j c Ec).
Qed.

Lemma reader_keeps : forall l a s s' r, reader_ok l s r -> List.length (m_heap s) <= List.length (m_heap s') ->
  (forall p, p < List.length (m_heap s) -> List.length (array s' p) = List.length (array s p)) -> reader_ok (l ++ [a]) s' r.
Proof.
  intros l a s s' r (R1 & R2 & R3) Hl Ha. split; [intros p Ep; specialize (R1 p Ep); lia|]. split.
  - intros n En. destruct (R2 n En) as [W Ln]. split; [now apply was_later|exact Ln].
  - intros j c Ec. destruct (R3 j c Ec) as (p & n & Ep & En & Ecc). exists p, n. split; [exact Ep|]. split; [exact En|].
    rewrite Ha by exact (R1 p Ep). rewrite Ecc. unfold cell_at. destruct (j <? List.length (array s p)); [|reflexivity].
    destruct (R2 n En) as [W Ln]. apply was_le in W. assert (Hj : j < List.length (r_seen r)) by (apply nth_error_Some; congruence).
    rewrite loaded_snoc. destruct (set_grows (match a with Upsert kp _ => [kp] | _ => [] end) (loaded l)) as [t ->].
    rewrite nth_error_app1 by lia. reflexivity.
Qed.

Lemma ok_step : forall l s a s', mem_ok l s -> memory_step s a = Some s' -> mem_ok (l ++ [a]) s'.
Proof.
  intros l s a s' H E. destruct a as [kp room|w| |i|i|i]; cbn [memory_step] in E.
  - destruct (m_new s) as [hw|] eqn:New; [discriminate E|]. pose proof H as [Cells Full Ptr Len Cap Room Head Was Stored Readers].
    unfold goal_head in *. rewrite New in *. unfold upsert_begins in E. set (K := set_of (loaded l)) in *. set (h := m_head s) in *.
    assert (El : set_of (loaded (l ++ [Upsert kp room])) = upsert K kp) by (rewrite loaded_snoc; apply set_snoc).
    assert (Held : firstn (h_len h) (array s (h_ptr h)) = map Some K).
    { rewrite Len. apply cells_first; [intros j Hj; now apply Cells|lia]. }
    rewrite Held in E.
    assert (Ex : existsb (fun c => match c with Some k => String.eqb (fst k) (fst kp) | None => false end) (map Some K) = existsb (fun k => String.eqb (fst k) (fst kp)) K).
    { clear. induction K as [|k K IH]; cbn [map existsb]; [reflexivity|now rewrite IH]. }
    rewrite Ex in E. unfold upsert in El. destruct (existsb _ K) eqn:Kn.
    + injection E as <-. split; unfold goal_head; rewrite ?New, ?El; try assumption; fold K; try assumption.
      * now apply was_later.
      * intros r Hin. apply (reader_keeps l _ s s); [now apply Readers|lia|reflexivity].
    + destruct (h_len h <? h_cap h) eqn:Lt.
      * apply Nat.ltb_lt in Lt. injection E as <-. set (arr := put (h_len h) (Some kp) (array s (h_ptr h))). set (heap := put (h_ptr h) arr (m_heap s)).
        assert (Lh : List.length heap = List.length (m_heap s)) by apply put_length.
        assert (At : nth (h_ptr h) heap [] = arr) by (apply nth_put_same; exact Head).
        assert (Off : forall p, h_ptr h <> p -> nth p heap [] = array s p) by (intros p N; now apply nth_put_other).
        assert (La : List.length arr = List.length (array s (h_ptr h))) by apply put_length.
        assert (Sz : forall p, List.length (nth p heap []) = List.length (array s p)).
        { intros p. destruct (Nat.eq_dec (h_ptr h) p) as [<-|N]; [now rewrite At|now rewrite Off]. }
        split; unfold goal_head; cbn [m_heap m_head m_new m_readers h_ptr h_len h_cap]; rewrite ?Lh, ?El, ?app_length; cbn [List.length]; try lia.
        -- intros p j Hp. change (array (Memory heap h (Some (Header (h_ptr h) (S (h_len h)) (h_cap h), [WPtr; WLen; WCap])) (m_readers s)) p) with (nth p heap []). rewrite Sz. intros Hj.
           destruct (Nat.eq_dec (h_ptr h) p) as [<-|N].
           ++ rewrite At. unfold arr. rewrite nth_error_put by lia. rewrite Len. destruct (Nat.eqb_spec (List.length K) j) as [<-|Nj].
              ** rewrite nth_error_app2, Nat.sub_diag by lia. reflexivity.
              ** rewrite (Cells (h_ptr h) j Head Hj). f_equal. destruct (Nat.lt_ge_cases j (List.length K)) as [G|G]; [now rewrite nth_error_app1|].
                 rewrite nth_error_app2 by exact G. destruct (j - List.length K) as [|q] eqn:Q; [lia|]. cbn. apply nth_error_None in G. rewrite G. now destruct q.
           ++ rewrite Off by exact N. rewrite (Cells p j Hp Hj). f_equal.
              assert (Sp : S p < List.length (m_heap s)) by lia. pose proof (Full p Sp). rewrite nth_error_app1 by lia. reflexivity.
        -- intros p Hp. change (array _ p) with (nth p heap []). rewrite Sz. pose proof (Full p Hp). lia.
        -- change (array _ (h_ptr h)) with (nth (h_ptr h) heap []). rewrite Sz. exact Cap.
        -- now apply was_later.
        -- intros h0 ws F. injection F as <- <-. cbn. tauto.
        -- intros r Hin. apply (reader_keeps l _ s); [now apply Readers|cbn [m_heap]; lia|intros p _; exact (Sz p)].
      * destruct (h_len h <? room) eqn:Rm; [|discriminate E]. apply Nat.ltb_lt in Rm. apply Nat.ltb_ge in Lt. injection E as <-.
        set (arr := (map Some K ++ Some kp :: repeat None (room - S (h_len h)))%list).
        assert (La : List.length arr = room) by (unfold arr; rewrite app_length, map_length; cbn [List.length]; rewrite repeat_length; lia).
        assert (Old : forall p, p < List.length (m_heap s) -> nth p (m_heap s ++ [arr])%list [] = array s p) by (intros p Hp; now rewrite app_nth1).
        assert (NewA : nth (List.length (m_heap s)) (m_heap s ++ [arr])%list [] = arr) by (rewrite app_nth2, Nat.sub_diag by lia; reflexivity).
        split; unfold goal_head, array; cbn [m_heap m_head m_new m_readers h_ptr h_len h_cap]; rewrite ?app_length, ?El, ?app_length; cbn [List.length]; try lia.
        -- intros p j Hp Hj. destruct (Nat.eq_dec p (List.length (m_heap s))) as [->|N].
           ++ rewrite NewA in *. unfold arr. destruct (Nat.lt_ge_cases j (List.length K)) as [G|G].
              ** rewrite nth_error_app1 by (rewrite map_length; exact G). rewrite nth_error_map, nth_error_app1 by exact G.
                 destruct (nth_error K j) eqn:Q; [reflexivity|]. apply nth_error_None in Q. lia.
              ** rewrite nth_error_app2 by (rewrite map_length; exact G). rewrite map_length, nth_error_app2 by exact G.
                 destruct (j - List.length K) as [|q] eqn:Q; cbn [nth_error]; [reflexivity|].
                 rewrite (nth_error_nth' _ None) by (rewrite repeat_length; lia). rewrite nth_repeat. now destruct q.
           ++ rewrite Old in * by lia. rewrite (Cells p j ltac:(lia) Hj). f_equal.
              destruct (Nat.eq_dec p (h_ptr h)) as [->|Np]; [rewrite nth_error_app1 by lia; reflexivity|].
              pose proof (Full p ltac:(lia)). rewrite nth_error_app1 by lia. reflexivity.
        -- intros p Hp. rewrite Old by lia. destruct (Nat.eq_dec p (h_ptr h)) as [->|Np]; [lia|]. pose proof (Full p ltac:(lia)). lia.
        -- rewrite NewA. lia.
        -- now apply was_later.
        -- intros h0 ws F. injection F as <- <-. cbn. tauto.
        -- intros r Hin. apply (reader_keeps l _ s); [now apply Readers|cbn [m_heap]; rewrite app_length; cbn; lia|]. intros p Hp. unfold array at 1. cbn [m_heap]. now rewrite Old.
  - destruct (m_new s) as [[h ws]|] eqn:New; [|discriminate E]. pose proof H as [Cells Full Ptr Len Cap Room Head Was Stored Readers].
    unfold goal_head in *. rewrite New in *. destruct (existsb (word_eqb w) ws) eqn:Ew; [|discriminate E].
    assert (El : loaded (l ++ [Store w]) = loaded l) by (rewrite loaded_snoc; apply app_nil_r).
    destruct (Stored h ws eq_refl) as (S1 & S2 & S3).
    assert (Fi : forall x, In x (filter (fun x => negb (word_eqb w x)) ws) <-> In x ws /\ x <> w).
    { intros x. rewrite filter_In, negb_true_iff. split; intros [A B]; (split; [exact A|]); destruct w, x; cbn in *; congruence. }
    assert (St : let ws' := filter (fun x => negb (word_eqb w x)) ws in let hd := store w h (m_head s) in
      (In WPtr ws' \/ h_ptr hd = h_ptr h) /\ (In WLen ws' \/ h_len hd = h_len h) /\ (In WCap ws' \/ h_cap hd = h_cap h)).
    { cbn zeta. rewrite !Fi. destruct w; cbn [store h_ptr h_len h_cap].
      - split; [now right|]. split; [destruct S2; [left; split; [assumption|discriminate]|now right]|destruct S3; [left; split; [assumption|discriminate]|now right]].
      - split; [destruct S1; [left; split; [assumption|discriminate]|now right]|]. split; [now right|destruct S3; [left; split; [assumption|discriminate]|now right]].
      - split; [destruct S1; [left; split; [assumption|discriminate]|now right]|]. split; [destruct S2; [left; split; [assumption|discriminate]|now right]|now right]. }
    injection E as <-. set (ws' := filter (fun x => negb (word_eqb w x)) ws) in *. cbn zeta in St.
    assert (Gh : goal_head (Memory (m_heap s) (store w h (m_head s)) (match ws' with [] => None | _ :: _ => Some (h, ws') end) (m_readers s)) = h).
    { unfold goal_head. cbn [m_new m_head]. destruct ws' as [|x ws0] eqn:Ews; [|reflexivity]. destruct St as ([[]|A] & [[]|B] & [[]|C]).
      destruct (store w h (m_head s)) as [a b c]. destruct h as [d e f]. cbn in A, B, C. congruence. }
    assert (Hp : h_ptr (store w h (m_head s)) < List.length (m_heap s)) by (destruct w; cbn [store h_ptr]; lia).
    assert (Hl : was_length l (h_len (store w h (m_head s)))) by (destruct w; cbn [store h_len]; try exact Was; rewrite Len; apply was_now).
    split; rewrite ?Gh, ?El; cbn [m_heap m_head m_new m_readers]; try assumption.
    + now apply was_later.
    + intros h0 ws0 F. destruct ws' as [|x ws1] eqn:Ews; [discriminate F|]. injection F as <- <-. exact St.
    + intros r Hin. apply (reader_keeps l _ s); [now apply Readers|cbn [m_heap]; lia|reflexivity].
  - injection E as <-. apply keep_but_readers; [exact H|exact I|]. intros r Hin. apply in_app_or in Hin. destruct Hin as [Hin|[<-|[]]]; [now apply (ok_readers l s H)|].
    split; [intros p F; discriminate F|]. split; [intros n F; discriminate F|]. intros [|j] c F; discriminate F.
  - destruct (nth_error (m_readers s) i) as [[[p|] n seen]|] eqn:En; try discriminate E. injection E as <-. apply keep_but_readers; [exact H|exact I|].
    intros r Hin. apply in_put in Hin. destruct Hin as [->|Hin]; [|now apply (ok_readers l s H)].
    destruct (ok_readers l s H _ (nth_error_In _ _ En)) as (R1 & R2 & R3). cbn [r_ptr r_len r_seen] in *. split; [|split]; cbn [r_ptr r_len r_seen].
    + intros p Ep. injection Ep as <-. exact (ok_head l s H).
    + exact R2.
    + intros j c Ec. destruct (R3 j c Ec) as (p & m & Ep & _). discriminate Ep.
  - destruct (nth_error (m_readers s) i) as [[p [n|] seen]|] eqn:En; try discriminate E. injection E as <-. apply keep_but_readers; [exact H|exact I|].
    intros r Hin. apply in_put in Hin. destruct Hin as [->|Hin]; [|now apply (ok_readers l s H)].
    destruct (ok_readers l s H _ (nth_error_In _ _ En)) as (R1 & R2 & R3). cbn [r_ptr r_len r_seen] in *. split; [|split]; cbn [r_ptr r_len r_seen].
    + exact R1.
    + intros n Ep. injection Ep as <-. split; [exact (ok_was l s H)|]. destruct seen as [|c seen]; [cbn; lia|].
      destruct (R3 0 c eq_refl) as (q & m & _ & F & _). discriminate F.
    + intros j c Ec. destruct (R3 j c Ec) as (q & m & _ & F & _). discriminate F.
  - destruct (nth_error (m_readers s) i) as [[[p|] [n|] seen]|] eqn:En; try discriminate E. destruct (List.length seen <? n) eqn:Lt; [|discriminate E]. apply Nat.ltb_lt in Lt.
    injection E as <-. apply keep_but_readers; [exact H|exact I|].
    intros r Hin. apply in_put in Hin. destruct Hin as [->|Hin]; [|now apply (ok_readers l s H)].
    destruct (ok_readers l s H _ (nth_error_In _ _ En)) as (R1 & R2 & R3). cbn [r_ptr r_len r_seen] in *. split; [|split]; cbn [r_ptr r_len r_seen].
    + exact R1.
    + intros m Em. injection Em as <-. destruct (R2 n eq_refl) as [W _]. split; [exact W|]. rewrite app_length. cbn. lia.
    + intros j c Ec. destruct (Nat.lt_ge_cases j (List.length seen)) as [G|G].
      * rewrite nth_error_app1 in Ec by exact G. exact (R3 j c Ec).
      * rewrite nth_error_app2 in Ec by exact G. destruct (j - List.length seen) as [|q] eqn:Q; [|destruct q; discriminate Ec].
        assert (j = List.length seen) as -> by lia. cbn in Ec. injection Ec as <-. exists p, n. split; [reflexivity|]. split; [reflexivity|].
        unfold cell_at. destruct (List.length seen <? List.length (array s p)) eqn:Sz.
        -- apply Nat.ltb_lt in Sz. rewrite (ok_cells l s H p _ (R1 p eq_refl) Sz). reflexivity.
        -- apply Nat.ltb_ge in Sz. apply nth_error_None in Sz. now rewrite Sz.
Qed.

(** * Runs *)

Lemma memory_snoc : forall l s a, memory_run s (l ++ [a])%list = match memory_run s l with Some s' => memory_step s' a | None => None end.
Proof.
  induction l as [|b l IH]; intros s a; cbn [app memory_run]; [now destruct (memory_step s a)|]. destruct (memory_step s b) as [s1|]; [apply IH|reflexivity].
Qed.

Lemma reached_snoc : forall l a s, reached (l ++ [a]) s -> exists s0, reached l s0 /\ memory_step s0 a = Some s.
Proof. intros l a s H. unfold reached in *. rewrite memory_snoc in H. destruct (memory_run memory_init l) as [s0|]; [|discriminate H]. now exists s0. Qed.

Lemma reached_ok : forall l s, reached l s -> mem_ok l s.
Proof.
  induction l as [|a l IH] using rev_ind; intros s H; [injection H as <-; exact ok_init|].
  destruct (reached_snoc l a s H) as (s0 & H0 & E). exact (ok_step l s0 a s (IH s0 H0) E).
Qed.

Lemma at_rest : forall l s, reached l s -> m_new s = None ->
  firstn (h_len (m_head s)) (array s (h_ptr (m_head s))) = map Some (set_of (loaded l)).
Proof.
  intros l s H New. destruct (reached_ok l s H) as [Cells Full Ptr Len Cap Room Head Was Stored Readers]. unfold goal_head in *. rewrite New in *.
  rewrite Len. apply cells_first; [intros j Hj; now apply Cells|lia].
Qed.

Lemma seen_exactly : forall l s r j c, reached l s -> In r (m_readers s) -> nth_error (r_seen r) j = Some c ->
  exists p, r_ptr r = Some p /\
    (j < List.length (array s p) -> exists kp, c = Got kp /\ nth_error (set_of (loaded l)) j = Some kp) /\
    (List.length (array s p) <= j -> c = Beyond).
Proof.
  intros l s r j c H Hr Ec. destruct (ok_readers l s (reached_ok l s H) r Hr) as (R1 & R2 & R3).
  destruct (R3 j c Ec) as (p & n & Ep & En & ->). exists p. split; [exact Ep|]. unfold cell_at. split; intros G.
  - apply Nat.ltb_lt in G. rewrite G. destruct (R2 n En) as [W Ln]. apply was_le in W. assert (Hj : j < List.length (r_seen r)) by (apply nth_error_Some; congruence).
    destruct (nth_error (set_of (loaded l)) j) as [kp|] eqn:Q; [now exists kp|]. apply nth_error_None in Q. lia.
  - apply Nat.ltb_ge in G. now rewrite G.
Qed.

Lemma all_got : forall l s r, reached l s -> In r (m_readers s) -> r_len r <> None ->
  (forall j, nth_error (r_seen r) j <> Some Beyond) -> sees_a_set l r.
Proof.
  intros l s r H Hr Hn Hb. destruct (r_len r) as [n|] eqn:En; [|congruence]. destruct (ok_readers l s (reached_ok l s H) r Hr) as (R1 & R2 & R3).
  destruct (R2 n En) as [(kps & rest & El & ->) Ln]. exists kps, rest. split; [exact El|]. split; [exact En|].
  assert (G : forall j, j < List.length (r_seen r) -> nth_error (r_seen r) j = nth_error (map Got (set_of kps)) j).
  { intros j Hj. destruct (nth_error (r_seen r) j) as [c|] eqn:Ec; [|apply nth_error_None in Ec; lia].
    destruct (seen_exactly l s r j c H Hr Ec) as (p & _ & A & B). destruct (Nat.lt_ge_cases j (List.length (array s p))) as [G|G]; [|rewrite (B G) in Ec; exfalso; exact (Hb j Ec)].
    destruct (A G) as (kp & -> & K). rewrite El in K. destruct (set_grows rest kps) as [t Et]. rewrite Et in K. rewrite nth_error_app1 in K by lia.
    rewrite nth_error_map, K. reflexivity. }
  assert (F : forall A (a b : list A), List.length a <= List.length b -> (forall j, j < List.length a -> nth_error a j = nth_error b j) -> a = firstn (List.length a) b).
  { induction a as [|x a IH]; intros [|y b] L Q; cbn [List.length firstn] in *; try reflexivity; [lia|]. pose proof (Q 0 ltac:(lia)) as Q0. injection Q0 as <-.
    f_equal. apply IH; [lia|]. intros j Hj. exact (Q (S j) ltac:(lia)). }
  rewrite <- firstn_map. apply F; [rewrite map_length; exact Ln|exact G].
Qed.

(** * Orderly accesses *)

Definition order_ok (s : memory) : Prop :=
  h_len (m_head s) <= List.length (array s (h_ptr (m_head s))) /\
  forall r, In r (m_readers s) ->
    (forall n, r_len r = Some n -> n <= h_len (m_head s)) /\
    (forall p, r_ptr r = Some p -> exists n, r_len r = Some n /\ n <= List.length (array s p)).

Lemma sizes_keep : forall s a s', memory_step s a = Some s' ->
  List.length (m_heap s) <= List.length (m_heap s') /\ forall p, p < List.length (m_heap s) -> List.length (array s' p) = List.length (array s p).
Proof.
  intros s a s' E. destruct a as [kp room|w| |i|i|i]; cbn [memory_step] in E.
  - destruct (m_new s); [discriminate E|]. unfold upsert_begins in E. destruct (existsb _ _); [injection E as <-; split; [lia|reflexivity]|].
    destruct (_ <? _).
    + injection E as <-. cbn [m_heap]. rewrite put_length. split; [lia|]. intros p Hp. unfold array at 1. cbn [m_heap].
      destruct (Nat.eq_dec (h_ptr (m_head s)) p) as [Q|N]; [subst p; rewrite nth_put_same by exact Hp; apply put_length|now rewrite nth_put_other].
    + destruct (_ <? _); [|discriminate E]. injection E as <-. cbn [m_heap]. rewrite app_length. split; [lia|]. intros p Hp. unfold array at 1. cbn [m_heap]. now rewrite app_nth1.
  - destruct (m_new s) as [[h ws]|]; [|discriminate E]. destruct (existsb _ _); [|discriminate E]. injection E as <-. split; [cbn; lia|reflexivity].
  - injection E as <-. split; [cbn; lia|reflexivity].
  - destruct (nth_error _ _) as [[[p|] n seen]|]; try discriminate E. injection E as <-. split; [cbn; lia|reflexivity].
  - destruct (nth_error _ _) as [[p [n|] seen]|]; try discriminate E. injection E as <-. split; [cbn; lia|reflexivity].
  - destruct (nth_error _ _) as [[[p|] [n|] seen]|]; try discriminate E. destruct (_ <? _); [|discriminate E]. injection E as <-. split; [cbn; lia|reflexivity].
Qed.

(** Unless a word is stored, the header stays. *)
Lemma head_keeps : forall s a s', memory_step s a = Some s' -> (forall w, a <> Store w) -> m_head s' = m_head s.
Proof.
  intros s a s' E N. destruct a as [kp room|w| |i|i|i]; cbn [memory_step] in E.
  - destruct (m_new s); [discriminate E|]. unfold upsert_begins in E. destruct (existsb _ _); [now injection E as <-|]. destruct (_ <? _); [now injection E as <-|].
    destruct (_ <? _); [|discriminate E]. now injection E as <-.
  - now destruct (N w).
  - now injection E as <-.
  - destruct (nth_error _ _) as [[[p|] n seen]|]; try discriminate E. now injection E as <-.
  - destruct (nth_error _ _) as [[p [n|] seen]|]; try discriminate E. now injection E as <-.
  - destruct (nth_error _ _) as [[[p|] [n|] seen]|]; try discriminate E. destruct (_ <? _); [|discriminate E]. now injection E as <-.
Qed.

Lemma length_grows : forall l s a s', mem_ok l s -> memory_step s a = Some s' -> h_len (m_head s) <= h_len (m_head s').
Proof.
  intros l s a s' H E. destruct a as [kp room|w| |i|i|i]; try (rewrite (head_keeps _ _ _ E) by (intros; discriminate); lia).
  pose proof (was_le _ _ (ok_was l s H)) as W. pose proof (ok_len l s H) as Len. unfold goal_head in Len. cbn [memory_step] in E.
  destruct (m_new s) as [[h ws]|]; [|discriminate E]. destruct (existsb _ _); [|discriminate E]. injection E as <-. cbn [m_head]. destruct w; cbn [store h_len]; lia.
Qed.

Lemma order_keeps : forall l s a s', mem_ok l s -> order_ok s -> orderly s a -> memory_step s a = Some s' -> order_ok s'.
Proof.
  intros l s a s' H [O1 O2] Or E. destruct (sizes_keep s a s' E) as [Hh Hs]. pose proof (length_grows l s a s' H E) as Lg.
  assert (Old : forall r, In r (m_readers s) ->
    (forall n, r_len r = Some n -> n <= h_len (m_head s')) /\ (forall p, r_ptr r = Some p -> exists n, r_len r = Some n /\ n <= List.length (array s' p))).
  { intros r Hr. destruct (O2 r Hr) as [A B]. split; [intros n En; specialize (A n En); lia|]. intros p Ep. destruct (B p Ep) as (n & En & Ln). exists n. split; [exact En|].
    rewrite Hs; [exact Ln|]. destruct (ok_readers l s H r Hr) as (R1 & _). now apply R1. }
  assert (Hd : h_len (m_head s') <= List.length (array s' (h_ptr (m_head s')))).
  { destruct a as [kp room|w| |i|i|i]; try (rewrite (head_keeps _ _ _ E) by (intros; discriminate); rewrite Hs by exact (ok_head l s H); exact O1).
    cbn [memory_step] in E. destruct (m_new s) as [[h ws]|] eqn:New; [|discriminate E]. destruct (existsb _ _) eqn:Ew; [|discriminate E]. injection E as <-.
    destruct H as [Cells Full Ptr Len Cap Room Head Was Stored Readers]. unfold goal_head in *. rewrite New in *. apply was_le in Was. cbn [m_head]. 
    change (array (Memory (m_heap s) (store w h (m_head s)) (match filter (fun x => negb (word_eqb w x)) ws with [] => None | _ :: _ => Some (h, filter (fun x => negb (word_eqb w x)) ws) end) (m_readers s))) with (array s).
    destruct w; cbn [store h_len h_ptr].
    - lia.
    - cbn [orderly] in Or. specialize (Or h ws New). destruct (Stored h ws eq_refl) as ([F|F] & _); [now destruct Or|]. rewrite F. lia.
    - exact O1. }
  split; [exact Hd|]. destruct a as [kp room|w| |i|i|i]; cbn [memory_step] in E.
  - assert (Er : m_readers s' = m_readers s).
    { destruct (m_new s); [discriminate E|]. unfold upsert_begins in E. destruct (existsb _ _); [now injection E as <-|]. destruct (_ <? _); [now injection E as <-|]. destruct (_ <? _); [|discriminate E]. now injection E as <-. }
    rewrite Er. exact Old.
  - assert (Er : m_readers s' = m_readers s) by (destruct (m_new s) as [[h ws]|]; [|discriminate E]; destruct (existsb _ _); [|discriminate E]; now injection E as <-).
    rewrite Er. exact Old.
  - injection E as <-. intros r Hr. apply in_app_or in Hr. destruct Hr as [Hr|[<-|[]]]; [exact (Old r Hr)|]. split; [intros n F; discriminate F|intros p F; discriminate F].
  - destruct (nth_error (m_readers s) i) as [[[p|] n seen]|] eqn:En; try discriminate E. injection E as <-. intros r Hr. apply in_put in Hr. destruct Hr as [->|Hr]; [|exact (Old r Hr)].
    destruct (Old _ (nth_error_In _ _ En)) as [A _]. cbn [r_ptr r_len] in *. split; [exact A|]. intros p Ep. injection Ep as <-.
    specialize (Or _ En). cbn [r_len] in Or. destruct n as [n|]; [|congruence]. exists n. split; [reflexivity|]. specialize (A n eq_refl). cbn [with_reader m_head] in A, Hd.
    change (array (with_reader i (Reader (Some (h_ptr (m_head s))) (Some n) seen) s)) with (array s) in *. lia.
  - destruct (nth_error (m_readers s) i) as [[p [n|] seen]|] eqn:En; try discriminate E. injection E as <-. intros r Hr. apply in_put in Hr. destruct Hr as [->|Hr]; [|exact (Old r Hr)].
    destruct (Old _ (nth_error_In _ _ En)) as [A B]. cbn [r_ptr r_len] in *. split; [intros n En'; injection En' as <-; cbn; lia|]. intros q Eq. destruct (B q Eq) as (n & F & _). discriminate F.
  - destruct (nth_error (m_readers s) i) as [[[p|] [n|] seen]|] eqn:En; try discriminate E. destruct (_ <? _); [|discriminate E]. injection E as <-.
    intros r Hr. apply in_put in Hr. destruct Hr as [->|Hr]; [|exact (Old r Hr)]. exact (Old _ (nth_error_In _ _ En)).
Qed.

Lemma reached_order : forall l s, all_orderly l -> reached l s -> order_ok s.
Proof.
  induction l as [|a l IH] using rev_ind; intros s O H.
  - injection H as <-. split; [cbn; lia|intros r []].
  - destruct (reached_snoc l a s H) as (s0 & H0 & E). apply (order_keeps l s0 a s (reached_ok l s0 H0)); [| |exact E].
    + apply IH; [|exact H0]. intros l1 b l2 s1 El H1. apply (O l1 b (l2 ++ [a])%list s1); [rewrite El, <- app_assoc; reflexivity|exact H1].
    + exact (O l a [] s0 eq_refl H0).
Qed.

Lemma orderly_seen : forall l s r, all_orderly l -> reached l s -> In r (m_readers s) -> r_len r <> None -> sees_a_set l r.
Proof.
  intros l s r O H Hr Hn. apply (all_got l s r H Hr Hn). intros j F. destruct (seen_exactly l s r j Beyond H Hr F) as (p & Ep & A & _).
  destruct (reached_order l s O H) as [_ R]. destruct (R r Hr) as [_ B]. destruct (B p Ep) as (n & En & Ln).
  destruct (ok_readers l s (reached_ok l s H) r Hr) as (_ & R2 & _). destruct (R2 n En) as [_ Ls].
  assert (Hj : j < List.length (r_seen r)) by (apply nth_error_Some; congruence). destruct (A ltac:(lia)) as (kp & Q & _). discriminate Q.
Qed.

(** * Keys loaded before *)

Lemma fresh_from : forall l' l s s' i r n, reached l s -> m_new s = None -> i = List.length (m_readers s) ->
  reached (l ++ Look :: l') s' -> nth_error (m_readers s') i = Some r -> r_len r = Some n -> List.length (set_of (loaded l)) <= n.
Proof.
  intros l' l s s' i r n H New -> H' Er En.
  assert (G : forall l' s', reached (l ++ Look :: l') s' -> List.length (set_of (loaded l)) <= h_len (m_head s') /\
    exists r', nth_error (m_readers s') (List.length (m_readers s)) = Some r' /\ forall m, r_len r' = Some m -> List.length (set_of (loaded l)) <= m).
  { clear l' s' H' Er En. induction l' as [|a l' IH] using rev_ind; intros s' H'.
    - destruct (reached_snoc l Look s' H') as (s0 & H0 & E). unfold reached in H, H0. rewrite H in H0. injection H0 as <-. cbn [memory_step] in E. injection E as <-. cbn [m_head m_readers].
      pose proof (ok_len l s (reached_ok l s H)) as Len. unfold goal_head in Len. rewrite New in Len. split; [lia|]. exists (Reader None None []).
      split; [rewrite nth_error_app2, Nat.sub_diag by lia; reflexivity|]. intros m F. discriminate F.
    - replace (l ++ Look :: l' ++ [a])%list with ((l ++ Look :: l') ++ [a])%list in H' by (rewrite <- app_assoc; reflexivity).
      destruct (reached_snoc _ a s' H') as (s0 & H0 & E). destruct (IH s0 H0) as (Lg & r0 & Er0 & Ln0).
      split; [pose proof (length_grows _ s0 a s' (reached_ok _ _ H0) E); lia|]. set (i := List.length (m_readers s)) in *.
      destruct a as [kp room|w| |k|k|k]; cbn [memory_step] in E.
      + exists r0. split; [|exact Ln0]. destruct (m_new s0); [discriminate E|]. unfold upsert_begins in E. destruct (existsb _ _); [now injection E as <-|]. destruct (_ <? _); [now injection E as <-|]. destruct (_ <? _); [|discriminate E]. now injection E as <-.
      + exists r0. split; [|exact Ln0]. destruct (m_new s0) as [[h ws]|]; [|discriminate E]. destruct (existsb _ _); [|discriminate E]. now injection E as <-.
      + exists r0. split; [|exact Ln0]. injection E as <-. cbn [m_readers]. rewrite nth_error_app1; [exact Er0|]. apply nth_error_Some. congruence.
      + destruct (nth_error (m_readers s0) k) as [[[p|] m seen]|] eqn:Ek; try discriminate E. injection E as <-. cbn [with_reader m_readers]. destruct (Nat.eq_dec k i) as [->|N].
        * rewrite Er0 in Ek. injection Ek as ->. eexists. split; [exact (put_same _ i _ _ _ Er0)|]. exact Ln0.
        * exists r0. split; [rewrite put_other by exact N; exact Er0|exact Ln0].
      + destruct (nth_error (m_readers s0) k) as [[p [m|] seen]|] eqn:Ek; try discriminate E. injection E as <-. cbn [with_reader m_readers]. destruct (Nat.eq_dec k i) as [->|N].
        * eexists. split; [exact (put_same _ i _ _ _ Er0)|]. cbn [r_len]. intros m Em. injection Em as <-. exact Lg.
        * exists r0. split; [rewrite put_other by exact N; exact Er0|exact Ln0].
      + destruct (nth_error (m_readers s0) k) as [[[p|] [m|] seen]|] eqn:Ek; try discriminate E. destruct (_ <? _); [|discriminate E]. injection E as <-. cbn [with_reader m_readers]. destruct (Nat.eq_dec k i) as [->|N].
        * rewrite Er0 in Ek. injection Ek as ->. eexists. split; [exact (put_same _ i _ _ _ Er0)|]. exact Ln0.
        * exists r0. split; [rewrite put_other by exact N; exact Er0|exact Ln0]. }
  destruct (G l' s' H') as (_ & r' & Er' & Ln). rewrite Er' in Er. injection Er as ->. now apply Ln.
Qed.
