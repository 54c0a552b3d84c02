(** The text of an address stands for that address and no other. *)
From Coq Require Import String Ascii List Bool NArith ZArith Arith Lia.
From Verif Require Import GoStr JwtSpec RegexSpec IprexSpec IprexProofs IpText IpTextSpec IpTextProofs JsonProofs HandlerProofs Iprex AddrReadSpec.
Import ListNotations.
Local Open Scope string_scope.

(* ------------------------------------------------------------------ *)
(** * Groups *)

Lemma below16 : forall n, (n < 16)%N -> In n [0; 1; 2; 3; 4; 5; 6; 7; 8; 9; 10; 11; 12; 13; 14; 15]%N.
Proof. intros n H. cbn [In]. lia. Qed.

Lemma digit_back : forall n, (n < 16)%N -> digit_value (hex_char n) = n.
Proof.
  intros n H. apply below16 in H. cbn [In] in H.
  repeat (destruct H as [<-|H]; [reflexivity|]). destruct H.
Qed.

Lemma group_app : forall a b acc, group_value acc (a ++ b) = group_value (group_value acc a) b.
Proof. induction a as [|c a IH]; intros b acc; [reflexivity|]. cbn [append group_value]. apply IH. Qed.

Lemma digits_of : forall n, (n < 65536)%N ->
  n = (16 * (16 * (16 * (n / 4096) + (n / 256) mod 16) + (n / 16) mod 16) + n mod 16)%N.
Proof.
  intros n H.
  pose proof (N.div_mod' n 16) as E0. pose proof (N.div_mod' (n / 16) 16) as E1. pose proof (N.div_mod' (n / 256) 16) as E2.
  rewrite N.div_div in E1 by discriminate. rewrite N.div_div in E2 by discriminate.
  change (16 * 16)%N with 256%N in E1. change (256 * 16)%N with 4096%N in E2. lia.
Qed.

Lemma group_back : forall n, (n < 65536)%N -> group_value 0 (hex_group n) = n.
Proof.
  intros n H. pose proof (digits_of n H) as E.
  assert (D3 : (n / 4096 < 16)%N) by (apply N.div_lt_upper_bound; lia).
  pose proof (N.mod_lt (n / 256) 16 ltac:(discriminate)) as D2.
  pose proof (N.mod_lt (n / 16) 16 ltac:(discriminate)) as D1.
  pose proof (N.mod_lt n 16 ltac:(discriminate)) as D0.
  unfold hex_group. rewrite !group_app.
  assert (Z3 : group_value 0 (if (n <? 4096)%N then "" else String (hex_char (n / 4096)) "") = (n / 4096)%N).
  { destruct (N.ltb_spec n 4096) as [L|L]; [cbn [group_value]; now rewrite N.div_small|]. cbn [group_value]. rewrite digit_back by exact D3. lia. }
  rewrite Z3.
  assert (Z2 : group_value (n / 4096) (if (n <? 256)%N then "" else String (hex_char ((n / 256) mod 16)) "") = (16 * (n / 4096) + (n / 256) mod 16)%N).
  { destruct (N.ltb_spec n 256) as [L|L]; cbn [group_value].
    - rewrite !N.div_small by lia. reflexivity.
    - now rewrite digit_back by exact D2. }
  rewrite Z2.
  assert (Z1 : group_value (16 * (n / 4096) + (n / 256) mod 16) (if (n <? 16)%N then "" else String (hex_char ((n / 16) mod 16)) "") = (16 * (16 * (n / 4096) + (n / 256) mod 16) + (n / 16) mod 16)%N).
  { destruct (N.ltb_spec n 16) as [L|L]; cbn [group_value].
    - rewrite !N.div_small by lia. reflexivity.
    - now rewrite digit_back by exact D1. }
  rewrite Z1. cbn [group_value]. rewrite digit_back by exact D0. symmetry. exact E.
Qed.

Lemma groups_back : forall gs, Forall (fun g => (g < 65536)%N) gs -> map (group_value 0) (map hex_group gs) = gs.
Proof. induction 1 as [|g gs H _ IH]; [reflexivity|]. cbn [map]. rewrite group_back by exact H. now f_equal. Qed.

(* ------------------------------------------------------------------ *)
(** * The text stands for the address *)

Lemma Forall_cut : forall (P : N -> Prop) gs k, Forall P gs -> Forall P (firstn k gs) /\ Forall P (skipn k gs).
Proof. intros P gs k H. rewrite <- (firstn_skipn k gs) in H. now apply Forall_app in H. Qed.

Lemma all_zero : forall gs, (forall i, i < List.length gs -> nth i gs 1%N = 0%N) -> gs = repeat 0%N (List.length gs).
Proof.
  induction gs as [|g gs IH]; intros H; [reflexivity|]. cbn [List.length repeat].
  pose proof (H 0 ltac:(cbn [List.length]; lia)) as E. cbn [nth] in E. subst g. f_equal. apply IH.
  intros i Hi. apply (H (S i)). cbn [List.length]. lia.
Qed.

Lemma skipn_twice : forall (gs : list N) a b, skipn a (skipn b gs) = skipn (b + a) gs.
Proof.
  induction gs as [|g gs IH]; intros a b; [now rewrite !skipn_nil|]. destruct b as [|b]; [reflexivity|]. cbn [skipn Nat.add]. apply IH.
Qed.

Lemma run_cut : forall gs s l, zero_run gs s l -> gs = (firstn s gs ++ repeat 0%N l ++ skipn (s + l) gs)%list.
Proof.
  intros gs s l [B H]. rewrite <- (firstn_skipn s gs) at 1. f_equal.
  rewrite <- (firstn_skipn l (skipn s gs)) at 1. rewrite skipn_twice. f_equal.
  assert (L : List.length (firstn l (skipn s gs)) = l) by (rewrite firstn_length, skipn_length; lia).
  rewrite <- L at 2. apply all_zero. rewrite L. intros i Hi.
  rewrite <- (H (s + i) ltac:(lia)).
  rewrite <- (firstn_skipn s gs) at 2. rewrite app_nth2 by (rewrite firstn_length; lia).
  rewrite firstn_length, Nat.min_l by lia. replace (s + i - s) with i by lia.
  rewrite <- (firstn_skipn l (skipn s gs)) at 2. now rewrite app_nth1 by lia.
Qed.

Lemma text_names : forall gs, address gs -> names (host_text gs) gs.
Proof.
  intros gs [L B]. unfold host_text. destruct (to4 gs) as [[x y]|] eqn:E.
  - apply to4_some in E. subst gs.
    assert (Bx : (x < 65536)%N /\ (y < 65536)%N).
    { rewrite Forall_forall in B. split; apply B; cbn [In]; tauto. }
    destruct Bx as [Bx By].
    assert (Q : forall z, (z < 65536)%N -> is_octet (z / 256) /\ is_octet (z mod 256) /\ (256 * (z / 256) + z mod 256 = z)%N).
    { intros z Hz. split; [apply N.div_lt_upper_bound; lia|]. split; [apply N.mod_lt; discriminate|].
      symmetry. apply N.div_mod'. }
    destruct (Q x Bx) as (Q1 & Q2 & Q3). destruct (Q y By) as (Q4 & Q5 & Q6).
    pose proof (names_octets _ _ _ _ Q1 Q2 Q4 Q5) as R. rewrite Q3, Q6 in R. exact R.
  - unfold ip_text. destruct (best_of gs) as (_ & R & _ & _). destruct (best_run 0 gs (0, 0)) as [s l]. cbn [fst snd] in R.
    destruct (Nat.leb_spec l 1) as [Hl|Hl].
    + pose proof (names_full (map hex_group gs) ltac:(now rewrite map_length) (hex_groups gs)) as Q.
      rewrite (groups_back gs B) in Q. exact Q.
    + pose proof (proj1 R) as Rl. rewrite L in Rl.
      pose proof (names_short (map hex_group (firstn s gs)) (map hex_group (skipn (s + l) gs)) l) as Q.
      rewrite !map_length, firstn_length, skipn_length, L, Nat.min_l in Q by lia.
      specialize (Q ltac:(lia) ltac:(lia) (hex_groups _) (hex_groups _)).
      rewrite !groups_back in Q by (apply Forall_cut; exact B).
      rewrite <- (run_cut gs s l R) in Q. exact Q.
Qed.

(* ------------------------------------------------------------------ *)
(** * A text stands for one address only *)

Definition nonempty (s : string) : bool := match s with EmptyString => false | _ => true end.

Fixpoint front (l : list string) : list string :=
  match l with x :: l' => if nonempty x then x :: front l' else [] | [] => [] end.

Fixpoint back (l : list string) : list string :=
  match l with x :: l' => if nonempty x then back l' else filter nonempty l' | [] => [] end.

Definition read_groups (s : string) : list N :=
  let l := split ":" s in
  let b := map (group_value 0) (front l) in
  let a := map (group_value 0) (back l) in
  (b ++ repeat 0%N (8 - List.length b - List.length a) ++ a)%list.

Lemma group_nonempty : forall g, is_group g -> nonempty g = true.
Proof. intros [|c g] [_ H]; [cbn in H; lia|reflexivity]. Qed.

Lemma group_without : forall g, is_group g -> without ":" g.
Proof.
  intros g [H _]. induction g as [|c g IH]; [exact I|]. cbn [all_chars] in H. apply andb_prop in H. destruct H as [H1 H2].
  split; [now apply hex_not_colon|now apply IH].
Qed.

Lemma front_all : forall ws, Forall is_group ws -> front ws = ws /\ back ws = [].
Proof.
  induction 1 as [|g ws H _ [IH1 IH2]]; [now split|]. cbn [front back]. rewrite (group_nonempty g H), IH1. now split.
Qed.

Lemma front_cut : forall ws rest, Forall is_group ws -> front (ws ++ "" :: rest) = ws /\ back (ws ++ "" :: rest) = filter nonempty rest.
Proof.
  intros ws rest. induction 1 as [|g ws H _ [IH1 IH2]]; [now split|]. cbn [front back List.app]. rewrite (group_nonempty g H), IH1. now split.
Qed.

Lemma filter_groups : forall ws, Forall is_group ws -> filter nonempty ws = ws.
Proof. induction 1 as [|g ws H _ IH]; [reflexivity|]. cbn [filter]. now rewrite (group_nonempty g H), IH. Qed.

Definition padded (ws : list string) : list string := match ws with [] => [""] | _ => ws end.

Lemma join_padded : forall ws, join ":" (padded ws) = join ":" ws.
Proof. now intros [|w ws]. Qed.

Lemma join_cut : forall a b, a <> [] -> b <> [] -> join ":" (a ++ b) = join ":" a ++ ":" ++ join ":" b.
Proof.
  induction a as [|x a IH]; intros b Ha Hb; [congruence|]. destruct a as [|y a].
  - destruct b as [|z b]; [congruence|]. reflexivity.
  - change (join ":" ((x :: y :: a) ++ b)) with (x ++ ":" ++ join ":" ((y :: a) ++ b)).
    change (join ":" (x :: y :: a)) with (x ++ ":" ++ join ":" (y :: a)).
    rewrite IH by (discriminate || exact Hb). now rewrite !append_assoc.
Qed.

Lemma padded_some : forall ws, padded ws <> [].
Proof. now intros [|w ws]. Qed.

Lemma compressed_join : forall bs cs, compressed_v6 bs cs = join ":" (padded bs ++ "" :: padded cs).
Proof.
  intros bs cs. unfold compressed_v6. rewrite join_cut by (discriminate || apply padded_some). rewrite join_padded.
  destruct (padded cs) as [|c l] eqn:E; [now destruct (padded_some cs)|].
  change (join ":" ("" :: c :: l)) with (":" ++ join ":" (c :: l)). rewrite <- E, join_padded. reflexivity.
Qed.

Lemma padded_without : forall ws x, Forall is_group ws -> In x (padded ws) -> without ":" x.
Proof.
  intros ws x H Hx. destruct ws as [|w ws]; [destruct Hx as [<-|[]]; exact I|].
  rewrite Forall_forall in H. now apply group_without, H.
Qed.

Lemma compressed_split : forall bs cs, Forall is_group bs -> Forall is_group cs ->
  split ":" (compressed_v6 bs cs) = (padded bs ++ "" :: padded cs)%list.
Proof.
  intros bs cs Hb Hc. rewrite compressed_join. apply split_join.
  - destruct (padded bs); discriminate.
  - intros x Hx. apply in_app_or in Hx. destruct Hx as [Hx|[<-|Hx]]; [now apply (padded_without bs)|exact I|now apply (padded_without cs)].
Qed.

Lemma filter_padded : forall ws, Forall is_group ws -> filter nonempty (padded ws) = ws.
Proof. intros [|w ws] H; [reflexivity|]. now apply filter_groups. Qed.

Lemma compressed_parts : forall bs cs, Forall is_group bs -> Forall is_group cs ->
  front (padded bs ++ "" :: padded cs) = bs /\ back (padded bs ++ "" :: padded cs) = cs.
Proof.
  intros bs cs Hb Hc. destruct bs as [|b bs].
  - cbn [padded List.app front back nonempty filter]. split; [reflexivity|now apply filter_padded].
  - unfold padded at 1 3. destruct (front_cut (b :: bs) (padded cs) Hb) as [H1 H2]. split; [exact H1|].
    rewrite H2. now apply filter_padded.
Qed.

Lemma dotted_dot : forall a b c d, count_chars (Ascii.eqb ".") (dotted a b c d) <> 0.
Proof.
  intros a b c d. unfold dotted. rewrite count_app. cbn [append count_chars Ascii.eqb Bool.eqb]. lia.
Qed.

Lemma compressed_no_dot : forall bs cs, Forall is_group bs -> Forall is_group cs -> count_chars (Ascii.eqb ".") (compressed_v6 bs cs) = 0.
Proof.
  intros bs cs Hb Hc. unfold compressed_v6. rewrite !count_app, !join_no_dot by assumption. reflexivity.
Qed.

Lemma itoa_one : forall a b, itoa a = itoa b -> a = b.
Proof.
  intros a b E. pose proof (read_itoa a "" eq_refl) as Ha. rewrite E, (read_itoa b "" eq_refl) in Ha. injection Ha as Ha. lia.
Qed.

Lemma itoa_without : forall n, without "." (itoa n).
Proof.
  intros n. pose proof (port_no_dot n) as H. induction (itoa n) as [|c s IH]; [exact I|]. cbn [count_chars] in H.
  destruct (Ascii.eqb "." c) eqn:E; [lia|]. split; [|now apply IH]. intros ->. now rewrite Ascii.eqb_refl in E.
Qed.

Lemma dotted_split : forall a b c d, split "." (dotted a b c d) = [itoa a; itoa b; itoa c; itoa d].
Proof.
  intros a b c d. change (dotted a b c d) with (join "." [itoa a; itoa b; itoa c; itoa d]).
  apply split_join; [discriminate|]. intros x Hx. cbn [In] in Hx.
  destruct Hx as [<-|[<-|[<-|[<-|[]]]]]; apply itoa_without.
Qed.

Lemma dotted_one : forall a b c d a' b' c' d', dotted a b c d = dotted a' b' c' d' -> a = a' /\ b = b' /\ c = c' /\ d = d'.
Proof.
  intros a b c d a' b' c' d' E. pose proof (dotted_split a b c d) as H. rewrite E, dotted_split in H. injection H as H1 H2 H3 H4.
  repeat split; apply itoa_one; now symmetry.
Qed.

(** What a text without dots stands for. *)
Lemma names_read : forall t gs, names t gs ->
  (exists a b c d, t = dotted a b c d /\ gs = [0; 0; 0; 0; 0; 65535; 256 * a + b; 256 * c + d]%N) \/
  (count_chars (Ascii.eqb ".") t = 0 /\ gs = read_groups t).
Proof.
  intros t gs H. destruct H as [ws L W|bs cs k L K B C|a b c d A B C D].
  - right. split; [now apply join_no_dot|]. unfold read_groups, full_v6. rewrite split_join.
    + destruct (front_all ws W) as [-> ->]. cbn [map List.length]. rewrite map_length, L. cbn [repeat List.app Nat.sub]. symmetry. apply app_nil_r.
    + intros ->. discriminate L.
    + intros x Hx. rewrite Forall_forall in W. now apply group_without, W.
  - right. split; [now apply compressed_no_dot|]. unfold read_groups. rewrite (compressed_split bs cs B C).
    destruct (compressed_parts bs cs B C) as [-> ->]. rewrite !map_length. do 2 f_equal. f_equal. lia.
  - left. exists a, b, c, d. now split.
Qed.

Lemma names_one : forall t gs hs, names t gs -> names t hs -> gs = hs.
Proof.
  intros t gs hs Hg Hh. apply names_read in Hg, Hh.
  destruct Hg as [(a & b & c & d & E & ->)|[Z1 ->]]; destruct Hh as [(a' & b' & c' & d' & E' & ->)|[Z2 ->]].
  - rewrite E in E'. apply dotted_one in E'. destruct E' as (-> & -> & -> & ->). reflexivity.
  - rewrite E in Z2. now apply dotted_dot in Z2.
  - rewrite E' in Z1. now apply dotted_dot in Z1.
  - reflexivity.
Qed.

(* ------------------------------------------------------------------ *)
(** * Clients *)

Lemma client_named : forall gs port, address gs -> legible gs -> names (extract_addr (remote_addr gs port)) gs.
Proof. intros gs port A L. rewrite (proj2 (clients_logged gs port A) L). now apply text_names. Qed.

Lemma clients_apart : forall gs hs p q, address gs -> address hs -> legible gs -> legible hs ->
  extract_addr (remote_addr gs p) = extract_addr (remote_addr hs q) -> gs = hs.
Proof.
  intros gs hs p q Ag Ah Lg Lh E. apply (names_one (extract_addr (remote_addr gs p))); [now apply client_named|].
  rewrite E. now apply client_named.
Qed.

Lemma legible_dec : forall gs, address gs -> legible gs \/ ~ legible gs.
Proof.
  intros gs A. destruct (string_dec (extract_addr (remote_addr gs 0)) (host_text gs)) as [E|E].
  - left. now apply (clients_logged gs 0 A).
  - right. intros H. apply E. now apply (clients_logged gs 0 A).
Qed.

Lemma value_below : forall c, is_hex c = true -> (digit_value c < 16)%N.
Proof.
  intros c H. unfold is_hex, N_in in H. rewrite !orb_true_iff, !andb_true_iff, !N.leb_le in H. unfold digit_value.
  destruct (N.leb_spec (N_of_ascii c) 57) as [L|L]; [lia|]. destruct (N.leb_spec (N_of_ascii c) 70) as [M|M]; lia.
Qed.

Lemma value_bound : forall g acc m, all_chars is_hex g = true -> (acc < m)%N -> (group_value acc g < m * 16 ^ N.of_nat (String.length g))%N.
Proof.
  induction g as [|c g IH]; intros acc m H Ha; [cbn [group_value String.length]; now rewrite N.mul_1_r|].
  cbn [all_chars] in H. apply andb_prop in H. destruct H as [H1 H2]. cbn [group_value String.length].
  apply value_below in H1. rewrite Nat2N.inj_succ, N.pow_succ_r', N.mul_assoc. apply IH; [exact H2|]. lia.
Qed.

Lemma group_bound : forall g, is_group g -> (group_value 0 g < 65536)%N.
Proof.
  intros g [H L]. apply N.lt_le_trans with (m := (1 * 16 ^ N.of_nat (String.length g))%N); [now apply value_bound|].
  rewrite N.mul_1_l. change 65536%N with (16 ^ 4)%N. apply N.pow_le_mono_r; [discriminate|]. lia.
Qed.

(** What is told of the others is the address of another client. *)
Lemma illegible : forall gs port, address gs -> ~ legible gs ->
  exists hs, address hs /\ hs <> gs /\ names (extract_addr (remote_addr gs port)) hs.
Proof.
  intros gs port [L B] Nl.
  assert (E4 : to4 gs = None).
  { destruct (to4 gs) as [xy|] eqn:E; [|reflexivity]. exfalso. apply Nl. left. apply to4_iff. now exists xy. }
  unfold remote_addr, host_text. rewrite E4. pose proof (ip_text_no_dot gs) as Nd. revert Nd. unfold ip_text.
  pose proof (abbreviated_iff gs) as A. pose proof (no_run_iff gs L) as NR.
  destruct (best_of gs) as (_ & [B0 _] & _ & _).
  destruct (best_run 0 gs (0, 0)) as [s l] eqn:Er. cbn [fst snd] in *.
  destruct (Nat.leb_spec l 1) as [Hl|Hl]; [exfalso; apply Nl; right; left; now apply NR|].
  pose proof (proj2 (A s l) (conj eq_refl Hl)) as Ab.
  assert (Hs : 1 <= s /\ s + l < 8 /\ (4 < s \/ s + l < 5)).
  { assert (Nx : ~ (s = 0 \/ s + l = 8 \/ s <= 4 /\ 5 <= s + l)) by (intros H; apply Nl; right; right; now exists s, l). lia. }
  set (bs := map hex_group (firstn s gs)). set (cs := map hex_group (skipn (s + l) gs)).
  assert (Lb : List.length bs = s) by (unfold bs; rewrite map_length, firstn_length; lia).
  assert (Lc : List.length cs = 8 - (s + l)) by (unfold cs; rewrite map_length; now apply skipn_len).
  assert (Gb : Forall is_group bs) by apply hex_groups. assert (Gc : Forall is_group cs) by apply hex_groups.
  change (join ":" bs ++ "::" ++ join ":" cs) with (compressed_v6 bs cs). intros Nd.
  pose proof (logged_mid "" bs cs (":" ++ itoa port) ltac:(lia) ltac:(lia) Gb Gc empty_lookalike) as M.
  specialize (M (bracket_no_dot (compressed_v6 bs cs) port Nd)). change ("" ++ "[" ++ compressed_v6 bs cs ++ "]" ++ ":" ++ itoa port) with ("[" ++ compressed_v6 bs cs ++ "]:" ++ itoa port) in M.
  rewrite M. rewrite Lb.
  set (bs' := skipn (s - 4) bs). set (cs' := firstn 3 cs).
  assert (Lb' : List.length bs' = Nat.min 4 s) by (unfold bs'; rewrite skipn_length, Lb; lia).
  assert (Lc' : List.length cs' = Nat.min 3 (8 - (s + l))) by (unfold cs'; rewrite firstn_length, Lc; reflexivity).
  assert (Gb' : Forall is_group bs') by (rewrite <- (firstn_skipn (s - 4) bs) in Gb; now apply Forall_app in Gb).
  assert (Gc' : Forall is_group cs') by (rewrite <- (firstn_skipn 3 cs) in Gc; now apply Forall_app in Gc).
  set (k := 8 - List.length bs' - List.length cs').
  assert (Hk : l < k) by (unfold k; lia).
  pose proof (names_short bs' cs' k ltac:(unfold k; lia) ltac:(lia) Gb' Gc') as Q.
  set (hs := (map (group_value 0) bs' ++ repeat 0%N k ++ map (group_value 0) cs')%list) in *.
  exists hs. split; [|split; [|exact Q]].
  - split; [unfold hs; rewrite !app_length, !map_length, repeat_length; unfold k; lia|].
    assert (V : forall ws, Forall is_group ws -> Forall (fun g => (g < 65536)%N) (map (group_value 0) ws)).
    { intros ws Hw. rewrite Forall_forall in *. intros g Hg. apply in_map_iff in Hg. destruct Hg as (w & <- & Hg). apply group_bound, Hw, Hg. }
    unfold hs. apply Forall_app. split; [now apply V|]. apply Forall_app. split; [|now apply V].
    apply Forall_forall. intros g Hg. apply repeat_spec in Hg. subst g. reflexivity.
  - intros E. destruct Ab as (_ & _ & Mx & _). specialize (Mx (List.length bs') k). apply Nat.lt_irrefl with (x := l).
    apply Nat.lt_le_trans with (m := k); [exact Hk|]. apply Mx. rewrite <- E. split.
    + unfold hs. rewrite !app_length, !map_length, repeat_length. lia.
    + intros i Hi. unfold hs. rewrite app_nth2 by (rewrite map_length; lia). rewrite app_nth1 by (rewrite map_length, repeat_length; lia).
      rewrite (nth_indep _ 1%N 0%N) by (rewrite map_length, repeat_length; lia). apply nth_repeat.
Qed.

Lemma client_named_iff : forall gs port, address gs -> (names (extract_addr (remote_addr gs port)) gs <-> legible gs).
Proof.
  intros gs port A. split; [|now apply client_named]. intros H.
  destruct (legible_dec gs A) as [D|D]; [exact D|]. destruct (illegible gs port A D) as (hs & _ & Nq & H').
  exfalso. apply Nq. now apply (names_one (extract_addr (remote_addr gs port))).
Qed.
