(** Proofs about URIs. *)
From Coq Require Import String Ascii List Bool Arith NArith Lia.
From Verif Require Import GoStr RegexSpec Header Policy Config ConfigSpec ConfigProofs Routing Exchange ExchangeSpec ExchangeProofs Jwt JwtSpec Machine Handler HandlerSpec HandlerProofs SystemSpec SystemProofs Url UrlSpec.
Import ListNotations.
Local Open Scope string_scope.

(** * Characters *)

Lemma mem_is_has : forall c s, mem_char c s = has_char c s.
Proof. intros c s. induction s as [|d s IH]; cbn [mem_char has_char]; [reflexivity|]. now rewrite IH. Qed.

Lemma alnum_iff : forall c, is_alnum c = true <-> alphanumeric c.
Proof.
  intros c. unfold is_alnum, is_alpha, is_digit, alphanumeric, N_in. rewrite !orb_true_iff, !andb_true_iff, !N.leb_le. cbv zeta. tauto.
Qed.

Lemma each : forall P : ascii -> bool, (forall n, (n < 256)%N -> P (ascii_of_N n) = true) -> forall c, P c = true.
Proof. intros P H c. rewrite <- (ascii_N_embedding c). apply H. apply N_ascii_bounded. Qed.

(** All 256 characters *)
Fixpoint below (n : nat) : list ascii := match n with O => [] | S n => ascii_of_nat n :: below n end.
Lemma below_all : forall k n, n < k -> In (ascii_of_nat n) (below k).
Proof. induction k as [|k IH]; intros n H; [lia|]. cbn [below]. destruct (Nat.eq_dec n k) as [->|N]; [now left|right; apply IH; lia]. Qed.
Lemma by_all : forall P : ascii -> bool, forallb P (below 256) = true -> forall c, P c = true.
Proof.
  intros P H c. rewrite forallb_forall in H. apply H. rewrite <- (ascii_nat_embedding c). apply below_all. apply nat_ascii_bounded.
Qed.

Definition path_charb (c : ascii) : bool := is_alnum c || has_char c "-._~!$&'()*+,;=:@/[]%".
Definition keptb (c : ascii) : bool := is_alnum c || has_char c "-._~$&+,;=:@/".

Lemma path_char_iff : forall c, path_charb c = true <-> path_char c.
Proof. intros c. unfold path_charb, path_char. rewrite orb_true_iff, alnum_iff. reflexivity. Qed.
Lemma kept_iff : forall c, keptb c = true <-> kept c.
Proof. intros c. unfold keptb, kept. rewrite orb_true_iff, alnum_iff. reflexivity. Qed.

Lemma should_is_kept : forall c, should_escape MPath c = negb (keptb c).
Proof. intros c. apply eqb_prop. apply (by_all (fun c => Bool.eqb (should_escape MPath c) (negb (keptb c)))). vm_compute. reflexivity. Qed.

Lemma valid_char : forall c, (mem_char c "!$&'()*+,;=:@[]%" || negb (should_escape MPath c)) = path_charb c.
Proof. intros c. apply eqb_prop. apply (by_all (fun c => Bool.eqb (mem_char c "!$&'()*+,;=:@[]%" || negb (should_escape MPath c)) (path_charb c))). vm_compute. reflexivity. Qed.

Lemma valid_iff : forall p, valid_encoded MPath p = true <-> well_formed p.
Proof.
  induction p as [|c p IH]; cbn [valid_encoded].
  - split; [|reflexivity]. intros _ c H. discriminate H.
  - rewrite valid_char, andb_true_iff, IH, path_char_iff. split.
    + intros [A B] d H. cbn [has_char] in H. apply orb_true_iff in H. destruct H as [H|H]; [apply Ascii.eqb_eq in H; now subst d|exact (B d H)].
    + intros H. split; [apply H; cbn [has_char]; now rewrite Ascii.eqb_refl|]. intros d Hd. apply H. cbn [has_char]. rewrite Hd. apply orb_true_r.
Qed.

Lemma kept_path : forall c, keptb c = true -> path_charb c = true.
Proof. intros c H. assert (T := by_all (fun c => implb (keptb c) (path_charb c)) ltac:(vm_compute; reflexivity) c). cbv beta in T. rewrite H in T. exact T. Qed.

(** Characters of paths are no control characters, no "?" and no "#". *)
Lemma path_char_not : forall c, path_charb c = true -> N.ltb (N_of_ascii c) 32 || N.eqb (N_of_ascii c) 127 = false /\ Ascii.eqb c "?" = false /\ Ascii.eqb c "#" = false.
Proof.
  intros c H. assert (T := by_all (fun c => implb (path_charb c) (negb (N.ltb (N_of_ascii c) 32 || N.eqb (N_of_ascii c) 127) && negb (Ascii.eqb c "?") && negb (Ascii.eqb c "#"))) ltac:(vm_compute; reflexivity) c).
  cbv beta in T. rewrite H in T. cbn [implb] in T. apply andb_prop in T. destruct T as [T T3]. apply andb_prop in T. destruct T as [T1 T2].
  split; [now apply negb_true_iff|]. split; now apply negb_true_iff.
Qed.

(** * Escaping *)

Lemma hex_same : forall c, hex_val c = digit c.
Proof.
  intros c. assert (T := by_all (fun c => match hex_val c, digit c with Some a, Some b => N.eqb a b | None, None => true | _, _ => false end) ltac:(vm_compute; reflexivity) c).
  cbv beta in T. destruct (hex_val c), (digit c); try discriminate T; [apply N.eqb_eq in T; now subst|reflexivity].
Qed.

Lemma string_strong : forall P : string -> Prop, (forall s, (forall t, String.length t < String.length s -> P t) -> P s) -> forall s, P s.
Proof.
  intros P H s. assert (G : forall n t, String.length t < n -> P t); [|exact (G _ s (le_n _))].
  induction n as [|n IH]; intros t L; [lia|]. apply H. intros r Hr. apply IH. lia.
Qed.

Lemma unescape_decode : forall m, (m = MPath \/ m = MFragment) -> forall s, unescape m s = decode s.
Proof.
  intros m Hm. assert (F : forall a b : bool, match m with MHost => a | MZone => b | _ => false end = false) by (intros; destruct Hm as [->| ->]; reflexivity).
  assert (F' : forall a : bool, match m with MHost | MZone => a | _ => false end = false) by (intros; destruct Hm as [->| ->]; reflexivity).
  induction s as [s IH] using string_strong. destruct s as [|a s]; [reflexivity|]. cbn [unescape decode]. destruct (Ascii.eqb a "%").
  - destruct s as [|b [|c s]]; [reflexivity|reflexivity|]. rewrite !hex_same. destruct (digit b) as [x|]; [|reflexivity]. destruct (digit c) as [y|]; [|reflexivity].
    cbv zeta. rewrite F, (IH s) by (cbn [String.length]; lia). destruct (decode s); [|reflexivity]. rewrite (N.mul_comm x 16). reflexivity.
  - rewrite F', (IH s) by (cbn [String.length]; lia). reflexivity.
Qed.

Lemma hex_upper_digit : forall n, (n < 16)%N -> UrlSpec.hex_digit n (hex_upper n) /\ digit (hex_upper n) = Some n /\ path_charb (hex_upper n) = true.
Proof.
  intros n H. assert (T : forallb (fun n => match digit (hex_upper (N.of_nat n)) with Some k => N.eqb k (N.of_nat n) && path_charb (hex_upper (N.of_nat n)) | None => false end) (seq 0 16) = true) by (vm_compute; reflexivity).
  rewrite forallb_forall in T. specialize (T (N.to_nat n)). rewrite N2Nat.id in T. assert (I : In (N.to_nat n) (seq 0 16)) by (apply in_seq; lia). specialize (T I).
  destruct (digit (hex_upper n)) as [k|]; [|discriminate T]. apply andb_prop in T. destruct T as [T1 T2]. apply N.eqb_eq in T1. subst k. split; [|now split].
  unfold UrlSpec.hex_digit, hex_upper. destruct (N.ltb_spec n 10) as [L|L]; [left|right]; (split; [lia|]); rewrite N_ascii_embedding; lia.
Qed.

Lemma octet : forall c, (16 * (N_of_ascii c / 16) + N_of_ascii c mod 16 = N_of_ascii c /\ N_of_ascii c / 16 < 16 /\ N_of_ascii c mod 16 < 16)%N.
Proof. intros c. split; [symmetry; now apply N.div_mod|]. assert (B := N_ascii_bounded c). split; [apply N.div_lt_upper_bound; lia|now apply N.mod_lt]. Qed.

Lemma escape_encoded : forall s, encoded s (escape MPath s).
Proof.
  induction s as [|c s IH]; cbn [escape]; [constructor|]. rewrite should_is_kept. destruct (keptb c) eqn:E; cbn [negb].
  - constructor; [now apply kept_iff|exact IH].
  - destruct (octet c) as [_ [H1 H2]]. apply enc_octet; [rewrite <- kept_iff; congruence|apply hex_upper_digit, H1|apply hex_upper_digit, H2|exact IH].
Qed.

Lemma hex_digit_unique : forall n a b, UrlSpec.hex_digit n a -> UrlSpec.hex_digit n b -> a = b.
Proof.
  intros n a b H1 H2. rewrite <- (ascii_N_embedding a), <- (ascii_N_embedding b). f_equal. unfold UrlSpec.hex_digit in *. lia.
Qed.

Lemma encoded_unique : forall s t, encoded s t -> t = escape MPath s.
Proof.
  intros s t H. induction H as [|c s t Hk H IH|c a b s t Hk H1 H2 H IH]; cbn [escape]; [reflexivity| |].
  - rewrite should_is_kept. apply kept_iff in Hk. rewrite Hk. cbn [negb]. now rewrite IH.
  - rewrite should_is_kept. destruct (keptb c) eqn:E; [apply kept_iff in E; contradiction|]. cbn [negb]. destruct (octet c) as [_ [L1 L2]].
    rewrite (hex_digit_unique _ _ _ H1 (proj1 (hex_upper_digit _ L1))), (hex_digit_unique _ _ _ H2 (proj1 (hex_upper_digit _ L2))). now rewrite IH.
Qed.

Lemma escape_decode : forall s, decode (escape MPath s) = Some s.
Proof.
  induction s as [|c s IH]; cbn [escape]; [reflexivity|]. rewrite should_is_kept. destruct (keptb c) eqn:E; cbn [negb decode].
  - assert (P : Ascii.eqb c "%" = false). { destruct (Ascii.eqb_spec c "%") as [->|]; [discriminate E|reflexivity]. } rewrite P, IH. reflexivity.
  - cbn [Ascii.eqb]. destruct (octet c) as [H0 [H1 H2]]. rewrite (proj1 (proj2 (hex_upper_digit _ H1))), (proj1 (proj2 (hex_upper_digit _ H2))), IH, H0, ascii_N_embedding. reflexivity.
Qed.

Lemma escape_valid : forall s, valid_encoded MPath (escape MPath s) = true.
Proof.
  induction s as [|c s IH]; cbn [escape]; [reflexivity|]. rewrite should_is_kept. destruct (keptb c) eqn:E; cbn [negb valid_encoded]; rewrite !valid_char.
  - now rewrite (kept_path c E), IH.
  - destruct (octet c) as [_ [H1 H2]]. rewrite (proj2 (proj2 (hex_upper_digit _ H1))), (proj2 (proj2 (hex_upper_digit _ H2))), IH. reflexivity.
Qed.

(** * Cutting *)

Lemma has_app : forall c a b, has_char c (a ++ b) = has_char c a || has_char c b.
Proof. intros c a b. induction a as [|d a IH]; cbn [append has_char]; [reflexivity|]. now rewrite IH, orb_assoc. Qed.

Lemma cut_none : forall c a, has_char c a = false -> cut_first c a = None.
Proof.
  intros c a. induction a as [|d a IH]; intros H; cbn [cut_first]; [reflexivity|]. cbn [has_char] in H. apply orb_false_iff in H. destruct H as [H1 H2].
  rewrite Ascii.eqb_sym, H1, (IH H2). reflexivity.
Qed.

Lemma cut_at : forall c a b, has_char c a = false -> cut_first c (a ++ String c b) = Some (a, b).
Proof.
  intros c a b. induction a as [|d a IH]; intros H; cbn [append cut_first]; [now rewrite Ascii.eqb_refl|]. cbn [has_char] in H. apply orb_false_iff in H. destruct H as [H1 H2].
  rewrite Ascii.eqb_sym, H1, (IH H2). reflexivity.
Qed.

Lemma last_none : forall c a, has_char c a = false -> cut_last c a = None.
Proof.
  intros c a. induction a as [|d a IH]; intros H; cbn [cut_last]; [reflexivity|]. cbn [has_char] in H. apply orb_false_iff in H. destruct H as [H1 H2].
  rewrite (IH H2), Ascii.eqb_sym, H1. reflexivity.
Qed.

Lemma last_at : forall c a b, has_char c b = false -> cut_last c (a ++ String c b) = Some (a, b).
Proof.
  intros c a b H. induction a as [|d a IH]; cbn [append cut_last]; [now rewrite (last_none c b H), Ascii.eqb_refl|]. now rewrite IH.
Qed.

Lemma ctl_app : forall a b, has_ctl (a ++ b) = has_ctl a || has_ctl b.
Proof. intros a b. induction a as [|d a IH]; cbn [append has_ctl]; [reflexivity|]. cbv zeta. now rewrite IH, orb_assoc. Qed.

Lemma valid_clean : forall p, valid_encoded MPath p = true -> has_ctl p = false /\ has_char "?" p = false /\ has_char "#" p = false.
Proof.
  induction p as [|c p IH]; intros H; [now split|]. cbn [valid_encoded] in H. rewrite valid_char in H. apply andb_prop in H. destruct H as [H1 H2].
  destruct (IH H2) as [I1 [I2 I3]]. destruct (path_char_not c H1) as [P1 [P2 P3]]. cbn [has_ctl has_char]. cbv zeta. rewrite P1, I1, (Ascii.eqb_sym "?"), P2, I2, (Ascii.eqb_sym "#"), P3, I3. now split.
Qed.

(** * Paths *)

Definition sent (p path : string) : string := if valid_encoded MPath p then p else escape MPath path.

Lemma decode_slash : forall p path, decode (String "/" p) = Some path -> exists t, path = String "/" t.
Proof. intros p path H. cbn [decode] in H. cbn [Ascii.eqb] in H. cbn in H. destruct (decode p) as [t|]; [|discriminate H]. injection H as <-. now exists t. Qed.

Lemma slash_start : forall p, String.prefix "/" p = true -> exists p', p = String "/" p'.
Proof. intros [|c p] H; [discriminate H|]. cbn [String.prefix] in H. destruct (ascii_dec "/" c) as [<-|]; [now exists p|discriminate H]. Qed.

Lemma prefix_slash : forall x, String.prefix "/" (String "/" x) = true.
Proof. intros [|c x]; reflexivity. Qed.

Lemma set_path_inv : forall p path rp, set_path p = Some (path, rp) -> decode p = Some path /\ rp = if String.eqb p (escape MPath path) then "" else p.
Proof. intros p path rp H. unfold set_path in H. rewrite (unescape_decode MPath (or_introl eq_refl)) in H. destruct (decode p) as [t|]; [|discriminate H]. injection H as <- <-. now split. Qed.

Lemma escaped_is_sent : forall s o us h p path rp f q, String.prefix "/" p = true -> set_path p = Some (path, rp) -> escaped_path (GoUrl s o us h path rp f q) = sent p path.
Proof.
  intros s o us h p path rp f q Hp Hs. apply set_path_inv in Hs. destruct Hs as [Hd ->]. destruct (slash_start _ Hp) as [p' ->].
  destruct (decode_slash _ _ Hd) as [t Et]. unfold escaped_path, sent. cbn [g_raw_path g_path].
  destruct (String.eqb_spec (String "/" p') (escape MPath path)) as [E|E].
  - cbn [String.eqb negb andb]. rewrite Et. cbn [String.eqb Ascii.eqb]. rewrite <- Et. rewrite E, escape_valid. reflexivity.
  - cbn [String.eqb negb andb]. rewrite (unescape_decode MPath (or_introl eq_refl)), Hd, String.eqb_refl, andb_true_r. destruct (valid_encoded MPath (String "/" p')); [reflexivity|].
    rewrite Et. reflexivity.
Qed.

Lemma sent_facts : forall p path, String.prefix "/" p = true -> decode p = Some path ->
  String.prefix "/" (sent p path) = true /\ valid_encoded MPath (sent p path) = true /\ decode (sent p path) = Some path.
Proof.
  intros p path Hp Hd. unfold sent. destruct (valid_encoded MPath p) eqn:E; [now split|]. split; [|split; [apply escape_valid|apply escape_decode]].
  destruct (slash_start _ Hp) as [p' ->]. destruct (decode_slash _ _ Hd) as [t ->]. exact (prefix_slash _).
Qed.

Lemma sent_again : forall p path, String.prefix "/" p = true -> decode p = Some path -> sent (sent p path) path = sent p path.
Proof. intros p path Hp Hd. unfold sent at 1. now rewrite (proj1 (proj2 (sent_facts p path Hp Hd))). Qed.

Lemma sent_iff : forall p path p', decode p = Some path -> (sent_path p p' <-> p' = sent p path).
Proof.
  intros p path p' Hd. unfold sent_path, sent. destruct (valid_encoded MPath p) eqn:E.
  - apply valid_iff in E. split; [intros [[_ H]|[H _]]; [exact H|contradiction]|]. intros ->. left. now split.
  - assert (N : ~ well_formed p) by (rewrite <- valid_iff; congruence). split.
    + intros [[H _]|(_ & q & H1 & H2)]; [contradiction|]. assert (q = path) as -> by congruence. exact (encoded_unique _ _ H2).
    + intros ->. right. split; [exact N|]. exists path. split; [exact Hd|apply escape_encoded].
Qed.

(** * Queries *)

Definition query_part (query : string) : Prop := query = "" \/ exists x, query = "?" ++ x.

Lemma cut_query_at : forall a query, has_char "?" a = false -> query_part query ->
  exists f q, cut_query (a ++ query) = (f, q, a) /\ (if f || negb (String.eqb q "") then "?" ++ q else "") = query.
Proof.
  intros a query Ha [->|[x ->]]; unfold cut_query.
  - rewrite append_nil_r, (cut_none _ _ Ha). exists false, "". now split.
  - cbn [append]. rewrite (cut_at _ _ _ Ha). destruct x as [|c x]; [exists true, ""; now split|]. exists false, (String c x). now split.
Qed.

(** * What net/http reads *)

Lemma read_origin : forall m raw p query g, raw = p ++ query -> String.prefix "/" p = true -> has_char "?" p = false -> query_part query -> read_target m raw = Some g ->
  exists path, decode p = Some path /\ has_ctl raw = false /\ request_uri g = sent p path ++ query /\ g_path g = path.
Proof.
  intros m raw p query g -> Hp Hq Hquery H. destruct (slash_start _ Hp) as [p' Ep].
  assert (Hr : String.prefix "/" (p ++ query) = true) by (rewrite Ep; exact (prefix_slash _)). unfold read_target in H. rewrite Hr in H. cbn [negb] in H. rewrite andb_false_r in H.
  unfold parse_go in H. destruct (has_ctl (p ++ query)) eqn:Ec; [discriminate H|].
  assert (E1 : String.eqb (p ++ query) "" = false) by (rewrite Ep; reflexivity). assert (E2 : String.eqb (p ++ query) "*" = false) by (rewrite Ep; reflexivity).
  assert (E3 : get_scheme (p ++ query) = Some ("", p ++ query)) by (rewrite Ep; reflexivity). rewrite E1, E2, E3 in H. cbn [andb] in H.
  destruct (cut_query_at p query Hq Hquery) as (f & q & E4 & E5). rewrite E4, Hp in H. cbn [negb andb orb String.eqb] in H.
  destruct (set_path p) as [[path rp]|] eqn:Es; [|discriminate H]. injection H as <-. assert (Hd := proj1 (set_path_inv _ _ _ Es)).
  exists path. split; [exact Hd|]. split; [reflexivity|]. split; [|reflexivity]. unfold request_uri. cbn [g_opaque String.eqb g_force g_query]. rewrite (escaped_is_sent _ _ _ _ _ _ _ _ _ Hp Es), E5.
  destruct (sent_facts p path Hp Hd) as [S1 _]. destruct (slash_start _ S1) as [s' ->]. reflexivity.
Qed.

(** * What is written to a server *)

Definition name_charb (c : ascii) : bool := is_alnum c || Ascii.eqb c "." || Ascii.eqb c "-".

Lemma name_char_facts : forall c, name_charb c = true -> N.ltb (N_of_ascii c) 32 || N.eqb (N_of_ascii c) 127 = false /\
  (Ascii.eqb c "?" = false /\ Ascii.eqb c "#" = false /\ Ascii.eqb c "/" = false /\ Ascii.eqb c "@" = false /\ Ascii.eqb c "[" = false /\ Ascii.eqb c ":" = false) /\
  Ascii.eqb c "%" = false /\ should_escape MHost c = false.
Proof.
  intros c H. assert (T := by_all (fun c => implb (name_charb c) (negb (N.ltb (N_of_ascii c) 32 || N.eqb (N_of_ascii c) 127) && negb (has_char c "?#/@[:%") && negb (should_escape MHost c))) ltac:(vm_compute; reflexivity) c).
  cbv beta in T. rewrite H in T. cbn [implb] in T. apply andb_prop in T. destruct T as [T T3]. apply andb_prop in T. destruct T as [T1 T2].
  apply negb_true_iff in T1, T2, T3. cbn [has_char] in T2. repeat (apply orb_false_iff in T2; let X := fresh in destruct T2 as [X T2]). now repeat split.
Qed.

Fixpoint all_name (s : string) : bool := match s with "" => true | String c s' => name_charb c && all_name s' end.

Lemma all_name_iff : forall s, (forall c, has_char c s = true -> alphanumeric c \/ c = "."%char \/ c = "-"%char) -> all_name s = true.
Proof.
  induction s as [|d s IH]; intros H; [reflexivity|]. cbn [all_name]. rewrite IH by (intros c Hc; apply H; cbn [has_char]; rewrite Hc; apply orb_true_r). rewrite andb_true_r.
  unfold name_charb. destruct (H d) as [A|[-> | ->]]; [cbn [has_char]; now rewrite Ascii.eqb_refl| |reflexivity|reflexivity]. apply alnum_iff in A. now rewrite A.
Qed.

Lemma name_without : forall s, all_name s = true -> has_ctl s = false /\ has_char "?" s = false /\ has_char "#" s = false /\ has_char "/" s = false /\ has_char "@" s = false /\ has_char ":" s = false.
Proof.
  induction s as [|c s IH]; intros H; [now repeat split|]. cbn [all_name] in H. apply andb_prop in H. destruct H as [H1 H2].
  destruct (IH H2) as (I1 & I2 & I3 & I4 & I5 & I6). destruct (name_char_facts c H1) as (P0 & (P1 & P2 & P3 & P4 & _ & P5) & _). cbn [has_ctl has_char]. cbv zeta.
  rewrite P0, I1, !(Ascii.eqb_sym _ c), P1, P2, P3, P4, P5, I2, I3, I4, I5, I6. now repeat split.
Qed.

Lemma name_unescape : forall s t, all_name s = true -> unescape MHost (s ++ t) = match unescape MHost t with Some r => Some (s ++ r) | None => None end.
Proof.
  induction s as [|c s IH]; intros t H; [cbn [append]; now destruct (unescape MHost t)|]. cbn [all_name] in H. apply andb_prop in H. destruct H as [H1 H2].
  destruct (name_char_facts c H1) as (_ & _ & P1 & P2). cbn [append unescape]. rewrite P1, P2, andb_false_r, (IH t H2). now destruct (unescape MHost t).
Qed.

Lemma digits_of : forall s, (forall c, has_char c s = true -> N_in 48 57 (N_of_ascii c) = true) -> all_digits s = true /\ all_name s = true.
Proof.
  induction s as [|d s IH]; intros H; [now split|]. cbn [all_digits all_name]. assert (D : is_digit d = true) by (apply H; cbn [has_char]; now rewrite Ascii.eqb_refl).
  destruct IH as [I1 I2]. { intros c Hc. apply H. cbn [has_char]. rewrite Hc. apply orb_true_r. }
  rewrite D, I1, I2. unfold name_charb, is_alnum. rewrite D, orb_true_r. now split.
Qed.

Lemma authority_ok : forall host port, host <> "" -> all_name host = true -> parse_authority (host ++ ":" ++ itoa port) = Some (false, host ++ ":" ++ itoa port).
Proof.
  intros host port Hne Hh. destruct (digits_of (itoa port) (fun c => itoa_digits port c)) as [D1 D2].
  destruct (name_without _ Hh) as (_ & _ & _ & _ & A1 & A2). destruct (name_without _ D2) as (_ & _ & _ & _ & B1 & B2).
  unfold parse_authority. rewrite last_none by (rewrite !has_app, A1, B1; reflexivity).
  assert (E : parse_host (host ++ ":" ++ itoa port) = Some (host ++ ":" ++ itoa port)); [|now rewrite E].
  unfold parse_host. assert (P : String.prefix "[" (host ++ ":" ++ itoa port) = false).
  { destruct host as [|c host]; [now destruct Hne|]. cbn [append String.prefix]. destruct (ascii_dec "[" c) as [<-|]; [discriminate Hh|reflexivity]. }
  rewrite P. cbn [append]. rewrite (last_at _ _ _ B2), D1. rewrite (name_unescape host _ Hh). cbn [unescape]. 
  assert (U : unescape MHost (itoa port) = Some (itoa port)) by (rewrite <- (append_nil_r (itoa port)) at 1; rewrite (name_unescape _ _ D2); cbn [unescape]; now rewrite append_nil_r).
  rewrite U. reflexivity.
Qed.

Lemma scheme_ok : forall sch x, (sch = "http" \/ sch = "https") -> get_scheme (sch ++ "://" ++ x) = Some (sch, "//" ++ x) /\ lower sch = sch /\ String.eqb sch "" = false /\ has_ctl sch = false /\ has_char "#" sch = false.
Proof. intros sch x [-> | ->]; repeat split; reflexivity. Qed.

(** The target written for the address of a server with a path and a query *)
Lemma write_plain : forall u p path query, plain_server u -> String.prefix "/" p = true -> valid_encoded MPath p = true -> decode p = Some path -> query_part query -> has_ctl query = false ->
  exists g, parse_go false (url_string u ++ p ++ query) = Some g /\ request_uri g = p ++ query /\ g_host g = u_host u ++ ":" ++ itoa (u_port u).
Proof.
  intros u p path query (Hsch & Hne & Hh) Hp Hv Hd Hq Hc. apply all_name_iff in Hh. set (hp := u_host u ++ ":" ++ itoa (u_port u)).
  destruct (digits_of (itoa (u_port u)) (fun c => itoa_digits (u_port u) c)) as [_ D2].
  assert (A := authority_ok (u_host u) (u_port u) Hne Hh). fold hp in A.
  destruct (name_without _ Hh) as (A1 & A2 & A3 & A4 & _). destruct (name_without _ D2) as (B1 & B2 & B3 & B4 & _). destruct (valid_clean _ Hv) as (V1 & V2 & V3).
  assert (W : has_ctl hp = false /\ has_char "?" hp = false /\ has_char "/" hp = false).
  { unfold hp. rewrite !ctl_app, !has_app, A1, A2, A4, B1, B2, B4. now split. }
  destruct W as (W1 & W2 & W4).
  assert (Eu : url_string u ++ p ++ query = u_scheme u ++ "://" ++ (hp ++ p ++ query)) by (unfold url_string, hp; now rewrite !append_assoc).
  destruct (scheme_ok (u_scheme u) (hp ++ p ++ query) Hsch) as (S1 & S2 & S3 & S4 & _).
  unfold parse_go. rewrite Eu. assert (C : has_ctl (u_scheme u ++ "://" ++ hp ++ p ++ query) = false) by (rewrite !ctl_app, S4, W1, V1, Hc; reflexivity). rewrite C, andb_false_r.
  assert (E2 : String.eqb (u_scheme u ++ "://" ++ hp ++ p ++ query) "*" = false) by (destruct Hsch as [-> | ->]; reflexivity). rewrite E2, S1.
  destruct (cut_query_at ("//" ++ hp ++ p) query) as (f & q & E4 & E5); [rewrite !has_app, W2, V2; reflexivity|exact Hq|].
  assert (Ea : "//" ++ hp ++ p ++ query = ("//" ++ hp ++ p) ++ query) by (now rewrite !append_assoc). rewrite Ea, E4.
  assert (P1 : String.prefix "/" ("//" ++ hp ++ p) = true) by exact (prefix_slash _). assert (P2 : String.prefix "//" ("//" ++ hp ++ p) = true) by (cbn [append String.prefix]; destruct (ascii_dec "/" "/"); [now destruct (hp ++ p)|contradiction]).
  rewrite P1, P2, S3. cbn [negb andb orb]. assert (Dr : drop 2 ("//" ++ hp ++ p) = hp ++ p) by reflexivity. rewrite Dr.
  destruct (slash_start _ Hp) as [p' Ep]. assert (Ec : cut_first "/" (hp ++ p) = Some (hp, p')) by (rewrite Ep; exact (cut_at _ _ _ W4)). rewrite Ec, A, <- Ep.
  assert (Es : exists rp, set_path p = Some (path, rp)) by (unfold set_path; rewrite (unescape_decode MPath (or_introl eq_refl)), Hd; now eexists). destruct Es as [rp Es]. rewrite Es.
  eexists. split; [reflexivity|]. split; [|reflexivity]. unfold request_uri. cbn [g_opaque String.eqb g_force g_query]. rewrite (escaped_is_sent _ _ _ _ _ _ _ _ _ Hp Es), E5.
  unfold sent. rewrite Hv, Ep. reflexivity.
Qed.

Lemma server_no_hash : forall u, plain_server u -> has_char "#" (url_string u) = false.
Proof.
  intros u (Hsch & _ & Hh). apply all_name_iff in Hh. destruct (digits_of (itoa (u_port u)) (fun c => itoa_digits (u_port u) c)) as [_ D2].
  destruct (name_without _ Hh) as (_ & _ & A3 & _). destruct (name_without _ D2) as (_ & _ & B3 & _). destruct (scheme_ok (u_scheme u) "" Hsch) as (_ & _ & _ & _ & S5).
  unfold url_string. rewrite !has_app, A3, B3, S5. reflexivity.
Qed.

Lemma write_origin : forall m raw p query frag g u, origin raw p query frag -> read_target m raw = Some g -> plain_server u ->
  exists path, decode p = Some path /\ g_path g = path /\ request_uri g = sent p path ++ query ++ frag /\
    (decodable frag -> wire_target (url_string u ++ request_uri g) = Some (sent p path ++ query)) /\
    (~ decodable frag -> parse_url (url_string u ++ request_uri g) = None) /\
    (forall g', parse_url (url_string u ++ request_uri g) = Some g' -> g_host g' = u_host u ++ ":" ++ itoa (u_port u)).
Proof.
  intros m raw p query frag g u (Er & Hp & Hq & Hrest) Hread Hu.
  assert (Q1 : query_part (query ++ frag)). { destruct Hrest as [[-> ->]|(x & -> & _)]; [now left|right; now exists (x ++ frag)]. }
  destruct (read_origin _ _ _ _ _ Er Hp Hq Q1 Hread) as (path & Hd & Hc & Hg & Hpath). exists path. split; [exact Hd|]. split; [exact Hpath|]. split; [exact Hg|].
  destruct (sent_facts p path Hp Hd) as (S1 & S2 & S3). destruct (valid_clean _ S2) as (_ & _ & V3).
  assert (Q2 : query_part query). { destruct Hrest as [[-> _]|(x & -> & _)]; [now left|right; now exists x]. }
  assert (Hc2 : has_ctl query = false). { rewrite Er, !ctl_app in Hc. apply orb_false_iff in Hc. destruct Hc as [_ Hc]. now apply orb_false_iff in Hc. }
  destruct (write_plain u (sent p path) path query Hu S1 S2 S3 Q2 Hc2) as (g2 & G1 & G2 & G3).
  assert (NH : has_char "#" (url_string u ++ sent p path ++ query) = false).
  { rewrite !has_app, (server_no_hash u Hu), V3. destruct Hrest as [[-> _]|(x & -> & H & _)]; [reflexivity|]. rewrite has_app, H. reflexivity. }
  assert (F : frag = "" \/ exists y, frag = "#" ++ y). { destruct Hrest as [[_ ->]|(x & _ & _ & H)]; [now left|exact H]. }
  unfold wire_target. rewrite Hg. assert (Ea : url_string u ++ sent p path ++ query ++ frag = (url_string u ++ sent p path ++ query) ++ frag) by (now rewrite !append_assoc). rewrite Ea.
  destruct F as [->|[y ->]].
  - rewrite append_nil_r. unfold parse_url. rewrite (cut_none _ _ NH), G1. split; [intros _; cbn [option_map]; now rewrite G2|]. split; [intros N; elim N; now left|]. intros g' H. injection H as <-. exact G3.
  - unfold parse_url. cbn [append]. rewrite (cut_at _ _ _ NH), G1, (unescape_decode MFragment (or_intror eq_refl)). split.
    + intros [H|(z & H1 & H2)]; [discriminate H|]. injection H1 as <-. destruct (decode y); [|contradiction]. cbn [option_map]. now rewrite G2.
    + split; [intros N; destruct (decode y) eqn:E; [|reflexivity]; elim N; right; exists y; split; [reflexivity|]; rewrite E; discriminate|].
      intros g' H. destruct (decode y); [injection H as <-; exact G3|discriminate H].
Qed.

(** * Whole requests *)

Lemma ran_plain : forall so srt cfg0 t c s, in_use so srt cfg0 (t_cfg t) -> ran t c s -> sized (t_req t) -> plain_servers cfg0 -> untransformed cfg0 (q_raw_uri (t_req t)) ->
  exists u, plain_server u /\ uq_uri (c_request c) = url_string u ++ q_uri (t_req t).
Proof.
  intros so srt cfg0 t c s Hu Hr Hq Hpl Hun. destruct (ran_inv t c s Hr Hq) as (_ & _ & r & u & l & Hs & Hm & Ec). cbv zeta in Ec. rewrite Ec. cbn [c_request uq_uri scaffold_request].
  destruct (in_use_boot _ _ _ _ Hu) as [Hsrt [cfg1 [Hb [Er Es]]]].
  assert (Hs' := Hs). rewrite Er in Hs'. destruct (select_longest _ _ _ _ _ _ _ Hsrt Hb Hs') as [(r0 & H0 & B0 & M0) Hlong].
  apply map_url_mapped in Hm. destruct Hm as (ms' & Hl & Hm'). rewrite Es in Hl.
  destruct (boot_schemes _ _ _ _ _ _ _ Hb Hl) as (ms & Hl0 & Hms).
  pose proof B0 as (B1 & B2 & B3 & B4 & _).
  assert (G : exists m, In m ms /\ same_server (rm_url m) u).
  { destruct Hm' as [(P & _ & m' & post & -> & <-)|(P & -> & pre & m' & post & -> & Hlab & <- & _)].
    - inversion Hms as [|m m'' l1 l2 (Q1 & Q2 & Q3 & Q4 & Q5) Q6]; subst. exists m. split; [now left|]. now repeat split.
    - destruct (forall2_nth _ _ _ _ _ Hms m') as (m & I & Q1 & Q2 & Q3 & Q4 & Q5); [apply in_or_app; right; now left|]. exists m. split; [exact I|]. now repeat split. }
  destruct G as (m & I & S1 & S2 & S3). exists u. destruct (Hpl _ _ _ Hl0 I) as [K N]. split.
  - split; [|rewrite S1; exact N]. rewrite S3. destruct (norm_scheme_spec (u_scheme (rm_url m))) as (N1 & _). exact (N1 K).
  - unfold resolve_upstream_uri. rewrite B2, (Hun r0 H0 M0). reflexivity.
Qed.

Lemma known_tokens : forall m, In m known_methods -> all_token m = true.
Proof. intros m H. repeat (destruct H as [<-|H]; [reflexivity|]). destruct H. Qed.

Lemma ok_iff : forall so srt cfg0 t c s p query frag, in_use so srt cfg0 (t_cfg t) -> ran t c s -> sized (t_req t) -> by_net_http t ->
  plain_servers cfg0 -> untransformed cfg0 (q_raw_uri (t_req t)) -> origin (q_raw_uri (t_req t)) p query frag ->
  (c_ok c = true <-> decodable frag) /\ (decodable frag -> exists p', sent_path p p' /\ wire_target (uq_uri (c_request c)) = Some (p' ++ query)).
Proof.
  intros so srt cfg0 t c s p query frag Hu Hr Hq [(g & G1 & G2 & G3) Hnew] Hpl Hun Ho.
  destruct (ran_plain _ _ _ _ _ _ Hu Hr Hq Hpl Hun) as (u & Hus & Eu).
  destruct (ran_conf t c s Hr Hq) as (_ & _ & Eok). destruct (ran_inv t c s Hr Hq) as (_ & (_ & Hmeth & _) & r & u' & l & _ & _ & Ec). cbv zeta in Ec.
  assert (Em : uq_method (c_request c) = to_upper (q_method (t_req t))) by (rewrite Ec; reflexivity).
  rewrite Hnew in Eok. unfold new_request in Eok. rewrite Em, (known_tokens _ Hmeth), Eu in Eok. cbn [andb] in Eok.
  fold (t_req t) in G1, G2. destruct (write_origin _ _ _ _ _ _ u Ho G1 Hus) as (path & Hd & _ & _ & W1 & W2 & _). rewrite <- G2 in W1, W2. split.
  - rewrite Eok. split.
    + intros H. destruct Ho as (_ & _ & _ & Hrest). assert (F : frag = "" \/ exists y, frag = "#" ++ y). { destruct Hrest as [[_ ->]|(x & _ & _ & H')]; [now left|exact H']. }
      destruct F as [->|[y ->]]; [now left|]. destruct (decode y) eqn:E; [right; exists y; split; [reflexivity|rewrite E; discriminate]|].
      exfalso. rewrite W2 in H; [discriminate H|]. intros [H'|(z & H1 & H2)]; [discriminate H'|]. injection H1 as <-. contradiction.
    + intros H. specialize (W1 H). unfold wire_target in W1. destruct (parse_url _); [reflexivity|discriminate W1].
  - intros H. exists (sent p path). split; [now apply (sent_iff p path)|]. rewrite Eu. exact (W1 H).
Qed.

Lemma host_sent : forall so srt cfg0 t c s p query frag g, in_use so srt cfg0 (t_cfg t) -> ran t c s -> sized (t_req t) -> by_net_http t ->
  plain_servers cfg0 -> untransformed cfg0 (q_raw_uri (t_req t)) -> origin (q_raw_uri (t_req t)) p query frag ->
  parse_url (uq_uri (c_request c)) = Some g -> exists u, plain_server u /\ uq_uri (c_request c) = url_string u ++ q_uri (t_req t) /\ g_host g = u_host u ++ ":" ++ itoa (u_port u).
Proof.
  intros so srt cfg0 t c s p query frag g Hu Hr Hq [(g0 & G1 & G2 & G3) _] Hpl Hun Ho Hg.
  destruct (ran_plain _ _ _ _ _ _ Hu Hr Hq Hpl Hun) as (u & Hus & Eu). exists u. split; [exact Hus|]. split; [exact Eu|].
  fold (t_req t) in G1, G2. destruct (write_origin _ _ _ _ _ _ u Ho G1 Hus) as (path & _ & _ & _ & _ & _ & W3). apply W3. now rewrite <- G2, <- Eu.
Qed.

(** Without an upstream request there is a panic, and nothing is sent to anybody. *)
Lemma refused : forall c, c_ok c = false -> forall ls s, exec c init ls = Some s -> (s_pc s = PStart \/ s_pc s = PPanic) /\ s_sent s = [] /\ s_out s = [].
Proof.
  intros c Hc ls. assert (G : forall ls s0 s, exec c s0 ls = Some s -> (s_pc s0 = PStart \/ s_pc s0 = PPanic) /\ s_sent s0 = [] /\ s_out s0 = [] -> (s_pc s = PStart \/ s_pc s = PPanic) /\ s_sent s = [] /\ s_out s = []).
  { clear ls. induction ls as [|l ls IH]; intros s0 s H I; cbn [exec] in H; [injection H as <-; exact I|]. destruct (step c s0 l) as [s1|] eqn:E; [|discriminate H].
    apply (IH s1 s H). clear IH H. destruct I as (P & I1 & I2).
    MachineProofs.step_cases E; try (exfalso; destruct P as [P|P]; congruence); cbn [s_pc s_sent s_out go with_atts with_s_flag at_cur]; solve [split; [exact P|now split]|split; [now right|now split]]. }
  intros s H. apply (G ls init s H). split; [now left|]. now split.
Qed.

Lemma asks_ran : forall t x, asks t x -> sized (t_req t) -> exists c s, ran t c s /\ x = c_request c /\ c_ok c = true.
Proof.
  intros t x H Hq. destruct H as (xs & (c & s & Hr & Hx) & Hin). exists c, s. split; [exact Hr|].
  subst xs. split; [exact (MachineProofs.attempts_same c (t_run t) s (proj2 Hr) x Hin)|]. destruct (c_ok c) eqn:E; [reflexivity|]. destruct (refused c E _ _ (proj2 Hr)) as (_ & R & _). rewrite R in Hin. destruct Hin.
Qed.

Lemma target_sent : forall so srt cfg0 t x p query frag, in_use so srt cfg0 (t_cfg t) -> asks t x -> sized (t_req t) -> by_net_http t ->
  plain_servers cfg0 -> untransformed cfg0 (q_raw_uri (t_req t)) -> origin (q_raw_uri (t_req t)) p query frag ->
  exists p', sent_path p p' /\ wire_target (uq_uri x) = Some (p' ++ query).
Proof.
  intros so srt cfg0 t x p query frag Hu Ha Hq Hn Hpl Hun Ho. destruct (asks_ran t x Ha Hq) as (c & s & Hr & -> & Hok).
  destruct (ok_iff _ _ _ _ _ _ _ _ _ Hu Hr Hq Hn Hpl Hun Ho) as [A B]. exact (B (proj1 A Hok)).
Qed.

Lemma append_nil : forall a b : string, a = a ++ b -> b = "".
Proof. induction a as [|c a IH]; intros b H; [now symmetry|]. cbn [append] in H. injection H as H. exact (IH b H). Qed.

Lemma sent_well_formed : forall p path p', decode p = Some path -> sent_path p p' -> well_formed p'.
Proof.
  intros p path p' Hd H. apply (sent_iff p path p' Hd) in H. subst p'. apply valid_iff. unfold sent. destruct (valid_encoded MPath p) eqn:E; [exact E|apply escape_valid].
Qed.

Lemma same_iff : forall raw p query frag p', origin raw p query frag -> sent_path p p' -> decode p <> None -> (p' ++ query = raw <-> well_formed p /\ frag = "").
Proof.
  intros raw p query frag p' (-> & Hp & Hq & Hrest) Hs Hd. destruct (decode p) as [path|] eqn:E; [clear Hd|contradiction].
  assert (W := sent_well_formed _ _ _ E Hs). assert (Q' : has_char "?" p' = false) by (apply valid_iff in W; now apply valid_clean).
  split.
  - intros H. assert (Ep : p' = p).
    { destruct Hrest as [[-> ->]|(x & -> & _ & _)]; [rewrite !append_nil_r in H; exact H|]. cbn [append] in H.
      assert (C := cut_at "?" p' x Q'). rewrite H in C. rewrite (cut_at "?" p (x ++ frag) Hq) in C. now injection C. }
    subst p'. split; [exact W|]. apply append_inj_l in H. exact (append_nil _ _ H).
  - intros [Hw ->]. rewrite append_nil_r. destruct Hs as [[_ ->]|[N _]]; [reflexivity|contradiction].
Qed.

Lemma arrives_decodes : forall i p query frag, arrives i -> origin (q_raw_uri (i_req i)) p query frag -> decode p <> None.
Proof.
  intros i p query frag (g & G1 & _) (Er & Hp & Hq & Hrest).
  assert (Q1 : query_part (query ++ frag)). { destruct Hrest as [[-> ->]|(x & -> & _)]; [now left|right; now exists (x ++ frag)]. }
  destruct (read_origin _ _ _ _ _ Er Hp Hq Q1 G1) as (path & Hd & _). rewrite Hd. discriminate.
Qed.

Lemma target_same : forall so srt cfg0 t x p query frag, in_use so srt cfg0 (t_cfg t) -> asks t x -> sized (t_req t) -> by_net_http t ->
  plain_servers cfg0 -> untransformed cfg0 (q_raw_uri (t_req t)) -> origin (q_raw_uri (t_req t)) p query frag ->
  (wire_target (uq_uri x) = Some (q_raw_uri (t_req t)) <-> well_formed p /\ frag = "").
Proof.
  intros so srt cfg0 t x p query frag Hu Ha Hq Hn Hpl Hun Ho. destruct (target_sent _ _ _ _ _ _ _ _ Hu Ha Hq Hn Hpl Hun Ho) as (p' & H1 & H2).
  rewrite H2, <- (same_iff _ _ _ _ _ Ho H1 (arrives_decodes _ _ _ _ (proj1 Hn) Ho)). split; [intros H; now injection H|intros ->; reflexivity].
Qed.

(** What C16 asks for, in terms of the target *)
Lemma origin_form_iff : forall i p query frag, arrives i -> origin (q_raw_uri (i_req i)) p query frag -> (origin_form (i_req i) <-> well_formed p).
Proof.
  intros i p query frag (g & G1 & G2 & _) Ho. destruct Ho as (Er & Hp & Hq & Hrest).
  assert (Q1 : query_part (query ++ frag)). { destruct Hrest as [[-> ->]|(x & -> & _)]; [now left|right; now exists (x ++ frag)]. }
  destruct (read_origin _ _ _ _ _ Er Hp Hq Q1 G1) as (path & Hd & _ & Eg & _). unfold origin_form. rewrite G2, Eg, Er.
  split.
  - intros H. apply valid_iff. assert (Ep : sent p path = p).
    { destruct (sent_facts p path Hp Hd) as (_ & V & _). apply valid_clean in V. destruct V as (_ & V & _). destruct Q1 as [Q|[x Q]]; rewrite Q in H; [rewrite !append_nil_r in H; exact H|].
      cbn [append] in H. assert (C := cut_at "?" _ x V). rewrite H, (cut_at "?" p x Hq) in C. now injection C. }
    rewrite <- Ep. now apply sent_facts.
  - intros H. apply valid_iff in H. unfold sent. now rewrite H.
Qed.

(** * Routes *)

Lemma same_route : forall so srt cfg0 cfg p q1 q2, in_use so srt cfg0 cfg -> (forall r0, In r0 (c_routes cfg0) -> literal (r_path r0) = true) -> has_char "?" p = false ->
  query_part q1 -> query_part q2 -> select_route (c_routes cfg) (p ++ q1) = select_route (c_routes cfg) (p ++ q2).
Proof.
  intros so srt cfg0 cfg p q1 q2 H Hs Hp Hq1 Hq2. destruct (in_use_boot _ _ _ _ H) as [Hsrt [cfg1 [Hb [Hr _]]]].
  assert (Hm : forall r, In r (c_routes cfg) -> match_uri r (p ++ q1) = match_uri r (p ++ q2)).
  { intros r Hin. assert (Hin' := Hin). rewrite Hr in Hin'. destruct (boot_routes_from _ _ _ _ _ Hsrt Hb r Hin') as [r0 [H0 Hbf]].
    assert (M := matched_path _ _ _ _ r r0 _ p q1 H Hin H0 Hbf (Hs r0 H0) eq_refl Hp Hq1).
    assert (M' := matched_path _ _ _ _ r r0 _ p q2 H Hin H0 Hbf (Hs r0 H0) eq_refl Hp Hq2).
    destruct (match_uri r (p ++ q1)), (match_uri r (p ++ q2)); try reflexivity; [symmetry; now apply M', M|now apply M, M']. }
  unfold select_route. revert Hm. clear. generalize (c_routes cfg). induction l as [|r l IH]; intros Hm; [reflexivity|]. cbn [List.find].
  rewrite (Hm r (or_introl eq_refl)). destruct (match_uri r (p ++ q2)); [reflexivity|]. apply IH. intros x Hx. apply Hm. now right.
Qed.

Lemma sent_same_route : forall so srt cfg0 t x p query frag, in_use so srt cfg0 (t_cfg t) -> asks t x -> sized (t_req t) -> by_net_http t ->
  plain_servers cfg0 -> untransformed cfg0 (q_raw_uri (t_req t)) -> origin (q_raw_uri (t_req t)) p query frag ->
  well_formed p -> (forall r0, In r0 (c_routes cfg0) -> literal (r_path r0) = true) ->
  exists w, wire_target (uq_uri x) = Some w /\ select_route (c_routes (t_cfg t)) w = select_route (c_routes (t_cfg t)) (q_raw_uri (t_req t)).
Proof.
  intros so srt cfg0 t x p query frag Hu Ha Hq Hn Hpl Hun Ho Hw Hs. destruct (target_sent _ _ _ _ _ _ _ _ Hu Ha Hq Hn Hpl Hun Ho) as (p' & H1 & H2).
  exists (p' ++ query). split; [exact H2|]. destruct H1 as [[_ ->]|[N _]]; [|contradiction]. destruct Ho as (Er & Hp & Hqm & Hrest). rewrite Er.
  apply (same_route _ _ _ _ _ _ _ Hu Hs Hqm); destruct Hrest as [[-> ->]|(y & -> & _)]; try (now left); right; [now exists y|now exists (y ++ frag)].
Qed.

(** * Ports *)

Lemma bad_ports_rejected : rejects_bad_ports new_request.
Proof.
  intros m url (sch & host & port & c & -> & Hsch & Hno & Hc & Hdig). unfold new_request. assert (E : parse_url (sch ++ "://" ++ host ++ ":" ++ port) = None); [|rewrite E; apply andb_false_r].
  assert (N : forall d, In d (":" :: "@" :: "[" :: delims)%char -> has_char d host = false /\ has_char d port = false).
  { intros d Hd. assert (T := Hno d Hd). rewrite has_app in T. now apply orb_false_iff in T. }
  destruct (N ":"%char) as [C1 C2]; [now left|]. destruct (N "@"%char) as [A1 A2]; [right; now left|]. destruct (N "["%char) as [B1 B2]; [right; right; now left|].
  destruct (N "/"%char) as [D1 D2]; [do 3 right; now left|]. destruct (N "?"%char) as [Q1 Q2]; [do 4 right; now left|]. destruct (N "#"%char) as [F1 F2]; [do 5 right; now left|].
  assert (Hsch' : sch = "http" \/ sch = "https") by (destruct Hsch as [<-|[<-|[]]]; [now left|now right]).
  destruct (scheme_ok sch (host ++ ":" ++ port) Hsch') as (S1 & S2 & S3 & S4 & S5).
  unfold parse_url. rewrite cut_none by (rewrite !has_app, S5, F1, F2; reflexivity). unfold parse_go. destruct (has_ctl (sch ++ "://" ++ host ++ ":" ++ port)); [reflexivity|]. rewrite andb_false_r.
  assert (E2 : String.eqb (sch ++ "://" ++ host ++ ":" ++ port) "*" = false) by (destruct Hsch' as [-> | ->]; reflexivity). rewrite E2, S1.
  unfold cut_query. rewrite cut_none by (rewrite !has_app, Q1, Q2; reflexivity).
  assert (P1 : String.prefix "/" ("//" ++ host ++ ":" ++ port) = true) by exact (prefix_slash _).
  assert (P2 : String.prefix "//" ("//" ++ host ++ ":" ++ port) = true) by (cbn [append String.prefix]; destruct (ascii_dec "/" "/"); [now destruct (host ++ String ":" port)|contradiction]).
  rewrite P1, P2, S3. cbn [negb andb orb]. assert (Dr : drop 2 ("//" ++ host ++ ":" ++ port) = host ++ ":" ++ port) by reflexivity. rewrite Dr.
  rewrite cut_none by (rewrite !has_app, D1, D2; reflexivity).
  unfold parse_authority. rewrite last_none by (rewrite !has_app, A1, A2; reflexivity). unfold parse_host.
  assert (P : String.prefix "[" (host ++ ":" ++ port) = false).
  { destruct host as [|d host]; [reflexivity|]. cbn [append String.prefix]. destruct (ascii_dec "[" d) as [<-|]; [discriminate B1|reflexivity]. }
  rewrite P. cbn [append]. rewrite (last_at _ _ _ C2).
  assert (D : all_digits port = false); [|now rewrite D]. clear - Hc Hdig. induction port as [|d port IH]; [discriminate Hc|]. cbn [has_char] in Hc. cbn [all_digits]. apply orb_true_iff in Hc.
  destruct Hc as [Hc|Hc]; [apply Ascii.eqb_eq in Hc; subst d|rewrite (IH Hc); apply andb_false_r].
  destruct (is_digit c) eqn:Ed; [|reflexivity]. elim Hdig. unfold is_digit, N_in in Ed. apply andb_prop in Ed. destruct Ed as [X Y]. apply N.leb_le in X, Y. now split.
Qed.
