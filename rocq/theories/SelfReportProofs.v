From Coq Require Import String Ascii List Bool ZArith NArith QArith Qpower Lia Lqa.
From Coq Require Import Floats.SpecFloat.
From Verif Require Import GoStr JsonSpec NumberSpec NumberProofs HeadProofs Stats CertText Startup LogText LogTextSpec LogTextProofs LogForgeProofs SelfReport SelfReportSpec.
Import ListNotations.
Local Open Scope string_scope.

(** * Rounding *)

Lemma scaled_whole : forall p m e, (0 <= e)%Z -> scaled p m e = (Z.pos m * 10 ^ Z.of_nat p * 2 ^ e)%Z.
Proof. intros p m e He. unfold scaled. now rewrite (proj2 (Z.leb_le 0 e) He). Qed.

Lemma scaled_part : forall p m e, (e < 0)%Z ->
  let d := (2 ^ (- e))%Z in let r := (2 * (Z.pos m * 10 ^ Z.of_nat p - scaled p m e * d))%Z in
  (- d <= r <= d)%Z /\ ((r = d \/ r = - d)%Z -> Z.even (scaled p m e) = true).
Proof.
  intros p m e He. unfold scaled. rewrite (proj2 (Z.leb_gt 0 e) He). cbv zeta.
  set (n := (Z.pos m * 10 ^ Z.of_nat p)%Z). set (d := (2 ^ (- e))%Z). assert (Hd : (0 < d)%Z) by (apply Z.pow_pos_nonneg; lia).
  pose proof (Z.div_mod n d ltac:(lia)) as E. pose proof (Z.mod_pos_bound n d Hd) as B. set (q := (n / d)%Z) in *. set (t := (n mod d)%Z) in *.
  assert (E' : (n - q * d = t)%Z) by lia.
  destruct (Z.compare_spec (2 * t) d) as [C|C|C].
  - destruct (Z.even q) eqn:P.
    + split; [lia|intros _; exact P].
    + split; [nia|]. intros _. rewrite Z.even_add, P. reflexivity.
  - split; [lia|]. intros [H|H]; lia.
  - assert (E2 : (n - (q + 1) * d = t - d)%Z) by lia. split; [lia|]. intros [H|H]; lia.
Qed.

Lemma power_part : forall e, (e < 0)%Z -> (Qpower 2 e == 1 # Z.to_pos (2 ^ (- e)))%Q.
Proof.
  intros e He. destruct e as [|e|e]; try lia. cbn [Qpower Z.opp].
  rewrite <- (Qinv_involutive (1 # Z.to_pos (2 ^ Z.pos e))). apply Qinv_comp. 
  change (Qpower_positive 2 e) with (Qpower (inject_Z 2) (Z.pos e)). rewrite <- Zpower_Qpower by lia.
  unfold Qinv. cbn [Qnum Qden]. unfold inject_Z, Qeq. cbn [Qnum Qden]. rewrite Z2Pos.id by (apply Z.pow_pos_nonneg; lia). lia.
Qed.

Lemma power_whole : forall e, (0 <= e)%Z -> (Qpower 2 e == inject_Z (2 ^ e))%Q.
Proof. intros e He. now rewrite (Zpower_Qpower 2 e He). Qed.

Lemma scaled_nearest : forall p m e, nearest p (inject_Z (Z.pos m) * Qpower 2 e) (scaled p m e).
Proof.
  intros p m e. unfold nearest. cbv zeta. destruct (Z.le_gt_cases 0 e) as [He|He].
  - rewrite (scaled_whole p m e He).
    assert (Z0 : (inject_Z (Z.pos m) * Qpower 2 e * inject_Z (10 ^ Z.of_nat p) - inject_Z (Z.pos m * 10 ^ Z.of_nat p * 2 ^ e) == 0)%Q).
    { rewrite (power_whole e He), !inject_Z_mult. ring. }
    split; [rewrite Z0; split; discriminate|]. rewrite Z0. intros [H|H]; discriminate H.
  - pose proof (scaled_part p m e He) as [B T]. cbv zeta in B, T.
    assert (Hd : (0 < 2 ^ (- e))%Z) by (apply Z.pow_pos_nonneg; lia).
    set (d := Z.to_pos (2 ^ (- e))). assert (D : (2 ^ (- e) = Z.pos d)%Z) by (unfold d; now rewrite Z2Pos.id). rewrite D in B, T.
    set (n := scaled p m e) in *. set (k := (Z.pos m * 10 ^ Z.of_nat p)%Z) in *.
    assert (Z0 : (inject_Z (Z.pos m) * Qpower 2 e * inject_Z (10 ^ Z.of_nat p) - inject_Z n == (k - n * Z.pos d) # d)%Q).
    { rewrite (power_part e He). fold d.
      transitivity (inject_Z k * (1 # d) - inject_Z n)%Q; [unfold k; rewrite inject_Z_mult; ring|].
      unfold inject_Z, Qeq, Qminus, Qplus, Qmult, Qopp. cbn [Qnum Qden]. rewrite !Pos.mul_1_l, ?Pos.mul_1_r. lia. }
    split.
    + rewrite Z0. unfold Qle, Qopp. cbn [Qnum Qden]. lia.
    + rewrite Z0. unfold Qeq, Qopp. cbn [Qnum Qden]. intros H. apply T. lia.
Qed.

Lemma nearest_opp : forall p v n, nearest p v n -> nearest p (- v) (- n).
Proof.
  intros p v n [[A B] C]. unfold nearest. cbv zeta.
  assert (E : (- v * inject_Z (10 ^ Z.of_nat p) - inject_Z (- n) == - (v * inject_Z (10 ^ Z.of_nat p) - inject_Z n))%Q) by (rewrite inject_Z_opp; ring).
  set (d := (v * inject_Z (10 ^ Z.of_nat p) - inject_Z n)%Q) in *. rewrite E. split; [split; lra|].
  intros H. rewrite Z.even_opp. apply C. destruct H; [right|left]; lra.
Qed.

Lemma nearest_comp : forall p v v' n, (v == v')%Q -> nearest p v n -> nearest p v' n.
Proof. intros p v v' n E [A C]. unfold nearest. cbv zeta. cbv zeta in A, C. rewrite <- E. now split. Qed.

(** * Digits *)

Lemma last_numeral : forall k n, (0 <= n)%Z -> numeral (last_digits (S k) n) (n mod 10 ^ Z.of_nat (S k)) /\ String.length (last_digits (S k) n) = S k.
Proof.
  induction k as [|k IH]; intros n Hn.
  - cbn [last_digits append]. pose proof (Z.mod_pos_bound n 10 ltac:(lia)) as B. split; [|reflexivity].
    change (10 ^ Z.of_nat 1)%Z with 10%Z.
    replace (n mod 10)%Z with (Z.of_N (N_of_ascii (ascii_of_N (48 + Z.to_N (n mod 10)))) - 48)%Z at 2.
    + apply nu_one. rewrite N_ascii_embedding by lia. lia.
    + rewrite N_ascii_embedding by lia. lia.
  - destruct (IH (n / 10)%Z) as [A L]; [apply Z.div_pos; lia|]. pose proof (Z.mod_pos_bound n 10 ltac:(lia)) as B.
    change (last_digits (S (S k)) n) with (last_digits (S k) (n / 10) ++ String (ascii_of_N (48 + Z.to_N (n mod 10))) "").
    split.
    + replace (n mod 10 ^ Z.of_nat (S (S k)))%Z with
        (10 * ((n / 10) mod 10 ^ Z.of_nat (S k)) + (Z.of_N (N_of_ascii (ascii_of_N (48 + Z.to_N (n mod 10)))) - 48))%Z.
      * apply nu_more; [exact A|]. rewrite N_ascii_embedding by lia. lia.
      * rewrite N_ascii_embedding by lia. rewrite (Nat2Z.inj_succ (S k)), Z.pow_succ_r by lia.
        rewrite (Z.rem_mul_r n 10) by (try apply Z.pow_nonzero; lia || (apply Z.pow_pos_nonneg; lia)). lia.
    + rewrite GoStr.length_append, L. cbn. lia.
Qed.

Lemma scaled_positive : forall p m e, (0 <= scaled p m e)%Z.
Proof.
  intros p m e. unfold scaled. assert (H : (0 <= Z.pos m * 10 ^ Z.of_nat p)%Z) by (apply Z.mul_nonneg_nonneg; [lia|apply Z.pow_nonneg; lia]).
  destruct (Z.leb_spec 0 e) as [E|E].
  - apply Z.mul_nonneg_nonneg; [exact H|apply Z.pow_nonneg; lia].
  - assert (D : (0 < 2 ^ (- e))%Z) by (apply Z.pow_pos_nonneg; lia). pose proof (Z.div_pos _ _ H D) as Q. cbv zeta.
    destruct (Z.compare _ _); [destruct (Z.even _)|..]; lia.
Qed.

Lemma itoa_Z_nonneg : forall n, (0 <= n)%Z -> numeral (itoa_Z n) n.
Proof. intros n Hn. rewrite <- (Z2Nat.id n Hn). apply itoa_Z_numeral. Qed.

Definition told_as (p : nat) (n : Z) : string := itoa_Z (n / 10 ^ Z.of_nat p) ++ "." ++ last_digits p n.

Lemma told_parts : forall p n, p <> O -> (0 <= n)%Z -> exists a b w f, numeral w a /\ numeral f b /\ String.length f = p /\
  told_as p n = w ++ "." ++ f /\ n = (a * 10 ^ Z.of_nat p + b)%Z.
Proof.
  intros p n Hp Hn. destruct p as [|k]; [congruence|]. assert (D : (0 < 10 ^ Z.of_nat (S k))%Z) by (apply Z.pow_pos_nonneg; lia).
  destruct (last_numeral k n Hn) as [A L].
  exists (n / 10 ^ Z.of_nat (S k))%Z, (n mod 10 ^ Z.of_nat (S k))%Z, (itoa_Z (n / 10 ^ Z.of_nat (S k))), (last_digits (S k) n).
  split; [apply itoa_Z_nonneg, Z.div_pos; lia|]. split; [exact A|]. split; [exact L|]. split; [reflexivity|].
  pose proof (Z.div_mod n (10 ^ Z.of_nat (S k)) ltac:(lia)). lia.
Qed.

Lemma fixed_rounded : forall p x, p <> O -> value_of x <> None -> rounded p x (fixed_text p x).
Proof.
  intros p x Hp Hx. destruct x as [s|s| |s m e]; cbn [value_of] in Hx; try congruence.
  - exists 0%Q, 0%Z. split; [reflexivity|]. split.
    + destruct (told_parts p 0 Hp ltac:(lia)) as (a & b & w & f & A & B & L & T & E). exists a, b, w, f. split; [exact A|]. split; [exact B|]. split; [exact L|].
      unfold fixed_text. fold (told_as p 0). rewrite T. destruct s; [right|left]; (split; [reflexivity|lia]).
    + unfold nearest. cbv zeta. assert (Z0 : (0 * inject_Z (10 ^ Z.of_nat p) - inject_Z 0 == 0)%Q) by (change (inject_Z 0) with 0%Q; ring).
      rewrite Z0. split; [split; discriminate|]. intros [H|H]; discriminate H.
  - pose proof (scaled_nearest p m e) as N. destruct (told_parts p (scaled p m e) Hp (scaled_positive p m e)) as (a & b & w & f & A & B & L & T & E).
    unfold fixed_text. fold (told_as p (scaled p m e)). rewrite T. destruct s.
    + exists (-1 * inject_Z (Z.pos m) * Qpower 2 e)%Q, (- scaled p m e)%Z. split; [reflexivity|]. split.
      * exists a, b, w, f. split; [exact A|]. split; [exact B|]. split; [exact L|]. right. split; [reflexivity|now rewrite E].
      * apply nearest_opp in N. apply (nearest_comp p (- (inject_Z (Z.pos m) * Qpower 2 e))); [ring|exact N].
    + exists (1 * inject_Z (Z.pos m) * Qpower 2 e)%Q, (scaled p m e). split; [reflexivity|]. split.
      * exists a, b, w, f. split; [exact A|]. split; [exact B|]. split; [exact L|]. left. split; [reflexivity|exact E].
      * apply (nearest_comp p (inject_Z (Z.pos m) * Qpower 2 e)); [ring|exact N].
Qed.

(** * One number for each text *)

Lemma append_split : forall a b a' b', String.length b = String.length b' -> a ++ b = a' ++ b' -> a = a' /\ b = b'.
Proof.
  induction a as [|c a IH]; intros b a' b' L E; destruct a' as [|c' a'].
  - now split.
  - cbn [append] in E. subst b. cbn [String.length] in L. rewrite GoStr.length_append in L. lia.
  - cbn [append] in E. subst b'. cbn [String.length] in L. rewrite GoStr.length_append in L. lia.
  - cbn [append] in E. injection E as <- E. destruct (IH _ _ _ L E) as [-> ->]. now split.
Qed.

Lemma point_split : forall w f w' f', String.length f = String.length f' -> w ++ "." ++ f = w' ++ "." ++ f' -> w = w' /\ f = f'.
Proof.
  intros w f w' f' L E. destruct (append_split w ("." ++ f) w' ("." ++ f')) as [A B]; [cbn; now rewrite L|exact E|]. split; [exact A|]. cbn in B. congruence.
Qed.

Lemma unsigned : forall w a x w', numeral w a -> w ++ x <> "-" ++ w'.
Proof. intros w a x w' H E. destruct (numeral_start _ _ H) as (c & t & -> & B). cbn [append] in E. injection E as -> _. destruct B as [B _]. now apply B. Qed.

Lemma decimal_one : forall p s n n', decimal p s n -> decimal p s n' -> n = n'.
Proof.
  intros p s n n' (a & b & w & f & A & B & L & H) (a' & b' & w' & f' & A' & B' & L' & H').
  assert (same : w = w' -> f = f' -> a = a' /\ b = b').
  { intros -> ->. split; eapply numeral_one; eassumption. }
  destruct H as [[-> ->]|[-> ->]], H' as [[E ->]|[E ->]].
  - destruct (point_split w f w' f') as [-> ->]; [congruence|exact E|]. now destruct (same eq_refl eq_refl) as [-> ->].
  - exfalso. exact (unsigned _ _ _ _ A E).
  - exfalso. symmetry in E. exact (unsigned _ _ _ _ A' E).
  - cbn [append] in E. injection E as E. destruct (point_split w f w' f') as [-> ->]; [congruence|exact E|]. now destruct (same eq_refl eq_refl) as [-> ->].
Qed.

Lemma nearest_mono : forall p v w a b, nearest p v a -> nearest p w b -> (v <= w)%Q -> (a <= b)%Z.
Proof.
  intros p v w a b [[A1 A2] A3] [[B1 B2] B3] H. cbv zeta in *. destruct (Z.le_gt_cases a b) as [L|G]; [exact L|exfalso].
  assert (T : (v * inject_Z (10 ^ Z.of_nat p) <= w * inject_Z (10 ^ Z.of_nat p))%Q).
  { apply Qmult_le_compat_r; [exact H|]. change 0%Q with (inject_Z 0). rewrite <- Zle_Qle. apply Z.pow_nonneg. lia. }
  set (V := (v * inject_Z (10 ^ Z.of_nat p))%Q) in *. set (W := (w * inject_Z (10 ^ Z.of_nat p))%Q) in *.
  assert (K : (inject_Z b + 1 <= inject_Z a)%Q) by (change 1%Q with (inject_Z 1); rewrite <- inject_Z_plus, <- Zle_Qle; lia).
  assert (Ea : Z.even a = true) by (apply A3; right; lra). assert (Eb : Z.even b = true) by (apply B3; left; lra).
  assert (Q : (inject_Z a == inject_Z (b + 1))%Q) by (rewrite inject_Z_plus; change (inject_Z 1) with 1%Q; lra).
  apply (proj1 (inject_Z_injective _ _)) in Q. rewrite Q, Z.even_add, Eb in Ea. discriminate Ea.
Qed.

Lemma fixed_order : forall p x y v w a b, p <> O -> value_of x = Some v -> value_of y = Some w -> (v <= w)%Q ->
  decimal p (fixed_text p x) a -> decimal p (fixed_text p y) b -> (a <= b)%Z.
Proof.
  intros p x y v w a b Hp Hv Hw H A B.
  destruct (fixed_rounded p x Hp) as (v' & a' & V & A' & N); [congruence|]. destruct (fixed_rounded p y Hp) as (w' & b' & W & B' & N'); [congruence|].
  assert (v' = v) by congruence. assert (w' = w) by congruence. subst v' w'.
  rewrite (decimal_one _ _ _ _ A A'), (decimal_one _ _ _ _ B B'). exact (nearest_mono _ _ _ _ _ N N' H).
Qed.

Lemma fixed_unreal : forall p x n, value_of x = None -> ~ decimal p (fixed_text p x) n.
Proof.
  intros p x n Hx (a & b & w & f & A & B & L & H). destruct (numeral_start _ _ A) as (c & t & -> & C).
  destruct x as [s|s| |s m e]; cbn [value_of] in Hx; try discriminate Hx; cbn [fixed_text] in H.
  - destruct s, H as [[H _]|[H _]]; cbn [append] in H; try discriminate H; injection H as H _; subst c; destruct C as [C1 C2]; (now apply C1) || (now apply C2).
  - destruct H as [[H _]|[H _]]; cbn [append] in H; try discriminate H; injection H as H _; subst c; destruct C as [C1 C2]; (now apply C1) || (now apply C2).
Qed.

(** * The lines *)

Lemma numeral_utf8 : forall s n, numeral s n -> utf8 s.
Proof.
  assert (D : forall c s, (48 <= N_of_ascii c <= 57)%N -> utf8 s -> utf8 (String c s)).
  { intros c s H U. apply utf8_1; [|exact U]. unfold JsonSpec.rng, JsonSpec.code_of. apply andb_true_iff. split; apply N.leb_le; lia. }
  intros s n H. induction H as [c Hc|s n c H IH Hc]; [apply D; [exact Hc|constructor]|]. apply utf8_app; [exact IH|]. apply D; [exact Hc|constructor].
Qed.

Lemma decimal_utf8 : forall p s n, decimal p s n -> utf8 s.
Proof.
  intros p s n (a & b & w & f & A & B & _ & H). apply numeral_utf8 in A, B.
  assert (U : utf8 (w ++ "." ++ f)) by (apply utf8_app; [exact A|apply utf8_1; [reflexivity|exact B]]).
  destruct H as [[-> _]|[-> _]]; [exact U|apply utf8_1; [reflexivity|exact U]].
Qed.

Lemma says_reads : forall ms k v, says ms k v -> match v with VStr s => utf8 s | VTime s => False | _ => True end -> reads ms k v.
Proof.
  intros ms k v (w & F & K) U. unfold reads. rewrite F. destruct v; cbn [kept] in K; [|now subst w|now subst w|contradiction].
  destruct K as (s' & -> & H). now rewrite (H U).
Qed.

Lemma says_moment : forall ms k s, says ms k (VTime s) -> reads ms k (VStr s).
Proof. intros ms k s (w & F & K). unfold reads. rewrite F. cbn [kept] in K. now subst w. Qed.

Ltac ascii_text := repeat (apply utf8_1; [reflexivity|]); apply utf8_nil.

Lemma sample_read : forall srv time m, time_text time -> value_of (me_cpu m) <> None -> value_of (me_mem m) <> None ->
  exists ms, read_line (log_text srv time (sample_event m)) = Some ms /\ NoDup (map fst ms) /\
    reads ms "time" (VStr time) /\ reads ms "message" (VStr "server performance") /\ reads ms "pid" (VInt (me_pid m)) /\
    shares ms "cpuCorePct" (me_cpu m) /\ shares ms "memPct" (me_mem m) /\
    reads ms "rssBytes" (VInt (me_rss m)) /\ reads ms "vmsBytes" (VInt (me_vms m)) /\ reads ms "swapBytes" (VInt (me_swap m)).
Proof.
  intros srv time m T C M. destruct (event_read srv time (sample_event m) T) as (ms & R & F).
  { cbn [sample_event v_fields]. repeat (apply Forall_cons || apply Forall_nil); (split; [ascii_text|exact I]). }
  exists ms. split; [exact R|]. clear R. assert (K := read_keys _ _ F).
  assert (S : forall k v, filter (fun m => String.eqb (fst m) k) (all_members srv time (sample_event m)) = [(k, v)] -> says ms k v) by (intros; eapply read_says; eassumption).
  unfold all_members in S, K. cbn [sample_event v_level v_fields v_message] in S, K. rewrite K. clear F K.
  change (String.eqb "server performance" "") with false in *. cbn [app] in S |- *.
  split; [repeat (constructor; [no_key|]); constructor|].
  assert (share : forall k x, value_of x <> None -> says ms k (VStr (fixed_text 2 x)) -> shares ms k x).
  { intros k x V H. assert (Rd := fixed_rounded 2 x ltac:(discriminate) V). exists (fixed_text 2 x). split; [|exact Rd].
    apply says_reads; [exact H|]. destruct Rd as (v & n & _ & Dn & _). exact (decimal_utf8 _ _ _ Dn). }
  split; [apply says_moment, S; reflexivity|]. split; [apply says_reads; [apply S; reflexivity|ascii_text]|].
  split; [apply says_reads; [apply S; reflexivity|exact I]|].
  split; [apply share; [exact C|apply S; reflexivity]|]. split; [apply share; [exact M|apply S; reflexivity]|].
  split; [apply says_reads; [apply S; reflexivity|exact I]|]. split; (apply says_reads; [apply S; reflexivity|exact I]).
Qed.

(** * Who gets to read them *)

Lemma debug_written : forall h, (written (log_level h) VDebug = true -> asked_for_debug h) /\ (asked_for_debug h -> written (log_level h) VDebug = true).
Proof.
  intros h. unfold log_level, asked_for_debug. cbv zeta. set (l := to_upper (h_env h "LOGLEVEL")).
  destruct (String.eqb_spec l "TRACE") as [E|E]; [rewrite E; split; [intros _; right; now left|reflexivity]|].
  destruct (String.eqb_spec l "DEBUG") as [E'|E']; [rewrite E'; split; [intros _; now left|reflexivity]|].
  split.
  - destruct (String.eqb l "INFO"), (String.eqb l "WARN"); discriminate.
  - intros [H|[H|[]]]; congruence.
Qed.

Lemma unasked : forall h time, ~ asked_for_debug h ->
  (forall m, sample_output h time m = "") /\ (forall hist, growth_output h time hist = "") /\ (forall start now, uptime_output h time start now = "").
Proof.
  intros h time N. assert (W : written (log_level h) VDebug = false).
  { destruct (written (log_level h) VDebug) eqn:W; [|reflexivity]. exfalso. now apply N, debug_written. }
  assert (O : forall e, v_level e = "debug" -> output h time e = "").
  { intros e E. unfold output, level_of. rewrite E. cbn [String.eqb Ascii.eqb Bool.eqb]. cbv iota. now rewrite W. }
  split; [intros m; now apply O|]. split.
  - intros hist. unfold growth_output. destruct (snd _); [now apply O|reflexivity].
  - intros start now. unfold uptime_output. destruct (uptime_line start now); [now apply O|reflexivity].
Qed.

Lemma asked_output : forall h time e, asked_for_debug h -> v_level e = "debug" -> output h time e = log_text (server_id h) time e.
Proof.
  intros h time e A E. unfold output, level_of. rewrite E. cbn [String.eqb Ascii.eqb Bool.eqb]. cbv iota. now rewrite (proj2 (debug_written h) A).
Qed.

Definition growth_words : string := "RSS memory increase for previous 1 day with high factor >=2.0, monitor actively.".

Lemma growth_said : v_message growth_event = growth_words.
Proof. vm_compute. reflexivity. Qed.

Lemma growth_read : forall h time hist, asked_for_debug h -> time_text time ->
  if snd (log_samples hist)
  then exists ms, read_line (growth_output h time hist) = Some ms /\ NoDup (map fst ms) /\ reads ms "time" (VStr time) /\ reads ms "message" (VStr growth_words)
  else growth_output h time hist = "".
Proof.
  intros h time hist A T. unfold growth_output. destruct (snd (log_samples hist)); [|reflexivity]. rewrite (asked_output h time growth_event A eq_refl).
  destruct (event_read (server_id h) time growth_event T) as (ms & R & F); [constructor|]. exists ms. split; [exact R|]. clear R. assert (K := read_keys _ _ F).
  assert (S : forall k v, filter (fun m => String.eqb (fst m) k) (all_members (server_id h) time growth_event) = [(k, v)] -> says ms k v) by (intros; eapply read_says; eassumption).
  unfold all_members in S, K. rewrite growth_said in S, K. cbn [growth_event v_level v_fields app] in S, K.
  change (String.eqb growth_words "") with false in S, K. rewrite K. clear F K.
  split; [cbn [map fst]; repeat (constructor; [no_key|]); constructor|]. split; [apply says_moment, S; reflexivity|].
  apply says_reads; [apply S; reflexivity|]. unfold growth_words. ascii_text.
Qed.

Lemma uptime_read : forall h time start now, asked_for_debug h -> time_text time ->
  match uptime_line start now with
  | Some (micros, text) =>
      exists ms, read_line (uptime_output h time start now) = Some ms /\ reads ms "time" (VStr time) /\ reads ms "uptimeMicros" (VInt micros) /\ says ms "message" (VStr text)
  | None => uptime_output h time start now = ""
  end.
Proof.
  intros h time start now A T. unfold uptime_output. destruct (uptime_line start now) as [[micros text]|] eqn:U; [|reflexivity].
  rewrite (asked_output h time (uptime_event (micros, text)) A eq_refl).
  destruct (event_read (server_id h) time (uptime_event (micros, text)) T) as (ms & R & F).
  { constructor; [|constructor]. split; [cbn [fst]; ascii_text|exact I]. }
  exists ms. split; [exact R|]. clear R.
  assert (S : forall k v, filter (fun m => String.eqb (fst m) k) (all_members (server_id h) time (uptime_event (micros, text))) = [(k, v)] -> says ms k v) by (intros; eapply read_says; eassumption).
  assert (M : String.eqb text "" = false).
  { unfold uptime_line in U. destruct (Z.ltb _ _); [|discriminate U]. injection U as _ <-. reflexivity. }
  unfold all_members in S. cbn [uptime_event v_level v_fields v_message fst snd app] in S. rewrite M in S.
  split; [apply says_moment, S; reflexivity|]. split; [apply says_reads; [apply S; reflexivity|exact I]|apply S; reflexivity].
Qed.

Lemma sample_asked : forall h time m, asked_for_debug h -> time_text time -> value_of (me_cpu m) <> None -> value_of (me_mem m) <> None ->
  exists ms, read_line (sample_output h time m) = Some ms /\ NoDup (map fst ms) /\
    reads ms "time" (VStr time) /\ reads ms "message" (VStr "server performance") /\ reads ms "pid" (VInt (me_pid m)) /\
    shares ms "cpuCorePct" (me_cpu m) /\ shares ms "memPct" (me_mem m) /\
    reads ms "rssBytes" (VInt (me_rss m)) /\ reads ms "vmsBytes" (VInt (me_vms m)) /\ reads ms "swapBytes" (VInt (me_swap m)).
Proof. intros h time m A. unfold sample_output. rewrite (asked_output h time (sample_event m) A eq_refl). apply sample_read. Qed.
