(** Lemmas for Thm_Jwt. *)
From Coq Require Import String Ascii List Bool ZArith NArith Lia.
From Verif Require Import GoStr NumberSpec NumberProofs Kid Jwt JwtSpec.
Import ListNotations.
Local Open Scope string_scope.

(** * The Authorization header *)

Lemma split_app : forall c a b, without c a -> split c (a ++ String c b) = a :: split c b.
Proof.
  intros c a b H. induction a as [|d a IH]; cbn [append split].
  - now rewrite Ascii.eqb_refl.
  - destruct H as [H1 H2]. rewrite (IH H2). destruct (Ascii.eqb_spec d c); [contradiction|reflexivity].
Qed.

Lemma split_none : forall c a, without c a -> split c a = [a].
Proof.
  intros c a H. induction a as [|d a IH]; cbn [split]; [reflexivity|].
  destruct H as [H1 H2]. rewrite (IH H2). destruct (Ascii.eqb_spec d c); [contradiction|reflexivity].
Qed.

Lemma split_cases : forall c s, (without c s /\ split c s = [s]) \/
  exists a b, without c a /\ s = a ++ String c b /\ split c s = a :: split c b.
Proof.
  intros c s. induction s as [|d s IH]; [left; split; reflexivity|].
  destruct (Ascii.eqb_spec d c) as [->|H].
  - right. exists "", s. split; [exact I|]. split; [reflexivity|]. cbn [split]. now rewrite Ascii.eqb_refl.
  - destruct IH as [[H1 H2]|[a [b [H1 [H2 H3]]]]].
    + left. split; [split; assumption|]. now apply split_none; split.
    + right. exists (String d a), b. split; [split; assumption|]. split; [now rewrite H2|].
      rewrite H2. apply (split_app c (String d a) b). now split.
Qed.

Lemma bearer_split : forall auth token, bearer auth token -> exists s r, split " " auth = s :: token :: r.
Proof.
  intros auth token [scheme [rest [H1 [H2 [H3 H4]]]]]. subst auth.
  change (scheme ++ " " ++ token ++ rest) with (scheme ++ String " " (token ++ rest)).
  rewrite split_app by assumption.
  destruct H4 as [->|[r ->]].
  - rewrite append_nil_r, split_none by assumption. now exists scheme, [].
  - change (token ++ " " ++ r) with (token ++ String " " r). rewrite split_app by assumption.
    now exists scheme, (split " " r).
Qed.

Lemma split_bearer : forall auth s token r, split " " auth = s :: token :: r -> bearer auth token.
Proof.
  intros auth s token r H. destruct (split_cases " " auth) as [[_ H2]|[a [b [H1 [H2 H3]]]]].
  - rewrite H2 in H. discriminate.
  - rewrite H3 in H. injection H as Ha Hb. subst s.
    destruct (split_cases " " b) as [[H4 H5]|[a' [b' [H4 [H5 H6]]]]].
    + rewrite H5 in Hb. injection Hb as Hb _. subst token.
      exists a, "". rewrite append_nil_r. repeat split; auto.
    + rewrite H6 in Hb. injection Hb as Hb _. subst token.
      exists a, (" " ++ b'). split; [assumption|]. split; [assumption|]. split; [now rewrite H2, H5|].
      right. now exists b'.
Qed.

Lemma bearer_unique : forall auth t1 t2, bearer auth t1 -> bearer auth t2 -> t1 = t2.
Proof.
  intros auth t1 t2 H1 H2. apply bearer_split in H1, H2.
  destruct H1 as [s1 [r1 H1]], H2 as [s2 [r2 H2]]. congruence.
Qed.

(** * Algorithms *)

Lemma signing_in : forall alg, In alg signing -> In alg valid_alg_no_none.
Proof. intros alg H. exact H. Qed.

Ltac each_alg H := repeat (destruct H as [H|H]; [try subst|]); try contradiction.

Lemma accept_signing : forall alg, In alg signing ->
  accept_alg alg = alg /\ mem_str alg rsa_algs || mem_str alg ec_algs || mem_str alg hmac_algs = true.
Proof. intros alg H. unfold signing in H. cbn [In] in H. each_alg H; split; reflexivity. Qed.

Lemma accept_cases : forall alg, In alg signing \/ alg = "none" \/ accept_alg alg = "".
Proof.
  intros alg. unfold accept_alg. destruct (mem_str alg valid_alg) eqn:H; [|auto].
  apply mem_str_In in H. unfold valid_alg in H. apply in_app_or in H. destruct H as [H|[H|[]]]; auto.
Qed.

(** * Signatures *)

Definition usable (L : library) (alg token : string) (ks : keyset) : Prop :=
  exists kid k c, In (kid, k) ks /\ lib_verify L alg k token = Some c.

Lemma try_keys_spec : forall L alg token ks r,
  (usable L alg token ks -> exists c kid k, try_keys L alg token ks r = (Some c, false) /\ In (kid, k) ks /\ lib_verify L alg k token = Some c) /\
  (~ usable L alg token ks -> try_keys L alg token ks r = match ks with [] => r | _ => (None, true) end).
Proof.
  intros L alg token ks. induction ks as [|[kid k] ks IH]; intros r; cbn [try_keys].
  - split; [intros [kid [k [c [[] _]]]]|reflexivity].
  - destruct (lib_verify L alg k token) as [c|] eqn:Hv.
    + split.
      * intros _. exists c, kid, k. repeat split; [now left|assumption].
      * intros H. exfalso. apply H. exists kid, k, c. split; [now left|assumption].
    + destruct (IH (None, true)) as [H1 H2]. split.
      * intros [kid' [k' [c [Hin Hv']]]]. destruct Hin as [Hin|Hin].
        -- injection Hin as -> ->. congruence.
        -- destruct H1 as [c1 [kid1 [k1 [Ha [Hb Hc]]]]]; [now exists kid', k', c|].
           exists c1, kid1, k1. repeat split; [assumption|now right|assumption].
      * intros H. rewrite H2.
        -- now destruct ks.
        -- intros [kid' [k' [c [Hin Hv']]]]. apply H. exists kid', k', c. split; [now right|assumption].
Qed.

Lemma find_key_in : forall ks kid k, find_key ks kid = Some k -> In (kid, k) ks.
Proof.
  induction ks as [|[kid' k'] ks IH]; cbn [find_key]; intros kid k H; [discriminate|].
  destruct (String.eqb_spec kid' kid) as [->|Hne].
  - injection H as ->. now left.
  - right. now apply IH.
Qed.

Lemma usable_dec : forall L alg token ks, usable L alg token ks \/ ~ usable L alg token ks.
Proof.
  intros L alg token ks. induction ks as [|[kid k] ks IH].
  - right. intros [kid [k [c [[] _]]]].
  - destruct (lib_verify L alg k token) as [c|] eqn:Hv.
    + left. exists kid, k, c. split; [now left|assumption].
    + destruct IH as [[kid' [k' [c [H1 H2]]]]|IH].
      * left. exists kid', k', c. split; [now right|assumption].
      * right. intros [kid' [k' [c [[H1|H1] H2]]]]; [injection H1 as -> ->; congruence|].
        apply IH. now exists kid', k', c.
Qed.

(** The outcome of verifySignature on a token with signatures, for the caller. *)
Lemma verify_signature_spec : forall L token ks alg n, lib_signatures L token = Some (S n) ->
  exists parsed err rotate, verify_signature L token ks alg = Some (parsed, err, rotate) /\
    (usable L alg token ks -> err = false /\ exists c kid k, parsed = Some c /\ In (kid, k) ks /\ lib_verify L alg k token = Some c) /\
    (~ usable L alg token ks -> parsed = None).
Proof.
  intros L token ks alg n Hn. unfold verify_signature. rewrite Hn.
  set (kid := extract_kid token).
  destruct (String.eqb kid "") eqn:Hkid; cbn [orb negb andb].
  - destruct (try_keys_spec L alg token ks (None, false)) as [H1 H2].
    destruct (usable_dec L alg token ks) as [Hu|Hu].
    + destruct (H1 Hu) as [c [kid1 [k1 [Ha [Hb Hc]]]]]. rewrite Ha.
      do 3 eexists. split; [reflexivity|]. split; [|tauto]. intros _. split; [reflexivity|]. now exists c, kid1, k1.
    + rewrite (H2 Hu). destruct ks; do 3 eexists; (split; [reflexivity|]); split; tauto.
  - destruct (find_key ks kid) as [k|] eqn:Hf; cbn [orb andb].
    + destruct (lib_verify L alg k token) as [c|] eqn:Hv; cbn [snd andb].
      * do 3 eexists. split; [reflexivity|]. assert (Hin := find_key_in _ _ _ Hf). split.
        -- intros _. split; [reflexivity|]. now exists c, kid, k.
        -- intros Hu. exfalso. apply Hu. now exists kid, k, c.
      * destruct (try_keys_spec L alg token ks (None, true)) as [H1 H2].
        destruct (Nat.ltb 1 (length ks)) eqn:Hl.
        -- destruct (usable_dec L alg token ks) as [Hu|Hu].
           ++ destruct (H1 Hu) as [c [kid1 [k1 [Ha [Hb Hc]]]]]. rewrite Ha.
              do 3 eexists. split; [reflexivity|]. split; [|tauto]. intros _. split; [reflexivity|]. now exists c, kid1, k1.
           ++ rewrite (H2 Hu). destruct ks; do 3 eexists; (split; [reflexivity|]); split; tauto.
        -- do 3 eexists. split; [reflexivity|]. split; [|reflexivity].
           intros [kid' [k' [c [Hin Hv']]]]. exfalso.
           apply Nat.ltb_ge in Hl. destruct ks as [|p [|q ks]]; cbn [length] in Hl; [destruct Hin| |lia].
           apply find_key_in in Hf. destruct Hf as [Hf|[]], Hin as [Hin|[]]. congruence.
    + destruct (try_keys_spec L alg token ks (None, false)) as [H1 H2].
      destruct (usable_dec L alg token ks) as [Hu|Hu].
      * destruct (H1 Hu) as [c [kid1 [k1 [Ha [Hb Hc]]]]]. rewrite Ha.
        do 3 eexists. split; [reflexivity|]. split; [|tauto]. intros _. split; [reflexivity|]. now exists c, kid1, k1.
      * rewrite (H2 Hu). destruct ks; do 3 eexists; (split; [reflexivity|]); split; tauto.
Qed.

Definition skew_of (j : jwt) : Z := match atoi (j_skew j) with Some z => z | None => 0%Z end.

(** The verdict on a token, for signing algorithms. *)
Lemma verdict_signed : forall L now j auth token, bearer auth token -> In (j_alg j) signing ->
  (lib_signatures L token = None -> fst (validate_jwt L now j auth) = Crash) /\
  (lib_signatures L token = Some 0 -> fst (validate_jwt L now j auth) = Invalid) /\
  (forall n, lib_signatures L token = Some (S n) ->
    (usable L (j_alg j) token (keys_for (j_alg j) j) ->
       fst (validate_jwt L now j auth) =
       match lib_parse L token with
       | Some c => if verify_date_claims now (skew_of j) c then Valid else Invalid
       | None => Crash
       end) /\
    (~ usable L (j_alg j) token (keys_for (j_alg j) j) -> fst (validate_jwt L now j auth) = Invalid)).
Proof.
  intros L now j auth token Hb Ha. apply bearer_split in Hb. destruct Hb as [s [r Hs]].
  destruct (accept_signing _ Ha) as [Ha1 Ha2]. unfold validate_jwt. rewrite Hs, Ha1, Ha2.
  split; [|split].
  - intros H. unfold verify_signature. rewrite H. reflexivity.
  - intros H. unfold verify_signature. rewrite H. reflexivity.
  - intros n Hn. destruct (verify_signature_spec L token (keys_for (j_alg j) j) (j_alg j) n Hn) as [parsed [err [rot [H1 [H2 H3]]]]].
    rewrite H1. split.
    + intros Hu. destruct (H2 Hu) as [-> [c [kid [k [-> [Hin Hv]]]]]]. reflexivity.
    + intros Hu. rewrite (H3 Hu). reflexivity.
Qed.

(** * Dates *)

Lemma wrap64_eq : forall z, exists k, wrap64 z = (z - k * 18446744073709551616)%Z /\
  (-9223372036854775808 <= z - k * 18446744073709551616 <= 9223372036854775807)%Z.
Proof.
  intros z. pose proof (wrap64_range z) as H. unfold wrap64, int64_min, int64_max in *.
  pose proof (Z.div_mod (z + 9223372036854775808) 18446744073709551616 ltac:(lia)) as H1.
  exists ((z + 9223372036854775808) / 18446744073709551616)%Z. lia.
Qed.

Lemma wrap64_le : forall z, (0 <= z)%Z -> (wrap64 z <= z)%Z.
Proof. intros z H. destruct (wrap64_eq z) as [k [-> H1]]. lia. Qed.

Lemma wrap64_ge : forall z, (z <= 0)%Z -> (z <= wrap64 z)%Z.
Proof. intros z H. destruct (wrap64_eq z) as [k [-> H1]]. lia. Qed.

Lemma unix_nanos : forall t, unix (nanos t) = t.
Proof. intros t. unfold unix, nanos. apply Z.div_mul. lia. Qed.

Lemma unix_shift : forall t d, unix (nanos t + d) = (t + d / 1000000000)%Z.
Proof. intros t d. unfold unix, nanos. now rewrite Z.div_add_l by lia. Qed.

Lemma unix_mono : forall a b, (a <= b)%Z -> (unix a <= unix b)%Z.
Proof. intros a b H. unfold unix. apply Z.div_le_mono; lia. Qed.

Definition back (skew t : Z) : Z :=
  if Z.ltb (wrap64 (skew * 1000)) (unix t) then (t + wrap64 (-1000000000 * skew))%Z else t.
Definition forth (skew t : Z) : Z := if Z.ltb 1 (unix t) then (t + wrap64 (1000000000 * skew))%Z else t.

Lemma verify_date_claims_eq : forall now skew c, verify_date_claims now skew c =
  verify_dates now (back skew (date (cl_iat c))) (back skew (date (cl_nbf c))) (forth skew (date (cl_exp c))).
Proof. reflexivity. Qed.

Lemma verify_dates_iff : forall now iat nbf exp, verify_dates now iat nbf exp = true <->
  (exp = nanos year_1 \/ (now < unix exp)%Z) /\ (iat = nanos year_1 \/ (unix iat <= now)%Z) /\
  (nbf = nanos year_1 \/ (unix nbf <= now)%Z).
Proof.
  intros now iat nbf exp. unfold verify_dates.
  rewrite !andb_true_iff, !orb_true_iff, negb_true_iff, !Z.eqb_eq, !Z.ltb_lt, Z.ltb_ge.
  assert (now = unix nbf \/ (unix nbf < now)%Z <-> (unix nbf <= now)%Z) as -> by lia. tauto.
Qed.

Lemma nanos_lower : forall t d, (nanos t + d = nanos year_1 -> t + d / 1000000000 = year_1)%Z.
Proof. intros t d H. rewrite <- unix_shift, H. apply unix_nanos. Qed.

(** Accepted dates lie within the skew. *)
Lemma back_sound : forall skew now t, (0 <= skew)%Z -> (year_1 <= now)%Z ->
  back skew (nanos t) = nanos year_1 \/ (unix (back skew (nanos t)) <= now)%Z -> t <> year_1 -> (t - skew <= now)%Z.
Proof.
  intros skew now t Hs Hnow H Ht.
  assert (Hb : (nanos (t - skew) <= back skew (nanos t))%Z).
  { unfold back. pose proof (wrap64_ge (-1000000000 * skew) ltac:(lia)).
    destruct (Z.ltb _ _); unfold nanos; lia. }
  destruct H as [H|H].
  - rewrite H in Hb. unfold nanos in Hb. lia.
  - apply unix_mono in Hb. rewrite unix_nanos in Hb. lia.
Qed.

Lemma forth_sound : forall skew now t, (0 <= skew)%Z ->
  forth skew (nanos t) = nanos year_1 \/ (now < unix (forth skew (nanos t)))%Z -> t <> year_1 -> (now < t + skew)%Z.
Proof.
  intros skew now t Hs H Ht. unfold forth in H. rewrite unix_nanos in H.
  destruct (Z.ltb_spec 1 t) as [Hl|Hl].
  - destruct H as [H|H].
    + exfalso. pose proof (wrap64_range (1000000000 * skew)) as Hr. unfold int64_min, nanos, year_1 in *. lia.
    + assert (Hb : (nanos t + wrap64 (1000000000 * skew) <= nanos (t + skew))%Z).
      { pose proof (wrap64_le (1000000000 * skew) ltac:(lia)). unfold nanos. lia. }
      apply unix_mono in Hb. rewrite unix_nanos in Hb. lia.
  - rewrite unix_nanos in H. destruct H as [H|H]; [|lia]. unfold nanos in H. lia.
Qed.

Lemma dates_sound : forall now skew c, (0 <= skew)%Z -> (year_1 <= now)%Z -> dated c ->
  verify_date_claims now skew c = true -> in_time now skew c.
Proof.
  intros now skew c Hs Hn [D1 [D2 D3]] H. rewrite verify_date_claims_eq in H. apply verify_dates_iff in H.
  destruct H as [H1 [H2 H3]]. fold year_1 in *. split; [|split]; intros t Ht; rewrite Ht in *; cbn [date] in *.
  - apply forth_sound with (1 := Hs) (2 := H1). congruence.
  - apply back_sound with (1 := Hs) (2 := Hn) (3 := H2). congruence.
  - apply back_sound with (1 := Hs) (2 := Hn) (3 := H3). congruence.
Qed.

Lemma back_complete : forall skew now t, moderate now skew ->
  match t with Some t => (t - skew <= now)%Z | None => True end ->
  back skew (date t) = nanos year_1 \/ (unix (back skew (date t)) <= now)%Z.
Proof.
  intros skew now t [M1 [M2 M3]] H. unfold back, int64_max in *.
  rewrite !wrap64_id by (unfold int64_min, int64_max; lia).
  destruct t as [t|]; unfold date; rewrite unix_nanos.
  - right. destruct (Z.ltb_spec (skew * 1000) t).
    + rewrite unix_shift. replace (-1000000000 * skew)%Z with ((- skew) * 1000000000)%Z by lia.
      rewrite Z.div_mul by lia. lia.
    + rewrite unix_nanos. lia.
  - left. unfold year_1. destruct (Z.ltb_spec (skew * 1000) (-62135596800)); [lia|reflexivity].
Qed.

Lemma forth_complete : forall skew now t, moderate now skew ->
  match t with Some t => (now < t + skew)%Z | None => True end ->
  forth skew (date t) = nanos year_1 \/ (now < unix (forth skew (date t)))%Z.
Proof.
  intros skew now t [M1 [M2 M3]] H. unfold forth, int64_max in *.
  rewrite !wrap64_id by (unfold int64_min, int64_max; lia).
  destruct t as [t|]; unfold date; rewrite unix_nanos.
  - right. destruct (Z.ltb_spec 1 t).
    + rewrite unix_shift. replace (1000000000 * skew)%Z with (skew * 1000000000)%Z by lia.
      rewrite Z.div_mul by lia. lia.
    + rewrite unix_nanos. lia.
  - left. reflexivity.
Qed.

Lemma dates_complete : forall now skew c, moderate now skew -> in_time now skew c -> verify_date_claims now skew c = true.
Proof.
  intros now skew c M [H1 [H2 H3]]. rewrite verify_date_claims_eq. apply verify_dates_iff. split; [|split].
  - apply forth_complete; [assumption|]. destruct (cl_exp c); [now apply H1|exact I].
  - apply back_complete; [assumption|]. destruct (cl_iat c); [now apply H2|exact I].
  - apply back_complete; [assumption|]. destruct (cl_nbf c); [now apply H3|exact I].
Qed.

(** * Verdicts *)

Lemma verdict_bearer : forall L now j auth, fst (validate_jwt L now j auth) <> Invalid -> exists token, bearer auth token.
Proof.
  intros L now j auth H. unfold validate_jwt in H. destruct (split " " auth) as [|s [|t r]] eqn:Hs; try (now elim H).
  exists t. eapply split_bearer. exact Hs.
Qed.

Lemma no_bearer : forall L now j auth, (forall token, ~ bearer auth token) -> fst (validate_jwt L now j auth) = Invalid.
Proof.
  intros L now j auth H. unfold validate_jwt. destruct (split " " auth) as [|s [|t r]] eqn:Hs; try reflexivity.
  elim (H t). eapply split_bearer. exact Hs.
Qed.

(** Tokens of jwts without signature. *)
Lemma verdict_unsigned : forall L now j auth token, bearer auth token -> ~ In (j_alg j) signing ->
  validate_jwt L now j auth =
  (match lib_parse L token with
   | Some c => if verify_date_claims now (skew_of j) c then Valid else Invalid
   | None => Invalid
   end, false).
Proof.
  intros L now j auth token Hb Ha. apply bearer_split in Hb. destruct Hb as [s [r Hs]].
  assert (mem_str (accept_alg (j_alg j)) rsa_algs || mem_str (accept_alg (j_alg j)) ec_algs || mem_str (accept_alg (j_alg j)) hmac_algs = false) as Hm.
  { destruct (accept_cases (j_alg j)) as [H|[H|H]]; [contradiction|rewrite H; reflexivity|rewrite H; reflexivity]. }
  unfold validate_jwt. rewrite Hs, Hm. fold (skew_of j). now destruct (lib_parse L token).
Qed.

Lemma signing_dec : forall alg, In alg signing \/ ~ In alg signing.
Proof. intros alg. destruct (in_dec string_dec alg signing); auto. Qed.

Lemma valid_dates : forall L now j auth token, bearer auth token -> fst (validate_jwt L now j auth) = Valid ->
  exists c, lib_parse L token = Some c /\ verify_date_claims now (skew_of j) c = true.
Proof.
  intros L now j auth token Hb Hv. destruct (signing_dec (j_alg j)) as [Ha|Ha].
  - destruct (verdict_signed L now j auth token Hb Ha) as [H1 [H2 H3]].
    destruct (lib_signatures L token) as [[|n]|] eqn:Hs.
    + rewrite H2 in Hv by reflexivity. discriminate.
    + destruct (H3 n eq_refl) as [H4 H5]. destruct (usable_dec L (j_alg j) token (keys_for (j_alg j) j)) as [Hu|Hu].
      * rewrite (H4 Hu) in Hv. destruct (lib_parse L token) as [c|]; [|discriminate].
        exists c. destruct (verify_date_claims now (skew_of j) c); [auto|discriminate].
      * rewrite (H5 Hu) in Hv. discriminate.
    + rewrite H1 in Hv by reflexivity. discriminate.
  - rewrite (verdict_unsigned L now j auth token Hb Ha) in Hv. cbn [fst] in Hv.
    destruct (lib_parse L token) as [c|]; [|discriminate].
    exists c. destruct (verify_date_claims now (skew_of j) c); [auto|discriminate].
Qed.

Lemma skew_is_of : forall j skew, skew_is j skew -> skew_of j = skew.
Proof. intros j skew H. apply atoi_iff in H. unfold skew_of. now rewrite H. Qed.

(** C41 *)
Lemma accepted_in_time : forall L now j auth token skew c, bearer auth token -> skew_is j skew -> (0 <= skew)%Z -> (0 <= now)%Z ->
  fst (validate_jwt L now j auth) = Valid -> lib_parse L token = Some c -> dated c -> in_time now skew c.
Proof.
  intros L now j auth token skew c Hb Hs H0 Hn Hv Hp Hd.
  destruct (valid_dates L now j auth token Hb Hv) as [c' [H1 H2]]. rewrite H1 in Hp. injection Hp as ->.
  rewrite (skew_is_of _ _ Hs) in H2. apply dates_sound; auto. unfold year_1. lia.
Qed.

Lemma valid_usable : forall L now j auth token, bearer auth token -> In (j_alg j) signing ->
  fst (validate_jwt L now j auth) = Valid -> exists kid k c, In (kid, k) (keys_for (j_alg j) j) /\ lib_verify L (j_alg j) k token = Some c.
Proof.
  intros L now j auth token Hb Ha Hv.
  destruct (verdict_signed L now j auth token Hb Ha) as [H1 [H2 H3]].
  destruct (lib_signatures L token) as [[|n]|] eqn:Hs.
  - rewrite H2 in Hv by reflexivity. discriminate.
  - destruct (H3 n eq_refl) as [H4 H5]. destruct (usable_dec L (j_alg j) token (keys_for (j_alg j) j)) as [Hu|Hu]; [exact Hu|].
    rewrite (H5 Hu) in Hv. discriminate.
  - rewrite H1 in Hv by reflexivity. discriminate.
Qed.

Lemma usable_valid : forall L now j auth token n skew kid k c, honest L -> bearer auth token -> In (j_alg j) signing ->
  lib_signatures L token = Some (S n) -> skew_is j skew -> moderate now skew ->
  In (kid, k) (keys_for (j_alg j) j) -> lib_verify L (j_alg j) k token = Some c -> in_time now skew c ->
  fst (validate_jwt L now j auth) = Valid.
Proof.
  intros L now j auth token n skew kid k c HL Hb Ha Hn Hs HM Hin Hv Ht.
  destruct (verdict_signed L now j auth token Hb Ha) as [_ [_ H3]]. destruct (H3 n Hn) as [H4 _].
  rewrite H4 by (now exists kid, k, c). rewrite (HL _ _ _ _ Hv), (skew_is_of _ _ Hs).
  now rewrite dates_complete.
Qed.

(** C40: the kid does not matter. *)
Lemma kid_irrelevant : forall L now j auth auth' token token', bearer auth token -> bearer auth' token' ->
  lib_signatures L token = lib_signatures L token' -> lib_parse L token = lib_parse L token' ->
  (forall a k, lib_verify L a k token = lib_verify L a k token') ->
  fst (validate_jwt L now j auth) = fst (validate_jwt L now j auth').
Proof.
  intros L now j auth auth' token token' Hb Hb' E1 E2 E3. destruct (signing_dec (j_alg j)) as [Ha|Ha].
  - destruct (verdict_signed L now j auth token Hb Ha) as [H1 [H2 H3]].
    destruct (verdict_signed L now j auth' token' Hb' Ha) as [G1 [G2 G3]].
    rewrite <- E1 in G1, G2, G3. destruct (lib_signatures L token) as [[|n]|] eqn:Hn.
    + now rewrite H2, G2.
    + destruct (H3 n eq_refl) as [H4 H5], (G3 n eq_refl) as [G4 G5].
      destruct (usable_dec L (j_alg j) token (keys_for (j_alg j) j)) as [Hu|Hu].
      * assert (Hu' : usable L (j_alg j) token' (keys_for (j_alg j) j)).
        { destruct Hu as [kid [k [c [Hu1 Hu2]]]]. exists kid, k, c. now rewrite <- E3. }
        now rewrite (H4 Hu), (G4 Hu'), E2.
      * assert (Hu' : ~ usable L (j_alg j) token' (keys_for (j_alg j) j)).
        { intros [kid [k [c [Hu1 Hu2]]]]. apply Hu. exists kid, k, c. now rewrite E3. }
        now rewrite (H5 Hu), (G5 Hu').
    + now rewrite H1, G1.
  - rewrite (verdict_unsigned L now j auth token Hb Ha), (verdict_unsigned L now j auth' token' Hb' Ha), E2. reflexivity.
Qed.

(** C43 *)
Lemma crash_iff : forall L now j auth, honest L -> In (j_alg j) signing ->
  (fst (validate_jwt L now j auth) = Crash <-> exists token, bearer auth token /\ lib_signatures L token = None).
Proof.
  intros L now j auth HL Ha. split.
  - intros H. destruct (verdict_bearer L now j auth) as [token Hb]; [now rewrite H|].
    exists token. split; [assumption|].
    destruct (verdict_signed L now j auth token Hb Ha) as [H1 [H2 H3]].
    destruct (lib_signatures L token) as [[|n]|] eqn:Hs; [rewrite H2 in H by reflexivity; discriminate| |reflexivity].
    destruct (H3 n eq_refl) as [H4 H5]. destruct (usable_dec L (j_alg j) token (keys_for (j_alg j) j)) as [Hu|Hu].
    + rewrite (H4 Hu) in H. destruct Hu as [kid [k [c [_ Hu]]]]. rewrite (HL _ _ _ _ Hu) in H.
      destruct (verify_date_claims now (skew_of j) c); discriminate.
    + rewrite (H5 Hu) in H. discriminate.
  - intros [token [Hb Hs]]. now apply (verdict_signed L now j auth token Hb Ha).
Qed.

Lemma unsigned_no_crash : forall L now j auth, ~ In (j_alg j) signing -> fst (validate_jwt L now j auth) <> Crash.
Proof.
  intros L now j auth Ha H. destruct (verdict_bearer L now j auth) as [token Hb]; [now rewrite H|].
  rewrite (verdict_unsigned L now j auth token Hb Ha) in H. cbn [fst] in H.
  destruct (lib_parse L token) as [c|]; [destruct (verify_date_claims now (skew_of j) c)|]; discriminate.
Qed.

(** * Loading keys *)

Lemma upsert_grows : forall ks kp, exists a, upsert ks kp = (ks ++ a)%list /\
  forall p, In p a -> p = kp /\ forall k, ~ In (fst kp, k) ks.
Proof.
  intros ks kp. unfold upsert. destruct (existsb _ ks) eqn:H.
  - exists []. rewrite app_nil_r. split; [reflexivity|]. intros p [].
  - exists [kp]. split; [reflexivity|]. intros p [<-|[]]. split; [reflexivity|]. intros k Hin.
    assert (existsb (fun k => String.eqb (fst k) (fst kp)) ks = true) as H1; [|congruence].
    apply existsb_exists. exists (fst kp, k). split; [assumption|]. apply String.eqb_refl.
Qed.

Lemma upsert_nonempty : forall ks kp, upsert ks kp <> [].
Proof.
  intros ks kp. unfold upsert. destruct ks; [discriminate|]. destruct (existsb _ _); [discriminate|].
  destruct (p :: ks); discriminate.
Qed.

Lemma upsert_new : forall ks kp, (forall k, ~ In (fst kp, k) ks) -> upsert ks kp = (ks ++ [kp])%list.
Proof.
  intros ks kp H. unfold upsert. destruct (existsb _ ks) eqn:E; [|reflexivity].
  apply existsb_exists in E. destruct E as [[kid k] [E1 E2]]. cbn [fst] in E2. apply String.eqb_eq in E2. subst kid.
  elim (H k). exact E1.
Qed.

(** [j'] is [j] after loading keys out of [ks]. *)
Definition loaded (ks : list jwk) (j j' : jwt) : Prop :=
  j_name j' = j_name j /\ j_alg j' = j_alg j /\ j_key j' = j_key j /\ j_url j' = j_url j /\
  j_skew j' = j_skew j /\ j_secret j' = j_secret j /\
  (exists a, j_rsa j' = (j_rsa j ++ a)%list /\
     forall kid k, In (kid, k) a -> (exists n, k = KRsa n) /\ fits (j_alg j) k /\ (forall k', ~ In (kid, k') (j_rsa j)) /\
       exists d, In d ks /\ jk_alg d = j_alg j /\ jk_kid d = kid /\ jk_raw d = Some k) /\
  (exists a, j_ec j' = (j_ec j ++ a)%list /\
     forall kid k, In (kid, k) a -> (exists b n, k = KEc b n) /\ fits (j_alg j) k /\ (forall k', ~ In (kid, k') (j_ec j)) /\
       exists d, In d ks /\ jk_alg d = j_alg j /\ jk_kid d = kid /\ jk_raw d = Some k).

Lemma loaded_refl : forall ks j, loaded ks j j.
Proof.
  intros ks j. unfold loaded. repeat (split; [reflexivity|]).
  split; exists []; rewrite app_nil_r; (split; [reflexivity|]); intros kid k [].
Qed.

Lemma loaded_step : forall d ks j j1 j2, loaded [d] j j1 -> loaded ks j1 j2 -> loaded (d :: ks) j j2.
Proof.
  intros d ks j j1 j2 [A1 [A2 [A3 [A4 [A5 [A6 [[a [A7 A8]] [b [A9 A10]]]]]]]]]
    [B1 [B2 [B3 [B4 [B5 [B6 [[a' [B7 B8]] [b' [B9 B10]]]]]]]]].
  unfold loaded. repeat (split; [congruence|]). split.
  - exists (a ++ a')%list. split; [rewrite B7, A7; now rewrite app_assoc|].
    intros kid k H. apply in_app_or in H. destruct H as [H|H].
    + destruct (A8 _ _ H) as [H1 [H2 [H3 [x [[<-|[]] Hx]]]]]. repeat (split; [assumption|]). exists d. split; [now left|exact Hx].
    + destruct (B8 _ _ H) as [H1 [H2 [H3 [x [Hx1 Hx2]]]]]. rewrite A2 in *. split; [assumption|]. split; [assumption|].
      split; [intros k' Hk; apply (H3 k'); rewrite A7; apply in_or_app; now left|]. exists x. split; [now right|exact Hx2].
  - exists (b ++ b')%list. split; [rewrite B9, A9; now rewrite app_assoc|].
    intros kid k H. apply in_app_or in H. destruct H as [H|H].
    + destruct (A10 _ _ H) as [H1 [H2 [H3 [x [[<-|[]] Hx]]]]]. repeat (split; [assumption|]). exists d. split; [now left|exact Hx].
    + destruct (B10 _ _ H) as [H1 [H2 [H3 [x [Hx1 Hx2]]]]]. rewrite A2 in *. split; [assumption|]. split; [assumption|].
      split; [intros k' Hk; apply (H3 k'); rewrite A9; apply in_or_app; now left|]. exists x. split; [now right|exact Hx2].
Qed.

Lemma rsa_fits : forall alg n, In alg rsa_algs <-> fits alg (KRsa n).
Proof.
  intros alg n. unfold fits, rsa_algs. cbn [In]. split.
  - intros H. each_alg H; eexists; (split; [|first [left; reflexivity|right; reflexivity]]); cbn [In]; auto.
  - intros [m [H1 H2]]. each_alg H1; destruct H2 as [->| ->]; cbn; auto 10.
Qed.

Lemma secret_fits : forall alg s, In alg hmac_algs <-> fits alg (KSecret s).
Proof.
  intros alg n. unfold fits, hmac_algs. cbn [In]. split.
  - intros H. each_alg H; eexists; (split; [|reflexivity]); cbn [In]; auto.
  - intros [m [H1 H2]]. each_alg H1; cbn; auto 10.
Qed.

Lemma ec_fits : forall alg b n, In alg ec_algs /\ bit_size_ok alg b = true <-> fits alg (KEc b n).
Proof.
  intros alg b n. unfold fits, ec_algs. cbn [In]. split.
  - intros [H1 H2]. each_alg H1; unfold bit_size_ok in H2; cbn in H2;
      (destruct (Z.eqb_spec b 256), (Z.eqb_spec b 384), (Z.eqb_spec b 521); try discriminate; auto).
  - intros [[-> ->]|[[-> ->]|[-> ->]]]; cbn; auto 10.
Qed.

Lemma rsa_step : forall d j n, jk_raw d = Some (KRsa n) -> jk_alg d = j_alg j -> In (jk_alg d) rsa_algs ->
  loaded [d] j (with_rsa (upsert (j_rsa j) (jk_kid d, KRsa n)) j).
Proof.
  intros d j n H1 H2 H3. unfold loaded. repeat (split; [reflexivity|]). split.
  - destruct (upsert_grows (j_rsa j) (jk_kid d, KRsa n)) as [a [Ha1 Ha2]]. exists a. split; [exact Ha1|].
    intros kid k Hin. destruct (Ha2 _ Hin) as [Hp Hnew]. injection Hp as -> ->. split; [now exists n|].
    split; [rewrite <- H2; now apply rsa_fits|]. split; [exact Hnew|]. exists d. split; [now left|auto].
  - exists []. rewrite app_nil_r. split; [reflexivity|]. intros kid k [].
Qed.

Lemma ec_step : forall d j b n, jk_raw d = Some (KEc b n) -> jk_alg d = j_alg j -> In (jk_alg d) ec_algs -> bit_size_ok (jk_alg d) b = true ->
  loaded [d] j (with_ec (upsert (j_ec j) (jk_kid d, KEc b n)) j).
Proof.
  intros d j b n H1 H2 H3 H4. unfold loaded. repeat (split; [reflexivity|]). split.
  - exists []. rewrite app_nil_r. split; [reflexivity|]. intros kid k [].
  - destruct (upsert_grows (j_ec j) (jk_kid d, KEc b n)) as [a [Ha1 Ha2]]. exists a. split; [exact Ha1|].
    intros kid k Hin. destruct (Ha2 _ Hin) as [Hp Hnew]. injection Hp as -> ->. split; [now exists b, n|].
    split; [rewrite <- H2; now apply ec_fits|]. split; [exact Hnew|]. exists d. split; [now left|auto].
Qed.

Lemma load_keys_loaded : forall ks j err j' err', load_keys j ks err = Some (j', err') -> loaded ks j j'.
Proof.
  induction ks as [|d ks IH]; intros j err j' err' H; cbn [load_keys] in H.
  - injection H as <- <-. apply loaded_refl.
  - destruct (mem_str (jk_alg d) valid_alg && String.eqb (j_alg j) (jk_alg d)) eqn:Halg;
      [|injection H as <- <-; apply loaded_refl].
    apply andb_true_iff in Halg. destruct Halg as [_ Halg]. apply String.eqb_eq in Halg. symmetry in Halg.
    destruct (mem_str (jk_alg d) rsa_algs) eqn:Hr.
    + apply mem_str_In in Hr. destruct (jk_raw d) as [[n|b n|s|n]|] eqn:Hraw.
      1: eapply loaded_step; [eapply rsa_step; eassumption|eapply IH; exact H].
      all: eapply loaded_step; [apply loaded_refl|eapply IH; exact H].
    + destruct (mem_str (jk_alg d) ec_algs) eqn:He.
      * apply mem_str_In in He. destruct (jk_raw d) as [[n|b n|s|n]|] eqn:Hraw; try discriminate.
        destruct (bit_size_ok (jk_alg d) b) eqn:Hb.
        -- eapply loaded_step; [eapply ec_step; eassumption|eapply IH; exact H].
        -- eapply loaded_step; [apply loaded_refl|eapply IH; exact H].
      * eapply loaded_step; [apply loaded_refl|eapply IH; exact H].
Qed.

Lemma loaded_counted : forall ks j j', loaded ks j j' -> loaded ks j (counted j').
Proof. intros ks j j' H. exact H. Qed.

Lemma load_jwks_loaded : forall doc j j' err, load_jwks doc j = Some (j', err) ->
  loaded (match doc with Some ks => ks | None => [] end) j j'.
Proof.
  intros doc j j' err H. unfold load_jwks in H. destruct doc as [[|d ks]|].
  - injection H as <- <-. apply loaded_counted, loaded_refl.
  - destruct (load_keys j (d :: ks) false) as [[j1 e1]|] eqn:E; [|discriminate]. injection H as <- <-.
    apply loaded_counted. eapply load_keys_loaded. exact E.
  - injection H as <- <-. apply loaded_counted, loaded_refl.
Qed.

(** * Jwt definitions *)

Lemma parse_key_spec : forall pem kid j j', In (j_alg j) signing -> j_key j <> "" ->
  parse_key pem kid (j_alg j) j = ROk j' ->
  exists k, stands_for pem j k /\ fits (j_alg j) k /\
    j' = match k with
         | KRsa _ => with_rsa (upsert (j_rsa j) (kid, k)) j
         | KEc _ _ => with_ec (upsert (j_ec j) (kid, k)) j
         | _ => with_secret (upsert (j_secret j) (kid, k)) j
         end.
Proof.
  intros pem kid j j' Ha Hk H. unfold parse_key in H.
  destruct (mem_str (j_alg j) rsa_algs) eqn:Hr; [|destruct (mem_str (j_alg j) hmac_algs) eqn:Hh;
    [|destruct (mem_str (j_alg j) ec_algs) eqn:He]].
  - apply mem_str_In in Hr. destruct pem as [[b|] rest]; cbn [fst snd] in H;
      (destruct (String.eqb_spec rest "") as [->|]; cbn [negb] in H; [|discriminate]); [|discriminate].
    destruct (mem_str (pb_type b) _) eqn:Ht; cbn [negb] in H; [|discriminate].
    apply mem_str_In in Ht. destruct (String.eqb_spec (pb_type b) "CERTIFICATE") as [Hc|Hc].
    + destruct (pb_cert b) as [[n|? ?|?|?]|] eqn:Hp; try discriminate. injection H as <-.
      exists (KRsa n). split; [eapply sf_cert; eauto; intros; discriminate|]. split; [now apply rsa_fits|reflexivity].
    + destruct (pb_pkix b) as [[n|? ?|?|?]|] eqn:Hp; try discriminate. injection H as <-.
      exists (KRsa n). split; [|split; [now apply rsa_fits|reflexivity]].
      destruct Ht as [Ht|[Ht|[Ht|[]]]]; [|eapply sf_rsa; eauto|congruence].
      eapply sf_public; eauto. intros; discriminate.
  - apply mem_str_In in Hh. destruct (String.eqb_spec (j_key j) "") as [|_]; [contradiction|]. cbn [negb] in H.
    injection H as <-. exists (KSecret (j_key j)). split; [constructor|]. split; [now apply secret_fits|reflexivity].
  - apply mem_str_In in He. destruct pem as [[b|] rest]; cbn [fst snd] in H;
      (destruct (String.eqb_spec rest "") as [->|]; cbn [negb] in H; [|discriminate]); [|discriminate].
    destruct (mem_str (pb_type b) _) eqn:Ht; cbn [negb] in H; [|discriminate].
    apply mem_str_In in Ht. destruct (String.eqb_spec (pb_type b) "CERTIFICATE") as [Hc|Hc].
    + destruct (pb_cert b) as [[?|bits n|?|?]|] eqn:Hp; try discriminate.
      destruct (bit_size_ok (j_alg j) bits) eqn:Hb; [|discriminate]. injection H as <-.
      exists (KEc bits n). split; [eapply sf_cert; eauto; intros; discriminate|]. split; [now apply ec_fits|reflexivity].
    + destruct (pb_pkix b) as [[?|bits n|?|?]|] eqn:Hp; try discriminate.
      destruct (bit_size_ok (j_alg j) bits) eqn:Hb; [|discriminate]. injection H as <-.
      exists (KEc bits n). split; [|split; [now apply ec_fits|reflexivity]].
      destruct Ht as [Ht|[Ht|[]]]; [|congruence]. eapply sf_public; eauto. intros; discriminate.
  - destruct (accept_signing _ Ha) as [_ E]. rewrite Hr, Hh, He in E. discriminate.
Qed.

Lemma parse_key_complete : forall pem kid j k, In (j_alg j) signing -> j_key j <> "" -> stands_for pem j k -> fits (j_alg j) k ->
  exists j', parse_key pem kid (j_alg j) j = ROk j'.
Proof.
  intros pem kid j k Ha Hk Hs Hf. unfold parse_key.
  assert (Hnr : forall b n, fits (j_alg j) (KEc b n) -> mem_str (j_alg j) rsa_algs = false /\ mem_str (j_alg j) hmac_algs = false /\ mem_str (j_alg j) ec_algs = true /\ bit_size_ok (j_alg j) b = true).
  { intros b n H. apply ec_fits in H. destruct H as [H1 H2]. split; [|split; [|split; [now apply mem_str_In|exact H2]]];
      unfold ec_algs in H1; cbn [In] in H1; clear - H1; remember (j_alg j) as a; clear Heqa; each_alg H1; reflexivity. }
  assert (Hrr : forall n, fits (j_alg j) (KRsa n) -> mem_str (j_alg j) rsa_algs = true).
  { intros n H. apply rsa_fits in H. now apply mem_str_In. }
  assert (Hss : forall s, fits (j_alg j) (KSecret s) -> mem_str (j_alg j) rsa_algs = false /\ mem_str (j_alg j) hmac_algs = true).
  { intros s H. apply secret_fits in H. split; [|now apply mem_str_In].
    unfold hmac_algs in H. cbn [In] in H. clear - H. remember (j_alg j) as a. clear Heqa. each_alg H; reflexivity. }
  destruct Hs as [|b k Hp Ht Hc Hns|b k Hp Ht Hc Hns|b n Hp Ht Hc].
  - destruct (Hss _ Hf) as [-> ->]. destruct (String.eqb_spec (j_key j) "") as [|_]; [contradiction|]. eexists. reflexivity.
  - subst pem. cbn [fst snd negb String.eqb]. destruct k as [n|bits n|s|n]; [|destruct (Hnr _ _ Hf) as [-> [-> [-> Hb]]]|elim (Hns s); reflexivity|destruct Hf].
    + rewrite (Hrr _ Hf), Ht, Hc. eexists. reflexivity.
    + rewrite Ht, Hc, Hb. eexists. reflexivity.
  - subst pem. cbn [fst snd negb String.eqb]. destruct k as [n|bits n|s|n]; [|destruct (Hnr _ _ Hf) as [-> [-> [-> Hb]]]|elim (Hns s); reflexivity|destruct Hf].
    + rewrite (Hrr _ Hf), Ht, Hc. eexists. reflexivity.
    + rewrite Ht, Hc, Hb. eexists. reflexivity.
  - subst pem. cbn [fst snd negb String.eqb]. rewrite (Hrr _ Hf), Ht, Hc. eexists. reflexivity.
Qed.

(** The definition with its skew filled in. *)
Definition with_default (j : jwt) : jwt := if String.eqb (j_skew j) "" then with_skew "120" j else j.

Definition skew_fine (j : jwt) : Prop := j_skew j = "" \/ exists z, int64_text (j_skew j) z /\ (0 <= z)%Z.

Lemma skewed_spec : forall j,
  (if negb (String.eqb (j_skew j) "")
   then match atoi (j_skew j) with Some z => if Z.ltb z 0 then None else Some j | None => None end
   else Some (with_skew "120" j)) = Some (with_default j) /\ skew_fine j \/
  (if negb (String.eqb (j_skew j) "")
   then match atoi (j_skew j) with Some z => if Z.ltb z 0 then None else Some j | None => None end
   else Some (with_skew "120" j)) = None /\ ~ skew_fine j.
Proof.
  intros j. unfold with_default, skew_fine. destruct (String.eqb_spec (j_skew j) "") as [H|H]; cbn [negb].
  - left. auto.
  - destruct (atoi (j_skew j)) as [z|] eqn:E.
    + destruct (Z.ltb_spec z 0) as [Hz|Hz].
      * right. split; [reflexivity|]. intros [H1|[z' [H1 H2]]]; [contradiction|]. apply atoi_iff in H1. rewrite E in H1. injection H1 as ->. lia.
      * left. split; [reflexivity|]. right. exists z. split; [apply atoi_iff; exact E|exact Hz].
    + right. split; [reflexivity|]. intros [H1|[z' [H1 H2]]]; [contradiction|]. apply atoi_iff in H1. rewrite E in H1. discriminate H1.
Qed.

Lemma with_default_fields : forall j, j_name (with_default j) = j_name j /\ j_alg (with_default j) = j_alg j /\
  j_key (with_default j) = j_key j /\ j_url (with_default j) = j_url j /\ j_rsa (with_default j) = j_rsa j /\
  j_ec (with_default j) = j_ec j /\ j_secret (with_default j) = j_secret j /\
  j_skew (with_default j) = if String.eqb (j_skew j) "" then "120" else j_skew j.
Proof. intros j. unfold with_default. destruct (String.eqb (j_skew j) ""); cbn; repeat split; reflexivity. Qed.

(** What validation amounts to. *)
Inductive validated (pem : option pem_block * string) (kid : string) (doc : option (list jwk)) (j : jwt) : result -> Prop :=
| v_none : j_alg j = "none" -> j_key j = "" -> j_url j = "" -> validated pem kid doc j (ROk (with_default j))
| v_key : forall r, In (j_alg j) signing -> j_key j <> "" -> r = parse_key pem kid (j_alg j) (with_default j) -> validated pem kid doc j r
| v_url : forall r, (In (j_alg j) signing \/ j_alg j = "none") -> j_key j = "" -> j_url j <> "" ->
    r = match load_jwks doc (with_default j) with
        | Some (j2, false) => ROk j2
        | Some (_, true) => RErr
        | None => RPanic
        end -> validated pem kid doc j r.

Lemma validate_spec : forall pem kid doc j r, validate_jwt_def pem kid doc j = r -> r <> RErr ->
  j_name j <> "" /\ skew_fine j /\ validated pem kid doc j r.
Proof.
  intros pem kid doc j r H Hr. unfold validate_jwt_def in H. cbv zeta in H.
  destruct (String.eqb_spec (j_name j) "") as [|Hn]; [congruence|].
  destruct (negb (String.eqb (j_alg j) "") && negb (mem_str (j_alg j) valid_alg)) eqn:H1; [congruence|].
  destruct (String.eqb (j_alg j) "" && negb (String.eqb (j_url j) "")) eqn:H2; [congruence|].
  destruct (String.eqb (j_alg j) "" && negb (String.eqb (j_key j) "")) eqn:H3; [congruence|].
  destruct (String.eqb (accept_alg (j_alg j)) "none" && negb (String.eqb (j_key j) "")) eqn:H4; [congruence|].
  split; [assumption|].
  destruct (skewed_spec j) as [[Hs1 Hs2]|[Hs1 Hs2]]; rewrite Hs1 in H; [|congruence].
  split; [assumption|].
  destruct (with_default_fields j) as [D1 [D2 [D3 [D4 [D5 [D6 [D7 D8]]]]]]]. rewrite D3, D4 in H.
  destruct (accept_cases (j_alg j)) as [Ha|[Ha|Ha]].
  - destruct (accept_signing _ Ha) as [Ha1 _]. rewrite Ha1 in *.
    destruct (String.eqb_spec (j_key j) "") as [Hk|Hk]; cbn [negb] in H.
    + destruct (String.eqb_spec (j_url j) "") as [Hu|Hu]; cbn [negb] in H.
      * exfalso. apply Hr. rewrite <- H. assert (String.eqb (j_alg j) "none" = false) as ->; [|reflexivity].
        clear - Ha. remember (j_alg j) as a. clear Heqa. unfold signing in Ha. cbn [In] in Ha. each_alg Ha; reflexivity.
      * eapply v_url; auto.
    + eapply v_key; auto.
  - rewrite Ha in *. change (accept_alg "none") with "none" in *. cbn [String.eqb andb negb] in H4.
    destruct (String.eqb_spec (j_key j) "") as [Hk|Hk]; [|discriminate]. cbn [negb] in H.
    destruct (String.eqb_spec (j_url j) "") as [Hu|Hu]; cbn [negb] in H.
    + cbn in H. rewrite <- H. now apply v_none.
    + eapply v_url; auto.
  - rewrite Ha in *. exfalso.
    assert (Hm : mem_str (j_alg j) valid_alg = false).
    { unfold accept_alg in Ha. destruct (mem_str (j_alg j) valid_alg) eqn:E; [|reflexivity].
      rewrite Ha in E. discriminate. }
    rewrite Hm in H1. cbn [negb] in H1. rewrite andb_true_r in H1. apply negb_false_iff in H1. rewrite H1 in H2, H3.
    cbn [andb] in H2, H3. rewrite H2, H3 in H. apply negb_false_iff in H2, H3. rewrite H2, H3 in H. cbn in H. congruence.
Qed.

Lemma validate_complete : forall pem kid doc j r, j_name j <> "" -> skew_fine j -> validated pem kid doc j r ->
  validate_jwt_def pem kid doc j = r.
Proof.
  intros pem kid doc j r Hn Hs Hv. unfold validate_jwt_def. cbv zeta.
  destruct (String.eqb_spec (j_name j) "") as [|_]; [contradiction|].
  destruct (skewed_spec j) as [[Hs1 Hs2]|[Hs1 Hs2]]; [|contradiction]. rewrite Hs1.
  destruct (with_default_fields j) as [D1 [D2 [D3 [D4 [D5 [D6 [D7 D8]]]]]]]. rewrite D3, D4.
  assert (Hg : In (j_alg j) signing -> accept_alg (j_alg j) = j_alg j /\ String.eqb (j_alg j) "none" = false /\
    String.eqb (j_alg j) "" = false /\ mem_str (j_alg j) valid_alg = true).
  { intros Ha. clear - Ha. remember (j_alg j) as a. clear Heqa. unfold signing in Ha. cbn [In] in Ha. each_alg Ha; repeat split. }
  destruct Hv as [Ha Hk Hu|r Ha Hk ->|r Ha Hk Hu ->].
  - rewrite Ha, Hk, Hu. reflexivity.
  - destruct (Hg Ha) as [-> [-> [-> ->]]]. destruct (String.eqb_spec (j_key j) "") as [|_]; [contradiction|]. reflexivity.
  - destruct (String.eqb_spec (j_url j) "") as [|_]; [contradiction|]. rewrite Hk. destruct Ha as [Ha|Ha].
    + destruct (Hg Ha) as [-> [-> [-> ->]]]. reflexivity.
    + rewrite Ha. reflexivity.
Qed.
