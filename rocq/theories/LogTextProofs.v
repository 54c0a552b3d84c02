(** Proofs about the text of log lines. *)
From Coq Require Import String Ascii List Bool ZArith NArith Lia.
From Verif Require Import GoStr Json JsonSpec JsonProofs AccessLog LogText LogTextSpec.
Import ListNotations.
Local Open Scope string_scope.

(** * Strings *)

Lemma read_log_byte : forall c s, N.ltb (N_of_ascii c) 128 = true -> read_chars (log_byte c ++ s) = cons_to (String c "") (read_chars s).
Proof. intros c s H. destruct c as [[] [] [] [] [] [] [] []]; try discriminate H; reflexivity. Qed.

Lemma legible_app : forall a b, legible_line (a ++ b) <-> legible_line a /\ legible_line b.
Proof. induction a as [|c a IH]; intros b; cbn [append legible_line]; [tauto|]. rewrite IH. tauto. Qed.

Lemma legible_byte : forall c, N.ltb (N_of_ascii c) 128 = true -> legible_line (log_byte c).
Proof. intros c H. destruct c as [[] [] [] [] [] [] [] []]; try discriminate H; vm_compute; repeat split; discriminate. Qed.

Lemma high_legible : forall c, N.ltb (N_of_ascii c) 128 = false -> (32 <= N_of_ascii c)%N.
Proof. intros c H. apply N.ltb_ge in H. lia. Qed.

Lemma lead_lo : forall c more lo hi, lead c = Some (more, lo, hi) -> (128 <= lo)%N /\ more <> 0.
Proof. intros c more lo hi E. destruct c as [[] [] [] [] [] [] [] []]; try discriminate E; cbv in E; injection E as <- <- <-; split; (lia || discriminate). Qed.

(** What a string is read as; no byte of its text is a control character. *)
Lemma log_escape_reads : forall n s, (String.length s <= n)%nat ->
  legible_line (log_escape s) /\ exists v, forall rest, read_chars (log_escape s ++ String quote rest) = Some (v, rest).
Proof.
  induction n as [|n IH]; intros s Hn.
  - destruct s; [|cbn in Hn; lia]. split; [exact I|]. exists "". reflexivity.
  - destruct s as [|c s1]; [split; [exact I|exists ""; reflexivity]|]. cbn [String.length] in Hn.
    assert (R : forall t, (String.length t <= n)%nat -> legible_line (replacement ++ log_escape t) /\
              exists v, forall rest, read_chars ((replacement ++ log_escape t) ++ String quote rest) = Some (v, rest)).
    { intros t Ht. destruct (IH t Ht) as [L [v Hv]]. split.
      - apply legible_app. split; [vm_compute; repeat split; discriminate|exact L].
      - eexists. intros rest. rewrite append_assoc, read_replacement, Hv. reflexivity. }
    cbn [log_escape]. destruct (N.ltb (N_of_ascii c) 128) eqn:Ec.
    + destruct (IH s1 ltac:(lia)) as [L [v Hv]]. split.
      * apply legible_app. split; [now apply legible_byte|exact L].
      * eexists. intros rest. rewrite append_assoc, read_log_byte, Hv by assumption. reflexivity.
    + destruct (lead c) as [[[more lo] hi]|] eqn:El; [|apply R; lia].
      destruct s1 as [|d s2]; [apply R; cbn; lia|]. cbn [String.length] in Hn.
      destruct (byte_in lo hi d) eqn:Ed; [|apply R; cbn; lia]. cbn [negb].
      destruct (lead_lo _ _ _ _ El) as [Hlo Hm]. pose proof (byte_high lo hi d Hlo Ed) as Hd.
      destruct more as [|[|[|more]]]; [now elim Hm|..].
      * destruct (IH s2 ltac:(lia)) as [L [v Hv]]. split.
        -- cbn [legible_line]. split; [now apply high_legible|]. split; [now apply high_legible|exact L].
        -- eexists. intros rest. cbn [append]. rewrite !read_high, Hv by assumption. reflexivity.
      * destruct s2 as [|e s3]; [apply R; cbn; lia|]. cbn [String.length] in Hn.
        destruct (cont e) eqn:Ee; [|apply R; cbn; lia]. cbn [negb].
        pose proof (byte_high 128 191 e ltac:(lia) Ee) as He. destruct (IH s3 ltac:(lia)) as [L [v Hv]]. split.
        -- cbn [legible_line]. do 3 (split; [now apply high_legible|]). exact L.
        -- eexists. intros rest. cbn [append]. rewrite !read_high, Hv by assumption. reflexivity.
      * destruct s2 as [|e s3]; [apply R; cbn; lia|]. destruct s3 as [|f s4]; [apply R; cbn; cbn in Hn; lia|].
        cbn [String.length] in Hn.
        destruct (cont e) eqn:Ee; [|apply R; cbn; lia]. destruct (cont f) eqn:Ef; [|apply R; cbn; lia]. cbn [negb andb].
        pose proof (byte_high 128 191 e ltac:(lia) Ee) as He. pose proof (byte_high 128 191 f ltac:(lia) Ef) as Hf.
        destruct (IH s4 ltac:(lia)) as [L [v Hv]]. split.
        -- cbn [legible_line]. do 4 (split; [now apply high_legible|]). exact L.
        -- eexists. intros rest. cbn [append]. rewrite !read_high, Hv by assumption. reflexivity.
Qed.

(** UTF-8 is read as what it is. *)
Lemma log_escape_utf8 : forall s, utf8 s -> forall rest, read_chars (log_escape s ++ String quote rest) = Some (s, rest).
Proof.
  intros s H. induction H as [|a s Ha H IH|a b s Ha Hb H IH|a b c s Hab Hc H IH|a b c d s Hab Hc Hd H IH]; intros rest.
  - reflexivity.
  - cbn [log_escape]. assert (E : N.ltb (N_of_ascii a) 128 = true).
    { unfold rng, code_of in Ha. apply andb_true_iff in Ha. destruct Ha as [_ Ha]. apply N.leb_le in Ha. apply N.ltb_lt. lia. }
    rewrite E, append_assoc, read_log_byte by assumption. now rewrite IH.
  - pose proof (lead_2 a Ha) as La. cbn [log_escape]. rewrite (lead_high _ _ La), La.
    change (byte_in 128 191 b) with (rng 128 191 b). rewrite Hb. cbn [negb append].
    rewrite read_high by exact (lead_high _ _ La). rewrite read_high by (apply (byte_high 128 191); [lia | exact Hb]). now rewrite IH.
  - destruct (lead_3 a b Hab) as [lo [hi [La [Lb Hlo]]]]. cbn [log_escape]. rewrite (lead_high _ _ La), La, Lb. cbn [negb].
    change (cont c) with (rng 128 191 c). rewrite Hc. cbn [negb append].
    rewrite read_high by exact (lead_high _ _ La). rewrite read_high by exact (byte_high lo hi b Hlo Lb).
    rewrite read_high by (apply (byte_high 128 191); [lia | exact Hc]). now rewrite IH.
  - destruct (lead_4 a b Hab) as [lo [hi [La [Lb Hlo]]]]. cbn [log_escape]. rewrite (lead_high _ _ La), La, Lb. cbn [negb].
    change (cont c) with (rng 128 191 c). change (cont d) with (rng 128 191 d). rewrite Hc, Hd. cbn [negb andb append].
    rewrite read_high by exact (lead_high _ _ La). rewrite read_high by exact (byte_high lo hi b Hlo Lb).
    rewrite read_high by (apply (byte_high 128 191); [lia | exact Hc]).
    rewrite read_high by (apply (byte_high 128 191); [lia | exact Hd]). now rewrite IH.
Qed.

Lemma log_string_app : forall s rest, log_string s ++ rest = String quote (log_escape s ++ String quote rest).
Proof. intros s rest. unfold log_string. cbn [append]. now rewrite append_assoc. Qed.

Lemma log_string_legible : forall s, legible_line (log_string s).
Proof.
  intros s. unfold log_string. cbn [legible_line]. split; [discriminate|]. apply legible_app.
  split; [exact (proj1 (log_escape_reads _ s (le_n _)))|]. cbn [legible_line]. split; [discriminate|exact I].
Qed.

(** * Values *)

Lemma time_reads : forall s, time_text s -> legible_line s /\ forall rest, read_chars (s ++ String quote rest) = Some (s, rest).
Proof.
  induction s as [|c s IH]; intros H; [split; [exact I|reflexivity]|]. destruct H as [Hc H]. destruct (IH H) as [L R].
  assert (E : (32 <= N_of_ascii c)%N /\ is c 34 = false /\ N.ltb (code_of c) 32 = false /\ is c 92 = false).
  { unfold is, code_of. destruct Hc as [Hc|Hc].
    - split; [lia|]. split; [apply N.eqb_neq; lia|]. split; [apply N.ltb_ge; lia|apply N.eqb_neq; lia].
    - cbn [In] in Hc. destruct Hc as [<-|[<-|[<-|[<-|[<-|[<-|[]]]]]]]; repeat split; discriminate. }
  destruct E as (E1 & E2 & E3 & E4). split; [split; [exact E1|exact L]|]. intros rest. cbn [append read_chars].
  rewrite E2, E3, E4. cbn [negb]. now rewrite R.
Qed.

Lemma uint_legible : forall d, legible_line (DecimalString.NilEmpty.string_of_uint d).
Proof. induction d; cbn [DecimalString.NilEmpty.string_of_uint legible_line]; try exact I; (split; [discriminate|assumption]). Qed.

Lemma itoa_legible : forall n, legible_line (itoa n).
Proof.
  intros n. unfold itoa. destruct (N.to_uint n) as [|u|u|u|u|u|u|u|u|u|u]; [vm_compute; split; [discriminate|exact I]|..];
    cbn [DecimalString.NilZero.string_of_uint DecimalString.NilEmpty.string_of_uint legible_line]; (split; [discriminate|apply uint_legible]).
Qed.

Lemma itoa_Z_legible : forall z, legible_line (itoa_Z z).
Proof. intros [|p|p]; unfold itoa_Z; try apply itoa_legible. cbn [append legible_line]. split; [discriminate|apply itoa_legible]. Qed.

Lemma value_legible : forall v, timed v -> legible_line (value_text v).
Proof.
  intros [s|z|b|s] H; cbn [value_text].
  - apply log_string_legible.
  - apply itoa_Z_legible.
  - destruct b; vm_compute; repeat split; discriminate.
  - cbn [legible_line]. split; [discriminate|]. apply legible_app. split; [exact (proj1 (time_reads s H))|]. split; [discriminate|exact I].
Qed.

Lemma prefix_empty : forall s, String.prefix "" s = true.
Proof. now intros [|c s]. Qed.

Lemma value_reads : forall v, timed v -> exists w, kept v w /\ forall rest, starts_digit rest = false -> read_lvalue (value_text v ++ rest) = Some (w, rest).
Proof.
  intros [s|z|b|s] H; cbn [value_text].
  - destruct (log_escape_reads _ s (le_n _)) as [_ [v Hv]]. exists (VStr v). split.
    + exists v. split; [reflexivity|]. intros U. specialize (Hv ""). rewrite (log_escape_utf8 s U) in Hv. now injection Hv.
    + intros rest _. rewrite log_string_app. unfold read_lvalue. cbn [read_value]. change (is quote 34) with true. cbn iota. now rewrite Hv.
  - exists (VInt z). split; [reflexivity|]. intros rest D. unfold read_lvalue. now rewrite read_value_int.
  - exists (VFlag b). split; [reflexivity|]. intros rest _. destruct b.
    + assert (E : forall n r, String.substring 0 (n + String.length r) r = r).
      { intros n r. revert n. induction r as [|c r IH]; intros n; [now destruct (n + _)|]. cbn [String.length].
        rewrite Nat.add_succ_r. cbn [String.substring]. f_equal. apply IH. }
      unfold read_lvalue. cbn [append read_value]. change (read_value (String "t" _)) with (@None (jvalue * string)).
      cbn. rewrite prefix_empty. f_equal. f_equal. change (S (S (S (S (String.length rest))))) with (4 + String.length rest). apply E.
    + assert (E : forall n r, String.substring 0 (n + String.length r) r = r).
      { intros n r. revert n. induction r as [|c r IH]; intros n; [now destruct (n + _)|]. cbn [String.length].
        rewrite Nat.add_succ_r. cbn [String.substring]. f_equal. apply IH. }
      unfold read_lvalue. cbn [append read_value]. cbn. rewrite prefix_empty. f_equal. f_equal.
      change (S (S (S (S (S (String.length rest)))))) with (5 + String.length rest). apply E.
  - exists (VStr s). split; [reflexivity|]. intros rest _. cbn [append]. rewrite append_assoc. cbn [append]. unfold read_lvalue. cbn [read_value].
    change (is quote 34) with true. cbn iota. now rewrite (proj2 (time_reads s H)).
Qed.

(** * Lines *)

Lemma key_of : forall k, utf8 k -> forall rest, read_string (log_string k ++ rest) = Some (k, rest).
Proof. intros k U rest. rewrite log_string_app. cbn [read_string]. change (is quote 34) with true. cbn iota. now apply log_escape_utf8. Qed.

Definition end_of_line : string := "}" ++ String newline "".

Lemma members_read : forall l p, Forall (fun p => utf8 (fst p) /\ timed (snd p)) (p :: l) ->
  exists ms, Forall2 read_as (p :: l) ms /\
    forall n, (List.length l <= n)%nat -> read_record (S n) (join "," (map member_text (p :: l)) ++ end_of_line) = Some ms.
Proof.
  induction l as [|q l IH]; intros [k v] F; inversion F as [|p0 l0 [U T] F' E1]; clear F; subst p0 l0; cbn [fst snd] in U, T;
    destruct (value_reads v T) as (w & K & R).
  - exists [(k, w)]. split; [constructor; [now split|constructor]|]. intros n _. cbn [map join]. unfold member_text. cbn [fst snd].
    rewrite !append_assoc. cbn [read_record]. rewrite (key_of k U). cbn [append expect]. change (is ":" 58) with true. cbn iota.
    rewrite (R end_of_line eq_refl). reflexivity.
  - destruct (IH q F') as (ms & M & G). exists ((k, w) :: ms). split; [constructor; [now split|exact M]|]. intros n Hn.
    change (join "," (map member_text ((k, v) :: q :: l))) with (member_text (k, v) ++ "," ++ join "," (map member_text (q :: l))).
    unfold member_text at 1. cbn [fst snd]. rewrite !append_assoc. cbn [read_record]. rewrite (key_of k U). cbn [append expect].
    change (is ":" 58) with true. cbn iota. rewrite R by reflexivity. cbn [expect]. change (is "," 44) with true. cbn iota.
    cbn [List.length] in Hn. destruct n as [|n]; [lia|]. rewrite G by lia. reflexivity.
Qed.

Lemma join_longer : forall l x, (forall s, In s l -> s <> "") -> (List.length l <= String.length (join "," l ++ x))%nat.
Proof.
  induction l as [|s l IH]; intros x H; [cbn; lia|]. assert (N := H s (or_introl eq_refl)). assert (H' : forall s, In s l -> s <> "") by (intros; apply H; now right).
  destruct s as [|c s]; [now elim N|]. destruct l as [|s' l].
  - cbn. lia.
  - change (join "," (String c s :: s' :: l)) with (String c s ++ "," ++ join "," (s' :: l)). rewrite !append_assoc. cbn [append String.length]. specialize (IH x H').
    assert (A : forall a b, (String.length b <= String.length (a ++ b))%nat) by (induction a as [|c' a IHa]; intros b; cbn [append String.length]; [lia|specialize (IHa b); lia]).
    specialize (A s (String "," (join "," (s' :: l) ++ x))). cbn [String.length] in A. cbn [List.length] in *. lia.
Qed.

(** The line reads as the members of the event. *)
Lemma event_read : forall srv time e, time_text time -> Forall (fun p => utf8 (fst p) /\ timed (snd p)) (v_fields e) ->
  exists ms, read_line (log_text srv time e) = Some ms /\ Forall2 read_as (all_members srv time e) ms.
Proof.
  intros srv time e T F.
  assert (A : Forall (fun p => utf8 (fst p) /\ timed (snd p)) (all_members srv time e)).
  { assert (W : forall k, forallb (fun c => N.ltb (N_of_ascii c) 128) (list_ascii_of_string k) = true -> utf8 k).
    { induction k as [|c k IHk]; intros H; [constructor|]. cbn in H. apply andb_true_iff in H. destruct H as [H1 H2]. apply utf8_1; [|now apply IHk].
      unfold rng, code_of. apply N.ltb_lt in H1. apply andb_true_iff. split; apply N.leb_le; lia. }
    unfold all_members. repeat (apply Forall_cons; [split; [now apply W|exact I]|]). apply Forall_app. split; [exact F|].
    apply Forall_cons; [split; [now apply W|exact T]|]. destruct (String.eqb _ _); repeat constructor. }
  unfold all_members in *. cbn [app] in *.
  destruct (members_read _ _ A) as (ms & M & R). exists ms. split; [|exact M].
  unfold log_text, all_members. cbn [append]. unfold read_line. cbn [expect]. change (is "{" 123) with true. cbn iota.
  match goal with |- read_record _ (?j ++ _) = _ => set (J := j) end. change (String "}" (String newline "")) with end_of_line.
  assert (L : (List.length (map member_text (("level", VStr (v_level e)) :: ("srvId", VStr srv) :: v_fields e ++ ("time", VTime time) :: (if String.eqb (v_message e) "" then [] else [("message", VStr (v_message e))]))) <= String.length (J ++ end_of_line))%nat).
  { apply join_longer. intros s H. apply in_map_iff in H. destruct H as ([k v] & <- & _). discriminate. }
  rewrite map_length in L. cbn [List.length] in L. destruct (String.length (J ++ end_of_line)) as [|n]; [lia|]. apply R. cbn [List.length app] in *. lia.
Qed.

(** It is one line. *)
Lemma join_legible : forall l, (forall s, In s l -> legible_line s) -> legible_line (join "," l).
Proof.
  induction l as [|s l IH]; intros H; [exact I|]. destruct l as [|s' l]; [apply H; now left|].
  change (join "," (s :: s' :: l)) with (s ++ "," ++ join "," (s' :: l)). apply legible_app. split; [apply H; now left|]. cbn [append legible_line].
  split; [discriminate|]. apply IH. intros; apply H; now right.
Qed.

Lemma event_one_line : forall srv time e, time_text time -> Forall (fun p => timed (snd p)) (v_fields e) ->
  exists body, log_text srv time e = body ++ String (ascii_of_N 10) "" /\ legible_line body.
Proof.
  intros srv time e T F. exists ("{" ++ join "," (map member_text (all_members srv time e)) ++ "}"). split.
  - unfold log_text. now rewrite !append_assoc.
  - cbn [append legible_line]. split; [discriminate|]. apply legible_app. split; [|split; [discriminate|exact I]].
    apply join_legible. intros s H. apply in_map_iff in H. destruct H as ([k v] & <- & H). unfold member_text. cbn [fst snd].
    apply legible_app. split; [apply log_string_legible|]. cbn [append legible_line]. split; [discriminate|]. apply value_legible.
    assert (A : Forall (fun p => timed (snd p)) (all_members srv time e)).
    { unfold all_members. repeat (apply Forall_cons; [exact I|]). apply Forall_app. split; [exact F|]. apply Forall_cons; [exact T|].
      destruct (String.eqb _ _); repeat constructor. }
    rewrite Forall_forall in A. exact (A _ H).
Qed.

(** * Lines about responses *)

Lemma read_filter : forall k l ms, Forall2 read_as l ms -> Forall2 read_as (filter (fun m => String.eqb (fst m) k) l) (filter (fun m => String.eqb (fst m) k) ms).
Proof.
  intros k l ms F. induction F as [|p m l ms [A B] F IH]; [constructor|]. cbn [filter]. rewrite A. destruct (String.eqb (fst p) k); [|exact IH].
  constructor; [now split|exact IH].
Qed.

Lemma read_says : forall k v l ms, Forall2 read_as l ms -> filter (fun m => String.eqb (fst m) k) l = [(k, v)] -> says ms k v.
Proof.
  intros k v l ms F H. apply (read_filter k) in F. rewrite H in F. inversion F as [|p m l' ms' [A B] F' E1 E2]; subst. inversion F'; subst.
  destruct m as [k' w]. cbn [fst snd] in A, B. subst k'. exists w. now split.
Qed.

Lemma read_keys : forall l ms, Forall2 read_as l ms -> map fst ms = map fst l.
Proof. intros l ms F. induction F as [|p m l ms [A B] F IH]; [reflexivity|]. cbn [map]. now rewrite A, IH. Qed.

Lemma access_fields_plain : forall e d u, Forall (fun p => utf8 (fst p) /\ timed (snd p)) (v_fields (access_event e d u)).
Proof.
  intros e d u. cbn [access_event v_fields]. repeat (apply Forall_app; split); try (destruct (l_error e)); try (destruct (l_tls e)); try (destruct (l_up e));
    repeat (apply Forall_cons || apply Forall_nil); (split; [repeat (apply utf8_1; [reflexivity|]); apply utf8_nil|exact I]).
Qed.

Ltac no_key := let H := fresh in intros H; cbn in H; repeat (destruct H as [H|H]; [discriminate H|]); exact H.

Lemma access_read : forall srv time e down up, time_text time ->
  exists ms, read_line (log_text srv time (access_event e down up)) = Some ms /\ NoDup (map fst ms) /\
    says ms "level" (VStr (if l_warn e then "warn" else "info")) /\ says ms "srvId" (VStr srv) /\ says ms "time" (VTime time) /\
    says_if ms "message" (if String.eqb (l_text e) "" then None else Some (VStr (l_text e))) /\
    says_if ms "dwnResErrMsg" (option_map VStr (l_error e)) /\
    says ms "dwnReqPath" (VStr (l_path e)) /\ says ms "dwnReqRemoteAddr" (VStr (l_addr e)) /\ says ms "dwnReqMethod" (VStr (l_method e)) /\
    says ms "dwnReqUserAgent" (VStr (l_agent e)) /\ says ms "dwnHttpVer" (VStr (l_http e)) /\ says ms "dwnResCode" (VInt (l_status e)) /\
    says ms "dwnResContentEnc" (VStr (l_encoding e)) /\ says ms "dwnElapsedMicros" (VInt down) /\ says ms "X-Request-Id" (VStr (l_id e)) /\
    says_if ms "dwnTlsVer" (option_map VStr (l_tls e)) /\
    says_if ms "upReqURI" (option_map (fun u => VStr (ue_uri u)) (l_up e)) /\ says_if ms "upLabel" (option_map (fun u => VStr (ue_label u)) (l_up e)) /\
    says_if ms "upAtmptResCode" (option_map (fun u => VInt (ue_status u)) (l_up e)) /\
    says_if ms "upAtmptElapsedMicros" (option_map (fun _ => VInt up) (l_up e)) /\
    says_if ms "upAtmptAbort" (option_map (fun u => VFlag (ue_abort u)) (l_up e)) /\ says_if ms "upAtmpt" (option_map (fun u => VStr (ue_count u)) (l_up e)).
Proof.
  intros srv time e down up T. destruct (event_read srv time (access_event e down up) T (access_fields_plain e down up)) as (ms & R & F).
  exists ms. split; [exact R|]. clear R. assert (K := read_keys _ _ F).
  assert (S : forall k v, filter (fun m => String.eqb (fst m) k) (all_members srv time (access_event e down up)) = [(k, v)] -> says ms k v) by (intros; eapply read_says; eassumption).
  assert (N : forall k, ~ In k (map fst (all_members srv time (access_event e down up))) -> silent_on ms k) by (intros k H; unfold silent_on; now rewrite K).
  unfold all_members in S, N, K. cbn [access_event v_level v_fields v_message] in S, N, K. rewrite K. clear F K.
  destruct (String.eqb (l_text e) ""), (l_error e), (l_tls e), (l_up e); cbn [app option_map says_if] in *;
  (split; [repeat (constructor; [no_key|]); constructor|]);
  repeat match goal with |- _ /\ _ => split end; ((apply S; reflexivity) || (apply N; no_key)).
Qed.

Lemma says_same : forall ms k s s', says ms k (VStr s) -> says ms k (VStr s') -> utf8 s -> utf8 s' -> s = s'.
Proof.
  intros ms k s s' (w & A & t & B & C) (w' & A' & t' & B' & C') U U'. subst w w'. rewrite A in A'. injection A' as A'. subst t'.
  now rewrite <- (C U), (C' U').
Qed.
Lemma says_num : forall ms k z z', says ms k (VInt z) -> says ms k (VInt z') -> z = z'.
Proof. intros ms k z z' (w & A & B) (w' & A' & B'). cbn in B, B'. subst. rewrite A in A'. now injection A'. Qed.
Lemma says_flag : forall ms k b b', says ms k (VFlag b) -> says ms k (VFlag b') -> b = b'.
Proof. intros ms k b b' (w & A & B) (w' & A' & B'). cbn in B, B'. subst. rewrite A in A'. now injection A'. Qed.
Lemma says_time : forall ms k s s', says ms k (VTime s) -> says ms k (VTime s') -> s = s'.
Proof. intros ms k s s' (w & A & B) (w' & A' & B'). cbn in B, B'. subst. rewrite A in A'. now injection A'. Qed.
Lemma says_not : forall ms k v, says ms k v -> silent_on ms k -> False.
Proof.
  intros ms k v (w & A & _) N. apply N. assert (H : In (k, w) (filter (fun m => String.eqb (fst m) k) ms)) by (rewrite A; now left).
  apply filter_In in H. apply in_map_iff. now exists (k, w).
Qed.

Lemma says_opt : forall ms k o o', says_if ms k (option_map VStr o) -> says_if ms k (option_map VStr o') -> utf8_if o -> utf8_if o' -> o = o'.
Proof.
  intros ms k [s|] [s'|] A B U U'; cbn in *; [f_equal; now apply (says_same ms k)|exfalso; eapply says_not; eassumption|exfalso; eapply says_not; eassumption|reflexivity].
Qed.

(** Lines that look the same are about the same. *)
Lemma access_apart : forall srv srv' time time' e e' d d' u u', time_text time -> time_text time' -> utf8 srv -> utf8 srv' -> utf8_entry e -> utf8_entry e' ->
  log_text srv time (access_event e d u) = log_text srv' time' (access_event e' d' u') ->
  srv = srv' /\ time = time' /\ e = e' /\ d = d' /\ (l_up e <> None -> u = u').
Proof.
  intros srv srv' time time' e e' d d' u u' T T' V V' (U0 & U1 & U2 & U3 & U4 & U5 & U6 & U7 & U8 & U9 & UA) (W0 & W1 & W2 & W3 & W4 & W5 & W6 & W7 & W8 & W9 & WA) E.
  destruct (access_read srv time e d u T) as (ms & R & _ & A1 & A2 & A3 & A4 & A5 & A6 & A7 & A8 & A9 & A10 & A11 & A12 & A13 & A14 & A15 & A16 & A17 & A18 & A19 & A20 & A21).
  destruct (access_read srv' time' e' d' u' T') as (ms' & R' & _ & B1 & B2 & B3 & B4 & B5 & B6 & B7 & B8 & B9 & B10 & B11 & B12 & B13 & B14 & B15 & B16 & B17 & B18 & B19 & B20 & B21).
  rewrite E, R' in R. injection R as R. subst ms'. clear E R'.
  split; [now apply (says_same ms "srvId")|]. split; [now apply (says_time ms "time")|].
  assert (M : l_text e = l_text e').
  { destruct (String.eqb_spec (l_text e) "") as [X|X], (String.eqb_spec (l_text e') "") as [Y|Y]; cbn [says_if] in A4, B4.
    - now rewrite X, Y.
    - elim (says_not _ _ _ B4 A4).
    - elim (says_not _ _ _ A4 B4).
    - now apply (says_same ms "message"). }
  assert (L : l_warn e = l_warn e').
  { assert (X : utf8 "warn" /\ utf8 "info") by (split; repeat (apply utf8_1; [reflexivity|]); apply utf8_nil).
    assert (Y := says_same ms "level" _ _ A1 B1). destruct (l_warn e), (l_warn e'); try reflexivity; (assert (Z : "warn" = "info" \/ "info" = "warn") by (left + right; apply Y; apply X)); destruct Z as [Z|Z]; discriminate Z. }
  assert (P : l_up e = l_up e' /\ (l_up e <> None -> u = u')).
  { destruct (l_up e) as [[x1 x2 x3 x4 x5]|], (l_up e') as [[y1 y2 y3 y4 y5]|]; cbn [option_map says_if ue_uri ue_label ue_status ue_abort ue_count] in *.
    - destruct UA as (UA & UB & UC), WA as (WA & WB & WC). split; [|intros _; exact (says_num _ _ _ _ A19 B19)].
      rewrite (says_same _ _ _ _ A16 B16 UA WA), (says_same _ _ _ _ A17 B17 UB WB), (says_num _ _ _ _ A18 B18), (says_flag _ _ _ _ A20 B20), (says_same _ _ _ _ A21 B21 UC WC). reflexivity.
    - elim (says_not _ _ _ A16 B16).
    - elim (says_not _ _ _ B16 A16).
    - split; [reflexivity|]. intros H. now elim H. }
  destruct P as [P Q]. split; [|split; [exact (says_num _ _ _ _ A13 B13)|exact Q]].
  assert (X5 := says_opt _ _ _ _ A5 B5 U1 W1). assert (X6 := says_same _ _ _ _ A6 B6 U2 W2). assert (X7 := says_same _ _ _ _ A7 B7 U3 W3).
  assert (X8 := says_same _ _ _ _ A8 B8 U4 W4). assert (X9 := says_same _ _ _ _ A9 B9 U5 W5). assert (X10 := says_same _ _ _ _ A10 B10 U6 W6).
  assert (X11 := says_num _ _ _ _ A11 B11). assert (X12 := says_same _ _ _ _ A12 B12 U7 W7). assert (X14 := says_same _ _ _ _ A14 B14 U8 W8).
  assert (X15 := says_opt _ _ _ _ A15 B15 U9 W9). clear - L M X5 X6 X7 X8 X9 X10 X11 X12 X14 X15 P.
  destruct e as [a1 a2 a3 a4 a5 a6 a7 a8 a9 b1 b2 b3 b4], e' as [c1 c2 c3 c4 c5 c6 c7 c8 c9 d1 d2 d3 d4]. cbn [l_warn l_text l_error l_path l_addr l_method l_agent l_http l_status l_encoding l_id l_tls l_up] in *. subst. reflexivity.
Qed.

(** * In colour *)

Lemma unbroken_app : forall a b, unbroken (a ++ b) <-> unbroken a /\ unbroken b.
Proof. induction a as [|c a IH]; intros b; cbn [append unbroken]; [tauto|]. rewrite IH. tauto. Qed.

Lemma legible_unbroken : forall s, legible_line s -> unbroken s.
Proof. induction s as [|c s IH]; intros H; [exact I|]. destruct H as [H1 H2]. split; [lia|now apply IH]. Qed.

Lemma unquoted_unbroken : forall s, needs_quote s = false -> unbroken s.
Proof.
  induction s as [|c s IH]; intros H; [exact I|]. cbn [needs_quote] in H. apply orb_false_iff in H. destruct H as [H H3]. apply orb_false_iff in H. destruct H as [H _].
  apply orb_false_iff in H. destruct H as [H _]. apply negb_false_iff in H. unfold N_in in H. apply andb_true_iff in H. destruct H as [H _]. apply N.leb_le in H.
  split; [lia|now apply IH].
Qed.

Lemma inserted : forall m l x, In x (insert_member m l) <-> x = m \/ In x l.
Proof.
  intros m l x. induction l as [|m' l IH]; [cbn; intuition|]. cbn [insert_member]. destruct (String.compare (fst m) (fst m')); cbn [In]; try rewrite IH; cbn [In]; intuition.
Qed.
Lemma sorted_in : forall l x, In x (sort_members l) <-> In x l.
Proof. induction l as [|m l IH]; intros x; [reflexivity|]. unfold sort_members in *. cbn [fold_right]. rewrite inserted, IH. cbn [In]. intuition. Qed.

Lemma join_unbroken : forall l, (forall s, In s l -> unbroken s) -> unbroken (join " " l).
Proof.
  induction l as [|s l IH]; intros H; [exact I|]. destruct l as [|s' l]; [apply H; now left|].
  change (join " " (s :: s' :: l)) with (s ++ " " ++ join " " (s' :: l)). apply unbroken_app. split; [apply H; now left|]. cbn [append unbroken].
  split; [discriminate|]. apply IH. intros; apply H; now right.
Qed.

Lemma console_unbroken : forall q head ms, (forall s, unbroken (q s)) -> unbroken head -> unbroken (console_message ms) ->
  (forall k v, In (k, v) ms -> unbroken k /\ forall s, v <> VTime s) ->
  exists body, console_text q head ms = body ++ String (ascii_of_N 10) "" /\ unbroken body.
Proof.
  intros q head ms Q H M K. exists (head ++ console_message ms ++ match console_fields ms with [] => "" | fs => " " ++ join " " (map (console_field q) fs) end). split.
  - unfold console_text. now rewrite !append_assoc.
  - apply unbroken_app. split; [exact H|]. apply unbroken_app. split; [exact M|].
    assert (F : unbroken (join " " (map (console_field q) (console_fields ms)))).
    { apply join_unbroken. intros s I. apply in_map_iff in I. destruct I as ([k v] & <- & I). unfold console_fields in I. rewrite sorted_in in I. apply filter_In in I.
      destruct (K k v (proj1 I)) as [A B]. unfold console_field. cbn [fst snd]. cbn [append unbroken]. repeat (split; [discriminate|]).
      rewrite !append_assoc. apply unbroken_app. split; [exact A|]. cbn [append unbroken]. repeat (split; [discriminate|]).
      destruct v as [s|z|b|s]; cbn [console_value].
      - destruct (needs_quote s) eqn:N; [apply Q|now apply unquoted_unbroken].
      - apply legible_unbroken, itoa_Z_legible.
      - destruct b; vm_compute; repeat split; discriminate.
      - now elim (B s). }
    destruct (console_fields ms) as [|f fs]; [exact I|]. cbn [append unbroken]. split; [discriminate|exact F].
Qed.

Lemma find_filter : forall A (p : A -> bool) l, List.find p l = match filter p l with x :: _ => Some x | [] => None end.
Proof. intros A p l. induction l as [|x l IH]; [reflexivity|]. cbn [List.find filter]. destruct (p x); [reflexivity|exact IH]. Qed.

Lemma message_read : forall ms s, says ms "message" (VStr s) -> utf8 s -> console_message ms = s.
Proof. intros ms s (w & A & t & -> & C) U. unfold console_message. rewrite find_filter, A. now apply C. Qed.

(** Whatever is logged in fields stays on the line. *)
Lemma console_event : forall q head srv time e ms, (forall s, unbroken (q s)) -> unbroken head -> time_text time ->
  Forall (fun p => utf8 (fst p) /\ unbroken (fst p) /\ timed (snd p) /\ fst p <> "message") (v_fields e) -> utf8 (v_message e) -> unbroken (v_message e) ->
  read_line (log_text srv time e) = Some ms ->
  exists body, console_text q head ms = body ++ String (ascii_of_N 10) "" /\ unbroken body.
Proof.
  intros q head srv time e ms Q H T F U M R.
  destruct (event_read srv time e T) as (ms' & R' & G). { apply Forall_forall. intros p I. rewrite Forall_forall in F. destruct (F p I) as (A & _ & B & _). now split. }
  rewrite R in R'. injection R' as <-. apply console_unbroken; [exact Q|exact H|..].
  - destruct (String.eqb_spec (v_message e) "") as [E|E].
    + unfold console_message. destruct (List.find _ ms) as [[k v]|] eqn:X; [|exact I]. apply find_some in X. destruct X as [X Y]. cbn [fst] in Y. apply String.eqb_eq in Y. subst k.
      exfalso. assert (Z : In "message" (map fst ms)) by (apply in_map_iff; eexists; split; [|exact X]; reflexivity).
      rewrite (read_keys _ _ G) in Z. unfold all_members in Z. rewrite E in Z. cbn [String.eqb app map fst In] in Z. destruct Z as [Z|[Z|Z]]; try discriminate Z.
      rewrite map_app in Z. apply in_app_or in Z. destruct Z as [Z|Z]; [|cbn in Z; destruct Z as [Z|[]]; discriminate Z].
      apply in_map_iff in Z. destruct Z as (p & Y & Z). rewrite Forall_forall in F. now apply (F p Z).
    + rewrite (message_read ms (v_message e)); [exact M| |exact U]. apply (read_says _ _ _ _ G). unfold all_members. destruct (String.eqb_spec (v_message e) "") as [X|X]; [contradiction|].
      cbn [app filter fst]. change (String.eqb "level" "message") with false. change (String.eqb "srvId" "message") with false. cbn iota.
      rewrite filter_app. cbn [filter fst]. change (String.eqb "time" "message") with false. change (String.eqb "message" "message") with true. cbn iota.
      replace (filter _ (v_fields e)) with (@nil (string * lvalue)); [reflexivity|]. symmetry. clear - F. induction F as [|p l (_ & _ & _ & N) F IH]; [reflexivity|]. cbn [filter].
      destruct (String.eqb_spec (fst p) "message"); [contradiction|exact IH].
  - assert (A : Forall (fun p => unbroken (fst p)) (all_members srv time e)).
    { unfold all_members. repeat (apply Forall_cons; [vm_compute; repeat split; discriminate|]). apply Forall_app. split.
      - apply Forall_forall. intros p I. rewrite Forall_forall in F. now apply (F p I).
      - apply Forall_cons; [vm_compute; repeat split; discriminate|]. destruct (String.eqb _ _); [constructor|]. apply Forall_cons; [vm_compute; repeat split; discriminate|constructor]. }
    clear - A G. induction G as [|p m l ms [B C] G IH]; [intros k v []|]. inversion A as [|p0 l0 A1 A2]; subst. intros k v [E|I]; [|now apply IH].
    subst m. cbn [fst snd] in B, C. subst k. split; [exact A1|]. intros s ->. destruct p as [pk [x|x|x|x]]; cbn [snd kept] in C; try discriminate C. destruct C as (s' & C & _). discriminate C.
Qed.

Lemma console_access : forall q head srv time e d u ms, (forall s, unbroken (q s)) -> unbroken head -> time_text time ->
  utf8 (l_text e) -> unbroken (l_text e) -> read_line (log_text srv time (access_event e d u)) = Some ms ->
  exists body, console_text q head ms = body ++ String (ascii_of_N 10) "" /\ unbroken body.
Proof.
  intros q head srv time e d u ms Q H T U M R. apply (console_event q head srv time (access_event e d u)); try assumption.
  cbn [access_event v_fields]. repeat (apply Forall_app; split); try (destruct (l_error e)); try (destruct (l_tls e)); try (destruct (l_up e));
    repeat (apply Forall_cons || apply Forall_nil);
    (split; [repeat (apply utf8_1; [reflexivity|]); apply utf8_nil|split; [vm_compute; repeat split; discriminate|split; [exact I|discriminate]]]).
Qed.

Lemma access_one_line : forall srv time e d u, time_text time ->
  exists body, log_text srv time (access_event e d u) = body ++ String (ascii_of_N 10) "" /\ legible_line body.
Proof.
  intros srv time e d u T. apply event_one_line; [exact T|]. apply Forall_forall. intros p I. assert (F := access_fields_plain e d u). rewrite Forall_forall in F. now apply (F p I).
Qed.

Lemma event_members : forall srv time e, time_text time -> Forall (fun p => utf8 (fst p) /\ timed (snd p)) (v_fields e) ->
  exists ms, read_line (log_text srv time e) = Some ms /\
    Forall2 read_as (("level", VStr (v_level e)) :: ("srvId", VStr srv) :: v_fields e ++ ("time", VTime time) ::
      match v_message e with EmptyString => [] | m => [("message", VStr m)] end)%list ms.
Proof.
  intros srv time e T F. destruct (event_read srv time e T F) as (ms & R & G). exists ms. split; [exact R|]. unfold all_members in G. cbn [app] in G.
  now destruct (v_message e).
Qed.
