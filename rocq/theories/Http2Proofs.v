From Coq Require Import String Ascii List Bool ZArith NArith Lia.
From Verif Require Import GoStr NumberSpec HeadProofs Header HeaderSpec HeaderProofs Config Exchange ExchangeSpec ExchangeProofs Machine MachineSpec Handler HandlerSpec
  SystemSpec SystemProofs ConformSpec ConformProofs Startup Http2 Http2Spec.
Import ListNotations.
Local Open Scope string_scope.

(** * Bytes *)

Ltac bytewise c := destruct c as [[] [] [] [] [] [] [] []].

Lemma name_byte_ok : forall c, token_char c && negb (N_in 65 90 (N_of_ascii c)) = true -> name_byte c.
Proof.
  intros c H. unfold name_byte. bytewise c; try discriminate H;
    ((left; vm_compute; split; discriminate) || (right; left; vm_compute; split; discriminate) || (right; right; cbn [In]; tauto)).
Qed.

Lemma wire_name_ok : forall k, wire_name k = true -> field_name k.
Proof.
  intros k H. unfold wire_name in H. apply andb_true_iff in H. destruct H as [E A]. split.
  - intros ->. discriminate E.
  - clear E. induction k as [|c k IH]; [exact I|]. cbn [all_chars] in A. apply andb_true_iff in A. destruct A as [A B]. split; [now apply name_byte_ok|now apply IH].
Qed.

Lemma wire_value_ok : forall v, wire_value v = true <-> field_value v.
Proof.
  induction v as [|c v IH]; [now split|]. unfold wire_value in *. cbn [all_chars field_value]. rewrite andb_true_iff, IH. clear IH.
  rewrite orb_true_iff, negb_true_iff, orb_false_iff, N.ltb_ge, N.eqb_neq, N.eqb_eq. tauto.
Qed.

Lemma lower_canon : forall s u, canon_from u (lower_text s) = canon_from u s.
Proof.
  induction s as [|c s IH]; intros u; [reflexivity|]. cbn [lower_text canon_from]. rewrite IH. f_equal; [destruct u; bytewise c; reflexivity|].
  f_equal. bytewise c; reflexivity.
Qed.

Lemma lower_tokens : forall s, all_chars token_char (lower_text s) = all_chars token_char s.
Proof. induction s as [|c s IH]; [reflexivity|]. cbn [lower_text all_chars]. rewrite IH. f_equal. bytewise c; reflexivity. Qed.

(** A canonical name is known by its lower case. *)
Lemma lower_one : forall k k', canon k = k -> canon k' = k' -> lower_text k = lower_text k' -> all_chars token_char k' = true -> k = k'.
Proof.
  intros k k' C C' E T. assert (T' : all_chars token_char k = true) by (now rewrite <- lower_tokens, E, lower_tokens).
  unfold canon in C, C'. rewrite T' in C. rewrite T in C'. rewrite <- C, <- C', <- (lower_canon k), <- (lower_canon k'), E. reflexivity.
Qed.

(** * Fields *)

Definition kept_field (p : string * string) : bool :=
  wire_name (lower_text (fst p)) && wire_value (snd p) && negb (String.eqb (lower_text (fst p)) "transfer-encoding" && negb (String.eqb (snd p) "trailers")).

Lemma encoded_in : forall h k v, In (k, v) (encode_headers h) <-> exists p, In p h /\ kept_field p = true /\ k = lower_text (fst p) /\ v = snd p.
Proof.
  intros h k v. unfold encode_headers. rewrite in_concat. split.
  - intros (l & I & J). apply in_map_iff in I. destruct I as (p & E & I). cbv zeta in E. fold (kept_field p) in E. destruct (kept_field p) eqn:K.
    + subst l. destruct J as [J|[]]. injection J as <- <-. exists p. now repeat split.
    + subst l. destruct J.
  - intros (p & I & K & -> & ->). exists [(lower_text (fst p), snd p)]. split; [|now left]. apply in_map_iff. exists p. split; [|exact I]. cbv zeta. fold (kept_field p). now rewrite K.
Qed.

Lemma encoded_fine : forall h k v, In (k, v) (encode_headers h) -> field_name k /\ field_value v.
Proof.
  intros h k v H. apply encoded_in in H. destruct H as (p & _ & K & -> & ->). unfold kept_field in K. apply andb_true_iff in K. destruct K as [K _].
  apply andb_true_iff in K. destruct K as [A B]. split; [now apply wire_name_ok|now apply wire_value_ok].
Qed.

Lemma itoa_value : forall n, field_value (itoa n).
Proof.
  assert (D : forall s m, numeral s m -> field_value s).
  { assert (A : forall a b, field_value a -> field_value b -> field_value (a ++ b)).
    { induction a as [|c a IH]; intros b H G; [exact G|]. cbn [append field_value] in *. destruct H as [H1 H2]. split; [exact H1|now apply IH]. }
    intros s m H. induction H as [c Hc|s m c H IH Hc]; [|apply A; [exact IH|]]; (split; [lia|exact I]). }
  intros n. exact (D _ _ (itoa_numeral n)).
Qed.

Lemma itoa_Z_value : forall n, (0 <= n)%Z -> field_value (itoa_Z n).
Proof. intros [|p|p] H; [exact (itoa_value 0)|exact (itoa_value (N.pos p))|lia]. Qed.

(** Those that follow the status: the encoded headers and three more at most *)
Lemma fields_are : forall sniff now head r, exists h1 ct cl dt,
  (h1 = rp_header r \/ h1 = without_key "Content-Length" (rp_header r)) /\
  (get "Content-Length" (rp_header r) <> "" -> h1 = without_key "Content-Length" (rp_header r)) /\
  hm_fields (h2_write sniff now head r) =
    ((":status", itoa_Z (rp_status r)) :: encode_headers (without_key "Connection" h1) ++
     (if String.eqb ct "" then [] else [("content-type", ct)]) ++ (if String.eqb cl "" then [] else [("content-length", cl)]) ++
     (if String.eqb dt "" then [] else [("date", dt)]))%list /\
  (ct = "" \/ (values "Content-Type" (rp_header r) = [] /\ exists p, ct = sniff p)) /\ (dt = "" \/ dt = now) /\
  (cl = "" \/ (cl = get "Content-Length" (rp_header r) /\ exists n, atoi cl = Some n) \/
   cl = itoa (N.of_nat (String.length (if body_allowed (rp_status r) then rp_body r else "")))).
Proof.
  intros sniff now head r. unfold h2_write. cbv zeta. cbn [hm_fields].
  set (decl := get "Content-Length" (rp_header r)).
  match goal with |- context [([(":status", _)] ++ encode_headers (without_key "Connection" ?h) ++ (if String.eqb ?a "" then _ else _) ++ (if String.eqb ?b "" then _ else _) ++ (if String.eqb ?c "" then _ else _))%list] =>
    exists h, a, b, c end.
  split; [destruct (String.eqb decl ""); auto|].
  split; [intros N; destruct (String.eqb_spec decl ""); [congruence|reflexivity]|]. split; [reflexivity|].
  split; [destruct (values "Content-Type" _); [|now left]; destruct (_ && negb _); [right; split; [reflexivity|eauto]|now left]|].
  split; [destruct (values "Date" _); auto|].
  destruct (atoi decl) as [z|] eqn:A.
  - destruct (negb (String.eqb decl "") && Z.leb 0 z); [right; left; split; [reflexivity|eauto]|]. destruct (_ && (_ || _)); auto.
  - rewrite andb_false_r. destruct (_ && (_ || _)); auto.
Qed.

Lemma numeral_value : forall s, (exists n, atoi s = Some n) -> field_value s.
Proof.
  assert (D : forall s a n, digits_val a s = Some n -> field_value s).
  { induction s as [|c s IH]; intros a n H; [exact I|]. cbn [digits_val] in H. destruct (digit_val c) as [d|] eqn:Dc; [|discriminate H]. split; [|now apply IH in H].
    clear - Dc. bytewise c; try discriminate Dc; vm_compute; right; split; discriminate. }
  assert (G : forall s a n, match s with EmptyString => None | _ => match digits_val a s with Some v => Some v | None => None end end = Some n -> field_value s).
  { intros [|c s] a n H; [discriminate H|]. destruct (digits_val a (String c s)) as [v|] eqn:E; [|discriminate H]. now apply D in E. }
  intros s [n H]. destruct s as [|c s]; [discriminate H|]. unfold atoi in H.
  destruct (Ascii.eqb_spec c "-") as [->|N1]; [|destruct (Ascii.eqb_spec c "+") as [->|N2]].
  - split; [right; vm_compute; split; discriminate|]. destruct s as [|c s]; [exact I|]. destruct (digits_val 0 (String c s)) eqn:E; [now apply D in E|discriminate H].
  - split; [right; vm_compute; split; discriminate|]. destruct s as [|c s]; [exact I|]. destruct (digits_val 0 (String c s)) eqn:E; [now apply D in E|discriminate H].
  - destruct (digits_val 0 (String c s)) eqn:E; [now apply D in E|discriminate H].
Qed.

Lemma name_here : field_name "content-type" /\ field_name "content-length" /\ field_name "date".
Proof. split; [|split]; apply wire_name_ok; reflexivity. Qed.

Lemma in_optional : forall k v k' s : string, In (k, v) (if String.eqb s "" then [] else [(k', s)]) -> k = k' /\ v = s /\ s <> "".
Proof. intros k v k' s H. destruct (String.eqb_spec s ""); [destruct H|]. destruct H as [H|[]]. injection H as <- <-. now repeat split. Qed.

Lemma fields_fine : forall sniff now head r, (forall p, field_value (sniff p)) -> field_value now ->
  exists fields, hm_fields (h2_write sniff now head r) = (":status", itoa_Z (rp_status r)) :: fields /\
    forall k v, In (k, v) fields -> field_name k /\ field_value v.
Proof.
  intros sniff now head r Hs Hn. destruct (fields_are sniff now head r) as (h1 & ct & cl & dt & _ & _ & E & Ct & Dt & Cl). destruct name_here as (N1 & N2 & N3).
  eexists. split; [exact E|]. intros k v H. rewrite !in_app_iff in H. destruct H as [H|[H|[H|H]]].
  - exact (encoded_fine _ _ _ H).
  - apply in_optional in H. destruct H as (-> & -> & N). split; [exact N1|]. destruct Ct as [->|(_ & p & ->)]; [congruence|apply Hs].
  - apply in_optional in H. destruct H as (-> & -> & N). split; [exact N2|]. destruct Cl as [->|[[_ C]| ->]]; [congruence|now apply numeral_value|apply itoa_value].
  - apply in_optional in H. destruct H as (-> & -> & N). split; [exact N3|]. destruct Dt as [->| ->]; [congruence|exact Hn].
Qed.

(** * Values *)

Lemma values_in : forall k v (h : header), In v (values k h) <-> In (k, v) h.
Proof.
  intros k v h. unfold values. rewrite in_map_iff. split.
  - intros ((k' & v') & E & I). cbn [snd] in E. subst v'. apply filter_In in I. destruct I as [I J]. apply String.eqb_eq in J. cbn [fst] in J. now subst.
  - intros I. exists (k, v). split; [reflexivity|]. apply filter_In. split; [exact I|]. cbn [fst]. apply String.eqb_refl.
Qed.

Lemma values_nil_iff : forall k (h : header), values k h = [] <-> forall v, ~ In (k, v) h.
Proof.
  intros k h. split.
  - intros E v I. apply values_in in I. rewrite E in I. destruct I.
  - intros N. destruct (values k h) as [|v l] eqn:E; [reflexivity|]. elim (N v). apply values_in. rewrite E. now left.
Qed.

Lemma values_app : forall k (a b : header), values k (a ++ b)%list = (values k a ++ values k b)%list.
Proof. intros k a b. unfold values. now rewrite filter_app, map_app. Qed.

Lemma without_in : forall k p h, In p (without_key k h) <-> In p h /\ fst p <> k.
Proof. intros k p h. unfold without_key. rewrite filter_In, negb_true_iff, String.eqb_neq. tauto. Qed.

Lemma get_values : forall k h, canon k = k -> get k h = match values k h with v :: _ => v | [] => "" end.
Proof. intros k h C. unfold get. now rewrite C. Qed.

Lemma lower_cons_first : forall s, lower_text s = "" -> s = "".
Proof. intros [|c s] H; [reflexivity|discriminate H]. Qed.

(** * Codes *)

Lemma three_digits : forall z, (100 <= z <= 999)%Z -> String.length (itoa_Z z) = 3 /\ numeral (itoa_Z z) z.
Proof.
  intros z H. split; [|rewrite <- (Z2Nat.id z) by lia; apply itoa_Z_numeral].
  assert (A : forallb (fun n => Nat.eqb (String.length (itoa_Z (Z.of_nat n + 100))) 3) (seq 0 900) = true) by (vm_compute; reflexivity).
  rewrite forallb_forall in A. specialize (A (Z.to_nat (z - 100))). rewrite Z2Nat.id in A by lia. replace (z - 100 + 100)%Z with z in A by lia.
  apply PeanoNat.Nat.eqb_eq, A, in_seq. lia.
Qed.

(** * Well-formed responses *)

Lemma specific_name : forall k name, In name ["Connection"; "Keep-Alive"; "Proxy-Connection"; "Transfer-Encoding"; "Upgrade"; "Content-Length"] ->
  canon k = k -> lower_text k = lower_text name -> k = name.
Proof.
  intros k name I C E. apply lower_one; [exact C| |exact E|]; cbn [In] in I; repeat (destruct I as [<-|I]; [vm_compute; reflexivity|]); destruct I.
Qed.

(** Other headers of the response come from the upstream, in its spelling. *)
Lemma canonical_name : forall t r k v, replies t r -> sized (t_req t) -> timely_run t -> canonical_answers (t_run t) -> In (k, v) (rp_header r) -> canon k = k.
Proof.
  intros t r k v H Hq Ht Hc I.
  destruct (in_dec string_dec k ("Content-Type" :: own_headers)) as [O|O].
  - cbn [own_headers In] in O. repeat (destruct O as [<-|O]; [vm_compute; reflexivity|]). destruct O.
  - destruct (in_dec string_dec k never_copied) as [N|N].
    + cbn [never_copied In] in N. repeat (destruct N as [<-|N]; [vm_compute; reflexivity|]). destruct N.
    + apply values_in in I. destruct (header_source t r k v H Hq Ht Hc O N I) as (rs & body & R & _ & E). rewrite E in I. apply values_in in I.
      destruct R as (c & s & _ & _ & _ & A & _). exact (Hc _ _ A _ _ I).
Qed.

Lemma no_transfer : forall t r, replies t r -> sized (t_req t) -> timely_run t -> canonical_answers (t_run t) -> values "Transfer-Encoding" (rp_header r) = [].
Proof.
  intros t r H Hq Ht Hc. destruct (replies_kind t r H Hq Ht) as [A|[(dice & st & m & _ & ->)|(dice & rs & body & R & _ & _)]].
  - destruct (about_of t r A) as (dice & ->). apply about_header; cbn; intuition discriminate.
  - apply status_header. cbn. intuition discriminate.
  - assert (C : canonical_keys (ur_header rs)) by (destruct R as (c & s & _ & _ & _ & A & _); exact (Hc _ _ A)).
    exact (proj2 (proj2 (proj1 (relayed_headers t r rs body "" R Hq Ht C)))).
Qed.

Lemma values_lower_none : forall h name, (forall k v, In (k, v) h -> lower_text k <> name) -> values name (encode_headers h) = [].
Proof. intros h name N. apply values_nil_iff. intros v I. apply encoded_in in I. destruct I as ((k' & v') & I & _ & E & _). exact (N _ _ I (eq_sym E)). Qed.

Lemma optional_values : forall k k' s : string, values k (if String.eqb s "" then [] else [(k', s)]) = if String.eqb s "" then [] else if String.eqb k' k then [s] else [].
Proof. intros k k' s. destruct (String.eqb s ""); [reflexivity|]. unfold values. cbn [filter fst]. destruct (String.eqb k' k); reflexivity. Qed.

Lemma well_formed_here : forall sniff now t r head, (forall p, field_value (sniff p)) -> field_value now ->
  replies t r -> sized (t_req t) -> timely_run t -> canonical_answers (t_run t) -> (200 <= rp_status r <= 999)%Z ->
  head = true \/ (to_upper (q_method (t_req t)) <> "HEAD" /\ to_upper (q_method (t_req t)) <> "CONNECT") ->
  (forall rs body, relayed t r rs body -> unspecific rs) ->
  well_formed head (rp_status r) (h2_write sniff now head r).
Proof.
  intros sniff now t r head Hs Hn H Hq Ht Hc Hr Hm Hu.
  destruct (fields_fine sniff now head r Hs Hn) as (fields & E & F). exists (itoa_Z (rp_status r)), fields.
  split; [exact E|]. destruct (three_digits (rp_status r)) as [L N]; [lia|]. split; [exact L|]. split; [exact N|].
  destruct (fields_are sniff now head r) as (h1 & ct & cl & dt & E1 & E2 & E3 & _ & _ & Cl).
  rewrite E in E3. injection E3 as E3.
  assert (Sub : forall p, In p (without_key "Connection" h1) -> In p (rp_header r) /\ fst p <> "Connection").
  { intros p I. apply without_in in I. destruct I as [I J]. split; [|exact J]. destruct E1 as [->| ->]; [exact I|]. now apply without_in in I. }
  split.
  - intros k v I. destruct (F k v I) as [F1 F2]. split; [exact F1|]. split; [exact F2|]. rewrite E3, !in_app_iff in I.
    destruct I as [I|I].
    + apply encoded_in in I. destruct I as ((k' & v') & I & _ & -> & ->). apply Sub in I. cbn [fst snd] in *. destruct I as [I J].
      pose proof (canonical_name t r k' v' H Hq Ht Hc I) as C.
      assert (Src : In k' let_through -> False).
      { intros J'. assert (O : ~ In k' ("Content-Type" :: own_headers)) by (cbn [let_through own_headers In] in *; intuition (subst; discriminate)).
        assert (O' : ~ In k' never_copied) by (cbn [let_through never_copied In] in *; intuition (subst; discriminate)).
        apply values_in in I. destruct (header_source t r k' v' H Hq Ht Hc O O' I) as (rs & body & R & _ & G).
        rewrite G, (Hu rs body R k' J') in I. destruct I. }
      intros K. cbn [connection_specific In] in K. destruct K as [K|[K|[K|[K|[K|[]]]]]]; symmetry in K.
      * apply J. apply (specific_name k' "Connection"); [cbn; auto|exact C|exact K].
      * apply Src. rewrite (specific_name k' "Keep-Alive"); [cbn; auto|cbn; auto|exact C|exact K].
      * apply Src. rewrite (specific_name k' "Proxy-Connection"); [cbn; auto|cbn; auto|exact C|exact K].
      * rewrite (specific_name k' "Transfer-Encoding") in I by (cbn; auto || assumption || exact K). apply values_in in I. rewrite (no_transfer t r H Hq Ht Hc) in I. destruct I.
      * apply Src. rewrite (specific_name k' "Upgrade"); [cbn; auto|cbn; auto 8|exact C|exact K].
    + intros K. destruct I as [I|[I|I]]; apply in_optional in I; destruct I as (-> & _); cbn [connection_specific In] in K; intuition discriminate.
  - destruct Hm as [->|[M1 M2]]; [now left|]. destruct head; [now left|]. right.
    destruct (Z.eq_dec (rp_status r) 204) as [E204|N204]; [left; cbn; auto|]. destruct (Z.eq_dec (rp_status r) 304) as [E304|N304]; [left; cbn; auto|]. right.
    assert (B : body_allowed (rp_status r) = true).
    { unfold body_allowed. apply negb_true_iff. rewrite !orb_false_iff, andb_false_iff, !Z.leb_gt, !Z.eqb_neq. lia. }
    rewrite B in Cl.
    assert (D : hm_data (h2_write sniff now false r) = rp_body r) by (unfold h2_write; cbn [hm_data]; now rewrite B).
    rewrite D. clear D.
    assert (Len : numeral (itoa (N.of_nat (String.length (rp_body r)))) (Z.of_nat (String.length (rp_body r)))).
    { pose proof (itoa_numeral (N.of_nat (String.length (rp_body r)))) as X. now rewrite nat_N_Z in X. }
    pose proof (length_any t r H Hq Hc N204 ltac:(lia) M1 M2) as LA.
    assert (V0 : values "content-length" (encode_headers (without_key "Connection" h1)) = []).
    { apply values_lower_none. intros k v I K. assert (k = "Content-Length").
      { apply (specific_name k "Content-Length"); [cbn; auto 8| |exact K]. apply (canonical_name t r k v H Hq Ht Hc). exact (proj1 (Sub _ I)). }
      subst k. destruct LA as [LA|LA].
      - apply Sub in I. destruct I as [I _]. apply values_in in I. rewrite LA in I. destruct I.
      - assert (G : get "Content-Length" (rp_header r) <> "").
        { rewrite get_values by reflexivity. rewrite LA. intros X. pose proof (itoa_Z_numeral (String.length (rp_body r))) as Y. rewrite X in Y.
          inversion Y as [|s m c Y1 Y2 Y3]. destruct s; discriminate. }
        rewrite (E2 G) in I. apply without_in in I. destruct I as [I _]. apply without_in in I. now destruct I. }
    rewrite E3, !values_app, V0, !optional_values. change (String.eqb "content-type" "content-length") with false. change (String.eqb "date" "content-length") with false.
    change (String.eqb "content-length" "content-length") with true. cbv iota.
    assert (Z0 : forall s : string, (if String.eqb s "" then [] else []) = @nil string) by (intros s; destruct (String.eqb s ""); reflexivity).
    rewrite !Z0. cbn [app]. rewrite app_nil_r. destruct (String.eqb_spec cl "") as [Ecl|Ncl]; [now right|]. left. exists cl. split; [reflexivity|].
    destruct Cl as [Cl|[[Cl _]|Cl]]; [congruence| |now rewrite Cl].
    rewrite get_values in Cl by reflexivity. destruct LA as [LA|LA]; rewrite LA in Cl; [congruence|]. rewrite Cl. apply itoa_Z_numeral.
Qed.

(** * Malformed responses *)

Lemma passed_on : forall sniff now head r k v, In (k, v) (rp_header r) -> k <> "Connection" -> k <> "Content-Length" -> kept_field (k, v) = true ->
  exists code fields, hm_fields (h2_write sniff now head r) = (":status", code) :: fields /\ In (lower_text k, v) fields.
Proof.
  intros sniff now head r k v I N1 N2 K. destruct (fields_are sniff now head r) as (h1 & ct & cl & dt & E1 & _ & E3 & _). eexists. eexists. split; [exact E3|].
  apply in_app_iff. left. apply encoded_in. exists (k, v). split; [|now repeat split]. apply without_in. split; [|exact N1].
  destruct E1 as [->| ->]; [exact I|]. apply without_in. split; [exact I|exact N2].
Qed.

Lemma kept_let_through : forall k v, In k let_through -> field_value v -> kept_field (k, v) = true /\ In (lower_text k) connection_specific.
Proof.
  intros k v I H. apply wire_value_ok in H. unfold kept_field. cbn [fst snd]. rewrite H.
  cbn [let_through In] in I. destruct I as [<-|[<-|[<-|[]]]]; (split; [reflexivity|cbn; auto 8]).
Qed.

Lemma malformed : forall sniff now head t r rs body k v, relayed t r rs body -> sized (t_req t) -> timely_run t -> canonical_keys (ur_header rs) ->
  ~ (400 <= ur_status rs < 500)%Z -> In k let_through -> In v (values k (ur_header rs)) -> field_value v ->
  ~ well_formed head (rp_status r) (h2_write sniff now head r).
Proof.
  intros sniff now head t r rs body k v R Hq Ht Hc Hs Hk Hv Hf (code & fields & E & _ & _ & W & _).
  assert (O : ~ In k own_headers) by (cbn [let_through own_headers In] in *; intuition (subst; discriminate)).
  assert (O' : ~ In k never_copied) by (cbn [let_through never_copied In] in *; intuition (subst; discriminate)).
  rewrite <- (header_kept t r rs body k R Hq Ht Hc Hs O O') in Hv. apply values_in in Hv.
  destruct (kept_let_through k v Hk Hf) as [K1 K2].
  destruct (passed_on sniff now head r k v Hv) as (code' & fields' & E' & I).
  - intros ->. apply O. cbn. auto.
  - intros ->. apply O. cbn. auto 8.
  - exact K1.
  - rewrite E in E'. injection E' as <- <-. exact (proj2 (proj2 (W _ _ I)) K2).
Qed.

(** * Fields that are kept *)

Lemma encoded_values : forall h k, (forall k' v, In (k', v) h -> lower_text k' = lower_text k -> k' = k) ->
  (forall v, In (k, v) h -> kept_field (k, v) = true) -> values (lower_text k) (encode_headers h) = values k h.
Proof.
  induction h as [|[k' v'] h IH]; intros k U K; [reflexivity|]. unfold encode_headers in *. cbn [map concat]. rewrite values_app, IH.
  - cbv zeta. fold (kept_field (k', v')). cbn [fst snd]. unfold values at 1 3. cbn [filter fst]. destruct (String.eqb_spec k' k) as [->|N].
    + rewrite (K v') by (now left). cbn [filter fst]. rewrite String.eqb_refl. reflexivity.
    + destruct (kept_field (k', v')); [|reflexivity]. cbn [filter fst]. destruct (String.eqb_spec (lower_text k') (lower_text k)) as [E|_]; [|reflexivity].
      elim N. apply (U k' v'); [now left|exact E].
  - intros k0 v0 I. apply (U k0 v0). now right.
  - intros v0 I. apply K. now right.
Qed.

Lemma values_without : forall k k' h, k <> k' -> values k (without_key k' h) = values k h.
Proof.
  intros k k' h N. unfold without_key, values. induction h as [|[a b] h IH]; [reflexivity|]. cbn [filter fst]. destruct (String.eqb_spec a k') as [->|M]; cbn [negb].
  - rewrite IH. destruct (String.eqb_spec k' k); [congruence|reflexivity].
  - cbn [filter fst]. destruct (String.eqb a k); cbn [map]; now rewrite IH.
Qed.

Lemma field_kept : forall sniff now head t r rs body k, replies t r -> relayed t r rs body -> sized (t_req t) -> timely_run t -> canonical_answers (t_run t) ->
  ~ (400 <= ur_status rs < 500)%Z -> ~ In k own_headers -> ~ In k never_copied -> values k (ur_header rs) <> [] ->
  field_name (lower_text k) -> all_chars token_char k = true ->
  (forall v, In v (values k (ur_header rs)) -> field_value v) ->
  values (lower_text k) (hm_fields (h2_write sniff now head r)) = values k (ur_header rs).
Proof.
  intros sniff now head t r rs body k H R Hq Ht Hc Hs Ho Hn Hv Hf Tk Hw.
  assert (C : canonical_keys (ur_header rs)) by (destruct R as (c & s & _ & _ & _ & A & _); exact (Hc _ _ A)).
  pose proof (header_kept t r rs body k R Hq Ht C Hs Ho Hn) as K.
  assert (Ck : canon k = k).
  { destruct (values k (ur_header rs)) as [|v l] eqn:E; [congruence|]. apply (C k v). apply values_in. rewrite E. now left. }
  assert (L : forall a, lower_text k = lower_text a -> canon a = a -> k = a).
  { intros a E Ca. symmetry. apply lower_one; [exact Ca|exact Ck|now symmetry|exact Tk]. }
  destruct (fields_are sniff now head r) as (h1 & ct & cl & dt & E1 & _ & E3 & Ct & _ & _). rewrite E3.
  assert (Nc : k <> "Connection") by (intros ->; apply Ho; cbn; auto). assert (Nl : k <> "Content-Length") by (intros ->; apply Ho; cbn; auto 8).
  assert (W : values k (without_key "Connection" h1) = values k (ur_header rs)).
  { rewrite values_without by exact Nc. rewrite <- K. destruct E1 as [->| ->]; [reflexivity|]. now apply values_without. }
  assert (St : values (lower_text k) [(":status", itoa_Z (rp_status r))] = []).
  { unfold values. cbn [filter fst]. destruct (String.eqb_spec ":status" (lower_text k)) as [E|_]; [|reflexivity]. exfalso. rewrite <- E in Hf. destruct Hf as [_ [[X|[X|X]] _]].
    - vm_compute in X. destruct X as [_ X]. now apply X.
    - vm_compute in X. destruct X as [X _]. now apply X.
    - cbn [In] in X. intuition discriminate. }
  change ((":status", itoa_Z (rp_status r)) :: ?l) with ([(":status", itoa_Z (rp_status r))] ++ l)%list. rewrite !values_app, St, !optional_values, encoded_values.
  - rewrite W. cbn [app].
    assert (Dn : forall a n, lower_text n = a -> canon n = n -> (k <> n) -> String.eqb a (lower_text k) = false).
    { intros a n <- Cn N. apply String.eqb_neq. intros E. apply N, L; [now symmetry|exact Cn]. }
    rewrite (Dn "content-length" "Content-Length"), (Dn "date" "Date") by (reflexivity || (vm_compute; reflexivity) || assumption || (intros ->; apply Hn; cbn; auto)).
    assert (Z0 : forall s : string, (if String.eqb s "" then [] else []) = @nil string) by (intros s; destruct (String.eqb s ""); reflexivity).
    rewrite !Z0, !app_nil_r. destruct Ct as [->|[Ct _]]; [cbn; now rewrite app_nil_r|].
    rewrite (Dn "content-type" "Content-Type"), Z0, app_nil_r by (reflexivity || (vm_compute; reflexivity) || (intros ->; congruence)). reflexivity.
  - intros k' v' I E. symmetry. apply L; [now symmetry|]. apply (canonical_name t r k' v' H Hq Ht Hc). apply without_in in I. destruct I as [I _].
    destruct E1 as [->| ->]; [exact I|]. now apply without_in in I.
  - intros v I. apply values_in in I. rewrite W in I. unfold kept_field. cbn [fst snd].
    apply Hw, wire_value_ok in I. rewrite I.
    assert (N : wire_name (lower_text k) = true).
    { destruct Hf as [N B]. unfold wire_name. apply andb_true_iff. split; [apply negb_true_iff, String.eqb_neq, N|]. clear - B. induction (lower_text k) as [|c s IH]; [reflexivity|].
      cbn [all_chars name_bytes] in *. destruct B as [B1 B2]. rewrite (IH B2), andb_true_r. clear - B1. unfold name_byte in B1.
      bytewise c; try reflexivity; exfalso; destruct B1 as [[X Y]|[[X Y]|X]]; try (vm_compute in X, Y; congruence); cbn [In] in X; intuition discriminate. }
    rewrite N. cbn [andb]. apply negb_true_iff. assert (T : String.eqb (lower_text k) "transfer-encoding" = false); [|now rewrite T].
    apply String.eqb_neq. intros E. apply Hn. rewrite (L "Transfer-Encoding"); [cbn; auto|exact E|reflexivity].
Qed.

Lemma name_tokens : forall k, field_name (lower_text k) -> all_chars token_char k = true.
Proof.
  intros k [_ B]. rewrite <- lower_tokens. induction (lower_text k) as [|c s IH]; [reflexivity|]. cbn [all_chars name_bytes] in *. destruct B as [B1 B2]. rewrite (IH B2), andb_true_r.
  clear - B1. unfold name_byte in B1. bytewise c; try reflexivity; exfalso; destruct B1 as [[X Y]|[[X Y]|X]]; try (vm_compute in X, Y; congruence); cbn [In] in X; intuition discriminate.
Qed.

Lemma field_same : forall sniff now head t r rs body k, replies t r -> relayed t r rs body -> sized (t_req t) -> timely_run t -> canonical_answers (t_run t) ->
  ~ (400 <= ur_status rs < 500)%Z -> ~ In k own_headers -> ~ In k never_copied -> values k (ur_header rs) <> [] -> field_name (lower_text k) ->
  (forall v, In v (values k (ur_header rs)) -> field_value v) ->
  values (lower_text k) (hm_fields (h2_write sniff now head r)) = values k (ur_header rs).
Proof.
  intros sniff now head t r rs body k H R Hq Ht Hc Hs Ho Hn Hv Hf Hw.
  exact (field_kept sniff now head t r rs body k H R Hq Ht Hc Hs Ho Hn Hv Hf (name_tokens k Hf) Hw).
Qed.

(** * Connections that are wound down *)

Lemma unclosed : forall E fresh q, (Z.of_nat (String.length (q_data q)) <= e_max_body E)%Z -> w_header (parse_incoming E fresh q) = [].
Proof.
  intros E fresh q H. cbn [parse_incoming w_header]. unfold parse_body. destruct (Z.eqb _ 0); [reflexivity|]. destruct (Z.geb _ _); [reflexivity|].
  destruct (read_limited _ _ _) as [buf ok]. assert (L : Z.leb (zlen (q_data q)) (e_max_body E) = true) by (apply Z.leb_le; exact H). rewrite L. cbn [negb].
  destruct (Z.gtb _ _); [reflexivity|]. destruct (negb ok); reflexivity.
Qed.

Lemma own_connection : forall E w, w_header w = [] -> values "Connection" (standard_headers E w (w_header w)) = [].
Proof. intros E w H. rewrite standard_values, H. reflexivity. Qed.

Lemma connection_relayed : forall t r rs body, relayed t r rs body -> sized (t_req t) -> timely_run t -> canonical_keys (ur_header rs) ->
  ~ (400 <= ur_status rs < 500)%Z -> (Z.of_nat (String.length (q_data (t_req t))) <= e_max_body (t_env t))%Z ->
  values "Connection" (rp_header r) = values "Connection" (ur_header rs).
Proof.
  intros t r rs body R Hq Ht Hc Hs Hd. destruct (relayed_proxied t r rs body R Hq Ht) as (dice & -> & _). unfold proxied.
  destruct (client_error (ur_status rs)) eqn:C; [elim Hs; now apply client_error_range|].
  rewrite assemble_values by (exact Hc || discriminate). rewrite own_connection; [reflexivity|]. unfold parsed. now apply unclosed.
Qed.

Lemma goaway_values : forall sniff now head r, hm_goaway (h2_write sniff now head r) = true <-> exists vs, values "Connection" (rp_header r) = "close" :: vs.
Proof.
  intros sniff now head r. unfold h2_write. cbn [hm_goaway]. rewrite get_values by reflexivity. destruct (values "Connection" (rp_header r)) as [|v l].
  - split; [discriminate|]. intros [vs H]. discriminate H.
  - rewrite String.eqb_eq. split; [intros ->; now exists l|]. intros [vs H]. now injection H as -> _.
Qed.

Lemma goaway_relayed : forall sniff now head t r rs body, relayed t r rs body -> sized (t_req t) -> timely_run t -> canonical_keys (ur_header rs) ->
  ~ (400 <= ur_status rs < 500)%Z -> (Z.of_nat (String.length (q_data (t_req t))) <= e_max_body (t_env t))%Z ->
  (hm_goaway (h2_write sniff now head r) = true <-> exists vs, values "Connection" (ur_header rs) = "close" :: vs).
Proof. intros sniff now head t r rs body R Hq Ht Hc Hs Hd. rewrite goaway_values, (connection_relayed t r rs body R Hq Ht Hc Hs Hd). reflexivity. Qed.

Lemma goaway_source : forall sniff now head t r, replies t r -> sized (t_req t) -> timely_run t -> canonical_answers (t_run t) ->
  (Z.of_nat (String.length (q_data (t_req t))) <= e_max_body (t_env t))%Z -> hm_goaway (h2_write sniff now head r) = true ->
  exists rs body vs, relayed t r rs body /\ values "Connection" (ur_header rs) = "close" :: vs.
Proof.
  intros sniff now head t r H Hq Ht Hc Hd G. apply goaway_values in G. destruct G as [vs G].
  destruct (replies_kind t r H Hq Ht) as [A|[(dice & st & m & _ & ->)|(dice & rs & body & R & _ & E)]].
  - exfalso. destruct (about_of t r A) as (dice & ->). unfold about_page in G. destruct (match values "Accept-Encoding" _ with [] => _ | _ => _ end) as [ce b]. cbn [rp_header] in G.
    rewrite !values_set, standard_values in G. discriminate G.
  - exfalso. rewrite send_status_values, own_connection in G; [discriminate G|]. unfold parsed. now apply unclosed.
  - assert (C : canonical_keys (ur_header rs)) by (destruct R as (c & s & _ & _ & _ & A & _); exact (Hc _ _ A)).
    exists rs, body, vs. split; [exact R|]. destruct (client_error (ur_status rs)) eqn:Ce.
    + exfalso. rewrite E in G. unfold proxied in G. rewrite Ce, send_status_values, own_connection in G; [discriminate G|]. unfold parsed. now apply unclosed.
    + rewrite <- (connection_relayed t r rs body R Hq Ht C); [exact G| |exact Hd]. intro X. apply client_error_range in X. congruence.
Qed.

(** * Offered *)

Lemma offered : forall bad pair d p, tls_config pair d = Some p -> (forall s, In s [4866; 4865; 4867; 49200; 49199]%Z -> bad s = false) ->
  configure_http2 bad (tp_suites p) = true.
Proof.
  intros bad pair d p H B. unfold tls_config in H. destruct (pair _ _) as [[|[leaf|] chain]|]; try discriminate H. injection H as <-. cbn [tp_suites].
  unfold configure_http2. cbn [suites_in_order]. rewrite !B by (cbn [In]; auto 8). reflexivity.
Qed.
