(** Proofs for Thm_Http2Req: bodies, header lines and first lines. *)
From Coq Require Import String Ascii List Bool ZArith NArith Lia.
From Verif Require Import GoStr RegexSpec NumberSpec NumberProofs Header HeaderSpec HeaderProofs Config ConfigSpec Routing Exchange ExchangeSpec ExchangeProofs
  Jwt Machine MachineSpec Handler HandlerSpec HandlerProofs SystemSpec SystemProofs Url UrlSpec UrlProofs Http2 Http2Spec Http2Proofs Http2Req Http2ReqSpec Http2ReqProofs.
Import ListNotations.
Local Open Scope string_scope.

Definition max_uint : Z := 18446744073709551615.

Lemma digit_val_range : forall c d, digit_val c = Some d -> (0 <= d <= 9)%Z.
Proof. intros c d H. bytewise c; try discriminate H; injection H as <-; lia. Qed.

Lemma digits_grow : forall s a n, (0 <= a)%Z -> digits_val a s = Some n -> (a <= n)%Z.
Proof.
  induction s as [|c s IH]; intros a n A H; cbn [digits_val] in H; [injection H as <-; lia|].
  destruct (digit_val c) as [d|] eqn:E; [|discriminate H]. apply digit_val_range in E. apply IH in H; lia.
Qed.

Lemma uint_digits : forall s a n, (0 <= a <= max_uint)%Z -> digits_val a s = Some n -> uint_from a s = Z.min n max_uint.
Proof.
  unfold max_uint. induction s as [|c s IH]; intros a n A H; cbn [digits_val uint_from] in *; [injection H as <-; lia|].
  destruct (digit_val c) as [d|] eqn:E; [|discriminate H]. apply digit_val_range in E. cbv zeta.
  destruct (Z.ltb_spec 18446744073709551615 (a * 10 + d)) as [L|L]; [|apply IH; [lia|exact H]]. apply digits_grow in H; lia.
Qed.

Lemma uint_positive : forall s a, (0 <= a)%Z -> (0 <= uint_from a s)%Z.
Proof.
  induction s as [|c s IH]; intros a A; cbn [uint_from]; [exact A|]. destruct (digit_val c) as [d|] eqn:E; [|lia]. apply digit_val_range in E. cbv zeta.
  destruct (Z.ltb_spec 18446744073709551615 (a * 10 + d)); [lia|]. apply IH. lia.
Qed.

Lemma parse_numeral : forall v n, numeral v n -> parse_int v = Z.min n 9223372036854775807.
Proof.
  intros v n H. destruct (numeral_digits v n H) as [_ D]. destruct (numeral_start v n H) as (c & t & -> & C). unfold parse_int.
  destruct (Ascii.eqb_spec c "-") as [->|_]; [cbv in C; destruct C; congruence|]. destruct (Ascii.eqb_spec c "+") as [->|_]; [cbv in C; destruct C; congruence|].
  assert (P := digits_grow _ 0 n (Z.le_refl 0) D). rewrite (uint_digits _ 0 n); [|unfold max_uint; lia|exact D]. unfold max_uint.
  destruct (Z.leb_spec 9223372036854775808 (Z.min n 18446744073709551615)); lia.
Qed.

Lemma parse_sized : forall v, String.prefix "-" v = false -> (0 <= parse_int v)%Z.
Proof.
  intros v H. unfold parse_int. destruct v as [|c v]; [reflexivity|]. cbn [String.prefix] in H. destruct (ascii_dec "-" c) as [<-|N]; [destruct v; discriminate H|].
  destruct (Ascii.eqb_spec c "-") as [->|_]; [now elim N|]. destruct (Ascii.eqb c "+").
  - assert (P := uint_positive v 0 (Z.le_refl 0)). cbv zeta. destruct (Z.leb_spec 9223372036854775808 (uint_from 0 v)); lia.
  - assert (P := uint_positive (String c v) 0 (Z.le_refl 0)). cbv zeta. destruct (Z.leb_spec 9223372036854775808 (uint_from 0 (String c v))); lia.
Qed.

Lemma total_app : forall f l, total (f :: l) = f ++ total l.
Proof. reflexivity. Qed.

Lemma receive_ok : forall frames declared got complete,
  snd (receive declared got frames complete) = true <-> complete = true /\ (declared = (-1)%Z \/ declared = (got + Z.of_nat (String.length (total frames)))%Z).
Proof.
  induction frames as [|f frames IH]; intros declared got complete; cbn [receive].
  - cbn [snd total fold_right String.length]. rewrite andb_true_iff, orb_true_iff, !Z.eqb_eq, Z.add_0_r. tauto.
  - rewrite total_app, length_append, Nat2Z.inj_add. cbv zeta. destruct (Z.eqb_spec declared (-1)) as [->|N]; cbn [negb andb].
    + specialize (IH (-1)%Z (got + Z.of_nat (String.length f))%Z complete). destruct (receive _ _ _ _). cbn [snd] in *. rewrite IH. intuition lia.
    + destruct (Z.ltb_spec declared (got + Z.of_nat (String.length f))) as [L|L]; [cbn [snd]; split; [discriminate|lia]|].
      specialize (IH declared (got + Z.of_nat (String.length f))%Z complete). destruct (receive _ _ _ _). cbn [snd] in *. rewrite IH. intuition lia.
Qed.

Lemma receive_data : forall frames declared got complete, snd (receive declared got frames complete) = true -> fst (receive declared got frames complete) = total frames.
Proof.
  induction frames as [|f frames IH]; intros declared got complete H; cbn [receive] in *; [reflexivity|]. cbv zeta in *.
  destruct (negb _ && _); [discriminate H|]. specialize (IH declared (got + Z.of_nat (String.length f))%Z complete). destruct (receive _ _ _ _). cbn [fst snd] in *.
  rewrite total_app. now rewrite IH.
Qed.

(** The body of a request, and the length it declares *)
Lemma served_body : forall s i, h2_read s = H2Served i -> let q := i_req i in
  (hs_ended s = true -> q_length q = 0%Z /\ q_data q = "" /\ q_data_ok q = true) /\
  (hs_ended s = false -> q_data_ok q = true -> hs_complete s = true /\ q_data q = total (hs_frames s)) /\
  (hs_ended s = false -> hs_complete s = true -> field_values "content-length" (hs_fields s) = [] -> q_length q = (-1)%Z /\ q_data_ok q = true) /\
  (hs_ended s = false -> hs_complete s = true -> forall v vs n, field_values "content-length" (hs_fields s) = v :: vs -> numeral v n ->
     q_length q = Z.min n 9223372036854775807 /\
     (q_data_ok q = true <-> Z.of_nat (String.length (total (hs_frames s))) = Z.min n 9223372036854775807)) /\
  ((forall v vs, field_values "content-length" (hs_fields s) = v :: vs -> String.prefix "-" v = false) -> sized q).
Proof.
  intros s i H. destruct (served_inv s i H) as (V & _ & _ & _ & _ & g & raw & _ & E). cbv zeta in E.
  destruct (split_fields (hs_fields s)) as [ps rs] eqn:SP. destruct (parts_regular _ ps rs V SP) as [R F]. cbn [snd] in E.
  assert (L : values "Content-Length" (h2_header rs) = field_values "content-length" (hs_fields s)).
  { rewrite (F "content-length" eq_refl). apply (plain_values rs "content-length" R); [reflexivity|cbn; intuition discriminate]. }
  rewrite L in E. rewrite E. cbv zeta. clear E. cbn [i_req q_length q_data q_data_ok]. unfold sized. cbn [q_length].
  destruct (hs_ended s).
  - repeat split; try discriminate; intros; try discriminate; cbn; lia.
  - split; [discriminate|]. split; [|split; [|split]].
    + intros _ O. split; [now apply receive_ok in O|now apply receive_data].
    + intros _ C N. rewrite N. split; [reflexivity|]. apply receive_ok. split; [exact C|now left].
    + intros _ C v vs n N U. rewrite N, (parse_numeral v n U). split; [reflexivity|]. rewrite receive_ok.
      destruct (numeral_digits v n U) as [_ D]. apply digits_grow in D; [|lia]. rewrite C. intuition lia.
    + intros P. destruct (field_values "content-length" (hs_fields s)) as [|v vs]; [lia|]. assert (Q := parse_sized v (P v vs eq_refl)). lia.
Qed.

(** * What upstreams get *)

Lemma hop_free : forall s t x, h2_read s = H2Served (t_in t) -> asks t x -> sized (t_req t) ->
  (forall k, In k ["Connection"; "Keep-Alive"; "Proxy-Connection"; "Transfer-Encoding"; "Upgrade"; "Trailer"] -> values k (uq_header x) = []) /\
  In (values "Te" (uq_header x)) [[]; ["trailers"]; [""]].
Proof.
  intros s t x H A Z0. destruct (served_header s _ H) as (C & P & _ & _ & _ & T).
  assert (U : unconnected (hs_fields s)) by (apply served_iff; now exists (t_in t)). destruct U as [U1 U2].
  assert (G : forall k, k <> "X-Request-Id" -> ~ In k never_copied -> values k (uq_header x) = values k (q_header (t_req t))).
  { intros k N1 N2. rewrite (asks_header t x _ k A Z0 C (choice_id t)). apply String.eqb_neq in N1. rewrite N1.
    destruct (existsb (String.eqb k) never_copied) eqn:E; [|reflexivity]. apply mem_str_In in E. contradiction. }
  assert (W : forall k, In k connection_specific -> values (canon k) (q_header (t_req t)) = []).
  { intros k I. unfold t_req. rewrite P; [exact (U1 k I)|apply wire_name_iff|]; repeat (destruct I as [<-|I]; [first [reflexivity|cbn; intuition discriminate]|]); destruct I. }
  split.
  - intros k I. destruct (in_dec string_dec k never_copied) as [D|D].
    + rewrite (asks_header t x _ k A Z0 C (choice_id t)). destruct (String.eqb_spec k "X-Request-Id") as [->|_]; [exfalso; cbn in I; intuition discriminate|].
      apply mem_str_In in D. unfold mem_str in D. now rewrite D.
    + rewrite G; [|intros ->; cbn in I; intuition discriminate|exact D].
      destruct I as [<-|[<-|[<-|[<-|[<-|[<-|[]]]]]]];
        [exact (W "connection" ltac:(cbn; tauto))|exact (W "keep-alive" ltac:(cbn; tauto))|exact (W "proxy-connection" ltac:(cbn; tauto))|exact (W "transfer-encoding" ltac:(cbn; tauto))|exact (W "upgrade" ltac:(cbn; tauto))|exact T].
  - rewrite G; [|discriminate|cbn; intuition discriminate]. unfold t_req. change "Te" with (canon "te"). rewrite P; [exact U2|apply wire_name_iff; reflexivity|cbn; intuition discriminate].
Qed.

Lemma body_sent : forall s t x, h2_read s = H2Served (t_in t) -> asks t x -> hs_ended s = false -> hs_complete s = true ->
  (field_values "content-length" (hs_fields s) = [] \/ exists v vs, field_values "content-length" (hs_fields s) = v :: vs /\ numeral v (Z.of_nat (String.length (total (hs_frames s))))) ->
  (Z.of_nat (String.length (total (hs_frames s))) < e_max_body (t_env t))%Z -> (e_max_body (t_env t) <= 9223372036854775807)%Z ->
  uq_body x = total (hs_frames s).
Proof.
  intros s t x H A O K D M X. destruct (served_body s _ H) as (_ & B & N & L & _). fold (t_req t) in *. destruct D as [D|(v & vs & D & U)].
  - destruct (N O K D) as [N1 N2]. destruct (B O N2) as [_ E]. rewrite (asks_whole_body t x A); [exact E|unfold sized; lia|right; now split|lia|rewrite E; exact M].
  - destruct (L O K v vs _ D U) as [L1 L2]. assert (OK : q_data_ok (t_req t) = true) by (apply L2; lia). destruct (B O OK) as [_ E].
    rewrite (asks_whole_body t x A); [exact E|unfold sized; lia|left|lia|rewrite E; exact M]. split; [lia|]. split; [rewrite E; lia|exact OK].
Qed.

Lemma body_none : forall s t x, h2_read s = H2Served (t_in t) -> asks t x -> hs_ended s = true -> uq_body x = "".
Proof.
  intros s t x H A O. destruct (served_body s _ H) as (B & _). destruct (B O) as (L & D & _). fold (t_req t) in *.
  destruct (asks_body t x A) as [E|E]; [unfold sized; lia|now rewrite E|exact E].
Qed.

(** * First lines *)

Definition inner (c : ascii) : bool := negb (Ascii.eqb c " ") && negb (N.ltb (N_of_ascii c) 32 || N.eqb (N_of_ascii c) 127).

Lemma path_inner : forall c, path_char c -> inner c = true.
Proof.
  intros c [H|H].
  - unfold alphanumeric in H. cbv zeta in H. bytewise c; try reflexivity; exfalso; cbv in H; intuition congruence.
  - bytewise c; try reflexivity; discriminate H.
Qed.
Lemma kept_inner : forall c, kept c -> inner c = true.
Proof.
  intros c [H|H].
  - apply path_inner. now left.
  - bytewise c; try reflexivity; discriminate H.
Qed.
Lemma hex_inner : forall n c, hex_digit n c -> inner c = true.
Proof.
  intros n c H. unfold hex_digit in H. assert (B : (48 <= N_of_ascii c <= 57 \/ 65 <= N_of_ascii c <= 70)%N) by lia. clear H.
  bytewise c; try reflexivity; exfalso; cbv in B; intuition congruence.
Qed.

Lemma inner_all : forall s, (forall c, has_char c s = true -> inner c = true) -> has_char " " s = false /\ has_ctl s = false.
Proof.
  intros s H. induction s as [|d s IH]; [now split|]. cbn [has_char has_ctl].
  destruct IH as [A B]; [intros c I; apply H; cbn [has_char]; rewrite I; apply orb_true_r|]. rewrite A, B.
  assert (D : inner d = true) by (apply H; cbn [has_char]; now rewrite Ascii.eqb_refl). unfold inner in D. rewrite andb_true_iff, !negb_true_iff in D. destruct D as [D1 D2].
  rewrite D2. rewrite Ascii.eqb_sym, D1. now split.
Qed.

Lemma encoded_inner : forall p p', encoded p p' -> forall c, has_char c p' = true -> inner c = true.
Proof.
  intros p p' H. induction H as [|d s t K _ IH|d a b s t K A B _ IH]; intros c I; [discriminate I| |]; cbn [has_char] in I.
  - apply orb_true_iff in I. destruct I as [I|I]; [apply Ascii.eqb_eq in I; subst c; now apply kept_inner|now apply IH].
  - rewrite !orb_true_iff, !Ascii.eqb_eq in I. destruct I as [->|[->|[->|I]]]; [reflexivity|exact (hex_inner _ _ A)|exact (hex_inner _ _ B)|now apply IH].
Qed.

Lemma sent_inner : forall p p', sent_path p p' -> has_char " " p' = false /\ has_ctl p' = false.
Proof.
  intros p p' [[W ->]|[_ (path & _ & E)]]; apply inner_all; [intros c I; apply path_inner; exact (W c I)|exact (encoded_inner _ _ E)].
Qed.

Lemma ctl_app : forall a b, has_ctl (a ++ b) = has_ctl a || has_ctl b.
Proof. induction a as [|c a IH]; intros b; [reflexivity|]. cbn [append has_ctl]. now rewrite IH, !orb_assoc. Qed.

Lemma arrived_ctl : forall i p query frag, arrives i -> origin (q_raw_uri (i_req i)) p query frag -> has_ctl query = false.
Proof.
  intros i p query frag (g & R & _) (E & P & _). unfold read_target in R. rewrite E in R.
  assert (X : String.prefix "/" (p ++ query ++ frag) = true).
  { destruct p as [|c p]; [discriminate P|]. cbn [String.prefix append] in *. destruct (ascii_dec "/" c); [destruct (p ++ query ++ frag); reflexivity|discriminate P]. }
  rewrite X, andb_false_r in R. unfold parse_go in R. destruct (has_ctl (p ++ query ++ frag)) eqn:C; [discriminate R|]. rewrite !ctl_app, !orb_false_iff in C. tauto.
Qed.

Lemma line_sent : forall so srt cfg0 t x p query frag, in_use so srt cfg0 (t_cfg t) -> asks t x -> sized (t_req t) -> by_net_http t -> plain_servers cfg0 ->
  untransformed cfg0 (q_raw_uri (t_req t)) -> origin (q_raw_uri (t_req t)) p query frag ->
  exists p', sent_path p p' /\ has_char " " p' = false /\ has_char " " (uq_method x) = false /\ wire_line x = Some (uq_method x ++ " " ++ (p' ++ query) ++ " HTTP/1.1").
Proof.
  intros so srt cfg0 t x p query frag U A Z0 N PS UT O. destruct (target_sent so srt cfg0 t x p query frag U A Z0 N PS UT O) as (p' & S0 & T).
  destruct (sent_inner p p' S0) as [P1 P2]. exists p'. split; [exact S0|]. split; [exact P1|]. split.
  - destruct (asks_method t x A Z0) as [_ K]. repeat (destruct K as [<-|K]; [reflexivity|]). destruct K.
  - unfold wire_line. rewrite T, ctl_app, P2, (arrived_ctl (t_in t) p query frag (proj1 N) O). reflexivity.
Qed.

Lemma app_cancel : forall a b c : string, a ++ b = a ++ c -> b = c.
Proof. induction a as [|d a IH]; intros b c H; [exact H|]. injection H as H. now apply IH. Qed.

Lemma app_cancel_r : forall a b c : string, a ++ c = b ++ c -> a = b.
Proof.
  induction a as [|d a IH]; intros [|e b] c H; [reflexivity| | |].
  - assert (L := f_equal String.length H). cbn [append String.length] in L. rewrite length_append in L. lia.
  - assert (L := f_equal String.length H). cbn [append String.length] in L. rewrite length_append in L. lia.
  - injection H as <- H. f_equal. exact (IH _ _ H).
Qed.

(** One well-formed line, exactly if there is no space in the query *)
Lemma line_exact : forall so srt cfg0 t x p query frag, in_use so srt cfg0 (t_cfg t) -> asks t x -> sized (t_req t) -> by_net_http t -> plain_servers cfg0 ->
  untransformed cfg0 (q_raw_uri (t_req t)) -> origin (q_raw_uri (t_req t)) p query frag ->
  exists line p', wire_line x = Some line /\ sent_path p p' /\
    (request_line line (uq_method x) (p' ++ query) <-> has_char " " query = false).
Proof.
  intros so srt cfg0 t x p query frag U A Z0 N PS UT O. destruct (line_sent so srt cfg0 t x p query frag U A Z0 N PS UT O) as (p' & S0 & P & M & E).
  eexists. exists p'. split; [exact E|]. split; [exact S0|]. unfold request_line. rewrite has_app, P. cbn [orb]. tauto.
Qed.

Lemma line_clean : forall so srt cfg0 t x p query frag, in_use so srt cfg0 (t_cfg t) -> asks t x -> sized (t_req t) -> by_net_http t -> plain_servers cfg0 ->
  untransformed cfg0 (q_raw_uri (t_req t)) -> origin (q_raw_uri (t_req t)) p query frag -> has_char " " (q_raw_uri (t_req t)) = false ->
  exists line w, wire_line x = Some line /\ wire_target (uq_uri x) = Some w /\ request_line line (to_upper (q_method (t_req t))) w.
Proof.
  intros so srt cfg0 t x p query frag U A Z0 N PS UT O C. destruct (line_sent so srt cfg0 t x p query frag U A Z0 N PS UT O) as (p' & S0 & P & M & E).
  assert (Q : has_char " " query = false) by (destruct O as (Er & _); rewrite Er in C; rewrite !has_app, !orb_false_iff in C; tauto).
  exists (uq_method x ++ " " ++ (p' ++ query) ++ " HTTP/1.1"), (p' ++ query). split; [exact E|].
  split. { unfold wire_line in E. destruct (wire_target (uq_uri x)) as [w|]; [|discriminate E]. destruct (has_ctl w); [discriminate E|]. injection E as E.
           apply app_cancel in E. injection E as E. apply app_cancel_r in E. now rewrite E. }
  rewrite <- (proj1 (asks_method t x A Z0)). unfold request_line. split; [reflexivity|]. split; [exact M|]. now rewrite has_app, P, Q.
Qed.

(** The rest of a query with a space is read as the version. *)
Lemma line_split : forall so srt cfg0 t x p a b frag, in_use so srt cfg0 (t_cfg t) -> asks t x -> sized (t_req t) -> by_net_http t -> plain_servers cfg0 ->
  untransformed cfg0 (q_raw_uri (t_req t)) -> origin (q_raw_uri (t_req t)) p ("?" ++ a ++ " " ++ b) frag -> has_char " " a = false ->
  exists line p', wire_line x = Some line /\ sent_path p p' /\ reads line (uq_method x) (p' ++ "?" ++ a) (b ++ " HTTP/1.1").
Proof.
  intros so srt cfg0 t x p a b frag U A Z0 N PS UT O C. destruct (line_sent so srt cfg0 t x p _ frag U A Z0 N PS UT O) as (p' & S0 & P & M & E).
  eexists. exists p'. split; [exact E|]. split; [exact S0|]. unfold reads. split; [now rewrite !append_assoc|]. split; [exact M|]. rewrite !has_app, P, C. reflexivity.
Qed.

(** * CONNECT *)

Lemma about_not_empty : forall so srt cfg0 cfg, in_use so srt cfg0 cfg -> forall p, In p (about_paths (c_routes cfg)) -> p <> "".
Proof.
  intros so srt cfg0 cfg U p I E. subst p. apply (Permutation.Permutation_in _ (about_paths_perm _ _ _ _ U)) in I. unfold configured_about_paths in I.
  apply in_map_iff in I. destruct I as (r & E & _). unfold slashed in E. destruct (r_path r) as [|c s]; [discriminate E|]. destruct (Ascii.eqb c "/"); discriminate E.
Qed.

Lemma connect_found : forall so srt cfg0 s t, in_use so srt cfg0 (t_cfg t) -> h2_read s = H2Served (t_in t) -> q_method (t_req t) = "CONNECT" ->
  (t_serve t = ByLibrary TNotFound \/ t_serve t = ByLibrary TBad) /\ forall x, ~ asks t x.
Proof.
  intros so srt cfg0 s t U H M. destruct (served_arrives s _ H) as [_ C]. destruct (C M) as [_ P].
  assert (X : t_serve t = ByLibrary TNotFound \/ t_serve t = ByLibrary TBad).
  { unfold t_serve, serve, mux_serve. fold (t_req t). rewrite M, P. change (String.eqb "CONNECT" "CONNECT") with true. cbn iota.
    destruct (String.eqb (q_raw_uri (t_req t)) "*"); [now right|]. left.
    unfold should_redirect. change (String.eqb "" "") with true. cbn [negb]. rewrite andb_false_r. cbn [andb].
    assert (A := about_not_empty _ _ _ _ U). unfold mux_match.
    destruct (mem_str "" (about_paths (c_routes (t_cfg t)))) eqn:E; [apply mem_str_In in E; now elim (A "" E)|].
    destruct (existsb _ _) eqn:F; [|reflexivity]. apply existsb_exists in F. destruct F as (p & I & F). apply andb_true_iff in F. destruct F as [_ F].
    destruct p as [|c p]; [now elim (A "" I)|discriminate F]. }
  split; [exact X|]. intros x (xs & (c & s0 & [R _] & _) & _). destruct X as [X|X]; rewrite X in R; discriminate R.
Qed.
