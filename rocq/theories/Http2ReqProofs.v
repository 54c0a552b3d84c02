From Coq Require Import String Ascii List Bool ZArith NArith Lia.
From Verif Require Import GoStr RegexSpec NumberSpec NumberProofs TextSpec TextProofs Header HeaderSpec HeaderProofs Config ConfigSpec Routing Exchange ExchangeSpec ExchangeProofs
  Jwt Machine MachineSpec Handler HandlerSpec HandlerProofs SystemSpec SystemProofs Url UrlSpec UrlProofs Http2 Http2Spec Http2Proofs Http2Req Http2ReqSpec.
Import ListNotations.
Local Open Scope string_scope.

(** * Fields *)

Lemma name_byte_back : forall c, name_byte c -> token_char c && negb (N_in 65 90 (N_of_ascii c)) = true.
Proof.
  intros c H. destruct H as [H|[H|H]].
  - bytewise c; try reflexivity; exfalso; cbv in H; destruct H; congruence.
  - bytewise c; try reflexivity; exfalso; cbv in H; destruct H; congruence.
  - repeat (destruct H as [<-|H]; [reflexivity|]). destruct H.
Qed.

Lemma wire_name_iff : forall k, wire_name k = true <-> field_name k.
Proof.
  intros k. split; [apply wire_name_ok|]. intros [E N]. unfold wire_name. apply andb_true_iff. split; [apply negb_true_iff, String.eqb_neq; exact E|].
  clear E. induction k as [|c k IH]; [reflexivity|]. destruct N as [A B]. cbn [all_chars]. rewrite (name_byte_back c A). exact (IH B).
Qed.

Lemma lower_canon_back : forall s u, all_chars (fun c => token_char c && negb (N_in 65 90 (N_of_ascii c))) s = true -> lower_text (canon_from u s) = s.
Proof.
  induction s as [|c s IH]; intros u H; [reflexivity|]. cbn [all_chars] in H. apply andb_true_iff in H. destruct H as [A B]. cbn [canon_from lower_text].
  rewrite (IH _ B). f_equal. clear IH B. destruct u; bytewise c; solve [reflexivity|discriminate A].
Qed.

Lemma wire_tokens : forall k, wire_name k = true -> all_chars token_char k = true /\ lower_text (canon k) = k.
Proof.
  intros k H. unfold wire_name in H. apply andb_true_iff in H. destruct H as [_ H].
  assert (T : all_chars token_char k = true).
  { clear -H. induction k as [|c k IH]; [reflexivity|]. cbn [all_chars] in *. apply andb_true_iff in H. destruct H as [A B]. apply andb_true_iff in A. now rewrite (proj1 A), (IH B). }
  split; [exact T|]. unfold canon. rewrite T. now apply lower_canon_back.
Qed.

Lemma canon_inj : forall k k', wire_name k = true -> wire_name k' = true -> canon k = canon k' -> k = k'.
Proof. intros k k' H H' E. rewrite <- (proj2 (wire_tokens k H)), <- (proj2 (wire_tokens k' H')). now rewrite E. Qed.

Definition canoned (rs : list (string * string)) : header := map (fun p => (canon (fst p), snd p)) rs.
Definition regular (rs : list (string * string)) : Prop := forall k v, In (k, v) rs -> wire_name k = true.

Lemma canoned_values : forall k rs, wire_name k = true -> regular rs -> values (canon k) (canoned rs) = field_values k rs.
Proof.
  intros k rs Hk. unfold values, field_values, canoned. induction rs as [|[a v] rs IH]; intros H; [reflexivity|].
  assert (Ha : wire_name a = true) by (apply (H a v); now left). assert (IH' := IH (fun x y I => H x y (or_intror I))). cbn [map filter fst snd].
  destruct (String.eqb_spec a k) as [->|N].
  - rewrite String.eqb_refl. cbn [map snd]. now rewrite IH'.
  - destruct (String.eqb_spec (canon a) (canon k)) as [E|_]; [now elim N; apply canon_inj|exact IH'].
Qed.

Lemma prefix_colon : forall k, wire_name k = true -> String.prefix ":" k = false.
Proof.
  intros [|c k] H; [discriminate H|]. cbn [String.prefix]. destruct (ascii_dec ":" c) as [<-|_]; [discriminate H|reflexivity].
Qed.

Lemma split_parts : forall l a b, split_fields l = (a, b) -> l = (a ++ b)%list /\ (forall p, In p a -> String.prefix ":" (fst p) = true).
Proof.
  induction l as [|p l IH]; intros a b E; cbn [split_fields] in E.
  - injection E as <- <-. split; [reflexivity|intros q []].
  - destruct (String.prefix ":" (fst p)) eqn:C.
    + destruct (split_fields l) as [a' b'] eqn:F. injection E as <- <-. destruct (IH a' b' eq_refl) as [-> A]. split; [reflexivity|].
      intros q [<-|I]; [exact C|now apply A].
    + injection E as <- <-. split; [reflexivity|intros q []].
Qed.

Lemma split_app : forall ps rs, (forall p, In p ps -> String.prefix ":" (fst p) = true) -> (forall p, In p rs -> String.prefix ":" (fst p) = false) ->
  split_fields (ps ++ rs)%list = (ps, rs).
Proof.
  induction ps as [|p ps IH]; intros rs A B; cbn [app split_fields].
  - destruct rs as [|q rs]; [reflexivity|]. cbn [split_fields]. now rewrite (B q (or_introl eq_refl)).
  - rewrite (A p (or_introl eq_refl)), IH; [reflexivity|intros q I; apply A; now right|exact B].
Qed.

Lemma pseudo_colon : forall k, In k pseudo_names -> String.prefix ":" k = true /\ existsb (String.eqb k) [":method"; ":path"; ":scheme"; ":authority"] = true.
Proof. intros k [<-|[<-|[<-|[<-|[]]]]]; split; reflexivity. Qed.

(** What net/http checks of fields, and what it makes of them *)
Lemma fields_valid_iff : forall l, valid_fields l = true <-> formed l.
Proof.
  intros l. unfold valid_fields. destruct (split_fields l) as [ps rs] eqn:E. rewrite !andb_true_iff, !forallb_forall, distinct_NoDup. split.
  - intros [[[V N] P] D]. destruct (split_parts l ps rs E) as [-> A]. exists ps, rs. split; [reflexivity|]. split; [exact D|]. split.
    + intros k v I. split; [|apply wire_value_ok; apply (V (k, v)), in_or_app; now left]. specialize (P _ I). cbn [fst] in P. apply existsb_exists in P.
      destruct P as (x & X & Y). apply String.eqb_eq in Y. subst x. cbn [In pseudo_names] in *. tauto.
    + intros k v I. split; [apply wire_name_iff; exact (N _ I)|apply wire_value_ok; apply (V (k, v)), in_or_app; now right].
  - intros (ps' & rs' & -> & D & P & N).
    rewrite split_app in E; [|intros [k v] I; exact (proj1 (pseudo_colon k (proj1 (P k v I))))|intros [k v] I; apply prefix_colon, wire_name_iff; exact (proj1 (N k v I))].
    injection E as -> ->. split; [split; [split|]|exact D].
    + intros [k v] I. apply wire_value_ok. apply in_app_or in I. destruct I as [I|I]; [exact (proj2 (P k v I))|exact (proj2 (N k v I))].
    + intros [k v] I. apply wire_name_iff. exact (proj1 (N k v I)).
    + intros [k v] I. exact (proj2 (pseudo_colon k (proj1 (P k v I)))).
Qed.

Lemma formed_parts : forall l, valid_fields l = true -> exists ps rs, split_fields l = (ps, rs) /\ l = (ps ++ rs)%list /\ NoDup (map fst ps) /\ regular rs /\
  (forall p, In p ps -> String.prefix ":" (fst p) = true).
Proof.
  intros l H. unfold valid_fields in H. destruct (split_fields l) as [ps rs] eqn:E. exists ps, rs. destruct (split_parts l ps rs E) as [A B].
  rewrite !andb_true_iff, !forallb_forall, distinct_NoDup in H. destruct H as [[[_ N] _] D]. repeat split; try assumption. intros k v I. exact (N _ I).
Qed.

Lemma fields_app : forall k a b, field_values k (a ++ b)%list = (field_values k a ++ field_values k b)%list.
Proof. intros k a b. unfold field_values. now rewrite filter_app, map_app. Qed.

Lemma fields_none : forall k fs, (forall p, In p fs -> fst p <> k) -> field_values k fs = [].
Proof.
  intros k fs H. unfold field_values. induction fs as [|p fs IH]; [reflexivity|]. cbn [filter].
  destruct (String.eqb_spec (fst p) k) as [E|_]; [elim (H p (or_introl eq_refl) E)|]. apply IH. intros q I. apply H. now right.
Qed.

Lemma regular_values : forall l ps rs k, l = (ps ++ rs)%list -> (forall p, In p ps -> String.prefix ":" (fst p) = true) -> wire_name k = true -> field_values k l = field_values k rs.
Proof.
  intros l ps rs k -> A H. rewrite fields_app, (fields_none k ps); [reflexivity|]. intros p I E. specialize (A p I). rewrite E, (prefix_colon k H) in A. discriminate A.
Qed.

Lemma pseudo_field : forall l k, valid_fields l = true -> String.prefix ":" k = true ->
  field_values k l = [] /\ pseudo_value k l = "" \/ field_values k l = [pseudo_value k l].
Proof.
  intros l k H C. destruct (formed_parts l H) as (ps & rs & E & -> & D & R & _). unfold pseudo_value. rewrite E. cbn [fst].
  rewrite fields_app, (fields_none k rs), app_nil_r.
  2:{ intros [a v] I F. cbn [fst] in F. subst a. rewrite (prefix_colon k (R k v I)) in C. discriminate C. }
  clear -D. unfold field_values. induction ps as [|[a v] ps IH]; [now left|]. cbn [filter fst List.find]. cbn [map fst] in D. inversion_clear D.
  destruct (String.eqb_spec a k) as [->|N]; [|now apply IH]. right. cbn [map snd]. f_equal. fold (field_values k ps). apply fields_none.
  intros p I F. apply H. rewrite <- F. now apply in_map.
Qed.

(** * Header *)

Lemma without_values : forall k k' h, values k (without_key k' h) = if String.eqb k k' then [] else values k h.
Proof.
  intros k k' h. unfold values, without_key. induction h as [|p h IH]; cbn [filter]; [now destruct (String.eqb k k')|].
  destruct (String.eqb_spec (fst p) k') as [E|N]; cbn [negb filter].
  - rewrite IH. destruct (String.eqb_spec k k') as [_|M]; [reflexivity|]. destruct (String.eqb_spec (fst p) k) as [F|_]; [elim M; congruence|reflexivity].
  - destruct (String.eqb_spec (fst p) k) as [F|M]; cbn [map]; rewrite IH; [|reflexivity]. destruct (String.eqb_spec k k') as [G|_]; [elim N; congruence|reflexivity].
Qed.

Lemma header_values : forall rs k, values k (h2_header rs) =
  if String.eqb k "Trailer" then []
  else if String.eqb k "Cookie" then match values k (canoned rs) with [] => [] | l => [join "; " l] end
  else if String.eqb k "Expect" then match values k (canoned rs) with v :: l => if String.eqb v "100-continue" then [] else v :: l | [] => [] end
  else values k (canoned rs).
Proof.
  intros rs k. unfold h2_header. fold (canoned rs). set (h := canoned rs). rewrite without_values. destruct (String.eqb k "Trailer"); [reflexivity|].
  set (h1 := if String.eqb (get "Expect" h) "100-continue" then without_key "Expect" h else h).
  assert (H1 : forall k', values k' h1 = if String.eqb k' "Expect" then match values k' h with v :: l => if String.eqb v "100-continue" then [] else v :: l | [] => [] end else values k' h).
  { intros k'. unfold h1, get. change (canon "Expect") with "Expect". destruct (String.eqb_spec k' "Expect") as [->|N].
    - destruct (values "Expect" h) as [|v l] eqn:E; [change (String.eqb "" "100-continue") with false; exact E|]. destruct (String.eqb v "100-continue"); [rewrite without_values; reflexivity|exact E].
    - destruct (String.eqb (match values "Expect" h with v :: _ => v | [] => "" end) "100-continue"); [|reflexivity]. rewrite without_values. apply String.eqb_neq in N. now rewrite N. }
  assert (C : values "Cookie" h1 = values "Cookie" h) by (now rewrite H1).
  rewrite C. destruct (String.eqb_spec k "Cookie") as [->|N].
  - destruct (values "Cookie" h) as [|a [|b l]] eqn:E; [rewrite C; reflexivity|rewrite C; reflexivity|]. rewrite values_set. reflexivity.
  - destruct (values "Cookie" h) as [|a [|b l]]; [now rewrite H1|now rewrite H1|]. rewrite values_set. change (canon "Cookie") with "Cookie".
    destruct (String.eqb_spec "Cookie" k) as [<-|_]; [now elim N|]. now rewrite H1.
Qed.

Lemma header_canonical : forall rs, canonical_keys (h2_header rs).
Proof.
  intros rs k v H. unfold h2_header in H. apply without_in in H. destruct H as [H _].
  assert (A : forall k v, In (k, v) (canoned rs) -> canon k = k).
  { intros a b I. apply in_map_iff in I. destruct I as (p & E & _). injection E as <- _. apply canon_idem. }
  fold (canoned rs) in H. set (h1 := if String.eqb (get "Expect" (canoned rs)) "100-continue" then without_key "Expect" (canoned rs) else canoned rs) in H.
  assert (B : forall k v, In (k, v) h1 -> canon k = k).
  { intros a b I. unfold h1 in I. destruct (String.eqb _ _); [apply without_in in I; exact (A a b (proj1 I))|exact (A a b I)]. }
  destruct (values "Cookie" h1) as [|a [|b l]]; [exact (B k v H)|exact (B k v H)|]. unfold set in H. apply in_app_or in H. destruct H as [H|[H|[]]].
  - apply filter_In in H. exact (B k v (proj1 H)).
  - injection H as <- _. reflexivity.
Qed.

Lemma plain_values : forall rs k, regular rs -> wire_name k = true -> ~ In k dropped_names -> values (canon k) (h2_header rs) = field_values k rs.
Proof.
  intros rs k R W D. rewrite header_values.
  assert (N : forall k', In k' dropped_names -> String.eqb (canon k) (canon k') = false).
  { intros k' I. apply String.eqb_neq. intros E. apply D. replace k with k'; [exact I|]. symmetry. apply canon_inj; [exact W| |exact E].
    destruct I as [<-|[<-|[<-|[]]]]; reflexivity. }
  assert (T := N "trailer" ltac:(cbn; tauto)). assert (C := N "cookie" ltac:(cbn; tauto)). assert (X := N "expect" ltac:(cbn; tauto)).
  change (canon "trailer") with "Trailer" in T. change (canon "cookie") with "Cookie" in C. change (canon "expect") with "Expect" in X.
  rewrite T, C, X. now apply canoned_values.
Qed.

Lemma acceptable_iff : forall rs, regular rs -> (h2_acceptable (h2_header rs) = true <-> (forall k, In k connection_specific -> field_values k rs = []) /\ In (field_values "te" rs) [[]; ["trailers"]; [""]]).
Proof.
  intros rs R. unfold h2_acceptable. rewrite andb_true_iff.
  assert (T : values "Te" (h2_header rs) = field_values "te" rs) by (apply (plain_values rs "te" R); [reflexivity|cbn; intuition discriminate]). rewrite T.
  assert (P : forall k, In k connection_specific -> values (canon k) (h2_header rs) = field_values k rs).
  { intros k I. apply plain_values; [exact R| |]; repeat (destruct I as [<-|I]; [first [reflexivity|cbn; intuition discriminate]|]); destruct I. }
  assert (Q : forall A B C D : Prop, (A <-> C) -> (B <-> D) -> (A /\ B <-> C /\ D)) by tauto. apply Q; clear Q.
  - rewrite forallb_forall. split.
    + intros H k I. rewrite <- (P k I). specialize (H (canon k)). destruct (values (canon k) (h2_header rs)); [reflexivity|].
      assert (E : false = true); [apply H|discriminate E]. repeat (destruct I as [<-|I]; [cbn; tauto|]). destruct I.
    + intros H k I. assert (X : exists k', In k' connection_specific /\ k = canon k').
      { destruct I as [<-|[<-|[<-|[<-|[<-|[]]]]]]; [exists "connection"|exists "keep-alive"|exists "proxy-connection"|exists "transfer-encoding"|exists "upgrade"]; (split; [cbn; tauto|reflexivity]). }
      destruct X as (k' & I' & ->). now rewrite (P k' I'), (H k' I').
  - destruct (field_values "te" rs) as [|v [|w l]]; cbn [In]; [intuition congruence| |intuition discriminate].
    rewrite orb_true_iff, !String.eqb_eq. split; [intros [->| ->]; tauto|]. intros [E|[E|[E|[]]]]; [discriminate E|injection E as <-; tauto|injection E as <-; tauto].
Qed.

(** * Requests *)

Lemma served_inv : forall s i, h2_read s = H2Served i -> valid_fields (hs_fields s) = true /\
  let l := hs_fields s in let m := pseudo_value ":method" l in let h := h2_header (snd (split_fields l)) in
  (m = "CONNECT" -> pseudo_value ":path" l = "" /\ pseudo_value ":scheme" l = "" /\ pseudo_value ":authority" l <> "") /\
  (m <> "CONNECT" -> m <> "" /\ pseudo_value ":path" l <> "" /\ (pseudo_value ":scheme" l = "http" \/ pseudo_value ":scheme" l = "https")) /\
  (m = "HEAD" -> hs_ended s = true) /\ h2_acceptable h = true /\
  exists g raw, h2_target m (pseudo_value ":path" l) (pseudo_value ":authority" l) = Some (g, raw) /\
    let len := if hs_ended s then 0%Z else match values "Content-Length" h with [] => (-1)%Z | v :: _ => parse_int v end in
    let r := if hs_ended s then ("", true) else receive len 0 (hs_frames s) (hs_complete s) in
    i = Incoming (Req m raw (request_uri g) h len (fst r) (snd r)) (g_path g).
Proof.
  intros s i H. unfold h2_read in H. destruct (valid_fields (hs_fields s)) eqn:V; cbn [negb] in H; [|discriminate H]. split; [reflexivity|].
  cbv zeta. set (l := hs_fields s) in *. set (m := pseudo_value ":method" l) in *. set (p := pseudo_value ":path" l) in *. set (c := pseudo_value ":scheme" l) in *.
  set (a := pseudo_value ":authority" l) in *. set (h := h2_header (snd (split_fields l))) in *.
  destruct (if String.eqb m "CONNECT" then _ else _) eqn:E; [discriminate H|].
  split; [|split]; [intros Em; rewrite Em in E; change (String.eqb "CONNECT" "CONNECT") with true in E; cbn iota in E; rewrite !orb_false_iff, !negb_false_iff, !String.eqb_eq, String.eqb_neq in E; tauto| |].
  { intros N. apply String.eqb_neq in N. rewrite N in E. rewrite !orb_false_iff, andb_false_iff, !negb_false_iff, !String.eqb_eq, !String.eqb_neq in E. tauto. }
  destruct (String.eqb m "HEAD" && negb (hs_ended s)) eqn:F; [discriminate H|].
  split. { intros Em. rewrite Em in F. change (String.eqb "HEAD" "HEAD") with true in F. now destruct (hs_ended s). }
  destruct (h2_target m p a) as [[g raw]|]; [|discriminate H]. destruct (h2_acceptable h); cbn [negb] in H; [|discriminate H]. split; [reflexivity|].
  exists g, raw. split; [reflexivity|]. destruct (hs_ended s); [injection H as <-; reflexivity|].
  destruct (receive _ _ _ _) as [d ok] eqn:R in H. injection H as <-. now rewrite R.
Qed.

Lemma one_value : forall l k, valid_fields l = true -> String.prefix ":" k = true -> pseudo_value k l <> "" -> field_values k l = [pseudo_value k l].
Proof. intros l k V C N. destruct (pseudo_field l k V C) as [[_ E]|E]; [now elim N|exact E]. Qed.

Lemma no_value_in : forall l k, valid_fields l = true -> String.prefix ":" k = true -> pseudo_value k l = "" -> In (field_values k l) [[]; [""]].
Proof. intros l k V C N. destruct (pseudo_field l k V C) as [[E _]|E]; rewrite E; [now left|]. right. left. now rewrite N. Qed.

Lemma value_is : forall l k v, valid_fields l = true -> String.prefix ":" k = true -> field_values k l = [v] -> pseudo_value k l = v.
Proof. intros l k v V C E. destruct (pseudo_field l k V C) as [[F _]|F]; rewrite F in E; [discriminate E|now injection E]. Qed.

Lemma value_none : forall l k, valid_fields l = true -> String.prefix ":" k = true -> In (field_values k l) [[]; [""]] -> pseudo_value k l = "".
Proof.
  intros l k V C E. destruct (pseudo_field l k V C) as [[_ F]|F]; [exact F|]. rewrite F in E. destruct E as [E|[E|[]]]; [discriminate E|now injection E].
Qed.

Lemma served_for : forall s i, h2_read s = H2Served i -> request_for (hs_fields s) (q_method (i_req i)) (q_raw_uri (i_req i)).
Proof.
  intros s i H. destruct (served_inv s i H) as (V & C & N & _ & _ & g & raw & T & ->). cbv zeta in *. cbn [i_req q_method q_raw_uri].
  set (l := hs_fields s) in *. unfold h2_target in T. destruct (String.eqb_spec (pseudo_value ":method" l) "CONNECT") as [E|E].
  - injection T as _ <-. destruct (C E) as (C1 & C2 & C3). split; [apply one_value; [exact V|reflexivity|rewrite E; discriminate]|]. split; [rewrite E; discriminate|].
    split; [exact C3|]. split; [|intros F; now elim F]. intros _. split; [now apply one_value|]. split; now apply no_value_in.
  - destruct (N E) as (N1 & N2 & N3). destruct (parse_go true _); [|discriminate T]. injection T as _ <-. split; [now apply one_value|]. split; [exact N1|]. split; [exact N2|].
    split; [intros F; now elim E|]. intros _. split; [now apply one_value|].
    rewrite one_value; [|exact V|reflexivity|destruct N3 as [-> | ->]; discriminate]. destruct N3 as [-> | ->]; cbn; tauto.
Qed.

Lemma parts_regular : forall l ps rs, valid_fields l = true -> split_fields l = (ps, rs) -> regular rs /\ forall k, wire_name k = true -> field_values k l = field_values k rs.
Proof.
  intros l ps rs V E. destruct (formed_parts l V) as (ps' & rs' & E' & L & _ & R & P). rewrite E in E'. injection E' as <- <-. split; [exact R|].
  intros k W. now apply (regular_values l ps rs).
Qed.

Lemma unconnected_iff : forall l, valid_fields l = true -> (h2_acceptable (h2_header (snd (split_fields l))) = true <-> unconnected l).
Proof.
  intros l V. destruct (split_fields l) as [ps rs] eqn:E. destruct (parts_regular l ps rs V E) as [R F]. cbn [snd]. rewrite (acceptable_iff rs R). unfold unconnected.
  rewrite (F "te" eq_refl). apply and_iff_compat_r. split; intros H k I.
  - rewrite F; [exact (H k I)|]. repeat (destruct I as [<-|I]; [reflexivity|]). destruct I.
  - rewrite <- F; [exact (H k I)|]. repeat (destruct I as [<-|I]; [reflexivity|]). destruct I.
Qed.

(** Which requests reach the handler *)
Lemma served_iff : forall s, (exists i, h2_read s = H2Served i) <->
  formed (hs_fields s) /\ unconnected (hs_fields s) /\
  exists m target, request_for (hs_fields s) m target /\ (m = "HEAD" -> hs_ended s = true) /\ (m <> "CONNECT" -> read_target m target <> None).
Proof.
  intros s. split.
  - intros (i & H). assert (RF := served_for s i H). destruct (served_inv s i H) as (V & _ & _ & HD & A & g & raw & T & E). cbv zeta in *.
    split; [now apply fields_valid_iff|]. split; [now apply unconnected_iff|]. exists (q_method (i_req i)), (q_raw_uri (i_req i)). split; [exact RF|].
    rewrite E. cbn [i_req q_method q_raw_uri]. split; [exact HD|]. intros N. unfold read_target. apply String.eqb_neq in N. rewrite N. unfold h2_target in T. rewrite N in T.
    cbn [andb]. destruct (parse_go true (pseudo_value ":path" (hs_fields s))) eqn:P; [|discriminate T]. injection T as _ <-. rewrite P. discriminate.
  - intros (V & U & m & target & (M & Mn & Tn & RC & RN) & HD & RT). apply fields_valid_iff in V. apply (unconnected_iff _ V) in U.
    unfold h2_read. rewrite V. cbn [negb]. rewrite (value_is _ ":method" m V eq_refl M), U. cbn [negb].
    destruct (String.eqb_spec m "CONNECT") as [E|N].
    + destruct (RC E) as (A & P & S0). rewrite (value_none _ ":path" V eq_refl P), (value_none _ ":scheme" V eq_refl S0), (value_is _ ":authority" target V eq_refl A).
      apply String.eqb_neq in Tn. rewrite Tn. cbn [String.eqb negb orb]. subst m. cbn [h2_target]. change (String.eqb "CONNECT" "HEAD") with false. cbn [andb].
      change (h2_target "CONNECT" "" target) with (Some (GoUrl "" "" false target "" "" false "", target)). cbv iota beta. destruct (if hs_ended s then _ else _). now eexists.
    + destruct (RN N) as (P & S0). rewrite (value_is _ ":path" target V eq_refl P). apply String.eqb_neq in Mn, Tn. rewrite Mn, Tn.
      assert (X : negb (String.eqb (pseudo_value ":scheme" (hs_fields s)) "https") && negb (String.eqb (pseudo_value ":scheme" (hs_fields s)) "http") = false).
      { destruct S0 as [S0|[S0|[]]]; rewrite (value_is _ ":scheme" _ V eq_refl (eq_sym S0)); reflexivity. }
      rewrite X. cbn [orb]. assert (Y : String.eqb m "HEAD" && negb (hs_ended s) = false).
      { destruct (String.eqb_spec m "HEAD") as [E|_]; [now rewrite (HD E)|reflexivity]. }
      rewrite Y. specialize (RT N). unfold read_target in RT. unfold h2_target. apply String.eqb_neq in N. rewrite N in *. cbn [andb] in RT.
      destruct (parse_go true target); [|now elim RT]. cbn [option_map]. destruct (if hs_ended s then _ else _). now eexists.
Qed.

Lemma served_arrives : forall s i, h2_read s = H2Served i ->
  (q_method (i_req i) <> "CONNECT" -> arrives i) /\ (q_method (i_req i) = "CONNECT" -> q_uri (i_req i) = "/" /\ i_path i = "").
Proof.
  intros s i H. destruct (served_inv s i H) as (_ & _ & _ & _ & _ & g & raw & T & ->). cbv zeta in *. cbn [i_req q_method q_uri i_path].
  unfold h2_target in T. split; intros M.
  - apply String.eqb_neq in M. rewrite M in T. destruct (parse_go true _) as [g'|] eqn:P; [|discriminate T]. injection T as -> <-.
    exists g. cbn [i_req q_method q_raw_uri q_uri i_path]. split; [|now split]. unfold read_target. now rewrite M.
  - rewrite M in T. change (String.eqb "CONNECT" "CONNECT") with true in T. cbn iota in T. injection T as <- <-. now split.
Qed.

Lemma served_header : forall s i, h2_read s = H2Served i -> canonical_keys (q_header (i_req i)) /\
  (forall k, field_name k -> ~ In k dropped_names -> values (canon k) (q_header (i_req i)) = field_values k (hs_fields s)) /\
  (field_values "cookie" (hs_fields s) = [] -> values "Cookie" (q_header (i_req i)) = []) /\
  (field_values "cookie" (hs_fields s) <> [] -> exists v, values "Cookie" (q_header (i_req i)) = [v] /\ joined "; " (field_values "cookie" (hs_fields s)) v) /\
  (forall v vs, field_values "expect" (hs_fields s) = v :: vs -> values "Expect" (q_header (i_req i)) = if String.eqb v "100-continue" then [] else v :: vs) /\
  values "Trailer" (q_header (i_req i)) = [].
Proof.
  intros s i H. destruct (served_inv s i H) as (V & _ & _ & _ & _ & g & raw & _ & ->). cbv zeta. cbn [i_req q_header].
  destruct (split_fields (hs_fields s)) as [ps rs] eqn:E. destruct (parts_regular _ ps rs V E) as [R F]. cbn [snd].
  split; [apply header_canonical|]. split; [intros k K D; apply wire_name_iff in K; rewrite (F k K); now apply plain_values|].
  assert (C := header_values rs "Cookie"). change (String.eqb "Cookie" "Trailer") with false in C. change (String.eqb "Cookie" "Cookie") with true in C. cbn iota in C.
  change "Cookie" with (canon "cookie") in C at 2. rewrite (canoned_values "cookie" rs eq_refl R), <- (F "cookie" eq_refl) in C. rewrite C.
  split; [intros N; now rewrite N|]. split.
  { intros N. destruct (field_values "cookie" (hs_fields s)) as [|a l]; [now elim N|]. eexists. split; [reflexivity|]. apply join_joined. }
  split; [|rewrite header_values; reflexivity].
  intros v vs X. rewrite header_values. change (String.eqb "Expect" "Trailer") with false. change (String.eqb "Expect" "Cookie") with false. change (String.eqb "Expect" "Expect") with true.
  cbn iota. change "Expect" with (canon "expect"). rewrite (canoned_values "expect" rs eq_refl R), <- (F "expect" eq_refl), X. reflexivity.
Qed.
