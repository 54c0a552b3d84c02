(** Proofs about reading configuration documents. *)
From Coq Require Import String Ascii List Bool ZArith NArith Lia.
From Verif Require Import GoStr NumberSpec NumberProofs TextSpec TextProofs Policy Config ConfigProofs Jwt JwtProofs Decode DecodeSpec.
Import ListNotations.
Local Open Scope string_scope.

(** * Structs *)

Lemma same_upper : forall n k, same_letters n k <-> to_upper n = to_upper k.
Proof. intros n k. rewrite <- equal_fold_iff. unfold equal_fold. apply String.eqb_eq. Qed.

(** [get] reads the field with the name [u], in capitals, which [set] decodes with [dec]. *)
Definition field {A B} (u : string) (get : A -> B) (set : string -> doc -> A -> A) (dec : doc -> B -> B) : Prop :=
  forall k v a, get (set k v a) = if String.eqb u (to_upper k) then dec v (get a) else get a.

Lemma fold_other : forall A B u (get : A -> B) set dec, field u get set dec ->
  forall ms old, (forall k v, In (k, v) ms -> to_upper k <> u) ->
  get (fold_left (fun a e => set (fst e) (snd e) a) ms old) = get old.
Proof.
  intros A B u get set dec F. induction ms as [|[k v] ms IH]; intros old H; [reflexivity|]. cbn [fold_left fst snd].
  rewrite IH by (intros k' v' I; apply (H k' v'); now right). rewrite F.
  destruct (String.eqb_spec u (to_upper k)) as [E|E]; [|reflexivity]. elim (H k v (or_introl eq_refl)). now symmetry.
Qed.

Lemma field_held : forall A B u (get : A -> B) set dec n d v old, field u get set dec -> to_upper n = u -> holds n d v ->
  get (to_struct set d old) = dec v (get old).
Proof.
  intros A B u get set dec n d v old F <- (a & k & b & -> & K & H). cbn [to_struct]. rewrite fold_left_app. cbn [fold_left fst snd].
  rewrite (fold_other A B _ get set dec F) by (intros k' v' I X; apply (H k' v' (or_intror I)); apply same_upper; now symmetry).
  rewrite F. apply same_upper in K. rewrite <- K, String.eqb_refl. f_equal.
  apply (fold_other A B _ get set dec F). intros k' v' I X. apply (H k' v' (or_introl I)). apply same_upper. now symmetry.
Qed.

Lemma field_lacking : forall A B u (get : A -> B) set dec n d old, field u get set dec -> to_upper n = u -> lacks n d ->
  get (to_struct set d old) = get old.
Proof.
  intros A B u get set dec n d old F <- H. destruct d as [| | | | |ms]; try reflexivity. cbn [to_struct].
  apply (fold_other A B _ get set dec F). intros k v I X. apply (H k v); [now exists ms|]. apply same_upper. now symmetry.
Qed.

(** A decoder that stores values of the right type only *)
Record plain {A} (is : doc -> A -> Prop) (dec : doc -> A -> A) (zero : A) : Prop := {
  p_right : forall v a, is v a -> dec v zero = a;
  p_wrong : forall v, (forall a, ~ is v a) -> dec v zero = zero }.

Lemma field_read : forall A B u (get : A -> B) set dec is zero n d old, field u get set dec -> to_upper n = u ->
  plain is dec zero -> get old = zero -> read_as is zero n d (get (to_struct set d old)).
Proof.
  intros A B u get set dec is zero n d old F N P Z. split; [|split].
  - intros v a H I. rewrite (field_held A B u get set dec n d v old F N H), Z. exact (p_right _ _ _ P v a I).
  - intros H. now rewrite (field_lacking A B u get set dec n d old F N H).
  - intros v H I. rewrite (field_held A B u get set dec n d v old F N H), Z. exact (p_wrong _ _ _ P v I).
Qed.

Lemma read_one : forall A (is : doc -> A -> Prop) zero n d x, read_as is zero n d x -> read_at is zero [n] d x.
Proof.
  intros A is zero n d x (H1 & H2 & H3). split; [|split].
  - intros v a (w & Hw & E) I. cbn [says] in E. subst w. exact (H1 v a Hw I).
  - intros [H|(w & _ & [])]. exact (H2 H).
  - intros v (w & Hw & E) I. cbn [says] in E. subst w. exact (H3 v Hw I).
Qed.


Lemma read_path : forall A C B u (g : A -> C) set dec (is : doc -> B -> Prop) zero n p d old (f : C -> B),
  field u g set dec -> to_upper n = u -> f (g old) = zero -> (forall w, read_at is zero p w (f (dec w (g old)))) ->
  read_at is zero (n :: p) d (f (g (to_struct set d old))).
Proof.
  intros A C B u g set dec is zero n p d old f F N Z R. split; [|split].
  - intros v a (w & Hw & S1) I. rewrite (field_held _ _ u g set dec n d w old F N Hw). destruct (R w) as (R1 & _ & _). exact (R1 v a S1 I).
  - intros [H|(w & Hw & S1)].
    + now rewrite (field_lacking _ _ u g set dec n d old F N H).
    + rewrite (field_held _ _ u g set dec n d w old F N Hw). destruct (R w) as (_ & R2 & _). exact (R2 S1).
  - intros v (w & Hw & S1) I. rewrite (field_held _ _ u g set dec n d w old F N Hw). destruct (R w) as (_ & _ & R3). exact (R3 v S1 I).
Qed.

(** Which fields the structs have *)
Definition connections (c : config jwt) : downstream * upstream := (c_down c, c_up c).

Ltac upper_names :=
  repeat match goal with |- context [to_upper (String ?c ?s)] =>
    let u := eval vm_compute in (to_upper (String c s)) in change (to_upper (String c s)) with u end.
Ltac solve_field :=
  let k := fresh "k" in let v := fresh "v" in let a := fresh "a" in
  intros k v a; unfold set_weight, set_route, set_jwt, set_url, set_mapping, set_down, set_up, set_connection, set_config, same_name;
  try destruct a; upper_names; let u := fresh "u" in generalize (to_upper k); intros u;
  repeat (match goal with |- context [String.eqb ?c u] =>
            destruct (String.eqb_spec c u); [subst u; cbn; unfold connections; cbn; try (destruct (to_struct set_connection _ _)); reflexivity|] end);
  try reflexivity.

Section Fields.
  Variable pf : string -> option f64.

  Lemma f_label : field "LABEL" (@lw_label f64) (set_weight pf) to_string. Proof. solve_field. Qed.
  Lemma f_weight : field "WEIGHT" (@lw_weight f64) (set_weight pf) (to_float pf). Proof. solve_field. Qed.
  Lemma f_path : field "PATH" r_path set_route to_string. Proof. solve_field. Qed.
  Lemma f_transform : field "TRANSFORM" r_transform set_route to_string. Proof. solve_field. Qed.
  Lemma f_resource : field "RESOURCE" r_resource set_route to_string. Proof. solve_field. Qed.
  Lemma f_policy : field "POLICY" r_policy set_route to_string. Proof. solve_field. Qed.
  Lemma f_jwt : field "JWT" r_jwt set_route to_string. Proof. solve_field. Qed.
  Lemma f_name : field "NAME" j_name set_jwt to_string. Proof. solve_field. Qed.
  Lemma f_alg : field "ALG" j_alg set_jwt to_string. Proof. solve_field. Qed.
  Lemma f_key : field "KEY" j_key set_jwt to_string. Proof. solve_field. Qed.
  Lemma f_url : field "JWKSURL" j_url set_jwt to_string. Proof. solve_field. Qed.
  Lemma f_skew : field "ACCEPTABLESKEWSECONDS" j_skew set_jwt to_string. Proof. solve_field. Qed.
  Lemma f_scheme : field "SCHEME" u_scheme set_url to_string. Proof. solve_field. Qed.
  Lemma f_host : field "HOST" u_host set_url to_string. Proof. solve_field. Qed.
  Lemma f_port : field "PORT" u_port set_url to_uint16. Proof. solve_field. Qed.
  Lemma f_labels : field "LABELS" rm_labels set_mapping (to_slice to_string ""). Proof. solve_field. Qed.
  Lemma f_server : field "URL" rm_url set_mapping (to_struct set_url). Proof. solve_field. Qed.
  Lemma f_read : field "READTIMEOUTSECONDS" d_read_timeout set_down to_int. Proof. solve_field. Qed.
  Lemma f_trip : field "ROUNDTRIPTIMEOUTSECONDS" d_roundtrip_timeout set_down to_int. Proof. solve_field. Qed.
  Lemma f_idle : field "IDLETIMEOUTSECONDS" d_idle_timeout set_down to_int. Proof. solve_field. Qed.
  Lemma f_max : field "MAXBODYBYTES" d_max_body set_down to_int. Proof. solve_field. Qed.
  Lemma f_mode : field "MODE" d_mode set_down to_string. Proof. solve_field. Qed.
  Lemma f_listen : field "PORT" d_port set_down to_int. Proof. solve_field. Qed.
  Lemma f_cert : field "CERT" d_cert set_down to_string. Proof. solve_field. Qed.
  Lemma f_secret : field "KEY" d_key set_down to_string. Proof. solve_field. Qed.
  Lemma f_pool : field "POOLSIZE" up_pool set_up to_int. Proof. solve_field. Qed.
  Lemma f_upidle : field "IDLETIMEOUTSECONDS" up_idle_timeout set_up to_int. Proof. solve_field. Qed.
  Lemma f_socket : field "SOCKETTIMEOUTSECONDS" up_socket_timeout set_up to_int. Proof. solve_field. Qed.
  Lemma f_upread : field "READTIMEOUTSECONDS" up_read_timeout set_up to_int. Proof. solve_field. Qed.
  Lemma f_attempts : field "MAXATTEMPTS" up_max_attempts set_up to_int. Proof. solve_field. Qed.
  Lemma f_skip : field "TLSINSECURESKIPVERIFY" up_skip_verify set_up to_bool. Proof. solve_field. Qed.
  Lemma f_down : field "DOWNSTREAM" fst set_connection (to_struct set_down). Proof. solve_field. Qed.
  Lemma f_up : field "UPSTREAM" snd set_connection (to_struct set_up). Proof. solve_field. Qed.
  Lemma f_policies : field "POLICIES" c_policies (set_config pf) (to_map (to_policy pf) []). Proof. solve_field. Qed.
  Lemma f_routes : field "ROUTES" c_routes (set_config pf) (to_slice (to_struct set_route) zero_route). Proof. solve_field. Qed.
  Lemma f_jwts : field "JWT" c_jwt (set_config pf) (to_map (to_pointer (to_struct set_jwt) zero_jwt) None). Proof. solve_field. Qed.
  Lemma f_resources : field "RESOURCES" c_resources (set_config pf) (to_map (to_slice_nil (to_struct set_mapping) zero_mapping) None). Proof. solve_field. Qed.
  Lemma f_connection : field "CONNECTION" connections (set_config pf) (to_struct set_connection).
  Proof.
    intros k v a. unfold set_config, same_name. destruct a as [ps rs js ms d u]. upper_names. generalize (to_upper k). intro n.
    repeat (match goal with |- context [String.eqb ?c n] =>
              destruct (String.eqb_spec c n); [subst n; reflexivity || (unfold connections; cbn [c_down c_up String.eqb Ascii.eqb Bool.eqb];
                destruct (to_struct set_connection v (d, u)); reflexivity)|] end).
    reflexivity.
  Qed.
End Fields.

(** * Values *)

Lemma plain_string : plain text_doc to_string "".
Proof.
  split; [intros v a ->; reflexivity|]. intros v H. destruct v; try reflexivity. now elim (H s).
Qed.
Lemma plain_int : plain number_doc to_int 0%Z.
Proof.
  split.
  - intros v a (t & -> & H). cbn [to_int]. apply atoi_iff in H. now rewrite H.
  - intros v H. destruct v; try reflexivity. cbn [to_int]. destruct (atoi literal) as [z|] eqn:E; [|reflexivity].
    elim (H z). exists literal. split; [reflexivity|]. now apply atoi_iff.
Qed.
Lemma plain_bool : plain flag_doc to_bool false.
Proof.
  split; [intros v a ->; reflexivity|]. intros v H. destruct v; try reflexivity. now elim (H b).
Qed.
Lemma plain_float : forall pf, plain (fun v x => exists t, v = DNum t /\ pf t = Some x) (to_float pf) f64_zero.
Proof.
  intro pf. split.
  - intros v a (t & -> & H). cbn [to_float]. now rewrite H.
  - intros v H. destruct v; try reflexivity. cbn [to_float]. destruct (pf literal) as [z|] eqn:E; [|reflexivity].
    elim (H z). exists literal. now split.
Qed.

Lemma prefix_minus : forall t, String.prefix "-" t = true <-> exists t', t = "-" ++ t'.
Proof.
  intros [|c t]; [split; [discriminate|intros [t' H]; discriminate H]|]. cbn [String.prefix]. split.
  - intro H. destruct (ascii_dec "-" c) as [<-|]; [now exists t|discriminate H].
  - intros [t' H]. injection H as -> _. destruct (ascii_dec "-" "-"); [now destruct t|contradiction].
Qed.

Lemma numeral_positive : forall t n, numeral t n -> (0 <= n)%Z.
Proof. induction 1; lia. Qed.

Lemma unsigned_positive : forall t z, ~ (exists t', t = "-" ++ t') -> int64_text t z -> (0 <= z)%Z.
Proof.
  intros t z N [(u & n & U & [[_ ->]|[[_ ->]|[-> _]]]) _].
  - exact (numeral_positive _ _ U).
  - exact (numeral_positive _ _ U).
  - elim N. now exists u.
Qed.

Lemma plain_port : plain port_doc to_uint16 0%N.
Proof.
  split.
  - intros v p (t & -> & U & I & L). cbn [to_uint16]. destruct (String.prefix "-" t) eqn:E; [elim U; now apply prefix_minus|].
    apply atoi_iff in I. rewrite I. assert (H : Z.ltb (Z.of_N p) 65536 = true) by (apply Z.ltb_lt; lia). rewrite H. lia.
  - intros v H. destruct v; try reflexivity. cbn [to_uint16]. destruct (String.prefix "-" literal) eqn:E; [reflexivity|].
    destruct (atoi literal) as [z|] eqn:A; [|reflexivity]. destruct (Z.ltb z 65536) eqn:L; [|reflexivity].
    assert (U : ~ (exists t', literal = "-" ++ t')) by (intro X; apply prefix_minus in X; congruence).
    apply atoi_iff in A. assert (P := unsigned_positive _ _ U A). elim (H (Z.to_N z)). exists literal. apply Z.ltb_lt in L.
    split; [reflexivity|]. split; [exact U|]. split; [now rewrite Z2N.id|lia].
Qed.

(** * Arrays *)

Lemma elements_map : forall A (dec : doc -> A -> A) zero l, to_elements dec zero l [] = map (fun v => dec v zero) l.
Proof. induction l as [|v l IH]; [reflexivity|]. cbn [to_elements map]. now rewrite IH. Qed.

Lemma map_read : forall A (reads : doc -> A -> Prop) f l, (forall v, reads v (f v)) -> Forall2 reads l (map f l).
Proof. induction l as [|v l IH]; intro H; constructor; auto. Qed.

Lemma label_map : forall l ls, Forall2 (fun e s => text_doc e s \/ ((forall s', ~ text_doc e s') /\ s = "")) l ls ->
  map (fun v => to_string v "") l = ls.
Proof.
  induction 1 as [|e s l ls H _ IH]; [reflexivity|]. cbn [map]. rewrite IH. f_equal. destruct H as [->|[H ->]]; [reflexivity|].
  exact (p_wrong _ _ _ plain_string e H).
Qed.

Lemma text_or_not : forall e, text_doc e (to_string e "") \/ ((forall s', ~ text_doc e s') /\ to_string e "" = "").
Proof. intros []; try (right; split; [intros s' H; discriminate H|reflexivity]). now left. Qed.

Lemma plain_labels : plain labels_doc (to_slice to_string "") [].
Proof.
  split.
  - intros v ls (l & -> & H). cbn [to_slice]. rewrite elements_map. exact (label_map l ls H).
  - intros v H. destruct v; try reflexivity. elim (H (map (fun v => to_string v "") l)). exists l. split; [reflexivity|].
    apply map_read. exact text_or_not.
Qed.

(** * Maps *)

Lemma stored_other : forall A (dec : doc -> A -> A) zero n ms m, (forall v, ~ In (n, v) ms) ->
  lookup n (fold_left (fun m e => insert (fst e) (dec (snd e) zero) m) ms m) = lookup n m.
Proof.
  intros A dec zero n. induction ms as [|[k v] ms IH]; intros m H; [reflexivity|]. cbn [fold_left fst snd].
  rewrite IH by (intros v' I; apply (H v'); now right). rewrite lookup_insert. destruct (String.eqb_spec k n) as [->|_]; [|reflexivity]. elim (H v). now left.
Qed.

Lemma map_entry : forall A (dec : doc -> A -> A) zero n d v, entry n d v -> lookup n (to_map dec zero d []) = Some (dec v zero).
Proof.
  intros A dec zero n d v (a & b & -> & H). cbn [to_map]. rewrite fold_left_app. cbn [fold_left fst snd].
  rewrite stored_other by (intro v'; exact (proj2 (H v'))). now rewrite lookup_insert, String.eqb_refl.
Qed.

Lemma map_no_entry : forall A (dec : doc -> A -> A) zero n d, no_entry n d -> lookup n (to_map dec zero d []) = None.
Proof.
  intros A dec zero n d H. destruct d; try reflexivity. cbn [to_map]. rewrite stored_other; [reflexivity|].
  intros v I. apply (H v). now exists ms.
Qed.

(** * The configuration *)

Lemma route_reads : forall v, route_read v (to_struct set_route v zero_route).
Proof.
  intro v. split.
  - destruct v; try reflexivity. cbn [to_struct]. generalize (eq_refl (r_regex zero_route)). generalize zero_route at 1 3.
    cbn [r_regex zero_route]. induction ms as [|[k v] ms IH]; intros r H; [exact H|]. cbn [fold_left fst snd]. apply IH.
    rewrite <- H. unfold set_route. repeat (match goal with |- context [if ?c then _ else _] => destruct c end); reflexivity.
  - intros n f H. repeat (destruct H as [H|H]; [injection H as <- <-|]); [| | | | |destruct H];
      (eapply field_read; [first [exact f_path | exact f_transform | exact f_resource | exact f_policy | exact f_jwt]|reflexivity|exact plain_string|reflexivity]).
Qed.

Lemma jwt_reads : forall v, jwt_read v (to_struct set_jwt v zero_jwt).
Proof.
  intro v. assert (K : j_rsa (to_struct set_jwt v zero_jwt) = [] /\ j_ec (to_struct set_jwt v zero_jwt) = [] /\ j_secret (to_struct set_jwt v zero_jwt) = []).
  { destruct v; try (repeat split; reflexivity). cbn [to_struct].
    assert (H : j_rsa zero_jwt = [] /\ j_ec zero_jwt = [] /\ j_secret zero_jwt = []) by (repeat split; reflexivity).
    revert H. generalize zero_jwt.
    induction ms as [|[k v] ms IH]; intros j H; [exact H|]. cbn [fold_left fst snd]. apply IH.
    destruct j. unfold set_jwt. repeat (match goal with |- context [if ?c then _ else _] => destruct c end); exact H. }
  destruct K as (K1 & K2 & K3). split; [exact K1|]. split; [exact K2|]. split; [exact K3|].
  intros n f H. repeat (destruct H as [H|H]; [injection H as <- <-|]); [| | | | |destruct H];
    (eapply field_read; [first [exact f_name | exact f_alg | exact f_key | exact f_url | exact f_skew]|reflexivity|exact plain_string|reflexivity]).
Qed.

Lemma server_reads : forall v, server_read v (to_struct set_mapping v zero_mapping).
Proof.
  intro v. split; [|split; [|split]].
  - eapply field_read; [exact f_labels|reflexivity|exact plain_labels|reflexivity].
  - eapply (read_path _ _ _ _ rm_url); [exact f_server|reflexivity|reflexivity|]. intro w. apply read_one.
    eapply field_read; [exact f_scheme|reflexivity|exact plain_string|reflexivity].
  - eapply (read_path _ _ _ _ rm_url); [exact f_server|reflexivity|reflexivity|]. intro w. apply read_one.
    eapply field_read; [exact f_host|reflexivity|exact plain_string|reflexivity].
  - eapply (read_path _ _ _ _ rm_url); [exact f_server|reflexivity|reflexivity|]. intro w. apply read_one.
    eapply field_read; [exact f_port|reflexivity|exact plain_port|reflexivity].
Qed.

Section Config.
  Variable pf : string -> option f64.

  Lemma weight_reads : forall v, weight_read pf v (to_struct (set_weight pf) v (LW "" f64_zero)).
  Proof.
    intro v. split.
    - eapply field_read; [exact (f_label pf)|reflexivity|exact plain_string|reflexivity].
    - eapply field_read; [exact (f_weight pf)|reflexivity|exact (plain_float pf)|reflexivity].
  Qed.

  Lemma down_read : forall B (is : doc -> B -> Prop) zero u g dec n d,
    field u g set_down dec -> to_upper n = u -> plain is dec zero -> g zero_down = zero ->
    read_at is zero ["connection"; "downstream"; n] d (g (c_down (decode pf d))).
  Proof.
    intros B is zero u g dec n d F N P Z. unfold decode.
    change (read_at is zero ["connection"; "downstream"; n] d ((fun c => g (fst c)) (connections (to_struct (set_config pf) d zero_config)))).
    eapply (read_path _ _ _ _ connections); [exact (f_connection pf)|reflexivity|exact Z|]. intro w.
    eapply (read_path _ _ _ _ fst _ _ _ _ _ _ _ _ g); [exact f_down|reflexivity|exact Z|]. intro x. apply read_one.
    exact (field_read _ _ u g set_down dec is zero n x _ F N P Z).
  Qed.

  Lemma up_read : forall B (is : doc -> B -> Prop) zero u g dec n d,
    field u g set_up dec -> to_upper n = u -> plain is dec zero -> g zero_up = zero ->
    read_at is zero ["connection"; "upstream"; n] d (g (c_up (decode pf d))).
  Proof.
    intros B is zero u g dec n d F N P Z. unfold decode.
    change (read_at is zero ["connection"; "upstream"; n] d ((fun c => g (snd c)) (connections (to_struct (set_config pf) d zero_config)))).
    eapply (read_path _ _ _ _ connections); [exact (f_connection pf)|reflexivity|exact Z|]. intro w.
    eapply (read_path _ _ _ _ snd _ _ _ _ _ _ _ _ g); [exact f_up|reflexivity|exact Z|]. intro x. apply read_one.
    exact (field_read _ _ u g set_up dec is zero n x _ F N P Z).
  Qed.

  Lemma numbers_read : forall d p f, In (p, f) number_settings -> read_at number_doc 0%Z p d (f (decode pf d)).
  Proof.
    intros d p f H. repeat (destruct H as [H|H]; [injection H as <- <-|]); [..|destruct H].
    - exact (down_read _ _ _ _ _ _ "readTimeoutSeconds" d f_read eq_refl plain_int eq_refl).
    - exact (down_read _ _ _ _ _ _ "roundTripTimeoutSeconds" d f_trip eq_refl plain_int eq_refl).
    - exact (down_read _ _ _ _ _ _ "idleTimeoutSeconds" d f_idle eq_refl plain_int eq_refl).
    - exact (down_read _ _ _ _ _ _ "maxBodyBytes" d f_max eq_refl plain_int eq_refl).
    - exact (down_read _ _ _ _ _ _ "port" d f_listen eq_refl plain_int eq_refl).
    - exact (up_read _ _ _ _ _ _ "poolSize" d f_pool eq_refl plain_int eq_refl).
    - exact (up_read _ _ _ _ _ _ "idleTimeoutSeconds" d f_upidle eq_refl plain_int eq_refl).
    - exact (up_read _ _ _ _ _ _ "socketTimeoutSeconds" d f_socket eq_refl plain_int eq_refl).
    - exact (up_read _ _ _ _ _ _ "readTimeoutSeconds" d f_upread eq_refl plain_int eq_refl).
    - exact (up_read _ _ _ _ _ _ "maxAttempts" d f_attempts eq_refl plain_int eq_refl).
  Qed.

  Lemma texts_read : forall d p f, In (p, f) text_settings -> read_at text_doc "" p d (f (decode pf d)).
  Proof.
    intros d p f H. repeat (destruct H as [H|H]; [injection H as <- <-|]); [..|destruct H].
    - exact (down_read _ _ _ _ _ _ "mode" d f_mode eq_refl plain_string eq_refl).
    - exact (down_read _ _ _ _ _ _ "cert" d f_cert eq_refl plain_string eq_refl).
    - exact (down_read _ _ _ _ _ _ "key" d f_secret eq_refl plain_string eq_refl).
  Qed.

  Lemma flag_read : forall d,
    read_at flag_doc false ["connection"; "upstream"; "tlsInsecureSkipVerify"] d (up_skip_verify (c_up (decode pf d))).
  Proof. intro d. exact (up_read _ _ _ _ _ _ "tlsInsecureSkipVerify" d f_skip eq_refl plain_bool eq_refl). Qed.

  Lemma routes_read : forall d,
    (forall l, says ["routes"] d (DArr l) -> Forall2 route_read l (c_routes (decode pf d))) /\
    (silent ["routes"] d -> c_routes (decode pf d) = []) /\
    (forall v, says ["routes"] d v -> (forall l, v <> DArr l) -> c_routes (decode pf d) = []).
  Proof.
    intro d. unfold decode. split; [|split].
    - intros l (w & H & E). cbn [says] in E. subst w.
      rewrite (field_held _ _ _ _ _ _ "routes" d (DArr l) zero_config (f_routes pf) eq_refl H). cbn [to_slice c_routes zero_config].
      rewrite elements_map. apply map_read. exact route_reads.
    - intros [H|(w & _ & [])]. exact (field_lacking _ _ _ _ _ _ "routes" d zero_config (f_routes pf) eq_refl H).
    - intros v (w & H & E) N. cbn [says] in E. subst w.
      rewrite (field_held _ _ _ _ _ _ "routes" d v zero_config (f_routes pf) eq_refl H). destruct v; try reflexivity. now elim (N l).
  Qed.

  Lemma jwts_read : forall d,
    (forall m n e, says ["jwt"] d m -> entry n m e ->
       (e = DNull /\ lookup n (c_jwt (decode pf d)) = Some None) \/
       (e <> DNull /\ exists j, lookup n (c_jwt (decode pf d)) = Some (Some j) /\ jwt_read e j)) /\
    (forall m n, says ["jwt"] d m -> no_entry n m -> lookup n (c_jwt (decode pf d)) = None) /\
    (silent ["jwt"] d -> c_jwt (decode pf d) = []).
  Proof.
    intro d. unfold decode. split; [|split].
    - intros m n e (w & H & E) I. cbn [says] in E. subst w.
      rewrite (field_held _ _ _ _ _ _ "jwt" d m zero_config (f_jwts pf) eq_refl H). cbn [c_jwt zero_config].
      rewrite (map_entry _ _ _ n m e I). destruct e; [left; now split|..];
        (right; split; [discriminate|]; eexists; split; [reflexivity|exact (jwt_reads _)]).
    - intros m n (w & H & E) I. cbn [says] in E. subst w.
      rewrite (field_held _ _ _ _ _ _ "jwt" d m zero_config (f_jwts pf) eq_refl H). exact (map_no_entry _ _ _ n m I).
    - intros [H|(w & _ & [])]. exact (field_lacking _ _ _ _ _ _ "jwt" d zero_config (f_jwts pf) eq_refl H).
  Qed.

  Lemma policies_read : forall d,
    (forall m n e, says ["policies"] d m -> entry n m e ->
       exists p, lookup n (c_policies (decode pf d)) = Some p /\
         (forall l, e = DArr l -> Forall2 (weight_read pf) l p) /\ ((forall l, e <> DArr l) -> p = [])) /\
    (forall m n, says ["policies"] d m -> no_entry n m -> lookup n (c_policies (decode pf d)) = None) /\
    (silent ["policies"] d -> c_policies (decode pf d) = []).
  Proof.
    intro d. unfold decode. split; [|split].
    - intros m n e (w & H & E) I. cbn [says] in E. subst w.
      rewrite (field_held _ _ _ _ _ _ "policies" d m zero_config (f_policies pf) eq_refl H). cbn [c_policies zero_config].
      rewrite (map_entry _ _ _ n m e I). eexists. split; [reflexivity|]. split.
      + intros l ->. unfold to_policy. cbn [to_slice]. rewrite elements_map. apply map_read. exact weight_reads.
      + intro N. destruct e; try reflexivity. now elim (N l).
    - intros m n (w & H & E) I. cbn [says] in E. subst w.
      rewrite (field_held _ _ _ _ _ _ "policies" d m zero_config (f_policies pf) eq_refl H). exact (map_no_entry _ _ _ n m I).
    - intros [H|(w & _ & [])]. exact (field_lacking _ _ _ _ _ _ "policies" d zero_config (f_policies pf) eq_refl H).
  Qed.

  Lemma resources_read : forall d,
    (forall m n e, says ["resources"] d m -> entry n m e ->
       exists ms, lookup n (c_resources (decode pf d)) = Some ms /\
         (forall l, e = DArr l -> exists l', ms = Some l' /\ Forall2 server_read l l') /\ ((forall l, e <> DArr l) -> ms = None)) /\
    (forall m n, says ["resources"] d m -> no_entry n m -> lookup n (c_resources (decode pf d)) = None) /\
    (silent ["resources"] d -> c_resources (decode pf d) = []).
  Proof.
    intro d. unfold decode. split; [|split].
    - intros m n e (w & H & E) I. cbn [says] in E. subst w.
      rewrite (field_held _ _ _ _ _ _ "resources" d m zero_config (f_resources pf) eq_refl H). cbn [c_resources zero_config].
      rewrite (map_entry _ _ _ n m e I). eexists. split; [reflexivity|]. split.
      + intros l ->. eexists. split; [reflexivity|]. rewrite elements_map. apply map_read. exact server_reads.
      + intro N. destruct e; try reflexivity. now elim (N l).
    - intros m n (w & H & E) I. cbn [says] in E. subst w.
      rewrite (field_held _ _ _ _ _ _ "resources" d m zero_config (f_resources pf) eq_refl H). exact (map_no_entry _ _ _ n m I).
    - intros [H|(w & _ & [])]. exact (field_lacking _ _ _ _ _ _ "resources" d zero_config (f_resources pf) eq_refl H).
  Qed.
End Config.
