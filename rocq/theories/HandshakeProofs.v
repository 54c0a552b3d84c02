(** Proofs about TLS handshakes and about the announcements of a start. *)
From Coq Require Import String Ascii List Bool ZArith NArith Lia.
From Verif Require Import GoStr Iprex IprexSpec Policy Config ConfigSpec ConfigProofs Exchange Jwt JwtSpec Handler HandlerSpec SystemSpec Tls TlsProofs
  Startup StartupSpec StartupProofs StartupCases Handshake HandshakeSpec.
Import Verif.Config ListNotations.
Local Open Scope string_scope.

(** * Handshakes *)

Lemma has_In : forall l z, has l z = true <-> In z l.
Proof.
  intros l z. unfold has. rewrite existsb_exists. split.
  - intros [x [H1 H2]]. apply Z.eqb_eq in H2. now subst x.
  - intros H. exists z. split; [exact H|apply Z.eqb_refl].
Qed.

Lemma find_first : forall {A} (f : A -> bool) l x, find f l = Some x <-> f x = true /\ exists a b, l = (a ++ x :: b)%list /\ forall y, In y a -> f y = false.
Proof.
  intros A f l x. split.
  - induction l as [|y l IH]; cbn [find]; [discriminate|]. destruct (f y) eqn:E.
    + intros H. injection H as ->. split; [exact E|]. exists [], l. split; [reflexivity|]. intros z [].
    + intros H. destruct (IH H) as [H1 [a [b [-> H2]]]]. split; [exact H1|]. exists (y :: a), b. split; [reflexivity|].
      intros z [<-|Hz]; [exact E|exact (H2 z Hz)].
  - intros [H1 [a [b [-> H2]]]]. induction a as [|y a IH]; cbn [app find]; [now rewrite H1|].
    rewrite (H2 y (or_introl eq_refl)). apply IH. intros z Hz. apply H2. now right.
Qed.

Lemma find_any : forall {A} (f : A -> bool) l, (exists x, find f l = Some x) <-> exists x, In x l /\ f x = true.
Proof.
  intros A f l. split.
  - intros [x H]. exists x. split; [exact (proj1 (find_some f l H))|exact (proj2 (find_some f l H))].
  - intros [x [H1 H2]]. destruct (find f l) as [y|] eqn:E; [now exists y|]. rewrite (find_none f l E x H1) in H2. discriminate.
Qed.

(** The parameters of any process that listens in TLS mode *)
Lemma listens_params : forall p h l q, listens p h l -> li_tls l = Some q ->
  tp_min q = 771%Z /\ tp_curves q = [25; 24; 23]%Z /\ tp_suites q = [4866; 4865; 4867; 49200; 49199]%Z.
Proof.
  intros p h l q H Eq. destruct (start_inv p h l H) as [c0 [c [_ [_ [_ [_ [_ [_ [_ [_ Ht]]]]]]]]]].
  destruct Ht as [[_ E]|[_ [q' [links [E [Hq _]]]]]]; [congruence|]. assert (q' = q) by congruence. subst q'.
  apply tls_config_some in Hq. destruct Hq as [leaf [rest [_ ->]]]. cbn [tp_min tp_curves tp_suites]. now split.
Qed.

Lemma version_iff : forall q c v, tp_min q = 771%Z -> (mutual_version q c = Some v <-> speaks c v).
Proof.
  intros q c v Em. unfold mutual_version. rewrite find_first. rewrite Em.
  assert (P : forall v, (Z.leb 771 v && has [772; 771; 770; 769]%Z v) = true <-> In v [tls12; tls13]).
  { intros z. rewrite andb_true_iff, has_In, Z.leb_le. unfold tls12, tls13. cbn [In]. split; [intros [H1 [H|[H|[H|[H|[]]]]]]; lia|].
    intros [H|[H|[]]]; subst z; split; lia. }
  split.
  - intros [H1 [a [b [E H2]]]]. exists a, b. split; [exact E|]. split; [now apply P|].
    split; intros H; apply H2 in H; [rewrite (proj2 (P tls12)) in H|rewrite (proj2 (P tls13)) in H]; try discriminate; cbn [In]; tauto.
  - intros [a [b [E [Hv [N1 N2]]]]]. split; [now apply P|]. exists a, b. split; [exact E|]. intros y Hy.
    destruct (Z.leb 771 y && has [772; 771; 770; 769]%Z y) eqn:Ey; [|reflexivity]. apply P in Ey. destruct Ey as [<-|[<-|[]]]; contradiction.
Qed.

Lemma curve_some : forall q c e, tp_curves q = [25; 24; 23]%Z -> mutual_curve q c = Some e -> nist e /\ In e (hl_curves c).
Proof.
  intros q c e Ec H. unfold mutual_curve in H. rewrite Ec in H. apply find_some in H. destruct H as [H1 H2]. split; [|now apply has_In].
  unfold nist. cbn [In] in *. tauto.
Qed.

Lemma curve_any : forall q c, tp_curves q = [25; 24; 23]%Z -> ((exists e, mutual_curve q c = Some e) <-> exists e, nist e /\ In e (hl_curves c)).
Proof.
  intros q c Ec. unfold mutual_curve. rewrite Ec, find_any. split; intros [e [H1 H2]]; exists e.
  - split; [unfold nist; cbn [In] in *; tauto|now apply has_In].
  - split; [unfold nist in H1; cbn [In] in *; tauto|now apply has_In].
Qed.

Lemma suite_13 : forall q k c s, mutual_suite q k 772 c = Some s -> In s [4865; 4866; 4867]%Z /\ In s (hl_suites c).
Proof.
  intros q k c s H. unfold mutual_suite in H. cbn [Z.eqb Pos.eqb] in H. apply find_some in H. destruct H as [H1 H2].
  split; [unfold suites_13 in H1; cbn [In] in *; tauto|now apply has_In].
Qed.

Lemma suite_13_any : forall q k c, (exists s, mutual_suite q k 772 c = Some s) <-> exists s, In s [4865; 4866; 4867]%Z /\ In s (hl_suites c).
Proof.
  intros q k c. split; [intros [s H]; exists s; exact (suite_13 q k c s H)|].
  intros [s [H1 H2]]. unfold mutual_suite. cbn [Z.eqb Pos.eqb]. apply find_any. exists s. split; [unfold suites_13; cbn [In] in *; tauto|now apply has_In].
Qed.

Lemma suite_12 : forall q k c s, tp_suites q = [4866; 4865; 4867; 49200; 49199]%Z -> mutual_suite q k 771 c = Some s ->
  k = RsaKey /\ In s [49199; 49200]%Z /\ In s (hl_suites c).
Proof.
  intros q k c s Es H. unfold mutual_suite in H. cbn [Z.eqb Pos.eqb] in H. rewrite Es in H. apply find_some in H. destruct H as [H1 H2].
  apply andb_true_iff in H2. destruct H2 as [H2 H3]. apply has_In in H3.
  cbn [In] in H1. destruct H1 as [<-|[<-|[<-|[<-|[<-|[]]]]]]; destruct k; try (vm_compute in H2; discriminate H2);
    (split; [reflexivity|split; [cbn [In]; tauto|exact H3]]).
Qed.

Lemma suite_12_any : forall q k c, tp_suites q = [4866; 4865; 4867; 49200; 49199]%Z ->
  ((exists s, mutual_suite q k 771 c = Some s) <-> k = RsaKey /\ exists s, In s [49199; 49200]%Z /\ In s (hl_suites c)).
Proof.
  intros q k c Es. split.
  - intros [s H]. destruct (suite_12 q k c s Es H) as [H1 H2]. split; [exact H1|now exists s].
  - intros [-> [s [H1 H2]]]. unfold mutual_suite. cbn [Z.eqb Pos.eqb]. rewrite Es. apply find_any. exists s.
    apply has_In in H2. cbn [In] in H1. destruct H1 as [<-|[<-|[]]]; (split; [cbn [In]; tauto|rewrite H2; reflexivity]).
Qed.

Lemma fallback_iff : forall v c, fallback v c = true <-> (v < 772)%Z /\ In 22016%Z (hl_suites c).
Proof. intros v c. unfold fallback. now rewrite andb_true_iff, Z.ltb_lt, has_In. Qed.

Lemma negotiate_inv : forall q k c s, negotiate q k c = Some s ->
  mutual_version q c = Some (ss_version s) /\ fallback (ss_version s) c = false /\ mutual_curve q c = Some (ss_curve s) /\
  mutual_suite q k (ss_version s) c = Some (ss_suite s) /\ hl_signs c (ss_version s) k = true.
Proof.
  intros q k c s H. unfold negotiate in H. destruct (mutual_version q c) as [v|] eqn:Ev; [|discriminate].
  destruct (fallback v c) eqn:Ef; [discriminate|]. destruct (mutual_curve q c) as [e|] eqn:Ee; [|discriminate].
  destruct (mutual_suite q k v c) as [u|] eqn:Es; [|discriminate]. destruct (hl_signs c v k) eqn:Eg; [|discriminate].
  injection H as <-. cbn [ss_version ss_suite ss_curve]. now rewrite Ef, Es, Eg.
Qed.

Lemma strong_known : forall s, In s [4865; 4866; 4867; 49199; 49200]%Z -> strong_suite s.
Proof.
  intros s H. cbn [In] in H.
  assert (K : forall who bits, In (s, (Ephemeral, who, Aead, bits)) registry -> (128 <= bits)%Z -> strong_suite s) by (intros who bits H1 H2; now exists who, bits).
  destruct H as [<-|[<-|[<-|[<-|[<-|[]]]]]].
  - apply (K None 128%Z); [|lia]. unfold registry. cbn [In]. tauto.
  - apply (K None 256%Z); [|lia]. unfold registry. cbn [In]. tauto.
  - apply (K None 256%Z); [|lia]. unfold registry. cbn [In]. tauto.
  - apply (K (Some RsaKey) 128%Z); [|lia]. unfold registry. cbn [In]. tauto.
  - apply (K (Some RsaKey) 256%Z); [|lia]. unfold registry. cbn [In]. tauto.
Qed.

Lemma sessions_strong : forall p h l q k c s, listens p h l -> li_tls l = Some q -> negotiate q k c = Some s ->
  speaks c (ss_version s) /\ (strong_suite (ss_suite s) /\ In (ss_suite s) (hl_suites c)) /\ (nist (ss_curve s) /\ In (ss_curve s) (hl_curves c)).
Proof.
  intros p h l q k c s H Eq Hn. destruct (listens_params p h l q H Eq) as [Em [Ec Es]].
  destruct (negotiate_inv q k c s Hn) as [Hv [_ [Hc [Hs _]]]]. apply (version_iff q c _ Em) in Hv. split; [exact Hv|].
  split; [|exact (curve_some q c _ Ec Hc)]. destruct Hv as [a [b [_ [Hv _]]]]. cbn [In] in Hv. destruct Hv as [Hv|[Hv|[]]]; rewrite <- Hv in Hs.
  - destruct (suite_12 q k c _ Es Hs) as [_ [H1 H2]]. split; [apply strong_known; cbn [In] in *; tauto|exact H2].
  - destruct (suite_13 q k c _ Hs) as [H1 H2]. split; [apply strong_known; cbn [In] in *; tauto|exact H2].
Qed.

Lemma sessions_iff : forall p h l q k c v, listens p h l -> li_tls l = Some q ->
  ((exists s, negotiate q k c = Some s /\ ss_version s = v) <-> welcome k c v).
Proof.
  intros p h l q k c v H Eq. destruct (listens_params p h l q H Eq) as [Em [Ec Es]]. split.
  - intros [s [Hn <-]]. destruct (negotiate_inv q k c s Hn) as [Hv [Hf [Hc [Hs Hg]]]]. apply (version_iff q c _ Em) in Hv.
    split; [exact Hv|]. split; [exact Hg|]. split; [apply (curve_any q c Ec); now exists (ss_curve s)|].
    destruct Hv as [a [b [_ [Hv _]]]]. cbn [In] in Hv. destruct Hv as [Hv|[Hv|[]]]; rewrite <- Hv in *.
    + right. destruct (suite_12 q k c _ Es Hs) as [Hk H2]. split; [reflexivity|]. split; [exact Hk|]. split; [|now exists (ss_suite s)].
      intros Hi. rewrite (proj2 (fallback_iff tls12 c)) in Hf; [discriminate|]. split; [unfold tls12; lia|exact Hi].
    + left. split; [reflexivity|]. exists (ss_suite s). exact (suite_13 q k c _ Hs).
  - intros [Hv [Hg [Hc Hs]]]. apply (version_iff q c v Em) in Hv. apply (curve_any q c Ec) in Hc. destruct Hc as [e He].
    unfold negotiate. rewrite Hv, He, Hg. destruct Hs as [[-> Hs]|[-> [Hk [Hnf Hs]]]].
    + destruct (proj2 (suite_13_any q k c) Hs) as [s E]. unfold tls13 in *. rewrite E. unfold fallback. cbn [Z.ltb Z.compare Pos.compare Pos.compare_cont andb].
      exists (Session 772 s e). now split.
    + destruct (proj2 (suite_12_any q k c Es) (conj Hk Hs)) as [s E]. unfold tls12 in *. rewrite E.
      destruct (fallback 771 c) eqn:Ef; [apply fallback_iff in Ef; destruct Ef; contradiction|]. exists (Session 771 s e). now split.
Qed.

(** * Announcements *)

(** The three ways a start goes *)
Lemma signs_cases : forall p h,
  (announces p h = [Ended] /\ (forall c0 c, told (pl_parse p) h c0 -> boot jwt (jwt_checked (pl_source p)) (pl_sort p) c0 = Some c -> mux_ok (c_routes c) = false)) \/
  exists c0 c, told (pl_parse p) h c0 /\ boot jwt (jwt_checked (pl_source p)) (pl_sort p) c0 = Some c /\ mux_ok (c_routes c) = true /\
    ((announces p h = [BootDone; Ended] /\ tls_mode (c_down c) = true /\ ~ (exists leaf, presentable (pl_pair p) (pl_verify p) (c_down c) leaf)) \/
     ((tls_mode (c_down c) = true -> exists leaf, presentable (pl_pair p) (pl_verify p) (c_down c) leaf) /\
      announces p h = [BootDone; Announced (version h) (tls_mode (c_down c)) (d_port (c_down c));
        if pl_port p (sv_addr (scaffold_server c)) then Listening (sv_addr (scaffold_server c)) else Ended])).
Proof.
  intros p h. unfold announces, signs, bind.
  destruct (load jwt (pl_parse p) (config_file h) (h_env h "J8ACFG_YML") (h_files h)) as [c0|] eqn:El.
  2:{ left. split; [reflexivity|]. intros c0 c Ht _. apply told_load in Ht. congruence. }
  pose proof El as Ht. apply told_load in Ht.
  destruct (boot jwt (jwt_checked (pl_source p)) (pl_sort p) c0) as [c|] eqn:Eb.
  2:{ left. split; [reflexivity|]. intros c1 c Ht1 Hb. rewrite (told_unique _ _ _ _ Ht1 Ht) in Hb. congruence. }
  destruct (mux_ok (c_routes c)) eqn:Em; cbn [negb].
  2:{ left. split; [reflexivity|]. intros c1 c' Ht1 Hb. rewrite (told_unique _ _ _ _ Ht1 Ht) in Hb. assert (c' = c) by congruence. now subst c'. }
  right. exists c0, c. split; [exact Ht|]. split; [exact Eb|]. split; [exact Em|].
  destruct (tls_mode (c_down c)) eqn:Et.
  - pose proof (presentable_checked p (c_down c)) as P.
    destruct (tls_config (pl_pair p) (c_down c)) as [q|] eqn:Eq.
    2:{ left. split; [reflexivity|]. split; [reflexivity|]. intros H. apply P in H. destruct H as [q [links [H _]]]. discriminate H. }
    destruct (check_cert_chain (pl_verify p) (pl_clock p) (tp_chain q)) as [links| |] eqn:Ec.
    + right. split; [intros _; apply P; now exists q, links|]. destruct (pl_port p (sv_addr (scaffold_server c))); reflexivity.
    + left. split; [reflexivity|]. split; [reflexivity|]. intros H. apply P in H. destruct H as [q' [links [H1 H2]]]. assert (q' = q) by congruence. subst q'. congruence.
    + left. split; [reflexivity|]. split; [reflexivity|]. intros H. apply P in H. destruct H as [q' [links [H1 H2]]]. assert (q' = q) by congruence. subst q'. congruence.
  - right. split; [discriminate|]. destruct (pl_port p (sv_addr (scaffold_server c))); reflexivity.
Qed.

Lemma version_of : forall h, versioned h (version h).
Proof.
  intros h. unfold versioned, version. destruct (h_env h "VERSION") as [|a s] eqn:E; [right|left]; (split; [congruence||reflexivity|reflexivity]).
Qed.

Lemma port_of_boot : forall jv srt c0 c, boot jwt jv srt c0 = Some c ->
  filled (d_port (c_down c0)) (if String.eqb (to_upper (d_mode (c_down c0))) "TLS" then 443 else 8080) (d_port (c_down c)).
Proof. intros jv srt c0 c Hb. destruct (boot_down_filled _ _ _ _ _ Hb) as [_ [_ [_ [_ [_ [Hp _]]]]]]. exact Hp. Qed.

Lemma announced_when_listening : forall p h l c0, sorts_routes (pl_sort p) -> listens p h l -> told (pl_parse p) h c0 ->
  exists v t port, announces p h = [BootDone; Announced v t port; Listening (":" ++ itoa_Z port)] /\
    versioned h v /\ (t = true <-> li_tls l <> None) /\
    filled (d_port (c_down c0)) (if String.eqb (to_upper (d_mode (c_down c0))) "TLS" then 443 else 8080) port /\ sv_addr (li_server l) = ":" ++ itoa_Z port.
Proof.
  intros p h l c0 Hs H Ht. destruct (start_inv p h l H) as [c1 [c [Ht1 [Hb [Hm [_ [_ [_ [Hsv [Hp Htls]]]]]]]]]].
  assert (c1 = c0) by exact (told_unique _ _ _ _ Ht1 Ht). subst c1.
  destruct (signs_cases p h) as [[_ F]|[c1 [c' [Ht2 [Hb2 [_ K]]]]]]; [rewrite (F c0 c Ht Hb) in Hm; discriminate|].
  assert (c1 = c0) by exact (told_unique _ _ _ _ Ht2 Ht). subst c1. assert (c' = c) by congruence. subst c'.
  destruct K as [[_ [K1 K2]]|[_ K]].
  - exfalso. destruct Htls as [[E _]|[_ [q [links [_ [Hq Hc]]]]]]; [congruence|]. apply K2. apply presentable_checked. now exists q, links.
  - exists (version h), (tls_mode (c_down c)), (d_port (c_down c)). rewrite Hp in K. split; [exact K|]. split; [apply version_of|].
    split; [destruct Htls as [[-> ->]|[-> [q [links [-> _]]]]]; split; congruence|]. split; [exact (port_of_boot _ _ _ _ Hb)|now rewrite Hsv].
Qed.

Lemma listening_iff : forall p h a, sorts_routes (pl_sort p) -> (In (Listening a) (announces p h) <-> exists l, listens p h l /\ sv_addr (li_server l) = a).
Proof.
  intros p h a Hs. split.
  - intros Hin. destruct (signs_cases p h) as [[E _]|[c0 [c [Ht [Hb [Hm K]]]]]]; [rewrite E in Hin; destruct Hin as [Hin|[]]; discriminate|].
    destruct K as [[E _]|[K E]]; rewrite E in Hin; [destruct Hin as [Hin|[Hin|[]]]; discriminate|].
    destruct Hin as [Hin|[Hin|[Hin|[]]]]; [discriminate|discriminate|].
    destruct (pl_port p (sv_addr (scaffold_server c))) eqn:Ep; [|discriminate]. injection Hin as <-.
    assert (L : exists l, listens p h l).
    { apply (listens_iff p h Hs). exists c0. split; [exact Ht|]. split; [apply (boot_valid_iff _ _ (pl_sort p)); congruence|].
      split; [apply (mux_boot _ _ _ _ Hs Hb); exact Hm|]. split.
      - intros Hw. apply (proj1 (boot_tls _ _ _ _ Hb)) in Hw. destruct (K Hw) as [leaf Hl]. exists leaf. now apply (cert_kept _ _ _ _ _ _ _ Hb).
      - exists (sv_addr (scaffold_server c)). split; [now apply (address_of_boot _ _ _ _ _ Hb)|exact Ep]. }
    destruct L as [l Hl]. exists l. split; [exact Hl|]. destruct (start_inv p h l Hl) as [c1 [c' [Ht1 [Hb1 [_ [_ [_ [_ [Hsv _]]]]]]]]].
    rewrite (told_unique _ _ _ _ Ht1 Ht) in Hb1. assert (c' = c) by congruence. subst c'. now rewrite Hsv.
  - intros [l [Hl Ea]]. destruct (start_inv p h l Hl) as [c0 [_ [Ht _]]].
    destruct (announced_when_listening p h l c0 Hs Hl Ht) as [v [t [port [E [_ [_ [_ E2]]]]]]]. rewrite E, <- Ea, E2. cbn [In]. tauto.
Qed.

Lemma boot_done_iff : forall p h, sorts_routes (pl_sort p) -> (In BootDone (announces p h) <-> usable p h).
Proof.
  intros p h Hs. destruct (signs_cases p h) as [[E F]|[c0 [c [Ht [Hb [Hm K]]]]]].
  - rewrite E. split; [intros [Hin|[]]; discriminate|]. intros [c0 [Ht [Hv Hn]]]. apply (boot_valid_iff _ _ (pl_sort p)) in Hv.
    destruct (boot jwt (jwt_checked (pl_source p)) (pl_sort p) c0) as [c|] eqn:Hb; [|congruence].
    apply (mux_boot _ _ _ _ Hs Hb) in Hn. rewrite (F c0 c Ht Hb) in Hn. discriminate.
  - split.
    + intros _. exists c0. split; [exact Ht|]. split; [apply (boot_valid_iff _ _ (pl_sort p)); congruence|apply (mux_boot _ _ _ _ Hs Hb); exact Hm].
    + intros _. destruct K as [[E _]|[_ E]]; rewrite E; left; reflexivity.
Qed.

Lemma announced_iff : forall p h, sorts_routes (pl_sort p) ->
  ((exists v t port, In (Announced v t port) (announces p h)) <->
   usable p h /\ (forall c0, told (pl_parse p) h c0 -> wants_tls c0 -> exists leaf, presentable (pl_pair p) (pl_verify p) (c_down c0) leaf)).
Proof.
  intros p h Hs. rewrite <- (boot_done_iff p h Hs). destruct (signs_cases p h) as [[E F]|[c0 [c [Ht [Hb [Hm K]]]]]].
  - rewrite E. split; [intros [v [t [port [Hin|[]]]]]; discriminate|intros [[Hin|[]] _]; discriminate].
  - destruct K as [[E [K1 K2]]|[K E]]; rewrite E.
    + split; [intros [v [t [port [Hin|[Hin|[]]]]]]; discriminate|]. intros [_ H]. exfalso. apply K2.
      destruct (H c0 Ht (proj1 (proj1 (boot_tls _ _ _ _ Hb)) K1)) as [leaf Hl]. exists leaf. now apply (cert_kept _ _ _ _ _ _ _ Hb).
    + split; [|intros _; eexists _, _, _; right; left; reflexivity]. intros _. split; [left; reflexivity|].
      intros c1 Ht1 Hw. rewrite (told_unique _ _ _ _ Ht1 Ht) in *. apply (proj1 (boot_tls _ _ _ _ Hb)) in Hw.
      destruct (K Hw) as [leaf Hl]. exists leaf. now apply (cert_kept _ _ _ _ _ _ _ Hb).
Qed.

(** * Cases *)

(** A client of 2016 *)
Definition client12 : hello := Hello [771]%Z [49196; 49195; 49200; 49199; 52393; 52392]%Z [29; 23; 24; 25]%Z (fun _ _ => true).
Definition client13 : hello := Hello [772; 771]%Z [4865; 4866; 4867; 49195; 49199]%Z [29; 23]%Z (fun _ _ => true).

Lemma client12_modern : modern12 client12.
Proof.
  split; [reflexivity|]. split.
  - intros s who bits H. unfold registry in H. cbn [In] in H. unfold client12. cbn [hl_suites In].
    repeat match type of H with _ \/ _ => destruct H as [H|H] end; try discriminate H; try contradiction H; injection H; intros; subst s; tauto.
  - split; [|split; [reflexivity|cbn; intros H; repeat destruct H as [H|H]; discriminate || contradiction]].
    intros e He. unfold nist in He. unfold client12. cbn [hl_curves In] in *. tauto.
Qed.

Lemma tls_listener : exists l q, listens ground (host0 "tls" "VERSION" "v1") l /\ li_tls l = Some q.
Proof.
  destruct started_tls as [l [H1 [_ [_ [_ [_ [H2 _]]]]]]]. exists l. destruct (li_tls l) as [q|]; [|discriminate H2]. exists q. now split.
Qed.

(** With an ECDSA certificate this client is turned away. *)
Lemma ecdsa_alone : exists p h l q c, sorts_routes (pl_sort p) /\ listens p h l /\ li_tls l = Some q /\ modern12 c /\
  negotiate q EcdsaKey c = None /\ exists s, negotiate q RsaKey c = Some s.
Proof.
  destruct tls_listener as [l [q [H1 H2]]]. exists ground, (host0 "tls" "VERSION" "v1"), l, q, client12.
  split; [apply isort_sorts|]. split; [exact H1|]. split; [exact H2|]. split; [exact client12_modern|].
  destruct (listens_params _ _ _ _ H1 H2) as [E1 [E2 E3]]. destruct q as [m cs ss ch]. cbn [tp_min tp_curves tp_suites] in *. subst m cs ss.
  split; [reflexivity|]. eexists. reflexivity.
Qed.

(** A port that is taken, and a certificate without its key *)
Definition taken : place := Place (pl_source ground) isort_routes parse0 (pl_gzip ground) (pl_gunzip ground) pair0 (pl_verify ground) (fun _ => 0%Z) (fun _ => false).
Definition keyless : place := Place (pl_source ground) isort_routes parse0 (pl_gzip ground) (pl_gunzip ground) (fun _ _ => None) (pl_verify ground) (fun _ => 0%Z) (fun _ => true).

Lemma taken_signs : announces taken (host0 "tls" "VERSION" "v1") = [BootDone; Announced "v1" true 443; Ended].
Proof. vm_compute. reflexivity. Qed.

Lemma keyless_signs : announces keyless (host0 "tls" "VERSION" "v1") = [BootDone; Ended].
Proof. vm_compute. reflexivity. Qed.

Lemma tls_signs : announces ground (host0 "tls" "VERSION" "v1") = [BootDone; Announced "v1" true 443; Listening ":443"].
Proof. vm_compute. reflexivity. Qed.

Lemma no_listener : forall p h, sorts_routes (pl_sort p) -> (forall a, ~ In (Listening a) (announces p h)) -> forall l, ~ listens p h l.
Proof. intros p h Hs H l Hl. apply (H (sv_addr (li_server l))). apply (listening_iff p h _ Hs). now exists l. Qed.

Lemma announced_in_vain : exists p h v t port, sorts_routes (pl_sort p) /\ In (Announced v t port) (announces p h) /\ forall l, ~ listens p h l.
Proof.
  exists taken, (host0 "tls" "VERSION" "v1"), "v1", true, 443%Z. split; [apply isort_sorts|]. rewrite taken_signs. split; [right; left; reflexivity|].
  apply no_listener; [apply isort_sorts|]. rewrite taken_signs. intros a [H|[H|[H|[]]]]; discriminate.
Qed.

Lemma booted_in_vain : exists p h, sorts_routes (pl_sort p) /\ announces p h = [BootDone; Ended] /\ forall l, ~ listens p h l.
Proof.
  exists keyless, (host0 "tls" "VERSION" "v1"). split; [apply isort_sorts|]. split; [exact keyless_signs|].
  apply no_listener; [apply isort_sorts|]. rewrite keyless_signs. intros a [H|[H|[]]]; discriminate.
Qed.
