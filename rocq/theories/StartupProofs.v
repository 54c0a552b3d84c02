(** Proofs about starting the process. *)
From Coq Require Import String Ascii List Bool ZArith NArith Lia Permutation.
From Verif Require Import GoStr Regex RegexSpec Header HeaderSpec Iprex IprexSpec IprexProofs Policy Config ConfigSpec ConfigProofs Exchange ExchangeSpec Jwt JwtSpec JsonSpec
  Machine MachineSpec Handler HandlerSpec HandlerProofs SystemSpec SystemProofs Tls TlsSpec TlsProofs Startup StartupSpec StartupFloat AccessLog AccessLogSpec.
Import Verif.Config ListNotations.
Local Open Scope string_scope.

(** * Where the configuration comes from *)

Lemma told_load : forall parse h c0,
  load jwt parse (config_file h) (h_env h "J8ACFG_YML") (h_files h) = Some c0 <-> told parse h c0.
Proof.
  intros parse h c0. unfold told, config_file, load, default_config_file.
  assert (Ha : forall c, accept jwt c = Some c0 <-> c_routes c0 <> [] /\ c0 = c).
  { intros c. unfold accept, config_ok. destruct (c_routes c) as [|r rs] eqn:E; split.
    - intros H. discriminate H.
    - intros [H1 H2]. rewrite H2 in H1. congruence.
    - intros H. injection H as <-. rewrite E. split; [discriminate|reflexivity].
    - now intros [_ ->]. }
  assert (Hf : forall f, bind (h_files h f) (fun s => accept jwt (parse s)) = Some c0 <-> c_routes c0 <> [] /\ exists text, h_files h f = Some text /\ c0 = parse text).
  { intros f. unfold bind. destruct (h_files h f) as [s|]; [rewrite Ha|].
    - split; [intros [H1 H2]; split; [exact H1|now exists s]|intros [H1 [t [H2 H3]]]; injection H2 as <-; now split].
    - split; [discriminate|intros [_ [t [H2 _]]]; discriminate]. }
  assert (He : (if negb (String.eqb (h_env h "J8ACFG_YML") "") then accept jwt (parse (h_env h "J8ACFG_YML"))
                else bind (h_files h "j8acfg.yml") (fun s => accept jwt (parse s))) = Some c0 <->
               c_routes c0 <> [] /\ ((h_env h "J8ACFG_YML" <> "" /\ c0 = parse (h_env h "J8ACFG_YML")) \/
         (h_env h "J8ACFG_YML" = "" /\ exists text, h_files h "j8acfg.yml" = Some text /\ c0 = parse text))).
  { destruct (String.eqb_spec (h_env h "J8ACFG_YML") "") as [E|E]; cbn [negb].
    - rewrite Hf. tauto.
    - rewrite Ha. tauto. }
  destruct (h_flag h) as [[|a f]|]; cbn [String.eqb negb]; [exact He|exact (Hf (String a f))|exact He].
Qed.

Lemma told_unique : forall parse h c c', told parse h c -> told parse h c' -> c = c'.
Proof. intros parse h c c' H H'. apply told_load in H, H'. congruence. Qed.

(** * The check of the certificate chain *)

Lemma split_map : forall l, split_cert_pools (map Some l) =
  Some (filter (fun c => ct_ca c && negb (own_authority c)) l, filter (fun c => ct_ca c && own_authority c) l).
Proof.
  induction l as [|c l IH]; cbn [map split_cert_pools filter]; [reflexivity|]. rewrite IH. unfold is_root. fold (own_authority c).
  destruct (ct_ca c); cbn [andb]; [|reflexivity]. destruct (own_authority c); reflexivity.
Qed.

Lemma split_none : forall l, split_cert_pools l <> None -> exists m, l = map Some m.
Proof.
  induction l as [|[c|] l IH]; cbn [split_cert_pools]; intros H.
  - now exists [].
  - destruct (split_cert_pools l); [|congruence]. destruct IH as [m ->]; [discriminate|]. now exists (c :: m).
  - congruence.
Qed.

Lemma trust_options : forall l, verify_options_of (filter (fun c => ct_ca c && negb (own_authority c)) l, filter (fun c => ct_ca c && own_authority c) l) = trust l.
Proof. reflexivity. Qed.

Lemma checked_iff : forall verify clock leaf rest,
  (exists links, check_cert_chain verify clock (Some leaf :: rest) = Checked links) <->
  exists more ch chs, rest = map Some more /\ verify leaf (trust (leaf :: more)) = Some (ch :: chs) /\ ch <> [] /\ ct_dns leaf <> [].
Proof.
  intros verify clock leaf rest. unfold check_cert_chain. split.
  - intros [links H]. destruct (split_cert_pools (Some leaf :: rest)) as [pools|] eqn:E; [|discriminate].
    destruct (split_none (Some leaf :: rest)) as [m Hm]; [congruence|]. destruct m as [|c more]; [discriminate|]. injection Hm as <- ->.
    change (Some leaf :: map Some more) with (map Some (leaf :: more)) in E. rewrite split_map in E.
    assert (Ep : verify_options_of pools = trust (leaf :: more)) by (rewrite <- trust_options; congruence). rewrite Ep in H. clear E Ep.
    destruct (verify leaf (trust (leaf :: more))) as [[|ch chs]|] eqn:Ev; [destruct (ct_dns leaf); discriminate| |discriminate].
    exists more, ch, chs. split; [reflexivity|]. split; [exact Ev|]. destruct (ct_dns leaf) as [|d ds]; [discriminate|]. split; [|discriminate].
    intros ->. cbn in H. discriminate.
  - intros [more [ch [chs [-> [Hv [Hc Hd]]]]]]. change (Some leaf :: map Some more) with (map Some (leaf :: more)). rewrite split_map, trust_options, Hv.
    destruct (ct_dns leaf) as [|d ds]; [congruence|].
    destruct (earliest_flagged (combine ch (map clock (seq 0 (length ch))))) as [links [i [-> _]]].
    + destruct ch; [congruence|discriminate].
    + now exists links.
Qed.

Lemma tls_config_some : forall pair d q, tls_config pair d = Some q <->
  exists leaf rest, pair (d_cert d) (d_key d) = Some (Some leaf :: rest) /\
    q = TlsParams 771 [25; 24; 23]%Z [4866; 4865; 4867; 49200; 49199]%Z (Some leaf :: rest).
Proof.
  intros pair d q. unfold tls_config. split.
  - destruct (pair (d_cert d) (d_key d)) as [[|[leaf|] rest]|]; try discriminate. intros H. injection H as <-. now exists leaf, rest.
  - now intros [leaf [rest [-> ->]]].
Qed.

(** * Starting *)

Lemma about_paths_boot : forall jv srt cfg0 cfg, sorts_routes srt -> boot jwt jv srt cfg0 = Some cfg ->
  Permutation (about_paths (c_routes cfg)) (configured_about_paths cfg0).
Proof.
  intros jv srt cfg0 cfg Hs Hb.
  destruct (boot_inv _ _ _ _ _ Hb) as [jm [rs [_ [E2 [_ [_ ->]]]]]]. cbn [c_routes]. unfold about_paths, configured_about_paths.
  destruct (Hs (map (fun r => with_path (add_slash (r_path r)) r) rs)) as [HP _].
  eapply perm_trans; [apply Permutation_map, filter_perm, HP|]. clear HP.
  apply all_ok_spec in E2. clear Hb. induction E2 as [|r0 r l rs' H1 H2 IH]; [constructor|].
  destruct (compile_route_spec _ _ H1) as [x [Hx ->]]. cbn [map filter with_path with_regex r_resource].
  unfold about. destruct (String.eqb (r_resource r0) "about"); cbn [map r_path with_path with_regex]; [|exact IH].
  rewrite add_slash_slashed. now constructor.
Qed.

Lemma mux_boot : forall jv srt cfg0 cfg, sorts_routes srt -> boot jwt jv srt cfg0 = Some cfg ->
  (mux_ok (c_routes cfg) = true <-> NoDup ("/" :: configured_about_paths cfg0)).
Proof.
  intros jv srt cfg0 cfg Hs Hb. unfold mux_ok. rewrite distinct_NoDup.
  assert (P := perm_skip "/" (about_paths_boot _ _ _ _ Hs Hb)).
  split; intros N; [exact (Permutation_NoDup P N)|exact (Permutation_NoDup (Permutation_sym P) N)].
Qed.

(** The mode after boot *)
Lemma boot_tls : forall jv srt c0 c, boot jwt jv srt c0 = Some c ->
  (tls_mode (c_down c) = true <-> wants_tls c0) /\ (d_mode (c_down c) = "TLS" <-> wants_tls c0).
Proof.
  intros jv srt c0 c Hb. destruct (boot_down_filled _ _ _ _ _ Hb) as [_ [_ [_ [_ [Hm _]]]]]. unfold tls_mode, wants_tls. rewrite Hm.
  destruct (String.eqb_spec (d_mode (c_down c0)) "") as [->|Hne].
  - split; (split; [discriminate|cbn; discriminate]).
  - rewrite String.eqb_eq. rewrite to_upper_idem. tauto.
Qed.

(** A start, taken apart *)
Lemma start_inv : forall p h l, listens p h l -> exists c0 c,
  told (pl_parse p) h c0 /\ boot jwt (jwt_checked (pl_source p)) (pl_sort p) c0 = Some c /\ mux_ok (c_routes c) = true /\
  li_config l = c /\ li_env l = Env (version h) (server_id h) (tls_mode (c_down c)) (d_max_body (c_down c)) (pl_gzip p) (pl_gunzip p) /\
  li_client l = scaffold_client h (c_up c) /\ li_server l = scaffold_server c /\ pl_port p (sv_addr (scaffold_server c)) = true /\
  ((tls_mode (c_down c) = false /\ li_tls l = None) \/
   (tls_mode (c_down c) = true /\ exists q links, li_tls l = Some q /\ tls_config (pl_pair p) (c_down c) = Some q /\
      check_cert_chain (pl_verify p) (pl_clock p) (tp_chain q) = Checked links)).
Proof.
  intros p h l H. unfold listens, start, bind in H.
  destruct (load jwt (pl_parse p) (config_file h) (h_env h "J8ACFG_YML") (h_files h)) as [c0|] eqn:El; [|discriminate]. apply told_load in El.
  destruct (boot jwt (jwt_checked (pl_source p)) (pl_sort p) c0) as [c|] eqn:Eb; [|discriminate].
  exists c0, c. split; [exact El|]. split; [exact Eb|].
  destruct (mux_ok (c_routes c)); cbn [negb] in H; [|discriminate]. split; [reflexivity|].
  destruct (tls_mode (c_down c)).
  - destruct (tls_config (pl_pair p) (c_down c)) as [q|]; [|discriminate].
    destruct (check_cert_chain (pl_verify p) (pl_clock p) (tp_chain q)) as [links| |] eqn:Ec; [|discriminate|discriminate].
    destruct (pl_port p (sv_addr (scaffold_server c))); [|discriminate]. injection H as <-. cbn [li_config li_env li_client li_server li_tls].
    do 5 (split; [reflexivity|]). right. split; [reflexivity|]. exists q, links. now rewrite Ec.
  - destruct (pl_port p (sv_addr (scaffold_server c))); [|discriminate]. injection H as <-. cbn [li_config li_env li_client li_server li_tls].
    do 5 (split; [reflexivity|]). left. now split.
Qed.

Lemma address_of_boot : forall jv srt c0 c a, boot jwt jv srt c0 = Some c -> (address c0 a <-> a = sv_addr (scaffold_server c)).
Proof.
  intros jv srt c0 c a Hb. destruct (boot_down_filled _ _ _ _ _ Hb) as [_ [_ [_ [_ [_ [Hp _]]]]]]. cbn [scaffold_server sv_addr]. split.
  - intros [port [Hf ->]]. destruct Hf as [[E1 E2]|[E1 E2]], Hp as [[F1 F2]|[F1 F2]]; congruence.
  - intros ->. exists (d_port (c_down c)). now split.
Qed.

Lemma presentable_checked : forall p d,
  (exists leaf, presentable (pl_pair p) (pl_verify p) d leaf) <->
  exists q links, tls_config (pl_pair p) d = Some q /\ check_cert_chain (pl_verify p) (pl_clock p) (tp_chain q) = Checked links.
Proof.
  intros p d. split.
  - intros [leaf [rest [ch [chs [Hp Hv]]]]]. cbn [map] in Hp.
    destruct (proj2 (checked_iff (pl_verify p) (pl_clock p) leaf (map Some rest))) as [links Hl]; [now exists rest, ch, chs|].
    eexists _, links. split; [apply tls_config_some; exists leaf, (map Some rest); split; [exact Hp|reflexivity]|exact Hl].
  - intros [q [links [Hq Hl]]]. apply tls_config_some in Hq. destruct Hq as [leaf [rest [Hp ->]]]. cbn [tp_chain] in Hl.
    destruct (proj1 (checked_iff (pl_verify p) (pl_clock p) leaf rest)) as [more [ch [chs [-> Hv]]]]; [now exists links|].
    exists leaf, more, ch, chs. split; [exact Hp|exact Hv].
Qed.

Lemma cert_kept : forall pair verify jv srt c0 c leaf, boot jwt jv srt c0 = Some c ->
  (presentable pair verify (c_down c) leaf <-> presentable pair verify (c_down c0) leaf).
Proof.
  intros pair verify jv srt c0 c leaf Hb. destruct (boot_down_filled _ _ _ _ _ Hb) as [_ [_ [_ [_ [_ [_ [E1 E2]]]]]]].
  unfold presentable. rewrite E1, E2. reflexivity.
Qed.

Lemma listens_iff : forall p h, sorts_routes (pl_sort p) ->
  ((exists l, listens p h l) <-> exists c0, told (pl_parse p) h c0 /\ can_start p c0).
Proof.
  intros p h Hs. split.
  - intros [l H]. destruct (start_inv p h l H) as [c0 [c [Ht [Hb [Hm [_ [_ [_ [_ [Hport Htls]]]]]]]]]]. exists c0. split; [exact Ht|].
    split; [apply (boot_valid_iff _ _ (pl_sort p)); congruence|]. split; [apply (mux_boot _ _ _ _ Hs Hb); exact Hm|]. split.
    + intros Hw. apply (proj1 (boot_tls _ _ _ _ Hb)) in Hw. destruct Htls as [[E _]|[_ [q [links [_ [Hq Hl]]]]]]; [congruence|].
      destruct (proj2 (presentable_checked p (c_down c))) as [leaf Hleaf]; [now exists q, links|]. exists leaf. now apply (cert_kept _ _ _ _ _ _ _ Hb).
    + exists (sv_addr (scaffold_server c)). split; [now apply (address_of_boot _ _ _ _ _ Hb)|exact Hport].
  - intros [c0 [Ht [Hv [Hn [Hw [a [Ha Hp]]]]]]]. apply told_load in Ht. apply (boot_valid_iff _ _ (pl_sort p)) in Hv.
    destruct (boot jwt (jwt_checked (pl_source p)) (pl_sort p) c0) as [c|] eqn:Hb; [|congruence]. clear Hv.
    apply (mux_boot _ _ _ _ Hs Hb) in Hn. apply (address_of_boot _ _ _ _ _ Hb) in Ha. subst a.
    unfold listens, start. unfold bind at 1. rewrite Ht, Hb, Hn, Hp. cbn [negb].
    destruct (tls_mode (c_down c)) eqn:Em; [|eexists; reflexivity].
    destruct Hw as [leaf Hleaf]; [exact (proj1 (proj1 (boot_tls _ _ _ _ Hb)) Em)|]. apply (cert_kept _ _ _ _ _ _ _ Hb) in Hleaf.
    destruct (proj1 (presentable_checked p (c_down c))) as [q [links [-> ->]]]; [now exists leaf|]. eexists. reflexivity.
Qed.

(** * Listening in TLS mode *)

Lemma listens_tls : forall p h l c0, listens p h l -> told (pl_parse p) h c0 ->
  (li_tls l <> None <-> wants_tls c0) /\ (e_tls (li_env l) = true <-> wants_tls c0) /\
  forall q, li_tls l = Some q -> (771 <= tp_min q)%Z /\
    exists leaf rest, tp_chain q = map Some (leaf :: rest) /\ pl_pair p (d_cert (c_down c0)) (d_key (c_down c0)) = Some (tp_chain q) /\
      presentable (pl_pair p) (pl_verify p) (c_down c0) leaf.
Proof.
  intros p h l c0 H Ht. destruct (start_inv p h l H) as [c1 [c [Ht1 [Hb [_ [_ [Henv [_ [_ [_ Htls]]]]]]]]]].
  assert (c1 = c0) by exact (told_unique _ _ _ _ Ht1 Ht). subst c1. destruct (boot_tls _ _ _ _ Hb) as [Hm _].
  rewrite Henv. cbn [e_tls]. split; [|split; [exact Hm|]].
  - rewrite <- Hm. destruct Htls as [[E1 E2]|[E1 [q [links [E2 _]]]]]; rewrite E1, E2; split; congruence.
  - intros q Eq. destruct Htls as [[_ E]|[_ [q' [links [E [Hq Hc]]]]]]; [congruence|]. assert (q' = q) by congruence. subst q'.
    apply tls_config_some in Hq. destruct Hq as [leaf [rest [Hp ->]]]. cbn [tp_min tp_chain] in *. split; [lia|].
    destruct (proj1 (checked_iff (pl_verify p) (pl_clock p) leaf rest)) as [more [ch [chs [-> Hv]]]]; [now exists links|].
    destruct (boot_down_filled _ _ _ _ _ Hb) as [_ [_ [_ [_ [_ [_ [E1 E2]]]]]]].
    exists leaf, more. split; [reflexivity|]. split; [now rewrite <- E1, <- E2|]. exists more, ch, chs. rewrite <- E1, <- E2. split; [exact Hp|exact Hv].
Qed.

(** * Timeouts *)

Lemma wrap_id : forall z, (int64_min <= z <= int64_max)%Z -> wrap64 z = z.
Proof. intros z H. unfold wrap64. unfold int64_min, int64_max in H. rewrite Z.mod_small; lia. Qed.

Lemma seconds_fit : forall s, fits s -> seconds s = (s * 1000000000)%Z /\ wrap64 (seconds s + 1000000000) = ((s + 1) * 1000000000)%Z.
Proof.
  intros s H. unfold fits in H. assert (E : seconds s = (s * 1000000000)%Z) by (unfold seconds; apply wrap_id; unfold int64_min, int64_max; lia).
  split; [exact E|]. rewrite E. rewrite wrap_id; unfold int64_min, int64_max; lia.
Qed.

Lemma filled_lasts : forall v d s, filled v d s -> fits s -> lasts v d (seconds s).
Proof. intros v d s H Hf. exists s. split; [exact H|]. apply seconds_fit. exact Hf. Qed.

Lemma filled_fits : forall v d s, filled v d s -> fits v -> fits d -> fits s.
Proof. intros v d s [[_ ->]|[_ ->]]; auto. Qed.

Lemma listener_timeouts : forall p h l c0, listens p h l -> told (pl_parse p) h c0 ->
  let d := c_down c0 in let v := li_server l in
  address c0 (sv_addr v) /\
  (fits (d_read_timeout d) -> lasts (d_read_timeout d) 120 (sv_read v) /\ sv_read_header v = sv_read v) /\
  (fits (d_idle_timeout d) -> lasts (d_idle_timeout d) 120 (sv_idle v)) /\
  (fits (d_roundtrip_timeout d) -> lasts (d_roundtrip_timeout d) 240 (sv_write v - 1000000000)).
Proof.
  intros p h l c0 H Ht. cbv zeta. destruct (start_inv p h l H) as [c1 [c [Ht1 [Hb [_ [_ [_ [_ [Hs _]]]]]]]]].
  assert (c1 = c0) by exact (told_unique _ _ _ _ Ht1 Ht). subst c1. rewrite Hs.
  split; [now apply (address_of_boot _ _ _ _ _ Hb)|].
  destruct (boot_down_filled _ _ _ _ _ Hb) as [F1 [F2 [F3 _]]]. cbn [scaffold_server sv_read sv_read_header sv_idle sv_write].
  assert (K1 : fits 120) by (unfold fits; lia). assert (K2 : fits 240) by (unfold fits; lia).
  split; [|split]; intros Hf.
  - split; [|reflexivity]. apply filled_lasts; [exact F1|exact (filled_fits _ _ _ F1 Hf K1)].
  - apply filled_lasts; [exact F3|exact (filled_fits _ _ _ F3 Hf K1)].
  - pose proof (filled_fits _ _ _ F2 Hf K2) as Hx. exists (d_roundtrip_timeout (c_down c)). split; [exact F2|]. unfold write_timeout.
    rewrite (proj2 (seconds_fit _ Hx)). lia.
Qed.

(** * The upstream client *)

Lemma client_params : forall p h l c0, listens p h l -> told (pl_parse p) h c0 ->
  let u := c_up c0 in let k := li_client l in
  (fits (up_socket_timeout u) -> lasts (up_socket_timeout u) 3 (cl_dial k) /\ cl_handshake k = cl_dial k) /\
  (fits (up_idle_timeout u) -> lasts (up_idle_timeout u) 120 (cl_idle k)) /\
  filled (up_pool u) 32768 (cl_idle_conns k) /\ cl_idle_per_host k = cl_idle_conns k /\
  cl_skip_verify k = up_skip_verify u.
Proof.
  intros p h l c0 H Ht. cbv zeta. destruct (start_inv p h l H) as [c1 [c [Ht1 [Hb [_ [_ [_ [Hc _]]]]]]]].
  assert (c1 = c0) by exact (told_unique _ _ _ _ Ht1 Ht). subst c1. rewrite Hc.
  destruct (boot_up_filled _ _ _ _ _ Hb) as [F1 [F2 [F3 [_ [_ F4]]]]].
  cbn [scaffold_client cl_dial cl_handshake cl_idle cl_idle_conns cl_idle_per_host cl_skip_verify].
  assert (K1 : fits 120) by (unfold fits; lia). assert (K2 : fits 3) by (unfold fits; lia).
  split; [|split; [|split; [exact F1|split; [reflexivity|exact F4]]]]; intros Hf.
  - split; [|reflexivity]. apply filled_lasts; [exact F3|exact (filled_fits _ _ _ F3 Hf K2)].
  - apply filled_lasts; [exact F2|exact (filled_fits _ _ _ F2 Hf K1)].
Qed.

Lemma keep_count_probes : forall h os n, system_of h os -> probes os n -> keep_count h = n.
Proof.
  intros h os n Ho Hn. unfold keep_count.
  assert (E : (if Nat.eqb (String.length (h_env h "OS")) 0 then h_goos h else h_env h "OS") = os).
  { destruct Ho as [[H1 ->]|[H1 ->]].
    - destruct (h_env h "OS"); [congruence|reflexivity].
    - rewrite H1. reflexivity. }
  rewrite E. destruct Hn as [[-> ->]|[[Hin ->]|[Hin ->]]].
  - reflexivity.
  - destruct Hin as [<-|[<-|[<-|[]]]]; reflexivity.
  - assert (Hf : forall x, In x ["windows"; "darwin"; "freebsd"; "openbsd"] -> String.eqb os x = false) by (intros x Hx; apply String.eqb_neq; intros ->; contradiction).
    rewrite !Hf by (cbn; tauto). reflexivity.
Qed.

Lemma keep_alive_interval : forall p h l c0 os n s, listens p h l -> told (pl_parse p) h c0 -> system_of h os -> probes os n ->
  filled (up_idle_timeout (c_up c0)) 120 s -> (0 < s < 8589934592)%Z ->
  let i := cl_keep_alive (li_client l) in
  (2 ^ 50 * (n * i) <= (2 ^ 50 + 1) * (s * 1000000000) /\ (2 ^ 50 - 1) * (s * 1000000000) <= 2 ^ 50 * (n * (i + 1)))%Z /\
  (s <= 1125899 -> n * i <= s * 1000000000 <= n * (i + 1))%Z.
Proof.
  intros p h l c0 os n s H Ht Ho Hn Hf Hs. cbv zeta. destruct (start_inv p h l H) as [c1 [c [Ht1 [Hb [_ [_ [_ [Hc _]]]]]]]].
  assert (c1 = c0) by exact (told_unique _ _ _ _ Ht1 Ht). subst c1. rewrite Hc. cbn [scaffold_client cl_keep_alive]. unfold keep_alive.
  destruct (boot_up_filled _ _ _ _ _ Hb) as [_ [F2 _]].
  assert (E : up_idle_timeout (c_up c) = s) by (destruct F2 as [[A1 A2]|[A1 A2]], Hf as [[B1 B2]|[B1 B2]]; congruence).
  rewrite E, (keep_count_probes _ _ _ Ho Hn).
  assert (K : (0 < n < 2 ^ 10)%Z) by (change (2 ^ 10)%Z with 1024%Z; destruct Hn as [[_ ->]|[[_ ->]|[_ ->]]]; lia).
  split; [apply interval_near; [exact K|change (2 ^ 33)%Z with 8589934592%Z; exact Hs]|]. intros Hle. apply interval_close; [exact K|lia].
Qed.

(** * Server id *)

Lemma low_digit_hex : forall n, (n < 16)%N -> lower_hex (low_digit n).
Proof.
  intros n H. assert (Hc : In n [0; 1; 2; 3; 4; 5; 6; 7; 8; 9; 10; 11; 12; 13; 14; 15]%N) by (cbn; lia).
  unfold lower_hex. cbn [In] in Hc. repeat (destruct Hc as [<-|Hc]; [vm_compute; tauto|]). contradiction.
Qed.

Lemma hex_encode_spec : forall s, String.length (hex_encode s) = 2 * String.length s /\ forall c, In c (list_ascii_of_string (hex_encode s)) -> lower_hex c.
Proof.
  induction s as [|c s [IH1 IH2]]; cbn [hex_encode String.length list_ascii_of_string]; [split; [reflexivity|intros ? []]|].
  split; [lia|]. assert (Hc : (N_of_ascii c < 256)%N) by apply N_ascii_bounded.
  intros x [<-|[<-|Hx]]; [apply low_digit_hex; apply N.div_lt_upper_bound; lia|apply low_digit_hex, N.mod_lt; lia|exact (IH2 x Hx)].
Qed.

Lemma take_spec : forall n s, String.length (take n s) = Nat.min n (String.length s) /\ forall c, In c (list_ascii_of_string (take n s)) -> In c (list_ascii_of_string s).
Proof.
  induction n as [|n IH]; intros [|c s]; cbn [take String.length list_ascii_of_string Nat.min]; try (split; [reflexivity|intros ? []]).
  destruct (IH s) as [H1 H2]. split; [now rewrite H1|]. intros x [<-|Hx]; [now left|right; exact (H2 x Hx)].
Qed.

Lemma id_hex : forall h, (forall s, String.length (h_md5 h s) = 16) ->
  String.length (server_id h) = 8 /\ forall c, In c (list_ascii_of_string (server_id h)) -> lower_hex c.
Proof.
  intros h Hm. unfold server_id. destruct (hex_encode_spec (h_md5 h (host_name h ++ version h))) as [H1 H2]. destruct (take_spec 8 (hex_encode (h_md5 h (host_name h ++ version h)))) as [H3 H4].
  rewrite Hm in H1. split; [rewrite H3, H1; reflexivity|]. intros c Hc. apply H2, H4, Hc.
Qed.

Lemma host_named : forall h n, named_as h n -> host_name h = n.
Proof.
  intros h n [[H ->]|[H ->]]; unfold host_name.
  - destruct (h_env h "HOSTNAME"); [congruence|reflexivity].
  - rewrite H. reflexivity.
Qed.

Lemma version_is : forall h v, versioned h v -> version h = v.
Proof.
  intros h v [[H ->]|[H ->]]; unfold version.
  - destruct (h_env h "VERSION"); [congruence|reflexivity].
  - rewrite H. reflexivity.
Qed.

Lemma id_same : forall h h' n v, named_as h n -> named_as h' n -> versioned h v -> versioned h' v -> (forall s, h_md5 h s = h_md5 h' s) -> server_id h = server_id h'.
Proof.
  intros h h' n v N1 N2 V1 V2 Hm. unfold server_id. rewrite (host_named _ _ N1), (host_named _ _ N2), (version_is _ _ V1), (version_is _ _ V2), Hm. reflexivity.
Qed.

Lemma hex_utf8 : forall s, (forall c, In c (list_ascii_of_string s) -> lower_hex c) -> utf8 s.
Proof.
  intros s H. apply ascii_is_utf8. intros c Hc.
  assert (Hin : In c (list_ascii_of_string s)).
  { revert Hc. clear H. induction s as [|a s IH]; cbn [RegexSpec.has_char list_ascii_of_string]; [discriminate|]. intros Hc. apply orb_true_iff in Hc.
    destruct Hc as [Hc|Hc]; [apply Ascii.eqb_eq in Hc; now left|right; exact (IH Hc)]. }
  specialize (H c Hin). unfold lower_hex in H. cbn [list_ascii_of_string In] in H. repeat (destruct H as [<-|H]; [reflexivity|]). contradiction.
Qed.

(** * Requests served by a started process *)

Lemma serves_configured : forall p h t, serves p h t -> configured t.
Proof.
  intros p h t [l [c0 [H [Ht [He Hu]]]]]. destruct (start_inv p h l H) as [c1 [c [Ht1 [Hb [_ [_ [Henv _]]]]]]].
  assert (c1 = c0) by exact (told_unique _ _ _ _ Ht1 Ht). subst c1.
  destruct Hu as [_ [c' [Hb' [_ [_ [_ [_ [Hd _]]]]]]]]. assert (c' = c) by congruence. subst c'.
  unfold configured. rewrite He, Henv, Hd. cbn [e_max_body e_tls]. split; [reflexivity|].
  destruct (boot_tls _ _ _ _ Hb) as [E1 E2]. rewrite E1, E2. reflexivity.
Qed.

Lemma serves_values : forall p h t, serves p h t -> (forall s, String.length (h_md5 h s) = 16) ->
  utf8 (e_id (t_env t)) /\ (utf8 (h_env h "VERSION") -> utf8 (e_version (t_env t))).
Proof.
  intros p h t [l [c0 [H [Ht [He _]]]]] Hm. destruct (start_inv p h l H) as [c1 [c [_ [_ [_ [_ [Henv _]]]]]]].
  rewrite He, Henv. cbn [e_id e_version]. split; [apply hex_utf8, id_hex, Hm|]. intros Hv. unfold version.
  destruct (Nat.ltb 0 (String.length (h_env h "VERSION"))); [exact Hv|]. apply ascii_is_utf8. intros c0' Hc. cbn [RegexSpec.has_char] in Hc.
  repeat (apply orb_prop in Hc; destruct Hc as [Hc|Hc]; [apply Ascii.eqb_eq in Hc; subst c0'; reflexivity|]). discriminate.
Qed.

(** * Levels *)

Lemma level_of : forall h, log_level h = VWarn <-> to_upper (h_env h "LOGLEVEL") = "WARN".
Proof.
  intros h. unfold log_level. set (u := to_upper (h_env h "LOGLEVEL")). clearbody u.
  destruct (String.eqb_spec u "TRACE") as [->|]; [split; discriminate|]. destruct (String.eqb_spec u "DEBUG") as [->|]; [split; discriminate|].
  destruct (String.eqb_spec u "INFO") as [->|]; [split; discriminate|]. destruct (String.eqb_spec u "WARN") as [->|]; [split; reflexivity|]. split; [discriminate|contradiction].
Qed.

Lemma level_trace : forall h, log_level h = VTrace <-> to_upper (h_env h "LOGLEVEL") = "TRACE".
Proof.
  intros h. unfold log_level. set (u := to_upper (h_env h "LOGLEVEL")). clearbody u.
  destruct (String.eqb_spec u "TRACE") as [->|]; [split; reflexivity|]. destruct (String.eqb_spec u "DEBUG") as [->|]; [split; discriminate|].
  destruct (String.eqb_spec u "INFO") as [->|]; [split; discriminate|]. destruct (String.eqb_spec u "WARN") as [->|]; [split; discriminate|]. split; [discriminate|contradiction].
Qed.

Lemma access_written : forall h t x r e, tells t x r e ->
  (written (log_level h) (line_level (l_warn e)) = false <-> (rp_status r < 400)%Z /\ to_upper (h_env h "LOGLEVEL") = "WARN").
Proof.
  intros h t x r e He. destruct (e_level _ _ _ _ He) as [Hl _]. rewrite <- level_of.
  destruct (l_warn e).
  - assert (Hs : (400 <= rp_status r)%Z) by (now apply Hl). destruct (log_level h); cbn; (split; [discriminate|intros [K _]; lia]).
  - assert (Hs : (rp_status r < 400)%Z) by (destruct (Z_lt_le_dec (rp_status r) 400) as [K|K]; [exact K|apply Hl in K; discriminate]).
    destruct (log_level h); cbn; split; try discriminate; try (intros [_ K]; discriminate K); intros _; split; (exact Hs || reflexivity).
Qed.

(** * Lines of net/http *)

Lemma handshake_logged : forall h a b c d rest,
  is_octet a -> is_octet b -> is_octet c -> is_octet d -> head_not is_digit rest = true ->
  no_v6_lookalike ("http: TLS handshake error from " ++ dotted a b c d ++ rest) ->
  exists v, net_event ("http: TLS handshake error from " ++ dotted a b c d ++ rest) = (v, dotted a b c d) /\ written (log_level h) v = true.
Proof.
  intros h a b c d rest Ha Hb Hc Hd Hr Hn. exists VWarn. unfold net_event.
  rewrite (extract_ipv4 "http: TLS handshake error from " a b c d rest eq_refl Ha Hb Hc Hd Hr Hn).
  replace (contains _ _) with true.
  - split; [reflexivity|]. destruct (log_level h); reflexivity.
  - symmetry. apply contains_spec. exists "http: ", (" from " ++ dotted a b c d ++ rest). reflexivity.
Qed.

Lemma others_hidden : forall h msg, (forall a b, msg <> a ++ "TLS handshake error" ++ b) ->
  (written (log_level h) (fst (net_event msg)) = true <-> to_upper (h_env h "LOGLEVEL") = "TRACE").
Proof.
  intros h msg Hm. unfold net_event. cbn [fst]. replace (contains msg "TLS handshake error") with false.
  - rewrite <- level_trace. destruct (log_level h); cbn; split; congruence.
  - symmetry. destruct (contains msg "TLS handshake error") eqn:E; [|reflexivity]. apply contains_spec in E. destruct E as [a [b E]]. destruct (Hm a b E).
Qed.

Lemma handshake_logged_v6 : forall h addr rest, found_v6 addr -> no_v6_lookalike rest ->
  ~ colon_digits_dot ("http: TLS handshake error from [" ++ addr ++ "]" ++ rest) ->
  exists v, net_event ("http: TLS handshake error from [" ++ addr ++ "]" ++ rest) = (v, addr) /\ written (log_level h) v = true.
Proof.
  intros h addr rest Ha Hr Hc. exists VWarn. unfold net_event.
  pose proof (extract_v6 "http: TLS handshake error from " addr rest Ha ltac:(apply lookalike_dec; vm_compute; reflexivity) Hr) as E.
  cbn [append] in E. cbn [append] in Hc. cbn [append]. rewrite (E Hc).
  replace (contains _ _) with true.
  - split; [reflexivity|]. destruct (log_level h); reflexivity.
  - symmetry. apply contains_spec. exists "http: ", (" from [" ++ addr ++ "]" ++ rest). reflexivity.
Qed.

(** * The configuration of a process that has just started is in use. *)

Lemma started_in_use : forall p h l c0, sorts_routes (pl_sort p) -> listens p h l -> told (pl_parse p) h c0 ->
  (forall name j, In (name, Some j) (c_jwt c0) -> blank j) -> in_use (pl_source p) (pl_sort p) c0 (li_config l).
Proof.
  intros p h l c0 Hs H Ht Hj. destruct (start_inv p h l H) as [c1 [c [Ht1 [Hb [_ [-> _]]]]]].
  assert (c1 = c0) by exact (told_unique _ _ _ _ Ht1 Ht). subst c1. split; [exact Hs|]. exists c. split; [exact Hb|].
  do 5 (split; [reflexivity|]). destruct (boot_inv _ _ _ _ _ Hb) as [jm [rs [E1 [_ [_ [_ ->]]]]]]. cbn [c_jwt].
  apply all_ok_spec in E1. clear Hb. revert Hj. induction E1 as [|[n o] [n' o'] l0 l1 H1 H2 IH]; intros Hj; [constructor|].
  constructor; [|apply IH; intros name j Hin; apply (Hj name j); now right].
  unfold jwt_step in H1. cbn [fst snd] in *. unfold bind in H1. destruct o as [j0|]; [|discriminate].
  destruct (jwt_checked (pl_source p) n j0) as [j|] eqn:Ej; [|discriminate]. injection H1 as <- <-. split; [reflexivity|].
  unfold jwt_checked in Ej. destruct (validate_jwt_def (so_pem (pl_source p) n) (so_kid (pl_source p) n) (so_doc (pl_source p) n) (named n j0)) as [j'| |] eqn:Ev; try discriminate.
  injection Ej as ->. exists j0, (if String.eqb (j_key (named n j0)) "" then delivered (so_doc (pl_source p) n) else []), j.
  split; [reflexivity|]. split; [reflexivity|]. apply reached_boot; [|exact Ev]. destruct (Hj n j0 (or_introl eq_refl)) as [B1 [B2 B3]]. repeat split; assumption.
Qed.

Lemma serves_body_limit : forall p h t c0, serves p h t -> told (pl_parse p) h c0 ->
  filled (d_max_body (c_down c0)) 2097152 (d_max_body (c_down (t_cfg t))).
Proof.
  intros p h t c0 [l [c1 [H [Ht1 [_ Hu]]]]] Ht. assert (c1 = c0) by exact (told_unique _ _ _ _ Ht1 Ht). subst c1.
  destruct Hu as [_ [c [Hb [_ [_ [_ [_ [-> _]]]]]]]]. apply (boot_down_filled _ _ _ _ _ Hb).
Qed.

Lemma serves_mode : forall p h t c0, serves p h t -> told (pl_parse p) h c0 -> (d_mode (c_down (t_cfg t)) = "TLS" <-> wants_tls c0).
Proof.
  intros p h t c0 [l [c1 [H [Ht1 [_ Hu]]]]] Ht. assert (c1 = c0) by exact (told_unique _ _ _ _ Ht1 Ht). subst c1.
  destruct Hu as [_ [c [Hb [_ [_ [_ [_ [-> _]]]]]]]]. exact (proj2 (boot_tls _ _ _ _ Hb)).
Qed.

Lemma started_too_large : forall p h t c0 limit, serves p h t -> told (pl_parse p) h c0 ->
  filled (d_max_body (c_down c0)) 2097152 limit -> proxied_request (t_cfg t) (t_in t) -> honest_length (t_req t) ->
  (0 <= limit < Z.of_nat (String.length (q_data (t_req t))))%Z ->
  (exists r, t_serve t = Answered r /\ rp_status r = 413%Z) /\ forall x, ~ asks t x.
Proof.
  intros p h t c0 limit Hsv Ht Hf Hp Hh Hl. pose proof (serves_body_limit _ _ _ _ Hsv Ht) as Hb.
  assert (E : d_max_body (c_down (t_cfg t)) = limit) by (destruct Hb as [[A1 A2]|[A1 A2]], Hf as [[B1 B2]|[B1 B2]]; congruence).
  apply too_large_413; [exact Hp|exact Hh|exact (serves_configured _ _ _ Hsv)|now rewrite E].
Qed.

Lemma started_hsts : forall p h t c0 r, serves p h t -> told (pl_parse p) h c0 -> replies t r -> sized (t_req t) -> canonical_answers (t_run t) ->
  let s := values "Strict-Transport-Security" (rp_header r) in
  (wants_tls c0 -> hd_error s = Some "max-age=31536000") /\
  (~ wants_tls c0 -> s = [] \/ exists i rs, answered (t_run t) i rs /\ s = values "Strict-Transport-Security" (ur_header rs)).
Proof.
  intros p h t c0 r Hsv Ht Hr Hz Hc. cbv zeta. rewrite <- (serves_mode _ _ _ _ Hsv Ht).
  exact (hsts t r Hr Hz (serves_configured _ _ _ Hsv) Hc).
Qed.

Lemma started_errors : forall p h t r dec, serves p h t -> (forall s, String.length (h_md5 h s) = 16) -> utf8 (h_env h "VERSION") ->
  replies t r -> sized (t_req t) -> timely_run t -> no_gzip_client (t_req t) ->
  t_serve t = About r \/ (exists rs body, relayed t r rs body) \/
  exists status m dice text v, own_error (t_env t) status m /\ rp_status r = status /\ versioned h v /\
    values "Content-Type" (rp_header r) = ["application/json"] /\
    content_of dec (values "Content-Encoding" (rp_header r)) (rp_body r) = Some text /\
    read_object text = Some [("j8a", JStr (Json.random_huttese dice)); ("ServerID", JStr (server_id h));
      ("Version", JStr v); ("Code", JInt status); ("Message", JStr m)].
Proof.
  intros p h t r dec Hsv Hm Hv Hr Hz Htm Hg. destruct (serves_values _ _ _ Hsv Hm) as [U1 U2].
  destruct (errors_readable t r dec Hr Hz Htm U1 (U2 Hv) Hg) as [A|[A|A]]; [now left|right; now left|right; right].
  destruct A as [st [m [dice [text [A1 [A2 [A3 [A4 A5]]]]]]]]. destruct Hsv as [l [c0 [H [_ [He _]]]]].
  destruct (start_inv p h l H) as [c1 [c [_ [_ [_ [_ [Henv _]]]]]]]. rewrite He, Henv in A5. cbn [e_id e_version] in A5.
  exists st, m, dice, text, (version h). split; [exact A1|]. split; [exact A2|]. split; [|now repeat split].
  unfold versioned, version. destruct (h_env h "VERSION") as [|a s]; [now right|left; split; [discriminate|reflexivity]].
Qed.
