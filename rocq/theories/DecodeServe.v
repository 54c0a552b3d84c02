(** Proofs about where requests go and how the process listens, from the document on. *)
From Coq Require Import String Ascii List Bool ZArith NArith Lia.
From Verif Require Import GoStr NumberSpec Regex RegexSpec RegexGrammar Header Policy ConfigSpec ConfigProofs Exchange ExchangeSpec Tls Startup StartupSpec StartupProofs
  JwtSpec JwtProofs JwtKeys Machine MachineSpec SystemSpec SystemProofs Handler HandlerSpec HandlerProofs Config Jwt Decode DecodeSpec DecodeProofs DecodeStart.
Import ListNotations.
Local Open Scope string_scope.

Lemma number_read : forall float d p f z, In (p, f) number_settings -> number_at p d z -> f (decode float d) = z.
Proof.
  intros float d p f z I H. destruct (numbers_read float d p f I) as (R1 & R2 & _). destruct H as [(v & H1 & H2)|[H ->]]; [exact (R1 v z H1 H2)|exact (R2 H)].
Qed.
Lemma setting_read : forall float d p f s, In (p, f) text_settings -> text_at p d s -> f (decode float d) = s.
Proof.
  intros float d p f s I H. destruct (texts_read float d p f I) as (R1 & R2 & _). destruct H as [H|[H ->]]; [exact (R1 _ s H eq_refl)|exact (R2 H)].
Qed.
Lemma skip_read : forall float d b, flag_at (up "tlsInsecureSkipVerify") d b -> up_skip_verify (c_up (decode float d)) = b.
Proof.
  intros float d b H. destruct (flag_read float d) as (R1 & R2 & _). destruct H as [H|[H ->]]; [exact (R1 _ b H eq_refl)|exact (R2 H)].
Qed.

Ltac in_table := cbn [number_settings text_settings]; repeat (first [left; reflexivity | right]).

Lemma listens_told : forall p h float yaml d l, written_in p h float yaml d -> listens p h l -> told (pl_parse p) h (decode float d).
Proof.
  intros p h float yaml d l W H. destruct (start_inv p h l H) as (c0 & c & Ht & _). now rewrite <- (told_document _ _ _ _ _ _ W Ht).
Qed.

Lemma document_listener : forall p h float yaml d l, written_in p h float yaml d -> listens p h l ->
  let v := li_server l in
  (forall z s, number_at (down "port") d z -> text_at (down "mode") d s ->
     exists port, filled z (if String.eqb (to_upper s) "TLS" then 443 else 8080) port /\ sv_addr v = ":" ++ itoa_Z port) /\
  (forall s, text_at (down "mode") d s -> (li_tls l <> None <-> to_upper s = "TLS")) /\
  (forall c k q, text_at (down "cert") d c -> text_at (down "key") d k -> li_tls l = Some q -> pl_pair p c k = Some (tp_chain q)) /\
  (forall z, number_at (down "readTimeoutSeconds") d z -> StartupSpec.fits z -> lasts z 120 (sv_read v) /\ sv_read_header v = sv_read v) /\
  (forall z, number_at (down "idleTimeoutSeconds") d z -> StartupSpec.fits z -> lasts z 120 (sv_idle v)) /\
  (forall z, number_at (down "roundTripTimeoutSeconds") d z -> StartupSpec.fits z -> lasts z 240 (sv_write v - 1000000000)) /\
  (forall z, number_at (down "maxBodyBytes") d z -> filled z 2097152 (e_max_body (li_env l))).
Proof.
  intros p h float yaml d l W H v. assert (T := listens_told _ _ _ _ _ _ W H).
  destruct (listener_timeouts p h l _ H T) as (A & B & C & D). destruct (listens_tls p h l _ H T) as (E & _ & F).
  assert (N := number_read float d). assert (S1 := setting_read float d).
  split.
  { intros z s Hz Hs. destruct A as (port & P1 & P2).
    rewrite (N (down "port") (fun c => d_port (c_down c)) z ltac:(in_table) Hz) in P1.
    rewrite (S1 (down "mode") (fun c => d_mode (c_down c)) s ltac:(in_table) Hs) in P1. now exists port. }
  split.
  { intros s Hs. unfold wants_tls in E. now rewrite (S1 (down "mode") (fun c => d_mode (c_down c)) s ltac:(in_table) Hs) in E. }
  split.
  { intros c k q Hc Hk Hq. destruct (F q Hq) as (_ & leaf & rest & _ & F2 & _).
    now rewrite (S1 (down "cert") (fun c => d_cert (c_down c)) c ltac:(in_table) Hc), (S1 (down "key") (fun c => d_key (c_down c)) k ltac:(in_table) Hk) in F2. }
  split.
  { intros z Hz Hf. now rewrite (N (down "readTimeoutSeconds") (fun c => d_read_timeout (c_down c)) z ltac:(in_table) Hz) in B; apply B. }
  split.
  { intros z Hz Hf. now rewrite (N (down "idleTimeoutSeconds") (fun c => d_idle_timeout (c_down c)) z ltac:(in_table) Hz) in C; apply C. }
  split.
  { intros z Hz Hf. now rewrite (N (down "roundTripTimeoutSeconds") (fun c => d_roundtrip_timeout (c_down c)) z ltac:(in_table) Hz) in D; apply D. }
  intros z Hz. destruct (start_inv p h l H) as (c0 & c & Ht & Hb & _ & _ & -> & _). rewrite (told_document _ _ _ _ _ _ W Ht) in Hb.
  destruct (boot_down_filled _ _ _ _ _ Hb) as (_ & _ & _ & M & _). cbn [e_max_body].
  now rewrite (N (down "maxBodyBytes") (fun c => d_max_body (c_down c)) z ltac:(in_table) Hz) in M.
Qed.

Lemma document_client : forall p h float yaml d l, written_in p h float yaml d -> listens p h l ->
  let k := li_client l in
  (forall z, number_at (up "socketTimeoutSeconds") d z -> StartupSpec.fits z -> lasts z 3 (cl_dial k) /\ cl_handshake k = cl_dial k) /\
  (forall z, number_at (up "idleTimeoutSeconds") d z -> StartupSpec.fits z -> lasts z 120 (cl_idle k)) /\
  (forall z, number_at (up "poolSize") d z -> filled z 32768 (cl_idle_conns k) /\ cl_idle_per_host k = cl_idle_conns k) /\
  (forall b, flag_at (up "tlsInsecureSkipVerify") d b -> cl_skip_verify k = b).
Proof.
  intros p h float yaml d l W H k. assert (T := listens_told _ _ _ _ _ _ W H).
  destruct (client_params p h l _ H T) as (A & B & C & D & E). fold k in A, B, C, D, E. assert (N := number_read float d).
  split.
  { intros z Hz Hf. rewrite (N (up "socketTimeoutSeconds") (fun c => up_socket_timeout (c_up c)) z ltac:(in_table) Hz) in A. exact (A Hf). }
  split.
  { intros z Hz Hf. rewrite (N (up "idleTimeoutSeconds") (fun c => up_idle_timeout (c_up c)) z ltac:(in_table) Hz) in B. exact (B Hf). }
  split.
  { intros z Hz. rewrite (N (up "poolSize") (fun c => up_pool (c_up c)) z ltac:(in_table) Hz) in C. split; [exact C|exact D]. }
  intros b Hb. rewrite E. exact (skip_read float d b Hb).
Qed.

(** * Where requests go *)

Lemma entry_servers : forall float d m n el, says ["resources"] d m -> entry n m (DArr el) ->
  exists l', lookup n (c_resources (decode float d)) = Some (Some l') /\ Forall2 server_read el l'.
Proof.
  intros float d m n el Hm He. destruct (resources_read float d) as (R & _ & _). destruct (R m n _ Hm He) as (ms & L & H & _).
  destruct (H el eq_refl) as (l' & -> & F). now exists l'.
Qed.

Lemma document_targets : forall p h t float yaml d l x, sorts_routes (pl_sort p) -> written_in p h float yaml d -> says ["routes"] d (DArr l) ->
  StartupSpec.serves p h t -> asks t x -> sized (t_req t) ->
  exists e rest, route_for l (q_raw_uri (t_req t)) e /\
    (forall res m el, text_for "resource" e res -> says ["resources"] d m -> entry res m (DArr el) ->
       exists s sm u, In s el /\ server_read s sm /\ server_of (rm_url sm) u /\ uq_uri x = base_url u ++ rest /\
         (forall pol, text_for "policy" e pol ->
            (pol = "" /\ hd_error el = Some s) \/
            (pol <> "" /\ In (ch_label (t_chance t) (match lookup pol (c_policies (t_cfg t)) with Some q => q | None => [] end)) (rm_labels sm)))) /\
    (text_for "transform" e "" -> rest = q_uri (t_req t)) /\
    (forall tr path, text_for "transform" e tr -> text_for "path" e path -> tr <> "" -> literal path = true -> (exists y, path = "/" ++ y) -> origin_form (t_req t) ->
       exists tail, q_raw_uri (t_req t) = path ++ tail /\ rest = (if String.eqb tr "/" then "" else tr) ++ tail).
Proof.
  intros p h t float yaml d l x Hs W Hl (li & c0 & _ & Ht & _ & Hu) Ha Hq.
  assert (E := told_document _ _ _ _ _ _ W Ht). subst c0.
  destruct (asks_where _ _ _ _ _ Hu Ha Hq) as (r0 & ms & m & u & rest & (I0 & M0 & Hmax) & (Lr & Im & Sv) & Hp & Hx & Ht1 & Ht2).
  destruct (routes_read float d) as (R & _ & _). assert (F := R l Hl). clear R.
  destruct (Forall2_left _ _ _ _ _ _ F I0) as (e & Ie & Re). exists e, rest.
  assert (RF : forall n f s, In (n, f) route_settings -> text_for n e s -> f r0 = s) by (intros n f s I T; exact (route_field e r0 n f s Re I T)).
  split; [|split; [|split]].
  - split; [exact Ie|]. exists (r_path r0). split; [exact (proj2 Re "path" r_path (or_introl eq_refl))|]. split; [exact M0|].
    intros e' s' I' T' M'. destruct (Forall2_right _ _ _ _ _ _ F I') as (r' & Ir & Rr).
    assert (P := route_field e' r' "path" r_path s' Rr (or_introl eq_refl) T'). subst s'. exact (Hmax r' Ir M').
  - intros res mm el Tr Hm He. assert (P := RF "resource" r_resource res ltac:(do 2 right; now left) Tr). subst res.
    destruct (entry_servers float d mm _ el Hm He) as (l' & L' & F'). rewrite Lr in L'. injection L' as <-.
    destruct Hp as [[P1 P2]|[P1 P2]].
    + destruct F' as [|s m' el' l' S1 F']; [discriminate P2|]. injection P2 as ->. exists s, m, u. split; [now left|]. split; [exact S1|].
      split; [exact Sv|]. split; [exact Hx|]. intros pol Tp. assert (P := RF "policy" r_policy pol ltac:(do 3 right; now left) Tp).
      left. split; [congruence|reflexivity].
    + destruct (Forall2_left _ _ _ _ _ _ F' Im) as (s & Is & S1). exists s, m, u. split; [exact Is|]. split; [exact S1|].
      split; [exact Sv|]. split; [exact Hx|]. intros pol Tp. assert (P := RF "policy" r_policy pol ltac:(do 3 right; now left) Tp). subst pol.
      right. split; [exact P1|exact P2].
  - intros Tt. apply Ht1. exact (RF "transform" r_transform "" ltac:(right; now left) Tt).
  - intros tr path Tt Tp. assert (P := RF "transform" r_transform tr ltac:(right; now left) Tt). assert (Q := RF "path" r_path path ltac:(now left) Tp).
    subst tr path. exact Ht2.
Qed.

Lemma document_attempts : forall p h t float yaml d xs z, written_in p h float yaml d -> StartupSpec.serves p h t -> sends t xs -> sized (t_req t) ->
  number_at (up "maxAttempts") d z -> (Z.of_nat (List.length xs) <= Z.max 1 z)%Z.
Proof.
  intros p h t float yaml d xs z W (li & c0 & _ & Ht & _ & Hu) Ha Hq Hz. assert (E := told_document _ _ _ _ _ _ W Ht). subst c0.
  destruct (asks_count _ _ _ _ _ Hu Ha Hq) as [H _].
  now rewrite (number_read float d (up "maxAttempts") (fun c => up_max_attempts (c_up c)) z ltac:(in_table) Hz) in H.
Qed.
