(** Cases for Thm_Gzip, and what becomes of bodies that are not valid gzip. *)
From Coq Require Import String Ascii List Bool ZArith NArith Lia.
From Verif Require Import GoStr Header HeaderSpec Regex Policy Config ConfigSpec Exchange ExchangeSpec ExchangeProofs Jwt JwtSpec JwtCases Machine MachineSpec MachineRaces
  Handler HandlerSpec HandlerCases SystemSpec SystemProofs SystemCases Gzip GzipSpec.
Import ListNotations.
Local Open Scope string_scope.

(** A compressor that emits every byte but the last it was given, and the last when it is closed, between
    marks; a decompressor that yields the bytes one by one. *)
Definition toy_write (st : string) (x : ascii) : string * string := (String x "", if String.eqb st "" then "<" else st).
Definition toy_close (st : string) : string * string := ("used", st ++ ">").
Definition toy_read (u : string) : option (string * string) :=
  match u with String x u' => if Ascii.eqb x ">" then None else Some (String x "", u') | EmptyString => None end.

Definition toy_gzip := gzip_exec "used" "" toy_write toy_close "used" (fun s => drop 1 s) toy_read gzip_init.

(** Two calls of Gzip run interleaved, a third uses the writer of the first while the second goes on, and
    Gunzip is called in between. *)
Definition mixed : list glabel :=
  [CallGzip "ab"; CallGzip "cd"; Zip 0 None; Zip 1 None; Zip 0 None; Zip 1 None; Zip 1 None; Zip 0 None; Zip 0 None; Zip 0 None;
   CallGunzip "<yz>"; Unzip 0 None; Unzip 0 None; Zip 0 None; Zip 0 None; CallGzip "e"; Zip 2 (Some 0); Unzip 0 None; Zip 2 None;
   Zip 1 None; Zip 2 None; Zip 2 None; Zip 1 None; Zip 1 None; Zip 2 None; Zip 2 None; Unzip 0 None; Unzip 0 None; Unzip 0 None; Zip 1 None].

Lemma mixed_runs : option_map (fun g => (List.map (zip_result g) [0; 1; 2], unzip_result g 0, length (g_wrts g), g_zpool g)) (toy_gzip mixed) =
  Some ([Some "<ab>"; Some "<cd>"; Some "<e>"], Some "yz", 2, [1; 0]).
Proof. vm_compute. reflexivity. Qed.

(** * Bodies that cannot be decoded *)

Lemma undecodable : forall E dec dice fresh q rs body, canonical_keys (ur_header rs) -> ~ (400 <= ur_status rs < 500)%Z ->
  values "Content-Encoding" (ur_header rs) = ["gzip"] -> dec "gzip" body = None ->
  ((exists v vs, values "Accept-Encoding" (q_header q) = v :: vs /\ contains v "gzip" = true) /\ gzip_start body) \/
  (no_gzip_client q /\ ~ gzip_start body) ->
  let r := proxied E dice (parse_incoming E fresh q) rs body in
  rp_body r = body /\ content_of dec (values "Content-Encoding" (rp_header r)) (rp_body r) = None.
Proof.
  intros E dec dice fresh q rs body Hc Hs Ce Hd H r. subst r. unfold proxied. rewrite not_client_error by assumption.
  rewrite <- is_gzip_not, <- is_gzip_iff in H. set (w := parse_incoming E fresh q).
  assert (Hw : w_send_gzip w = is_gzip body).
  { destruct H as [[[v [vs [Hv Hg]]] Hb]|[Hn Hb]]; rewrite Hb.
    - unfold w. cbn [parse_incoming w_send_gzip]. unfold get. change (canon "Accept-Encoding") with "Accept-Encoding". now rewrite Hv.
    - now apply no_gzip_flag. }
  assert (Hb : rp_body (assemble E w (Draft rs (ur_status rs) (is_gzip body) rs (is_gzip body) rs) body) = body).
  { cbn [assemble rp_body df_gz_body]. unfold encode_body. rewrite Hw. destruct (String.eqb_spec body "") as [->|]; [reflexivity|].
    now destruct (is_gzip body). }
  split; [exact Hb|]. unfold w. rewrite encoding_header by exact Hc. fold w. rewrite Hb. cbn [df_headers df_gz_header df_encoding]. rewrite Ce.
  destruct (String.eqb body ""); [exact Hd|]. unfold content_encoding, content_encoding_key. rewrite Hw, Ce.
  destruct (is_gzip body); exact Hd.
Qed.

Lemma relayed_undecodable : forall t dec r rs body, relayed t r rs body -> sized (t_req t) -> timely_run t ->
  canonical_keys (ur_header rs) -> ~ (400 <= ur_status rs < 500)%Z ->
  values "Content-Encoding" (ur_header rs) = ["gzip"] -> dec "gzip" body = None ->
  ((exists v vs, values "Accept-Encoding" (q_header (t_req t)) = v :: vs /\ contains v "gzip" = true) /\ gzip_start body) \/
  (no_gzip_client (t_req t) /\ ~ gzip_start body) ->
  rp_body r = body /\ content_of dec (values "Content-Encoding" (rp_header r)) (rp_body r) = None.
Proof. relayed. now apply undecodable. Qed.

(** A coding with a byte for whether it is complete *)
Definition half : env :=
  Env "v0.7.2" "unknown" true 10 (fun s => String (ascii_of_N 31) (String (ascii_of_N 139) (String "." s))) (drop 3).

Definition half_dec (c b : string) : option string :=
  if String.eqb c "gzip" then
    match b with
    | String x (String y (String z t)) => if (Ascii.eqb x (ascii_of_N 31) && Ascii.eqb y (ascii_of_N 139) && Ascii.eqb z ".")%bool then Some t else None
    | _ => None
    end
  else None.

Lemma half_codec : codec half half_dec.
Proof.
  assert (D : forall b s, half_dec "gzip" b = Some s -> b = String (ascii_of_N 31) (String (ascii_of_N 139) (String "." s))).
  { intros b s H. unfold half_dec in H. change (String.eqb "gzip" "gzip") with true in H. cbn iota in H. destruct b as [|x [|y [|z t]]]; try discriminate.
    destruct (Ascii.eqb_spec x (ascii_of_N 31)) as [->|]; [|discriminate]. destruct (Ascii.eqb_spec y (ascii_of_N 139)) as [->|]; [|discriminate].
    destruct (Ascii.eqb_spec z ".") as [->|]; [|discriminate]. cbn [andb] in H. now injection H as ->. }
  split; [|split].
  - intro s. reflexivity.
  - intros b s H. apply D in H. now subst b.
  - intros b s H. apply D in H. subst b. now exists (String "." s).
Qed.

Definition cut : string := String (ascii_of_N 31) (String (ascii_of_N 139) "!hel").
Definition gzipped : up_response := UpResp 200 [("Content-Encoding", "gzip")].

Definition cut_run : list label :=
  (MachineRaces.answer gzipped cut ++ repeat (LMain 0) 12)%list.

Definition cut_off (h : header) : setting := Setting half lib always live chance0 (ask "get" "/mse6/x" "/mse6/x" h) cut_run.

Lemma cut_conf : forall h c, t_serve (cut_off h) = Upstream c -> c = conf_of (cut_off h).
Proof. intros h c H. unfold conf_of. rewrite H. reflexivity. Qed.

Lemma run_outcome : forall t c st ce b, t_serve t = Upstream c ->
  option_map (fun s => (length (s_sent s), map (fun r => (rp_status r, values "Content-Encoding" (rp_header r), rp_body r)) (s_out s))) (exec c init (t_run t)) = Some (1, [(st, ce, b)]) ->
  exists s r, ran t c s /\ length (s_sent s) = 1 /\ s_out s = [r] /\ rp_status r = st /\ values "Content-Encoding" (rp_header r) = ce /\ rp_body r = b.
Proof.
  intros t c st ce b H V. destruct (exec c init (t_run t)) as [s|] eqn:E; [|discriminate V]. cbn [option_map] in V.
  injection V as V1 V2. destruct (s_out s) as [|r [|r' l]] eqn:Eo; try discriminate V2. cbn [map] in V2. injection V2 as V3 V4 V5.
  exists s, r. split; [split; [exact H|exact E]|]. split; [exact V1|]. split; [exact Eo|]. split; [exact V3|]. split; [exact V4|exact V5].
Qed.

Lemma cut_relayed : forall h ce b, t_serve (cut_off h) = Upstream (conf_of (cut_off h)) ->
  option_map (fun s => (length (s_sent s), map (fun r => (rp_status r, values "Content-Encoding" (rp_header r), rp_body r)) (s_out s)))
    (exec (conf_of (cut_off h)) init cut_run) = Some (1, [(200%Z, ce, b)]) ->
  exists r, relayed (cut_off h) r gzipped cut /\ replies (cut_off h) r /\ rp_status r = 200%Z /\ values "Content-Encoding" (rp_header r) = ce /\ rp_body r = b.
Proof.
  intros h ce b Hu V. destruct (run_outcome (cut_off h) _ _ _ _ Hu V) as [s [r [H [L [O [R1 [R2 R3]]]]]]]. exists r. split; [|split].
  - exists (conf_of (cut_off h)), s. split; [exact H|]. split; [exact O|]. split; [rewrite R1; cbn; lia|]. rewrite L. split; cbn; tauto.
  - right. right. exists (conf_of (cut_off h)), s. split; [exact H|]. rewrite O. left. reflexivity.
  - split; [exact R1|]. split; [exact R2|exact R3].
Qed.

Lemma cut_plain : exists r, relayed (cut_off []) r gzipped cut /\ replies (cut_off []) r /\ rp_status r = 200%Z /\
  values "Content-Encoding" (rp_header r) = ["identity"] /\ rp_body r = "hel".
Proof. apply cut_relayed; vm_compute; reflexivity. Qed.

Lemma cut_gzip : exists r, relayed (cut_off [("Accept-Encoding", "gzip")]) r gzipped cut /\ replies (cut_off [("Accept-Encoding", "gzip")]) r /\ rp_status r = 200%Z /\
  values "Content-Encoding" (rp_header r) = ["gzip"] /\ rp_body r = cut.
Proof. apply cut_relayed; vm_compute; reflexivity. Qed.

Lemma cut_timely : timely_run (cut_off []) /\ timely_run (cut_off [("Accept-Encoding", "gzip")]).
Proof. split; intros c s [H _]; rewrite (cut_conf _ c H); clear; vm_compute; tauto. Qed.

Lemma cut_sized : forall h, sized (t_req (cut_off h)).
Proof. intro h. unfold sized. cbn. lia. Qed.

Lemma cut_delivered : exists t dec r rs body, codec (t_env t) dec /\ relayed t r rs body /\ replies t r /\ sized (t_req t) /\ timely_run t /\
  no_gzip_client (t_req t) /\ values "Content-Encoding" (ur_header rs) = ["gzip"] /\ dec "gzip" body = None /\
  rp_status r = 200%Z /\ rp_body r = "hel" /\ content_of dec (values "Content-Encoding" (rp_header r)) (rp_body r) = Some "hel".
Proof.
  destruct cut_plain as [r [H1 [H2 [H3 [H4 H5]]]]]. exists (cut_off []), half_dec, r, gzipped, cut.
  split; [exact half_codec|]. split; [exact H1|]. split; [exact H2|]. split; [apply cut_sized|]. split; [exact (proj1 cut_timely)|].
  split; [intros v Hv; contradiction Hv|]. split; [reflexivity|]. split; [reflexivity|]. split; [exact H3|].
  split; [exact H5|]. rewrite H4, H5. reflexivity.
Qed.
