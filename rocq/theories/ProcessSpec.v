(** Vocabulary for statements about a process that serves requests (C87 to C91). *)
From Coq Require Import String Ascii List Bool ZArith NArith.
From Verif Require Import GoStr Policy Config ConfigSpec Exchange Jwt JwtSpec JwksRate Machine Handler HandlerSpec SystemSpec Startup StartupSpec Process.
Import ListNotations.
Local Open Scope string_scope.

(** A process: where it was started, as what it listens, the configuration it was told to use, jwx,
    http.NewRequest and the time it began to listen. *)
Record daemon := Daemon {
  dm_place : place; dm_host : host; dm_listener : listener; dm_told : config jwt;
  dm_lib : library; dm_new : string -> string -> bool; dm_since : Z }.

(** It did start; nothing in the configuration file could set key sets or counters. *)
Definition up (m : daemon) : Prop :=
  sorts_routes (pl_sort (dm_place m)) /\ listens (dm_place m) (dm_host m) (dm_listener m) /\
  told (pl_parse (dm_place m)) (dm_host m) (dm_told m) /\
  forall name j, In (name, Some j) (c_jwt (dm_told m)) -> blank j /\ j_count j = 0.

Definition executes (m : daemon) (p : process) (es : list event) : option process :=
  process_exec (li_env (dm_listener m)) (dm_lib m) (dm_new m) (li_config (dm_listener m)) p es.

(** After events [es] the process is in state [p]. *)
Definition after (m : daemon) (es : list event) (p : process) : Prop :=
  up m /\ executes m (process_init (li_config (dm_listener m)) (dm_since m)) es = Some p.

(** The configuration of the moment *)
Definition config_at (m : daemon) (p : process) : config jwt := current (li_config (dm_listener m)) p.

(** The jwt called [n] as it was configured, and as it is now *)
Definition defined (m : daemon) (n : string) (j0 : jwt) : Prop := lookup n (c_jwt (dm_told m)) = Some (Some j0).
Definition now_is (p : process) (n : string) (j : jwt) : Prop := lookup n (p_jwts p) = Some (Some j).

(** Documents fetched for it: at boot, if it has no key of its own, and since *)
Definition at_boot (m : daemon) (n : string) (j0 : jwt) : list (list jwk) :=
  if String.eqb (j_key j0) "" then delivered (so_doc (pl_source (dm_place m)) n) else [].
Definition since (p : process) (n : string) : list (list jwk) :=
  flat_map (fun e => if String.eqb (fst e) n then delivered (snd e) else []) (p_docs p).

(** * Requests *)

Definition arrivals (es : list event) : nat := length (filter (fun e => match e with Arrive _ _ => true | _ => false end) es).

(** What request [k] does *)
Definition labels_of (k : nat) (es : list event) : list label :=
  flat_map (fun e => match e with Go k' l => if Nat.eqb k' k then [l] else [] | _ => [] end) es.

(** Request [k] comes in as [i] with chances [ch] after [es1], before [es2]. *)
Definition comes_in (k : nat) (i : incoming) (ch : chance) (es1 es es2 : list event) : Prop :=
  es = (es1 ++ Arrive i ch :: es2)%list /\ arrivals es1 = k.

Definition authorization (i : incoming) : string := Header.get "Authorization" (q_header (i_req i)).

(** * Refreshes *)

(** Goroutine [k] refreshes the keys of [n] and is at [f]. *)
Definition refresher (p : process) (k : nat) (n : string) (f : fetcher) : Prop := nth_error (p_gs p) k = Some (n, f).

Definition busy (f : fetcher) : Prop := match f with FTry | FEnd => False | _ => True end.
(** All keys of its document have been looked at. *)
Definition past_keys (f : fetcher) : Prop := match f with FTry | FFetch | FInstall _ => False | _ => True end.

(** When refreshes of [n] began, latest first *)
Definition begun (p : process) (n : string) : list Z := map snd (filter (fun e => String.eqb (fst e) n) (p_starts p)).

(** Every two of them are ten seconds apart. *)
Definition spaced_out (ts : list Z) : Prop := forall a t1 b t2 c, ts = (a ++ t1 :: b ++ t2 :: c)%list -> (t2 + 10000000000 <= t1)%Z.

(** Requests that asked for a refresh of [n] *)
Definition asked (p : process) (n : string) : list visit :=
  filter (fun v => match v_rotated v with Some m => String.eqb m n | None => false end) (p_visits p).

(** A document for [alg] all of whose entries can be processed: they are marked for [alg] and, for an ES
    algorithm, are ECDSA keys. *)
Definition processable (alg : string) (ks : list jwk) : Prop :=
  forall d, In d ks -> jk_alg d = alg /\ (In alg ["ES256"; "ES384"; "ES512"] -> exists b n, jk_raw d = Some (KEc b n)).

(** A key is configured for [n] or was in a document fetched for it, marked for its algorithm. *)
Definition allowed (m : daemon) (p : process) (n : string) (j0 : jwt) (kid : string) (k : key) : Prop :=
  (j_key j0 <> "" /\ stands_for (so_pem (pl_source (dm_place m)) n) j0 k) \/ published (at_boot m n j0 ++ since p n) (j_alg j0) kid k.

(** The keys of [n] were fetched at boot. *)
Definition fetched_at_boot (m : daemon) (n : string) : Prop := exists j0, defined m n j0 /\ j_key j0 = "" /\ j_url j0 <> "".

(** Entry [d] of document [ks] gets its turn: neither it nor an entry before it has another algorithm or is no
    ECDSA key for an ES algorithm, and none before it has its kid. *)
Definition has_turn (alg : string) (d : jwk) (ks : list jwk) : Prop :=
  exists a b, ks = (a ++ d :: b)%list /\ processable alg (a ++ [d]) /\ ~ In (jk_kid d) (map jk_kid a).
