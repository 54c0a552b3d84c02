(** The process once it listens: any number of requests at once (proxyhandler.go), each served as in
    Handler and Machine, and the refreshes of key sets they start (proxy.go:620-632, jwt.go:170-255).

    Simplifications.  A token is checked in one step; validateJwt passes the key set on by value
    (proxy.go:539-546), so what a refresh adds meanwhile plays no part.  A key is added in one step.  The
    semaphore is a flag.  Requests share the key sets and nothing else: labels and random numbers are chances of
    each request (see Policy for the state behind them). *)
From Coq Require Import String Ascii List Bool ZArith NArith.
From Verif Require Import GoStr Header Policy Config Routing Exchange Jwt JwksRate Machine Handler.
Import ListNotations.
Local Open Scope string_scope.

(** Where a goroutine that runs LoadJwks is: before TryAcquire (jwt.go:174), fetching (176), in the loop
    with the remaining keys (187-239), at the test of the count (242), asleep until some time (243), at the
    increment (245), before Release (247), and returned. *)
Inductive fetcher := FTry | FFetch | FInstall (ks : list jwk) | FTest | FSleep (until : Z) | FCount | FRelease | FEnd.

(** A request, what serving it led to, the state of the run that may have started, and the jwt whose keys it
    caused to be refreshed *)
Record visit := Visit { v_in : incoming; v_chance : chance; v_out : outcome; v_state : state; v_rotated : option string }.

(** Time in nanoseconds; Runner.Jwt; for each jwt its lock and updateCount; the goroutines that run
    LoadJwks, with the name of the jwt; requests in order of arrival; whether the process has ended.  For the
    record: when locks were acquired and what was fetched, latest first. *)
Record process := Process {
  p_now : Z; p_jwts : smap (option jwt); p_locked : string -> bool; p_count : string -> nat;
  p_gs : list (string * fetcher); p_visits : list visit; p_dead : bool;
  p_starts : list (string * Z); p_docs : list (string * option (list jwk)) }.

Inductive event :=
| Arrive (i : incoming) (ch : chance)           (* a request comes in *)
| Go (k : nat) (l : label)                      (* request k goes on, see Machine *)
| Load (k : nat) (doc : option (list jwk))      (* goroutine k goes on; doc is what jwk.Fetch returns, if it ends *)
| Wait (d : Z).                                 (* time passes *)

Definition set_at {A} (n : string) (x : A) (f : string -> A) : string -> A := fun m => if String.eqb m n then x else f m.

Definition with_jwts (m : smap (option jwt)) (c : config jwt) : config jwt :=
  Cfg (c_policies c) (c_routes c) m (c_resources c) (Config.c_down c) (c_up c).

Section Process.
  Variable E : env.
  Variable L : library.
  Variable new_request : string -> string -> bool.
  Variable cfg : config jwt.

  (** The configuration with the key sets of the moment *)
  Definition current (p : process) : config jwt := with_jwts (p_jwts p) cfg.

  (** proxy.go:586-595 with 620-632, reached through proxyhandler.go:33-57: the jwt whose refresh a request
      starts *)
  Definition rotates (c : config jwt) (ch : chance) (i : incoming) : option string :=
    match mux_serve (about_paths (c_routes c)) i with
    | TProxy =>
        if validate (parse_incoming E (ch_fresh ch) (i_req i)) then
          match select_route (c_routes c) (q_raw_uri (i_req i)) with
          | Some r =>
              if has_jwt r then
                match lookup (r_jwt r) (c_jwt c) with
                | Some (Some j) =>
                    if refresh_triggered j (snd (validate_jwt L (ch_now ch) j (get "Authorization" (q_header (i_req i)))))
                    then Some (r_jwt r) else None
                | _ => None
                end
              else None
          | None => None
          end
        else None
    | _ => None
    end.

  Definition with_visits (vs : list visit) (p : process) : process :=
    Process (p_now p) (p_jwts p) (p_locked p) (p_count p) (p_gs p) vs (p_dead p) (p_starts p) (p_docs p).

  (** A request comes in; its clock is that of the process. *)
  Definition arrive (i : incoming) (ch : chance) (p : process) : option process :=
    if Z.eqb (ch_now ch) (unix (p_now p)) then
      let rot := rotates (current p) ch i in
      let v := Visit i ch (serve E L new_request (current p) ch i) init rot in
      Some (Process (p_now p) (p_jwts p) (p_locked p) (p_count p)
              (p_gs p ++ match rot with Some n => [(n, FTry)] | None => [] end)%list
              (p_visits p ++ [v])%list (p_dead p) (p_starts p) (p_docs p))
    else None.

  Definition go_on (k : nat) (l : label) (p : process) : option process :=
    match nth_error (p_visits p) k with
    | Some v =>
        match v_out v with
        | Upstream c =>
            match step c (v_state v) l with
            | Some s => Some (with_visits (set_nth k (Visit (v_in v) (v_chance v) (v_out v) s (v_rotated v)) (p_visits p)) p)
            | None => None
            end
        | _ => None
        end
    | None => None
    end.

  (** Goroutine [k] goes on to [f]. *)
  Definition to (k : nat) (n : string) (f : fetcher) (p : process) : process :=
    Process (p_now p) (p_jwts p) (p_locked p) (p_count p) (set_nth k (n, f) (p_gs p)) (p_visits p) (p_dead p) (p_starts p) (p_docs p).
  Definition with_lock (n : string) (b : bool) (p : process) : process :=
    Process (p_now p) (p_jwts p) (set_at n b (p_locked p)) (p_count p) (p_gs p) (p_visits p) (p_dead p) (p_starts p) (p_docs p).
  Definition with_count (n : string) (c : nat) (p : process) : process :=
    Process (p_now p) (p_jwts p) (p_locked p) (set_at n c (p_count p)) (p_gs p) (p_visits p) (p_dead p) (p_starts p) (p_docs p).
  Definition with_jwt (n : string) (j : jwt) (p : process) : process :=
    Process (p_now p) (insert n (Some j) (p_jwts p)) (p_locked p) (p_count p) (p_gs p) (p_visits p) (p_dead p) (p_starts p) (p_docs p).
  Definition dead (p : process) : process :=
    Process (p_now p) (p_jwts p) (p_locked p) (p_count p) (p_gs p) (p_visits p) true (p_starts p) (p_docs p).
  Definition started (n : string) (p : process) : process :=
    Process (p_now p) (p_jwts p) (p_locked p) (p_count p) (p_gs p) (p_visits p) (p_dead p) ((n, p_now p) :: p_starts p) (p_docs p).
  Definition fetched (n : string) (doc : option (list jwk)) (p : process) : process :=
    Process (p_now p) (p_jwts p) (p_locked p) (p_count p) (p_gs p) (p_visits p) (p_dead p) (p_starts p) ((n, doc) :: p_docs p).

  (** jwt.go:187-239 for one key: the jwt, and whether the loop goes on (it ends at a key for another
      algorithm).  The loop is the one of [load_jwks], here for a document with this key only, whose count
      of refreshes plays no part: see [p_count]. *)
  Definition install (j : jwt) (d : jwk) : option (jwt * bool) :=
    match load_jwks (Some [d]) j with
    | None => None
    | Some (j', _) => Some (j', mem_str (jk_alg d) valid_alg && String.eqb (j_alg j) (jk_alg d))
    end.

  (** jwt.go:170-255 *)
  Definition load (k : nat) (doc : option (list jwk)) (p : process) : option process :=
    match nth_error (p_gs p) k with
    | None => None
    | Some (n, f) =>
        match f with
        | FTry => if p_locked p n then Some (to k n FEnd p) else Some (to k n FFetch (with_lock n true (started n p)))
        | FFetch =>
            Some (to k n (match doc with None | Some [] => FTest | Some ks => FInstall ks end) (fetched n doc p))
        | FInstall [] => Some (to k n FTest p)
        | FInstall (d :: ks) =>
            match lookup n (p_jwts p) with
            | Some (Some j) =>
                match install j d with
                | None => Some (dead p)
                | Some (j', true) => Some (to k n (FInstall ks) (with_jwt n j' p))
                | Some (_, false) => Some (to k n FTest p)
                end
            | _ => Some (dead p)
            end
        | FTest => Some (to k n (if Nat.ltb 0 (p_count p n) then FSleep (p_now p + slow_wait) else FCount) p)
        | FSleep t => if Z.leb t (p_now p) then Some (to k n FCount p) else None
        | FCount => Some (to k n FRelease (with_count n (S (p_count p n)) p))
        | FRelease => Some (to k n FEnd (with_lock n false p))
        | FEnd => None
        end
    end.

  Definition wait (d : Z) (p : process) : option process :=
    if Z.leb 0 d
    then Some (Process (p_now p + d) (p_jwts p) (p_locked p) (p_count p) (p_gs p) (p_visits p) (p_dead p) (p_starts p) (p_docs p))
    else None.

  (** A process that has ended does nothing any more. *)
  Definition process_step (p : process) (e : event) : option process :=
    if p_dead p then None
    else match e with
         | Arrive i ch => arrive i ch p
         | Go k l => go_on k l p
         | Load k doc => load k doc p
         | Wait d => wait d p
         end.

  Fixpoint process_exec (p : process) (es : list event) : option process :=
    match es with
    | [] => Some p
    | e :: es' => match process_step p e with Some p' => process_exec p' es' | None => None end
    end.

  (** A process that has just started to listen; locks are free, and a count is 1 if keys were fetched at
      boot (jwt.go:160-164). *)
  Definition process_init (now : Z) : process :=
    Process now (c_jwt cfg) (fun _ => false)
      (fun n => match lookup n (c_jwt cfg) with Some (Some j) => j_count j | _ => 0 end) [] [] false [] [].
End Process.
