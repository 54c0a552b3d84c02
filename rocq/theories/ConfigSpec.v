(** Vocabulary for statements about configuration, routing and upstream URLs. *)
From Coq Require Import String Ascii List Bool ZArith Permutation Sorted.
From Verif Require Import GoStr Regex RegexSpec RegexGrammar Policy Config.
Import ListNotations.
Local Open Scope string_scope.

(** What sort.Sort guarantees for routes: a permutation in which no path is followed by a longer
    one.  Nothing is said about the order of paths of equal length. *)
Definition sorts_routes (srt : list route -> list route) : Prop :=
  forall l, Permutation (srt l) l /\
            StronglySorted (fun a b => String.length (r_path b) <= String.length (r_path a))%nat (srt l).

(** A path as it is meant: with a leading slash. *)
Definition slashed (p : string) : string :=
  match p with
  | EmptyString => "/"
  | String c _ => if Ascii.eqb c "/" then p else "/" ++ p
  end.

(** The configured route matches the request URI: the expression "^" followed by its path occurs. *)
Definition route_matches (r : route) (uri : string) : Prop :=
  exists x, written x ("^" ++ r_path r) /\ found x uri.

(** Where a match has to begin after "^" and an operator that asks for at least [n] repetitions of it *)
Definition loosely (n : nat) (x : rx) (uri : string) : Prop := if Nat.eqb n 0 then found x uri else leads x uri.

(** [r] is the booted form of the configured route [r0]: same text, path with a leading slash. *)
Definition booted_from (r0 r : route) : Prop :=
  r_path r = slashed (r_path r0) /\ r_transform r = r_transform r0 /\ r_resource r = r_resource r0 /\
  r_policy r = r_policy r0 /\ r_jwt r = r_jwt r0 /\ re_compile ("^" ++ r_path r0) = r_regex r.

(** A numeric parameter: [v] as configured, [d] the default, [v'] after boot. *)
Definition filled (v d v' : Z) : Prop := (v = 0%Z /\ v' = d) \/ (v <> 0%Z /\ v' = v).

(** What must hold of a configuration for the server to start. *)
Definition valid_config {J} (jwt_validate : string -> J -> option J) (c : config J) : Prop :=
  (forall r, In r (c_routes c) -> exists x, written x ("^" ++ r_path r)) /\
  (forall r, In r (c_routes c) -> r_transform r = "" \/ exists t, r_transform r = "/" ++ t) /\
  (forall r, In r (c_routes c) -> r_jwt r = "" \/ In (r_jwt r) (map fst (c_jwt c))) /\
  (forall name j, In (name, j) (c_jwt c) -> exists d, j = Some d /\ jwt_validate name d <> None).

(** * Host and port of a URL text, as RFC 3986 and Go's net/url read it *)

Definition no_chars (cs : list ascii) (s : string) : Prop := forall c, In c cs -> has_char c s = false.

Definition delims : list ascii := ["/"; "?"; "#"]%char.

Definition ends_authority (s : string) : Prop :=
  s = "" \/ exists c t, In c delims /\ s = String c t.

(** The text of the URL names host and port [hp]. *)
Definition host_port (text hp : string) : Prop :=
  exists scheme auth tail,
    text = scheme ++ "://" ++ auth ++ tail /\ has_char ":" scheme = false /\
    no_chars delims auth /\ ends_authority tail /\
    (auth = hp \/ exists user, auth = user ++ "@" ++ hp) /\ has_char "@" hp = false.

Definition known_scheme (s : string) : Prop := s = "" \/ exists a b, s = a ++ "http" ++ b.

(** When a transform of "/" is safe: nothing is removed, or a delimiter follows the route path. *)
Definition safe_removal (p uri : string) : Prop := forall rest, uri = p ++ rest -> ends_authority rest.

Definition plain_server (u : url) : Prop :=
  has_char ":" (u_scheme u) = false /\ no_chars ("@" :: delims)%char (u_host u).
