(** What is logged while keys are loaded from a JWKS document (jwt.go:170-255).  The keys themselves are in Jwt.v.
    The error that is returned is looked at when the definition is validated (jwt.go:163), and by nobody when a
    request starts the load (proxy.go:625). *)
From Coq Require Import String Ascii List Bool ZArith NArith.
From Verif Require Import GoStr Jwt.
Import ListNotations.
Local Open Scope string_scope.

(** The lines of jwt.go:178, 180, 195-200 and 232 with what they tell; the fields of the third (jwt, jwtAlg, keyAlg)
    repeat its text. *)
Inductive key_line :=
| Fetched (name : string) (n : nat) (url : string)
| NotFetched (name url cause : string)
| OtherAlg (name key_alg alg : string)
| Parsed (name alg : string).

(** log.Warn() in jwt.go:180 and 195, log.Debug() for the others *)
Definition is_warning (l : key_line) : bool :=
  match l with NotFetched _ _ _ | OtherAlg _ _ _ => true | _ => false end.

(** The formats of jwt.go:178, 180, 193 and 232 *)
Definition key_text (l : key_line) : string :=
  match l with
  | Fetched name n url => "jwt [" ++ name ++ "] fetched " ++ itoa (N.of_nat n) ++ " jwk from jwks URL " ++ url
  | NotFetched name url cause => "jwt [" ++ name ++ "] unable to fetch jwk from jwks URL " ++ url ++ ", cause: " ++ cause
  | OtherAlg name key_alg alg =>
      "jwt [" ++ name ++ "] key algorithm [" ++ key_alg ++ "] in jwks keyset does not match configured alg [" ++ alg ++ "]."
  | Parsed name alg => "jwt [" ++ name ++ "] successfully parsed " ++ alg ++ " key from remote jwk"
  end.

(** jwt.go:187-237, with its lines.  [None] is a panic, after which nothing is logged. *)
Fixpoint load_keys_told (j : jwt) (ks : list jwk) (err : bool) : list key_line * option (jwt * bool) :=
  match ks with
  | [] => ([], Some (j, err))
  | k :: ks' =>
      (* jwt.go:189 *)
      let known := mem_str (jk_alg k) valid_alg in
      (* jwt.go:192-200 *)
      let other := negb (String.eqb (j_alg j) (jk_alg k)) in
      let warned := if other then [OtherAlg (j_name j) (jk_alg k) (j_alg j)] else [] in
      if negb known || other then (warned, Some (j, true))
      else
        (* jwt.go:203-231: the definition afterwards and the error, or a panic *)
        let entry :=
          if mem_str (jk_alg k) rsa_algs then
            match jk_raw k with
            | Some (KRsa n) => Some (with_rsa (upsert (j_rsa j) (jk_kid k, KRsa n)) j, false)
            | _ => Some (j, true)
            end
          else if mem_str (jk_alg k) ec_algs then
            match jk_raw k with
            | Some (KEc bits n) =>
                if bit_size_ok (jk_alg k) bits
                then Some (with_ec (upsert (j_ec j) (jk_kid k, KEc bits n)) j, false)
                else Some (j, true)
            | _ => None
            end
          else Some (j, true) in
        match entry with
        | None => (warned, None)
        | Some (j1, err1) =>
            (* jwt.go:232 *)
            let '(ls, r) := load_keys_told j1 ks' err1 in ((warned ++ Parsed (j_name j) (jk_alg k) :: ls)%list, r)
        end
  end.

(** jwt.go:170-255 when the lock is free; [doc] is what jwk.Fetch gives and [cause] the text of its error.  When the
    lock is taken there is one debug line (jwt.go:249-251), which is left out here. *)
Definition load_told (doc : option (list jwk)) (cause : string) (j : jwt) : list key_line * option (jwt * bool) :=
  match doc with
  | None => ([NotFetched (j_name j) (j_url j) cause], Some (counted j, true))
  | Some [] => ([Fetched (j_name j) 0 (j_url j)], Some (counted j, true))
  | Some ks =>
      let '(ls, r) := load_keys_told j ks false in
      ((Fetched (j_name j) (List.length ks) (j_url j) :: ls)%list, match r with Some (j', err) => Some (counted j', err) | None => None end)
  end.
