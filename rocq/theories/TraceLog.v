(** The lines logged about a request at level trace and debug until an upstream is asked: proxy.go:220-226
    and 231-282 (the body), 518-574 with 576-661 (tokens), route.go:47-92 (servers) and
    proxyhandler.go:117-127 (the URI of an attempt).

    Simplifications.  Elapsed times are left out.  Of an error in a line only its origin is kept.  The dates
    of a token are logged as text in two time zones as well, which says the same.  [ch_label], the label of
    the policy, is drawn once per request. *)
From Coq Require Import String Ascii List Bool ZArith NArith.
From Verif Require Import GoStr Header Kid Json Policy Config Routing Exchange Jwt Machine Handler AccessLog.
Import ListNotations.
Local Open Scope string_scope.

(** proxy.go:233-235, 243-246, 262-265, 267-270 and 273-276 *)
Inductive body_event := BNone | BRefused (length max : Z) | BLarge (n max : Z) | BBroken | BRead (n length : Z).

(** Why a token is rejected (proxy.go:562, 615, 540-548 with 589 and 607, and 554; [CNil] is an error that is nil). *)
Inductive cause := CNoToken | CNoSignature | CParse | CDates | CNil.

(** The date claims of a line, proxy.go:634-661 *)
Record date_claims := DateClaims { dc_iat : option Z; dc_nbf : option Z; dc_exp : option Z }.

(** proxy.go:523-525 and 565-571: "jwt token validated" if there is no cause *)
Record jwt_entry := JwtEntry { je_path : string; je_kid : option string; je_dates : option date_claims; je_cause : option cause }.

Inductive tevent :=
| TBody (b : body_event)
| TParsed (path method : string) (bytes : Z)
| TRotate (route jwt kid : string)
| TJwt (e : jwt_entry)
| TMapped (route upstream label policy : string)
| TDefault (route upstream : string)
| TUnmapped (route : string)
| TUri (path uri : string).

(** A line with its request id *)
Record tline := TLine { tl_id : string; tl_event : tevent }.

(** proxy.go:231-282 *)
Definition body_line (max : Z) (q : request) : body_event :=
  if Z.eqb (q_length q) 0 then BNone
  else if Z.geb (q_length q) max then BRefused (q_length q) max
  else
    let (buf, ok) := read_limited max (q_data q) (q_data_ok q) in
    if Z.gtb (zlen buf) max then BLarge (zlen buf) max
    else if negb ok then BBroken
    else BRead (zlen buf) (q_length q).

(** proxy.go:196-229 *)
Definition incoming_lines (E : env) (x : wire) (fresh : string) (q : request) : list tevent :=
  let w := parse_incoming E fresh q in
  [TBody (body_line (e_max_body E) q); TParsed (x_path x) (w_method w) (zlen (w_body w))].

(** proxy.go:634-661 *)
Definition logged_date (o : option Z) : option Z := if Z.ltb 1 (unix (date o)) then Some (unix (date o)) else None.
Definition log_date_claims (c : claims) : date_claims :=
  DateClaims (logged_date (cl_iat c)) (logged_date (cl_nbf c)) (logged_date (cl_exp c)).

(** proxy.go:576-618 with what is logged: parsed token, error, kid in the line, and the kid for which a key
    rotation check is triggered.  [None] is the panic of line 582. *)
Definition verify_signature_log (L : library) (token : string) (ks : keyset) (alg : string)
    : option (option claims * option cause * option string * option string) :=
  match lib_signatures L token with
  | None => None
  | Some O => Some (None, Some CNoSignature, None, None)
  | Some (S _) =>
      let kid := extract_kid token in
      match verify_signature L token ks alg with
      | None => None
      | Some (parsed, err, rotate) =>
          Some (parsed, if err then Some CParse else None,
                if String.eqb kid "" then None else Some kid,
                if rotate then Some kid else None)
      end
  end.

(** proxy.go:532-551 *)
Definition parse_token_log (L : library) (j : jwt) (token : string) : option (option claims * option cause * option string * option string) :=
  let alg := accept_alg (j_alg j) in
  if mem_str alg rsa_algs || mem_str alg ec_algs || mem_str alg hmac_algs
  then verify_signature_log L token (keys_for alg j) alg
  else match lib_parse L token with Some c => Some (Some c, None, None, None) | None => Some (None, Some CParse, None, None) end.

(** proxy.go:620-632 *)
Definition rotation_lines (r : route) (j : jwt) (rotate : option string) : list tevent :=
  match rotate with
  | Some k => if refresh_triggered j true then [TRotate (r_path r) (r_jwt r) k] else []
  | None => []
  end.

(** proxy.go:518-574 with the jwt [j] of route [r]; a panic leaves only what was logged before. *)
Definition jwt_lines (L : library) (now : Z) (r : route) (j : option jwt) (path auth : string) : list tevent :=
  match split " " auth with
  | _ :: token :: _ =>
      match j with
      | None => []
      | Some j =>
          match parse_token_log L j token with
          | None => []
          | Some (parsed, err, kid, rotate) =>
              let skew := match atoi (j_skew j) with Some z => z | None => 0%Z end in
              let rotation := rotation_lines r j rotate in
              let dates := match parsed with Some c => Some (log_date_claims c) | None => None end in
              match parsed, err with
              | Some _, None =>
                  match lib_parse L token with
                  | None => rotation
                  | Some c => rotation ++ [TJwt (JwtEntry path kid dates (if verify_date_claims now skew c then None else Some CDates))]
                  end
              | _, _ => rotation ++ [TJwt (JwtEntry path kid dates (Some (match err with Some e => e | None => CNil end)))]
              end
          end
      end
  | _ => [TJwt (JwtEntry path None None (Some CNoToken))]
  end%list.

(** route.go:47-92; the panic of line 83 comes before its line. *)
Definition map_lines {J} (choose : fpolicy -> string) (c : config J) (r : route) : list tevent :=
  match lookup (r_resource r) (c_resources c) with
  | None | Some None => []
  | Some (Some ms) =>
      if negb (String.eqb (r_policy r) "") then
        let label := choose (match lookup (r_policy r) (c_policies c) with Some p => p | None => [] end) in
        match first_labelled label ms with
        | Some u => [TMapped (r_path r) (url_string u) label (r_policy r)]
        | None => [TUnmapped (r_path r)]
        end
      else match ms with m :: _ => [TDefault (r_path r) (url_string (rm_url m))] | [] => [] end
  end.

(** proxyhandler.go:33-76 before the first attempt *)
Definition handler_lines (E : env) (L : library) (cfg : config jwt) (ch : chance) (x : wire) (q : request) : list tevent :=
  let w := parse_incoming E (ch_fresh ch) q in
  (incoming_lines E x (ch_fresh ch) q ++
   (if negb (validate w) then []
    else match select_route (c_routes cfg) (q_raw_uri q) with
         | None => []
         | Some r =>
             let auth := get "Authorization" (q_header q) in
             let j := match lookup (r_jwt r) (c_jwt cfg) with Some o => o | None => None end in
             (if has_jwt r then jwt_lines L (ch_now ch) r j (x_path x) auth else []) ++
             match (if has_jwt r then check_jwt L cfg (ch_now ch) r auth else Valid) with
             | Valid => map_lines (ch_label ch) cfg r
             | _ => []
             end
         end))%list.

(** proxyhandler.go:105-127: every attempt, before its request is sent; http.NewRequest may have failed
    before the line, which is noticed after it. *)
Fixpoint attempt_uris (c : conf) (x : wire) (s : state) (run : list label) : list tevent :=
  match run with
  | [] => []
  | l :: run' =>
      match step c s l with
      | None => []
      | Some s' =>
          (match l, s_pc s with LMain _, PStart => [TUri (x_path x) (uq_uri (c_request c))] | _, _ => [] end ++
           attempt_uris c x s' run')%list
      end
  end.
