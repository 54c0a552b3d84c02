(** config.go:92-96: yaml.YAMLToJSON followed by json.Unmarshal into the configuration, both errors ignored.

    The tree of a document comes from the library; how encoding/json stores it in the structs of the repository is
    written out.  A value of the wrong type is an error that json.Unmarshal remembers and returns at the end; the
    field keeps what it had, and decoding goes on.

    Simplifications.  Names of fields are compared without regard to the case of ASCII letters; encoding/json also
    takes U+017F for s and U+212A for k.  The field PathRegex is left out, since config.go:125-134 overwrites it.  The
    fields RSAPublic, ECDSAPublic and Secret of a jwt are left out: what JSON can put there is not a key that
    verifies a signature.  When a name is there twice in different spellings and both values are arrays, encoding/json
    may bring back elements of the first array beyond the end of a shorter second one; here these are new. *)
From Coq Require Import String Ascii List Bool ZArith NArith.
From Verif Require Import GoStr Policy Config Kid Jwt.
Import ListNotations.
Local Open Scope string_scope.

(** A JSON value; numbers are the text of the literal. *)
Inductive doc :=
| DNull
| DBool (b : bool)
| DNum (literal : string)
| DStr (s : string)
| DArr (l : list doc)
| DObj (ms : list (string * doc)).

(** encoding/json, decode.go and fold.go: the field a name stands for *)
Definition same_name (field key : string) : bool := String.eqb (to_upper field) (to_upper key).

(** Values of the types string, int and int64, uint16 and bool; null has no effect on them. *)
Definition to_string (v : doc) (old : string) : string := match v with DStr s => s | _ => old end.
Definition to_int (v : doc) (old : Z) : Z :=
  match v with DNum t => match atoi t with Some z => z | None => old end | _ => old end.
Definition to_uint16 (v : doc) (old : N) : N :=
  match v with
  | DNum t => if String.prefix "-" t then old
              else match atoi t with Some z => if Z.ltb z 65536 then Z.to_N z else old | None => old end
  | _ => old
  end.
Definition to_bool (v : doc) (old : bool) : bool := match v with DBool b => b | _ => old end.

(** Elements of an array are stored in the elements that are there, then in new ones. *)
Fixpoint to_elements {A} (dec : doc -> A -> A) (zero : A) (l : list doc) (old : list A) : list A :=
  match l with
  | [] => []
  | v :: l' => match old with
               | [] => dec v zero :: to_elements dec zero l' []
               | a :: old' => dec v a :: to_elements dec zero l' old'
               end
  end.

(** A slice; null makes it nil. *)
Definition to_slice {A} (dec : doc -> A -> A) (zero : A) (v : doc) (old : list A) : list A :=
  match v with DArr l => to_elements dec zero l old | DNull => [] | _ => old end.
(** The same where nil and empty slices differ *)
Definition to_slice_nil {A} (dec : doc -> A -> A) (zero : A) (v : doc) (old : option (list A)) : option (list A) :=
  match v with
  | DArr l => Some (to_elements dec zero l match old with Some o => o | None => [] end)
  | DNull => None
  | _ => old
  end.

(** A map with string keys: every member is stored under its key, decoded into a new value, and null makes the map
    nil. *)
Definition to_map {A} (dec : doc -> A -> A) (zero : A) (v : doc) (old : smap A) : smap A :=
  match v with
  | DObj ms => fold_left (fun m e => insert (fst e) (dec (snd e) zero) m) ms old
  | DNull => []
  | _ => old
  end.

(** A struct: every member in turn is stored in the field it names, or in none. *)
Definition to_struct {A} (set : string -> doc -> A -> A) (v : doc) (old : A) : A :=
  match v with DObj ms => fold_left (fun a e => set (fst e) (snd e) a) ms old | _ => old end.

(** A pointer to a struct: null makes it nil, anything else is stored in what it points to, new if nil. *)
Definition to_pointer {A} (dec : doc -> A -> A) (zero : A) (v : doc) (old : option A) : option A :=
  match v with DNull => None | _ => Some (dec v match old with Some a => a | None => zero end) end.

(** * The structs *)

Section Structs.
  (** strconv.ParseFloat(literal, 64), [None] when out of range *)
  Variable parse_float : string -> option f64.
  Definition f64_zero : f64 := SpecFloat.S754_zero false.
  Definition to_float (v : doc) (old : f64) : f64 :=
    match v with DNum t => match parse_float t with Some f => f | None => old end | _ => old end.

  (** policy.go:9-15 *)
  Definition set_weight (k : string) (v : doc) (w : label_weight f64) : label_weight f64 :=
    if same_name "Label" k then LW (to_string v (lw_label w)) (lw_weight w)
    else if same_name "Weight" k then LW (lw_label w) (to_float v (lw_weight w))
    else w.
  Definition to_policy : doc -> fpolicy -> fpolicy := to_slice (to_struct set_weight) (LW "" f64_zero).

  (** route.go:26-33 *)
  Definition set_route (k : string) (v : doc) (r : route) : route :=
    if same_name "Path" k then Route (to_string v (r_path r)) (r_regex r) (r_transform r) (r_resource r) (r_policy r) (r_jwt r)
    else if same_name "Transform" k then Route (r_path r) (r_regex r) (to_string v (r_transform r)) (r_resource r) (r_policy r) (r_jwt r)
    else if same_name "Resource" k then Route (r_path r) (r_regex r) (r_transform r) (to_string v (r_resource r)) (r_policy r) (r_jwt r)
    else if same_name "Policy" k then Route (r_path r) (r_regex r) (r_transform r) (r_resource r) (to_string v (r_policy r)) (r_jwt r)
    else if same_name "Jwt" k then Route (r_path r) (r_regex r) (r_transform r) (r_resource r) (r_policy r) (to_string v (r_jwt r))
    else r.
  Definition zero_route : route := Route "" None "" "" "" "".

  (** jwt.go:48-61 *)
  Definition set_jwt (k : string) (v : doc) (j : jwt) : jwt :=
    let '(Jwt n a y u rs ec sc sk ct) := j in
    if same_name "Name" k then Jwt (to_string v n) a y u rs ec sc sk ct
    else if same_name "Alg" k then Jwt n (to_string v a) y u rs ec sc sk ct
    else if same_name "Key" k then Jwt n a (to_string v y) u rs ec sc sk ct
    else if same_name "JwksUrl" k then Jwt n a y (to_string v u) rs ec sc sk ct
    else if same_name "AcceptableSkewSeconds" k then Jwt n a y u rs ec sc (to_string v sk) ct
    else j.
  Definition zero_jwt : jwt := Jwt "" "" "" "" [] [] [] "" 0.

  (** upstream.go:8-12 *)
  Definition set_url (k : string) (v : doc) (u : url) : url :=
    if same_name "Scheme" k then Url (to_string v (u_scheme u)) (u_host u) (u_port u)
    else if same_name "Host" k then Url (u_scheme u) (to_string v (u_host u)) (u_port u)
    else if same_name "Port" k then Url (u_scheme u) (u_host u) (to_uint16 v (u_port u))
    else u.
  Definition zero_url : url := Url "" "" 0.

  (** resource.go:4-8 *)
  Definition set_mapping (k : string) (v : doc) (m : resource_mapping) : resource_mapping :=
    if same_name "Name" k then RM (to_string v (rm_name m)) (rm_labels m) (rm_url m)
    else if same_name "Labels" k then RM (rm_name m) (to_slice to_string "" v (rm_labels m)) (rm_url m)
    else if same_name "URL" k then RM (rm_name m) (rm_labels m) (to_struct set_url v (rm_url m))
    else m.
  Definition zero_mapping : resource_mapping := RM "" [] zero_url.

  (** connection.go:10-41 *)
  Definition set_down (k : string) (v : doc) (d : downstream) : downstream :=
    let '(Down rt tr it mb mo po ce ke) := d in
    if same_name "ReadTimeoutSeconds" k then Down (to_int v rt) tr it mb mo po ce ke
    else if same_name "RoundTripTimeoutSeconds" k then Down rt (to_int v tr) it mb mo po ce ke
    else if same_name "IdleTimeoutSeconds" k then Down rt tr (to_int v it) mb mo po ce ke
    else if same_name "MaxBodyBytes" k then Down rt tr it (to_int v mb) mo po ce ke
    else if same_name "Mode" k then Down rt tr it mb (to_string v mo) po ce ke
    else if same_name "Port" k then Down rt tr it mb mo (to_int v po) ce ke
    else if same_name "Cert" k then Down rt tr it mb mo po (to_string v ce) ke
    else if same_name "Key" k then Down rt tr it mb mo po ce (to_string v ke)
    else d.
  Definition zero_down : downstream := Down 0 0 0 0 "" 0 "" "".

  (** connection.go:44-69 *)
  Definition set_up (k : string) (v : doc) (u : upstream) : upstream :=
    let '(Upst po it st rt ma sv) := u in
    if same_name "PoolSize" k then Upst (to_int v po) it st rt ma sv
    else if same_name "IdleTimeoutSeconds" k then Upst po (to_int v it) st rt ma sv
    else if same_name "SocketTimeoutSeconds" k then Upst po it (to_int v st) rt ma sv
    else if same_name "ReadTimeoutSeconds" k then Upst po it st (to_int v rt) ma sv
    else if same_name "MaxAttempts" k then Upst po it st rt (to_int v ma) sv
    else if same_name "TlsInsecureSkipVerify" k then Upst po it st rt ma (to_bool v sv)
    else u.
  Definition zero_up : upstream := Upst 0 0 0 0 0 false.

  (** connection.go:4-7 *)
  Definition set_connection (k : string) (v : doc) (c : downstream * upstream) : downstream * upstream :=
    if same_name "Downstream" k then (to_struct set_down v (fst c), snd c)
    else if same_name "Upstream" k then (fst c, to_struct set_up v (snd c))
    else c.

  (** config.go:18-24 *)
  Definition set_config (k : string) (v : doc) (c : config jwt) : config jwt :=
    let '(Cfg ps rs js ms d u) := c in
    if same_name "Policies" k then Cfg (to_map to_policy [] v ps) rs js ms d u
    else if same_name "Routes" k then Cfg ps (to_slice (to_struct set_route) zero_route v rs) js ms d u
    else if same_name "Jwt" k then Cfg ps rs (to_map (to_pointer (to_struct set_jwt) zero_jwt) None v js) ms d u
    else if same_name "Resources" k then
      Cfg ps rs js (to_map (to_slice_nil (to_struct set_mapping) zero_mapping) None v ms) d u
    else if same_name "Connection" k then
      let (d', u') := to_struct set_connection v (d, u) in Cfg ps rs js ms d' u'
    else c.
  Definition zero_config : config jwt := Cfg [] [] [] [] zero_down zero_up.

  Definition decode (v : doc) : config jwt := to_struct set_config v zero_config.

  (** config.go:92-96; [yaml] is yaml.YAMLToJSON, [None] its error, after which json.Unmarshal finds no input. *)
  Definition parse (yaml : string -> option doc) (text : string) : config jwt :=
    match yaml text with Some v => decode v | None => zero_config end.
End Structs.
