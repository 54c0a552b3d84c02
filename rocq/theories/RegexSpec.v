(** What regular expressions mean, independently of any matching algorithm. *)
From Coq Require Import String Ascii List Bool NArith.
From Verif Require Import GoStr Regex.
Local Open Scope string_scope.

(** [Matches r pre m post]: inside the text [pre ++ m ++ post], expression [r] matches exactly the
    part [m].  The context matters only for [^] and [$]. *)
Inductive Matches : re -> string -> string -> string -> Prop :=
| M_eps : forall pre post, Matches REps pre "" post
| M_cls : forall neg rs c pre post,
    cls_match neg rs c = true -> Matches (RCls neg rs) pre (String c "") post
| M_cat : forall a b pre x y post,
    Matches a pre x (y ++ post) -> Matches b (pre ++ x) y post ->
    Matches (RCat a b) pre (x ++ y) post
| M_alt_l : forall a b pre m post, Matches a pre m post -> Matches (RAlt a b) pre m post
| M_alt_r : forall a b pre m post, Matches b pre m post -> Matches (RAlt a b) pre m post
| M_star_nil : forall a pre post, Matches (RStar a) pre "" post
| M_star_cons : forall a pre x y post,
    Matches a pre x (y ++ post) -> Matches (RStar a) (pre ++ x) y post ->
    Matches (RStar a) pre (x ++ y) post
| M_bol : forall post, Matches RBol "" "" post
| M_eol : forall pre, Matches REol pre "" "".

(** The text contains a match somewhere. *)
Definition Occurs (r : re) (s : string) : Prop :=
  exists pre m post, s = pre ++ m ++ post /\ Matches r pre m post.

(** The text has a prefix that matches. *)
Definition PrefixMatches (r : re) (s : string) : Prop :=
  exists m post, s = m ++ post /\ Matches r "" m post.

(** Every match of [r] starts at the beginning of the text. *)
Definition Anchored (r : re) : Prop :=
  forall pre m post, Matches r pre m post -> pre = "".

(** Characters with a meaning in regular expressions. *)
Definition is_meta (c : ascii) : bool :=
  existsb (Ascii.eqb c)
    ("*" :: "+" :: "?" :: "(" :: ")" :: "[" :: "|" :: "\" :: "." :: "^" :: "$" :: "{" :: nil)%char.

Fixpoint literal (p : string) : bool :=
  match p with
  | EmptyString => true
  | String c p' => (negb (is_meta c) && literal p')%bool
  end.

(** [p] contains the character [c]. *)
Fixpoint has_char (c : ascii) (p : string) : bool :=
  match p with
  | EmptyString => false
  | String d p' => (Ascii.eqb c d || has_char c p')%bool
  end.

(** [p] begins with a repetition operator. *)
Definition starts_quant (p : string) : bool :=
  match p with
  | String c _ => (Ascii.eqb c "*" || Ascii.eqb c "+" || Ascii.eqb c "?" || Ascii.eqb c "{")%bool
  | EmptyString => false
  end.
