(** A set of keys as requests see it while a load adds to it: jwt.go:19-41 and proxy.go:540-544, 577-612, in memory.
    A slice is three words.  Upsert writes them and verifySignature's caller copies them without synchronisation (the
    lock of jwt.go:174 is between loads only), so that a copy can mix words of different moments. *)
From Coq Require Import String List Bool Arith.
From Verif Require Import Jwt IprexShared.
Import ListNotations.

(** The words of a slice: the number of its array, its length and its capacity *)
Inductive word := WPtr | WLen | WCap.
Record header := Header { h_ptr : nat; h_len : nat; h_cap : nat }.

(** What an access to an element gives: a pair, the zero value of a cell not yet written, or whatever lies beyond the
    array in memory.  Go checks the index against the length in the copy, so it does not notice the last. *)
Inductive cell := Got (kp : string * key) | Zero | Beyond.

(** A request that verifies a token (proxy.go:540, 542): the words it has copied so far and the elements it has accessed
    (jwt.go:35-39, proxy.go:600-606), which it does in order.  The copied capacity is not used. *)
Record reader := Reader { r_ptr : option nat; r_len : option nat; r_seen : list cell }.

(** Arrays are never freed here.  [m_new] is the header that Upsert is about to store, with the words still missing. *)
Record memory := Memory {
  m_heap : list (list (option (string * key))); m_head : header; m_new : option (header * list word); m_readers : list reader }.

(** jwt.go:100-102 *)
Definition memory_init : memory := Memory [[]] (Header 0 0 0) None [].

Definition array (s : memory) (p : nat) : list (option (string * key)) := nth p (m_heap s) [].

(** A pair is upserted, a word of the new slice is stored, a request begins, copies the pointer or the length, or accesses
    the next element.  [room] is the capacity append chooses if it needs a new array.  In which order the words are
    stored and copied is up to the compiler, so any order is possible here. *)
Inductive access := Upsert (kp : string * key) (room : nat) | Store (w : word) | Look | CopyPtr (i : nat) | CopyLen (i : nat) | Visit (i : nat).

Definition word_eqb (a b : word) : bool := match a, b with WPtr, WPtr | WLen, WLen | WCap, WCap => true | _, _ => false end.

Definition store (w : word) (h to : header) : header :=
  match w with
  | WPtr => Header (h_ptr h) (h_len to) (h_cap to)
  | WLen => Header (h_ptr to) (h_len h) (h_cap to)
  | WCap => Header (h_ptr to) (h_len to) (h_cap h)
  end.

(** jwt.go:21-32 up to the assignment in line 30: the comparison of the identifiers, and append, which writes the pair
    into the array or into a bigger copy.  Nobody else writes, so this is one step. *)
Definition upsert_begins (kp : string * key) (room : nat) (s : memory) : option memory :=
  let h := m_head s in
  let held := firstn (h_len h) (array s (h_ptr h)) in
  if existsb (fun c => match c with Some k => String.eqb (fst k) (fst kp) | None => false end) held then Some s
  else if h_len h <? h_cap h then
    Some (Memory (put (h_ptr h) (put (h_len h) (Some kp) (array s (h_ptr h))) (m_heap s)) h
                 (Some (Header (h_ptr h) (S (h_len h)) (h_cap h), [WPtr; WLen; WCap])) (m_readers s))
  else if h_len h <? room then
    Some (Memory (m_heap s ++ [held ++ Some kp :: repeat None (room - S (h_len h))]) h
                 (Some (Header (List.length (m_heap s)) (S (h_len h)) room, [WPtr; WLen; WCap])) (m_readers s))
  else None.

Definition with_reader (i : nat) (r : reader) (s : memory) : memory :=
  Memory (m_heap s) (m_head s) (m_new s) (put i r (m_readers s)).

Definition memory_step (s : memory) (a : access) : option memory :=
  match a with
  | Upsert kp room => match m_new s with None => upsert_begins kp room s | Some _ => None end
  | Store w =>
      match m_new s with
      | None => None
      | Some (h, ws) =>
          if existsb (word_eqb w) ws then
            let ws' := filter (fun x => negb (word_eqb w x)) ws in
            Some (Memory (m_heap s) (store w h (m_head s)) (match ws' with [] => None | _ => Some (h, ws') end) (m_readers s))
          else None
      end
  | Look => Some (Memory (m_heap s) (m_head s) (m_new s) (m_readers s ++ [Reader None None []]))
  | CopyPtr i =>
      match nth_error (m_readers s) i with
      | Some (Reader None n seen) => Some (with_reader i (Reader (Some (h_ptr (m_head s))) n seen) s)
      | _ => None
      end
  | CopyLen i =>
      match nth_error (m_readers s) i with
      | Some (Reader p None seen) => Some (with_reader i (Reader p (Some (h_len (m_head s))) seen) s)
      | _ => None
      end
  | Visit i =>
      match nth_error (m_readers s) i with
      | Some (Reader (Some p) (Some n) seen) =>
          if List.length seen <? n then
            let c := match nth_error (array s p) (List.length seen) with Some (Some kp) => Got kp | Some None => Zero | None => Beyond end in
            Some (with_reader i (Reader (Some p) (Some n) (seen ++ [c])) s)
          else None
      | _ => None
      end
  end.

Fixpoint memory_run (s : memory) (l : list access) : option memory :=
  match l with
  | [] => Some s
  | a :: l' => match memory_step s a with Some s' => memory_run s' l' | None => None end
  end.
