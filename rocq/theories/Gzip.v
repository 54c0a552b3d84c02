(** Compressing and decompressing with pooled writers and readers (gzip.go:15-57), by any number of
    goroutines at once.  Exchange uses the functions of the environment e_gzip and e_gunzip for Gzip and
    Gunzip; here is why they may be used as functions of their argument alone.

    compress/gzip and compress/flate are parameters: a writer takes bytes one after the other and emits
    some output for each to the buffer it was reset to, and the rest when it is closed; a reader yields its
    output piece by piece until the end of its input or an error.

    Simplification: trace messages are left out (gzip.go:41, 55). *)
From Coq Require Import String List Bool Arith.
From Verif Require Import JwksRate.
Import ListNotations.
Local Open Scope string_scope.

Section Gzip.

(** The states of a compressor and of a decompressor.  z_fresh is that of a writer just reset, z_made that
    of one just made by New (gzip.go:16-19); u_made likewise (gzip.go:23-27). *)
Context {Z U : Type}.
Variable z_made z_fresh : Z.
Variable z_write : Z -> Ascii.ascii -> Z * string.
Variable z_close : Z -> Z * string.
Variable u_made : U.
Variable u_reset : string -> U.
Variable u_read : U -> option (string * U).

(** A gzip.Writer: its compressor, and the buffer it writes to. *)
Record writer := Writer { wr_state : Z; wr_dest : nat }.

(** Where a call of Gzip is: before Get (gzip.go:33), before Reset (34-35), writing the rest of its input
    (37), before Close (38), before the deferred Put (39), and returned. *)
Inductive zpc := ZGet | ZReset | ZWrite (rest : string) | ZClose | ZPut | ZEnd.
Record zcall := ZCall { zc_input : string; zc_pc : zpc; zc_wrt : nat; zc_buf : nat }.

(** The same for Gunzip: before Get (gzip.go:47), Reset (48-49), in ReadAll with what it has read (51),
    before the deferred Put (53), and returned.  Closing a reader does not change its state (52). *)
Inductive upc := UGet | UReset | URead | UPut | UEnd.
Record ucall := UCall { uc_input : string; uc_pc : upc; uc_rd : nat; uc_dec : string }.

(** Writers, readers and buffers by number, the writers and readers in the pools, the calls. *)
Record gzips := Gzips {
  g_wrts : list writer; g_bufs : list string; g_zpool : list nat; g_zcalls : list zcall;
  g_rds : list U; g_upool : list nat; g_ucalls : list ucall }.

Definition gzip_init : gzips := Gzips [] [] [] [] [] [] [].

(** What may happen next: Gzip or Gunzip is called, a call of either goes on, or the garbage collector
    empties a place of a pool.  A call in Get receives what is at some place of the pool, or, with None, a
    new object: sync.Pool makes no promise which. *)
Inductive glabel :=
| CallGzip (input : string)
| CallGunzip (input : string)
| Zip (k : nat) (place : option nat)
| Unzip (k : nat) (place : option nat)
| DropZip (place : nat)
| DropUnzip (place : nat).

Fixpoint without {A} (i : nat) (l : list A) : list A :=
  match l, i with
  | [], _ => []
  | _ :: l', O => l'
  | x :: l', S i' => x :: without i' l'
  end.

(** Output of a writer is appended to a buffer (bytes.Buffer.Write). *)
Definition append_to (bufs : list string) (b : nat) (s : string) : list string :=
  match nth_error bufs b with Some t => set_nth b (t ++ s) bufs | None => bufs end.

Definition zmoved (g : gzips) (k : nat) (c : zcall) : list zcall := set_nth k c (g_zcalls g).
Definition umoved (g : gzips) (k : nat) (c : ucall) : list ucall := set_nth k c (g_ucalls g).

(** gzip.go:32-43 *)
Definition zip_step (g : gzips) (k : nat) (place : option nat) (c : zcall) : option gzips :=
  let go c' := Gzips (g_wrts g) (g_bufs g) (g_zpool g) (zmoved g k c') (g_rds g) (g_upool g) (g_ucalls g) in
  let set_wrts ws bufs pool c' := Gzips ws bufs pool (zmoved g k c') (g_rds g) (g_upool g) (g_ucalls g) in
  match zc_pc c with
  | ZGet =>
      match place with
      | Some i =>
          match nth_error (g_zpool g) i with
          | Some w => Some (set_wrts (g_wrts g) (g_bufs g) (without i (g_zpool g)) (ZCall (zc_input c) ZReset w (zc_buf c)))
          | None => None
          end
      | None =>
          Some (set_wrts (g_wrts g ++ [Writer z_made (length (g_bufs g))])%list (g_bufs g ++ [""])%list (g_zpool g)
                         (ZCall (zc_input c) ZReset (length (g_wrts g)) (zc_buf c)))
      end
  | ZReset =>
      Some (set_wrts (set_nth (zc_wrt c) (Writer z_fresh (length (g_bufs g))) (g_wrts g)) (g_bufs g ++ [""])%list (g_zpool g)
                     (ZCall (zc_input c) (ZWrite (zc_input c)) (zc_wrt c) (length (g_bufs g))))
  | ZWrite (String x rest) =>
      match nth_error (g_wrts g) (zc_wrt c) with
      | Some w =>
          let (st, out) := z_write (wr_state w) x in
          Some (set_wrts (set_nth (zc_wrt c) (Writer st (wr_dest w)) (g_wrts g)) (append_to (g_bufs g) (wr_dest w) out) (g_zpool g)
                         (ZCall (zc_input c) (ZWrite rest) (zc_wrt c) (zc_buf c)))
      | None => None
      end
  | ZWrite EmptyString => Some (go (ZCall (zc_input c) ZClose (zc_wrt c) (zc_buf c)))
  | ZClose =>
      match nth_error (g_wrts g) (zc_wrt c) with
      | Some w =>
          let (st, out) := z_close (wr_state w) in
          Some (set_wrts (set_nth (zc_wrt c) (Writer st (wr_dest w)) (g_wrts g)) (append_to (g_bufs g) (wr_dest w) out) (g_zpool g)
                         (ZCall (zc_input c) ZPut (zc_wrt c) (zc_buf c)))
      | None => None
      end
  | ZPut => Some (set_wrts (g_wrts g) (g_bufs g) (zc_wrt c :: g_zpool g) (ZCall (zc_input c) ZEnd (zc_wrt c) (zc_buf c)))
  | ZEnd => None
  end.

(** gzip.go:46-57 *)
Definition unzip_step (g : gzips) (k : nat) (place : option nat) (c : ucall) : option gzips :=
  let set_rds rds pool c' := Gzips (g_wrts g) (g_bufs g) (g_zpool g) (g_zcalls g) rds pool (umoved g k c') in
  match uc_pc c with
  | UGet =>
      match place with
      | Some i =>
          match nth_error (g_upool g) i with
          | Some r => Some (set_rds (g_rds g) (without i (g_upool g)) (UCall (uc_input c) UReset r (uc_dec c)))
          | None => None
          end
      | None => Some (set_rds (g_rds g ++ [u_made])%list (g_upool g) (UCall (uc_input c) UReset (length (g_rds g)) (uc_dec c)))
      end
  | UReset =>
      Some (set_rds (set_nth (uc_rd c) (u_reset (uc_input c)) (g_rds g)) (g_upool g) (UCall (uc_input c) URead (uc_rd c) ""))
  | URead =>
      match nth_error (g_rds g) (uc_rd c) with
      | Some u =>
          match u_read u with
          | Some (out, u') => Some (set_rds (set_nth (uc_rd c) u' (g_rds g)) (g_upool g) (UCall (uc_input c) URead (uc_rd c) (uc_dec c ++ out)))
          | None => Some (set_rds (g_rds g) (g_upool g) (UCall (uc_input c) UPut (uc_rd c) (uc_dec c)))
          end
      | None => None
      end
  | UPut => Some (set_rds (g_rds g) (uc_rd c :: g_upool g) (UCall (uc_input c) UEnd (uc_rd c) (uc_dec c)))
  | UEnd => None
  end.

Definition gzip_step (g : gzips) (l : glabel) : option gzips :=
  match l with
  | CallGzip s => Some (Gzips (g_wrts g) (g_bufs g) (g_zpool g) (g_zcalls g ++ [ZCall s ZGet 0 0])%list (g_rds g) (g_upool g) (g_ucalls g))
  | CallGunzip s => Some (Gzips (g_wrts g) (g_bufs g) (g_zpool g) (g_zcalls g) (g_rds g) (g_upool g) (g_ucalls g ++ [UCall s UGet 0 ""])%list)
  | Zip k place => match nth_error (g_zcalls g) k with Some c => zip_step g k place c | None => None end
  | Unzip k place => match nth_error (g_ucalls g) k with Some c => unzip_step g k place c | None => None end
  | DropZip i => Some (Gzips (g_wrts g) (g_bufs g) (without i (g_zpool g)) (g_zcalls g) (g_rds g) (g_upool g) (g_ucalls g))
  | DropUnzip i => Some (Gzips (g_wrts g) (g_bufs g) (g_zpool g) (g_zcalls g) (g_rds g) (without i (g_upool g)) (g_ucalls g))
  end.

Fixpoint gzip_exec (g : gzips) (ls : list glabel) : option gzips :=
  match ls with
  | [] => Some g
  | l :: ls' => match gzip_step g l with Some g' => gzip_exec g' ls' | None => None end
  end.

(** What the slice a call of Gzip returned holds now: it shares the array of the call's buffer
    (gzip.go:41-43). *)
Definition zip_result (g : gzips) (k : nat) : option string :=
  match nth_error (g_zcalls g) k with
  | Some c => match zc_pc c with ZEnd => nth_error (g_bufs g) (zc_buf c) | _ => None end
  | None => None
  end.

(** What a call of Gunzip returned. *)
Definition unzip_result (g : gzips) (k : nat) : option string :=
  match nth_error (g_ucalls g) k with
  | Some c => match uc_pc c with UEnd => Some (uc_dec c) | _ => None end
  | None => None
  end.

End Gzip.
