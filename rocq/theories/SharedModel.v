(** Model of the process-wide random generator (lib/utils/rand.go) as used by several goroutines at once: one buffered
    reader, one mutex, any number of callers. The steps are small enough that the mutex matters: inside bufio.Reader.Read
    the refill, the copy and the update of the read offset are three steps. *)
From Coq Require Import String ZArith List Bool.
From Verif Require Import GoBase PrgModel.
Import ListNotations.
Open Scope Z_scope.

(** A call of the package: BufPRGReader.Uint64 (lib/utils/rand.go:133-148; also reached from Int63 and through MathRand)
    or RandInt(mod) (lib/utils/rand.go:42-47). *)
Inductive call := CUint64 | CRandInt (m : Z).

(** math/big Int.BitLen of m - 1, and the number of bytes crypto/rand.Int reads at a time (Go standard library) *)
Definition int_bits (m : Z) : Z := if m - 1 <=? 0 then 0 else Z.log2 (m - 1) + 1.
Definition int_bytes (m : Z) : nat := Z.to_nat ((int_bits m + 7) / 8).
(** crypto/rand.Int (Go standard library): the first byte is masked to the bits needed, the bytes are read big-endian *)
Definition int_candidate (m : Z) (b : list Z) : Z :=
  let r := int_bits m mod 8 in
  let r := if r =? 0 then 8 else r in
  match b with [] => 0 | x :: t => be_dec (Z.land x (2 ^ r - 1) :: t) end.

(** Where a caller is. [PNext]: between calls, or waiting for the mutex. [PEnter need got]: holds the mutex, [need] bytes
    missing, about to call Read. [PCopy]: inside Read, the buffer is not empty. [PAdvance]: inside Read, the bytes
    [new] were copied and the offset is not updated yet. [PUnlocked v]: mutex released, about to return v. [PPanicked]:
    the call panicked; the mutex is not released (lib/utils/rand.go:43-45 has no defer). *)
Inductive pc :=
| PNext
| PEnter (need : nat) (got : list Z)
| PCopy (need : nat) (got : list Z)
| PAdvance (need : nat) (got new : list Z)
| PUnlocked (v : Z)
| PPanicked.
(** a caller: the calls it will still make (the current one first), where it is, what its calls returned *)
Record caller := mkC { todo : list call; at_ : pc; returned : list Z }.
(** the mutex (prgMutex, lib/utils/rand.go:36), the reader (bufPrgReader, 37) and the callers *)
Record shared := mkG { holder : option nat; reader : bufprg; callers : list caller }.

(** lib/utils/rand.go:154-156 init; the callers are about to make the calls of [progs] *)
Definition shared_start (progs : list (list call)) : shared := mkG None new_bufprg (map (fun p => mkC p PNext []) progs).

(** what a call does once it has the mutex: lib/utils/rand.go:137-138; crypto/rand.Int panics for a modulus below one
    and reads nothing for the modulus one *)
Definition begin (c : call) : pc :=
  match c with
  | CUint64 => PEnter 8 []
  | CRandInt m => if m <=? 0 then PPanicked else PEnter (int_bytes m) []
  end.
(** all bytes read: lib/utils/rand.go:145-147, and the test of crypto/rand.Int ([None]: read again) *)
Definition finish (c : call) (got : list Z) : option Z :=
  match c with
  | CUint64 => Some (le_dec got)
  | CRandInt m => let v := int_candidate m got in if v <? m then Some v else None
  end.

(** One step of caller i. [None]: it cannot move (nothing left to do, waiting for the mutex, or panicked). *)
Definition shared_step (ks : nat -> Z) (s : shared) (i : nat) : option shared :=
  match nth_error (callers s) i with
  | None => None
  | Some t =>
    match todo t with
    | [] => None
    | c :: rest =>
      let put h r t' := Some (mkG h r (upd (callers s) i t')) in
      let go p := mkC (todo t) p (returned t) in
      match at_ t with
      (* prgMutex.Lock(), lib/utils/rand.go:43 and 136 *)
      | PNext => match holder s with None => put (Some i) (reader s) (go (begin c)) | Some _ => None end
      (* the loops of Uint64 (138-144) and of io.ReadFull; prgMutex.Unlock(), 45 and 145 *)
      | PEnter O got => match finish c got with
                        | Some v => put None (reader s) (go (PUnlocked v))
                        | None => put (holder s) (reader s) (go (begin c))
                        end
      (* bufio.Reader.Read: an empty buffer is refilled by PRGReader.Read (101-110) *)
      | PEnter (S n) got =>
        let b := reader s in
        let b := if (bp_r b =? bp_w b)%nat then
                   let (x, pos') := prg_read ks (bp_pos b) (bp_buf b) in mkB x 0 (length x) pos'
                 else b in
        put (holder s) b (go (PCopy (S n) got))
      | PCopy need got =>
        let b := reader s in
        put (holder s) b (go (PAdvance need got (firstn (Nat.min need (bp_w b - bp_r b)) (skipn (bp_r b) (bp_buf b)))))
      | PAdvance need got new =>
        let b := reader s in
        put (holder s) (mkB (bp_buf b) (bp_r b + length new) (bp_w b) (bp_pos b)) (go (PEnter (need - length new) (got ++ new)))
      | PUnlocked v => put (holder s) (reader s) (mkC rest PNext (returned t ++ [v]))
      | PPanicked => None
      end
    end
  end.
(** A schedule names the caller to move next; a caller that cannot move is passed over. *)
Fixpoint shared_run (ks : nat -> Z) (s : shared) (sched : list nat) : shared :=
  match sched with
  | [] => s
  | i :: r => shared_run ks (match shared_step ks s i with Some s' => s' | None => s end) r
  end.
(** how many entries of the schedule were actual moves *)
Fixpoint moves (ks : nat -> Z) (s : shared) (sched : list nat) : nat :=
  match sched with
  | [] => O
  | i :: r => match shared_step ks s i with Some s' => S (moves ks s' r) | None => moves ks s r end
  end.
