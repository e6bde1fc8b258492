(** Model of lib/field/field.go. *)
From Coq Require Import String ZArith List Bool.
From Verif Require Import GoBase.
Import ListNotations.
Open Scope Z_scope.
Open Scope go_scope.

(** lib/field/field.go:13 ModP *)
Definition ModP : Z := 2147483647.

(** lib/field/field.go:20-26 NegateVector (uint32 subtraction wraps). *)
Definition negate_vector (l : list Z) : list Z := map (fun x => u32 (ModP - x)) l.

(** lib/field/field.go:33-36 and 59-60: clear the top bit of the first byte, read big endian.
    [Z.land b 127] is [b & Mask]. *)
Definition mask_first (l : list Z) : list Z :=
  match l with
  | [] => []
  | b :: t => Z.land b 127 :: t
  end.
Definition masked_be (b4 : list Z) : Z := be_dec (mask_first b4).

(** lib/field/field.go:31-47 toElement on exactly four bytes. [fresh] is the value that the
    resampling loop (lines 38-45, fresh process randomness, not masked) ends with: any uint32
    other than ModP. The boolean is a ghost output: true when the loop was entered. *)
Definition to_element (fresh : Z) (b4 : list Z) : Z * bool :=
  let out := masked_be b4 in
  if out =? ModP then (fresh, true) else (out, false).

(** lib/field/field.go:93-101 BytesToElements: [n] = len(out). The slice in[i*4:(i+1)*4] panics if the
    input is too short. [fresh i] is the replacement value for element i. *)
Definition bytes_to_elements (fresh : nat -> Z) (n : nat) (l : list Z) : res (list (Z * bool)) :=
  mapM (fun i => b4 <- go_slice l (4 * Z.of_nat i) (4 * Z.of_nat i + 4) ;;
                 Ok (to_element (fresh i) b4))
       (range n).

(** An io.Reader as a state machine: [read s n] fills a zeroed buffer of [n] bytes. *)
Definition reader (S : Type) := S -> nat -> list Z * S.

(** lib/field/field.go:49-63 RandElementWithPRG; [fuel] bounds the number of loop iterations, None
    means the loop has not finished within the fuel. *)
Fixpoint rand_element {S} (rd : reader S) (fuel : nat) (s : S) : option (Z * S) :=
  match fuel with
  | O => None
  | Datatypes.S f =>
    let '(buf, s') := rd s 4%nat in
    let out := masked_be buf in
    if out =? ModP then rand_element rd f s' else Some (out, s')
  end.

(** lib/field/field.go:77-84 the loop of RandVectorWithPRG over the buffer. *)
Fixpoint rand_vector_loop {S} (rd : reader S) (fuel : nat) (bufs : list (list Z)) (s : S)
  : option (list Z * S) :=
  match bufs with
  | [] => Some ([], s)
  | b :: t =>
    let out := masked_be b in
    match (if out =? ModP then rand_element rd fuel s else Some (out, s)) with
    | None => None
    | Some (v, s') =>
      match rand_vector_loop rd fuel t s' with
      | None => None
      | Some (vs, s'') => Some (v :: vs, s'')
      end
    end
  end.

(** lib/field/field.go:69-87 RandVectorWithPRG. (The loop at line 81 runs at most once, because
    RandElementWithPRG never returns ModP.) *)
Definition rand_vector {S} (rd : reader S) (fuel : nat) (n : nat) (s : S) : option (list Z * S) :=
  let '(buf, s') := rd s (4 * n)%nat in
  rand_vector_loop rd fuel (chunks 4 buf) s'.

(** lib/field/field.go:106-121 VectorToBytes on []uint32 *)
Definition vector_to_bytes (l : list Z) : list Z :=
  flat_map (fun e => skipn 1 (be_enc 4 e)) l.
