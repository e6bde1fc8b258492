(** Model of lib/fss/{common.go,client.go,server.go}. AES with the i-th fixed key (PrfKeys,
    common.go:47-53) is the parameter [enc i]. *)
From Coq Require Import String ZArith List Bool.
From Verif Require Import GoBase FieldModel.
Import ListNotations.
Open Scope Z_scope.
Open Scope go_scope.

Definition cipher := nat -> list Z -> list Z.

(** What is assumed of AES: 16 bytes in, 16 bytes out. *)
Definition cipher_ok (enc : cipher) : Prop :=
  forall i x, length (enc i x) = 16%nat /\ bytes (enc i x).

Definition xor_list (a b : list Z) : list Z :=
  map (fun p => Z.lxor (fst p) (snd p)) (combine a b).

(** lib/fss/common.go:59-66 prf: [n] blocks AES_k[i](x) ^ x written one after the other into out.
    Callers guarantee 16*n <= len(out). There are four fixed keys. *)
Definition prf (enc : cipher) (x : list Z) (n : nat) : res (list Z) :=
  if (4 <? n)%nat then Panic "index out of range"
  else Ok (flat_map (fun i => xor_list (enc i x) x) (range n)).

(** lib/fss/common.go:68-72 convertBlock: [n] = len(out); the buffer OutConvertBlock has
    4*blockLength bytes (client.go:33, server.go:29), initially zero, of which the first 16*(n/4) are overwritten.
    Simplification: stale content from a previous call with a larger n is not modelled (each Fss
    value is used with one n only). *)
Definition convert_block (enc : cipher) (blockLength : nat) (fresh : nat -> Z) (x : list Z) (n : nat)
  : res (list (Z * bool)) :=
  p <- prf enc x (n / 4) ;;
  bytes_to_elements fresh n (go_copy (repeat 0 (4 * blockLength)) p).

(** lib/fss/common.go:27-32 FssKeyEq2P *)
Record fss_key := mkKey { k_sinit : list Z; k_tinit : Z; k_cw : list (list Z); k_finalcw : list Z }.

(** byte arithmetic *)
Definition mul8 (t c : Z) : Z := (t * c) mod 256.

(** lib/fss/client.go:75-123, one iteration of the loop of GenerateTreePF on bit [aBit]: returns the
    correction word CW[i] (16 seed bytes, left bit, right bit) and the next seeds and bits. *)
Definition gen_step (enc : cipher) (aBit : bool) (s0 s1 : list Z) (t0 t1 : Z)
  : res (list Z * (list Z * list Z * Z * Z)) :=
  o0 <- prf enc s0 3 ;;
  o1 <- prf enc s1 3 ;;
  let t0Left := nth 16 o0 0 mod 2 in
  let t0Right := nth 33 o0 0 mod 2 in
  let t1Left := nth 16 o1 0 mod 2 in
  let t1Right := nth 33 o1 0 mod 2 in
  let ab := if aBit then 1 else 0 in
  let keep := if aBit then 17%nat else 0%nat in
  let lose := if aBit then 0%nat else 17%nat in
  let scw := xor_list (firstn 16 (skipn lose o0)) (firstn 16 (skipn lose o1)) in
  let tl := Z.lxor (Z.lxor (Z.lxor t0Left t1Left) ab) 1 in
  let tr := Z.lxor (Z.lxor t0Right t1Right) ab in
  let tk := if aBit then tr else tl in
  Ok (scw ++ [tl; tr],
      (xor_list (firstn 16 (skipn keep o0)) (map (mul8 t0) scw),
       xor_list (firstn 16 (skipn keep o1)) (map (mul8 t1) scw),
       Z.lxor (nth (keep + 16) o0 0 mod 2) (mul8 tk t0),
       Z.lxor (nth (keep + 16) o1 0 mod 2) (mul8 tk t1))).

(** lib/fss/client.go:73-123 the loop over the bits of a *)
Fixpoint gen_loop (enc : cipher) (a : list bool) (s0 s1 : list Z) (t0 t1 : Z)
  : res (list (list Z) * (list Z * list Z * Z * Z)) :=
  match a with
  | [] => Ok ([], (s0, s1, t0, t1))
  | ab :: a' =>
    st <- gen_step enc ab s0 s1 t0 t1 ;;
    let '(cw, (s0', s1', t0', t1')) := st in
    rest <- gen_loop enc a' s0' s1' t0' t1' ;;
    Ok (cw :: fst rest, snd rest)
  end.

(** lib/fss/client.go:136-149 the final correction word, one element; uint32 arithmetic wraps. *)
Definition final_cw (t1 b tmp0 tmp1 : Z) : Z :=
  let val := u32 (b + u32 (ModP - tmp0)) mod ModP in
  let val := u32 (val + tmp1) mod ModP in
  if t1 =? 1 then u32 (ModP - val) else val.

Fixpoint final_cws (t1 : Z) (b tmp0 tmp1 : list Z) : list Z :=
  match b, tmp0, tmp1 with
  | x :: b', y :: t0', z :: t1' => final_cw t1 x y z :: final_cws t1 b' t0' t1'
  | _, _, _ => []
  end.

(** Client randomness of one GenerateTreePF call: [r_seed0] the 17 bytes of line 47, [r_seed1] the 16 bytes of
    line 51, and the replacement values of the two conversions. *)
Record gen_rand := mkGR { r_seed0 : list Z; r_seed1 : list Z;
                          r_fresh0 : nat -> Z; r_fresh1 : nat -> Z }.

(** lib/fss/client.go:40-152 GenerateTreePF for an Fss initialised with [blockLength]
    (client.go:17-36). The ghost boolean says that one of the conversions resampled. *)
Definition generate_tree_pf (enc : cipher) (blockLength : nat) (a : list bool) (b : list Z) (r : gen_rand)
  : res (fss_key * fss_key * bool) :=
  let s0 := firstn 16 (r_seed0 r) in
  let t0 := nth 16 (r_seed0 r) 0 mod 2 in
  let s1 := r_seed1 r in
  let t1 := Z.lxor t0 1 in
  lp <- gen_loop enc a s0 s1 t0 t1 ;;
  let '(cws, (s0', s1', t0', t1')) := lp in
  c0 <- convert_block enc blockLength (r_fresh0 r) s0' (length b) ;;
  c1 <- convert_block enc blockLength (r_fresh1 r) s1' (length b) ;;
  let f := final_cws t1' b (map fst c0) (map fst c1) in
  Ok (mkKey s0 t0 cws f, mkKey s1 t1 cws f,
      existsb snd c0 || existsb snd c1).

(** lib/fss/server.go:51-73 one iteration of the loop of EvaluatePF: [xBit] and the correction word [cw] of
    this level. k.CW[i][count] panics if the correction word has fewer than 18 bytes. *)
Definition eval_step (enc : cipher) (xBit : bool) (cw : list Z) (s : list Z) (t : Z)
  : res (list Z * Z) :=
  o <- prf enc s 3 ;;
  if (length cw <? 18)%nat then Panic "index out of range" else
  let mask := firstn 17 cw ++ firstn 16 cw ++ [nth 17 cw 0] in
  let o' := xor_list (firstn 34 o) (map (mul8 t) mask) in
  if xBit then Ok (firstn 16 (skipn 17 o'), nth 33 o' 0 mod 2)
  else Ok (firstn 16 o', nth 16 o' 0 mod 2).

(** lib/fss/server.go:42-74 the loop of EvaluatePF; [i] is the loop counter. Line 44: the bit at position
    N = 256 is read as zero. k.CW[i] panics when the key has too few correction words. *)
Fixpoint eval_loop (enc : cipher) (i : nat) (x : list bool) (cws : list (list Z)) (s : list Z) (t : Z)
  : res (list Z * Z) :=
  match x with
  | [] => Ok (s, t)
  | xb :: x' =>
    match cws with
    | [] => Panic "index out of range"
    | cw :: cws' =>
      let xBit := if (i =? 256)%nat then false else xb in
      st <- eval_step enc xBit cw s t ;;
      eval_loop enc (S i) x' cws' (fst st) (snd st)
    end
  end.

(** lib/fss/server.go:78-85 one output element *)
Definition eval_out (serverNum t tmp cw : Z) : Z :=
  let v := u32 (tmp + u32 (t * cw)) mod ModP in
  if serverNum =? 0 then v else u32 (ModP - v).

Fixpoint eval_outs (serverNum t : Z) (tmp cws : list Z) : res (list Z) :=
  match tmp, cws with
  | [], _ => Ok []
  | _ :: _, [] => Panic "index out of range"
  | x :: tmp', c :: cws' =>
    r <- eval_outs serverNum t tmp' cws' ;; Ok (eval_out serverNum t x c :: r)
  end.

(** lib/fss/server.go:34-86 EvaluatePF for an Fss initialised with [blockLength] (server.go:16-32); [n] = len(out).
    The ghost boolean says that the conversion resampled. *)
Definition evaluate_pf (enc : cipher) (blockLength : nat) (fresh : nat -> Z)
           (serverNum : Z) (k : fss_key) (x : list bool) (n : nat) : res (list Z * bool) :=
  let s := go_copy (repeat 0 16) (k_sinit k) in
  st <- eval_loop enc 0 x (k_cw k) s (k_tinit k) ;;
  let '(s', t') := st in
  c <- convert_block enc blockLength fresh s' n ;;
  o <- eval_outs serverNum t' (map fst c) (k_finalcw k) ;;
  Ok (o, existsb snd c).
