(** Model of lib/utils/gauss.go down to the 64-bit words it draws, with the functions of math/rand (Go 1.17 standard library)
    that it uses. *)
From Coq Require Import String ZArith List Bool.
From Verif Require Import GoBase.
Import ListNotations.
Open Scope Z_scope.

(** lib/utils/gauss.go:5-25 cdf_table: the literals, (m, e) stands for m / 10^e *)
Definition cdf_table : list (Z * Z) :=
  [(5, 1); (987867, 6); (952345, 6); (895957, 6); (822578, 6); (736994, 6); (644389, 6); (549831, 6); (457833, 6);
   (372034, 6); (295023, 6); (22831, 5); (172422, 6); (127074, 6); (913938, 7); (641467, 7); (439369, 7); (293685, 7);
   (191572, 7); (121949, 7); (757568, 8); (459264, 8); (271706, 8); (156868, 8); (883826, 9); (485955, 9); (260749, 9);
   (136536, 9); (697696, 10); (347923, 10); (169316, 10); (8041, 9); (372665, 11); (168549, 11); (743923, 12); (320426, 12);
   (134687, 12); (552484, 13); (221163, 13); (863973, 14); (329371, 14); (122537, 14); (444886, 15); (157625, 15); (545004, 16);
   (183896, 16); (605535, 17); (194583, 17); (610194, 18); (186736, 18); (557679, 19); (162532, 19); (462263, 20); (128303, 20);
   (347522, 21); (918597, 22); (236954, 22); (596487, 23); (146533, 23); (35129, 23); (821851, 25); (187637, 25); (418062, 26);
   (908991, 27); (192875, 27); (399383, 28); (807049, 29); (15915, 28); (306275, 30); (575194, 31); (105418, 31); (188542, 32);
   (329081, 33); (560522, 34); (931708, 35); (151135, 35); (239247, 36); (369594, 37); (557187, 38); (819735, 39); (117691, 39);
   (164896, 40); (225463, 41); (300841, 42); (391737, 43); (497795, 44); (61731, 44); (747055, 46); (882266, 47); (101682, 47);
   (114363, 48); (125523, 49); (134449, 50); (140537, 51); (143357, 52); (142708, 53); (138634, 54); (131429, 55); (121593, 56);
   (10978, 56); (967246, 59); (831661, 60); (697835, 61); (571421, 62); (456622, 63); (356086, 64); (270987, 65); (201252, 66);
   (145858, 67); (103161, 68); (712032, 70); (479601, 71); (315252, 72); (202224, 73); (126591, 74); (773344, 76); (46104, 76);
   (268226, 78); (152287, 79); (84376, 80); (456219, 82); (240727, 83); (123958, 84); (622901, 86); (305465, 87); (146185, 88);
   (682713, 90); (311152, 91); (13839, 91)].

(** Conversion to float64 (IEEE 754 binary64, round half to even): n / d is rounded to q * 2^s with 2^52 <= q <= 2^53.
    For the positive numbers used here (between 10^-88 and 2^63) there is neither underflow nor overflow. *)
Definition round_half_even (n d : Z) : Z :=
  let q := n / d in
  let r := n mod d in
  if (2 * r <? d) || ((2 * r =? d) && Z.even q) then q else q + 1.
(** the float64 constant for the literal m / 10^e, as (q, s): q / 2^s *)
Definition float_literal (m e : Z) : Z * Z :=
  let d := 10 ^ e in
  (* s such that 2^52 <= m * 2^s / d < 2^53 *)
  let s0 := 52 + Z.log2 d - Z.log2 m in
  let s := if m * 2 ^ s0 <? d * 2 ^ 52 then s0 + 1 else s0 in
  (round_half_even (m * 2 ^ s) d, s).
(** float64(k) for 0 <= k < 2^63 (an integer again) *)
Definition float_of_int (k : Z) : Z :=
  let s := Z.log2 k - 52 in
  if s <=? 0 then k else round_half_even k (2 ^ s) * 2 ^ s.

(** lib/utils/gauss.go:39 y < cdf_table[x], where y = f / 2^63 *)
Definition under (x f : Z) : bool :=
  let (m, e) := nth (Z.to_nat x) cdf_table (0, 0) in
  let (q, s) := float_literal m e in
  f * 2 ^ s <? q * 2 ^ 63.

(** Where the sampler is: about to draw the index, the height for index x, the sign for index x. *)
Inductive phase := Index | Height (x : Z) | Sign (x : Z).
(** lib/utils/rand.go:127-131 Int63 *)
Definition int63 (w : Z) : Z := w mod 2 ^ 63.
(** math/rand Int31n(129): the largest value kept of a 31-bit draw *)
Definition int31_max : Z := 2 ^ 31 - 1 - 2 ^ 31 mod 129.

(** lib/utils/gauss.go:30-49 GaussSample on the words drawn from the generator (lib/utils/rand.go:133-148 Uint64);
    [None]: the words are used up before the sample is complete, [Some (g, rest)]: the sample and the unused words.
    Intn(129) is Int31n(129): Int63 >> 32, drawn again above int31_max, modulo 129. Float64 is float64(Int63) / 2^63,
    drawn again if that is 1. *)
Fixpoint noise (p : phase) (ws : list Z) : option (Z * list Z) :=
  match ws with
  | [] => None
  | w :: r =>
    match p with
    | Index => let v := int63 w / 2 ^ 32 in if int31_max <? v then noise Index r else noise (Height (v mod 129)) r
    | Height x => let f := float_of_int (int63 w) in
                  if f =? 2 ^ 63 then noise (Height x) r else if under x f then noise (Sign x) r else noise Index r
    | Sign x => Some (if w mod 2 =? 0 then - x else x, r)
    end
  end.
