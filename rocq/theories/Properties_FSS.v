(** Property theorems C10-C17 (field sampling and function secret sharing). *)
From Coq Require Import String ZArith List Bool Lia Znumtheory.
From Verif Require Import GoBase BaseFacts FieldModel FSSModel FieldProofs XorFacts FSSProofs FSSProofs2 ToyInstances.
Import ListNotations.
Open Scope Z_scope.

(** C10 *)
Theorem C10_rand_element_reduced :
  forall S (rd : reader S) fuel s v s', reader_ok rd ->
  rand_element rd fuel s = Some (v, s') -> 0 <= v < ModP.
Proof. exact (fun S rd fuel s v s' H => rand_element_bound rd fuel H s v s'). Qed.
Print Assumptions C10_rand_element_reduced.

Theorem C10_rand_vector_reduced :
  forall S (rd : reader S) fuel n s vs s', reader_ok rd ->
  rand_vector rd fuel n s = Some (vs, s') ->
  length vs = n /\ Forall (fun v => 0 <= v < ModP) vs.
Proof. exact (fun S rd fuel n s vs s' => rand_vector_bound rd fuel n s vs s'). Qed.
Print Assumptions C10_rand_vector_reduced.

(** the rejection branch is exercised: the first four bytes encode 2^31-1 *)
Example C10_example :
  reader_ok list_reader /\
  rand_vector list_reader 3 2 [255;255;255;255; 0;0;1;0; 127;255;255;255; 128;0;0;7; 9] = Some ([7; 256], [9]).
Proof. split; [exact list_reader_ok|vm_compute; reflexivity]. Qed.

(** C11: determinism and reduction hold whenever the masked group differs from 2^31-1 ... *)
Theorem C11_conversion_partial :
  forall fresh1 fresh2 b4, length b4 = 4%nat -> bytes b4 -> be_dec b4 mod 2 ^ 31 <> ModP ->
  fst (to_element fresh1 b4) = fst (to_element fresh2 b4) /\
  fst (to_element fresh1 b4) = be_dec b4 mod 2 ^ 31 /\ 0 <= be_dec b4 mod 2 ^ 31 < ModP.
Proof.
  intros f1 f2 b4 HL HB H; rewrite <- (masked_be_mod b4 HL HB) in *;
  pose proof (masked_be_bound b4 HL HB); unfold to_element;
  destruct (Z.eqb_spec (masked_be b4) ModP); cbn [fst]; lia.
Qed.
Print Assumptions C11_conversion_partial.

(** ... and fail otherwise: same bytes, different local randomness, different and unreduced results. *)
Theorem C11_conversion_refuted :
  exists b4 fresh1 fresh2, length b4 = 4%nat /\ bytes b4 /\
    is_u32 fresh1 /\ is_u32 fresh2 /\ fresh1 <> ModP /\ fresh2 <> ModP /\
    fst (to_element fresh1 b4) <> fst (to_element fresh2 b4) /\
    ModP <= fst (to_element fresh1 b4).
Proof.
  exists [255; 255; 255; 255], 4294967295, 5.
  conj_split; try bounds; try reflexivity; unfold ModP; try lia; vm_compute; congruence.
Qed.
Print Assumptions C11_conversion_refuted.

(** C12 *)
Theorem C12_negate_vector :
  forall l, Forall (fun x => 0 <= x < ModP) l ->
  length (negate_vector l) = length l /\
  Forall (fun x => 0 <= x <= ModP) (negate_vector l) /\
  forall i, (i < length l)%nat -> (nth i l 0 + nth i (negate_vector l) 0) mod ModP = 0.
Proof. exact negate_vector_spec. Qed.
Print Assumptions C12_negate_vector.

Example C12_example : negate_vector [0; 1; 2147483646] = [2147483647; 2147483646; 1].
Proof. vm_compute; reflexivity. Qed.

(** C13 *)
Theorem C13_modulus_prime : prime 2147483647.
Proof. exact ModP_prime. Qed.
Print Assumptions C13_modulus_prime.

(** C14: [fg], [f0], [f1] are the ghost flags "a conversion was resampled" of key generation and of
    the two evaluations. *)
Theorem C14_fss_shares_sum_to_point_function :
  forall enc bl a b r x fresh0 fresh1,
  cipher_ok enc -> rand_ok r ->
  length x = length a -> (length a <= 256)%nat ->
  (length b <= bl)%nat -> (length b < 20)%nat -> Forall (fun v => 0 <= v < ModP) b ->
  exists k0 k1 fg o0 f0 o1 f1,
    generate_tree_pf enc bl a b r = Ok (k0, k1, fg) /\
    evaluate_pf enc bl fresh0 0 k0 x (length b) = Ok (o0, f0) /\
    evaluate_pf enc bl fresh1 1 k1 x (length b) = Ok (o1, f1) /\
    length o0 = length b /\ length o1 = length b /\
    (fg = false -> f0 = false -> f1 = false ->
     Forall (fun v => 0 <= v < ModP) o0 /\ Forall (fun v => 0 <= v <= ModP) o1 /\
     forall j, (j < length b)%nat ->
       (x = a -> (nth j o0 0 + nth j o1 0) mod ModP = nth j b 0) /\
       (x <> a -> (nth j o0 0 + nth j o1 0) mod ModP = 0)).
Proof.
  intros enc bl a b r x fresh0 fresh1 He Hr HX H256.
  pose proof (fss_correct enc bl a b r x fresh0 fresh1 He Hr HX) as HC.
  rewrite (bits_read_short x 0) in HC by (rewrite HX; exact H256).
  exact HC.
Qed.
Print Assumptions C14_fss_shares_sum_to_point_function.

(** Without the length bound: position 256 of the evaluated input is read as zero, so a point whose bit 256 is
    set is never hit. [upd x 256 false] is [x] with position 256 cleared. *)
Theorem C67_fss_any_input_length :
  forall enc bl a b r x fresh0 fresh1,
  cipher_ok enc -> rand_ok r -> length x = length a ->
  (length b <= bl)%nat -> (length b < 20)%nat -> Forall (fun v => 0 <= v < ModP) b ->
  exists k0 k1 fg o0 f0 o1 f1,
    generate_tree_pf enc bl a b r = Ok (k0, k1, fg) /\
    evaluate_pf enc bl fresh0 0 k0 x (length b) = Ok (o0, f0) /\
    evaluate_pf enc bl fresh1 1 k1 x (length b) = Ok (o1, f1) /\
    length o0 = length b /\ length o1 = length b /\
    (fg = false -> f0 = false -> f1 = false ->
     Forall (fun v => 0 <= v < ModP) o0 /\ Forall (fun v => 0 <= v <= ModP) o1 /\
     forall j, (j < length b)%nat ->
       (upd x 256 false = a -> (nth j o0 0 + nth j o1 0) mod ModP = nth j b 0) /\
       (upd x 256 false <> a -> (nth j o0 0 + nth j o1 0) mod ModP = 0)).
Proof.
  intros enc bl a b r x fresh0 fresh1. rewrite <- bits_read_upd.
  exact (fss_correct enc bl a b r x fresh0 fresh1).
Qed.
Print Assumptions C67_fss_any_input_length.

(** so for 257 bits and more, the servers miss the very point the key was made for *)
Theorem C67_long_point_missed_refuted :
  forall enc bl a b r fresh0 fresh1,
  cipher_ok enc -> rand_ok r -> nth 256 a false = true ->
  (length b <= bl)%nat -> (length b < 20)%nat -> Forall (fun v => 0 <= v < ModP) b ->
  exists k0 k1 fg o0 f0 o1 f1,
    generate_tree_pf enc bl a b r = Ok (k0, k1, fg) /\
    evaluate_pf enc bl fresh0 0 k0 a (length b) = Ok (o0, f0) /\
    evaluate_pf enc bl fresh1 1 k1 a (length b) = Ok (o1, f1) /\
    (fg = false -> f0 = false -> f1 = false ->
     forall j, (j < length b)%nat -> (nth j o0 0 + nth j o1 0) mod ModP = 0).
Proof. exact fss_long_missed. Qed.
Print Assumptions C67_long_point_missed_refuted.

Example C67_example :
  let a := repeat false 256 ++ [true; false] in
  match generate_tree_pf toy_cipher 1 a [7] toy_rand with
  | Ok (k0, k1, false) =>
    match evaluate_pf toy_cipher 1 (fun _ => 0) 0 k0 a 1, evaluate_pf toy_cipher 1 (fun _ => 0) 1 k1 a 1 with
    | Ok ([p], false), Ok ([q], false) => (p + q) mod ModP = 0
    | _, _ => False
    end
  | _ => False
  end.
Proof. vm_compute. reflexivity. Qed.

(** a concrete key pair on a 5-bit point: no resampling, both cases evaluated *)
Example C14_example :
  let a := [true; false; true; true; false] in
  let b := [1; 123456; 2147483646; 0; 77] in
  match generate_tree_pf toy_cipher 5 a b toy_rand with
  | Ok (k0, k1, fg) =>
    let on0 := evaluate_pf toy_cipher 5 (fun _ => 0) 0 k0 a 5 in
    let on1 := evaluate_pf toy_cipher 5 (fun _ => 0) 1 k1 a 5 in
    let x := [true; false; false; true; false] in
    let off0 := evaluate_pf toy_cipher 5 (fun _ => 0) 0 k0 x 5 in
    let off1 := evaluate_pf toy_cipher 5 (fun _ => 0) 1 k1 x 5 in
    match on0, on1, off0, off1 with
    | Ok (p, f1), Ok (q, f2), Ok (u, f3), Ok (v, f4) =>
      fg = false /\ f1 = false /\ f2 = false /\ f3 = false /\ f4 = false /\
      map (fun pq => (fst pq + snd pq) mod ModP) (combine p q) = b /\
      map (fun pq => (fst pq + snd pq) mod ModP) (combine u v) = [0; 0; 0; 0; 0]
    | _, _, _, _ => False
    end
  | _ => False
  end.
Proof. vm_compute. repeat split. Qed.

(** C14 without the no-resampling proviso is false. *)
Theorem C14_resampling_breaks_correctness_refuted :
  exists enc r a b fresh0 fresh1 k0 k1 o0 o1 fl0 fl1 flg,
    cipher_ok enc /\ rand_ok r /\ Forall (fun v => 0 <= v < ModP) b /\
    generate_tree_pf enc 4 a b r = Ok (k0, k1, flg) /\
    evaluate_pf enc 4 fresh0 0 k0 a 4 = Ok (o0, fl0) /\
    evaluate_pf enc 4 fresh1 1 k1 a 4 = Ok (o1, fl1) /\
    (nth 0 o0 0 + nth 0 o1 0) mod ModP <> nth 0 b 0.
Proof.
  exists bad_cipher, toy_rand, [true; false], [1; 2; 3; 4], (fun _ => 10), (fun _ => 20).
  do 7 eexists.
  split; [exact bad_cipher_ok|]. split; [exact toy_rand_ok|].
  split; [repeat (apply Forall_cons; [unfold ModP; lia|]); apply Forall_nil|].
  split; [vm_compute; reflexivity|]. split; [vm_compute; reflexivity|]. split; [vm_compute; reflexivity|].
  vm_compute. discriminate.
Qed.
Print Assumptions C14_resampling_breaks_correctness_refuted.

(** C15: every evaluation, also under a malformed key. *)
Theorem C15_evaluation_range :
  forall enc bl fresh sn k x n o f,
  evaluate_pf enc bl fresh sn k x n = Ok (o, f) ->
  (sn = 0 -> Forall (fun v => 0 <= v < ModP) o) /\ (sn <> 0 -> Forall (fun v => 1 <= v <= ModP) o).
Proof. exact evaluate_range. Qed.
Print Assumptions C15_evaluation_range.

Example C15_example :
  match generate_tree_pf toy_cipher 1 [true] [5] toy_rand with
  | Ok (k0, k1, _) => evaluate_pf toy_cipher 1 (fun _ => 0) 0 k0 [false] 1 = Ok ([0], false) /\
                      evaluate_pf toy_cipher 1 (fun _ => 0) 1 k1 [false] 1 = Ok ([ModP], false)
  | _ => False
  end.
Proof. vm_compute. split; reflexivity. Qed.

(** C16: payload hiding is refuted: every payload element past the last full AES block is present, up to sign, in
    both keys - for every cipher, seed and point. In the authenticated scheme (five elements) this is the last
    MAC key. *)
Theorem C16_payload_hiding_refuted :
  forall enc bl a b r k0 k1 fg j,
  cipher_ok enc -> rand_ok r ->
  (length b <= bl)%nat -> (length b < 20)%nat -> Forall (fun v => 0 <= v < ModP) b ->
  generate_tree_pf enc bl a b r = Ok (k0, k1, fg) ->
  (4 * (length b / 4) <= j < length b)%nat ->
  k_finalcw k0 = k_finalcw k1 /\
  (nth j (k_finalcw k0) 0 = nth j b 0 \/ nth j (k_finalcw k0) 0 = ModP - nth j b 0).
Proof. exact fss_payload_leak. Qed.
Print Assumptions C16_payload_hiding_refuted.

Example C16_example :
  match generate_tree_pf toy_cipher 5 [true; false] [1; 11; 22; 33; 444444] toy_rand with
  | Ok (k0, _, _) => nth 4 (k_finalcw k0) 0 = ModP - 444444 \/ nth 4 (k_finalcw k0) 0 = 444444
  | _ => False
  end.
Proof. vm_compute. auto. Qed.

(** C17 *)
Theorem C17_long_input_refuted :
  forall enc bl a b r k0 k1 fg fresh x n,
  cipher_ok enc -> rand_ok r ->
  generate_tree_pf enc bl a b r = Ok (k0, k1, fg) ->
  (length a < length x)%nat ->
  is_panic (evaluate_pf enc bl fresh 0 k0 x n) = true /\ is_panic (evaluate_pf enc bl fresh 1 k1 x n) = true.
Proof.
  intros enc bl a b r k0 k1 fg fresh x n He Hr HG HX.
  destruct (generate_cw_length enc bl a b r k0 k1 fg He Hr HG) as (L & E & _).
  split; apply evaluate_long_panics; rewrite ?E, L; exact HX.
Qed.
Print Assumptions C17_long_input_refuted.
(** A shorter input is evaluated without complaint; it gets shares of zero unless it is a prefix of the point. *)
Theorem C17_short_input_partial :
  forall enc bl a b r x fresh0 fresh1,
  cipher_ok enc -> rand_ok r -> (length x < length a)%nat -> (length x <= 256)%nat ->
  (length b <= bl)%nat -> (length b < 20)%nat -> Forall (fun v => 0 <= v < ModP) b ->
  exists k0 k1 fg o0 f0 o1 f1,
    generate_tree_pf enc bl a b r = Ok (k0, k1, fg) /\
    evaluate_pf enc bl fresh0 0 k0 x (length b) = Ok (o0, f0) /\
    evaluate_pf enc bl fresh1 1 k1 x (length b) = Ok (o1, f1) /\
    length o0 = length b /\ length o1 = length b /\
    (fg = false -> f0 = false -> f1 = false -> x <> firstn (length x) a ->
     forall j, (j < length b)%nat -> (nth j o0 0 + nth j o1 0) mod ModP = 0).
Proof.
  intros enc bl a b r x fresh0 fresh1 He Hr HX H256 Hbl H20 Hb.
  destruct (fss_short enc bl a b r x fresh0 fresh1 He Hr HX Hbl H20 Hb) as (k0 & k1 & fg & o0 & f0 & o1 & f1 & G & E0 & E1 & L0 & L1 & Z).
  exists k0, k1, fg, o0, f0, o1, f1. split; [exact G|]. split; [exact E0|]. split; [exact E1|]. split; [exact L0|]. split; [exact L1|].
  intros Fg F0 F1 NP. apply Z; auto. rewrite bits_read_upd. intros E. apply NP. rewrite <- E. clear - H256.
  assert (U : forall n (l : list bool), (length l <= n)%nat -> upd l n false = l).
  { induction n; intros [|y l] H; cbn in *; auto; try lia. rewrite IHn by lia. reflexivity. }
  symmetry. apply U. exact H256.
Qed.
Print Assumptions C17_short_input_partial.

Example C17_example :
  match generate_tree_pf toy_cipher 1 [true; false] [5] toy_rand with
  | Ok (k0, k1, fg) => is_panic (evaluate_pf toy_cipher 1 (fun _ => 0) 0 k0 [true; false; true] 1) = true /\
    fg = false /\
    match evaluate_pf toy_cipher 1 (fun _ => 0) 0 k0 [false] 1, evaluate_pf toy_cipher 1 (fun _ => 0) 1 k1 [false] 1 with
    | Ok ([o0], false), Ok ([o1], false) => o0 + o1 = ModP
    | _, _ => False
    end
  | _ => False
  end.
Proof. vm_compute. repeat split. Qed.
