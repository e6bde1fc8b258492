(** How many scaling secrets make the amplified scheme err. *)
From Coq Require Import String ZArith List Bool Lia Arith.
From Verif Require Import GoBase BaseFacts EncodingModel EncodingProofs MatrixModel LWEModel LWESpec MatrixProofs LWEProofs LWEProofs2 LWEProofs3 LWEProofs4
  AmplifySpec AmplifyProofs.
Import ListNotations.
Open Scope Z_scope.

Section Session.
Variables (p : lwe_params) (abytes : list Z) (dmem : nat -> Z) (db : matrix) (cs : list lwe_coins) (rows cols n : nat) (index : Z) (deltas : list (list Z)).
Hypotheses (DE : deployment p db rows cols n) (NE : cs <> []) (F : Forall (fun c => drawn 4 abytes c rows n) cs)
  (HL : 8 + 4 * Z.of_nat rows < 2 ^ 32) (HM : 8 + 4 * Z.of_nat cols < 2 ^ 32) (HC : zlen cs < 2 ^ 32) (HB : 0 < lp_b p < 2 ^ 32)
  (HI : 0 <= index < Z.of_nat rows * Z.of_nat cols).

Lemma scaled_length ts : length ts = length cs -> length (scaled cs ts) = length cs.
Proof using All. intros L. unfold scaled. rewrite map_length, combine_length. lia. Qed.
Lemma scaled_nth ts k : length ts = length cs -> (k < length cs)%nat -> nth k (scaled cs ts) coin0 = with_t (nth k cs coin0) (le_enc 4 (nth k ts 0)).
Proof using All.
  intros L Hk. unfold scaled. rewrite (nth_indep _ coin0 ((fun ct => with_t (fst ct) (le_enc 4 (snd ct))) (coin0, 0))) by (rewrite map_length, combine_length; lia).
  rewrite (map_nth (fun ct => with_t (fst ct) (le_enc 4 (snd ct)))). rewrite nth_combine by lia. reflexivity.
Qed.
Lemma scaled_drawn ts : length ts = length cs -> Forall (fun c => drawn 4 abytes c rows n) (scaled cs ts).
Proof using All.
  intros L. apply (Forall_nth' _ _ coin0). intros k Hk. rewrite (scaled_length ts L) in Hk. rewrite scaled_nth by auto.
  destruct (proj1 (Forall_forall _ _) F (nth k cs coin0) ltac:(apply nth_In; auto)) as (D1 & D2 & _ & _ & D5 & D6 & D7).
  unfold drawn, with_t. cbn [c_t c_secret c_noise]. conj_split; auto using le_enc_bytes, le_enc_length.
Qed.
Lemma ts_nth ts k : length ts = length cs -> (k < length cs)%nat -> Forall (fun x => 0 <= x < w32) ts -> le_dec (le_enc 4 (nth k ts 0)) = nth k ts 0 /\ 0 <= nth k ts 0 < w32.
Proof using All.
  intros L Hk FT. assert (B : 0 <= nth k ts 0 < w32).
  { rewrite Forall_forall in FT. apply FT. apply nth_In. lia. }
  split; [|exact B]. apply le_dec_enc. exact B.
Qed.

(** noise at the column asked for *)
Definition my_noise (k : nat) : Z := noise (c_noise (nth k cs coin0)) db rows (Z.to_nat index mod cols).
Definition my_delta (k : nat) : Z := nth (Z.to_nat index mod cols) (nth k deltas []) 0.
Definition my_decode (k : nat) (t : Z) : res Z :=
  decode_one w32 (in_range32 (lp_b p)) t ((my_noise k + t * bit_at db index + my_delta k) mod w32).

Lemma my_bit : bit_at db index = 0 \/ bit_at db index = 1.
Proof using DE HI. destruct DE as (HD & BD & _). exact (bit_binary db rows cols index HD BD HI). Qed.

Lemma amplify_wrong_inv ts : length deltas = length cs -> Forall (fun d => length d = cols) deltas ->
  length ts = length cs -> Forall (fun x => 0 <= x < w32) ts ->
  wrong (amplify_session p abytes dmem db (scaled cs ts) (amplify_deviating db deltas) index) (bit_at db index) = true ->
  exists outs, length outs = length cs /\ (forall k, (k < length cs)%nat -> my_decode k (nth k ts 0) = Ok (nth k outs 0)) /\
    nth 0 outs 0 = 1 - bit_at db index /\ (length cs < 2 * occurrences (1 - bit_at db index) outs)%nat.
Proof using All.
  intros LD FD LT FT W. pose proof (scaled_length ts LT) as LS. pose proof (scaled_drawn ts LT) as DS.
  destruct (amplify_deviating_value p abytes dmem db (scaled cs ts) rows cols n index deltas DE) as (i & j & Hi & Hj & TI & sts & as' & L2 & L3 & E & R); auto; try lia.
  { intros Z0. rewrite Z0 in LS. destruct cs; [congruence|discriminate LS]. }
  { unfold zlen in *. lia. }
  rewrite E in W. unfold amplify_reconstruct in W.
  change (amplify_outputs p sts as' 0) with (amplify_outputs p sts ([] ++ as') (length (@nil matrix))) in W.
  destruct (amplify_outputs p sts ([] ++ as') (length (@nil matrix))) as [outs| | |] eqn:EO; try discriminate W. cbn [bind] in W.
  apply outputs_inv in EO; [|lia]. pose proof (Forall2_length' _ _ _ EO) as LO. rewrite combine_length in LO.
  destruct (ecc_decode outs) as [b| | |] eqn:ED; try discriminate W. cbn [wrong] in W.
  apply decode_iff in ED as (rest & EO' & MJ).
  assert (JJ : (Z.to_nat index mod cols = j)%nat).
  { rewrite TI, (Nat.mul_comm cols i), Nat.add_comm, Nat.mod_add, Nat.mod_small by lia. reflexivity. }
  assert (BA : bit_at db index = elem db i j).
  { unfold bit_at. rewrite TI. symmetry. destruct DE as (HD & _). apply (elem_index db rows cols i j HD Hi Hj). }
  assert (DK : forall k, (k < length cs)%nat -> my_decode k (nth k ts 0) = Ok (nth k outs 0)).
  { intros k Hk. pose proof (Forall2_nth_inv _ (st0, mat0) 0 _ _ EO k ltac:(rewrite combine_length; lia)) as EK. cbv beta in EK.
    rewrite nth_combine in EK by lia. cbn [fst snd] in EK. rewrite R in EK by lia. rewrite scaled_nth in EK by lia.
    apply session_value_inv in EK; auto. cbn [with_t c_t c_noise] in EK. destruct (ts_nth ts k LT Hk FT) as [TE _]. rewrite TE in EK.
    unfold my_decode, my_noise, my_delta. rewrite JJ, BA. exact EK. }
  assert (Hb : b = 1 - bit_at db index).
  { assert (H0 : (0 < length cs)%nat) by (destruct cs; [congruence|cbn [length]; lia]).
    specialize (DK 0%nat H0). apply decode_values in DK. rewrite EO' in DK. cbn [nth] in DK.
    apply negb_true_iff, Z.eqb_neq in W. destruct my_bit; lia. }
  exists outs. split; [lia|]. split; [exact DK|]. rewrite <- Hb. rewrite EO' at 1. split; [reflexivity|]. lia.
Qed.

(** an honest server *)
Lemma amplify_honest_value ts : length ts = length cs -> Forall (fun x => 0 <= x < w32) ts ->
  Forall (fun c => forall k, (k < cols)%nat -> Z.abs (noise (c_noise c) db rows k) < lp_b p) cs ->
  amplify_session p abytes dmem db (scaled cs ts) (amplify_answer_bytes db) index =
  ecc_decode (map (fun k => if bit_at db index =? 0 then 0 else if in_range32 (lp_b p) ((my_noise k + nth k ts 0) mod w32) then 0 else 1) (seq 0 (length cs))).
Proof using All.
  intros LT FT FN. pose proof (scaled_length ts LT) as LS. pose proof (scaled_drawn ts LT) as DS.
  assert (NS : scaled cs ts <> []) by (intros Z0; rewrite Z0 in LS; destruct cs; [congruence|discriminate LS]).
  assert (HS : zlen (scaled cs ts) < 2 ^ 32) by (unfold zlen in *; lia).
  rewrite (amplify_honest_deviating p abytes dmem db (scaled cs ts) rows cols n) by auto.
  destruct (amplify_deviating_value p abytes dmem db (scaled cs ts) rows cols n index (repeat (repeat 0 cols) (length (scaled cs ts))) DE NS DS HL HM HS HI) as
    (i & j & Hi & Hj & TI & sts & as' & L1 & L2 & E & R).
  { apply repeat_length. }
  { apply Forall_forall. intros x Hx. apply repeat_spec in Hx. subst. apply repeat_length. }
  rewrite E. unfold amplify_reconstruct.
  assert (JJ : (Z.to_nat index mod cols = j)%nat).
  { rewrite TI, (Nat.mul_comm cols i), Nat.add_comm, Nat.mod_add, Nat.mod_small by lia. reflexivity. }
  assert (BA : bit_at db index = elem db i j).
  { unfold bit_at. rewrite TI. symmetry. destruct DE as (HD & _). apply (elem_index db rows cols i j HD Hi Hj). }
  destruct DE as (HD & BD & _).
  change (amplify_outputs p sts as' 0) with (amplify_outputs p sts ([] ++ as') (length (@nil matrix))).
  set (outs := map _ (seq 0 (length cs))).
  rewrite (outputs_ok p sts as' outs []); auto; try lia.
  apply (Forall2_nth' _ (st0, mat0) 0). { unfold outs. rewrite combine_length, map_length, seq_length. lia. }
  intros k Hk. rewrite combine_length in Hk. rewrite nth_combine by lia. cbn [fst snd]. rewrite R by lia.
  assert (Hk' : (k < length cs)%nat) by lia. rewrite scaled_nth by auto. cbn [with_t c_t c_noise]. destruct (ts_nth ts k LT Hk' FT) as [TE TB]. rewrite TE.
  rewrite (session_value_ext _ _ _ _ (fun l => noise (c_noise (nth k cs coin0)) db rows l + nth k ts 0 * elem db i l)).
  2:{ intros l. f_equal. rewrite (nth_indep _ [] (repeat 0 cols)) by (rewrite repeat_length; lia). rewrite !nth_repeat. lia. }
  change (2 ^ 32) with w32 in *. assert (HN : forall l, (l < cols)%nat -> Z.abs (noise (c_noise (nth k cs coin0)) db rows l) < lp_b p).
  { rewrite Forall_forall in FN. apply FN. apply nth_In. exact Hk'. }
  rewrite (value_honest w32 (in_range32 (lp_b p)) (lp_b p - 1) (lp_b p - 1) db rows cols i j (noise (c_noise (nth k cs coin0)) db rows)); try lia; auto.
  2: apply range32; lia. 2: intros l Hl; specialize (HN l Hl); lia.
  f_equal. set (g := fun k => if bit_at db index =? 0 then 0 else if in_range32 (lp_b p) ((my_noise k + nth k ts 0) mod w32) then 0 else 1) in outs.
  transitivity (g k); [unfold g, my_noise; rewrite JJ, BA; reflexivity|]. unfold outs.
  rewrite (nth_indep (map g (seq 0 (length cs))) 0 (g 0%nat)) by (rewrite map_length, seq_length; auto). rewrite map_nth.
  rewrite seq_nth by auto. reflexivity.
Qed.
End Session.
