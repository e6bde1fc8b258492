(** How often a server that adds a fixed value to its first answers makes the amplified client read a stored 0 as 1. *)
From Coq Require Import String ZArith List Bool Lia Arith.
From Verif Require Import GoBase BaseFacts EncodingModel EncodingProofs MatrixModel LWEModel LWESpec MatrixProofs LWEProofs LWEProofs2 LWEProofs3 LWEProofs4
  AmplifySpec AmplifyProofs AmplifyProofs2 AmplifyProofs3 IntegritySpec.
Import ListNotations.
Open Scope Z_scope.

Lemma push_length cols column : length (push cols column) = cols.
Proof. unfold push. rewrite map_length, seq_length. reflexivity. Qed.
Lemma push_nth cols column l : (l < cols)%nat -> nth l (push cols column) 0 = if (l =? column)%nat then 2 ^ 31 else 0.
Proof. intros H. unfold push. rewrite nth_map_seq by exact H. reflexivity. Qed.
Lemma attack_length cols column t : length (attack cols column t) = (2 * t + 1)%nat.
Proof. unfold attack. rewrite app_length, !repeat_length. lia. Qed.
Lemma attack_cols cols column t : Forall (fun d => length d = cols) (attack cols column t).
Proof.
  unfold attack. apply Forall_app. split; apply Forall_forall; intros x I; apply repeat_spec in I; subst x; [apply push_length|apply repeat_length].
Qed.
Lemma attack_nth cols column t k l : (l < cols)%nat -> (k < 2 * t + 1)%nat ->
  nth l (nth k (attack cols column t) []) 0 = if (k <=? t)%nat && (l =? column)%nat then 2 ^ 31 else 0.
Proof.
  intros Hl Hk. unfold attack. destruct (Nat.leb_spec k t) as [C|C]; cbn [andb].
  - rewrite app_nth1 by (rewrite repeat_length; lia). rewrite (nth_indep _ [] (push cols column)) by (rewrite repeat_length; lia). rewrite nth_repeat. apply push_nth; exact Hl.
  - rewrite app_nth2 by (rewrite repeat_length; lia). rewrite repeat_length. rewrite (nth_indep _ [] (repeat 0 cols)) by (rewrite repeat_length; lia). rewrite !nth_repeat. reflexivity.
Qed.

Lemma range_opp B y : 0 < B < w32 -> in_range32 B ((- y) mod w32) = in_range32 B (y mod w32).
Proof.
  intros HB. assert (W : 0 < w32) by (unfold w32; lia). pose proof (Z.mod_pos_bound y w32 W) as Y.
  pose proof (range32 B HB (y mod w32) Y) as R1. pose proof (range32 B HB ((- y) mod w32) (Z.mod_pos_bound _ _ W)) as R2.
  apply eq_true_iff_eq. rewrite R1, R2. destruct (Z.eq_dec (y mod w32) 0) as [E|E].
  - rewrite Z_mod_zero_opp_full by exact E. rewrite E. reflexivity.
  - rewrite Z_mod_nz_opp_full by exact E. lia.
Qed.
Lemma range_minus_count B v : 0 < B -> 2 * B - 1 <= w32 -> below_count w32 (fun x => in_range32 B ((v - x) mod w32)) = 2 * B - 1.
Proof.
  intros H1 H2. assert (HB : 0 < B < w32) by (unfold w32 in *; lia).
  rewrite (below_count_ext w32 _ (fun x => in_range32 B ((- v + x) mod w32))).
  - rewrite (below_count_shift w32 (- v) (in_range32 B)) by (unfold w32; lia). rewrite (below_count_interval w32 B (B - 1)); try lia.
    intros u Hu. rewrite (range32 B HB u Hu). lia.
  - intros x _. rewrite <- (range_opp B (v - x) HB). do 2 f_equal. lia.
Qed.
Lemma zprod_exact q h (P : nat -> Z -> bool) t : forall m s, 0 <= q -> (forall k, below_count q (P k) = h) -> (s + m = 2 * t + 1)%nat -> (s <= t + 1)%nat ->
  zprod (map (below_count q) (map (fun k => if (k <=? t)%nat then P k else fun _ => true) (seq s m))) = h ^ Z.of_nat (t + 1 - s) * q ^ Z.of_nat (Nat.min m t).
Proof.
  assert (T : forall q, 0 <= q -> below_count q (fun _ => true) = q). { intros q0 Q0. rewrite <- (Z.sub_0_r q0) at 2. rewrite <- (below_count_false q0 (fun _ => false)) by reflexivity. rewrite <- below_count_compl by exact Q0. reflexivity. }
  assert (Z1 : forall q (Q : 0 <= q) m s, (t < s)%nat -> zprod (map (below_count q) (map (fun k => if (k <=? t)%nat then P k else fun _ => true) (seq s m))) = q ^ Z.of_nat m).
  { intros q0 Q0. induction m as [|m IH]; intros s HS; cbn [seq map zprod]; [reflexivity|]. destruct (Nat.leb_spec s t); [lia|]. rewrite T, IH by lia. rewrite Nat2Z.inj_succ, Z.pow_succ_r by lia. reflexivity. }
  induction m as [|m IH]; intros s Q H L HS.
  - assert (t = 0%nat) as -> by lia. assert (s = 1%nat) as -> by lia. reflexivity.
  - destruct (Nat.eq_dec s (t + 1)) as [->|N].
    + rewrite Z1 by lia. replace (t + 1 - (t + 1))%nat with 0%nat by lia. replace (Nat.min (S m) t) with (S m) by lia. change (h ^ Z.of_nat 0) with 1. lia.
    + cbn [seq map zprod]. destruct (Nat.leb_spec s t); [|lia]. rewrite H, IH by (auto; lia). replace (t + 1 - s)%nat with (S (t + 1 - S s)) by lia.
      rewrite Nat2Z.inj_succ, Z.pow_succ_r by lia. replace (Nat.min (S m) t) with t by lia. replace (Nat.min m t) with t by lia. ring.
Qed.

Section Attack.
Variables (p : lwe_params) (abytes : list Z) (dmem : nat -> Z) (db : matrix) (cs : list lwe_coins) (rows cols n t : nat) (index : Z).
Hypotheses (DE : deployment p db rows cols n) (LC : length cs = (2 * t + 1)%nat) (F : Forall (fun c => drawn 4 abytes c rows n) cs)
  (HL : 8 + 4 * Z.of_nat rows < 2 ^ 32) (HM : 8 + 4 * Z.of_nat cols < 2 ^ 32) (HC : Z.of_nat (2 * t + 1) < 2 ^ 32) (HB : 0 < lp_b p < 2 ^ 30)
  (HI : 0 <= index < Z.of_nat rows * Z.of_nat cols) (B0 : bit_at db index = 0)
  (FN : Forall (fun c => forall k, (k < cols)%nat -> Z.abs (noise (c_noise c) db rows k) < lp_b p) cs).
Let B := lp_b p.
Let column := (Z.to_nat index mod cols)%nat.
Let hit (k : nat) (x : Z) : bool := in_range32 B ((my_noise db cs rows cols index k + 2 ^ 31 - x) mod w32).

Lemma amplify_attack_value ts : length ts = (2 * t + 1)%nat -> Forall (fun x => 0 <= x < w32) ts ->
  (forall k, (k <= t)%nat -> hit k (nth k ts 0) = true) ->
  amplify_session p abytes dmem db (scaled cs ts) (amplify_deviating db (attack cols column t)) index = Ok 1.
Proof using All.
  intros LT FT HT. assert (NE : cs <> []) by (intros Z0; rewrite Z0 in LC; cbn [length] in LC; lia).
  assert (HC' : zlen cs < 2 ^ 32) by (unfold zlen; lia). assert (HB' : 0 < lp_b p < 2 ^ 32) by lia.
  assert (LT' : length ts = length cs) by lia.
  pose proof (scaled_length p abytes dmem db cs rows cols n index [] DE NE F HL HM HC' HB' HI ts LT') as LS.
  pose proof (scaled_drawn p abytes dmem db cs rows cols n index [] DE NE F HL HM HC' HB' HI ts LT') as DS.
  assert (NS : scaled cs ts <> []) by (intros Z0; rewrite Z0 in LS; destruct cs; [congruence|discriminate LS]).
  assert (HS : zlen (scaled cs ts) < 2 ^ 32) by (unfold zlen in *; lia).
  destruct (amplify_deviating_value p abytes dmem db (scaled cs ts) rows cols n index (attack cols column t) DE NS DS HL HM HS HI) as
    (i & j & Hi & Hj & TI & sts & as' & L1 & L2 & E & R).
  { rewrite attack_length. lia. }
  { apply attack_cols. }
  rewrite E. unfold amplify_reconstruct.
  assert (JJ : column = j).
  { unfold column. rewrite TI, (Nat.mul_comm cols i), Nat.add_comm, Nat.mod_add, Nat.mod_small by lia. reflexivity. }
  assert (BA : elem db i j = 0).
  { rewrite <- B0. unfold bit_at. rewrite TI. pose proof DE as DE0. destruct DE0 as (HD & _). apply (elem_index db rows cols i j HD Hi Hj). }
  pose proof DE as DE0. destruct DE0 as (HD & BD & _).
  set (g := fun k => if (k <=? t)%nat then 1 else 0). set (outs := map g (seq 0 (2 * t + 1))).
  change (amplify_outputs p sts as' 0) with (amplify_outputs p sts ([] ++ as') (length (@nil matrix))).
  rewrite (outputs_ok p sts as' outs []); try lia.
  - cbn [bind]. apply decode_iff. exists (map g (seq 1 (2 * t))). split.
    { unfold outs. rewrite Nat.add_1_r. cbn [seq map]. reflexivity. }
    assert (G : forall m s, (s + m = 2 * t + 1)%nat -> (s <= t + 1)%nat -> occurrences 1 (map g (seq s m)) = (t + 1 - s)%nat).
    { unfold occurrences. assert (G0 : forall m s, (t < s)%nat -> count_occ Z.eq_dec (map g (seq s m)) 1 = 0%nat).
      { induction m as [|m IH]; intros s HS2; cbn [seq map count_occ]; [reflexivity|]. destruct (Z.eq_dec (g s) 1) as [X|_]; [unfold g in X; destruct (Nat.leb_spec s t); lia|]. apply IH. lia. }
      induction m as [|m IH]; intros s L HS2; [cbn [seq map count_occ]; lia|]. destruct (Nat.eq_dec s (t + 1)) as [->|N]; [rewrite G0; lia|].
      cbn [seq map count_occ]. destruct (Z.eq_dec (g s) 1) as [_|X]; [|unfold g in X; destruct (Nat.leb_spec s t); lia]. rewrite IH; lia. }
    unfold outs. rewrite G by lia. rewrite map_length, seq_length. lia.
  - apply (Forall2_nth' _ (st0, mat0) 0). { unfold outs. rewrite combine_length, map_length, seq_length. lia. }
    intros k Hk. rewrite combine_length in Hk. assert (Hk' : (k < length cs)%nat) by lia. rewrite nth_combine by lia. cbn [fst snd]. rewrite R by lia.
    rewrite (scaled_nth p abytes dmem db cs rows cols n index [] DE NE F HL HM HC' HB' HI) by lia. cbn [with_t c_t c_noise].
    destruct (ts_nth p abytes dmem db cs rows cols n index [] DE NE F HL HM HC' HB' HI ts k LT' Hk' FT) as [TE TB]. rewrite TE.
    assert (HN : forall l, (l < cols)%nat -> Z.abs (noise (c_noise (nth k cs coin0)) db rows l) < lp_b p).
    { rewrite Forall_forall in FN. apply FN. apply nth_In. exact Hk'. }
    unfold outs. rewrite nth_map_seq by lia.
    set (v := fun l => noise (c_noise (nth k cs coin0)) db rows l + nth k ts 0 * elem db i l + nth l (nth k (attack cols column t) []) 0).
    set (out := fun l => if (k <=? t)%nat && (l =? column)%nat then 1 else if elem db i l =? 0 then 0 else if in_range32 (lp_b p) ((noise (c_noise (nth k cs coin0)) db rows l + nth k ts 0) mod w32) then 0 else 1).
    rewrite (session_value_ok w32 (in_range32 (lp_b p)) (nth k ts 0) v cols j out Hj).
    + f_equal. unfold out, g. rewrite JJ, Nat.eqb_refl, andb_true_r, BA. reflexivity.
    + intros l Hl. unfold v, out. rewrite attack_nth by lia. specialize (HN l Hl).
      assert (RG : range_is w32 (in_range32 (lp_b p)) (lp_b p - 1) (lp_b p - 1)) by (apply range32; unfold w32; lia).
      destruct ((k <=? t)%nat && (l =? column)%nat) eqn:C.
      * apply andb_true_iff in C as [C1 C2]. apply Nat.leb_le in C1. apply Nat.eqb_eq in C2. subst l. rewrite JJ, BA, Z.mul_0_r, Z.add_0_r.
        specialize (HT k C1). unfold hit, my_noise in HT. fold column in HT. rewrite JJ in HT, HN. unfold decode_one. fold B in HN |- *.
        set (u := noise (c_noise (nth k cs coin0)) db rows j) in *. 
        assert (NF : in_range32 B ((u + 2 ^ 31) mod w32) = false).
        { apply (inr_far w32 (in_range32 B) (B - 1) (B - 1)); unfold w32, B in *; try lia. exact RG. }
        rewrite NF, Zminus_mod_idemp_l, HT. reflexivity.
      * rewrite Z.add_0_r. destruct (elem_in (fun x => x = 0 \/ x = 1) db rows cols i l (proj1 HD) BD Hi Hl) as [X|X]; rewrite X; cbn [Z.eqb].
        -- rewrite Z.mul_0_r, Z.add_0_r. apply (decode_zero w32 _ (lp_b p - 1) (lp_b p - 1)); unfold w32 in *; auto; lia.
        -- rewrite Z.mul_1_r. apply (decode_one_ok w32 _ (lp_b p - 1) (lp_b p - 1)); unfold w32 in *; auto; lia.
Qed.

Lemma amplify_attack_count :
  (2 * B - 1) ^ Z.of_nat (t + 1) * w32 ^ Z.of_nat t <=
  count_words w32 (2 * t + 1) (fun ts => wrong (amplify_session p abytes dmem db (scaled cs ts) (amplify_deviating db (attack cols column t)) index) 0).
Proof using All.
  set (Qs := map (fun k => if (k <=? t)%nat then hit k else fun _ => true) (seq 0 (2 * t + 1))).
  assert (LQ : length Qs = (2 * t + 1)%nat) by (unfold Qs; rewrite map_length, seq_length; reflexivity).
  apply Z.le_trans with (count_words w32 (2 * t + 1) (all_hold Qs)).
  - rewrite <- LQ. rewrite count_all. unfold Qs. rewrite (zprod_exact w32 (2 * B - 1)); try lia.
    + replace (t + 1 - 0)%nat with (t + 1)%nat by lia. replace (Nat.min (2 * t + 1) t) with t by lia. lia.
    + unfold w32; lia.
    + intros k. unfold hit. apply range_minus_count; unfold B, w32; lia.
  - apply count_words_le. intros ts LT FT A. rewrite amplify_attack_value; auto. intros k Hk.
    assert (G : forall m s ts', (forall k, (k < m)%nat -> (k < length ts')%nat) -> all_hold (map (fun k => if (k <=? t)%nat then hit k else fun _ => true) (seq s m)) ts' = true ->
      forall k, (k < m)%nat -> (s + k <= t)%nat -> hit (s + k) (nth k ts' 0) = true).
    { clear. induction m as [|m IH]; intros s ts' L H k Hk Hs; [lia|]. destruct ts' as [|x ts']; [specialize (L 0%nat ltac:(lia)); cbn [length] in L; lia|].
      cbn [seq map all_hold] in H. apply andb_true_iff in H as [H1 H2]. destruct k as [|k]; cbn [nth].
      - rewrite Nat.add_0_r in *. destruct (Nat.leb_spec s t); [exact H1|lia].
      - rewrite <- Nat.add_succ_comm. apply (IH (S s) ts'); auto; try lia. intros k' Hk'. specialize (L (S k') ltac:(lia)). cbn [length] in L. lia. }
    apply (G (2 * t + 1)%nat 0%nat ts); auto; intros; lia.
Qed.
End Attack.
