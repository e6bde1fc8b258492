(** Bounds on the number of scaling secrets that make the amplified scheme err. *)
From Coq Require Import String ZArith List Bool Lia Arith.
From Verif Require Import GoBase BaseFacts EncodingModel EncodingProofs MatrixModel LWEModel LWESpec MatrixProofs LWEProofs LWEProofs2 LWEProofs3 LWEProofs4
  AmplifySpec AmplifyProofs AmplifyProofs2.
Import ListNotations.
Open Scope Z_scope.

Lemma num_hold_occ v : forall Ps ts outs, length Ps = length outs -> length ts = length outs ->
  (forall k, (k < length outs)%nat -> nth k outs 0 = v -> nth k Ps (fun _ => false) (nth k ts 0) = true) -> (occurrences v outs <= num_hold Ps ts)%nat.
Proof.
  unfold occurrences. induction Ps as [|P Ps IH]; intros [|t ts] [|o outs] L1 L2 H; cbn [length] in *; try lia; cbn [count_occ num_hold]; auto.
  specialize (IH ts outs ltac:(lia) ltac:(lia) ltac:(intros k Hk; apply (H (S k)); lia)).
  destruct (Z.eq_dec o v) as [E|N]; [|destruct (P t); lia].
  specialize (H 0%nat ltac:(lia) E). cbn [nth] in H. rewrite H. lia.
Qed.
Lemma num_hold_occ_eq v : forall Ps ts outs, length Ps = length outs -> length ts = length outs ->
  (forall k, (k < length outs)%nat -> nth k outs 0 = v <-> nth k Ps (fun _ => false) (nth k ts 0) = true) -> (occurrences v outs = num_hold Ps ts)%nat.
Proof.
  unfold occurrences. induction Ps as [|P Ps IH]; intros [|t ts] [|o outs] L1 L2 H; cbn [length] in *; try lia; cbn [count_occ num_hold]; auto.
  specialize (IH ts outs ltac:(lia) ltac:(lia) ltac:(intros k Hk; apply (H (S k)); lia)).
  specialize (H 0%nat ltac:(lia)). cbn [nth] in H. destruct (Z.eq_dec o v) as [E|N].
  - apply H in E. rewrite E. lia.
  - destruct (P t); [exfalso; apply N, H; reflexivity|lia].
Qed.
Lemma below_count_false q P : (forall x, P x = false) -> below_count q P = 0.
Proof. intros H. unfold below_count. induction (below q) as [|x l IH]; cbn [filter]; [reflexivity|]. rewrite H. exact IH. Qed.
Lemma nth_map_seq {A} (f : nat -> A) d k m : (k < m)%nat -> nth k (map f (seq 0 m)) d = f k.
Proof.
  intros H. rewrite (nth_indep _ d (f 0%nat)) by (rewrite map_length, seq_length; auto). rewrite map_nth, seq_nth by auto. reflexivity.
Qed.

Lemma count_first q n P G : 
  count_words q (S n) (fun ts => P (hd 0 ts) && G (tl ts)) = below_count q P * count_words q n G.
Proof.
  cbn [count_words hd tl]. rewrite (count_step q n P (fun b l => b && G l)). cbv beta.
  rewrite (count_words_false q n (fun l => false && G l)) by reflexivity.
  rewrite (count_words_ext q n (fun l => true && G l) G) by reflexivity. lia.
Qed.

Lemma pow_trade h q (a t m : nat) : 0 <= h <= q -> (t < a)%nat -> (a + m = 2 * t + 1)%nat ->
  h ^ Z.of_nat a * q ^ Z.of_nat m <= h ^ Z.of_nat (t + 1) * q ^ Z.of_nat t.
Proof.
  intros H A M. replace a with (t + 1 + (a - (t + 1)))%nat by lia. replace (Z.of_nat t) with (Z.of_nat (a - (t + 1)) + Z.of_nat m) by lia.
  rewrite Nat2Z.inj_add, !Z.pow_add_r by lia.
  assert (h ^ Z.of_nat (a - (t + 1)) <= q ^ Z.of_nat (a - (t + 1))) by (apply Z.pow_le_mono_l; lia).
  assert (0 <= h ^ Z.of_nat (t + 1)) by (apply Z.pow_nonneg; lia). assert (0 <= q ^ Z.of_nat m) by (apply Z.pow_nonneg; lia).
  rewrite <- Z.mul_assoc. apply Z.mul_le_mono_nonneg_l; [assumption|]. apply Z.mul_le_mono_nonneg_r; assumption.
Qed.

Lemma zprod_bound q h (free : nat -> bool) (P : nat -> Z -> bool) l : 0 <= q -> (forall k, In k l -> below_count q (P k) <= h) ->
  0 <= zprod (map (below_count q) (map (fun k => if free k then fun _ => true else P k) l)) <=
  h ^ Z.of_nat (length (filter (fun k => negb (free k)) l)) * q ^ Z.of_nat (length (filter free l)).
Proof.
  intros Hq. induction l as [|k l IH]; intros H; cbn [map zprod filter].
  - cbn [length]. rewrite !Z.pow_0_r. lia.
  - specialize (IH ltac:(intros x I; apply H; right; exact I)). set (z := zprod _) in *.
    assert (Hh : 0 <= h) by (pose proof (H k (or_introl eq_refl)); pose proof (below_count_nonneg q (P k)); lia).
    destruct (free k); cbn [negb length].
    + pose proof (below_count_le q (fun _ => true) Hq). pose proof (below_count_nonneg q (fun _ => true)).
      rewrite Nat2Z.inj_succ, (Z.pow_succ_r q) by lia. nia.
    + pose proof (H k (or_introl eq_refl)). pose proof (below_count_nonneg q (P k)).
      rewrite Nat2Z.inj_succ, (Z.pow_succ_r h) by lia. nia.
Qed.

Section Count.
Variables (p : lwe_params) (abytes : list Z) (dmem : nat -> Z) (db : matrix) (cs : list lwe_coins) (rows cols n t : nat) (index : Z) (deltas : list (list Z)).
Hypotheses (DE : deployment p db rows cols n) (LC : length cs = (2 * t + 1)%nat) (F : Forall (fun c => drawn 4 abytes c rows n) cs)
  (HL : 8 + 4 * Z.of_nat rows < 2 ^ 32) (HM : 8 + 4 * Z.of_nat cols < 2 ^ 32) (HC : Z.of_nat (2 * t + 1) < 2 ^ 32) (HB : 0 < lp_b p) (HB2 : 2 * lp_b p - 1 <= 2 ^ 32)
  (HI : 0 <= index < Z.of_nat rows * Z.of_nat cols).

Let NE : cs <> []. Proof using LC. intros Z0. rewrite Z0 in LC. cbn [length] in LC. lia. Qed.
Let HC' : zlen cs < 2 ^ 32. Proof using LC HC. unfold zlen. lia. Qed.
Let HB' : 0 < lp_b p < 2 ^ 32. Proof using HB HB2. lia. Qed.

Let B := lp_b p.
Let hit (k : nat) (x : Z) : bool := match my_decode p db cs rows cols index deltas k x with Ok o => o =? 1 - bit_at db index | _ => false end.
Let Ps := map hit (seq 0 (2 * t + 1)).

Lemma hit_count k : below_count w32 (hit k) <= 2 * B - 1.
Proof using All.
  change (2 ^ 32) with w32 in *.
  destruct (flip w32 (in_range32 (lp_b p)) (lp_b p - 1) (lp_b p - 1) (range32 _ HB') ltac:(lia) ltac:(lia) ltac:(lia) ltac:(lia)
    (my_noise db cs rows cols index k) (my_delta cols index deltas k) (bit_at db index) (my_bit p db rows cols n index DE HI)) as (bad & LB & HBad).
  replace (2 * B - 1) with (Z.of_nat (length bad)) by (unfold B; lia). apply below_count_incl. intros x X E. apply HBad; [exact X|].
  unfold hit, my_decode in E. destruct (decode_one _ _ _ _) as [o| | |]; try discriminate E. apply Z.eqb_eq in E. congruence.
Qed.

Let wrong_ts (ts : list Z) : bool :=
  wrong (amplify_session p abytes dmem db (scaled cs ts) (amplify_deviating db deltas) index) (bit_at db index).

Lemma wrong_hits ts : length deltas = length cs -> Forall (fun d => length d = cols) deltas -> length ts = (2 * t + 1)%nat -> Forall (fun x => 0 <= x < w32) ts ->
  wrong_ts ts = true -> hit 0%nat (hd 0 ts) && (t <=? num_hold (map hit (seq 1 (2 * t))) (tl ts))%nat = true.
Proof using All.
  intros LD FD LT FT W. unfold wrong_ts in W.
  destruct (amplify_wrong_inv p abytes dmem db cs rows cols n index deltas DE NE F HL HM HC' HB' HI ts LD FD ltac:(lia) FT W) as (outs & LO & DK & O0 & MJ).
  rewrite LC in *. assert (OC : (occurrences (1 - bit_at db index) outs <= num_hold Ps ts)%nat).
  { apply num_hold_occ; unfold Ps; rewrite ?map_length, ?seq_length; try lia. intros k Hk E.
    rewrite nth_map_seq by lia. unfold hit. rewrite DK by lia. rewrite E. apply Z.eqb_refl. }
  assert (H0 : hit 0%nat (hd 0 ts) = true).
  { destruct ts as [|x ts]; [cbn [length] in LT; lia|]. cbn [hd]. specialize (DK 0%nat ltac:(lia)). cbn [nth] in DK. unfold hit. rewrite DK, O0. apply Z.eqb_refl. }
  rewrite H0. cbn [andb]. apply Nat.leb_le. unfold Ps in OC. rewrite Nat.add_1_r in OC. cbn [seq map] in OC. destruct ts as [|x ts]; [cbn [length] in LT; lia|].
  cbn [num_hold hd tl] in *. rewrite H0 in OC. lia.
Qed.

Lemma amplify_count : length deltas = length cs -> Forall (fun d => length d = cols) deltas ->
  count_words w32 (2 * t + 1) wrong_ts <= choose (2 * t) t * (2 * B - 1) ^ Z.of_nat (t + 1) * w32 ^ Z.of_nat t.
Proof using All.
  intros LD FD. apply Z.le_trans with (count_words w32 (2 * t + 1) (fun ts => hit 0%nat (hd 0 ts) && (t <=? num_hold (map hit (seq 1 (2 * t))) (tl ts))%nat)).
  - apply count_words_le. intros ts LT FT W. apply wrong_hits; auto.
  - rewrite Nat.add_1_r. rewrite (count_first w32 (2 * t) (hit 0%nat) (fun l => (t <=? num_hold (map hit (seq 1 (2 * t))) l)%nat)).
    pose proof (count_at_least w32 (2 * B - 1) ltac:(unfold w32; lia) (map hit (seq 1 (2 * t))) t) as C.
    rewrite map_length, seq_length in C. replace (2 * t - t)%nat with t in C by lia.
    assert (FF : Forall (fun P => below_count w32 P <= 2 * B - 1) (map hit (seq 1 (2 * t)))).
    { apply Forall_forall. intros P I. apply in_map_iff in I as (k & <- & _). apply hit_count. }
    specialize (C FF). pose proof (hit_count 0%nat). pose proof (below_count_nonneg w32 (hit 0%nat)).
    pose proof (count_words_nonneg w32 (2 * t) (fun l => (t <=? num_hold (map hit (seq 1 (2 * t))) l)%nat)).
    rewrite Nat.add_1_r, Nat2Z.inj_succ, Z.pow_succ_r by lia. set (c := count_words _ _ _) in *.
    apply Z.le_trans with ((2 * B - 1) * c); [apply Z.mul_le_mono_nonneg_r; lia|]. 
    apply Z.le_trans with ((2 * B - 1) * (choose (2 * t) t * (2 * B - 1) ^ Z.of_nat t * w32 ^ Z.of_nat t)); [apply Z.mul_le_mono_nonneg_l; [unfold B; lia|exact C]|].
    apply Z.eq_le_incl. ring.
Qed.

Lemma amplify_count_zero : length deltas = length cs -> Forall (fun d => length d = cols) deltas -> bit_at db index = 0 ->
  count_words w32 (2 * t + 1) wrong_ts <= (2 * B - 1) ^ Z.of_nat (t + 1) * w32 ^ Z.of_nat t.
Proof using All.
  intros LD FD B0.
  pose (free := fun k => in_range32 B ((my_noise db cs rows cols index k + my_delta cols index deltas k) mod w32)).
  assert (DF : forall k x, free k = true -> my_decode p db cs rows cols index deltas k x = Ok 0).
  { intros k x E. unfold my_decode, decode_one. rewrite B0, Z.mul_0_r, Z.add_0_r. unfold free, B in E. rewrite E. reflexivity. }
  assert (W : forall ts, length ts = (2 * t + 1)%nat -> Forall (fun x => 0 <= x < w32) ts -> wrong_ts ts = true ->
    all_hold (map (fun k => if free k then fun _ => true else hit k) (seq 0 (2 * t + 1))) ts = true /\
    (t < length (filter (fun k => negb (free k)) (seq 0 (2 * t + 1))))%nat).
  { intros ts LT FT W. unfold wrong_ts in W.
    destruct (amplify_wrong_inv p abytes dmem db cs rows cols n index deltas DE NE F HL HM HC' HB' HI ts LD FD ltac:(lia) FT W) as (outs & LO & DK & O0 & MJ).
    rewrite LC in *. rewrite B0 in *. change (1 - 0) with 1 in *. split.
    - assert (G : forall m s ts', length ts' = m -> (forall k, (k < m)%nat -> (if free (s + k)%nat then fun _ => true else hit (s + k)%nat) (nth k ts' 0) = true) ->
        all_hold (map (fun k => if free k then fun _ => true else hit k) (seq s m)) ts' = true).
      { induction m as [|m IH]; intros s ts' L H; cbn [seq map all_hold]; [reflexivity|]. destruct ts' as [|x ts']; [reflexivity|]. cbn [length] in L.
        apply andb_true_iff. split; [specialize (H 0%nat ltac:(lia)); rewrite Nat.add_0_r in H; exact H|].
        apply IH; [lia|]. intros k Hk. specialize (H (S k) ltac:(lia)). rewrite Nat.add_succ_r in H. exact H. }
      apply G; [exact LT|]. intros k Hk. cbn [Nat.add]. destruct (free k) eqn:E; [reflexivity|]. unfold hit. rewrite DK by exact Hk. rewrite B0.
      change (1 - 0) with 1. specialize (DK k Hk). unfold my_decode, decode_one in DK. rewrite B0, Z.mul_0_r, Z.add_0_r in DK. fold B in DK.
      unfold free in E. rewrite E in DK. destruct (in_range32 B _); [|discriminate DK]. apply Z.eqb_eq. congruence.
    - assert (OC : (occurrences 1%Z outs <= length (filter (fun k => negb (free k)) (seq 0 (2 * t + 1))))%nat); [|lia].
      rewrite <- LO. unfold occurrences. clear - DK DF LO. 
      assert (G : forall o s, (forall k, (k < length o)%nat -> nth k o 0 = 1 -> free (s + k)%nat = false) ->
        (count_occ Z.eq_dec o 1%Z <= length (filter (fun k => negb (free k)) (seq s (length o))))%nat).
      { induction o as [|x o IH]; intros s H; cbn [count_occ length seq filter]; [lia|].
        specialize (IH (S s) ltac:(intros k Hk E; specialize (H (S k) ltac:(cbn [length]; lia) E); rewrite Nat.add_succ_r in H; exact H)).
        destruct (Z.eq_dec x 1) as [E|N].
        - specialize (H 0%nat ltac:(cbn [length]; lia) E). rewrite Nat.add_0_r in H. rewrite H. cbn [negb length]. lia.
        - destruct (negb (free s)); cbn [length]; lia. }
      apply G. intros k Hk E. cbn [Nat.add]. destruct (free k) eqn:FK; [|reflexivity]. specialize (DK k ltac:(lia)). rewrite DF in DK by exact FK. congruence. }
  destruct (Nat.le_gt_cases (length (filter (fun k => negb (free k)) (seq 0 (2 * t + 1)))) t) as [A|A].
  - rewrite (count_words_ext _ _ wrong_ts (fun _ => false)).
    + rewrite count_words_false by reflexivity. apply Z.mul_nonneg_nonneg; apply Z.pow_nonneg; unfold B, w32; lia.
    + intros ts LT FT. destruct (wrong_ts ts) eqn:E; [|reflexivity]. destruct (W ts LT FT E). lia.
  - set (Qs := map (fun k => if free k then fun _ => true else hit k) (seq 0 (2 * t + 1))) in *.
    assert (LQ : length Qs = (2 * t + 1)%nat) by (unfold Qs; rewrite map_length, seq_length; reflexivity).
    apply Z.le_trans with (count_words w32 (2 * t + 1) (all_hold Qs)).
    + apply count_words_le. intros ts LT FT E. apply W; assumption.
    + rewrite <- LQ. rewrite count_all.
      destruct (zprod_bound w32 (2 * B - 1) free hit (seq 0 (2 * t + 1)) ltac:(unfold w32; lia) ltac:(intros; apply hit_count)) as [_ Z1].
      fold Qs in Z1. eapply Z.le_trans; [exact Z1|]. apply pow_trade; [change w32 with (2 ^ 32); unfold B; lia|exact A|].
      pose proof (filter_split free (seq 0 (2 * t + 1))) as FS. rewrite seq_length in FS. lia.
Qed.

(** an honest server and a stored 1 *)
Lemma range_count k : below_count w32 (fun x => in_range32 B ((my_noise db cs rows cols index k + x) mod w32)) = 2 * B - 1.
Proof using All.
  change (2 ^ 32) with w32 in *. rewrite (below_count_shift w32 (my_noise db cs rows cols index k) (in_range32 B)) by (unfold w32; lia).
  rewrite (below_count_interval w32 B (B - 1)); unfold B; try lia. intros v Hv.
  rewrite (range32 _ HB' v Hv). lia.
Qed.

Lemma amplify_honest_count : bit_at db index = 1 ->
  Forall (fun c => forall k, (k < cols)%nat -> Z.abs (noise (c_noise c) db rows k) < lp_b p) cs ->
  choose (2 * t) t * (2 * B - 1) ^ Z.of_nat (t + 1) * (w32 - (2 * B - 1)) ^ Z.of_nat t <=
  count_words w32 (2 * t + 1) (fun ts => wrong (amplify_session p abytes dmem db (scaled cs ts) (amplify_answer_bytes db) index) (bit_at db index)).
Proof using All.
  intros B1 FN. set (h := fun k x => in_range32 B ((my_noise db cs rows cols index k + x) mod w32)).
  apply Z.le_trans with (count_words w32 (2 * t + 1) (fun ts => h 0%nat (hd 0 ts) && (num_hold (map h (seq 1 (2 * t))) (tl ts) =? t)%nat)).
  - replace (2 * t + 1)%nat with (S (2 * t)) by lia. rewrite (count_first w32 (2 * t) (h 0%nat) (fun l => (num_hold (map h (seq 1 (2 * t))) l =? t)%nat)).
    pose proof (count_exactly w32 (2 * B - 1) ltac:(unfold w32; lia) (map h (seq 1 (2 * t))) t) as C.
    rewrite map_length, seq_length in C. replace (2 * t - t)%nat with t in C by lia. rewrite C.
    + unfold h at 1. rewrite range_count. rewrite Nat.add_1_r, Nat2Z.inj_succ, Z.pow_succ_r by lia. apply Z.eq_le_incl. ring.
    + apply Forall_forall. intros P I. apply in_map_iff in I as (k & <- & _). apply range_count.
  - apply count_words_le. intros ts LT FT W. apply andb_true_iff in W as [W0 W1]. apply Nat.eqb_eq in W1.
    rewrite (amplify_honest_value p abytes dmem db cs rows cols n index [] DE NE F HL HM HC' HB' HI ts ltac:(lia) FT FN). rewrite B1, LC. cbn [Z.eqb].
    set (g := fun k => if in_range32 (lp_b p) ((my_noise db cs rows cols index k + nth k ts 0) mod w32) then 0 else 1).
    assert (E : ecc_decode (map g (seq 0 (2 * t + 1))) = Ok 0).
    { apply decode_iff. exists (map g (seq 1 (2 * t))).
      assert (G0 : g 0%nat = 0). { unfold g. destruct ts as [|x ts]; [cbn [length] in LT; lia|]. cbn [hd nth] in *. unfold h, B in W0. rewrite W0. reflexivity. }
      split; [rewrite Nat.add_1_r; cbn [seq map]; rewrite G0; reflexivity|].
      rewrite (num_hold_occ_eq 0 (map h (seq 0 (2 * t + 1))) ts); rewrite ?map_length, ?seq_length; try lia.
      - rewrite Nat.add_1_r. cbn [seq map]. destruct ts as [|x ts]; [cbn [length] in LT; lia|]. cbn [num_hold hd tl] in *. rewrite W0, W1. lia.
      - intros k Hk. rewrite !nth_map_seq by lia. unfold g, h, B. destruct (in_range32 _ _); split; intros; congruence. }
    rewrite E. reflexivity.
Qed.
End Count.

(** one repetition, honest server: the exact number *)
Lemma lwe32_error_count p abytes dmem db c rows cols n index : deployment p db rows cols n -> drawn 4 abytes c rows n ->
  0 <= index < Z.of_nat rows * Z.of_nat cols -> 2 * lp_b p - 1 <= 2 ^ 32 ->
  (forall k, (k < cols)%nat -> Z.abs (noise (c_noise c) db rows k) < lp_b p) ->
  count_words (2 ^ 32) 1 (fun ts => wrong (lwe_session32 p abytes dmem db (with_t c (le_enc 4 (hd 0 ts))) (lwe_answer_bytes32 db) index) (bit_at db index)) =
  if bit_at db index =? 0 then 0 else 2 * lp_b p - 1.
Proof.
  intros DE DR HI HB2 HN. change (2 ^ 32) with w32 in *.
  assert (C0 : (0 < cols)%nat) by nia. assert (HJ : (Z.to_nat index mod cols < cols)%nat) by (apply Nat.mod_upper_bound; lia).
  assert (HB : 0 < lp_b p) by (specialize (HN _ HJ); lia).
  assert (V : forall x, 0 <= x < w32 -> wrong (lwe_session32 p abytes dmem db (with_t c (le_enc 4 x)) (lwe_answer_bytes32 db) index) (bit_at db index) =
    (negb (bit_at db index =? 0) && in_range32 (lp_b p) ((noise (c_noise c) db rows (Z.to_nat index mod cols) + x) mod w32))%bool).
  { intros x X. rewrite (honest32 p abytes dmem db (with_t c (le_enc 4 x)) rows cols n); auto; [|..].
    - cbn [with_t c_noise c_t wrong]. rewrite le_dec_enc by exact X. destruct DE as (HD & BD & _).
      destruct (bit_binary db rows cols index HD BD HI) as [E|E]; rewrite E; cbn [Z.eqb negb andb]; [reflexivity|].
      destruct (in_range32 _ _); reflexivity.
    - destruct DR as (D1 & D2 & _ & _ & D5 & D6 & D7). unfold drawn, with_t. cbn [c_t c_secret c_noise]. conj_split; auto using le_enc_bytes, le_enc_length.
    - unfold w32 in *. lia. }
  assert (S1 : count_words w32 1 (fun ts => wrong (lwe_session32 p abytes dmem db (with_t c (le_enc 4 (hd 0 ts))) (lwe_answer_bytes32 db) index) (bit_at db index)) =
    below_count w32 (fun x => (negb (bit_at db index =? 0) && in_range32 (lp_b p) ((noise (c_noise c) db rows (Z.to_nat index mod cols) + x) mod w32))%bool)).
  { rewrite (count_words_ext w32 1 _ (fun ts => (fun x => (negb (bit_at db index =? 0) && in_range32 (lp_b p) ((noise (c_noise c) db rows (Z.to_nat index mod cols) + x) mod w32))%bool) (hd 0 ts) && (fun _ => true) (tl ts))).
    - rewrite (count_first w32 0 (fun x => (negb (bit_at db index =? 0) && in_range32 (lp_b p) ((noise (c_noise c) db rows (Z.to_nat index mod cols) + x) mod w32))%bool) (fun _ => true)). cbn [count_words]. lia.
    - intros [|x [|y l]] L FT; try discriminate L. cbn [hd tl]. rewrite V by (inversion FT; assumption). rewrite andb_true_r. reflexivity. }
  rewrite S1. destruct (bit_at db index =? 0); cbn [negb andb].
  - apply below_count_false. reflexivity.
  - rewrite (below_count_shift w32 (noise (c_noise c) db rows (Z.to_nat index mod cols)) (in_range32 (lp_b p))) by (unfold w32; lia).
    rewrite (below_count_interval w32 (lp_b p) (lp_b p - 1)); try lia. intros v Hv. rewrite (range32 (lp_b p) ltac:(unfold w32 in *; lia) v Hv). lia.
Qed.
