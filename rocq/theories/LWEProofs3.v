(** Decoding, cheating bounds, repetition. *)
From Coq Require Import String ZArith List Bool Lia Arith.
From Verif Require Import GoBase BaseFacts EncodingModel EncodingProofs MatrixModel LWEModel LWESpec MatrixProofs LWEProofs LWEProofs2.
Import ListNotations.
Open Scope Z_scope.
Open Scope go_scope.

(** ** acceptance ranges *)
Definition range_is (w : Z) (inr : Z -> bool) (lo hi : Z) : Prop :=
  forall v, 0 <= v < w -> (inr v = true <-> v <= hi \/ w - lo <= v).

Lemma range32 B : 0 < B < w32 -> range_is w32 (in_range32 B) (B - 1) (B - 1).
Proof.
  intros HB v Hv. unfold in_range32, u32. replace (- B mod w32) with (w32 - B) by (apply (Z.mod_unique _ _ (-1)); lia).
  rewrite orb_true_iff, !Z.ltb_lt. lia.
Qed.
Lemma range128 B : 0 < B -> B + 1 < w32 -> range_is w128 (in_range128 B) (B + 1) (B - 1).
Proof.
  intros HB H v Hv. unfold in_range128, u32. rewrite (Z.mod_small (B + 1)) by lia.
  rewrite orb_true_iff, !Z.ltb_lt. lia.
Qed.

(** ** decoding one column *)
Section Range.
Variables (w : Z) (inr : Z -> bool) (lo hi : Z).
Hypothesis (R : range_is w inr lo hi) (Hlo : 0 <= lo) (Hhi : 0 <= hi) (Hw : lo < w) (Hw' : hi < w).

Lemma inr_small u : - lo <= u <= hi -> inr (u mod w) = true.
Proof using All.
  intros H. apply R. apply Z.mod_pos_bound; lia. destruct (Z_lt_le_dec u 0).
  - right. rewrite <- (Z.mod_unique u w (-1) (u + w)) by lia. lia.
  - left. rewrite Z.mod_small by lia. lia.
Qed.

Lemma decode_zero t n : - lo <= n <= hi -> decode_one w inr t (n mod w) = Ok 0.
Proof. intros H. unfold decode_one. rewrite inr_small by auto. auto. Qed.

Lemma decode_one_ok t n : 0 <= t < w -> - lo <= n <= hi ->
  decode_one w inr t ((n + t) mod w) = Ok (if inr ((n + t) mod w) then 0 else 1).
Proof.
  intros Ht H. unfold decode_one. destruct (inr ((n + t) mod w)); auto.
  rewrite Zminus_mod_idemp_l. replace (n + t - t) with n by lia. rewrite inr_small by auto. auto.
Qed.

Lemma decode_one_far t n : lo + hi + 1 <= t <= w - (lo + hi + 1) -> - lo <= n <= hi ->
  decode_one w inr t ((n + t) mod w) = Ok 1.
Proof.
  intros Ht H. rewrite decode_one_ok by lia. rewrite (Z.mod_small (n + t)) by lia.
  destruct (inr (n + t)) eqn:E; auto. apply R in E; lia.
Qed.

(** scaling secrets with which a given wrong decoding happens *)
Definition candidates (x : Z) : list Z := map (fun k => (x - lo + Z.of_nat k) mod w) (seq 0 (Z.to_nat (lo + hi + 1))).
Lemma candidates_length x : Z.of_nat (length (candidates x)) = lo + hi + 1.
Proof. unfold candidates. rewrite map_length, seq_length. lia. Qed.
Lemma candidates_in x u t : 0 <= t < w -> - lo <= u <= hi -> t = (x + u) mod w -> In t (candidates x).
Proof.
  intros Ht Hu E. unfold candidates. apply in_map_iff. exists (Z.to_nat (u + lo)). split.
  - rewrite Z2Nat.id by lia. rewrite E. f_equal. lia.
  - apply in_seq. lia.
Qed.
Lemma inr_inv v : 0 <= v < w -> inr v = true -> exists u, - lo <= u <= hi /\ v = u mod w.
Proof using All.
  intros Hv E. apply R in E; auto. destruct E.
  - exists v. rewrite Z.mod_small by lia. lia.
  - exists (v - w). split; [lia|]. apply (Z.mod_unique _ _ (-1)); lia.
Qed.
End Range.

Lemma decode_values w inr t v o : decode_one w inr t v = Ok o -> o = 0 \/ o = 1.
Proof. unfold decode_one. destruct (inr v); [|destruct (inr _)]; intros E; inversion E; auto. Qed.

(** the opposite of bit b is accepted with deviation d only for candidates *)
Lemma flip w inr lo hi : range_is w inr lo hi -> 0 <= lo -> 0 <= hi -> lo < w -> hi < w -> forall n d b,
  b = 0 \/ b = 1 -> exists bad, Z.of_nat (length bad) = lo + hi + 1 /\
  forall t, 0 <= t < w -> decode_one w inr t ((n + t * b + d) mod w) = Ok (1 - b) -> In t bad.
Proof.
  intros R Hlo Hhi H1 H2 n d b Hb.
  destruct Hb as [-> | ->].
  - (* stored 0, read as 1: t = v - u *)
    exists (candidates w hi lo (n + d)). split; [rewrite candidates_length; lia|].
    intros t Ht E. unfold decode_one in E. replace (n + t * 0 + d) with (n + d) in E by lia.
    destruct (inr ((n + d) mod w)); [discriminate|]. destruct (inr (((n + d) mod w - t) mod w)) eqn:E2; [|discriminate].
    apply (inr_inv w inr lo hi R Hlo Hhi H1 H2) in E2; [|apply Z.mod_pos_bound; lia]. destruct E2 as (u & Hu & EU).
    apply (candidates_in w hi lo) with (u := - u); try lia.
    rewrite Zminus_mod_idemp_l in EU. rewrite <- (Z.mod_small t w) by lia.
    replace t with (n + d - (n + d - t)) by lia. rewrite <- Zminus_mod_idemp_r. rewrite EU. rewrite Zminus_mod_idemp_r. f_equal; lia.
  - (* stored 1, read as 0: t = u - n - d *)
    exists (candidates w lo hi (- n - d)). split; [rewrite candidates_length; lia|].
    intros t Ht E. unfold decode_one in E. replace (n + t * 1 + d) with (n + d + t) in E by lia.
    destruct (inr ((n + d + t) mod w)) eqn:E2; [|destruct (inr (((n + d + t) mod w - t) mod w)); cbn in E; discriminate].
    apply (inr_inv w inr lo hi R Hlo Hhi H1 H2) in E2; [|apply Z.mod_pos_bound; lia]. destruct E2 as (u & Hu & EU).
    apply (candidates_in w lo hi) with (u := u); try lia.
    rewrite <- (Z.mod_small t w) by lia. replace t with (- n - d + (n + d + t)) at 1 by lia.
    rewrite <- Z.add_mod_idemp_r, EU, Z.add_mod_idemp_r by lia. auto.
Qed.

(** ** sessions *)
Lemma mapM_seq_ok {B} (f : nat -> res B) (g : nat -> B) : forall n s, (forall k, (s <= k < s + n)%nat -> f k = Ok (g k)) ->
  mapM f (seq s n) = Ok (map g (seq s n)).
Proof.
  induction n; intros s H; cbn [seq mapM map]; auto. rewrite H by lia. cbn [bind]. rewrite IHn by (intros; apply H; lia). auto.
Qed.

Lemma go_index_map_seq (g : nat -> Z) M j : (j < M)%nat -> go_index (map g (seq 0 M)) (Z.of_nat j) = Ok (g j).
Proof.
  intros Hj. rewrite (go_index_ok _ _ (g 0%nat)) by (unfold zlen; rewrite map_length, seq_length; lia).
  rewrite Nat2Z.id, map_nth, seq_nth by lia. auto.
Qed.

Lemma session_value_ok w inr t v M j g : (j < M)%nat -> (forall c, (c < M)%nat -> decode_one w inr t (v c mod w) = Ok (g c)) ->
  session_value w inr t v M j = Ok (g j).
Proof.
  intros Hj H. unfold session_value. rewrite (mapM_seq_ok _ g) by (intros; apply H; lia). cbn [bind]. apply go_index_map_seq; auto.
Qed.

Lemma mapM_nth {A B} (f : A -> res B) da db : forall l r k, mapM f l = Ok r -> (k < length l)%nat -> f (nth k l da) = Ok (nth k r db).
Proof.
  induction l; intros r k E Hk; cbn [mapM length] in *; [lia|].
  destruct (f a) as [b| | |] eqn:E1; try discriminate. cbn [bind] in E. destruct (mapM f l) as [bs| | |]; try discriminate. cbn [bind] in E.
  inversion E; subst. destruct k; cbn [nth]; auto. apply IHl; auto. lia.
Qed.
Lemma mapM_len {A B} (f : A -> res B) : forall l r, mapM f l = Ok r -> length r = length l.
Proof.
  induction l; intros r E; cbn [mapM length] in *; [inversion E; auto|].
  destruct (f a) as [b| | |]; try discriminate. cbn [bind] in E. destruct (mapM f l) as [bs| | |]; try discriminate. cbn [bind] in E.
  inversion E; subst. cbn [length]. f_equal. auto.
Qed.

Lemma session_value_inv w inr t v M j b : (j < M)%nat -> session_value w inr t v M j = Ok b -> decode_one w inr t (v j mod w) = Ok b.
Proof.
  intros Hj E. unfold session_value in E. destruct (mapM _ (seq 0 M)) as [outs| | |] eqn:EM; try discriminate. cbn [bind] in E.
  pose proof (mapM_nth _ 0%nat 0 _ _ j EM ltac:(rewrite seq_length; auto)) as H. cbv beta in H. rewrite seq_nth in H by auto. cbn [Nat.add] in H. rewrite H.
  pose proof (mapM_len _ _ _ EM) as L. rewrite seq_length in L.
  rewrite (go_index_ok _ _ 0) in E by (unfold zlen; lia). rewrite Nat2Z.id in E. congruence.
Qed.

Lemma elem_index db L M i j : exact_shape db L M -> (i < L)%nat -> (j < M)%nat -> elem db i j = nth (M * i + j) (m_data db) 0.
Proof. intros ((_ & C & _) & _) _ _. unfold elem. rewrite C, Nat2Z.id. auto. Qed.

Lemma t_bound32 abytes c L N : drawn 4 abytes c L N -> 0 <= le_dec (c_t c) < w32.
Proof. intros (_ & _ & BT & LT & _). pose proof (le_dec_bound _ BT) as H. unfold zlen in H. rewrite LT in H. exact H. Qed.
Lemma t_bound128 abytes c L N : drawn 16 abytes c L N -> 0 <= le_dec (c_t c) < w128.
Proof. intros (_ & _ & BT & LT & _). pose proof (le_dec_bound _ BT) as H. unfold zlen in H. rewrite LT in H. exact H. Qed.

(** what an honest session yields, whatever the scaling secret *)
Lemma value_honest w inr lo hi db L M (i j : nat) n t : range_is w inr lo hi -> 0 <= lo -> 0 <= hi -> lo < w -> hi < w -> 0 <= t < w ->
  exact_shape db L M -> binary db -> (i < L)%nat -> (j < M)%nat -> (forall k, (k < M)%nat -> - lo <= n k <= hi) ->
  session_value w inr t (fun k => n k + t * elem db i k) M j =
    Ok (if elem db i j =? 0 then 0 else if inr ((n j + t) mod w) then 0 else 1).
Proof.
  intros R A B C D Ht HD BD Hi Hj HN.
  apply (session_value_ok w inr t _ M j (fun j => if elem db i j =? 0 then 0 else if inr ((n j + t) mod w) then 0 else 1)); auto.
  intros k Hk. destruct (elem_in (fun x => x = 0 \/ x = 1) db L M i k (proj1 HD) BD Hi Hk) as [E|E]; rewrite E.
  - rewrite Z.mul_0_r, Z.add_0_r. cbn [Z.eqb]. apply (decode_zero w inr lo hi); auto.
  - rewrite Z.mul_1_r. cbn [Z.eqb]. apply (decode_one_ok w inr lo hi); auto.
Qed.

Lemma inr_far w inr lo hi n t : range_is w inr lo hi -> - lo <= n <= hi -> lo + hi + 1 <= t <= w - (lo + hi + 1) -> 0 <= lo -> 0 <= hi -> inr ((n + t) mod w) = false.
Proof.
  intros R Hn Ht Hlo Hhi. rewrite Z.mod_small by lia. destruct (inr (n + t)) eqn:E; auto. apply R in E; lia.
Qed.

Definition bit_at (db : matrix) (index : Z) : Z := nth (Z.to_nat index) (m_data db) 0.

Lemma honest32 p abytes dmem db c L M N index : deployment p db L M N -> drawn 4 abytes c L N ->
  0 <= index < Z.of_nat L * Z.of_nat M -> lp_b p < w32 -> (forall k, (k < M)%nat -> Z.abs (noise (c_noise c) db L k) < lp_b p) ->
  lwe_session32 p abytes dmem db c (lwe_answer_bytes32 db) index =
    Ok (if bit_at db index =? 0 then 0 else if in_range32 (lp_b p) ((noise (c_noise c) db L (Z.to_nat index mod M) + le_dec (c_t c)) mod w32) then 0 else 1).
Proof.
  intros DE DR HI HB HN. pose proof (t_bound32 _ _ _ _ DR) as Ht.
  destruct (session32_value p abytes dmem db c L M N index DE DR HI) as (i & j & Hi & Hj & TI & E & _). rewrite E.
  destruct DE as (HD & BD & _).
  assert (0 < lp_b p) by (specialize (HN j Hj); lia).
  unfold bit_at. rewrite TI, <- (elem_index db L M i j HD Hi Hj).
  rewrite (value_honest w32 (in_range32 (lp_b p)) (lp_b p - 1) (lp_b p - 1) db L M i j (noise (c_noise c) db L)); try lia; auto.
  - rewrite (Nat.mul_comm M i), Nat.add_comm, Nat.mod_add, Nat.mod_small by lia. auto.
  - apply range32. lia.
  - intros k Hk. specialize (HN k Hk). lia.
Qed.

Lemma bit_binary db L M index : exact_shape db L M -> binary db -> 0 <= index < Z.of_nat L * Z.of_nat M -> bit_at db index = 0 \/ bit_at db index = 1.
Proof.
  intros (S & LD) BD HI. unfold bit_at.
  assert (In (nth (Z.to_nat index) (m_data db) 0) (m_data db)) by (apply nth_In; rewrite LD; nia).
  exact (proj1 (Forall_forall _ _) BD _ H).
Qed.

(** correctness *)
Theorem lwe32_correct p abytes dmem db c rows cols n index : deployment p db rows cols n -> drawn 4 abytes c rows n ->
  0 <= index < Z.of_nat rows * Z.of_nat cols -> lp_b p < 2 ^ 32 ->
  (forall k, (k < cols)%nat -> Z.abs (noise (c_noise c) db rows k) < lp_b p) ->
  2 * lp_b p - 1 <= le_dec (c_t c) <= 2 ^ 32 - (2 * lp_b p - 1) ->
  lwe_session32 p abytes dmem db c (lwe_answer_bytes32 db) index = Ok (nth (Z.to_nat index) (m_data db) 0).
Proof.
  intros DE DR HI HB HN Ht. change (2 ^ 32) with w32 in *. rewrite (honest32 p abytes dmem db c rows cols n) by auto.
  destruct DE as (HD & BD & _). assert (0 < cols)%nat by lia.
  assert (HJ : (Z.to_nat index mod cols < cols)%nat) by (apply Nat.mod_upper_bound; lia). specialize (HN _ HJ).
  change (nth (Z.to_nat index) (m_data db) 0) with (bit_at db index).
  destruct (bit_binary db rows cols index HD BD HI) as [E|E]; rewrite E; cbn [Z.eqb]; auto.
  rewrite (inr_far w32 _ (lp_b p - 1) (lp_b p - 1)); auto; try lia. apply range32. lia.
Qed.

(** never rejected, zero never misread *)
Theorem lwe32_never_rejected p abytes dmem db c rows cols n index : deployment p db rows cols n -> drawn 4 abytes c rows n ->
  0 <= index < Z.of_nat rows * Z.of_nat cols -> lp_b p < 2 ^ 32 ->
  (forall k, (k < cols)%nat -> Z.abs (noise (c_noise c) db rows k) < lp_b p) ->
  exists b, lwe_session32 p abytes dmem db c (lwe_answer_bytes32 db) index = Ok b /\
    (b = nth (Z.to_nat index) (m_data db) 0 \/
     b = 0 /\ nth (Z.to_nat index) (m_data db) 0 = 1 /\ (le_dec (c_t c) < 2 * lp_b p - 1 \/ 2 ^ 32 - (2 * lp_b p - 1) < le_dec (c_t c))).
Proof.
  intros DE DR HI HB HN. pose proof (honest32 p abytes dmem db c rows cols n index DE DR HI HB HN) as E.
  eexists. split; [exact E|].
  destruct (Z_lt_le_dec (le_dec (c_t c)) (2 * lp_b p - 1)) as [A|A]; [|destruct (Z_lt_le_dec (2 ^ 32 - (2 * lp_b p - 1)) (le_dec (c_t c))) as [B|B]].
  3: { left. pose proof (lwe32_correct p abytes dmem db c rows cols n index DE DR HI HB HN ltac:(lia)) as E2. congruence. }
  all: destruct DE as (HD & BD & _); destruct (bit_binary db rows cols index HD BD HI) as [E0|E0]; rewrite E0; unfold bit_at in E0; rewrite E0; cbn [Z.eqb]; auto.
  all: destruct (in_range32 _ _); auto.
Qed.

(** the two ranges overlap for small secrets *)
Theorem lwe32_misread p abytes dmem db c rows cols n index : deployment p db rows cols n -> drawn 4 abytes c rows n ->
  0 <= index < Z.of_nat rows * Z.of_nat cols -> lp_b p < 2 ^ 32 ->
  (forall k, (k < cols)%nat -> Z.abs (noise (c_noise c) db rows k) < lp_b p) ->
  nth (Z.to_nat index) (m_data db) 0 = 1 ->
  Z.abs (noise (c_noise c) db rows (Z.to_nat index mod cols) + le_dec (c_t c)) < lp_b p ->
  lwe_session32 p abytes dmem db c (lwe_answer_bytes32 db) index = Ok 0.
Proof.
  intros DE DR HI HB HN E1 HT. rewrite (honest32 p abytes dmem db c rows cols n) by auto.
  unfold bit_at. rewrite E1. cbn [Z.eqb]. rewrite (inr_small w32 (in_range32 (lp_b p)) (lp_b p - 1) (lp_b p - 1)); auto; try lia.
  apply range32. change (2 ^ 32) with w32 in HB. lia.
  all: change (2 ^ 32) with w32 in HB; lia.
Qed.

(** default parameters *)
Lemma noise_default samples db rows cols bound : exact_shape db rows cols -> binary db -> length samples = rows ->
  Forall (fun g => Z.abs g <= bound) samples -> forall k, (k < cols)%nat -> Z.abs (noise samples db rows k) <= bound * Z.of_nat rows.
Proof.
  intros HD BD LS F k Hk. unfold noise.
  assert (G : forall n, (n <= rows)%nat -> Z.abs (sum_to n (fun r => nth r samples 0 * elem db r k)) <= bound * Z.of_nat n).
  { induction n; intros Hn. unfold sum_to. cbn. lia.
    rewrite sum_to_S. specialize (IHn ltac:(lia)).
    assert (HA : Z.abs (nth n samples 0) <= bound).
    { assert (HIn : In (nth n samples 0) samples) by (apply nth_In; lia). exact (proj1 (Forall_forall _ _) F _ HIn). }
    destruct (elem_in (fun x => x = 0 \/ x = 1) db rows cols n k (proj1 HD) BD ltac:(lia) Hk) as [E|E]; rewrite E; lia. }
  apply G. lia.
Qed.

Theorem lwe32_correct_default rows cols abytes dmem db c index : 
  let p := params_32 (Z.of_nat rows) (Z.of_nat cols) in
  exact_shape db rows cols -> binary db -> 84 * Z.of_nat rows < 2 ^ 32 -> Z.of_nat cols < 2 ^ 32 -> drawn 4 abytes c rows (Z.to_nat 1100) ->
  0 <= index < Z.of_nat rows * Z.of_nat cols -> Forall (fun g => Z.abs g <= 83) (c_noise c) ->
  168 * Z.of_nat rows - 1 <= le_dec (c_t c) <= 2 ^ 32 - (168 * Z.of_nat rows - 1) ->
  lwe_session32 p abytes dmem db c (lwe_answer_bytes32 db) index = Ok (nth (Z.to_nat index) (m_data db) 0).
Proof.
  intros p HD BD HR HC DR HI F Ht. assert (0 < rows)%nat by lia. assert (0 < cols)%nat by lia.
  assert (EB : lp_b p = 84 * Z.of_nat rows).
  { unfold p, params_32, compute_B. cbn [lp_b]. unfold u32. rewrite Z.mod_small. lia. change (2 ^ 32) with w32 in HR. lia. }
  apply (lwe32_correct p abytes dmem db c rows cols (Z.to_nat 1100)); auto; try (rewrite EB; lia).
  - unfold deployment, p, params_32. cbn [lp_l lp_m lp_n]. conj_split; auto; try lia.
  - intros k Hk. rewrite EB. destruct DR as (_ & _ & _ & _ & _ & _ & LN).
    pose proof (noise_default (c_noise c) db rows cols 83 HD BD LN F k Hk). lia.
Qed.

(** cheating *)
Theorem lwe32_cheating p abytes dmem db c rows cols n index delta : deployment p db rows cols n -> drawn 4 abytes c rows n ->
  0 <= index < Z.of_nat rows * Z.of_nat cols -> 0 < lp_b p < 2 ^ 32 -> length delta = cols ->
  exists bad, Z.of_nat (length bad) <= 2 * lp_b p - 1 /\
    forall t b, bytes t -> length t = 4%nat ->
      lwe_session32 p abytes dmem db (with_t c t) (deviating32 db delta) index = Ok b ->
      b <> nth (Z.to_nat index) (m_data db) 0 -> In (le_dec t) bad.
Proof.
  intros DE DR HI HB LD. change (2 ^ 32) with w32 in HB.
  destruct (index_split rows cols index HI) as (i & j & Hi & Hj & _ & TI).
  pose proof DE as (HD & BD & _).
  assert (HV : elem db i j = 0 \/ elem db i j = 1) by (apply (elem_in (fun x => x = 0 \/ x = 1) db rows cols i j); [apply HD|auto..]).
  destruct (flip w32 (in_range32 (lp_b p)) (lp_b p - 1) (lp_b p - 1) (range32 _ HB) ltac:(lia) ltac:(lia) ltac:(lia) ltac:(lia)
    (noise (c_noise c) db rows j) (nth j delta 0) (elem db i j) HV) as (bad & LB & HBad).
  exists bad. split; [lia|]. intros t b BT LT ES NB.
  assert (DR' : drawn 4 abytes (with_t c t) rows n).
  { destruct DR as (D1 & D2 & _ & _ & D5 & D6 & D7). unfold drawn, with_t. cbn [c_t c_secret c_noise]. conj_split; auto. }
  destruct (session32_value p abytes dmem db (with_t c t) rows cols n index DE DR' HI) as (i' & j' & Hi' & Hj' & TI' & _ & E).
  assert (i' = i /\ j' = j) as [-> ->] by (apply (row_major_inj cols); auto; lia).
  rewrite E in ES by auto. apply session_value_inv in ES; auto. cbn [with_t c_t c_noise] in ES.
  apply HBad. { pose proof (t_bound32 _ _ _ _ DR'). auto. }
  rewrite TI, <- (elem_index db rows cols i j HD Hi Hj) in NB.
  pose proof (decode_values _ _ _ _ _ ES). rewrite ES. f_equal. lia.
Qed.

(** ** 128 bits *)
Lemma gauss128_word_mod g : - 2 ^ 63 <= g < 2 ^ 63 -> gauss128_word g = stored_sample g mod w128.
Proof.
  intros H. unfold gauss128_word, stored_sample, u64. destruct (Z.leb_spec 0 g), (Z.ltb_spec g 0); try lia.
  - rewrite (Z.mod_small g w64) by (unfold w64; lia). rewrite Z.mod_small; auto. unfold w128; lia.
  - rewrite (Z.mod_small (- g) w64) by (unfold w64; lia). symmetry. symmetry. apply (Z.mod_unique _ _ (-1)); unfold w128; lia.
Qed.

Lemma noise128 samples db rows k : Forall (fun g => - 2 ^ 63 <= g < 2 ^ 63) samples ->
  noise (map gauss128_word samples) db rows k mod w128 = noise (map stored_sample samples) db rows k mod w128.
Proof.
  intros F. unfold noise. apply sum_to_mod; [unfold w128; lia|]. intros r Hr.
  destruct (Nat.lt_ge_cases r (length samples)).
  - rewrite (nth_indep (map gauss128_word samples) 0 (gauss128_word 0)) by (rewrite map_length; auto).
    rewrite (nth_indep (map stored_sample samples) 0 (stored_sample 0)) by (rewrite map_length; auto). rewrite !map_nth.
    rewrite gauss128_word_mod by (apply (proj1 (Forall_forall _ _) F); apply nth_In; auto).
    apply Z.mul_mod_idemp_l. unfold w128; lia.
  - rewrite !nth_overflow by (rewrite map_length; auto). auto.
Qed.

Lemma session_value_ext w inr t v v' M j : (forall k, v k mod w = v' k mod w) -> session_value w inr t v M j = session_value w inr t v' M j.
Proof. intros E. unfold session_value. f_equal. apply mapM_ext. intros k _. rewrite E. auto. Qed.

Theorem lwe128_correct p abytes db c rows cols n index : deployment p db rows cols n -> drawn 16 abytes c rows n ->
  0 <= index < Z.of_nat rows * Z.of_nat cols -> 0 < lp_b p -> lp_b p + 1 < 2 ^ 32 -> Forall (fun g => - 2 ^ 63 <= g < 2 ^ 63) (c_noise c) ->
  (forall k, (k < cols)%nat -> - (lp_b p + 1) <= noise (map stored_sample (c_noise c)) db rows k < lp_b p) ->
  2 * lp_b p + 1 <= le_dec (c_t c) <= 2 ^ 128 - (2 * lp_b p + 1) ->
  lwe_session128 p abytes db c (lwe_answer_bytes128 db) index = Ok (nth (Z.to_nat index) (m_data db) 0).
Proof.
  intros DE DR HI HB HB' F HN Ht. change (2 ^ 32) with w32 in *. change (2 ^ 128) with w128 in *.
  assert (HBW : w32 < w128) by reflexivity.
  destruct (session128_value p abytes db c rows cols n index DE DR HI) as (i & j & Hi & Hj & TI & E & _). rewrite E. clear E.
  destruct DE as (HD & BD & _).
  rewrite (session_value_ext _ _ _ _ (fun k => noise (map stored_sample (c_noise c)) db rows k + le_dec (c_t c) * elem db i k)).
  2:{ intros k. rewrite <- Z.add_mod_idemp_l by (unfold w128; lia). rewrite noise128 by auto. apply Z.add_mod_idemp_l. unfold w128; lia. }
  pose proof (range128 (lp_b p) HB HB') as R.
  rewrite (value_honest w128 (in_range128 (lp_b p)) (lp_b p + 1) (lp_b p - 1) db rows cols i j (noise (map stored_sample (c_noise c)) db rows)); try lia; auto.
  2:{ intros k Hk. specialize (HN k Hk). lia. }
  rewrite TI, <- (elem_index db rows cols i j HD Hi Hj).
  destruct (elem_in (fun x => x = 0 \/ x = 1) db rows cols i j (proj1 HD) BD Hi Hj) as [E|E]; rewrite E; cbn [Z.eqb]; auto.
  specialize (HN j Hj). rewrite (inr_far w128 _ (lp_b p + 1) (lp_b p - 1)); auto; lia.
Qed.

Theorem lwe128_correct_default rows cols abytes db c index : 
  let p := params_128 (Z.of_nat rows) (Z.of_nat cols) in
  exact_shape db rows cols -> binary db -> 84 * Z.of_nat rows + 1 < 2 ^ 32 -> Z.of_nat cols < 2 ^ 32 -> drawn 16 abytes c rows (Z.to_nat 4800) ->
  0 <= index < Z.of_nat rows * Z.of_nat cols -> Forall (fun g => Z.abs g <= 83) (c_noise c) ->
  168 * Z.of_nat rows + 1 <= le_dec (c_t c) <= 2 ^ 128 - (168 * Z.of_nat rows + 1) ->
  lwe_session128 p abytes db c (lwe_answer_bytes128 db) index = Ok (nth (Z.to_nat index) (m_data db) 0).
Proof.
  intros p HD BD HR HC DR HI F Ht. assert (0 < rows)%nat by lia. assert (0 < cols)%nat by lia.
  assert (EB : lp_b p = 84 * Z.of_nat rows).
  { unfold p, params_128, compute_B. cbn [lp_b]. unfold u32. rewrite Z.mod_small. lia. change (2 ^ 32) with w32 in HR. lia. }
  apply (lwe128_correct p abytes db c rows cols (Z.to_nat 4800)); auto; try (rewrite EB; lia).
  - unfold deployment, p, params_128. cbn [lp_l lp_m lp_n]. conj_split; auto; try lia.
  - eapply Forall_impl; [|exact F]. intros g Hg. cbv beta in Hg. lia.
  - intros k Hk. rewrite EB. destruct DR as (_ & _ & _ & _ & _ & _ & LN).
    unfold noise.
    assert (G : forall n, (n <= rows)%nat -> - (84 * Z.of_nat n) <= sum_to n (fun r => nth r (map stored_sample (c_noise c)) 0 * elem db r k) <= 83 * Z.of_nat n).
    { induction n; intros Hn. unfold sum_to. cbn. lia.
      rewrite sum_to_S. specialize (IHn ltac:(lia)).
      rewrite (nth_indep (map stored_sample (c_noise c)) 0 (stored_sample 0)) by (rewrite map_length; lia). rewrite map_nth.
      assert (HA : Z.abs (nth n (c_noise c) 0) <= 83).
      { assert (HIn : In (nth n (c_noise c) 0) (c_noise c)) by (apply nth_In; lia). exact (proj1 (Forall_forall _ _) F _ HIn). }
      unfold stored_sample at 2 4. destruct (Z.ltb_spec (nth n (c_noise c) 0) 0);
      destruct (elem_in (fun x => x = 0 \/ x = 1) db rows cols n k (proj1 HD) BD ltac:(lia) Hk) as [E|E]; rewrite E; lia. }
    specialize (G rows ltac:(lia)). lia.
Qed.

Theorem lwe128_cheating p abytes db c rows cols n index delta : deployment p db rows cols n -> drawn 16 abytes c rows n ->
  0 <= index < Z.of_nat rows * Z.of_nat cols -> 0 < lp_b p -> lp_b p + 1 < 2 ^ 32 -> length delta = cols ->
  exists bad, Z.of_nat (length bad) <= 2 * lp_b p + 1 /\
    forall t b, bytes t -> length t = 16%nat ->
      lwe_session128 p abytes db (with_t c t) (deviating128 db delta) index = Ok b ->
      b <> nth (Z.to_nat index) (m_data db) 0 -> In (le_dec t) bad.
Proof.
  intros DE DR HI HB HB' LD. change (2 ^ 32) with w32 in HB'. assert (HBW : w32 < w128) by reflexivity.
  destruct (index_split rows cols index HI) as (i & j & Hi & Hj & _ & TI).
  pose proof DE as (HD & BD & _).
  assert (HV : elem db i j = 0 \/ elem db i j = 1) by (apply (elem_in (fun x => x = 0 \/ x = 1) db rows cols i j); [apply HD|auto..]).
  destruct (flip w128 (in_range128 (lp_b p)) (lp_b p + 1) (lp_b p - 1) (range128 _ HB HB') ltac:(lia) ltac:(lia) ltac:(lia) ltac:(lia)
    (noise (map gauss128_word (c_noise c)) db rows j) (nth j delta 0) (elem db i j) HV) as (bad & LB & HBad).
  exists bad. split; [lia|]. intros t b BT LT ES NB.
  assert (DR' : drawn 16 abytes (with_t c t) rows n).
  { destruct DR as (D1 & D2 & _ & _ & D5 & D6 & D7). unfold drawn, with_t. cbn [c_t c_secret c_noise]. conj_split; auto. }
  destruct (session128_value p abytes db (with_t c t) rows cols n index DE DR' HI) as (i' & j' & Hi' & Hj' & TI' & _ & E).
  assert (i' = i /\ j' = j) as [-> ->] by (apply (row_major_inj cols); auto; lia).
  rewrite E in ES by auto. apply session_value_inv in ES; auto. cbn [with_t c_t c_noise] in ES.
  apply HBad. { pose proof (t_bound128 _ _ _ _ DR'). auto. }
  rewrite TI, <- (elem_index db rows cols i j HD Hi Hj) in NB.
  pose proof (decode_values _ _ _ _ _ ES). rewrite ES. f_equal. lia.
Qed.
