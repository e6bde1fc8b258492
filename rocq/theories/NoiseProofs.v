(** Proofs about the noise sampler: recurrences for the number of word sequences. *)
From Coq Require Import String ZArith List Bool Lia Arith.
From Verif Require Import GoBase BaseFacts AmplifySpec NoiseModel NoiseSpec.
Import ListNotations.
Open Scope Z_scope.

(** sum of f over 0..q-1 *)
Definition Sum (q : Z) (f : Z -> Z) : Z := zsum (map f (below q)).

Lemma zsum_app a b : zsum (a ++ b) = zsum a + zsum b.
Proof. induction a; cbn [zsum app]; lia. Qed.
Lemma below_S n : below (Z.of_nat (S n)) = below (Z.of_nat n) ++ [Z.of_nat n].
Proof. unfold below. rewrite !Nat2Z.id. rewrite seq_S, map_app. auto. Qed.
Lemma Sum_0 f : Sum 0 f = 0. Proof. reflexivity. Qed.
Lemma Sum_S q f : 0 <= q -> Sum (q + 1) f = Sum q f + f q.
Proof.
  intros H. unfold Sum. rewrite <- (Z2Nat.id q) by auto. replace (Z.of_nat (Z.to_nat q) + 1) with (Z.of_nat (S (Z.to_nat q))) by lia.
  rewrite below_S, map_app, zsum_app. cbn [map zsum]. lia.
Qed.
Lemma Sum_2 f : Sum 2 f = f 0 + f 1.
Proof. change 2 with (0 + 1 + 1) at 1. rewrite !Sum_S, Sum_0 by lia. rewrite Z.add_0_l. auto. Qed.
Lemma Sum_ind (P : Z -> Prop) : P 0 -> (forall q, 0 <= q -> P q -> P (q + 1)) -> forall q, 0 <= q -> P q.
Proof. intros H0 HS. apply natlike_ind; auto. Qed.
Lemma Sum_ext q f g : 0 <= q -> (forall k, 0 <= k < q -> f k = g k) -> Sum q f = Sum q g.
Proof.
  intros H. revert q H. apply (Sum_ind (fun q => (forall k, 0 <= k < q -> f k = g k) -> Sum q f = Sum q g)); auto.
  intros q H IH E. rewrite !Sum_S by auto. rewrite IH, (E q) by (intros; try apply E; lia). auto.
Qed.
Lemma Sum_add q f g : 0 <= q -> Sum q (fun k => f k + g k) = Sum q f + Sum q g.
Proof. revert q. apply (Sum_ind (fun q => Sum q (fun k => f k + g k) = Sum q f + Sum q g)); auto. intros q H IH. rewrite !Sum_S, IH by auto. lia. Qed.
Lemma Sum_mul q f c : 0 <= q -> Sum q (fun k => c * f k) = c * Sum q f.
Proof. revert q. apply (Sum_ind (fun q => Sum q (fun k => c * f k) = c * Sum q f)). rewrite !Sum_0; lia. intros q H IH. rewrite !Sum_S, IH by auto. lia. Qed.
Lemma Sum_const q c : 0 <= q -> Sum q (fun _ => c) = q * c.
Proof. revert q. apply (Sum_ind (fun q => Sum q (fun _ => c) = q * c)); auto. intros q H IH. rewrite !Sum_S, IH by auto. lia. Qed.
Lemma Sum_split a b f : 0 <= a -> 0 <= b -> Sum (a + b) f = Sum a f + Sum b (fun j => f (a + j)).
Proof.
  intros Ha. revert b. apply (Sum_ind (fun b => Sum (a + b) f = Sum a f + Sum b (fun j => f (a + j)))).
  rewrite Z.add_0_r, Sum_0. lia. intros b Hb IH. rewrite Z.add_assoc, !Sum_S, IH by lia. lia.
Qed.
Lemma Sum_prod a b f : 0 <= a -> 0 <= b -> Sum (a * b) f = Sum a (fun i => Sum b (fun j => f (i * b + j))).
Proof.
  intros Ha Hb. revert a Ha. apply (Sum_ind (fun a => Sum (a * b) f = Sum a (fun i => Sum b (fun j => f (i * b + j))))); auto.
  intros a Ha IH. rewrite Sum_S by auto. replace ((a + 1) * b) with (a * b + b) by lia. rewrite Sum_split, IH by nia. auto.
Qed.
Lemma Sum_swap a b f : 0 <= a -> 0 <= b -> Sum a (fun i => Sum b (fun j => f i j)) = Sum b (fun j => Sum a (fun i => f i j)).
Proof.
  intros Ha Hb. revert a Ha. apply (Sum_ind (fun a => Sum a (fun i => Sum b (fun j => f i j)) = Sum b (fun j => Sum a (fun i => f i j)))).
  rewrite Sum_0. rewrite (Sum_ext b _ (fun _ => 0)) by (auto; intros; apply Sum_0). rewrite Sum_const; lia.
  intros a Ha IH. rewrite Sum_S, IH by auto. rewrite <- Sum_add by auto. apply Sum_ext; auto. intros. rewrite Sum_S; auto.
Qed.
Lemma Sum_nonneg q f : 0 <= q -> (forall k, 0 <= k < q -> 0 <= f k) -> 0 <= Sum q f.
Proof.
  intros H. revert q H. apply (Sum_ind (fun q => (forall k, 0 <= k < q -> 0 <= f k) -> 0 <= Sum q f)). rewrite Sum_0. lia.
  intros q H IH E. rewrite Sum_S by auto. specialize (IH ltac:(intros; apply E; lia)). specialize (E q ltac:(lia)). lia.
Qed.
Lemma Sum_single q f x : 0 <= x < q -> (forall k, 0 <= k < q -> k <> x -> f k = 0) -> Sum q f = f x.
Proof.
  intros Hx E. replace q with (x + 1 + (q - x - 1)) by lia. rewrite Sum_split by lia. rewrite Sum_S by lia.
  rewrite (Sum_ext x f (fun _ => 0)) by (try lia; intros; apply E; lia). rewrite (Sum_ext (q - x - 1) _ (fun _ => 0)) by (try lia; intros; apply E; lia).
  rewrite !Sum_const by lia. lia.
Qed.

(** the number of k below q with P k *)
Definition ind (b : bool) : Z := if b then 1 else 0.
Definition Cnt (q : Z) (P : Z -> bool) : Z := Sum q (fun k => ind (P k)).
Lemma Cnt_lower q P a : 0 <= a <= q -> (forall k, 0 <= k < a -> P k = true) -> a <= Cnt q P.
Proof.
  intros H E. unfold Cnt. replace q with (a + (q - a)) by lia. rewrite Sum_split by lia.
  rewrite (Sum_ext a _ (fun _ => 1)) by (try lia; intros; rewrite E by lia; auto). rewrite Sum_const by lia.
  pose proof (Sum_nonneg (q - a) (fun j => ind (P (a + j))) ltac:(lia) ltac:(intros; unfold ind; destruct (P (a + k)); lia)). lia.
Qed.
Lemma Cnt_upper q P b : 0 <= b <= q -> (forall k, b <= k < q -> P k = false) -> Cnt q P <= b.
Proof.
  intros H E. unfold Cnt. replace q with (b + (q - b)) by lia. rewrite Sum_split by lia.
  rewrite (Sum_ext (q - b) _ (fun _ => 0)) by (try lia; intros; rewrite E by lia; auto). rewrite Sum_const by lia.
  assert (G : Sum b (fun k => ind (P k)) <= b).
  { assert (0 <= Sum b (fun k => 1 - ind (P k))) by (apply Sum_nonneg; [lia|]; intros; unfold ind; destruct (P k); lia).
    rewrite (Sum_ext b _ (fun k => 1 + (-1) * ind (P k))) in H0 by (intros; lia). rewrite Sum_add, Sum_mul, Sum_const in H0 by lia. lia. }
  lia.
Qed.

(** ** the counts *)
Definition ends (p : phase) (g : Z) (ws : list Z) : bool := match noise p ws with Some (g', []) => g' =? g | _ => false end.
Definition num (p : phase) (n : nat) (g : Z) : Z := count_words (2 ^ 64) n (ends p g).
Definition W : Z := 2 ^ 63.
Definition kept : Z := 2 ^ 31 / 129.
Definition left_over : Z := 2 ^ 31 mod 129.
Definition acc (x k : Z) : bool := negb (float_of_int k =? 2 ^ 63) && under x (float_of_int k).
Definition rej (x k : Z) : bool := negb (float_of_int k =? 2 ^ 63) && negb (under x (float_of_int k)).
Definition bad (k : Z) : bool := float_of_int k =? 2 ^ 63.

Lemma cw_ext q n : forall P Q, (forall l, length l = n -> P l = Q l) -> count_words q n P = count_words q n Q.
Proof.
  induction n; intros P Q E; cbn [count_words]. rewrite E; auto.
  f_equal. apply map_ext. intros a. apply IHn. intros l L. apply E. cbn [length]. lia.
Qed.
Lemma cw_false q n : forall P, (forall l, length l = n -> P l = false) -> count_words q n P = 0.
Proof.
  intros P E. rewrite (cw_ext q n P (fun _ => false)) by auto. clear. induction n; cbn [count_words]; auto.
  induction (below q); cbn [map zsum]; auto. rewrite IHl. lia.
Qed.
Lemma cw_S q n P : count_words q (S n) P = Sum q (fun x => count_words q n (fun l => P (x :: l))).
Proof. reflexivity. Qed.
Opaque count_words.

Lemma words_split f : Sum (2 ^ 64) (fun w => f (int63 w)) = 2 * Sum W f.
Proof.
  change (2 ^ 64) with (2 * W). rewrite Sum_prod by (unfold W; lia).
  rewrite (Sum_ext 2 _ (fun _ => Sum W f)). rewrite Sum_const; lia. lia.
  intros i Hi. apply Sum_ext. unfold W; lia. intros j Hj. f_equal. unfold int63. fold W. rewrite Z.add_comm, Z.mod_add by (unfold W; lia).
  apply Z.mod_small. auto.
Qed.

Lemma draws_num n g : draws n g = num Index n g.
Proof. unfold draws, num. apply cw_ext. intros l _. reflexivity. Qed.
Lemma num_0 p g : num p 0 g = 0.
Proof. unfold num. rewrite cw_false; auto. intros [|] L; [|discriminate]. reflexivity. Qed.

Lemma num_index n g : num Index (S n) g = 2 ^ 33 * (kept * Sum 129 (fun x => num (Height x) n g) + left_over * num Index n g).
Proof.
  unfold num at 1. rewrite cw_S.
  set (F := fun v => if int31_max <? v then num Index n g else num (Height (v mod 129)) n g).
  rewrite (Sum_ext _ _ (fun w => (fun j => F (j / 2 ^ 32)) (int63 w))).
  2: lia.
  2: { intros w Hw. cbn beta. unfold F, num. destruct (int31_max <? int63 w / 2 ^ 32) eqn:E.
       - apply cw_ext. intros l _. unfold ends. cbn [noise]. rewrite E. auto.
       - apply cw_ext. intros l _. unfold ends. cbn [noise]. rewrite E. auto. }
  rewrite (words_split (fun j => F (j / 2 ^ 32))). change W with (2 ^ 31 * 2 ^ 32). rewrite Sum_prod by lia.
  rewrite (Sum_ext (2 ^ 31) _ (fun v => 2 ^ 32 * F v)).
  2: lia.
  2: { intros v Hv. rewrite (Sum_ext _ _ (fun _ => F v)). apply Sum_const; lia. lia. intros j Hj. f_equal.
       rewrite Z.div_add_l by lia. rewrite Z.div_small by lia. lia. }
  rewrite Sum_mul by lia.
  assert (E : Sum (2 ^ 31) F = kept * Sum 129 (fun x => num (Height x) n g) + left_over * num Index n g).
  { replace (2 ^ 31) with (kept * 129 + left_over) by (unfold kept, left_over; rewrite Z.mul_comm; symmetry; apply Z.div_mod; lia).
    rewrite Sum_split by (unfold kept, left_over; vm_compute; discriminate). f_equal.
    - rewrite Sum_prod by (unfold kept; vm_compute; discriminate). rewrite (Sum_ext kept _ (fun _ => Sum 129 (fun x => num (Height x) n g))).
      apply Sum_const. unfold kept; vm_compute; discriminate. unfold kept; vm_compute; discriminate.
      intros i Hi. apply Sum_ext. lia. intros x Hx. unfold F.
      assert (EM : int31_max = kept * 129 - 1) by (vm_compute; reflexivity). rewrite EM.
      destruct (Z.ltb_spec (kept * 129 - 1) (i * 129 + x)); [nia|]. f_equal. f_equal. rewrite Z.add_comm, Z.mod_add by lia. apply Z.mod_small; auto.
    - rewrite (Sum_ext left_over _ (fun _ => num Index n g)). apply Sum_const. unfold left_over; vm_compute; discriminate. unfold left_over; vm_compute; discriminate.
      intros j Hj. unfold F. assert (EM : int31_max = kept * 129 - 1) by (vm_compute; reflexivity). rewrite EM.
      destruct (Z.ltb_spec (kept * 129 - 1) (kept * 129 + j)); [auto|lia]. }
  rewrite E. change (2 ^ 33) with (2 * 2 ^ 32). lia.
Qed.

Lemma num_height n x g : num (Height x) (S n) g =
  2 * (Cnt W bad * num (Height x) n g + Cnt W (acc x) * num (Sign x) n g + Cnt W (rej x) * num Index n g).
Proof.
  unfold num at 1. rewrite cw_S.
  set (G := fun k => (num (Height x) n g * ind (bad k) + num (Sign x) n g * ind (acc x k)) + num Index n g * ind (rej x k)).
  rewrite (Sum_ext _ _ (fun w => G (int63 w))).
  2: lia.
  2: { intros w Hw. unfold G, bad, acc, rej. destruct (float_of_int (int63 w) =? 2 ^ 63) eqn:E.
       - cbn [negb andb ind]. rewrite (cw_ext _ _ _ (ends (Height x) g)). unfold num. lia. intros l _. unfold ends. cbn [noise]. rewrite E. auto.
       - destruct (under x (float_of_int (int63 w))) eqn:U; cbn [negb andb ind].
         + rewrite (cw_ext _ _ _ (ends (Sign x) g)). unfold num. lia. intros l _. unfold ends. cbn [noise]. rewrite E, U. auto.
         + rewrite (cw_ext _ _ _ (ends Index g)). unfold num. lia. intros l _. unfold ends. cbn [noise]. rewrite E, U. auto. }
  rewrite words_split. unfold G. rewrite !Sum_add, !Sum_mul by (unfold W; lia). unfold Cnt. lia.
Qed.

Lemma num_sign n x g : num (Sign x) (S n) g = if (n =? 0)%nat then W * (ind (- x =? g) + ind (x =? g)) else 0.
Proof.
  unfold num. rewrite cw_S. destruct n as [|n]; cbn [Nat.eqb].
  - change (2 ^ 64) with (W * 2). rewrite Sum_prod by (unfold W; lia). 
    rewrite (Sum_ext W _ (fun _ => ind (- x =? g) + ind (x =? g))). apply Sum_const. unfold W; lia. unfold W; lia.
    intros i Hi. rewrite Sum_2. f_equal.
    + rewrite (cw_ext _ 0 _ (fun _ => - x =? g)). destruct (- x =? g); reflexivity. intros [|] L; [|discriminate]. unfold ends. cbn [noise].
      rewrite Z.add_0_r, Z.mod_mul by lia. auto.
    + rewrite (cw_ext _ 0 _ (fun _ => x =? g)). destruct (x =? g); reflexivity. intros [|] L; [|discriminate]. unfold ends. cbn [noise].
      rewrite Z.add_comm, Z.mod_add by lia. auto.
  - rewrite (Sum_ext _ _ (fun _ => 0)). rewrite Sum_const; lia. lia. intros k Hk. apply cw_false. intros l L. unfold ends. cbn [noise].
    destruct l; [discriminate|]. auto.
Qed.

Opaque num Cnt kept left_over W.
(** the weight of g: accepted heights times signs *)
Definition weight (g : Z) : Z := Sum 129 (fun x => Cnt W (acc x) * (W * (ind (- x =? g) + ind (x =? g)))).

Lemma num_shape n : exists a b, forall g, num Index n g = a * weight g /\ Sum 129 (fun x => num (Height x) n g) = b * weight g.
Proof.
  induction n as [|n (a & b & IH)].
  - exists 0, 0. intros g. rewrite num_0. split; [lia|]. rewrite (Sum_ext _ _ (fun _ => 0)). rewrite Sum_const; lia. lia. intros; apply num_0.
  - exists (2 ^ 33 * (kept * b + left_over * a)), (2 * (Cnt W bad * b + ind (n =? 1)%nat + Sum 129 (fun x => Cnt W (rej x)) * a)).
    intros g. destruct (IH g) as [E1 E2]. split.
    + rewrite num_index, E1, E2. generalize (weight g) kept left_over (2 ^ 33). intros; ring.
    + rewrite (Sum_ext _ _ (fun x => 2 * (Cnt W bad * num (Height x) n g + Cnt W (acc x) * num (Sign x) n g + num Index n g * Cnt W (rej x)))).
      2: lia. 2: { intros x Hx. rewrite num_height. rewrite (Z.mul_comm (num Index n g) (Cnt W (rej x))). reflexivity. }
      rewrite Sum_mul by lia. rewrite !Sum_add by lia. rewrite !Sum_mul by lia. rewrite E1, E2.
      assert (E3 : Sum 129 (fun x => Cnt W (acc x) * num (Sign x) n g) = ind (n =? 1)%nat * weight g).
      { unfold weight. rewrite <- Sum_mul by lia. apply Sum_ext. lia. intros x Hx. destruct n as [|n]. rewrite num_0. cbn [Nat.eqb ind]. lia.
        rewrite num_sign. destruct n; cbn [Nat.eqb ind]; lia. }
      rewrite E3. generalize (weight g) (Cnt W bad) (ind (n =? 1)%nat) (Sum 129 (fun x => Cnt W (rej x))). intros; ring.
Qed.

Theorem law n g g' : draws n g * draws 3 g' = draws n g' * draws 3 g.
Proof.
  rewrite (draws_num n g), (draws_num 3 g'), (draws_num n g'), (draws_num 3 g).
  destruct (num_shape n) as (a & b & E). destruct (num_shape 3) as (a3 & b3 & E3).
  destruct (E g) as [E1 _], (E g') as [E2 _], (E3 g) as [E4 _], (E3 g') as [E5 _]. rewrite E1, E2, E4, E5.
  generalize (weight g) (weight g'). intros; ring.
Qed.

Theorem draws_3 g : draws 3 g = 2 ^ 34 * kept * weight g.
Proof.
  rewrite draws_num. rewrite num_index, num_index.
  rewrite (Sum_ext 129 (fun x => num (Height x) 1 g) (fun _ => 0)). 2: lia. 2: { intros. rewrite num_height, !num_0. lia. }
  rewrite num_index, num_0. rewrite (Sum_ext 129 (fun x => num (Height x) 0 g) (fun _ => 0)) by (try lia; intros; apply num_0).
  rewrite !Sum_const by lia.
  rewrite (Sum_ext 129 _ (fun x => 2 * (Cnt W (acc x) * (W * (ind (- x =? g) + ind (x =? g)))))).
  2: lia. 2: { intros. rewrite num_height, num_height, !num_0, num_index, num_0, num_sign. cbn [Nat.eqb].
    rewrite (Sum_ext 129 (fun x => num (Height x) 0 g) (fun _ => 0)) by (try lia; intros; apply num_0). rewrite Sum_const by lia. lia. }
  rewrite Sum_mul by lia. fold (weight g). change (2 ^ 34) with (2 ^ 33 * 2). generalize (weight g) kept left_over (2 ^ 33). intros; ring.
Qed.

Lemma weight_in g : -128 <= g <= 128 -> weight g = Cnt W (acc (Z.abs g)) * (W * if g =? 0 then 2 else 1).
Proof.
  intros Hg. unfold weight. rewrite (Sum_single _ _ (Z.abs g)); try lia.
  - destruct (Z.eqb_spec g 0) as [->|N]. reflexivity. f_equal. f_equal.
    destruct (Z.eqb_spec (- Z.abs g) g), (Z.eqb_spec (Z.abs g) g); cbn [ind]; lia.
  - intros k Hk NK. destruct (Z.eqb_spec (- k) g), (Z.eqb_spec k g); cbn [ind]; lia.
Qed.
Lemma weight_out g : 128 < Z.abs g -> weight g = 0.
Proof.
  intros Hg. unfold weight. rewrite (Sum_ext _ _ (fun _ => 0)). rewrite Sum_const; lia. lia.
  intros k Hk. destruct (Z.eqb_spec (- k) g), (Z.eqb_spec k g); cbn [ind]; lia.
Qed.

Lemma weight_opp g : weight (- g) = weight g.
Proof.
  unfold weight. apply Sum_ext; [lia|]. intros k Hk.
  assert (E : ind (- k =? - g) + ind (k =? - g) = ind (- k =? g) + ind (k =? g)); [|rewrite E; reflexivity].
  destruct (Z.eqb_spec (- k) g), (Z.eqb_spec k g), (Z.eqb_spec (- k) (- g)), (Z.eqb_spec k (- g)); cbn [ind]; lia.
Qed.
Lemma draws_opp n g : draws n (- g) = draws n g.
Proof.
  destruct (num_shape n) as (a & b & E). destruct (E g) as [E1 _], (E (- g)) as [E2 _].
  exact (eq_trans (draws_num n (- g)) (eq_trans E2 (eq_trans (f_equal (Z.mul a) (weight_opp g)) (eq_sym (eq_trans (draws_num n g) E1))))).
Qed.
Lemma draws_in g : -128 <= g <= 128 -> draws 3 g = 2 ^ 34 * kept * (Cnt W (acc (Z.abs g)) * (W * if g =? 0 then 2 else 1)).
Proof. intros Hg. rewrite draws_3, (weight_in g Hg). reflexivity. Qed.
Transparent num Cnt kept left_over W.
(** ** rounding *)
Lemma round_half_even_near n d : 0 < d -> let r := round_half_even n d in 2 * n - d <= 2 * (r * d) <= 2 * n + d.
Proof.
  intros Hd. unfold round_half_even. pose proof (Z.div_mod n d ltac:(lia)). pose proof (Z.mod_pos_bound n d Hd).
  destruct (Z.ltb_spec (2 * (n mod d)) d), (Z.eqb_spec (2 * (n mod d)) d); cbn [orb andb]; try destruct (Z.even (n / d)); cbn zeta; nia.
Qed.
Lemma float_near k : 0 <= k < 2 ^ 63 -> k - 2 ^ 9 <= float_of_int k <= k + 2 ^ 9.
Proof.
  intros Hk. unfold float_of_int. destruct (Z.leb_spec (Z.log2 k - 52) 0); [lia|].
  assert (L : Z.log2 k <= 62). { destruct (Z.eq_dec k 0) as [->|]; [cbn; lia|]. apply Z.lt_succ_r. apply Z.log2_lt_pow2; lia. }
  set (s := Z.log2 k - 52) in *. pose proof (round_half_even_near k (2 ^ s) ltac:(apply Z.pow_pos_nonneg; lia)) as R. cbn zeta in R.
  assert (2 ^ s <= 2 ^ 10) by (apply Z.pow_le_mono_r; lia). change (2 ^ 10) with 1024 in *. change (2 ^ 9) with 512. lia.
Qed.

(** the number of accepted heights is 2^63 times the constant, up to the rounding of the height *)
Lemma acc_near x m e q s : nth (Z.to_nat x) cdf_table (0, 0) = (m, e) -> float_literal m e = (q, s) -> 0 <= s -> 0 <= q < 2 ^ s ->
  q * 2 ^ 63 - 513 * 2 ^ s <= Cnt W (acc x) * 2 ^ s <= q * 2 ^ 63 + 513 * 2 ^ s.
Proof.
  intros E1 E2 Hs Hq. set (D := 2 ^ s) in *. assert (HD : 0 < D) by (apply Z.pow_pos_nonneg; lia).
  assert (A : forall k, acc x k = negb (float_of_int k =? 2 ^ 63) && (float_of_int k * D <? q * 2 ^ 63)).
  { intros k. unfold acc, under. rewrite E1, E2. auto. }
  set (B := q * 2 ^ 63) in *. pose proof (Z.div_mod B D ltac:(lia)) as DM. pose proof (Z.mod_pos_bound B D HD) as MB.
  assert (HB : 0 <= B / D) by (apply Z.div_pos; unfold B; lia).
  assert (HB2 : B / D < 2 ^ 63) by (apply Z.div_lt_upper_bound; unfold B; nia).
  split.
  - destruct (Z.leb_spec (B / D - 512) 0) as [L|L].
    + assert (0 <= Cnt W (acc x)) by (apply Sum_nonneg; [unfold W; lia|]; intros k _; unfold ind; destruct (acc x k); lia). nia.
    + assert (B / D - 512 <= Cnt W (acc x)).
      { apply Cnt_lower. unfold W. lia. intros k Hk. rewrite A. pose proof (float_near k ltac:(lia)). change (2 ^ 9) with 512 in *.
        destruct (Z.eqb_spec (float_of_int k) (2 ^ 63)); [lia|]. cbn [negb andb]. apply Z.ltb_lt. nia. }
      nia.
  - destruct (Z.leb_spec W (B / D + 513)) as [L|L].
    + assert (Cnt W (acc x) <= W) by (apply Cnt_upper; [unfold W; lia|]; lia). nia.
    + assert (Cnt W (acc x) <= B / D + 513).
      { apply Cnt_upper. lia. intros k Hk. rewrite A. pose proof (float_near k ltac:(unfold W in *; lia)). change (2 ^ 9) with 512 in *.
        assert ((float_of_int k * D <? B) = false) as ->; [apply Z.ltb_ge; nia|]. apply andb_false_r. }
      nia.
Qed.
