(** Proofs about the matrix kernels. *)
From Coq Require Import String ZArith List Bool Lia Arith.
From Verif Require Import GoBase BaseFacts MatrixModel PointModel LWEModel LWESpec.
Import ListNotations.
Open Scope Z_scope.
Open Scope go_scope.

Lemma sum_to_S n f : sum_to (S n) f = sum_to n f + f n.
Proof. unfold sum_to. rewrite seq_S, map_app, zsum_app. cbn [map zsum]. rewrite Nat.add_0_l. lia. Qed.

Lemma sum_to_ext n f g : (forall k, (k < n)%nat -> f k = g k) -> sum_to n f = sum_to n g.
Proof. induction n; intros E; [reflexivity|]. rewrite !sum_to_S, IHn, E by (intros; try apply E; lia). auto. Qed.

Lemma sum_to_add n f g : sum_to n (fun k => f k + g k) = sum_to n f + sum_to n g.
Proof. induction n; [reflexivity|]. rewrite !sum_to_S, IHn. lia. Qed.

Lemma sum_to_mul n c f : sum_to n (fun k => c * f k) = c * sum_to n f.
Proof. induction n; [cbn; lia|]. rewrite !sum_to_S, IHn. lia. Qed.

Lemma sum_to_mul_r n c f : sum_to n (fun k => f k * c) = sum_to n f * c.
Proof. induction n; [cbn; lia|]. rewrite !sum_to_S, IHn. lia. Qed.

Lemma sum_to_zero n f : (forall k, (k < n)%nat -> f k = 0) -> sum_to n f = 0.
Proof. induction n; intros E; [reflexivity|]. rewrite sum_to_S, IHn, E by (intros; try apply E; lia). auto. Qed.

Lemma sum_to_swap n m f : sum_to n (fun k => sum_to m (fun l => f k l)) = sum_to m (fun l => sum_to n (fun k => f k l)).
Proof.
  induction n; cbn [sum_to]. { symmetry. apply sum_to_zero. reflexivity. }
  rewrite sum_to_S, IHn, <- sum_to_add. apply sum_to_ext. intros. rewrite sum_to_S. auto.
Qed.

Lemma sum_to_single n i f : (i < n)%nat -> sum_to n (fun k => if (k =? i)%nat then f k else 0) = f i.
Proof.
  induction n; intros Hi; [lia|]. rewrite sum_to_S. destruct (Nat.eq_dec i n) as [->|N].
  - rewrite Nat.eqb_refl, sum_to_zero; [lia|]. intros k Hk. destruct (Nat.eqb_spec k n); auto; lia.
  - rewrite IHn by lia. destruct (Nat.eqb_spec n i); [lia|]. lia.
Qed.

Lemma sum_to_mod n w f g : w <> 0 -> (forall k, (k < n)%nat -> f k mod w = g k mod w) -> sum_to n f mod w = sum_to n g mod w.
Proof.
  intros Hw. induction n; intros E; [reflexivity|]. rewrite !sum_to_S, Z.add_mod, IHn, E, <- Z.add_mod by (auto; intros; try apply E; lia). auto.
Qed.

(** ** accumulating updates *)
Definition acc_at {X} (w : Z) (f : X -> nat) (g : X -> Z) (out : list Z) (x : X) : list Z :=
  upd out (f x) ((nth (f x) out 0 + g x) mod w).

Lemma acc_length {X} w f g (l : list X) out : length (fold_left (acc_at w f g) l out) = length out.
Proof. revert out. induction l; intros; cbn [fold_left]; auto. rewrite IHl. unfold acc_at. apply upd_length. Qed.

Lemma acc_nth {X} w f g (l : list X) : 0 < w -> forall out p, Forall (fun x => 0 <= x < w) out ->
  (forall x, In x l -> (f x < length out)%nat) -> (p < length out)%nat ->
  nth p (fold_left (acc_at w f g) l out) 0 = (nth p out 0 + zsum (map (fun x => if (f x =? p)%nat then g x else 0) l)) mod w.
Proof.
  intros Hw. induction l as [|x l IH]; intros out p HO HF Hp; cbn [fold_left map zsum].
  - rewrite Z.add_0_r, Z.mod_small; auto. apply (proj1 (Forall_forall _ _) HO). apply nth_In. auto.
  - assert (HO' : Forall (fun x => 0 <= x < w) (acc_at w f g out x)).
    { unfold acc_at. apply Forall_forall. intros y Hy. apply (In_nth _ _ 0) in Hy as (q & Hq & <-). rewrite upd_length in Hq.
      destruct (Nat.eq_dec (f x) q) as [<-|N].
      - rewrite nth_upd_eq by auto. apply Z.mod_pos_bound. auto.
      - rewrite nth_upd_neq by auto. apply (proj1 (Forall_forall _ _) HO). apply nth_In. auto. }
    assert (LE : length (acc_at w f g out x) = length out) by apply upd_length.
    rewrite IH; auto.
    2:{ intros y Hy. rewrite LE. apply HF. right. auto. }
    2:{ rewrite LE. auto. }
    unfold acc_at. destruct (Nat.eqb_spec (f x) p) as [<-|N].
    + rewrite nth_upd_eq by auto. rewrite Z.add_mod_idemp_l by lia. f_equal. lia.
    + rewrite nth_upd_neq by auto. f_equal.
Qed.

Lemma fold_left_flat {A B S} (h : S -> A -> B -> S) (l : list A) (m : A -> list B) s :
  fold_left (fun s a => fold_left (fun s b => h s a b) (m a) s) l s =
  fold_left (fun s ab => h s (fst ab) (snd ab)) (flat_map (fun a => map (pair a) (m a)) l) s.
Proof.
  revert s. induction l as [|a l IH]; intros; cbn [fold_left flat_map]; auto.
  rewrite fold_left_app, <- IH. f_equal. generalize s. clear. induction (m a); intros; cbn; auto.
Qed.

Definition triples (r n c : nat) : list (nat * (nat * nat)) :=
  flat_map (fun i => map (pair i) (flat_map (fun k => map (pair k) (range c)) (range n))) (range r).

Lemma fold_left_ext {A S} (f g : S -> A -> S) l s : (forall s a, f s a = g s a) -> fold_left f l s = fold_left g l s.
Proof. intros E. revert s. induction l; intros; cbn; auto. rewrite E. auto. Qed.

Lemma c_loops_flat w op r n c a b out :
  c_loops w op r n c a b out =
  fold_left (acc_at w (fun x => c * fst x + snd (snd x))%nat
    (fun x => op (nth (n * fst x + fst (snd x)) a 0) (nth (c * fst (snd x) + snd (snd x)) b 0))) (triples r n c) out.
Proof.
  unfold c_loops, triples.
  set (F := acc_at w _ _).
  transitivity (fold_left (fun s ab => F s (fst ab, snd ab))
    (flat_map (fun i => map (pair i) (flat_map (fun k => map (pair k) (range c)) (range n))) (range r)) out).
  2:{ apply fold_left_ext. intros s [i kj]. reflexivity. }
  rewrite <- (fold_left_flat (fun s i kj => F s (i, kj)) (range r) (fun i => flat_map (fun k => map (pair k) (range c)) (range n)) out).
  apply fold_left_ext. intros s i.
  transitivity (fold_left (fun s ab => F s (i, (fst ab, snd ab))) (flat_map (fun k => map (pair k) (range c)) (range n)) s).
  2:{ apply fold_left_ext. intros s' [k j]. reflexivity. }
  rewrite <- (fold_left_flat (fun s k j => F s (i, (k, j))) (range n) (fun k => range c) s).
  apply fold_left_ext. intros s' k. apply fold_left_ext. intros s'' j. reflexivity.
Qed.

Lemma zsum_map_flat_map {A B} (f : B -> Z) (g : A -> list B) l :
  zsum (map f (flat_map g l)) = zsum (map (fun a => zsum (map f (g a))) l).
Proof. induction l; cbn [flat_map map zsum]; auto. rewrite map_app, zsum_app, IHl. auto. Qed.

Lemma triples_sum r n c (h : nat -> nat -> nat -> Z) :
  zsum (map (fun x => h (fst x) (fst (snd x)) (snd (snd x))) (triples r n c)) =
  sum_to r (fun i => sum_to n (fun k => sum_to c (fun j => h i k j))).
Proof.
  unfold triples, sum_to, range. rewrite zsum_map_flat_map. f_equal. apply map_ext. intros i. rewrite map_map, zsum_map_flat_map.
  f_equal. apply map_ext. intros k. rewrite map_map. reflexivity.
Qed.

Lemma triples_in r n c x : In x (triples r n c) -> (fst x < r)%nat /\ (fst (snd x) < n)%nat /\ (snd (snd x) < c)%nat.
Proof.
  unfold triples, range. intros H. apply in_flat_map in H as (i & Hi & H). apply in_map_iff in H as (kj & <- & H).
  apply in_flat_map in H as (k & Hk & H). apply in_map_iff in H as (j & <- & H).
  apply in_seq in Hi, Hk, H. cbn [fst snd]. lia.
Qed.

Lemma row_major_inj c i j i' j' : (j < c)%nat -> (j' < c)%nat -> (c * i + j = c * i' + j')%nat -> i = i' /\ j = j'.
Proof. intros H1 H2 E. assert (i = i') by nia. subst. lia. Qed.

Lemma c_loops_nth w op r n c a b i j : 0 < w -> (i < r)%nat -> (j < c)%nat ->
  nth (c * i + j) (c_loops w op r n c a b (repeat 0 (r * c))) 0 =
  sum_to n (fun k => op (nth (n * i + k) a 0) (nth (c * k + j) b 0)) mod w.
Proof.
  intros Hw Hi Hj. rewrite c_loops_flat. rewrite acc_nth; auto.
  - rewrite nth_repeat, Z.add_0_l. f_equal.
    rewrite (triples_sum r n c (fun i' k' j' => if (c * i' + j' =? c * i + j)%nat then op (nth (n * i' + k') a 0) (nth (c * k' + j') b 0) else 0)).
    transitivity (sum_to r (fun i' => if (i' =? i)%nat then sum_to n (fun k => op (nth (n * i' + k) a 0) (nth (c * k + j) b 0)) else 0)).
    2:{ apply (sum_to_single r i (fun i' => sum_to n (fun k => op (nth (n * i' + k) a 0) (nth (c * k + j) b 0)))). auto. }
    apply sum_to_ext. intros i' Hi'. destruct (Nat.eqb_spec i' i) as [->|N].
    + apply sum_to_ext. intros k Hk.
      transitivity (sum_to c (fun j' => if (j' =? j)%nat then op (nth (n * i + k) a 0) (nth (c * k + j') b 0) else 0)).
      * apply sum_to_ext. intros j' Hj'. destruct (Nat.eqb_spec (c * i + j') (c * i + j)), (Nat.eqb_spec j' j); auto; lia.
      * apply (sum_to_single c j (fun j' => op (nth (n * i + k) a 0) (nth (c * k + j') b 0))). auto.
    + apply sum_to_zero. intros k Hk. apply sum_to_zero. intros j' Hj'.
      destruct (Nat.eqb_spec (c * i' + j') (c * i + j)) as [E|]; auto. apply row_major_inj in E; auto. lia.
  - apply Forall_forall. intros x Hx. apply repeat_spec in Hx. subst. lia.
  - intros x Hx. apply triples_in in Hx as (A & _ & B). rewrite repeat_length. nia.
  - rewrite repeat_length. nia.
Qed.

Lemma c_loops_length w op r n c a b out : length (c_loops w op r n c a b out) = length out.
Proof. rewrite c_loops_flat. apply acc_length. Qed.

Lemma c_loops_words w op r n c a b : 0 < w ->
  Forall (fun x => 0 <= x < w) (c_loops w op r n c a b (repeat 0 (r * c))).
Proof.
  intros Hw. apply Forall_forall. intros x Hx. apply (In_nth _ _ 0) in Hx as (p & Hp & <-).
  rewrite c_loops_length, repeat_length in Hp.
  assert (Hc : (0 < c)%nat) by nia. pose proof (Nat.mod_upper_bound p c ltac:(lia)) as M.
  rewrite (Nat.div_mod p c) by lia. rewrite c_loops_nth; auto.
  - apply Z.mod_pos_bound. auto.
  - apply Nat.div_lt_upper_bound; nia.
Qed.

(** ** products *)
Lemma exact_stored w m r c : exact_shape m r c -> stored w m r c.
Proof. intros [S L]. split; auto. Qed.
Lemma shape_stored m r c : shape m r c -> stored (2 ^ 32) m r c.
Proof. intros S. split; auto. Qed.

Lemma buf_raw_ok m r c : shape m r c -> buf_raw m = Ok (m_data m).
Proof.
  intros (Rm & Cm & Lm & Pr & Pc). unfold buf_raw. destruct (Z.eqb_spec (zlen (m_data m)) 0) as [E|E]; [|auto].
  exfalso. unfold zlen in E. nia.
Qed.

Lemma buf_words_ok w m r c : stored w m r c -> buf_words w m = Ok (m_data m).
Proof.
  intros [S H]. unfold buf_words. destruct (Z.eqb_spec w w32) as [E|E]. { exact (buf_raw_ok m r c S). }
  destruct H as [H|H]; [elim E; exact H|]. destruct S as (Rm & Cm & Lm & Pr & Pc). unfold buf_copy. rewrite Rm, Cm, <- Nat2Z.inj_mul.
  unfold go_make. destruct (Z.ltb_spec (Z.of_nat (r * c)) 0); [lia|]. cbn [bind]. rewrite Nat2Z.id. unfold zlen. rewrite repeat_length, H.
  rewrite Z.ltb_irrefl. destruct (Z.eqb_spec (Z.of_nat (r * c)) 0); [nia|]. rewrite skipn_all2 by (rewrite repeat_length; lia). rewrite app_nil_r. auto.
Qed.

Lemma mul_gen_ok w op fa fb a b r n c : 0 < w -> shape a r n -> shape b n c ->
  fa a = Ok (m_data a) -> fb b = Ok (m_data b) ->
  exists m, m_mul_gen w op fa fb a b = Ok m /\ exact_shape m r c /\ words w m /\
    forall i j, (i < r)%nat -> (j < c)%nat -> elem m i j = sum_to n (fun k => op (elem a i k) (elem b k j)) mod w.
Proof.
  intros Hw (Ra & Ca & La & Pr & Pn) (Rb & Cb & Lb & _ & Pc) Fa Fb. unfold m_mul_gen.
  rewrite Ca, Rb, Z.eqb_refl. cbn [negb]. unfold m_new, go_make. rewrite Ra, Cb.
  destruct (Z.ltb_spec (Z.of_nat r * Z.of_nat c) 0); [nia|]. cbn [bind m_data].
  rewrite <- Nat2Z.inj_mul, Nat2Z.id. set (out := repeat 0 (r * c)). rewrite Fa, Fb. cbn [bind].
  assert (E0 : (zlen out =? 0) = false).
  { unfold zlen, out. rewrite repeat_length. rewrite Z.eqb_neq. nia. }
  rewrite E0. 
  assert (E1 : (zlen (m_data a) <? Z.of_nat r * Z.of_nat n) || (zlen (m_data b) <? Z.of_nat n * Z.of_nat c) = false).
  { unfold zlen. rewrite !orb_false_iff, !Z.ltb_ge. nia. }
  rewrite E1, !Nat2Z.id. eexists. split; [reflexivity|]. split.
  { unfold exact_shape, shape. cbn [m_rows m_cols m_data]. rewrite c_loops_length. unfold out. rewrite repeat_length. conj_split; auto. }
  split. { unfold words. cbn [m_data]. apply c_loops_words. auto. }
  intros i j Hi Hj. unfold elem. cbn [m_cols m_data]. rewrite Ca, Cb, !Nat2Z.id. apply c_loops_nth; auto.
Qed.

Lemma mul_ok w a b r n c : 0 < w -> stored w a r n -> stored w b n c ->
  exists m, m_mul w a b = Ok m /\ exact_shape m r c /\ words w m /\
    forall i j, (i < r)%nat -> (j < c)%nat -> elem m i j = product_mod w n a b i j.
Proof.
  intros Hw Ha Hb.
  destruct (mul_gen_ok w (op_mul w) (buf_words w) (buf_words w) a b r n c Hw (proj1 Ha) (proj1 Hb) (buf_words_ok w a r n Ha) (buf_words_ok w b n c Hb)) as (m & E & S & W & N).
  exists m. conj_split; auto.
  intros i j Hi Hj. rewrite N by auto. unfold product_mod. apply sum_to_mod; [lia|]. intros k _. unfold op_mul. apply Z.mod_mod. lia.
Qed.

Lemma land_all_ones k x : 0 <= k -> 0 <= x < 2 ^ k -> Z.land x (2 ^ k - 1) = x.
Proof. intros Hk Hx. rewrite Z.sub_1_r, <- Z.ones_equiv, Z.land_ones by auto. apply Z.mod_small. auto. Qed.

Lemma op_and_binary k x y : 0 < k -> 0 <= x < 2 ^ k -> y = 0 \/ y = 1 -> op_and (2 ^ k) x y = x * y.
Proof.
  intros Hk Hx [->| ->]; unfold op_and.
  - change (- 0) with 0. rewrite Z.mod_0_l by (pose proof (Z.pow_pos_nonneg 2 k); lia). rewrite Z.land_0_r. lia.
  - assert (1 < 2 ^ k) by (apply Z.pow_gt_1; lia). assert (E : (- 1) mod 2 ^ k = 2 ^ k - 1).
    { symmetry. apply (Z.mod_unique _ _ (-1)); lia. }
    change (- (1)) with (-1) in *. rewrite E, land_all_ones by lia. lia.
Qed.

Lemma elem_in (P : Z -> Prop) m r c i j : shape m r c -> Forall P (m_data m) -> (i < r)%nat -> (j < c)%nat -> P (elem m i j).
Proof.
  intros (_ & Cm & Lm & _) HF Hi Hj. apply (proj1 (Forall_forall _ _) HF). unfold elem. rewrite Cm, Nat2Z.id. apply nth_In. nia.
Qed.

Lemma binary_mul_ok k a b r n c : 0 < k -> stored (2 ^ k) a r n -> shape b n c -> words (2 ^ k) a -> binary b ->
  exists m, m_binary_mul (2 ^ k) a b = Ok m /\ exact_shape m r c /\ words (2 ^ k) m /\
    forall i j, (i < r)%nat -> (j < c)%nat -> elem m i j = product_mod (2 ^ k) n a b i j.
Proof.
  intros Hk [Ha Ha'] Hb Wa Bb. assert (0 < 2 ^ k) by (apply Z.pow_pos_nonneg; lia).
  destruct (mul_gen_ok (2 ^ k) (op_and (2 ^ k)) (buf_words (2 ^ k)) buf_raw a b r n c ltac:(auto) Ha Hb (buf_words_ok _ a r n (conj Ha Ha')) (buf_raw_ok b n c Hb)) as (m & E & S & W & N). exists m. conj_split; auto.
  intros i j Hi Hj. rewrite N by auto. unfold product_mod. f_equal. apply sum_to_ext. intros l Hl. apply op_and_binary; auto.
  - apply (elem_in (fun x => 0 <= x < 2 ^ k) a r n i l); auto.
  - apply (elem_in (fun x => x = 0 \/ x = 1) b n c l j); auto.
Qed.

(** ** associativity *)
Lemma product_assoc w n l (f g : nat -> Z) (h : nat -> nat -> Z) : 0 < w ->
  sum_to l (fun k => (sum_to n (fun i => f i * h i k) mod w) * g k) mod w =
  sum_to n (fun i => f i * (sum_to l (fun k => h i k * g k) mod w)) mod w.
Proof.
  intros Hw.
  transitivity (sum_to l (fun k => sum_to n (fun i => f i * h i k * g k)) mod w).
  { apply sum_to_mod; [lia|]. intros k _. rewrite Z.mul_mod_idemp_l by lia. f_equal. rewrite <- sum_to_mul_r. auto. }
  rewrite sum_to_swap. symmetry. apply sum_to_mod; [lia|]. intros i _. rewrite Z.mul_mod_idemp_r by lia. f_equal.
  rewrite <- sum_to_mul. apply sum_to_ext. intros. lia.
Qed.
