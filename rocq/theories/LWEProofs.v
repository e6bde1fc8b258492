(** Proofs about the lattice based scheme. *)
From Coq Require Import String ZArith List Bool Lia Arith.
From Verif Require Import GoBase BaseFacts EncodingModel EncodingProofs MatrixModel PointModel LWEModel LWESpec MatrixProofs PointProofs2.
Import ListNotations.
Open Scope Z_scope.
Open Scope go_scope.

(** ** element-wise operations *)
Lemma zip_words_ok w op : forall a b, length a = length b ->
  exists d, zip_words w op a b = Ok d /\ length d = length a /\
    forall k, (k < length a)%nat -> nth k d 0 = (op (nth k a 0) (nth k b 0)) mod w.
Proof.
  induction a as [|x a IH]; intros [|y b] L; cbn [length] in L; try lia.
  - exists []. cbn. conj_split; auto. intros; lia.
  - destruct (IH b ltac:(lia)) as (d & E & LD & N). exists (op x y mod w :: d). cbn [zip_words]. rewrite E. cbn [bind].
    conj_split; auto. cbn [length]; lia. intros [|k] Hk; cbn [nth]; auto. apply N. cbn [length] in Hk. lia.
Qed.

Lemma zip_ok w op a b r c : 0 < w -> exact_shape a r c -> exact_shape b r c ->
  exists m, m_zip w op a b = Ok m /\ exact_shape m r c /\ words w m /\
    forall i j, (i < r)%nat -> (j < c)%nat -> elem m i j = (op (elem a i j) (elem b i j)) mod w.
Proof.
  intros Hw ((Ra & Ca & _ & P1 & P2) & La) ((Rb & Cb & _) & Lb). unfold m_zip.
  rewrite Ca, Cb, Ra, Rb, !Z.eqb_refl. cbn [negb orb].
  destruct (zip_words_ok w op (m_data a) (m_data b) ltac:(lia)) as (d & E & L & N). rewrite E. cbn [bind].
  eexists. split; [reflexivity|]. unfold exact_shape, shape, words, elem. cbn [m_rows m_cols m_data]. conj_split; auto; try lia.
  - apply Forall_forall. intros x Hx. apply (In_nth _ _ 0) in Hx as (k & Hk & <-). rewrite N by lia. apply Z.mod_pos_bound. auto.
  - intros i j Hi Hj. rewrite Ca, Cb, !Nat2Z.id. apply N. nia.
Qed.

Lemma new_set_ok (l : nat) i t : (i < l)%nat ->
  exists m, (m <- m_new 1 (Z.of_nat l) ;; m_set m 0 (Z.of_nat i) t) = Ok m /\ exact_shape m 1 l /\
    forall k, (k < l)%nat -> elem m 0 k = if (k =? i)%nat then t else 0.
Proof.
  intros Hi. unfold m_new, go_make. destruct (Z.ltb_spec (1 * Z.of_nat l) 0); [lia|]. cbn [bind].
  unfold m_set. cbn [m_data m_cols m_rows]. replace (Z.of_nat l * 0 + Z.of_nat i) with (Z.of_nat i) by lia.
  unfold go_store. unfold zlen. rewrite repeat_length.
  replace (Z.to_nat (1 * Z.of_nat l)) with l by lia.
  match goal with |- context [if ?b then _ else _] => assert (Eb : b = true) by (apply andb_true_iff; split; [apply Z.leb_le|apply Z.ltb_lt]; lia) end || idtac.
  eexists. split.
  - rewrite Eb. cbn [bind]. rewrite Nat2Z.id. reflexivity.
  - unfold exact_shape, shape, elem. cbn [m_rows m_cols m_data]. rewrite upd_length, repeat_length. conj_split; auto; try lia.
    intros k Hk. rewrite Nat2Z.id. replace (l * 0 + k)%nat with k by lia. destruct (Nat.eqb_spec k i) as [->|N].
    + apply nth_upd_eq. rewrite repeat_length. auto.
    + rewrite nth_upd_neq by auto. apply nth_repeat.
Qed.

(** ** the query *)
Lemma get_elem m r c i j : shape m r c -> (i < r)%nat -> (j < c)%nat -> m_get m (Z.of_nat i) (Z.of_nat j) = Ok (elem m i j).
Proof.
  intros (_ & Cm & Lm & _) Hi Hj. unfold m_get. rewrite Cm. rewrite (go_index_ok _ _ 0) by (unfold zlen; nia).
  f_equal. unfold elem. rewrite Cm, Nat2Z.id. f_equal. nia.
Qed.

Lemma query_value w p digest A rand secret e (L N : nat) (i : nat) j : 0 < w -> lp_l p = Z.of_nat L ->
  stored w A N L -> shape rand 1 1 -> stored w secret 1 N -> exact_shape e 1 L -> (i < L)%nat ->
  exists q, lwe_query w p digest A rand secret e (Z.of_nat i) j =
      Ok (mkS digest secret (Z.of_nat i) j (elem rand 0 0), q) /\ exact_shape q 1 L /\ words w q /\
    forall k, (k < L)%nat ->
      elem q 0 k = (sum_to N (fun n => elem secret 0 n * elem A n k) + elem e 0 k + (if (k =? i)%nat then elem rand 0 0 else 0)) mod w.
Proof.
  intros Hw HL HA HR HS HE Hi. unfold lwe_query. change (m_get rand 0 0) with (m_get rand (Z.of_nat 0) (Z.of_nat 0)). rewrite (get_elem rand 1 1 0 0 HR) by lia. cbn [bind].
  destruct (mul_ok w secret A 1 N L Hw HS HA) as (q0 & E0 & S0 & W0 & N0). rewrite E0. cbn [bind]. rewrite HL.
  destruct (new_set_ok L i (elem rand 0 0) Hi) as (msg & EM & SM & NM).
  destruct (m_new 1 (Z.of_nat L)) as [m0| | |] eqn:E; cbn [bind] in EM |- *; try discriminate. rewrite EM. cbn [bind].
  destruct (zip_ok w Z.add q0 e 1 L Hw S0 HE) as (q1 & E1 & S1 & W1 & N1). unfold m_add. rewrite E1. cbn [bind].
  destruct (zip_ok w Z.add q1 msg 1 L Hw S1 SM) as (q2 & E2 & S2 & W2 & N2). rewrite E2. cbn [bind].
  exists q2. conj_split; auto. intros k Hk. rewrite N2, N1, N0, NM by lia. unfold product_mod.
  rewrite Z.add_mod_idemp_l by lia. rewrite <- Z.add_assoc. rewrite Z.add_mod_idemp_l by lia. f_equal. lia.
Qed.

(** ** honest value of every column *)
Definition noise_at (L : nat) (e db : matrix) (k : nat) : Z := sum_to L (fun r => elem e 0 r * elem db r k).

Lemma answer_minus_digest w f (L N : nat) (A secret e db : matrix) t i k : 0 < w -> (i < L)%nat ->
  (forall r, (r < L)%nat -> f r = (sum_to N (fun n => elem secret 0 n * elem A n r) + elem e 0 r + (if (r =? i)%nat then t else 0)) mod w) ->
  (sum_to L (fun r => f r * elem db r k) mod w - sum_to N (fun n => elem secret 0 n * (sum_to L (fun r => elem A n r * elem db r k) mod w)) mod w) mod w
  = (noise_at L e db k + t * elem db i k) mod w.
Proof.
  intros Hw Hi Hf.
  rewrite <- (product_assoc w N L (fun n => elem secret 0 n) (fun r => elem db r k) (fun n r => elem A n r) Hw).
  rewrite <- Zminus_mod.
  set (s := fun r => sum_to N (fun n => elem secret 0 n * elem A n r)).
  assert (E : sum_to L (fun r => f r * elem db r k) mod w =
    (sum_to L (fun r => (s r mod w) * elem db r k) + (noise_at L e db k + t * elem db i k)) mod w).
  { unfold noise_at.
    transitivity (sum_to L (fun r => s r mod w * elem db r k + (elem e 0 r * elem db r k + (if (r =? i)%nat then t * elem db r k else 0))) mod w).
    - apply sum_to_mod; [lia|]. intros r Hr. rewrite Hf by auto. fold (s r).
      rewrite Z.mul_mod_idemp_l by lia. rewrite (Z.add_mod (s r mod w * elem db r k)) by lia. rewrite Z.mul_mod_idemp_l by lia. rewrite <- Z.add_mod by lia.
      f_equal. destruct (r =? i)%nat; lia.
    - f_equal. rewrite !sum_to_add. f_equal. f_equal. apply (sum_to_single L i (fun r => t * elem db r k)). auto. }
  rewrite <- Zminus_mod_idemp_l. rewrite E. rewrite Zminus_mod_idemp_l. f_equal. unfold s. cbv beta. lia.
Qed.

(** ** decoding a row of values *)
Definition decode_one (w : Z) (in_range : Z -> bool) (t v : Z) : res Z :=
  if in_range v then Ok 0 else if in_range ((v - t) mod w) then Ok 1 else Err "REJECT".

Lemma outs_spec w inr t m M : exact_shape m 1 M -> forall n i, (i + n <= M)%nat ->
  lwe_outs w inr t m i n = mapM (fun k => decode_one w inr t (elem m 0 k)) (seq i n).
Proof.
  intros SM. induction n as [|n IH]; intros i Hi; cbn [lwe_outs seq mapM]; auto.
  change (m_get m 0 (Z.of_nat i)) with (m_get m (Z.of_nat 0) (Z.of_nat i)). rewrite (get_elem m 1 M 0 i (proj1 SM)) by lia. cbn [bind]. unfold decode_one at 1.
  destruct (inr (elem m 0 i)); [|destruct (inr ((elem m 0 i - t) mod w))]; cbn [bind]; auto; rewrite IH by lia; auto.
Qed.

Lemma deviated_shape w a delta M : 0 < w -> exact_shape a 1 M -> length delta = M ->
  exact_shape (deviated w a delta) 1 M /\ forall k, (k < M)%nat -> elem (deviated w a delta) 0 k = (elem a 0 k + nth k delta 0) mod w.
Proof.
  intros Hw ((Ra & Ca & _ & P1 & P2) & La) LD. split.
  - unfold exact_shape, shape, deviated. cbn [m_rows m_cols m_data]. rewrite map_length, combine_length. conj_split; auto; lia.
  - intros k Hk. unfold elem, deviated. cbn [m_cols m_data]. rewrite Ca, Nat2Z.id. replace (M * 0 + k)%nat with k by lia.
    rewrite (nth_indep _ 0 ((fun xd : Z * Z => (fst xd + snd xd) mod w) (0, 0))) by (rewrite map_length, combine_length; lia).
    rewrite (map_nth (fun xd : Z * Z => (fst xd + snd xd) mod w)). rewrite combine_nth by lia. reflexivity.
Qed.

Lemma mapM_ext {A B} (f g : A -> res B) l : (forall x, In x l -> f x = g x) -> mapM f l = mapM g l.
Proof. induction l; intros E; cbn [mapM]; auto. rewrite E by (left; auto). rewrite IHl; auto. intros; apply E; right; auto. Qed.

Lemma honest_run k p A A' db rand secret e (L N M : nat) (i j : nat) : 0 < k -> let w := 2 ^ k in
  lp_l p = Z.of_nat L -> lp_m p = Z.of_nat M ->
  stored w A N L -> stored w A' N L -> (forall n r, (n < N)%nat -> (r < L)%nat -> elem A' n r = elem A n r) -> words w A' ->
  exact_shape db L M -> binary db -> shape rand 1 1 -> stored w secret 1 N -> exact_shape e 1 L -> (i < L)%nat -> (j < M)%nat ->
  exists digest st q a, lwe_digest w A' db = Ok digest /\
    lwe_query w p digest A rand secret e (Z.of_nat i) (Z.of_nat j) = Ok (st, q) /\ exact_shape q 1 L /\ words w q /\
    lwe_answer w db q = Ok a /\ exact_shape a 1 M /\ words w a /\
    (forall inr, lwe_reconstruct w inr p st a =
      (outs <- mapM (fun c => decode_one w inr (elem rand 0 0) ((noise_at L e db c + elem rand 0 0 * elem db i c) mod w)) (seq 0 M) ;;
       go_index outs (Z.of_nat j))) /\
    (forall inr delta, length delta = M -> lwe_reconstruct w inr p st (deviated w a delta) =
      (outs <- mapM (fun c => decode_one w inr (elem rand 0 0) ((noise_at L e db c + elem rand 0 0 * elem db i c + nth c delta 0) mod w)) (seq 0 M) ;;
       go_index outs (Z.of_nat j))).
Proof.
  intros Hk w HL HM HA HA' EA WA' HD BD HR HS HE Hi Hj. assert (Hw : 0 < w) by (apply Z.pow_pos_nonneg; lia).
  destruct (binary_mul_ok k A' db N L M Hk HA' (proj1 HD) WA' BD) as (dg & ED & SD & WD & ND). fold w in ED, WD, ND.
  destruct (query_value w p dg A rand secret e L N i (Z.of_nat j) Hw HL HA HR HS HE Hi) as (q & EQ & SQ & WQ & NQ).
  destruct (binary_mul_ok k q db 1 L M Hk (exact_stored _ _ _ _ SQ) (proj1 HD) WQ BD) as (a & EAn & SA & WA & NA). fold w in EAn, WA, NA.
  destruct (mul_ok w secret dg 1 N M Hw HS (exact_stored _ _ _ _ SD)) as (sd & ES & SS & WS & NS).
  eexists dg, _, q, a. split; [exact ED|]. split; [exact EQ|]. split; [exact SQ|]. split; [exact WQ|]. split; [exact EAn|].
  split; [exact SA|]. split; [exact WA|].
  assert (V : forall c, (c < M)%nat -> (elem a 0 c - elem sd 0 c) mod w = (noise_at L e db c + elem rand 0 0 * elem db i c) mod w).
  { intros c Hc. rewrite NA, NS by lia. unfold product_mod.
    rewrite <- (answer_minus_digest w (fun r => elem q 0 r) L N A secret e db (elem rand 0 0) i c Hw Hi NQ).
    f_equal. f_equal. apply sum_to_mod; [lia|]. intros n Hn. rewrite ND by lia. unfold product_mod.
    rewrite (sum_to_ext L (fun r => elem A' n r * elem db r c) (fun r => elem A n r * elem db r c)); auto.
    intros r Hr. rewrite EA; auto. }
  assert (G : forall inr b, exact_shape b 1 M -> (forall f, (forall c, (c < M)%nat -> (elem b 0 c - elem sd 0 c) mod w = f c) ->
      lwe_reconstruct w inr p (mkS dg secret (Z.of_nat i) (Z.of_nat j) (elem rand 0 0)) b =
      (outs <- mapM (fun c => decode_one w inr (elem rand 0 0) (f c)) (seq 0 M) ;; go_index outs (Z.of_nat j)))).
  { intros inr b SB f Hf. unfold lwe_reconstruct. cbn [s_secret s_digest s_t s_j]. rewrite ES. cbn [bind].
    destruct (zip_ok w Z.sub b sd 1 M Hw SB SS) as (v & EV & SV & _ & NV). unfold m_sub. rewrite EV. cbn [bind].
    unfold go_make. destruct (Z.ltb_spec (lp_m p) 0); [lia|]. cbn [bind]. rewrite HM, Nat2Z.id.
    rewrite (outs_spec w inr _ v M SV M 0) by lia. f_equal. apply mapM_ext. intros c Hc. apply in_seq in Hc.
    rewrite NV by lia. rewrite Hf by lia. auto. }
  split.
  - intros inr. apply G; auto.
  - intros inr delta LD. destruct (deviated_shape w a delta M Hw SA LD) as [SB NB]. apply G; auto.
    intros c Hc. rewrite NB by auto. rewrite Zminus_mod_idemp_l.
    replace (elem a 0 c + nth c delta 0 - elem sd 0 c) with ((elem a 0 c - elem sd 0 c) + nth c delta 0) by lia.
    rewrite <- Z.add_mod_idemp_l, V, Z.add_mod_idemp_l by (auto; lia). auto.
Qed.
