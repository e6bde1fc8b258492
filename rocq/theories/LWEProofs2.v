(** Whole sessions of the lattice based scheme. *)
From Coq Require Import String ZArith List Bool Lia Arith.
From Verif Require Import GoBase BaseFacts EncodingModel EncodingProofs MatrixModel LWEModel LWESpec MatrixProofs LWEProofs.
Import ListNotations.
Open Scope Z_scope.
Open Scope go_scope.

(** ** the random matrices *)
Lemma chunks_len n (Hn : (0 < n)%nat) : forall k (l : list Z), length l = (n * k)%nat -> length (chunks n l) = k.
Proof. intros k l E. rewrite chunks_length by auto. rewrite E, Nat.mul_comm. apply Nat.div_mul. lia. Qed.

Lemma le_words n (Hn : (0 < n)%nat) l : bytes l -> Forall (fun x => 0 <= x < 256 ^ Z.of_nat n) (map le_dec (chunks n l)).
Proof.
  intros B. apply Forall_map. pose proof (chunks_forall _ n l Hn B) as F. pose proof (chunks_all_len n l Hn) as G.
  apply Forall_forall. intros x Hx. rewrite Forall_forall in F, G. pose proof (le_dec_bound x (F x Hx)) as HB.
  unfold zlen in HB. rewrite (G x Hx) in HB. exact HB.
Qed.

Lemma random_shape r c b mem : (0 < r)%nat -> (0 < c)%nat -> bytes b -> length b = (4 * (r * c))%nat ->
  shape (new_random_of_bytes (Z.of_nat r) (Z.of_nat c) b mem) r c /\ words w32 (new_random_of_bytes (Z.of_nat r) (Z.of_nat c) b mem) /\
  (forall i j, (i < r)%nat -> (j < c)%nat ->
     elem (new_random_of_bytes (Z.of_nat r) (Z.of_nat c) b mem) i j = nth (c * i + j) (map le_dec (chunks 4 b)) 0).
Proof.
  intros Hr Hc B L. assert (LC : length (map le_dec (chunks 4 b)) = (r * c)%nat) by (rewrite map_length; apply chunks_len; lia).
  conj_split.
  - unfold shape, new_random_of_bytes. cbn [m_rows m_cols m_data]. rewrite app_length. rewrite LC. conj_split; lia.
  - unfold words, new_random_of_bytes. cbn [m_data]. apply Forall_app. split.
    + exact (le_words 4 ltac:(lia) b B).
    + apply Forall_map. apply Forall_forall. intros k _. unfold u32. apply Z.mod_pos_bound. reflexivity.
  - intros i j Hi Hj. unfold elem, new_random_of_bytes. cbn [m_cols m_data]. rewrite Nat2Z.id. apply app_nth1. rewrite LC. nia.
Qed.

Lemma random128_shape r c b : (0 < r)%nat -> (0 < c)%nat -> bytes b -> length b = (16 * (r * c))%nat ->
  exact_shape (new_random128_of_bytes (Z.of_nat r) (Z.of_nat c) b) r c /\ words w128 (new_random128_of_bytes (Z.of_nat r) (Z.of_nat c) b).
Proof.
  intros Hr Hc B L. assert (LC : length (map le_dec (chunks 16 b)) = (r * c)%nat) by (rewrite map_length; apply chunks_len; lia).
  split.
  - unfold exact_shape, shape, new_random128_of_bytes. cbn [m_rows m_cols m_data]. conj_split; lia.
  - exact (le_words 16 ltac:(lia) b B).
Qed.

Lemma chunks_one n (l : list Z) : (0 < n)%nat -> length l = n -> chunks n l = [l].
Proof. intros Hn L. rewrite <- (app_nil_r l) at 1. rewrite chunks_app by auto. rewrite chunks_short by (cbn; lia). auto. Qed.

Lemma noise_mod w f (L : nat) e db samples k : 0 < w ->
  (forall r, (r < L)%nat -> elem e 0 r mod w = f (nth r samples 0) mod w) -> length samples = L ->
  noise_at L e db k mod w = noise (map f samples) db L k mod w.
Proof.
  intros Hw E LS. unfold noise_at, noise. apply sum_to_mod; [lia|]. intros r Hr.
  rewrite <- Z.mul_mod_idemp_l, E, Z.mul_mod_idemp_l by (auto; lia).
  rewrite (nth_indep (map f samples) 0 (f 0)) by (rewrite map_length; lia). rewrite map_nth. auto.
Qed.

Lemma gauss_shape f L samples : (0 < L)%nat -> length samples = L ->
  exact_shape (mkM 1 (Z.of_nat L) (map f samples)) 1 L /\
  forall r, (r < L)%nat -> elem (mkM 1 (Z.of_nat L) (map f samples)) 0 r = f (nth r samples 0).
Proof.
  intros HL LS. split.
  - unfold exact_shape, shape. cbn [m_rows m_cols m_data]. rewrite map_length. conj_split; lia.
  - intros r Hr. unfold elem. cbn [m_cols m_data]. rewrite Nat2Z.id. replace (L * 0 + r)%nat with r by lia.
    rewrite (nth_indep (map f samples) 0 (f 0)) by (rewrite map_length; lia). apply map_nth.
Qed.

(** ** the index *)
Lemma index_split (L M : nat) index : 0 <= index < Z.of_nat L * Z.of_nat M -> exists i j, (i < L)%nat /\ (j < M)%nat /\
  vector_to_matrix_indices index (Z.of_nat M) = Ok (Z.of_nat i, Z.of_nat j) /\ Z.to_nat index = (M * i + j)%nat.
Proof.
  intros H. assert (0 < Z.of_nat M) by nia. exists (Z.to_nat (index / Z.of_nat M)), (Z.to_nat (index mod Z.of_nat M)).
  pose proof (Z.div_mod index (Z.of_nat M) ltac:(lia)). pose proof (Z.mod_pos_bound index (Z.of_nat M) ltac:(lia)).
  assert (0 <= index / Z.of_nat M) by (apply Z.div_pos; lia).
  assert (index / Z.of_nat M < Z.of_nat L) by (apply Z.div_lt_upper_bound; nia).
  conj_split; try lia.
  - unfold vector_to_matrix_indices. destruct (Z.eqb_spec (Z.of_nat M) 0); [lia|]. rewrite Z.quot_div_nonneg, Z.rem_mod_nonneg by lia.
    rewrite !Z2Nat.id by lia. auto.
Qed.

(** ** the value of a session *)
Definition session_value (w : Z) (inr : Z -> bool) (t : Z) (v : nat -> Z) (M j : nat) : res Z :=
  outs <- mapM (fun c => decode_one w inr t (v c mod w)) (seq 0 M) ;; go_index outs (Z.of_nat j).

Lemma rep32 p abytes dmem db c L M N (i j : nat) : deployment p db L M N -> drawn 4 abytes c L N -> (i < L)%nat -> (j < M)%nat ->
  exists dg st q a, lwe_digest w32 (new_random_of_bytes (lp_n p) (lp_l p) abytes dmem) db = Ok dg /\
    lwe_query_coins32 p abytes dg c (Z.of_nat i) (Z.of_nat j) = Ok (st, q) /\ exact_shape q 1 L /\ words w32 q /\
    lwe_answer w32 db q = Ok a /\ exact_shape a 1 M /\ words w32 a /\
    lwe_reconstruct32 p st a =
      session_value w32 (in_range32 (lp_b p)) (le_dec (c_t c)) (fun k => noise (c_noise c) db L k + le_dec (c_t c) * elem db i k) M j /\
    forall delta, length delta = M -> lwe_reconstruct32 p st (deviated w32 a delta) =
      session_value w32 (in_range32 (lp_b p)) (le_dec (c_t c)) (fun k => noise (c_noise c) db L k + le_dec (c_t c) * elem db i k + nth k delta 0) M j.
Proof.
  intros (HD & BD & PL & PM & PN & N0 & RL & RM) (BA & LA & BT & LT & BS & LS & LN) Hi Hj.
  assert (HL : (0 < L)%nat) by lia.
  destruct (random_shape N L abytes (c_amem c) N0 HL BA ltac:(lia)) as (SA & _ & NA).
  destruct (random_shape N L abytes dmem N0 HL BA ltac:(lia)) as (SA' & WA' & NA').
  destruct (random_shape 1 1 (c_t c) (c_tmem c) ltac:(lia) ltac:(lia) BT ltac:(lia)) as (ST & _ & NT).
  destruct (random_shape 1 N (c_secret c) (c_smem c) ltac:(lia) ltac:(lia) BS ltac:(lia)) as (SS & _).
  destruct (gauss_shape u32 L (c_noise c) HL LN) as (SE & NE).
  specialize (NT 0%nat 0%nat ltac:(lia) ltac:(lia)). rewrite (chunks_one 4 (c_t c)) in NT by (auto; lia). cbn [map nth Nat.mul Nat.add] in NT.
  destruct (honest_run 32 p (new_random_of_bytes (Z.of_nat N) (Z.of_nat L) abytes (c_amem c)) (new_random_of_bytes (Z.of_nat N) (Z.of_nat L) abytes dmem)
    db (new_random_of_bytes 1 1 (c_t c) (c_tmem c)) (new_random_of_bytes 1 (Z.of_nat N) (c_secret c) (c_smem c)) (new_gauss_of 1 (Z.of_nat L) (c_noise c))
    L N M i j ltac:(lia) PL PM (shape_stored _ _ _ SA) (shape_stored _ _ _ SA') ltac:(intros; rewrite NA, NA' by auto; auto) WA' HD BD ST (shape_stored _ _ _ SS) SE Hi Hj)
    as (dg & st & q & a & ED & EQ & SQ & WQ & EAn & SAn & WAn & R1 & R2).
  change (2 ^ 32) with w32 in *.
  change (Z.of_nat 1) with 1 in NT. rewrite NT in R1, R2.
  assert (NM : forall k, noise_at L (new_gauss_of 1 (Z.of_nat L) (c_noise c)) db k mod w32 = noise (c_noise c) db L k mod w32).
  { intros k. rewrite <- (map_id (c_noise c)) at 2. apply noise_mod; auto. reflexivity.
    intros r Hr; unfold new_gauss_of; rewrite NE by auto; unfold u32; apply Z.mod_mod; unfold w32; lia. }
  assert (EX : forall u v k, (noise_at L (new_gauss_of 1 (Z.of_nat L) (c_noise c)) db k + u + v) mod w32 = (noise (c_noise c) db L k + u + v) mod w32).
  { intros u v k. rewrite <- !Z.add_assoc. rewrite <- Z.add_mod_idemp_l by (unfold w32; lia). rewrite NM. apply Z.add_mod_idemp_l. unfold w32; lia. }
  exists dg, st, q, a. rewrite PL, PN. unfold lwe_query_coins32. rewrite PL, PN.
  split; [exact ED|]. split; [exact EQ|]. split; [exact SQ|]. split; [exact WQ|]. split; [exact EAn|]. split; [exact SAn|]. split; [exact WAn|].
  split.
  - unfold lwe_reconstruct32. rewrite R1.
    unfold session_value. f_equal. apply mapM_ext. intros k _. f_equal. specialize (EX (le_dec (c_t c) * elem db i k) 0 k). rewrite !Z.add_0_r in EX. exact EX.
  - intros delta LD. unfold lwe_reconstruct32. rewrite R2 by auto.
    unfold session_value. f_equal. apply mapM_ext. intros k _. f_equal. apply EX.
Qed.

Lemma deviated_words w a delta : 0 < w -> words w (deviated w a delta).
Proof. intros Hw. unfold words, deviated. cbn [m_data]. apply Forall_map, Forall_forall. intros x _. apply Z.mod_pos_bound. auto. Qed.

Lemma session32_value p abytes dmem db c L M N index : deployment p db L M N -> drawn 4 abytes c L N ->
  0 <= index < Z.of_nat L * Z.of_nat M ->
  exists i j, (i < L)%nat /\ (j < M)%nat /\ Z.to_nat index = (M * i + j)%nat /\
    lwe_session32 p abytes dmem db c (lwe_answer_bytes32 db) index =
      session_value w32 (in_range32 (lp_b p)) (le_dec (c_t c)) (fun k => noise (c_noise c) db L k + le_dec (c_t c) * elem db i k) M j /\
    forall delta, length delta = M -> lwe_session32 p abytes dmem db c (deviating32 db delta) index =
      session_value w32 (in_range32 (lp_b p)) (le_dec (c_t c)) (fun k => noise (c_noise c) db L k + le_dec (c_t c) * elem db i k + nth k delta 0) M j.
Proof.
  intros DE DR HI.
  destruct (index_split L M index HI) as (i & j & Hi & Hj & EI & TI). exists i, j. split; [exact Hi|]. split; [exact Hj|]. split; [exact TI|].
  destruct (rep32 p abytes dmem db c L M N i j DE DR Hi Hj) as (dg & st & q & a & ED & EQ & SQ & WQ & EAn & SAn & WAn & R1 & R2).
  destruct DE as (HD & BD & PL & PM & PN & N0 & RL & RM). change (2 ^ 32) with w32 in *.
  assert (RT : forall K m, exact_shape m 1 K -> Z.of_nat K < w32 -> words w32 m -> bytes_to_matrix (matrix_to_bytes m) = Ok m).
  { intros K m ((Rq & Cq & _) & Lq) HK W. apply matrix_roundtrip; unfold is_u32; [unfold w32; lia|lia|exact W]. }
  assert (G : forall server, lwe_session32 p abytes dmem db c server index =
      (x <- server (matrix_to_bytes q) ;; lwe_reconstruct_bytes32 p st x)).
  { intros server. unfold lwe_session32. rewrite ED. cbn [bind]. rewrite PM, EI. cbn [bind fst snd]. rewrite EQ. cbn [bind fst snd]. auto. }
  split.
  - rewrite G. unfold lwe_answer_bytes32. rewrite (RT L q) by auto. cbn [bind]. rewrite EAn. cbn [bind].
    unfold lwe_reconstruct_bytes32. rewrite (RT M a) by auto. cbn [bind]. exact R1.
  - intros delta LD. rewrite G. unfold deviating32. rewrite (RT L q) by auto. cbn [bind]. rewrite EAn. cbn [bind].
    unfold lwe_reconstruct_bytes32. destruct (deviated_shape w32 a delta M ltac:(reflexivity) SAn LD) as [SB _].
    rewrite (RT M _ SB RM (deviated_words w32 a delta ltac:(reflexivity))). cbn [bind]. apply R2; auto.
Qed.

Lemma session128_value p abytes db c L M N index : deployment p db L M N -> drawn 16 abytes c L N ->
  0 <= index < Z.of_nat L * Z.of_nat M ->
  exists i j, (i < L)%nat /\ (j < M)%nat /\ Z.to_nat index = (M * i + j)%nat /\
    lwe_session128 p abytes db c (lwe_answer_bytes128 db) index =
      session_value w128 (in_range128 (lp_b p)) (le_dec (c_t c)) (fun k => noise (map gauss128_word (c_noise c)) db L k + le_dec (c_t c) * elem db i k) M j /\
    forall delta, length delta = M -> lwe_session128 p abytes db c (deviating128 db delta) index =
      session_value w128 (in_range128 (lp_b p)) (le_dec (c_t c)) (fun k => noise (map gauss128_word (c_noise c)) db L k + le_dec (c_t c) * elem db i k + nth k delta 0) M j.
Proof.
  intros (HD & BD & PL & PM & PN & N0 & RL & RM) (BA & LA & BT & LT & BS & LS & LN) HI.
  destruct (index_split L M index HI) as (i & j & Hi & Hj & EI & TI). exists i, j. split; [exact Hi|]. split; [exact Hj|]. split; [exact TI|].
  assert (HL : (0 < L)%nat) by lia.
  destruct (random128_shape N L abytes N0 HL BA ltac:(lia)) as (SA & WA).
  destruct (random128_shape 1 1 (c_t c) ltac:(lia) ltac:(lia) BT ltac:(lia)) as ((ST & _) & _).
  destruct (random128_shape 1 N (c_secret c) ltac:(lia) ltac:(lia) BS ltac:(lia)) as (SS & _).
  destruct (gauss_shape gauss128_word L (c_noise c) HL LN) as (SE & NE).
  assert (NT : elem (new_random128_of_bytes 1 1 (c_t c)) 0 0 = le_dec (c_t c)).
  { unfold elem, new_random128_of_bytes. rewrite chunks_one by (auto; lia). reflexivity. }
  destruct (honest_run 128 p (new_random128_of_bytes (Z.of_nat N) (Z.of_nat L) abytes) (new_random128_of_bytes (Z.of_nat N) (Z.of_nat L) abytes)
    db (new_random128_of_bytes 1 1 (c_t c)) (new_random128_of_bytes 1 (Z.of_nat N) (c_secret c)) (new_gauss128_of 1 (Z.of_nat L) (c_noise c))
    L N M i j ltac:(lia) PL PM (exact_stored _ _ _ _ SA) (exact_stored _ _ _ _ SA) ltac:(auto) WA HD BD ST (exact_stored _ _ _ _ SS) SE Hi Hj)
    as (dg & st & q & a & ED & EQ & SQ & WQ & EAn & SAn & WAn & R1 & R2).
  change (2 ^ 128) with w128 in *.
  rewrite NT in R1, R2.
  assert (RTQ : bytes_to_matrix128 (matrix128_to_bytes q) = Ok q).
  { destruct SQ as ((Rq & Cq & _) & Lq). apply matrix128_roundtrip; unfold is_u32, w32; [lia..|exact WQ]. }
  assert (RT1 : forall m, exact_shape m 1 M -> words w128 m -> bytes_to_matrix128 (matrix128_to_bytes m) = Ok m).
  { intros m ((Rq & Cq & _) & Lq) W. apply matrix128_roundtrip; unfold is_u32, w32; [lia..|exact W]. }
  assert (NM : forall k, noise_at L (new_gauss128_of 1 (Z.of_nat L) (c_noise c)) db k mod w128 = noise (map gauss128_word (c_noise c)) db L k mod w128).
  { intros k. apply noise_mod; auto. reflexivity. intros r Hr; unfold new_gauss128_of; rewrite NE by auto; auto. }
  assert (EX : forall u v k, (noise_at L (new_gauss128_of 1 (Z.of_nat L) (c_noise c)) db k + u + v) mod w128 = (noise (map gauss128_word (c_noise c)) db L k + u + v) mod w128).
  { intros u v k. rewrite <- !Z.add_assoc. rewrite <- Z.add_mod_idemp_l by (unfold w128; lia). rewrite NM. apply Z.add_mod_idemp_l. unfold w128; lia. }
  assert (G : forall server, lwe_session128 p abytes db c server index =
      (x <- server (matrix128_to_bytes q) ;; lwe_reconstruct_bytes128 p st x)).
  { intros server. unfold lwe_session128, lwe_query_coins128. rewrite PL, PM, PN, ED. cbn [bind]. rewrite EI. cbn [bind fst snd].
    rewrite EQ. cbn [bind fst snd]. auto. }
  split.
  - rewrite G. unfold lwe_answer_bytes128. rewrite RTQ. cbn [bind]. rewrite EAn. cbn [bind].
    unfold lwe_reconstruct_bytes128. rewrite (RT1 a SAn WAn). cbn [bind]. unfold lwe_reconstruct128. rewrite R1.
    unfold session_value. f_equal. apply mapM_ext. intros k _. f_equal. specialize (EX (le_dec (c_t c) * elem db i k) 0 k). rewrite !Z.add_0_r in EX. exact EX.
  - intros delta LD. rewrite G. unfold deviating128. rewrite RTQ. cbn [bind]. rewrite EAn. cbn [bind].
    unfold lwe_reconstruct_bytes128. destruct (deviated_shape w128 a delta M ltac:(reflexivity) SAn LD) as [SB _].
    rewrite (RT1 _ SB). 2:{ unfold words, deviated. cbn [m_data]. apply Forall_map, Forall_forall. intros x _. apply Z.mod_pos_bound. reflexivity. }
    cbn [bind]. unfold lwe_reconstruct128. rewrite R2 by auto.
    unfold session_value. f_equal. apply mapM_ext. intros k _. f_equal. apply EX.
Qed.
