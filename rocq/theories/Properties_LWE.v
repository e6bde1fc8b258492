(** Properties of the lattice based scheme, its matrices, its repetition code and its randomness. *)
From Coq Require Import String ZArith List Bool Lia.
From Verif Require Import GoBase BaseFacts EncodingModel MatrixModel LWEModel LWESpec MatrixProofs LWEProofs LWEProofs2 LWEProofs3 LWEProofs4
  PrgModel PrgSpec PrgProofs.
Import ListNotations.
Open Scope Z_scope.
Open Scope go_scope.

(** *** C40: products *)
Theorem C40_product32 : forall a b r n c, shape a r n -> shape b n c ->
  exists m, m_mul (2 ^ 32) a b = Ok m /\ exact_shape m r c /\ words (2 ^ 32) m /\
    forall i j, (i < r)%nat -> (j < c)%nat -> elem m i j = product_mod (2 ^ 32) n a b i j.
Proof. intros a b r n c A B. exact (mul_ok (2 ^ 32) a b r n c eq_refl (shape_stored _ _ _ A) (shape_stored _ _ _ B)). Qed.
Theorem C40_product128 : forall a b r n c, exact_shape a r n -> exact_shape b n c ->
  exists m, m_mul (2 ^ 128) a b = Ok m /\ exact_shape m r c /\ words (2 ^ 128) m /\
    forall i j, (i < r)%nat -> (j < c)%nat -> elem m i j = product_mod (2 ^ 128) n a b i j.
Proof. intros a b r n c A B. exact (mul_ok (2 ^ 128) a b r n c eq_refl (exact_stored _ _ _ _ A) (exact_stored _ _ _ _ B)). Qed.
Theorem C40_binary_product : forall k a b r n c, k = 32 \/ k = 128 -> stored (2 ^ k) a r n -> stored (2 ^ k) b n c -> words (2 ^ k) a -> binary b ->
  m_binary_mul (2 ^ k) a b = m_mul (2 ^ k) a b.
Proof. intros k a b r n c [-> | ->]; apply binary_mul_is_mul; reflexivity. Qed.
Theorem C40_associative : forall k a b c r n l m, k = 32 \/ k = 128 -> stored (2 ^ k) a r n -> stored (2 ^ k) b n l -> stored (2 ^ k) c l m ->
  (ab <- m_mul (2 ^ k) a b ;; m_mul (2 ^ k) ab c) = (bc <- m_mul (2 ^ k) b c ;; m_mul (2 ^ k) a bc).
Proof. intros k a b c r n l m [-> | ->]; apply mul_assoc; reflexivity. Qed.
Theorem C40_mismatch_panics : forall w a b, m_cols a <> m_rows b -> m_mul w a b = Panic "Dimension mismatch" /\ m_binary_mul w a b = Panic "Dimension mismatch".
Proof.
  intros w a b H. unfold m_mul, m_binary_mul, m_mul_gen. destruct (Z.eqb_spec (m_cols a) (m_rows b)); [congruence|]. split; reflexivity.
Qed.
Print Assumptions C40_product32.
Print Assumptions C40_product128.
Print Assumptions C40_binary_product.
Print Assumptions C40_associative.
Print Assumptions C40_mismatch_panics.

Definition ex_a := mkM 2 3 [1; 2; 4294967295; 4; 5; 6].
Definition ex_b := mkM 3 2 [1; 0; 1; 1; 0; 1].
Example C40_example : exact_shape ex_a 2 3 /\ exact_shape ex_b 3 2 /\ words (2 ^ 32) ex_a /\ binary ex_b /\
  m_binary_mul (2 ^ 32) ex_a ex_b = Ok (mkM 2 2 [3; 1; 9; 11]).
Proof.
  split. { unfold exact_shape, shape, ex_a. cbn [m_rows m_cols m_data length]. lia. }
  split. { unfold exact_shape, shape, ex_b. cbn [m_rows m_cols m_data length]. lia. }
  split. { unfold words, ex_a. cbn [m_data]. repeat (apply Forall_cons; [split; [lia|reflexivity]|]). constructor. }
  split. { unfold binary, ex_b. cbn [m_data]. repeat (apply Forall_cons; [auto|]). constructor. }
  vm_compute. reflexivity.
Qed.

(** *** C41: correctness over 32 bits *)
Theorem C41_lwe_correct : forall p abytes dmem db c rows cols n index, deployment p db rows cols n -> drawn 4 abytes c rows n ->
  0 <= index < Z.of_nat rows * Z.of_nat cols -> lp_b p < 2 ^ 32 ->
  (forall k, (k < cols)%nat -> Z.abs (noise (c_noise c) db rows k) < lp_b p) ->
  2 * lp_b p - 1 <= le_dec (c_t c) <= 2 ^ 32 - (2 * lp_b p - 1) ->
  lwe_session32 p abytes dmem db c (lwe_answer_bytes32 db) index = Ok (nth (Z.to_nat index) (m_data db) 0).
Proof. exact lwe32_correct. Qed.
(** ... and for the deployed parameters, from the samples alone. *)
Theorem C41_lwe_correct_default : forall rows cols abytes dmem db c index,
  let p := params_32 (Z.of_nat rows) (Z.of_nat cols) in
  exact_shape db rows cols -> binary db -> 84 * Z.of_nat rows < 2 ^ 32 -> Z.of_nat cols < 2 ^ 32 -> drawn 4 abytes c rows (Z.to_nat 1100) ->
  0 <= index < Z.of_nat rows * Z.of_nat cols -> Forall (fun g => Z.abs g <= 83) (c_noise c) ->
  168 * Z.of_nat rows - 1 <= le_dec (c_t c) <= 2 ^ 32 - (168 * Z.of_nat rows - 1) ->
  lwe_session32 p abytes dmem db c (lwe_answer_bytes32 db) index = Ok (nth (Z.to_nat index) (m_data db) 0).
Proof. exact lwe32_correct_default. Qed.
Print Assumptions C41_lwe_correct.
Print Assumptions C41_lwe_correct_default.

Definition ex_p := mkP 2 2 3 5.
Definition ex_db := mkM 2 3 [1; 0; 1; 0; 1; 1].
Definition ex_abytes := [1; 2; 3; 4; 5; 6; 7; 8; 9; 10; 11; 12; 13; 14; 15; 255].
Definition ex_mem (k : nat) : Z := 7 + Z.of_nat k.
Definition ex_coins (t : list Z) := mkC t [9; 8; 7; 6; 5; 4; 3; 200] [3; -2] ex_mem ex_mem (fun _ => 1).
Lemma ex_deployment : deployment ex_p ex_db 2 3 2.
Proof.
  unfold deployment, exact_shape, shape, binary, ex_p, ex_db. cbn [m_rows m_cols m_data lp_l lp_m lp_n length]. conj_split; try lia.
  repeat (apply Forall_cons; [auto|]). constructor.
Qed.
Lemma ex_bytes l : forallb (fun x => (0 <=? x) && (x <? 256)) l = true -> bytes l.
Proof.
  intros E. apply Forall_forall. intros x Hx. rewrite forallb_forall in E. specialize (E x Hx). apply andb_true_iff in E as [A B].
  apply Z.leb_le in A. apply Z.ltb_lt in B. split; assumption.
Qed.
Lemma ex_drawn t : bytes t -> length t = 4%nat -> drawn 4 ex_abytes (ex_coins t) 2 2.
Proof.
  intros B L. unfold drawn, ex_coins. cbn [c_t c_secret c_noise]. conj_split; auto; try reflexivity; apply ex_bytes; reflexivity.
Qed.
Lemma ex_noise t : forall k, (k < 3)%nat -> Z.abs (noise (c_noise (ex_coins t)) ex_db 2 k) < lp_b ex_p.
Proof. intros [|[|[|k]]] H; try lia; vm_compute; reflexivity. Qed.

Example C41_example : forall index, 0 <= index < 6 ->
  lwe_session32 ex_p ex_abytes (fun _ => 3) ex_db (ex_coins [0; 1; 0; 0]) (lwe_answer_bytes32 ex_db) index = Ok (nth (Z.to_nat index) [1; 0; 1; 0; 1; 1] 0).
Proof.
  intros index H. apply (C41_lwe_correct ex_p ex_abytes (fun _ => 3) ex_db (ex_coins [0; 1; 0; 0]) 2 3 2 index).
  - exact ex_deployment.
  - apply ex_drawn; [apply ex_bytes|]; reflexivity.
  - lia.
  - reflexivity.
  - apply ex_noise.
  - vm_compute. split; discriminate.
Qed.
Lemma ex_repeat x n : 0 <= x < 256 -> bytes (repeat x n).
Proof. intros H. apply Forall_forall. intros y Hy. apply repeat_spec in Hy. subst. exact H. Qed.
Lemma ex_drawn_default t noise rows n : bytes t -> length t = 4%nat -> length noise = rows ->
  drawn 4 (repeat 5 (4 * n * rows)) (mkC t (repeat 77 (4 * n)) noise ex_mem ex_mem ex_mem) rows n.
Proof.
  intros B L E. unfold drawn. cbn [c_t c_secret c_noise]. rewrite !repeat_length.
  split; [apply ex_repeat; lia|]. split; [reflexivity|]. split; [exact B|]. split; [exact L|].
  split; [apply ex_repeat; lia|]. split; [reflexivity|exact E].
Qed.
Example C41_default_example : exists c, drawn 4 (repeat 5 (4 * Z.to_nat 1100 * 2)) c 2 (Z.to_nat 1100) /\
  Forall (fun g => Z.abs g <= 83) (c_noise c) /\ 168 * 2 - 1 <= le_dec (c_t c) <= 2 ^ 32 - (168 * 2 - 1) /\ exact_shape ex_db 2 3 /\ binary ex_db.
Proof.
  exists (mkC [0; 0; 1; 0] (repeat 77 (4 * Z.to_nat 1100)) [83; -40] ex_mem ex_mem ex_mem).
  split. { apply ex_drawn_default; [apply ex_bytes|..]; reflexivity. }
  split. { cbn [c_noise]. repeat (apply Forall_cons; [lia|]). constructor. }
  split. { cbn [c_t]. vm_compute. split; discriminate. }
  pose proof ex_deployment as (S & B & _). split; assumption.
Qed.

(** *** C42: wrong results with an honest server *)
Theorem C42_lwe_wrong_bit_refuted : forall p abytes dmem db c rows cols n index, deployment p db rows cols n -> drawn 4 abytes c rows n ->
  0 <= index < Z.of_nat rows * Z.of_nat cols -> lp_b p < 2 ^ 32 ->
  (forall k, (k < cols)%nat -> Z.abs (noise (c_noise c) db rows k) < lp_b p) ->
  nth (Z.to_nat index) (m_data db) 0 = 1 ->
  Z.abs (noise (c_noise c) db rows (Z.to_nat index mod cols) + le_dec (c_t c)) < lp_b p ->
  lwe_session32 p abytes dmem db c (lwe_answer_bytes32 db) index = Ok 0.
Proof. exact lwe32_misread. Qed.
(** What does hold: no rejection, a stored 0 is always read as 0, and a stored 1 is misread only for scaling secrets near 0. *)
Theorem C42_lwe_wrong_bit_partial : forall p abytes dmem db c rows cols n index, deployment p db rows cols n -> drawn 4 abytes c rows n ->
  0 <= index < Z.of_nat rows * Z.of_nat cols -> lp_b p < 2 ^ 32 ->
  (forall k, (k < cols)%nat -> Z.abs (noise (c_noise c) db rows k) < lp_b p) ->
  exists b, lwe_session32 p abytes dmem db c (lwe_answer_bytes32 db) index = Ok b /\
    (b = nth (Z.to_nat index) (m_data db) 0 \/
     b = 0 /\ nth (Z.to_nat index) (m_data db) 0 = 1 /\ (le_dec (c_t c) < 2 * lp_b p - 1 \/ 2 ^ 32 - (2 * lp_b p - 1) < le_dec (c_t c))).
Proof. exact lwe32_never_rejected. Qed.
(** The noise bound itself is not guaranteed: with the deployed bound and the largest sample the deployed sampler can return, the
    honest server is rejected. *)
Theorem C42_default_bound_refuted : forall rows cols abytes dmem c index,
  let p := params_32 (Z.of_nat rows) (Z.of_nat cols) in
  let db := mkM (Z.of_nat rows) (Z.of_nat cols) (repeat 1 (rows * cols)) in
  (0 < rows)%nat -> (0 < cols)%nat -> 212 * Z.of_nat rows <= 2 ^ 32 -> Z.of_nat cols < 2 ^ 32 -> drawn 4 abytes c rows (Z.to_nat 1100) ->
  0 <= index < Z.of_nat rows * Z.of_nat cols -> c_noise c = repeat 128 rows ->
  le_dec (c_t c) <= 2 ^ 32 - 212 * Z.of_nat rows ->
  lwe_session32 p abytes dmem db c (lwe_answer_bytes32 db) index = Err "REJECT".
Proof. exact lwe32_default_reject. Qed.
Print Assumptions C42_lwe_wrong_bit_refuted.
Print Assumptions C42_lwe_wrong_bit_partial.
Print Assumptions C42_default_bound_refuted.

Example C42_example : lwe_session32 ex_p ex_abytes (fun _ => 3) ex_db (ex_coins [1; 0; 0; 0]) (lwe_answer_bytes32 ex_db) 4 = Ok 0 /\ nth 4 (m_data ex_db) 0 = 1.
Proof.
  split; [|reflexivity]. apply (C42_lwe_wrong_bit_refuted ex_p ex_abytes (fun _ => 3) ex_db (ex_coins [1; 0; 0; 0]) 2 3 2 4).
  - exact ex_deployment.
  - apply ex_drawn; [apply ex_bytes|]; reflexivity.
  - lia.
  - reflexivity.
  - apply ex_noise.
  - reflexivity.
  - vm_compute. reflexivity.
Qed.
Example C42_default_example : exists c, drawn 4 (repeat 5 (4 * Z.to_nat 1100 * 2)) c 2 (Z.to_nat 1100) /\ c_noise c = repeat 128 2 /\ le_dec (c_t c) <= 2 ^ 32 - 212 * 2.
Proof.
  exists (mkC [0; 0; 1; 0] (repeat 77 (4 * Z.to_nat 1100)) [128; 128] ex_mem ex_mem ex_mem).
  split. { apply ex_drawn_default; [apply ex_bytes|..]; reflexivity. }
  split. { reflexivity. }
  cbn [c_t]. vm_compute. discriminate.
Qed.

(** *** C43: cheating server *)
Theorem C43_lwe_cheating : forall p abytes dmem db c rows cols n index delta, deployment p db rows cols n -> drawn 4 abytes c rows n ->
  0 <= index < Z.of_nat rows * Z.of_nat cols -> 0 < lp_b p < 2 ^ 32 -> length delta = cols ->
  exists bad, Z.of_nat (length bad) <= 2 * lp_b p - 1 /\
    forall t b, bytes t -> length t = 4%nat ->
      lwe_session32 p abytes dmem db (with_t c t) (deviating32 db delta) index = Ok b ->
      b <> nth (Z.to_nat index) (m_data db) 0 -> In (le_dec t) bad.
Proof. exact lwe32_cheating. Qed.
Print Assumptions C43_lwe_cheating.
(** A server that guesses t flips the bit, and is rejected for another t. *)
Example C43_example :
  lwe_session32 ex_p ex_abytes (fun _ => 3) ex_db (ex_coins [0; 1; 0; 0]) (deviating32 ex_db [0; 256; 0]) 1 = Ok 1 /\
  lwe_session32 ex_p ex_abytes (fun _ => 3) ex_db (with_t (ex_coins [0; 1; 0; 0]) [0; 2; 0; 0]) (deviating32 ex_db [0; 256; 0]) 1 = Err "REJECT" /\
  nth 1 (m_data ex_db) 0 = 0.
Proof. conj_split; vm_compute; reflexivity. Qed.

(** *** C44: 128 bits *)
Theorem C44_lwe128_correct : forall p abytes db c rows cols n index, deployment p db rows cols n -> drawn 16 abytes c rows n ->
  0 <= index < Z.of_nat rows * Z.of_nat cols -> 0 < lp_b p -> lp_b p + 1 < 2 ^ 32 -> Forall (fun g => - 2 ^ 63 <= g < 2 ^ 63) (c_noise c) ->
  (forall k, (k < cols)%nat -> - (lp_b p + 1) <= noise (map stored_sample (c_noise c)) db rows k < lp_b p) ->
  2 * lp_b p + 1 <= le_dec (c_t c) <= 2 ^ 128 - (2 * lp_b p + 1) ->
  lwe_session128 p abytes db c (lwe_answer_bytes128 db) index = Ok (nth (Z.to_nat index) (m_data db) 0).
Proof. exact lwe128_correct. Qed.
Theorem C44_lwe128_correct_default : forall rows cols abytes db c index,
  let p := params_128 (Z.of_nat rows) (Z.of_nat cols) in
  exact_shape db rows cols -> binary db -> 84 * Z.of_nat rows + 1 < 2 ^ 32 -> Z.of_nat cols < 2 ^ 32 -> drawn 16 abytes c rows (Z.to_nat 4800) ->
  0 <= index < Z.of_nat rows * Z.of_nat cols -> Forall (fun g => Z.abs g <= 83) (c_noise c) ->
  168 * Z.of_nat rows + 1 <= le_dec (c_t c) <= 2 ^ 128 - (168 * Z.of_nat rows + 1) ->
  lwe_session128 p abytes db c (lwe_answer_bytes128 db) index = Ok (nth (Z.to_nat index) (m_data db) 0).
Proof. exact lwe128_correct_default. Qed.
Theorem C44_lwe128_cheating : forall p abytes db c rows cols n index delta, deployment p db rows cols n -> drawn 16 abytes c rows n ->
  0 <= index < Z.of_nat rows * Z.of_nat cols -> 0 < lp_b p -> lp_b p + 1 < 2 ^ 32 -> length delta = cols ->
  exists bad, Z.of_nat (length bad) <= 2 * lp_b p + 1 /\
    forall t b, bytes t -> length t = 16%nat ->
      lwe_session128 p abytes db (with_t c t) (deviating128 db delta) index = Ok b ->
      b <> nth (Z.to_nat index) (m_data db) 0 -> In (le_dec t) bad.
Proof. exact lwe128_cheating. Qed.
(** The acceptance ranges, exactly: symmetric over 32 bits, two further values below over 128 bits. *)
Theorem C44_range32 : forall B v, 0 < B < 2 ^ 32 -> 0 <= v < 2 ^ 32 -> (in_range32 B v = true <-> v < B \/ 2 ^ 32 - B < v).
Proof. intros B v HB Hv. rewrite (range32 B HB v Hv). change w32 with (2 ^ 32). lia. Qed.
Theorem C44_range128_symmetric_refuted : forall B v, 0 < B -> B + 1 < 2 ^ 32 -> 0 <= v < 2 ^ 128 ->
  (in_range128 B v = true <-> v < B \/ 2 ^ 128 - B < v \/ v = 2 ^ 128 - B \/ v = 2 ^ 128 - (B + 1)).
Proof. intros B v HB HB' Hv. rewrite (range128 B HB HB' v Hv). change w128 with (2 ^ 128). lia. Qed.
Print Assumptions C44_lwe128_correct.
Print Assumptions C44_lwe128_correct_default.
Print Assumptions C44_lwe128_cheating.
Print Assumptions C44_range32.
Print Assumptions C44_range128_symmetric_refuted.

Definition ex_abytes128 := repeat 19 64.
Definition ex_coins128 := mkC (map Z.of_nat (seq 0 16)) (repeat 7 32) [3; -2] ex_mem ex_mem ex_mem.
Example C44_example :
  deployment ex_p ex_db 2 3 2 /\ drawn 16 ex_abytes128 ex_coins128 2 2 /\
  (forall k, (k < 3)%nat -> - (lp_b ex_p + 1) <= noise (map stored_sample (c_noise ex_coins128)) ex_db 2 k < lp_b ex_p) /\
  2 * lp_b ex_p + 1 <= le_dec (c_t ex_coins128) <= 2 ^ 128 - (2 * lp_b ex_p + 1) /\
  map (lwe_session128 ex_p ex_abytes128 ex_db ex_coins128 (lwe_answer_bytes128 ex_db)) [0; 1; 2; 3; 4; 5] = map Ok [1; 0; 1; 0; 1; 1].
Proof.
  split; [exact ex_deployment|]. split.
  { unfold drawn, ex_coins128, ex_abytes128. cbn [c_t c_secret c_noise]. conj_split; try reflexivity; apply ex_bytes; reflexivity. }
  split. { intros [|[|[|k]]] H; try lia; vm_compute; split; congruence. }
  split. { vm_compute. split; discriminate. }
  vm_compute. reflexivity.
Qed.

(** *** C45: 128-bit noise words *)
Theorem C45_negative_noise_refuted : forall g, - 2 ^ 63 <= g < 0 -> gauss128_word g = (g - 1) mod 2 ^ 128 /\ gauss128_word g <> g mod 2 ^ 128.
Proof.
  intros g H. rewrite (gauss128_word_mod g) by lia. unfold stored_sample. destruct (Z.ltb_spec g 0); [|lia]. change w128 with (2 ^ 128).
  split; auto. rewrite <- (Z.mod_unique (g - 1) (2 ^ 128) (-1) (g - 1 + 2 ^ 128)) by lia. rewrite <- (Z.mod_unique g (2 ^ 128) (-1) (g + 2 ^ 128)) by lia. lia.
Qed.
Theorem C45_noise_partial : forall g, 0 <= g < 2 ^ 63 -> gauss128_word g = g mod 2 ^ 128.
Proof. intros g H. rewrite (gauss128_word_mod g) by lia. unfold stored_sample. destruct (Z.ltb_spec g 0); [lia|]. reflexivity. Qed.
Theorem C45_noise32 : forall r c samples k, (k < length samples)%nat -> nth k (m_data (new_gauss_of r c samples)) 0 = (nth k samples 0) mod 2 ^ 32.
Proof.
  intros r c samples k Hk. unfold new_gauss_of. cbn [m_data]. rewrite (nth_indep _ 0 (u32 0)) by (rewrite map_length; auto). rewrite map_nth. reflexivity.
Qed.
(** The samples themselves. *)
Theorem C45_sample_bounded : forall (Y : Type) (below : Z -> Y -> bool) draws u r, Forall (fun d => 0 <= fst d < 129) draws ->
  gauss_sample below draws u = Some r -> exists g, r = Ok g /\ - 128 <= g <= 128.
Proof. exact @gauss_bounded. Qed.
Print Assumptions C45_negative_noise_refuted.
Print Assumptions C45_noise_partial.
Print Assumptions C45_noise32.
Print Assumptions C45_sample_bounded.
Example C45_example : gauss128_word (-3) = 2 ^ 128 - 4 /\ gauss128_word 5 = 5 /\
  m_data (new_gauss_of 1 2 [-3; 5]) = [4294967293; 5] /\
  gauss_sample (fun x y => y <? 100 - x) [(128, 1); (7, 93); (12, 50)] 4 = Some (Ok (-12)).
Proof. conj_split; vm_compute; reflexivity. Qed.

(** *** C46: sizes of random matrices *)
Theorem C46_random_size_refuted : forall r c b mem, 0 < r -> 0 < c -> zlen b = 4 * r * c ->
  zlen (m_data (new_random_of_bytes r c b mem)) = 4 * r * c /\ zlen (m_data (new_random_of_bytes r c b mem)) <> r * c /\
  zlen (matrix_to_bytes (new_random_of_bytes r c b mem)) = 8 + 16 * r * c.
Proof. intros r c b mem Hr Hc L. destruct (random_size r c b mem ltac:(lia) ltac:(lia) L) as [A B]. conj_split; auto. nia. Qed.
(** The declared part is made of the bytes read, whatever lies behind the buffer. *)
Theorem C46_random_partial : forall r c b mem, (0 < r)%nat -> (0 < c)%nat -> bytes b -> length b = (4 * (r * c))%nat ->
  shape (new_random_of_bytes (Z.of_nat r) (Z.of_nat c) b mem) r c /\ words (2 ^ 32) (new_random_of_bytes (Z.of_nat r) (Z.of_nat c) b mem) /\
  (forall i j, (i < r)%nat -> (j < c)%nat ->
     elem (new_random_of_bytes (Z.of_nat r) (Z.of_nat c) b mem) i j = nth (c * i + j) (map le_dec (chunks 4 b)) 0).
Proof. exact random_shape. Qed.
Theorem C46_random128_size : forall r c b, 0 <= r -> 0 <= c -> zlen b = 16 * r * c -> zlen (m_data (new_random128_of_bytes r c b)) = r * c.
Proof. exact random128_size. Qed.
Print Assumptions C46_random_size_refuted.
Print Assumptions C46_random_partial.
Print Assumptions C46_random128_size.
Example C46_example : m_data (new_random_of_bytes 1 2 [1; 0; 0; 0; 2; 1; 0; 0] ex_mem) = [1; 258; 7; 8; 9; 10; 11; 12].
Proof. vm_compute. reflexivity. Qed.

(** *** C47, C48: the repetition code *)
Theorem C47_correction_refuted : forall t x y l, length l = (2 * t + 1)%nat -> (errors x l <= t)%nat ->
  hd x l = y -> y <> x -> ecc_decode l = Err "impossible to find a decoded word".
Proof. exact decode_first_error. Qed.
Theorem C47_correction_partial : forall t x l, length l = (2 * t + 1)%nat -> (errors x l <= t)%nat -> hd 0 l = x -> ecc_decode l = Ok x.
Proof. exact decode_corrects. Qed.
Theorem C47_no_error : forall t x, ecc_decode (ecc_encode t x) = Ok x.
Proof.
  intros t x. apply (decode_corrects t).
  - apply encode_word.
  - unfold errors. assert (E : filter (fun y => negb (Z.eqb y x)) (ecc_encode t x) = []); [|rewrite E; cbn; lia].
    destruct (encode_word t x) as [_ F]. induction F as [|z l <- F IH]; auto. cbn [filter]. rewrite Z.eqb_refl. auto.
  - unfold ecc_encode. rewrite Nat.add_1_r. reflexivity.
Qed.
Theorem C48_majority : forall l v, ecc_decode l = Ok v <-> exists rest, l = v :: rest /\ (length l < 2 * occurrences v l)%nat.
Proof. exact decode_iff. Qed.
Print Assumptions C47_correction_refuted.
Print Assumptions C47_correction_partial.
Print Assumptions C47_no_error.
Print Assumptions C48_majority.
Example C47_example : errors 1 [0; 1; 1; 1; 1] = 1%nat /\ ecc_decode [0; 1; 1; 1; 1] = Err "impossible to find a decoded word" /\
  errors 1 [1; 0; 0; 1; 1] = 2%nat /\ ecc_decode [1; 0; 0; 1; 1] = Ok 1.
Proof. conj_split; vm_compute; reflexivity. Qed.

(** *** C49: amplification *)
Theorem C49_amplify_correct : forall p abytes dmem db cs rows cols n index, deployment p db rows cols n -> cs <> [] ->
  Forall (fun c => drawn 4 abytes c rows n /\
    (forall k, (k < cols)%nat -> Z.abs (noise (c_noise c) db rows k) < lp_b p) /\
    2 * lp_b p - 1 <= le_dec (c_t c) <= 2 ^ 32 - (2 * lp_b p - 1)) cs ->
  8 + 4 * Z.of_nat rows < 2 ^ 32 -> 8 + 4 * Z.of_nat cols < 2 ^ 32 -> zlen cs < 2 ^ 32 -> lp_b p < 2 ^ 32 ->
  0 <= index < Z.of_nat rows * Z.of_nat cols ->
  amplify_session p abytes dmem db cs (amplify_answer_bytes db) index = Ok (nth (Z.to_nat index) (m_data db) 0).
Proof. exact amplify_correct. Qed.
Theorem C49_amplify_rejects : forall p sts answers, length answers = length sts ->
  Forall (fun sa => (exists o, lwe_reconstruct32 p (fst sa) (snd sa) = Ok o) \/ (exists e, lwe_reconstruct32 p (fst sa) (snd sa) = Err e)) (combine sts answers) ->
  Exists (fun sa => exists e, lwe_reconstruct32 p (fst sa) (snd sa) = Err e) (combine sts answers) ->
  amplify_reconstruct p sts answers = Err "REJECT".
Proof. intros p sts answers L F X. unfold amplify_reconstruct. pose proof (outputs_reject p sts answers [] L F X) as E. cbn [app length] in E. rewrite E. reflexivity. Qed.
(** An accepted wrong bit needs a majority of guessed scaling secrets. *)
Theorem C49_amplify_cheating : forall p abytes dmem db cs rows cols n index deltas, deployment p db rows cols n -> cs <> [] ->
  Forall (fun c => drawn 4 abytes c rows n) cs ->
  8 + 4 * Z.of_nat rows < 2 ^ 32 -> 8 + 4 * Z.of_nat cols < 2 ^ 32 -> zlen cs < 2 ^ 32 -> 0 < lp_b p < 2 ^ 32 ->
  0 <= index < Z.of_nat rows * Z.of_nat cols -> length deltas = length cs -> Forall (fun d => length d = cols) deltas ->
  exists bads, length bads = length cs /\ Forall (fun bad => Z.of_nat (length bad) <= 2 * lp_b p - 1) bads /\
    forall ts b, length ts = length cs -> Forall (fun t => bytes t /\ length t = 4%nat) ts ->
      amplify_session p abytes dmem db (map (fun ct => with_t (fst ct) (snd ct)) (combine cs ts)) (amplify_deviating db deltas) index = Ok b ->
      b <> nth (Z.to_nat index) (m_data db) 0 -> (length cs < 2 * hits ts bads)%nat.
Proof. exact amplify_cheating. Qed.
Print Assumptions C49_amplify_correct.
Print Assumptions C49_amplify_rejects.
Print Assumptions C49_amplify_cheating.
Example C49_example :
  Forall (fun c => drawn 4 ex_abytes c 2 2) [ex_coins [0; 1; 0; 0]; ex_coins [0; 2; 0; 0]; ex_coins [0; 3; 0; 0]] /\
  amplify_session ex_p ex_abytes (fun _ => 3) ex_db [ex_coins [0; 1; 0; 0]; ex_coins [0; 2; 0; 0]; ex_coins [0; 3; 0; 0]] (amplify_answer_bytes ex_db) 4 = Ok 1 /\
  amplify_session ex_p ex_abytes (fun _ => 3) ex_db [ex_coins [0; 1; 0; 0]; ex_coins [0; 2; 0; 0]; ex_coins [0; 3; 0; 0]]
    (amplify_deviating ex_db [[0; 256; 0]; [0; 512; 0]; [0; 0; 0]]) 1 = Ok 1 /\
  amplify_session ex_p ex_abytes (fun _ => 3) ex_db [ex_coins [0; 1; 0; 0]; ex_coins [0; 2; 0; 0]; ex_coins [0; 3; 0; 0]]
    (amplify_deviating ex_db [[0; 256; 0]; [0; 511; 0]; [0; 77; 0]]) 1 = Err "REJECT".
Proof.
  split. { repeat (apply Forall_cons; [apply ex_drawn; [apply ex_bytes|]; reflexivity|]). constructor. }
  conj_split; vm_compute; reflexivity.
Qed.

(** *** C62: pseudo-random readers *)
Theorem C62_reads : forall ks pos lens,
  prg_reads ks pos (map (repeat 0) lens) = map (fun ol => ks_bytes ks (fst ol) (snd ol)) (combine (offsets pos lens) lens).
Proof. intros. apply reads_zeroed. Qed.
Theorem C62_same_matrix : forall ks pos r c mem mem' i j, (0 < r)%nat -> (0 < c)%nat -> (i < r)%nat -> (j < c)%nat -> (forall k, is_byte (ks k)) ->
  elem (new_random_of_bytes (Z.of_nat r) (Z.of_nat c) (fst (prg_read ks pos (repeat 0 (4 * (r * c))))) mem) i j =
  elem (new_random_of_bytes (Z.of_nat r) (Z.of_nat c) (fst (prg_read ks pos (repeat 0 (4 * (r * c))))) mem') i j.
Proof.
  intros ks pos r c mem mem' i j Hr Hc Hi Hj HB. rewrite read_zeroed. cbn [fst].
  assert (BB : bytes (ks_bytes ks pos (4 * (r * c)))) by (apply Forall_forall; intros x Hx; unfold ks_bytes in Hx; apply in_map_iff in Hx as (k & <- & _); apply HB).
  pose proof (ks_bytes_length ks pos (4 * (r * c))) as L.
  destruct (random_shape r c _ mem Hr Hc BB L) as (_ & _ & N1). destruct (random_shape r c _ mem' Hr Hc BB L) as (_ & _ & N2).
  rewrite N1, N2 by auto. reflexivity.
Qed.
(** Reading at least 16 bytes into a buffer that is not zero does not overwrite it. *)
Theorem C62_dirty_buffer : forall ks pos p, (16 <= length p)%nat ->
  prg_read ks pos p = (xor_into p p (ks_bytes ks pos (length p)), (pos + length p)%nat).
Proof. exact read_dirty. Qed.
(** Hence the buffered generator, which refills the same buffer, returns the XOR of all keystream blocks so far. *)
Theorem C62_buffered : forall ks n,
  buf_uint64s ks new_bufprg n = map (fun i => le_dec (map (fun b => buf_stream ks (8 * i + b)%nat) (seq 0 8))) (seq 0 n).
Proof. exact uint64s_ok. Qed.
(** Signed draws use the same words without the top bit: 63 bits, never negative. *)
Theorem C62_int63 : forall ks n,
  buf_int63s ks new_bufprg n = map (fun i => le_dec (map (fun b => buf_stream ks (8 * i + b)%nat) (seq 0 8)) mod 9223372036854775808) (seq 0 n) /\
  Forall (fun v => 0 <= v < 9223372036854775808) (buf_int63s ks new_bufprg n).
Proof.
  intros ks n. assert (G : forall n s, buf_int63s ks s n = map (fun u => u mod 9223372036854775808) (buf_uint64s ks s n)).
  { clear n. induction n as [|n IH]; intros s; [reflexivity|]. cbn [buf_int63s buf_uint64s]. unfold buf_int63.
    destruct (buf_uint64 ks s) as (u, s'). cbn [map]. rewrite IH. reflexivity. }
  rewrite G. split.
  - rewrite C62_buffered, map_map. reflexivity.
  - apply Forall_forall. intros v I. apply in_map_iff in I. destruct I as (u & <- & _). apply Z.mod_pos_bound. reflexivity.
Qed.
Print Assumptions C62_int63.
Print Assumptions C62_reads.
Print Assumptions C62_same_matrix.
Print Assumptions C62_dirty_buffer.
Print Assumptions C62_buffered.
Example C62_example : prg_reads (fun k => Z.of_nat k mod 256) 0 (map (repeat 0) [2; 20; 1]%nat) = [[0; 1]; map Z.of_nat (seq 16 20); [36]] /\
  fst (prg_read (fun k => Z.of_nat k mod 256) 0 (repeat 1 16)) = [1; 0; 3; 2; 5; 4; 7; 6; 9; 8; 11; 10; 13; 12; 15; 14] /\
  buf_uint64s (fun k => Z.of_nat k mod 256) new_bufprg 1 = [le_dec [0; 1; 2; 3; 4; 5; 6; 7]] /\
  buf_int63s (fun k => 255) new_bufprg 2 = [9223372036854775807; 9223372036854775807] /\
  buf_stream (fun k => Z.of_nat k / 8192 + 5) (Z.to_nat 16385) = Z.lxor (Z.lxor 5 6) 7.
Proof. conj_split; vm_compute; reflexivity. Qed.

(** *** C63: layouts *)
Theorem C63_square : forall n, 0 <= n -> let (r, c) := calculate_num_rows_and_columns n true in
  r = c /\ n <= r * c /\ forall s, 0 <= s -> n <= s * s -> r <= s.
Proof. exact square_layout. Qed.
Theorem C63_vector : forall n, calculate_num_rows_and_columns n false = (1, n).
Proof. exact vector_layout. Qed.
Print Assumptions C63_square.
Print Assumptions C63_vector.
Example C63_example : calculate_num_rows_and_columns 10 true = (4, 4) /\ calculate_num_rows_and_columns 1024 true = (32, 32) /\ calculate_num_rows_and_columns 10 false = (1, 10).
Proof. conj_split; vm_compute; reflexivity. Qed.

(** *** C65: random binary databases *)
Theorem C65_binary : forall rows cols rnd, (0 < rows)%nat -> (0 < cols)%nat -> bytes rnd -> zlen rnd = Z.of_nat rows * Z.of_nat cols / 8 + 1 ->
  exists m, create_random_binary rnd (Z.of_nat rows) (Z.of_nat cols) = Ok m /\ exact_shape m rows cols /\ binary m /\
    forall k, (k < rows * cols)%nat -> nth k (m_data m) 0 = Z.b2z (Z.testbit (nth (k / 8) rnd 0) (Z.of_nat (k mod 8))).
Proof. exact random_binary. Qed.
Print Assumptions C65_binary.
Example C65_example : create_random_binary [165; 3] 3 3 = Ok (mkM 3 3 [1; 0; 1; 0; 0; 1; 0; 1; 1]).
Proof. vm_compute. reflexivity. Qed.
