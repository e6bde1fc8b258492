(** Proofs about the lattice servers on arbitrary queries. *)
From Coq Require Import String ZArith List Bool Lia Arith.
From Verif Require Import GoBase BaseFacts EncodingModel EncodingProofs MatrixModel LWEModel LWESpec MatrixProofs DHModel RobustModel RobustSpec.
Import ListNotations.
Open Scope Z_scope.
Open Scope go_scope.

Lemma skipn_skipn {A} a b (l : list A) : skipn a (skipn b l) = skipn (b + a) l.
Proof. revert l. induction b as [|b IH]; intros l; cbn [skipn Nat.add]; auto. destruct l; [apply skipn_nil|apply IH]. Qed.
Lemma Forall_firstn {A} (P : A -> Prop) n l : Forall P l -> Forall P (firstn n l).
Proof. intros F. rewrite <- (firstn_skipn n l) in F. apply Forall_app in F. apply F. Qed.
Lemma Forall_skipn {A} (P : A -> Prop) n l : Forall P l -> Forall P (skipn n l).
Proof. intros F. rewrite <- (firstn_skipn n l) in F. apply Forall_app in F. apply F. Qed.

Lemma nth_chunks {A} k (d : list A) (l : list A) p : (0 < k)%nat -> (p < length l / k)%nat -> nth p (chunks k l) d = firstn k (skipn (k * p) l).
Proof.
  intros Hk. revert l. induction p as [|p IH]; intros l Hp.
  - assert (k <= length l)%nat. { destruct (le_lt_dec k (length l)); auto. rewrite Nat.div_small in Hp by auto. lia. }
    rewrite chunks_unfold by auto. rewrite Nat.mul_0_r. reflexivity.
  - assert (k <= length l)%nat. { destruct (le_lt_dec k (length l)); auto. rewrite Nat.div_small in Hp by auto. lia. }
    rewrite chunks_unfold by auto. cbn [nth]. rewrite IH.
    + rewrite skipn_skipn. f_equal. f_equal. lia.
    + rewrite skipn_length. assert (E : (length l / k = (length l - k) / k + 1)%nat).
      { replace (length l) with ((length l - k) + 1 * k)%nat at 1 by lia. apply Nat.div_add. lia. }
      lia.
Qed.

Lemma words_count32 body : length (bytes_to_uint32_slice body) = (length body / 4)%nat.
Proof. unfold bytes_to_uint32_slice. rewrite map_length. apply chunks_length. lia. Qed.

Lemma nth_word32 body p : (p < length body / 4)%nat -> nth p (bytes_to_uint32_slice body) 0 = word32 body p.
Proof.
  intros H. unfold bytes_to_uint32_slice, word32. rewrite (nth_indep _ 0 (be_dec [])) by (rewrite map_length, chunks_length; lia).
  rewrite map_nth. rewrite nth_chunks by lia. auto.
Qed.

Lemma nth_word128 body p : nth p (map le_dec (chunks 16 body)) 0 = word128 body p.
Proof.
  unfold word128. destruct (Nat.ltb_spec p (length body / 16)).
  - rewrite (nth_indep _ 0 (le_dec [])) by (rewrite map_length, chunks_length; lia). rewrite map_nth. rewrite nth_chunks by lia. auto.
  - apply nth_overflow. rewrite map_length, chunks_length; lia.
Qed.

Lemma announcing_length rows cols body : length (announcing rows cols body) = (8 + length body)%nat.
Proof. unfold announcing. rewrite !app_length, !be_enc_length. lia. Qed.

(** every long enough message announces something *)
Lemma announces q : bytes q -> (8 <= length q)%nat -> exists rows cols body, q = announcing rows cols body /\ is_u32 rows /\ is_u32 cols /\ bytes body.
Proof.
  intros B L. exists (be_dec (firstn 4 q)), (be_dec (firstn 4 (skipn 4 q))), (skipn 8 q).
  assert (B1 : bytes (firstn 4 q)) by (apply Forall_firstn; auto).
  assert (B2 : bytes (firstn 4 (skipn 4 q))) by (apply Forall_firstn, Forall_skipn; auto).
  assert (L1 : length (firstn 4 q) = 4%nat) by (rewrite firstn_length; lia).
  assert (L2 : length (firstn 4 (skipn 4 q)) = 4%nat) by (rewrite firstn_length, skipn_length; lia).
  split; [|split; [|split]].
  - unfold announcing. pose proof (be_enc_dec _ B1) as E1. rewrite L1 in E1. pose proof (be_enc_dec _ B2) as E2. rewrite L2 in E2. rewrite E1, E2.
    rewrite <- (firstn_skipn 4 q) at 1. f_equal. rewrite <- (firstn_skipn 4 (skipn 4 q)) at 1. f_equal. rewrite skipn_skipn. reflexivity.
  - pose proof (be_dec_bound _ B1) as X. unfold zlen in X. rewrite L1 in X. unfold is_u32. rewrite w32_pow. exact X.
  - pose proof (be_dec_bound _ B2) as X. unfold zlen in X. rewrite L2 in X. unfold is_u32. rewrite w32_pow. exact X.
  - apply Forall_skipn. auto.
Qed.

Lemma be4 x : is_u32 x -> be_dec (be_enc 4 x) = x.
Proof. intros H. apply be_dec_enc. unfold is_u32 in H. rewrite w32_pow in H. exact H. Qed.

Lemma parse32 rows cols body : is_u32 rows -> is_u32 cols ->
  bytes_to_matrix (announcing rows cols body) = Ok (mkM rows cols (bytes_to_uint32_slice body)).
Proof.
  intros Hr Hc. unfold bytes_to_matrix, announcing.
  rewrite (go_slice_prefix (be_enc 4 rows)) by (unfold zlen; rewrite be_enc_length; auto). cbn [bind].
  rewrite (go_slice_mid (be_enc 4 rows) (be_enc 4 cols) body) by (unfold zlen; rewrite !be_enc_length; auto). cbn [bind].
  rewrite app_assoc. rewrite (go_slice_suffix (be_enc 4 rows ++ be_enc 4 cols) body).
  - cbn [bind]. rewrite !be4 by auto. auto.
  - unfold zlen. rewrite app_length, !be_enc_length. auto.
  - apply zlen_app.
Qed.

Lemma parse128 rows cols body : is_u32 rows -> is_u32 cols ->
  bytes_to_matrix128 (announcing rows cols body) = Ok (mkM rows cols (map le_dec (chunks 16 body))).
Proof.
  intros Hr Hc. unfold bytes_to_matrix128, announcing.
  rewrite (go_slice_prefix (be_enc 4 rows)) by (unfold zlen; rewrite be_enc_length; auto). cbn [bind].
  rewrite (go_slice_suffix (be_enc 4 rows) (be_enc 4 cols ++ body)) by (rewrite ?zlen_app; unfold zlen; rewrite ?be_enc_length; auto). cbn [bind].
  unfold be_u32. rewrite app_length, be_enc_length. cbn [Nat.add Nat.ltb Nat.leb bind]. rewrite firstn_app_exact by (rewrite be_enc_length; auto).
  rewrite app_assoc. rewrite (go_slice_suffix (be_enc 4 rows ++ be_enc 4 cols) body).
  - cbn [bind]. rewrite !be4 by auto. auto.
  - unfold zlen. rewrite app_length, !be_enc_length. auto.
  - apply zlen_app.
Qed.

Lemma short32 q : (length q < 8)%nat -> is_panic (bytes_to_matrix q) = true.
Proof.
  intros L. unfold bytes_to_matrix, go_slice, zlen. destruct (Z.leb_spec 4 (Z.of_nat (length q))).
  - cbn [andb Z.leb Z.compare bind]. destruct (Z.leb_spec 8 (Z.of_nat (length q))); [lia|]. cbn. auto.
  - cbn. auto.
Qed.

Lemma short128 q : (length q < 8)%nat -> exists s, bytes_to_matrix128 q = Panic s /\ s <> "C out-of-bounds"%string.
Proof.
  intros L. unfold bytes_to_matrix128, be_u32, go_slice, zlen. destruct (Z.leb_spec 4 (Z.of_nat (length q))) as [G|G].
  2:{ cbn. eexists. split; [reflexivity|discriminate]. }
  change (0 <=? 0) with true. change (0 <=? 4) with true. cbn [andb bind].
  destruct (Z.leb_spec (Z.of_nat (length q)) (Z.of_nat (length q))); [|lia]. cbn [andb bind].
  rewrite firstn_length, skipn_length.
  destruct (Nat.ltb_spec (Nat.min (Z.to_nat (Z.of_nat (length q) - 4)) (length q - Z.to_nat 4)) 4); [|lia]. cbn. eexists. split; [reflexivity|discriminate].
Qed.

(** products of arbitrary buffers *)
Lemma mul_gen_buf w op fa fb a b (r n c : nat) da db : 0 < w -> (0 < r)%nat -> (0 < c)%nat ->
  m_rows a = Z.of_nat r -> m_cols a = Z.of_nat n -> m_rows b = Z.of_nat n -> m_cols b = Z.of_nat c ->
  fa a = Ok da -> fb b = Ok db -> (r * n <= length da)%nat -> (n * c <= length db)%nat ->
  exists m, m_mul_gen w op fa fb a b = Ok m /\ exact_shape m r c /\ words w m /\
    forall i j, (i < r)%nat -> (j < c)%nat -> elem m i j = sum_to n (fun k => op (nth (n * i + k) da 0) (nth (c * k + j) db 0)) mod w.
Proof.
  intros Hw Pr Pc Ra Ca Rb Cb Fa Fb La Lb. unfold m_mul_gen.
  rewrite Ca, Rb, Z.eqb_refl. cbn [negb]. unfold m_new, go_make. rewrite Ra, Cb.
  destruct (Z.ltb_spec (Z.of_nat r * Z.of_nat c) 0); [nia|]. cbn [bind m_data].
  rewrite <- Nat2Z.inj_mul, Nat2Z.id. set (out := repeat 0 (r * c)). rewrite Fa, Fb. cbn [bind].
  assert (E0 : (zlen out =? 0) = false).
  { unfold zlen, out. rewrite repeat_length. rewrite Z.eqb_neq. nia. }
  rewrite E0.
  assert (E1 : (zlen da <? Z.of_nat r * Z.of_nat n) || (zlen db <? Z.of_nat n * Z.of_nat c) = false).
  { unfold zlen. rewrite !orb_false_iff, !Z.ltb_ge. nia. }
  rewrite E1, !Nat2Z.id. eexists. split; [reflexivity|]. split.
  { unfold exact_shape, shape. cbn [m_rows m_cols m_data]. rewrite c_loops_length. unfold out. rewrite repeat_length. conj_split; auto. }
  split. { unfold words. cbn [m_data]. apply c_loops_words. auto. }
  intros i j Hi Hj. unfold elem. cbn [m_cols m_data]. rewrite ?Cb, !Nat2Z.id. apply c_loops_nth; auto.
Qed.

Lemma word32_range body p : bytes body -> 0 <= word32 body p < 2 ^ 32.
Proof.
  intros B. unfold word32. assert (B' : bytes (firstn 4 (skipn (4 * p) body))) by (apply Forall_firstn, Forall_skipn; auto).
  pose proof (be_dec_bound _ B') as X. unfold zlen in X. rewrite firstn_length in X.
  split; [lia|]. eapply Z.lt_le_trans; [apply X|]. change (2 ^ 32) with (256 ^ 4). apply Z.pow_le_mono_r; lia.
Qed.

Lemma word128_range body p : bytes body -> 0 <= word128 body p < 2 ^ 128.
Proof.
  intros B. unfold word128. destruct (p <? _)%nat; [|split; [lia|reflexivity]].
  assert (B' : bytes (firstn 16 (skipn (16 * p) body))) by (apply Forall_firstn, Forall_skipn; auto).
  pose proof (le_dec_bound _ B') as X. unfold zlen in X. rewrite firstn_length in X.
  split; [lia|]. eapply Z.lt_le_trans; [apply X|]. change (2 ^ 128) with (256 ^ 16). apply Z.pow_le_mono_r; lia.
Qed.

(** a product by a binary database whatever the left buffer *)
Lemma binary_product_any k (word : nat -> Z) db L M i j : 0 < k -> exact_shape db L M -> binary db -> (j < M)%nat ->
  (forall p, 0 <= word p < 2 ^ k) ->
  sum_to L (fun q => op_and (2 ^ k) (word (L * i + q)%nat) (nth (M * q + j) (m_data db) 0)) mod 2 ^ k = answer_word (2 ^ k) word db L i j.
Proof.
  intros Hk ((_ & Cd & _) & Ld) BD Hj HW. unfold answer_word. f_equal. apply sum_to_ext. intros q Hq. unfold elem. rewrite Cd, Nat2Z.id.
  apply op_and_binary; auto. apply (proj1 (Forall_forall _ _) BD). apply nth_In. rewrite Ld. nia.
Qed.

Section Server.
Variables (db : matrix) (L M : nat).
Hypotheses (HD : exact_shape db L M) (BD : binary db) (HL : Z.of_nat L < 2 ^ 32) (HM : Z.of_nat M < 2 ^ 32).

Lemma db_sizes : m_rows db = Z.of_nat L /\ m_cols db = Z.of_nat M /\ (0 < L)%nat /\ (0 < M)%nat /\ length (m_data db) = (L * M)%nat.
Proof. destruct HD as ((A & B & _ & C & D) & E). auto. Qed.

Lemma db_buf : buf_raw db = Ok (m_data db).
Proof. apply (buf_raw_ok db L M). apply HD. Qed.

Lemma answer32_ok rows body : 0 < rows < 2 ^ 32 -> bytes body -> 4 * rows * Z.of_nat L <= zlen body ->
  exists m, lwe_answer_bytes32 db (announcing rows (Z.of_nat L) body) = Ok (matrix_to_bytes m) /\ exact_shape m (Z.to_nat rows) M /\ words (2 ^ 32) m /\
    forall i j, (i < Z.to_nat rows)%nat -> (j < M)%nat -> elem m i j = answer_word (2 ^ 32) (word32 body) db L i j.
Proof.
  intros Hr B HB. destruct db_sizes as (Rd & Cd & PL & PM & Ld).
  unfold lwe_answer_bytes32. rewrite parse32 by (unfold is_u32, w32 in *; lia). cbn [bind].
  assert (W : (Z.to_nat rows * L <= length body / 4)%nat).
  { apply Nat.div_le_lower_bound; [lia|]. unfold zlen in HB. nia. }
  assert (NZ : zlen (bytes_to_uint32_slice body) =? 0 = false).
  { apply Z.eqb_neq. unfold zlen. rewrite words_count32. nia. }
  destruct (mul_gen_buf w32 (op_and w32) (buf_words w32) buf_raw (mkM rows (Z.of_nat L) (bytes_to_uint32_slice body)) db (Z.to_nat rows) L M
    (bytes_to_uint32_slice body) (m_data db)) as (m & E & S & W' & N); auto; try (cbn [m_rows m_cols]; lia).
  { reflexivity. }
  { unfold buf_words, buf_raw. rewrite Z.eqb_refl. cbn [m_data]. rewrite NZ. auto. }
  { apply db_buf. }
  { rewrite words_count32. auto. }
  exists m. unfold lwe_answer, m_binary_mul. rewrite E. cbn [bind]. conj_split; auto; try apply S.
  intros i j Hi Hj. rewrite N by auto. rewrite <- (binary_product_any 32 (word32 body) db L M i j); auto; try lia.
  2:{ intros p. apply word32_range. auto. }
  change (2 ^ 32) with w32. f_equal. apply sum_to_ext. intros k Hk. rewrite nth_word32; auto. nia.
Qed.

Lemma answer32_over rows body : 0 < rows < 2 ^ 32 -> 4 <= zlen body < 4 * rows * Z.of_nat L ->
  lwe_answer_bytes32 db (announcing rows (Z.of_nat L) body) = Panic "C out-of-bounds".
Proof.
  intros Hr HB. destruct db_sizes as (Rd & Cd & PL & PM & Ld).
  unfold lwe_answer_bytes32. rewrite parse32 by (unfold is_u32, w32 in *; lia). cbn [bind].
  assert (W : (length body / 4 < Z.to_nat rows * L)%nat).
  { apply Nat.div_lt_upper_bound; [lia|]. unfold zlen in HB. nia. }
  assert (W1 : (1 <= length body / 4)%nat).
  { apply Nat.div_le_lower_bound; [lia|]. unfold zlen in HB. lia. }
  unfold lwe_answer, m_binary_mul, m_mul_gen. cbn [m_rows m_cols]. rewrite Rd, Z.eqb_refl. cbn [negb]. unfold m_new, go_make. rewrite Cd.
  destruct (Z.ltb_spec (rows * Z.of_nat M) 0); [nia|]. cbn [bind]. rewrite db_buf. unfold buf_words, buf_raw. rewrite Z.eqb_refl. cbn [m_data].
  unfold zlen. rewrite words_count32. destruct (Z.eqb_spec (Z.of_nat (length body / 4)) 0); [lia|]. cbn [bind].
  rewrite repeat_length. destruct (Z.eqb_spec (Z.of_nat (Z.to_nat (rows * Z.of_nat M))) 0); [nia|].
  rewrite words_count32. destruct (Z.ltb_spec (Z.of_nat (length body / 4)) (rows * Z.of_nat L)); [|nia]. auto.
Qed.

Lemma answer32_bad q : bytes q -> ((length q < 8)%nat \/
    exists rows cols body, q = announcing rows cols body /\ is_u32 rows /\ is_u32 cols /\ (cols <> Z.of_nat L \/ rows = 0 \/ zlen body < 4)) ->
  exists s, lwe_answer_bytes32 db q = Panic s /\ s <> "C out-of-bounds"%string.
Proof.
  intros B [S|(rows & cols & body & -> & Hr & Hc & H)].
  - unfold lwe_answer_bytes32. pose proof (short32 q S) as P.
    unfold bytes_to_matrix, go_slice, zlen in *. destruct (Z.leb_spec 4 (Z.of_nat (length q))).
    + cbn [andb Z.leb Z.compare bind] in *. destruct (Z.leb_spec 8 (Z.of_nat (length q))); [lia|]. cbn. eexists. split; [reflexivity|discriminate].
    + cbn. eexists. split; [reflexivity|discriminate].
  - destruct db_sizes as (Rd & Cd & PL & PM & Ld). unfold lwe_answer_bytes32. rewrite parse32 by auto. cbn [bind].
    unfold lwe_answer, m_binary_mul, m_mul_gen. cbn [m_rows m_cols]. rewrite Rd. destruct (Z.eqb_spec cols (Z.of_nat L)) as [E|E]; cbn [negb].
    2:{ eexists. split; [reflexivity|discriminate]. }
    destruct H as [H|H]; [congruence|]. unfold m_new, go_make. rewrite Cd. unfold is_u32 in Hr.
    destruct (Z.ltb_spec (rows * Z.of_nat M) 0); [nia|]. cbn [bind]. rewrite db_buf. unfold buf_words, buf_raw. rewrite Z.eqb_refl. cbn [m_data].
    unfold zlen in *. rewrite words_count32. destruct (Z.eqb_spec (Z.of_nat (length body / 4)) 0). { eexists. split; [reflexivity|discriminate]. }
    destruct H as [->|H].
    2:{ rewrite Nat.div_small in * by lia. lia. }
    cbn [bind]. rewrite repeat_length. cbn. eexists. split; [reflexivity|discriminate].
Qed.

(** 128 bits *)
Lemma answer128_ok rows body : 0 < rows < 2 ^ 32 -> bytes body -> zlen body < 16 * (rows * Z.of_nat L + 1) ->
  exists m, lwe_answer_bytes128 db (announcing rows (Z.of_nat L) body) = Ok (matrix128_to_bytes m) /\ exact_shape m (Z.to_nat rows) M /\ words (2 ^ 128) m /\
    forall i j, (i < Z.to_nat rows)%nat -> (j < M)%nat -> elem m i j = answer_word (2 ^ 128) (word128 body) db L i j.
Proof.
  intros Hr B HB. destruct db_sizes as (Rd & Cd & PL & PM & Ld).
  unfold lwe_answer_bytes128. rewrite parse128 by (unfold is_u32, w32 in *; lia). cbn [bind].
  set (data := map le_dec (chunks 16 body)).
  assert (W : (length data <= Z.to_nat rows * L)%nat).
  { unfold data. rewrite map_length, chunks_length by lia. apply Nat.lt_succ_r. apply Nat.div_lt_upper_bound; [lia|]. unfold zlen in HB. nia. }
  assert (EB : buf_words w128 (mkM rows (Z.of_nat L) data) = Ok (data ++ repeat 0 (Z.to_nat rows * L - length data))).
  { unfold buf_words. change (w128 =? w32) with false. cbv iota. unfold buf_copy. cbn [m_rows m_cols m_data]. unfold go_make.
    destruct (Z.ltb_spec (rows * Z.of_nat L) 0); [nia|]. cbn [bind]. unfold zlen. rewrite repeat_length.
    replace (Z.to_nat (rows * Z.of_nat L)) with (Z.to_nat rows * L)%nat by nia.
    destruct (Z.ltb_spec (Z.of_nat (Z.to_nat rows * L)) (Z.of_nat (length data))); [lia|].
    destruct (Z.eqb_spec (Z.of_nat (Z.to_nat rows * L)) 0); [nia|]. f_equal. f_equal.
    clear - W. revert W. generalize (length data). intros n W. replace (Z.to_nat rows * L)%nat with (n + (Z.to_nat rows * L - n))%nat at 1 by lia.
    rewrite repeat_app. rewrite skipn_app_exact by (rewrite repeat_length; auto). auto. }
  destruct (mul_gen_buf w128 (op_and w128) (buf_words w128) buf_raw (mkM rows (Z.of_nat L) data) db (Z.to_nat rows) L M
    (data ++ repeat 0 (Z.to_nat rows * L - length data)) (m_data db)) as (m & E & S & W' & N); auto; try (cbn [m_rows m_cols]; lia).
  { reflexivity. }
  { apply db_buf. }
  { rewrite app_length, repeat_length. lia. }
  exists m. unfold lwe_answer, m_binary_mul. rewrite E. cbn [bind]. conj_split; auto; try apply S.
  intros i j Hi Hj. rewrite N by auto. rewrite <- (binary_product_any 128 (word128 body) db L M i j); auto; try lia.
  2:{ intros p. apply word128_range. auto. }
  change (2 ^ 128) with w128. f_equal. apply sum_to_ext. intros k Hk. f_equal.
  destruct (lt_dec (L * i + k) (length data)) as [G|G].
  - rewrite app_nth1 by auto. apply nth_word128.
  - rewrite app_nth2 by lia. rewrite nth_repeat. rewrite <- nth_word128. fold data. rewrite nth_overflow by lia. auto.
Qed.

Lemma answer128_bad q : bytes q -> ((length q < 8)%nat \/
    exists rows cols body, q = announcing rows cols body /\ is_u32 rows /\ is_u32 cols /\ (cols <> Z.of_nat L \/ rows = 0 \/ 16 * (rows * Z.of_nat L + 1) <= zlen body)) ->
  exists s, lwe_answer_bytes128 db q = Panic s /\ s <> "C out-of-bounds"%string.
Proof.
  intros B [S|(rows & cols & body & -> & Hr & Hc & H)].
  - unfold lwe_answer_bytes128. destruct (short128 q S) as (e & -> & NE). cbn [bind]. eauto.
  - destruct db_sizes as (Rd & Cd & PL & PM & Ld). unfold lwe_answer_bytes128. rewrite parse128 by auto. cbn [bind].
    unfold lwe_answer, m_binary_mul, m_mul_gen. cbn [m_rows m_cols]. rewrite Rd. destruct (Z.eqb_spec cols (Z.of_nat L)) as [E|E]; cbn [negb].
    2:{ eexists. split; [reflexivity|discriminate]. }
    destruct H as [H|H]; [congruence|]. unfold m_new, go_make. rewrite Cd. unfold is_u32 in Hr.
    destruct (Z.ltb_spec (rows * Z.of_nat M) 0); [nia|]. cbn [bind]. unfold buf_words. change (w128 =? w32) with false. cbv iota.
    unfold buf_copy. cbn [m_rows m_cols m_data]. unfold go_make. rewrite E.
    destruct (Z.ltb_spec (rows * Z.of_nat L) 0); [nia|]. cbn [bind]. unfold zlen in *. rewrite repeat_length, map_length, chunks_length by lia.
    destruct (Z.ltb_spec (Z.of_nat (Z.to_nat (rows * Z.of_nat L))) (Z.of_nat (length body / 16))). { eexists. split; [reflexivity|discriminate]. }
    destruct H as [->|H]. { cbn. eexists. split; [reflexivity|discriminate]. }
    exfalso. assert (X : (Z.to_nat (rows * Z.of_nat L) + 1 <= length body / 16)%nat) by (apply Nat.div_le_lower_bound; lia). lia.
Qed.
End Server.
