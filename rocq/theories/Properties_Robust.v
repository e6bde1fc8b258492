(** Properties of the C kernels' integers and of malformed messages in the single-server schemes (C101-C104), with additions to C43, C44 and C50. *)
From Coq Require Import String ZArith List Bool Lia Arith.
From Verif Require Import GoBase BaseFacts EncodingModel MatrixModel LWEModel LWESpec MatrixProofs LWEProofs4 MerkleModel DHModel DHSpec
  ToyInstances ToyGroup Properties_LWE Properties_DH RobustModel RobustSpec RobustProofs RobustProofs2 RobustProofs3 RobustProofs4 RobustProofs5 RobustProofs6.
Import ListNotations.
Open Scope Z_scope.
Open Scope go_scope.

(** *** C101: the integers of the C kernels *)
(** The loops of C, with their 32-bit signed indices, stay within defined behaviour and compute the product when the three element counts are at most 2^31. *)
Theorem C101_products : forall k a b r n c, k = 32 \/ k = 128 -> exact_shape a r n -> exact_shape b n c -> int_dimensions r n c -> indexable r n c ->
  exists m, m_mul (2 ^ k) a b = Ok m /\
    c_kernel (2 ^ k) (op_mul (2 ^ k)) (Z.of_nat r) (Z.of_nat n) (Z.of_nat c) (m_data a) (m_data b) (repeat 0 (r * c)) = Some (m_data m) /\
    length (m_data m) = (r * c)%nat /\ forall i j, (i < r)%nat -> (j < c)%nat -> nth (c * i + j) (m_data m) 0 = product_mod (2 ^ k) n a b i j.
Proof. exact kernel_product. Qed.
Theorem C101_binary_products : forall k a b r n c, k = 32 \/ k = 128 -> exact_shape a r n -> exact_shape b n c -> words (2 ^ k) a -> binary b -> int_dimensions r n c -> indexable r n c ->
  exists m, m_binary_mul (2 ^ k) a b = Ok m /\
    c_kernel (2 ^ k) (op_and (2 ^ k)) (Z.of_nat r) (Z.of_nat n) (Z.of_nat c) (m_data a) (m_data b) (repeat 0 (r * c)) = Some (m_data m) /\
    length (m_data m) = (r * c)%nat /\ forall i j, (i < r)%nat -> (j < c)%nat -> nth (c * i + j) (m_data m) 0 = product_mod (2 ^ k) n a b i j.
Proof. exact kernel_binary_product. Qed.
(** Beyond that the behaviour is undefined, whatever the matrices hold. *)
Theorem C101_undefined_refuted : forall w op r n c a b out, int_dimensions r n c -> ~ indexable r n c ->
  c_kernel w op (Z.of_nat r) (Z.of_nat n) (Z.of_nat c) a b out = None.
Proof. exact kernel_none. Qed.
(** A square database works with secrets of n <= 46340 words, in all the products of a retrieval (digest, query, answer, secret times digest),
    exactly when its side is at most 46340. *)
Theorem C101_square : forall n s, (0 < n)%nat -> Z.of_nat n <= 46340 ->
  (indexable n s s /\ indexable 1 n s /\ indexable 1 s s) <-> Z.of_nat s <= 46340.
Proof.
  intros n s N0 N. unfold indexable. change (2 ^ 31) with 2147483648. split.
  - intros ((_ & H & _) & _). assert (~ 46341 <= Z.of_nat s); [|lia]. intros X. nia.
  - intros S. assert (Z.of_nat s * Z.of_nat s <= 46340 * 46340) by nia. assert (Z.of_nat n * Z.of_nat s <= 46340 * 46340) by nia. lia.
Qed.
(** The databases of the benchmark: those of 1 KiB and 1 MiB are fine, that of 1 GiB is not. *)
Theorem C101_benchmarks : forall len n rows cols, len = 2 ^ 13 \/ len = 2 ^ 23 -> n = 1100 \/ n = 4800 -> calculate_num_rows_and_columns len true = (Z.of_nat rows, Z.of_nat cols) ->
  indexable (Z.to_nat n) rows cols /\ indexable 1 (Z.to_nat n) rows /\ indexable 1 rows cols /\ indexable 1 (Z.to_nat n) cols.
Proof.
  intros len n rows cols HL HN E.
  assert (X : rows = cols /\ Z.of_nat cols <= 46340).
  { destruct HL as [-> | ->].
    - assert (X : calculate_num_rows_and_columns (2 ^ 13) true = (91, 91)) by (vm_compute; reflexivity). rewrite X in E. injection E. lia.
    - assert (X : calculate_num_rows_and_columns (2 ^ 23) true = (2897, 2897)) by (vm_compute; reflexivity). rewrite X in E. injection E. lia. }
  destruct X as (-> & X). destruct (proj2 (C101_square (Z.to_nat n) cols ltac:(lia) ltac:(lia)) X) as (A & B & C). auto.
Qed.
Theorem C101_benchmark_refuted : forall w op n rows cols a b out, n = 1100 \/ n = 4800 -> calculate_num_rows_and_columns (2 ^ 33) true = (Z.of_nat rows, Z.of_nat cols) ->
  c_kernel w op n (Z.of_nat rows) (Z.of_nat cols) a b out = None /\ c_kernel w op 1 (Z.of_nat rows) (Z.of_nat cols) a b out = None.
Proof.
  intros w op n rows cols a b out HN E.
  assert (X : calculate_num_rows_and_columns (2 ^ 33) true = (92682, 92682)) by (vm_compute; reflexivity). rewrite X in E. injection E as Ec Er. clear X.
  assert (NI : forall r, ~ indexable r rows cols). { intros r (_ & H & _). rewrite <- Ec, <- Er in H. revert H. change (2 ^ 31) with 2147483648. lia. }
  split.
  - rewrite <- (Z2Nat.id n) by lia. apply kernel_none; auto. unfold int_dimensions. change (2 ^ 31) with 2147483648. rewrite <- Ec, <- Er. lia.
  - change 1 with (Z.of_nat 1). apply kernel_none; auto. unfold int_dimensions. change (2 ^ 31) with 2147483648. rewrite <- Ec, <- Er. lia.
Qed.
Print Assumptions C101_products.
Print Assumptions C101_binary_products.
Print Assumptions C101_undefined_refuted.
Print Assumptions C101_square.
Print Assumptions C101_benchmarks.
Print Assumptions C101_benchmark_refuted.

Example C101_example : exact_shape ex_a 2 3 /\ exact_shape ex_b 3 2 /\ words (2 ^ 32) ex_a /\ binary ex_b /\ int_dimensions 2 3 2 /\ indexable 2 3 2 /\
  c_kernel (2 ^ 32) (op_and (2 ^ 32)) 2 3 2 (m_data ex_a) (m_data ex_b) (repeat 0 4) = Some [3; 1; 9; 11] /\
  int_dimensions 1 (Z.to_nat 46341) (Z.to_nat 46341) /\ ~ indexable 1 (Z.to_nat 46341) (Z.to_nat 46341) /\
  calculate_num_rows_and_columns (2 ^ 23) true = (Z.of_nat (Z.to_nat 2897), Z.of_nat (Z.to_nat 2897)) /\
  calculate_num_rows_and_columns (2 ^ 33) true = (Z.of_nat (Z.to_nat 92682), Z.of_nat (Z.to_nat 92682)).
Proof.
  pose proof C40_example as (A & B & C & D & _). unfold int_dimensions, indexable. change (2 ^ 31) with 2147483648.
  split; [exact A|]. split; [exact B|]. split; [exact C|]. split; [exact D|]. split; [lia|]. split; [lia|]. split; [vm_compute; reflexivity|].
  split; [lia|]. split; [lia|]. split; vm_compute; reflexivity.
Qed.

(** *** C102: the lattice servers on arbitrary queries *)
(** Every message of at least eight bytes announces some matrix, so the cases below cover all messages. *)
Theorem C102_headers : forall q, bytes q -> 8 <= zlen q -> exists rows cols body, q = announcing rows cols body /\ is_u32 rows /\ is_u32 cols /\ bytes body.
Proof. intros q B H. apply announces; auto. unfold zlen in H. lia. Qed.
Theorem C102_server32_partial : forall db L M q, exact_shape db L M -> binary db -> Z.of_nat L < 2 ^ 32 -> Z.of_nat M < 2 ^ 32 -> bytes q ->
  (zlen q < 8 -> exists s, lwe_answer_bytes32 db q = Panic s /\ s <> "C out-of-bounds"%string) /\
  forall rows cols body, is_u32 rows -> is_u32 cols -> bytes body -> q = announcing rows cols body ->
  (cols = Z.of_nat L /\ 0 < rows /\ 4 * rows * Z.of_nat L <= zlen body ->
     exists m, lwe_answer_bytes32 db q = Ok (matrix_to_bytes m) /\ exact_shape m (Z.to_nat rows) M /\ words (2 ^ 32) m /\
       forall i j, (i < Z.to_nat rows)%nat -> (j < M)%nat -> elem m i j = answer_word (2 ^ 32) (word32 body) db L i j) /\
  (cols = Z.of_nat L /\ 0 < rows /\ 4 <= zlen body < 4 * rows * Z.of_nat L -> lwe_answer_bytes32 db q = Panic "C out-of-bounds") /\
  (cols <> Z.of_nat L \/ rows = 0 \/ zlen body < 4 -> exists s, lwe_answer_bytes32 db q = Panic s /\ s <> "C out-of-bounds"%string).
Proof.
  intros db L M q HD BD HL HM B. split.
  { intros H. apply (answer32_bad db L M); auto. left. unfold zlen in H. lia. }
  intros rows cols body Hr Hc BB ->. unfold is_u32, w32 in Hr. conj_split.
  - intros (-> & H0 & H). apply answer32_ok; auto. change (2 ^ 32) with 4294967296. lia.
  - intros (-> & H0 & H). apply (answer32_over db L M); auto. change (2 ^ 32) with 4294967296. lia.
  - intros H. apply (answer32_bad db L M); auto. right. exists rows, cols, body. auto.
Qed.
Theorem C102_server128_partial : forall db L M q, exact_shape db L M -> binary db -> Z.of_nat L < 2 ^ 32 -> Z.of_nat M < 2 ^ 32 -> bytes q ->
  (zlen q < 8 -> exists s, lwe_answer_bytes128 db q = Panic s /\ s <> "C out-of-bounds"%string) /\
  forall rows cols body, is_u32 rows -> is_u32 cols -> bytes body -> q = announcing rows cols body ->
  (cols = Z.of_nat L /\ 0 < rows /\ zlen body < 16 * (rows * Z.of_nat L + 1) ->
     exists m, lwe_answer_bytes128 db q = Ok (matrix128_to_bytes m) /\ exact_shape m (Z.to_nat rows) M /\ words (2 ^ 128) m /\
       forall i j, (i < Z.to_nat rows)%nat -> (j < M)%nat -> elem m i j = answer_word (2 ^ 128) (word128 body) db L i j) /\
  (cols <> Z.of_nat L \/ rows = 0 \/ 16 * (rows * Z.of_nat L + 1) <= zlen body -> exists s, lwe_answer_bytes128 db q = Panic s /\ s <> "C out-of-bounds"%string).
Proof.
  intros db L M q HD BD HL HM B. split.
  { intros H. apply (answer128_bad db L M); auto. left. unfold zlen in H. lia. }
  intros rows cols body Hr Hc BB ->. unfold is_u32, w32 in Hr. conj_split.
  - intros (-> & H0 & H). apply answer128_ok; auto. change (2 ^ 32) with 4294967296. lia.
  - intros H. apply (answer128_bad db L M); auto. right. exists rows, cols, body. auto.
Qed.
(** With enough words the memory behind the query plays no role ... *)
Theorem C102_memory_partial : forall db L M mem q rows body, exact_shape db L M -> Z.of_nat L < 2 ^ 32 ->
  q = announcing rows (Z.of_nat L) body -> is_u32 rows -> rows * Z.of_nat L <= zlen body / 4 -> lwe_answer_mem mem db q = lwe_answer_bytes32 db q.
Proof. intros db L M mem q rows body HD HL E Hr HB. eapply mem_unused; eauto. Qed.
(** ... but a twelve-byte query announcing more rows reads whatever word follows: two memories that differ in one word give answers that differ by the
    difference of that word. *)
Theorem C102_memory_refuted : forall db L M p k j, exact_shape db L M -> binary db -> Z.of_nat L < 2 ^ 32 ->
  (k < L)%nat -> (j < M)%nat -> elem db k j = 1 -> ((p + 1) mod L)%nat = k -> Z.of_nat ((p + 1) / L + 1) < 2 ^ 32 ->
  exists q, length q = 12%nat /\ bytes q /\ forall mem mem', length mem' = length mem -> Z.of_nat ((p + 1) / L + 1) * Z.of_nat L <= zlen mem + 1 ->
    Forall (fun x => 0 <= x < 2 ^ 32) mem -> Forall (fun x => 0 <= x < 2 ^ 32) mem' ->
    (forall x, x <> p -> nth x mem' 0 = nth x mem 0) ->
    exists m m', lwe_answer_mem mem db q = Ok (matrix_to_bytes m) /\ lwe_answer_mem mem' db q = Ok (matrix_to_bytes m') /\
      exact_shape m ((p + 1) / L + 1) M /\ exact_shape m' ((p + 1) / L + 1) M /\ words (2 ^ 32) m /\ words (2 ^ 32) m' /\
      elem m' ((p + 1) / L) j = (elem m ((p + 1) / L) j + (nth p mem' 0 - nth p mem 0)) mod 2 ^ 32.
Proof. intros db L M p k j HD BD HL Hk Hj D EK HR. exact (disclosure db L M HD BD HL p k j Hk Hj D EK HR). Qed.
(** The amplified server answers exactly the messages made of pieces that the server of one repetition answers, with answers of equal length. *)
Theorem C102_amplified_partial : forall db L M q a, exact_shape db L M -> bytes q -> zlen q < 2 ^ 32 ->
  amplify_answer_bytes db q = Ok a <->
  exists pieces answers, in_pieces q pieces /\ pieces <> [] /\ Forall2 (fun p r => lwe_answer_bytes32 db p = Ok r) pieces answers /\
    Forall (fun r => length r = length (hd [] answers)) answers /\ a = be_enc 4 (u32 (zlen (hd [] answers))) ++ concat answers.
Proof. exact amplify_iff. Qed.
(** None of the three servers ever reports an error: what is not answered crashes. *)
Theorem C102_no_error_refuted : forall db q,
  ((exists a, lwe_answer_bytes32 db q = Ok a) \/ is_panic (lwe_answer_bytes32 db q) = true) /\
  ((exists a, lwe_answer_bytes128 db q = Ok a) \/ is_panic (lwe_answer_bytes128 db q) = true) /\
  ((exists a, amplify_answer_bytes db q = Ok a) \/ is_panic (amplify_answer_bytes db q) = true) /\
  is_panic (lwe_answer_bytes32 db []) = true /\ is_panic (lwe_answer_bytes128 db []) = true /\ is_panic (amplify_answer_bytes db []) = true.
Proof.
  intros db q. pose proof (settled32 db q) as A. pose proof (settled128 db q) as B. pose proof (settled_amplify db q) as C. conj_split; try reflexivity.
  - destruct (lwe_answer_bytes32 db q); try destruct A; eauto.
  - destruct (lwe_answer_bytes128 db q); try destruct B; eauto.
  - destruct (amplify_answer_bytes db q); try destruct C; eauto.
Qed.
Print Assumptions C102_headers.
Print Assumptions C102_server32_partial.
Print Assumptions C102_server128_partial.
Print Assumptions C102_memory_partial.
Print Assumptions C102_memory_refuted.
Print Assumptions C102_amplified_partial.
Print Assumptions C102_no_error_refuted.

Example C102_example :
  let q := announcing 1 2 [0; 0; 0; 5; 0; 0; 0; 7; 9] in
  exact_shape ex_db 2 3 /\ binary ex_db /\ bytes q /\
  lwe_answer_bytes32 ex_db q = Ok (matrix_to_bytes (mkM 1 3 [5; 7; 12])) /\
  lwe_answer_bytes32 ex_db (announcing 2 2 [0; 0; 0; 5; 0; 0; 0; 7; 9]) = Panic "C out-of-bounds" /\
  lwe_answer_bytes128 ex_db (announcing 2 2 (5 :: repeat 0 16)) = Ok (matrix128_to_bytes (mkM 2 3 [5; 0; 5; 0; 0; 0])) /\
  ((5 + 1) mod 2)%nat = 0%nat /\ elem ex_db 0 2 = 1 /\
  lwe_answer_mem [1; 2; 3; 4; 5; 600; 7] ex_db (announcing 4 2 [0; 0; 0; 0]) = Ok (matrix_to_bytes (mkM 4 3 [0; 1; 1; 2; 3; 5; 4; 5; 9; 600; 7; 607])) /\
  in_pieces (be_enc 4 17 ++ q ++ q ++ [1]) [q; q] /\
  amplify_answer_bytes ex_db (be_enc 4 17 ++ q ++ q ++ [1]) =
    Ok (be_enc 4 20 ++ matrix_to_bytes (mkM 1 3 [5; 7; 12]) ++ matrix_to_bytes (mkM 1 3 [5; 7; 12])).
Proof.
  pose proof ex_deployment as (S & B & _). cbv zeta. split; [exact S|]. split; [exact B|]. split; [apply ex_bytes; reflexivity|].
  split; [vm_compute; reflexivity|]. split; [vm_compute; reflexivity|]. split; [vm_compute; reflexivity|]. split; [reflexivity|]. split; [reflexivity|].
  split; [vm_compute; reflexivity|]. split; [|vm_compute; reflexivity].
  exists 17%nat, [1]. split; [cbn; lia|]. split; [repeat constructor|]. split; [cbn; lia|]. reflexivity.
Qed.

(** *** C103: the clients of the single-server schemes on arbitrary answers *)
(** A well-sized answer is accepted or rejected, never a crash; no other answer is accepted. *)
Theorem C103_lattice32_partial : forall p abytes dmem db c rows cols n index a, deployment p db rows cols n -> drawn 4 abytes c rows n ->
  0 <= index < Z.of_nat rows * Z.of_nat cols -> bytes a ->
  let r := lwe_session32 p abytes dmem db c (fun _ => Ok a) index in
  (zlen a < 8 -> is_panic r = true) /\
  forall rs cs body, is_u32 rs -> is_u32 cs -> a = announcing rs cs body ->
  (rs <> 1 \/ cs <> Z.of_nat cols \/ Z.of_nat cols < zlen body / 4 -> is_panic r = true) /\
  (rs = 1 -> cs = Z.of_nat cols -> zlen body / 4 < Z.of_nat cols -> is_panic r = true \/ r = Err "REJECT") /\
  (rs = 1 -> cs = Z.of_nat cols -> zlen body / 4 = Z.of_nat cols -> (exists b, (b = 0 \/ b = 1) /\ r = Ok b) \/ r = Err "REJECT").
Proof. intros p abytes dmem db c rows cols n index a DE DR HI B. exact (session32_any p abytes dmem db c rows cols n index DE DR HI a B). Qed.
Theorem C103_lattice128_partial : forall p abytes db c rows cols n index a, deployment p db rows cols n -> drawn 16 abytes c rows n ->
  0 <= index < Z.of_nat rows * Z.of_nat cols -> bytes a ->
  let r := lwe_session128 p abytes db c (fun _ => Ok a) index in
  (zlen a < 8 -> is_panic r = true) /\
  forall rs cs body, is_u32 rs -> is_u32 cs -> a = announcing rs cs body ->
  (rs <> 1 \/ cs <> Z.of_nat cols \/ Z.of_nat cols < zlen body / 16 -> is_panic r = true) /\
  (rs = 1 -> cs = Z.of_nat cols -> zlen body / 16 < Z.of_nat cols -> is_panic r = true \/ r = Err "REJECT") /\
  (rs = 1 -> cs = Z.of_nat cols -> zlen body / 16 = Z.of_nat cols -> (exists b, (b = 0 \/ b = 1) /\ r = Ok b) \/ r = Err "REJECT").
Proof. intros p abytes db c rows cols n index a DE DR HI B. exact (session128_any p abytes db c rows cols n index DE DR HI a B). Qed.
(** The amplified client accepts exactly the answers of which it accepts, for every repetition, the piece of that repetition, with the majority bit first. *)
Theorem C103_amplified_partial : forall p sts a b, bytes a -> zlen a < 2 ^ 32 ->
  amplify_reconstruct_bytes p sts a = Ok b <->
  exists pieces outs, in_pieces a pieces /\ (forall x, In x pieces -> 8 <= zlen x) /\ (length sts <= length pieces)%nat /\
    Forall2 (fun sx o => lwe_reconstruct_bytes32 p (fst sx) (snd sx) = Ok o) (combine sts pieces) outs /\
    (exists rest, outs = b :: rest) /\ (length outs < 2 * occurrences b outs)%nat.
Proof. exact amplified_client_iff. Qed.
(** The Diffie-Hellman client accepts only answers with an element for every row, and ignores further elements. *)
Theorem C103_dh_partial : forall g info st a b, group_ok g -> 0 <= e_rows info -> dh_reconstruct g info st a = Ok b ->
  (b = 0 \/ b = 1) /\ exists es, decodes g a es /\ e_rows info <= zlen es.
Proof. exact dh_client_needs. Qed.
Theorem C103_dh_extra : forall g info st a es extra es', group_ok g -> decodes g a es -> e_rows info <= zlen es -> decodes g extra es' ->
  dh_reconstruct g info st (a ++ extra) = dh_reconstruct g info st a.
Proof. exact dh_client_extra. Qed.
(** Answers that crash a client. *)
Theorem C103_crash_refuted : forall p abytes dmem db c rows cols n index g info st, deployment p db rows cols n -> drawn 4 abytes c rows n ->
  0 <= index < Z.of_nat rows * Z.of_nat cols -> group_ok g ->
  is_panic (lwe_session32 p abytes dmem db c (fun _ => Ok []) index) = true /\
  is_panic (lwe_session32 p abytes dmem db c (fun _ => Ok (announcing 2 (Z.of_nat cols) [])) index) = true /\
  (1 < g_size g -> is_panic (dh_reconstruct g info st [0]) = true).
Proof.
  intros p abytes dmem db c rows cols n index g info st DE DR HI G. conj_split.
  - apply (session32_any p abytes dmem db c rows cols n index DE DR HI []); [constructor|]. reflexivity.
  - set (a := announcing 2 (Z.of_nat cols) []). assert (B : bytes a). { unfold a, announcing. repeat (apply bytes_app; [apply be_enc_bytes|]). constructor. }
    destruct (session32_any p abytes dmem db c rows cols n index DE DR HI a B) as (_ & X). pose proof DE as (_ & _ & _ & _ & _ & _ & _ & RM).
    destruct (X 2 (Z.of_nat cols) [] ltac:(unfold is_u32, w32; lia) ltac:(unfold is_u32, w32; lia) eq_refl) as (Y & _). apply Y. left. lia.
  - intros S. unfold dh_reconstruct. destruct (unmarshal_iff g (size_pos g G) [0]) as (_ & _ & U).
    assert (P : is_panic (unmarshal_group_elements g [0]) = true).
    { apply U.
      - intros es (ps & E & F). destruct F as [|q e ps es (L & _) F]; [discriminate|]. apply (f_equal zlen) in E. cbn [concat] in E. rewrite zlen_app in E.
        pose proof (zlen_nonneg (concat ps)). change (zlen [0]) with 1 in E. lia.
      - intros (good & es & bad & rest & E & _ & L & _). apply (f_equal zlen) in E. rewrite !zlen_app in E. pose proof (zlen_nonneg good). pose proof (zlen_nonneg rest).
        change (zlen [0]) with 1 in E. lia. }
    destruct (unmarshal_group_elements g [0]); try discriminate P. reflexivity.
Qed.
Print Assumptions C103_lattice32_partial.
Print Assumptions C103_lattice128_partial.
Print Assumptions C103_amplified_partial.
Print Assumptions C103_dh_partial.
Print Assumptions C103_dh_extra.
Print Assumptions C103_crash_refuted.

Example C103_example : deployment ex_p ex_db 2 3 2 /\ drawn 4 ex_abytes (ex_coins [0; 1; 0; 0]) 2 2 /\
  lwe_session32 ex_p ex_abytes (fun _ => 3) ex_db (ex_coins [0; 1; 0; 0]) (fun _ => Ok (announcing 1 3 (repeat 0 12))) 0 = Err "REJECT" /\
  is_panic (lwe_session32 ex_p ex_abytes (fun _ => 3) ex_db (ex_coins [0; 1; 0; 0]) (fun _ => Ok (announcing 1 3 (repeat 0 16))) 0) = true /\
  lwe_session32 ex_p ex_abytes (fun _ => 3) ex_db (ex_coins [0; 1; 0; 0]) (fun q => a <- lwe_answer_bytes32 ex_db q ;; Ok (a ++ [7; 8; 9])) 0 = Ok 1 /\
  decodes (toy_group true) [2; 3; 2; 4] [of11 3; of11 4] /\ decodes (toy_group true) [2; 6] [of11 6].
Proof.
  split; [exact ex_deployment|]. split; [apply ex_drawn; [apply ex_bytes|]; reflexivity|].
  split; [vm_compute; reflexivity|]. split; [vm_compute; reflexivity|]. split; [vm_compute; reflexivity|]. split.
  - exists [[2; 3]; [2; 4]]. split; [reflexivity|]. repeat (constructor; [split; reflexivity|]). constructor.
  - exists [[2; 6]]. split; [reflexivity|]. repeat (constructor; [split; reflexivity|]). constructor.
Qed.

(** *** C104: the Diffie-Hellman server on arbitrary queries *)
(** It answers exactly the sequences of encodings that reach every column holding a 1; it reports an error exactly when it meets an undecodable element;
    everything else crashes it. *)
Theorem C104_server_partial : forall g db rows cols q, group_ok g -> bit_table db rows cols ->
  (forall a, dh_answer g db q = Ok a <-> exists es, decodes g q es /\ ones_below db rows cols (length es) /\
     a = concat (map (fun i => g_enc g (row_sum g (e_entries db) cols (fun j => nth j es (g_id g)) i)) (seq 0 rows))) /\
  (forall e, dh_answer g db q = Err e <-> e = "unmarshal"%string /\ undecodable g q) /\
  (~ undecodable g q -> (forall es, decodes g q es -> ~ ones_below db rows cols (length es)) -> is_panic (dh_answer g db q) = true).
Proof. intros g db rows cols q G T. exact (dh_answer_iff g db rows cols G T q). Qed.
(** When the received slice has spare capacity, a last element that is cut short is completed with the bytes found there. *)
Theorem C104_capacity : forall g db q spare, group_ok g ->
  dh_answer_cap g db q spare = dh_answer g db (if missing_bytes g q <=? zlen spare then q ++ firstn (Z.to_nat (missing_bytes g q)) spare else q).
Proof. intros g db q spare G. exact (dh_answer_cap_value g db G q spare). Qed.
(** The empty query crashes the server of any database that holds a 1. *)
Theorem C104_crash_refuted : forall g db rows cols i j, group_ok g -> bit_table db rows cols -> (i < rows)%nat -> (j < cols)%nat ->
  DHSpec.bit_at (e_entries db) cols i j = 1 -> is_panic (dh_answer g db []) = true.
Proof.
  intros g db rows cols i j G T Hi Hj B. apply (dh_answer_iff g db rows cols G T []).
  - intros (good & es & bad & rest & E & _ & L & _). apply (f_equal zlen) in E. rewrite !zlen_app in E. pose proof (zlen_nonneg good). pose proof (zlen_nonneg rest).
    pose proof (size_pos g G). change (zlen []) with 0 in E. lia.
  - intros es (ps & E & F) O. destruct F as [|q e ps es (L & _) F].
    + specialize (O i j Hi Hj B). cbn in O. lia.
    + apply (f_equal zlen) in E. cbn [concat] in E. rewrite zlen_app in E. pose proof (zlen_nonneg (concat ps)). pose proof (size_pos g G). change (zlen []) with 0 in E. lia.
Qed.
Print Assumptions C104_server_partial.
Print Assumptions C104_capacity.
Print Assumptions C104_crash_refuted.

Example C104_example :
  let g := toy_group true in let db := toy_table true bits4 2 2 in
  group_ok g /\ bit_table db 2 2 /\ DHSpec.bit_at (e_entries db) 2 1 1 = 1 /\
  dh_answer g db [2; 3; 2; 4; 2; 9] = Ok [2; 3; 2; 7] /\ dh_answer g db [2; 3; 7; 4] = Err "unmarshal" /\
  is_panic (dh_answer g db [2; 3]) = true /\ is_panic (dh_answer g db [2; 3; 2]) = true /\
  dh_answer_cap g db [2; 3; 2] [5; 6] = Ok [2; 3; 2; 8].
Proof.
  cbv zeta. split; [apply toy_group_ok|]. split; [unfold bit_table; cbn; lia|]. repeat split.
Qed.

(** *** additions to C43, C44 and C50 *)
(** Whatever bytes a server sends, a bit that the client accepts is also what it would accept from a server that adds some vector to the honest
    answer, so the bounds of C43 and C44 on such servers cover all servers. *)
Theorem C43_any_server : forall p abytes dmem db c rows cols n index server b, deployment p db rows cols n -> drawn 4 abytes c rows n ->
  0 <= index < Z.of_nat rows * Z.of_nat cols -> (forall q x, server q = Ok x -> bytes x) -> lwe_session32 p abytes dmem db c server index = Ok b ->
  exists delta, length delta = cols /\ lwe_session32 p abytes dmem db c (deviating32 db delta) index = Ok b.
Proof. intros p abytes dmem db c rows cols n index server b DE DR HI. exact (session32_deviates p abytes dmem db c rows cols n index DE DR HI server b). Qed.
Theorem C44_any_server : forall p abytes db c rows cols n index server b, deployment p db rows cols n -> drawn 16 abytes c rows n ->
  0 <= index < Z.of_nat rows * Z.of_nat cols -> (forall q x, server q = Ok x -> bytes x) -> lwe_session128 p abytes db c server index = Ok b ->
  exists delta, length delta = cols /\ lwe_session128 p abytes db c (deviating128 db delta) index = Ok b.
Proof. intros p abytes db c rows cols n index server b DE DR HI. exact (session128_deviates p abytes db c rows cols n index DE DR HI server b). Qed.
(** A row of zeros defeats the client whatever lies behind the digests in memory, if no encoding starts with the encoding of the identity. *)
Theorem C50_zero_row_spare_refuted : forall g H db spare r t index server b, group_ok g -> short_identity g -> table_ok g H db ->
  (forall s, s <> [] -> g_dec g (g_enc g (g_id g) ++ s) = None) ->
  (exists i, (i < Z.to_nat (e_rows db))%nat /\ forall j, (j < Z.to_nat (e_cols db))%nat -> DHSpec.bit_at (e_entries db) (Z.to_nat (e_cols db)) i j = 0) ->
  dh_session_spare g H db spare server r t index <> Ok b.
Proof. exact zero_row_spare. Qed.
Print Assumptions C43_any_server.
Print Assumptions C44_any_server.
Print Assumptions C50_zero_row_spare_refuted.

Example C43_any_server_example : 
  let server q := a <- lwe_answer_bytes32 ex_db q ;; Ok (a ++ [7; 8; 9]) in
  deployment ex_p ex_db 2 3 2 /\ drawn 4 ex_abytes (ex_coins [0; 1; 0; 0]) 2 2 /\ (forall q x, server q = Ok x -> bytes x) /\
  lwe_session32 ex_p ex_abytes (fun _ => 3) ex_db (ex_coins [0; 1; 0; 0]) server 0 = Ok 1.
Proof.
  cbv zeta. split; [exact ex_deployment|]. split; [apply ex_drawn; [apply ex_bytes|]; reflexivity|]. split; [|vm_compute; reflexivity].
  intros q x E. apply bind_ok in E as (a & Ea & E). injection E as <-. apply bytes_app; [|apply ex_bytes; reflexivity].
  unfold lwe_answer_bytes32 in Ea. apply bind_ok in Ea as (m & _ & Ea). apply bind_ok in Ea as (y & _ & Ea). injection Ea as <-.
  unfold matrix_to_bytes. repeat (apply bytes_app; [apply be_enc_bytes|]). unfold uint32_slice_to_bytes.
  apply Forall_flat_map, Forall_forall. intros z _. apply be_enc_bytes.
Qed.
Example C50_zero_row_spare_example :
  let g := toy_group true in let db := toy_table true [1; 0; 0; 0] 2 2 in
  group_ok g /\ short_identity g /\ table_ok g toy_hash db /\ (forall s, s <> [] -> g_dec g (g_enc g (g_id g) ++ s) = None) /\
  (forall j, (j < 2)%nat -> DHSpec.bit_at (e_entries db) 2 1 j = 0) /\
  is_panic (dh_session_spare g toy_hash db [0] (dh_answer g db) 3 4 0) = true /\
  dh_session_spare g toy_hash db [0] (fun q => a <- dh_answer g db q ;; Ok (a ++ [0])) 3 4 0 = Err "unmarshal".
Proof.
  cbv zeta. split; [apply toy_group_ok|]. split; [exact toy_group_short|].
  split; [apply toy_table_ok; [lia|reflexivity|repeat (constructor; [auto|]); constructor]|].
  split; [intros [|x [|y s]] H; [congruence|reflexivity|reflexivity]|].
  split; [intros [|[|j]] H; [reflexivity|reflexivity|lia]|]. split; vm_compute; reflexivity.
Qed.
