(** Proofs about the memory behind a query, the amplified server, and the lattice clients on arbitrary answers. *)
From Coq Require Import String ZArith List Bool Lia Arith.
From Verif Require Import GoBase BaseFacts EncodingModel EncodingProofs MatrixModel LWEModel LWESpec MatrixProofs LWEProofs LWEProofs4 DHModel RobustModel RobustSpec RobustProofs RobustProofs2.
Import ListNotations.
Open Scope Z_scope.
Open Scope go_scope.

(** ** memory *)
Section Memory.
Variables (db : matrix) (L M : nat).
Hypotheses (HD : exact_shape db L M) (BD : binary db) (HL : Z.of_nat L < 2 ^ 32) (HM : Z.of_nat M < 2 ^ 32).

Lemma mem_answer rows body mem : 0 < rows < 2 ^ 32 -> bytes body -> 4 <= zlen body -> Forall (fun x => 0 <= x < 2 ^ 32) mem ->
  rows * Z.of_nat L - zlen body / 4 <= zlen mem ->
  exists m, lwe_answer_mem mem db (announcing rows (Z.of_nat L) body) = Ok (matrix_to_bytes m) /\ exact_shape m (Z.to_nat rows) M /\ words (2 ^ 32) m /\
    forall i j, (i < Z.to_nat rows)%nat -> (j < M)%nat -> elem m i j = answer_word (2 ^ 32) (memory_word body mem) db L i j.
Proof.
  intros Hr B HB WM HS. destruct (db_sizes db L M HD) as (Rd & Cd & PL & PM & Ld).
  unfold lwe_answer_mem. rewrite parse32 by (unfold is_u32, w32 in *; lia). cbn [bind]. unfold binary_mul_mem. cbn [m_rows m_cols m_data].
  set (data := bytes_to_uint32_slice body). assert (LD : length data = (length body / 4)%nat) by apply words_count32.
  assert (W1 : (1 <= length body / 4)%nat). { apply Nat.div_le_lower_bound; [lia|]. unfold zlen in HB. lia. }
  assert (NZ : zlen data =? 0 = false) by (apply Z.eqb_neq; unfold zlen; lia). rewrite NZ. rewrite Rd, Z.eqb_refl. cbn [negb andb].
  set (missing := Z.to_nat (rows * Z.of_nat L - zlen data)).
  assert (MS : (missing <= length mem)%nat). { unfold missing, zlen in *. rewrite LD. rewrite Nat2Z.inj_div. change (Z.of_nat 4) with 4. lia. }
  destruct (Nat.ltb_spec (length mem) missing); [lia|]. rewrite andb_false_r.
  destruct (mul_gen_buf w32 (op_and w32) (buf_words w32) buf_raw (mkM rows (Z.of_nat L) (data ++ firstn missing mem)) db (Z.to_nat rows) L M
    (data ++ firstn missing mem) (m_data db)) as (m & E & S & W' & N); auto; try (cbn [m_rows m_cols]; lia).
  { reflexivity. }
  { unfold buf_words, buf_raw. rewrite Z.eqb_refl. cbn [m_data]. destruct (Z.eqb_spec (zlen (data ++ firstn missing mem)) 0) as [X|X]; auto.
    rewrite zlen_app in X. unfold zlen in X. lia. }
  { apply (db_buf db L M HD). }
  { rewrite app_length, firstn_length, Nat.min_l by lia. unfold missing, zlen. nia. }
  exists m. unfold m_binary_mul. rewrite E. cbn [bind]. conj_split; auto; try apply S.
  intros i j Hi Hj. rewrite N by auto. rewrite <- (binary_product_any 32 (memory_word body mem) db L M i j); auto; try lia.
  2:{ intros p. unfold memory_word. destruct (p <? _)%nat; [apply word32_range; auto|].
      destruct (nth_in_or_default (p - length body / 4) mem 0) as [I|E0]; [apply (proj1 (Forall_forall _ _) WM _ I)|rewrite E0; split; [lia|reflexivity]]. }
  change (2 ^ 32) with w32. f_equal. apply sum_to_ext. intros k Hk. f_equal. unfold memory_word.
  assert (P : (L * i + k < Z.to_nat rows * L)%nat) by nia. revert P. generalize (L * i + k)%nat. intros p P.
  destruct (Nat.ltb_spec p (length body / 4)).
  - rewrite app_nth1 by lia. apply nth_word32. auto.
  - rewrite app_nth2 by lia. rewrite LD. assert (Q : (p - length body / 4 < missing)%nat) by (unfold missing, zlen; rewrite LD; nia).
    clear - Q MS. revert mem MS Q. generalize (p - length body / 4)%nat. intros x. revert x. induction missing as [|n IH]; intros x mem MS Q; [lia|].
    destruct mem as [|y mem]; cbn [length] in MS; [lia|]. cbn [firstn]. destruct x; cbn [nth]; auto. apply IH; lia.
Qed.

(** With enough words the memory plays no role. *)
Lemma mem_unused mem q rows body : q = announcing rows (Z.of_nat L) body -> is_u32 rows -> rows * Z.of_nat L <= zlen body / 4 -> 
  lwe_answer_mem mem db q = lwe_answer_bytes32 db q.
Proof.
  intros -> Hr HB. unfold lwe_answer_mem, lwe_answer_bytes32. rewrite parse32 by (auto; unfold is_u32, w32; lia). cbn [bind].
  unfold binary_mul_mem. cbn [m_rows m_cols m_data]. set (data := bytes_to_uint32_slice body).
  assert (LD : zlen data = zlen body / 4). { unfold zlen, data. rewrite words_count32. rewrite Nat2Z.inj_div. auto. }
  replace (Z.to_nat (rows * Z.of_nat L - zlen data)) with 0%nat by lia. cbn [firstn Nat.ltb Nat.leb]. rewrite app_nil_r.
  destruct (length mem <? 0)%nat eqn:X; [apply Nat.ltb_lt in X; lia|]. rewrite andb_false_r.
  destruct (Z.eqb_spec (zlen data) 0) as [Z0|]; auto.
  assert (data = []) as ->; auto. { destruct data; auto. unfold zlen in Z0. cbn in Z0. lia. }
Qed.

Lemma be_dec_zeros k : be_dec (repeat 0 k) = 0.
Proof.
  unfold be_dec. rewrite rev_repeat. induction k; cbn [repeat le_dec]; auto. rewrite IHk. auto.
Qed.

(** A twelve-byte query whose answer depends on a word of the memory. *)
Lemma disclosure (p k j : nat) : (k < L)%nat -> (j < M)%nat -> elem db k j = 1 -> ((p + 1) mod L)%nat = k -> Z.of_nat ((p + 1) / L + 1) < 2 ^ 32 ->
  exists q, length q = 12%nat /\ bytes q /\ forall mem mem', length mem' = length mem -> Z.of_nat ((p + 1) / L + 1) * Z.of_nat L <= zlen mem + 1 ->
    Forall (fun x => 0 <= x < 2 ^ 32) mem -> Forall (fun x => 0 <= x < 2 ^ 32) mem' ->
    (forall x, x <> p -> nth x mem' 0 = nth x mem 0) ->
    exists m m', lwe_answer_mem mem db q = Ok (matrix_to_bytes m) /\ lwe_answer_mem mem' db q = Ok (matrix_to_bytes m') /\
      exact_shape m ((p + 1) / L + 1) M /\ exact_shape m' ((p + 1) / L + 1) M /\ words (2 ^ 32) m /\ words (2 ^ 32) m' /\
      elem m' ((p + 1) / L) j = (elem m ((p + 1) / L) j + (nth p mem' 0 - nth p mem 0)) mod 2 ^ 32.
Proof.
  intros Hk Hj D EK HR. destruct (db_sizes db L M HD) as (Rd & Cd & PL & PM & Ld).
  set (i := ((p + 1) / L)%nat) in *. set (rows := Z.of_nat (i + 1)).
  assert (B0 : bytes (repeat 0 4)). { repeat constructor; unfold is_byte, w8; lia. }
  exists (announcing rows (Z.of_nat L) (repeat 0 4)). split; [rewrite announcing_length; auto|]. split.
  { unfold announcing. apply bytes_app; [apply be_enc_bytes|]. apply bytes_app; [apply be_enc_bytes|]. exact B0. }
  intros mem mem' EL HS WM WM' SAME.
  assert (RB : 0 < rows < 2 ^ 32) by (unfold rows; clear - HR; lia).
  assert (Z4 : 4 <= zlen (repeat 0 4)) by (unfold zlen; rewrite repeat_length; lia).
  assert (D1 : zlen (repeat 0 4) / 4 = 1) by (unfold zlen; rewrite repeat_length; reflexivity).
  fold rows in HS.
  destruct (mem_answer rows (repeat 0 4) mem RB B0 Z4 WM ltac:(rewrite D1; lia)) as (m & E & S & W & N).
  destruct (mem_answer rows (repeat 0 4) mem' RB B0 Z4 WM' ltac:(rewrite D1; unfold zlen in HS |- *; rewrite EL; lia)) as (m' & E' & S' & W' & N').
  replace (Z.to_nat rows) with (i + 1)%nat in * by (unfold rows; clear - HR; lia).
  exists m, m'. conj_split; auto; try apply S; try apply S'.
  rewrite N, N' by lia. unfold answer_word. rewrite Zplus_mod_idemp_l. f_equal.
  assert (PW : forall mm q, memory_word (repeat 0 4) mm q = if (q =? 0)%nat then 0 else nth (q - 1) mm 0).
  { intros mm q. unfold memory_word. change (length (repeat 0 4) / 4)%nat with 1%nat. destruct q; reflexivity. }
  assert (PI : (L * i + k = p + 1)%nat). { rewrite <- EK. unfold i. symmetry. apply Nat.div_mod. lia. }
  rewrite <- (sum_to_single L k (fun _ => nth p mem' 0 - nth p mem 0) Hk). rewrite <- sum_to_add. apply sum_to_ext. intros x Hx. rewrite !PW.
  destruct (Nat.eqb_spec x k) as [->|NE].
  - rewrite PI. destruct (Nat.eqb_spec (p + 1) 0); [lia|]. replace (p + 1 - 1)%nat with p by lia. rewrite D. lia.
  - destruct (Nat.eqb_spec (L * i + x) 0); [lia|]. rewrite SAME by lia. lia.
Qed.
End Memory.

(** ** outcomes that are a value or a panic *)
Definition settled {A} (r : res A) : Prop := match r with Ok _ | Panic _ => True | _ => False end.
Lemma settled_bind {A B} (r : res A) (f : A -> res B) : settled r -> (forall a, settled (f a)) -> settled (bind r f).
Proof. destruct r; cbn; auto; intros []. Qed.
Lemma settled_mapM {A B} (f : A -> res B) l : (forall a, settled (f a)) -> settled (mapM f l).
Proof. intros H. induction l; cbn [mapM]; [exact I|]. apply settled_bind; auto. intros b. apply settled_bind; auto. intros bs. exact I. Qed.
Lemma settled_if {A} (b : bool) (x y : res A) : settled x -> settled y -> settled (if b then x else y).
Proof. destruct b; auto. Qed.
Lemma settled_slice {A} (l : list A) i j : settled (go_slice l i j).
Proof. unfold go_slice. apply settled_if; exact I. Qed.
Lemma settled_make {A} (z : A) n : settled (go_make z n).
Proof. unfold go_make. apply settled_if; exact I. Qed.
Lemma settled_b2m q : settled (bytes_to_matrix q).
Proof. unfold bytes_to_matrix. repeat (apply settled_bind; [apply settled_slice|intros ?]). exact I. Qed.
Lemma settled_b2m128 q : settled (bytes_to_matrix128 q).
Proof.
  unfold bytes_to_matrix128. apply settled_bind; [apply settled_slice|intros ?]. apply settled_bind; [apply settled_slice|intros ?].
  apply settled_bind; [unfold be_u32; apply settled_if; exact I|intros ?]. apply settled_bind; [apply settled_slice|intros ?]. exact I.
Qed.
Lemma settled_mul w a b : settled (m_binary_mul w a b).
Proof.
  unfold m_binary_mul, m_mul_gen. apply settled_if; [exact I|]. apply settled_bind. { unfold m_new. apply settled_bind; [apply settled_make|intros; exact I]. }
  intros out. apply settled_bind.
  { unfold buf_words, buf_raw, buf_copy. apply settled_if; [apply settled_if; exact I|]. apply settled_bind; [apply settled_make|intros ?]. repeat apply settled_if; exact I. }
  intros da. apply settled_bind; [unfold buf_raw; apply settled_if; exact I|]. intros d. repeat apply settled_if; exact I.
Qed.
Lemma settled_loop m0 lb : forall ms i out, settled (matrices_to_bytes_loop m0 lb i ms out).
Proof. induction ms as [|m ms IH]; intros i out; cbn [matrices_to_bytes_loop]; [exact I|]. apply settled_if; [exact I|apply IH]. Qed.
Lemma settled_bms q : settled (bytes_to_matrices q).
Proof.
  unfold bytes_to_matrices. apply settled_bind; [apply settled_slice|intros ?]. apply settled_if; [exact I|]. apply settled_mapM. intros i.
  apply settled_bind; [apply settled_slice|intros ?]. apply settled_b2m.
Qed.
Theorem settled_amplify db q : settled (amplify_answer_bytes db q).
Proof.
  unfold amplify_answer_bytes, amplify_answer, matrices_to_bytes. apply settled_bind; [apply settled_bms|intros ?]. apply settled_bind.
  { apply settled_mapM. intros ?. apply settled_mul. }
  intros l. destruct l; [exact I|]. apply settled_loop.
Qed.
Theorem settled32 db q : settled (lwe_answer_bytes32 db q).
Proof. unfold lwe_answer_bytes32. apply settled_bind; [apply settled_b2m|intros ?]. apply settled_bind; [apply settled_mul|intros ?]. exact I. Qed.
Theorem settled128 db q : settled (lwe_answer_bytes128 db q).
Proof. unfold lwe_answer_bytes128. apply settled_bind; [apply settled_b2m128|intros ?]. apply settled_bind; [apply settled_mul|intros ?]. exact I. Qed.

(** ** messages in pieces *)
Lemma bind_ok {A B} (r : res A) (f : A -> res B) b : bind r f = Ok b <-> exists a, r = Ok a /\ f a = Ok b.
Proof. destruct r; cbn; split; intros H; try discriminate; try (destruct H as (? & X & _); discriminate); eauto. destruct H as (? & X & Y). congruence. Qed.

Lemma mapM_Forall2 {A B} (f : A -> res B) l r : mapM f l = Ok r <-> Forall2 (fun a b => f a = Ok b) l r.
Proof.
  revert r. induction l as [|a l IH]; intros r; cbn [mapM].
  - split; intros H. injection H as <-. constructor. inversion H. auto.
  - rewrite bind_ok. split.
    + intros (b & E & H). apply bind_ok in H as (bs & E2 & H). injection H as <-. constructor; auto. apply IH. auto.
    + intros H. inversion H as [|? b ? bs E F]; subst. exists b. split; auto. apply bind_ok. exists bs. split; auto. apply IH. auto.
Qed.

Lemma mapM_chunks {B} (f : list Z -> res B) h k body : length h = 4%nat -> (0 < k)%nat ->
  mapM (fun i => s <- go_slice (h ++ body) (4 + Z.of_nat i * Z.of_nat k) (4 + (Z.of_nat i + 1) * Z.of_nat k) ;; f s) (range (length body / k)) =
  mapM f (chunks k body).
Proof.
  intros Hh Hk. transitivity (mapM f (map (fun i => nth i (chunks k body) []) (range (length body / k)))).
  - assert (X : forall l, (forall i, In i l -> (i < length body / k)%nat) ->
      mapM (fun i => s <- go_slice (h ++ body) (4 + Z.of_nat i * Z.of_nat k) (4 + (Z.of_nat i + 1) * Z.of_nat k) ;; f s) l =
      mapM f (map (fun i => nth i (chunks k body) []) l)).
    { induction l as [|i l IH]; intros HI; cbn [mapM map]; auto. rewrite IH by (intros; apply HI; right; auto).
      assert (Hi : (i < length body / k)%nat) by (apply HI; left; auto).
      assert (Bi : (k * i + k <= length body)%nat). { pose proof (Nat.mul_div_le (length body) k ltac:(lia)). nia. }
      rewrite go_slice_ok.
      2:{ nia. }
      2:{ unfold zlen. rewrite app_length. nia. }
      cbn [bind]. rewrite nth_chunks by auto. replace (Z.to_nat (4 + Z.of_nat i * Z.of_nat k)) with (4 + k * i)%nat by nia.
      replace (Z.to_nat (4 + (Z.of_nat i + 1) * Z.of_nat k - (4 + Z.of_nat i * Z.of_nat k))) with k by nia.
      rewrite skipn_app. rewrite skipn_all2 by lia. rewrite Hh. replace (4 + k * i - 4)%nat with (k * i)%nat by lia. reflexivity. }
    apply X. intros i I. unfold range in I. apply in_seq in I. lia.
  - f_equal. unfold range. rewrite <- (chunks_length k body Hk). apply map_nth_seq.
Qed.

Lemma in_pieces_chunks k (body : list Z) : (0 < k)%nat -> exists rest, (length rest < k)%nat /\ Forall (fun x => length x = k) (chunks k body) /\ body = concat (chunks k body) ++ rest.
Proof.
  intros Hk. exists (skipn (k * (length body / k)) body). split; [|split].
  - rewrite skipn_length. pose proof (Nat.div_mod (length body) k ltac:(lia)). pose proof (Nat.mod_upper_bound (length body) k ltac:(lia)). lia.
  - apply chunks_all_len. auto.
  - rewrite chunks_prefix by auto. symmetry. apply firstn_skipn.
Qed.

Lemma quot_count (n k : nat) : (0 < k)%nat -> Z.of_nat n < 2 ^ 32 -> Z.to_nat (u32 (Z.quot (Z.of_nat n) (Z.of_nat k))) = (n / k)%nat.
Proof.
  intros Hk Hn. rewrite Z.quot_div_nonneg by lia. rewrite <- Nat2Z.inj_div. unfold u32. rewrite Z.mod_small; [apply Nat2Z.id|].
  assert (n / k <= n)%nat as X by (apply Nat.div_le_upper_bound; nia). revert X. generalize (n / k)%nat. intros x X. unfold w32. lia.
Qed.

Theorem matrices_iff q ms : bytes q -> zlen q < 2 ^ 32 ->
  bytes_to_matrices q = Ok ms <-> exists pieces, in_pieces q pieces /\ Forall2 (fun p m => bytes_to_matrix p = Ok m) pieces ms.
Proof.
  intros B LQ. destruct (le_lt_dec 4 (length q)) as [L4|L4].
  2:{ split.
      - unfold bytes_to_matrices, go_slice, zlen. destruct (Z.leb_spec 4 (Z.of_nat (length q))); [lia|]. cbn. discriminate.
      - intros (pieces & (len & rest & _ & _ & _ & E) & _). exfalso. rewrite E in L4. rewrite app_length, be_enc_length in L4. lia. }
  assert (exists len body, is_u32 len /\ q = be_enc 4 len ++ body) as (len & body & HL & ->).
  { exists (be_dec (firstn 4 q)), (skipn 4 q). assert (L1 : length (firstn 4 q) = 4%nat) by (rewrite firstn_length; lia).
    assert (B1 : bytes (firstn 4 q)) by (apply Forall_firstn; auto).
    pose proof (be_dec_bound _ B1) as X. unfold zlen in X. rewrite L1 in X. pose proof (be_enc_dec _ B1) as E1. rewrite L1 in E1.
    split. unfold is_u32. rewrite w32_pow. exact X. rewrite E1. symmetry. apply firstn_skipn. }
  assert (HB : Z.of_nat (length body) < 2 ^ 32). { unfold zlen in LQ. rewrite app_length, be_enc_length in LQ. lia. }
  assert (U : bytes_to_matrices (be_enc 4 len ++ body) = if len =? 0 then Panic "integer divide by zero" else mapM bytes_to_matrix (chunks (Z.to_nat len) body)).
  { unfold bytes_to_matrices. rewrite go_slice_prefix by (unfold zlen; rewrite be_enc_length; auto). cbn [bind]. rewrite be4 by auto.
    destruct (Z.eqb_spec len 0); auto. unfold is_u32 in HL.
    replace (zlen (be_enc 4 len ++ body) - 4) with (Z.of_nat (length body)) by (rewrite zlen_app; unfold zlen; rewrite be_enc_length; lia).
    rewrite <- (mapM_chunks bytes_to_matrix (be_enc 4 len) (Z.to_nat len) body) by (rewrite ?be_enc_length; lia).
    rewrite (Z2Nat.id len) by lia. f_equal. f_equal. rewrite <- (Z2Nat.id len) by lia. rewrite quot_count by lia. rewrite Nat2Z.id. auto. }
  rewrite U. unfold is_u32 in HL. destruct (Z.eqb_spec len 0) as [->|N0].
  - split; [discriminate|]. intros (pieces & (k & rest & HK & _ & _ & E) & _). exfalso.
    assert (X : be_enc 4 0 = be_enc 4 (Z.of_nat k)).
    { apply (f_equal (firstn 4)) in E. rewrite !firstn_app_exact in E by (rewrite be_enc_length; auto). auto. }
    apply (f_equal be_dec) in X. rewrite !be4 in X by (unfold is_u32, w32; lia). lia.
  - rewrite mapM_Forall2. split.
    + intros F. exists (chunks (Z.to_nat len) body). split; auto. destruct (in_pieces_chunks (Z.to_nat len) body ltac:(lia)) as (rest & R1 & R2 & R3).
      exists (Z.to_nat len), rest. conj_split; auto; try (unfold w32 in HL; lia). rewrite Z2Nat.id by lia. f_equal. exact R3.
    + intros (pieces & (k & rest & HK & FL & LR & E) & F).
      assert (X : be_enc 4 len = be_enc 4 (Z.of_nat k)).
      { apply (f_equal (firstn 4)) in E. rewrite !firstn_app_exact in E by (rewrite be_enc_length; auto). auto. }
      apply (f_equal be_dec) in X. rewrite !be4 in X by (unfold is_u32, w32 in *; lia). subst len. rewrite Nat2Z.id in *.
      apply app_inv_head in E. subst body. rewrite chunks_concat by (auto; lia). auto.
Qed.

(** ** the amplified server *)
Lemma mul_dims db L M m a : exact_shape db L M -> m_binary_mul w32 m db = Ok a ->
  m_rows a = m_rows m /\ m_cols a = Z.of_nat M /\ zlen (m_data a) = m_rows a * Z.of_nat M /\ 0 < m_rows a.
Proof.
  intros HD. destruct (db_sizes db L M HD) as (Rd & Cd & PL & PM & Ld).
  unfold m_binary_mul, m_mul_gen. destruct (negb _); [discriminate|]. unfold m_new, go_make. rewrite Cd.
  destruct (Z.ltb_spec (m_rows m * Z.of_nat M) 0); [discriminate|]. cbn [bind m_data]. destruct (buf_words w32 m) as [da| | |]; cbn [bind]; try discriminate.
  rewrite (db_buf db L M HD). cbn [bind]. unfold zlen at 1. rewrite repeat_length.
  destruct (Z.eqb_spec (Z.of_nat (Z.to_nat (m_rows m * Z.of_nat M))) 0); [discriminate|].
  destruct (_ || _); [discriminate|]. intros E. injection E as <-. cbn [m_rows m_cols m_data]. conj_split; auto; try nia.
  unfold zlen. rewrite c_loops_length, repeat_length. lia.
Qed.

Lemma loop_dims m0 lb : forall ms i out b, matrices_to_bytes_loop m0 lb i ms out = Ok b -> Forall (fun m => m_rows m = m_rows m0 /\ m_cols m = m_cols m0) ms.
Proof.
  induction ms as [|m ms IH]; intros i out b E; constructor; cbn [matrices_to_bytes_loop] in E;
  destruct (Z.eqb_spec (m_rows m0) (m_rows m)), (Z.eqb_spec (m_cols m0) (m_cols m)); cbn [negb orb] in E; try discriminate; eauto.
Qed.

Theorem amplify_iff db L M q a : exact_shape db L M -> bytes q -> zlen q < 2 ^ 32 ->
  amplify_answer_bytes db q = Ok a <->
  exists pieces answers, in_pieces q pieces /\ pieces <> [] /\ Forall2 (fun p r => lwe_answer_bytes32 db p = Ok r) pieces answers /\
    Forall (fun r => length r = length (hd [] answers)) answers /\ a = be_enc 4 (u32 (zlen (hd [] answers))) ++ concat answers.
Proof.
  intros HD B LQ. destruct (db_sizes db L M HD) as (Rd & Cd & PL & PM & Ld). unfold amplify_answer_bytes. rewrite bind_ok. split.
  - intros (ms & E & H). apply bind_ok in H as (ans & E2 & H). apply (matrices_iff q ms B LQ) in E as (pieces & P & F).
    unfold amplify_answer in E2. apply mapM_Forall2 in E2.
    assert (FA : Forall2 (fun p r => lwe_answer_bytes32 db p = Ok r) pieces (map matrix_to_bytes ans)).
    { clear - F E2. revert ans E2. induction F as [|p m ps ms Hp F IH]; intros ans E2; inversion E2; subst; cbn [map]; constructor; auto.
      unfold lwe_answer_bytes32. rewrite Hp. cbn [bind]. unfold lwe_answer. rewrite H1. auto. }
    assert (FD : Forall (fun r => m_cols r = Z.of_nat M /\ zlen (m_data r) = m_rows r * Z.of_nat M) ans).
    { clear - E2 HD. induction E2; constructor; auto. destruct (mul_dims db L M x y HD H) as (_ & A & C & _). auto. }
    destruct ans as [|a0 ans]; [discriminate H|]. cbn [matrices_to_bytes] in H.
    assert (DM : Forall (fun m => m_rows m = m_rows a0 /\ m_cols m = m_cols a0) ans) by (eapply loop_dims; exact H).
    assert (DL : Forall (fun m => m_rows m = m_rows a0 /\ m_cols m = m_cols a0 /\ length (m_data m) = length (m_data a0)) ans).
    { inversion FD as [|? ? (C0 & L0) FD']; subst. rewrite Forall_forall in *. intros m I. destruct (DM m I) as [R C]. conj_split; auto.
      destruct (FD' m I) as [_ L1]. unfold zlen in *. rewrite R in L1. lia. }
    change (matrices_to_bytes (a0 :: ans) = Ok a) in H. rewrite matrices_to_bytes_spec in H by exact DL. injection H as <-.
    exists pieces, (map matrix_to_bytes (a0 :: ans)). split; auto. split; [intros ->; inversion FA|]. split; auto. split.
    + apply Forall_map. cbn [map hd]. apply Forall_forall. intros m I. assert (X : length (m_data m) = length (m_data a0)).
      { destruct I as [->|I]; auto. rewrite Forall_forall in DL. apply DL. auto. }
      pose proof (matrix_to_bytes_length m). pose proof (matrix_to_bytes_length a0). unfold zlen in *. lia.
    + cbn [map hd]. f_equal. rewrite flat_map_concat. auto.
  - intros (pieces & answers & P & NE & F & FL & ->).
    assert (exists ms ans, Forall2 (fun p m => bytes_to_matrix p = Ok m) pieces ms /\ Forall2 (fun m a => m_binary_mul w32 m db = Ok a) ms ans /\ answers = map matrix_to_bytes ans)
      as (ms & ans & F1 & F2 & ->).
    { clear - F. induction F as [|p r ps rs H F (ms & ans & F1 & F2 & ->)]. { exists [], []. conj_split; constructor. }
      unfold lwe_answer_bytes32 in H. apply bind_ok in H as (m & E1 & H). apply bind_ok in H as (x & E2 & H). injection H as <-.
      exists (m :: ms), (x :: ans). conj_split; auto. }
    exists ms. split; [apply (matrices_iff q ms B LQ); eauto|]. rewrite bind_ok. exists ans. split; [apply mapM_Forall2; auto|].
    assert (FD : Forall (fun r => m_cols r = Z.of_nat M /\ zlen (m_data r) = m_rows r * Z.of_nat M) ans).
    { clear - F2 HD. induction F2; constructor; auto. destruct (mul_dims db L M x y HD H) as (_ & A & C & _). auto. }
    destruct ans as [|a0 ans]. { inversion F2; subst. inversion F1; subst. congruence. }
    rewrite matrices_to_bytes_spec. { cbn [map hd]. rewrite flat_map_concat. auto. }
    inversion FD as [|? ? (C0 & L0) FD']; subst. apply Forall_forall. intros m I. rewrite Forall_forall in FL, FD'.
    assert (X : length (matrix_to_bytes m) = length (matrix_to_bytes a0)). { cbn [map hd] in FL. apply FL. right. apply in_map. auto. }
    destruct (FD' m I) as [Cm Lm]. pose proof (matrix_to_bytes_length m). pose proof (matrix_to_bytes_length a0). unfold zlen in *.
    conj_split; try congruence; try lia. nia.
Qed.
