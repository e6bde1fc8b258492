(** Proofs about whole retrievals of the lattice schemes with a server that sends anything, and about the C kernels. *)
From Coq Require Import String ZArith List Bool Lia Arith.
From Verif Require Import GoBase BaseFacts EncodingModel EncodingProofs MatrixModel LWEModel LWESpec MatrixProofs LWEProofs LWEProofs2 LWEProofs3 LWEProofs4
  RobustModel RobustSpec RobustProofs RobustProofs2 RobustProofs3 RobustProofs4.
Import ListNotations.
Open Scope Z_scope.
Open Scope go_scope.

Lemma query_state w p dg A r s e i j st q : lwe_query w p dg A r s e i j = Ok (st, q) -> s_digest st = dg /\ s_secret st = s /\ s_j st = j.
Proof.
  unfold lwe_query. intros E. apply bind_ok in E as (t & _ & E). do 5 apply bind_ok in E as (? & _ & E). injection E as <- _. auto.
Qed.

(** Any words are the honest ones plus something. *)
Lemma any_deviation w a data M : 0 < w -> exact_shape a 1 M -> words w a -> length data = M -> Forall (fun x => 0 <= x < w) data ->
  exists delta, length delta = M /\ deviated w a delta = mkM 1 (Z.of_nat M) data.
Proof.
  intros Hw ((Ra & Ca & _) & La) W L F. destruct a as [r c d]. cbn [m_rows m_cols m_data] in *. subst r c. unfold words in W. cbn [m_data] in W.
  exists (map (fun xy => fst xy - snd xy) (combine data d)). split; [rewrite map_length, combine_length; lia|].
  unfold deviated. cbn [m_rows m_cols m_data]. f_equal. replace (1 * M)%nat with (length data) in La by lia. clear - Hw La F.
  revert d La. induction F as [|x data Hx F IH]; intros [|y d] L; cbn [length] in L; try lia; cbn [combine map fst snd]; auto.
  f_equal; [|apply IH; lia]. replace (y + (x - y)) with x by lia. apply Z.mod_small. auto.
Qed.

Lemma words32 body : bytes body -> Forall (fun x => 0 <= x < w32) (bytes_to_uint32_slice body).
Proof.
  intros B. apply Forall_forall. intros x I. apply (In_nth _ _ 0) in I as (k & Hk & <-). rewrite words_count32 in Hk. rewrite nth_word32 by auto. apply word32_range. auto.
Qed.
Lemma words128 body : bytes body -> Forall (fun x => 0 <= x < w128) (map le_dec (chunks 16 body)).
Proof.
  intros B. apply Forall_forall. intros x I. apply (In_nth _ _ 0) in I as (k & Hk & <-). rewrite nth_word128. apply word128_range. auto.
Qed.

Section Session32.
Variables (p : lwe_params) (abytes : list Z) (dmem : nat -> Z) (db : matrix) (c : lwe_coins) (rows cols n : nat) (index : Z).
Hypotheses (DE : deployment p db rows cols n) (DR : drawn 4 abytes c rows n) (HI : 0 <= index < Z.of_nat rows * Z.of_nat cols).

Lemma session32_state : exists st q a, client_state (2 ^ 32) p st n cols /\
  (forall server, lwe_session32 p abytes dmem db c server index = (x <- server (matrix_to_bytes q) ;; lwe_reconstruct_bytes32 p st x)) /\
  exact_shape a 1 cols /\ words w32 a /\ bytes_to_matrix (matrix_to_bytes q) = Ok q /\ lwe_answer w32 db q = Ok a.
Proof.
  destruct (index_split rows cols index HI) as (i & j & Hi & Hj & EI & TI).
  destruct (rep32 p abytes dmem db c rows cols n i j DE DR Hi Hj) as (dg & st & q & a & ED & EQ & SQ & WQ & EAn & SAn & WAn & _).
  exists st, q, a. destruct DE as (HD & BD & PL & PM & PN & N0 & RL & RM). pose proof DR as (BA & LA & BT & LT & BS & LS & LN).
  unfold lwe_query_coins32 in EQ. pose proof (query_state _ _ _ _ _ _ _ _ _ _ _ EQ) as (S1 & S2 & S3).
  destruct (random_shape 1 n (c_secret c) (c_smem c) ltac:(lia) ltac:(lia) BS ltac:(lia)) as (SS & _).
  destruct (random_shape n rows abytes dmem N0 ltac:(lia) BA ltac:(lia)) as (SA & WA & _).
  destruct (binary_mul_ok 32 _ db n rows cols ltac:(lia) (shape_stored _ _ _ SA) (proj1 HD) WA BD) as (dg' & ED' & SD & _).
  unfold lwe_digest in ED. rewrite PN, PL in ED. change (2 ^ 32) with w32 in ED'. rewrite ED' in ED. injection ED as <-.
  conj_split; auto; try apply SAn.
  - unfold client_state. rewrite S1, S2, S3, PN. conj_split; auto; try lia. apply shape_stored. exact SS. apply exact_stored. exact SD.
  - intros server. unfold lwe_session32. unfold lwe_digest. rewrite PN, PL, ED'. cbn [bind]. rewrite PM, EI. cbn [bind fst snd]. unfold lwe_query_coins32. rewrite EQ. auto.
  - destruct SQ as ((Rq & Cq & _) & Lq). apply matrix_roundtrip; unfold is_u32; [unfold w32; lia|unfold w32; lia|exact WQ].
Qed.

Theorem session32_any a : bytes a ->
  let r := lwe_session32 p abytes dmem db c (fun _ => Ok a) index in
  (zlen a < 8 -> is_panic r = true) /\
  forall rs cs body, is_u32 rs -> is_u32 cs -> a = announcing rs cs body ->
  (rs <> 1 \/ cs <> Z.of_nat cols \/ Z.of_nat cols < zlen body / 4 -> is_panic r = true) /\
  (rs = 1 -> cs = Z.of_nat cols -> zlen body / 4 < Z.of_nat cols -> is_panic r = true \/ r = Err "REJECT") /\
  (rs = 1 -> cs = Z.of_nat cols -> zlen body / 4 = Z.of_nat cols -> (exists b, (b = 0 \/ b = 1) /\ r = Ok b) \/ r = Err "REJECT").
Proof.
  intros B r. destruct session32_state as (st & q & h & CS & G & _). unfold r. rewrite G. cbn [bind].
  apply (client32_any p st n cols a CS B). destruct DE as (_ & _ & _ & _ & _ & _ & _ & RM). exact RM.
Qed.

Theorem session32_deviates server b : (forall q x, server q = Ok x -> bytes x) -> lwe_session32 p abytes dmem db c server index = Ok b ->
  exists delta, length delta = cols /\ lwe_session32 p abytes dmem db c (deviating32 db delta) index = Ok b.
Proof.
  intros SB E. destruct session32_state as (st & q & h & CS & G & SH & WH & RQ & EA). rewrite G in E. apply bind_ok in E as (a & Ea & E).
  pose proof (SB _ _ Ea) as B. pose proof DE as (HD & BD & PL & PM & PN & N0 & RL & RM).
  destruct (client32_any p st n cols a CS B RM) as (C1 & C2).
  destruct (Z_lt_le_dec (zlen a) 8) as [X|X]. { specialize (C1 X). rewrite E in C1. discriminate. }
  destruct (announces a B ltac:(unfold zlen in X; lia)) as (rs & cs & body & -> & Hr & Hc & BB).
  specialize (C2 rs cs body Hr Hc eq_refl) as (C2 & C3 & C4).
  destruct (Z.eq_dec rs 1) as [->|]. 2:{ rewrite E in C2. discriminate C2. lia. }
  destruct (Z.eq_dec cs (Z.of_nat cols)) as [->|]. 2:{ rewrite E in C2. discriminate C2. lia. }
  destruct (Z_lt_le_dec (Z.of_nat cols) (zlen body / 4)). { rewrite E in C2. discriminate C2. lia. }
  destruct (Z_lt_le_dec (zlen body / 4) (Z.of_nat cols)). { rewrite E in C3. destruct C3 as [C3|C3]; auto; discriminate. }
  assert (LB : length (bytes_to_uint32_slice body) = cols). { rewrite words_count32. unfold zlen in *. change 4 with (Z.of_nat 4) in *. rewrite <- Nat2Z.inj_div in *. lia. }
  destruct (any_deviation w32 h (bytes_to_uint32_slice body) cols ltac:(reflexivity) SH WH LB (words32 body BB)) as (delta & LD & ED).
  exists delta. split; auto. rewrite G. unfold deviating32. rewrite RQ. cbn [bind]. rewrite EA. cbn [bind]. rewrite ED.
  unfold lwe_reconstruct_bytes32 in *. rewrite matrix_roundtrip.
  - cbn [bind]. rewrite parse32 in E by auto. exact E.
  - cbn [m_rows]. unfold is_u32, w32. lia.
  - cbn [m_cols]. unfold is_u32, w32. lia.
  - cbn [m_data]. apply words32. auto.
Qed.
End Session32.

Section Session128.
Variables (p : lwe_params) (abytes : list Z) (db : matrix) (c : lwe_coins) (rows cols n : nat) (index : Z).
Hypotheses (DE : deployment p db rows cols n) (DR : drawn 16 abytes c rows n) (HI : 0 <= index < Z.of_nat rows * Z.of_nat cols).

Lemma session128_state : exists st q a, client_state (2 ^ 128) p st n cols /\
  (forall server, lwe_session128 p abytes db c server index = (x <- server (matrix128_to_bytes q) ;; lwe_reconstruct_bytes128 p st x)) /\
  exact_shape a 1 cols /\ words w128 a /\ bytes_to_matrix128 (matrix128_to_bytes q) = Ok q /\ lwe_answer w128 db q = Ok a.
Proof.
  destruct (index_split rows cols index HI) as (i & j & Hi & Hj & EI & TI).
  destruct DE as (HD & BD & PL & PM & PN & N0 & RL & RM). pose proof DR as (BA & LA & BT & LT & BS & LS & LN).
  destruct (random128_shape n rows abytes N0 ltac:(lia) BA ltac:(lia)) as (SA & WA).
  destruct (random128_shape 1 1 (c_t c) ltac:(lia) ltac:(lia) BT ltac:(lia)) as ((ST & _) & _).
  destruct (random128_shape 1 n (c_secret c) ltac:(lia) ltac:(lia) BS ltac:(lia)) as (SS & _).
  destruct (gauss_shape gauss128_word rows (c_noise c) ltac:(lia) LN) as (SE & NE).
  destruct (honest_run 128 p (new_random128_of_bytes (Z.of_nat n) (Z.of_nat rows) abytes) (new_random128_of_bytes (Z.of_nat n) (Z.of_nat rows) abytes)
    db (new_random128_of_bytes 1 1 (c_t c)) (new_random128_of_bytes 1 (Z.of_nat n) (c_secret c)) (new_gauss128_of 1 (Z.of_nat rows) (c_noise c))
    rows n cols i j ltac:(lia) PL PM (exact_stored _ _ _ _ SA) (exact_stored _ _ _ _ SA) ltac:(auto) WA HD BD ST (exact_stored _ _ _ _ SS) SE Hi Hj)
    as (dg & st & q & a & ED & EQ & SQ & WQ & EAn & SAn & WAn & _).
  exists st, q, a. change (2 ^ 128) with w128 in *.
  pose proof (query_state _ _ _ _ _ _ _ _ _ _ _ EQ) as (S1 & S2 & S3).
  destruct (binary_mul_ok 128 _ db n rows cols ltac:(lia) (exact_stored _ _ _ _ SA) (proj1 HD) WA BD) as (dg' & ED' & SD & _).
  unfold lwe_digest in ED. change (2 ^ 128) with w128 in ED'. rewrite ED' in ED. injection ED as <-.
  conj_split; auto; try apply SAn.
  - unfold client_state. rewrite S1, S2, S3. conj_split; auto; try lia. apply exact_stored. exact SS. apply exact_stored. exact SD.
  - intros server. unfold lwe_session128, lwe_query_coins128, lwe_digest. rewrite PN, PL, PM, ED'. cbn [bind]. rewrite EI. cbn [bind fst snd]. rewrite EQ. auto.
  - destruct SQ as ((Rq & Cq & _) & Lq). apply matrix128_roundtrip; unfold is_u32, w32; [lia..|exact WQ].
Qed.

Theorem session128_any a : bytes a ->
  let r := lwe_session128 p abytes db c (fun _ => Ok a) index in
  (zlen a < 8 -> is_panic r = true) /\
  forall rs cs body, is_u32 rs -> is_u32 cs -> a = announcing rs cs body ->
  (rs <> 1 \/ cs <> Z.of_nat cols \/ Z.of_nat cols < zlen body / 16 -> is_panic r = true) /\
  (rs = 1 -> cs = Z.of_nat cols -> zlen body / 16 < Z.of_nat cols -> is_panic r = true \/ r = Err "REJECT") /\
  (rs = 1 -> cs = Z.of_nat cols -> zlen body / 16 = Z.of_nat cols -> (exists b, (b = 0 \/ b = 1) /\ r = Ok b) \/ r = Err "REJECT").
Proof.
  intros B r. destruct session128_state as (st & q & h & CS & G & _). unfold r. rewrite G. cbn [bind].
  apply (client128_any p st n cols a CS B). destruct DE as (_ & _ & _ & _ & _ & _ & _ & RM). exact RM.
Qed.

Theorem session128_deviates server b : (forall q x, server q = Ok x -> bytes x) -> lwe_session128 p abytes db c server index = Ok b ->
  exists delta, length delta = cols /\ lwe_session128 p abytes db c (deviating128 db delta) index = Ok b.
Proof.
  intros SB E. destruct session128_state as (st & q & h & CS & G & SH & WH & RQ & EA). rewrite G in E. apply bind_ok in E as (a & Ea & E).
  pose proof (SB _ _ Ea) as B. pose proof DE as (HD & BD & PL & PM & PN & N0 & RL & RM).
  destruct (client128_any p st n cols a CS B RM) as (C1 & C2).
  destruct (Z_lt_le_dec (zlen a) 8) as [X|X]. { specialize (C1 X). rewrite E in C1. discriminate. }
  destruct (announces a B ltac:(unfold zlen in X; lia)) as (rs & cs & body & -> & Hr & Hc & BB).
  specialize (C2 rs cs body Hr Hc eq_refl) as (C2 & C3 & C4).
  destruct (Z.eq_dec rs 1) as [->|]. 2:{ rewrite E in C2. discriminate C2. lia. }
  destruct (Z.eq_dec cs (Z.of_nat cols)) as [->|]. 2:{ rewrite E in C2. discriminate C2. lia. }
  destruct (Z_lt_le_dec (Z.of_nat cols) (zlen body / 16)). { rewrite E in C2. discriminate C2. lia. }
  destruct (Z_lt_le_dec (zlen body / 16) (Z.of_nat cols)). { rewrite E in C3. destruct C3 as [C3|C3]; auto; discriminate. }
  assert (LB : length (map le_dec (chunks 16 body)) = cols).
  { rewrite map_length, chunks_length by lia. unfold zlen in *. change 16 with (Z.of_nat 16) in *. rewrite <- Nat2Z.inj_div in *. lia. }
  destruct (any_deviation w128 h (map le_dec (chunks 16 body)) cols ltac:(reflexivity) SH WH LB (words128 body BB)) as (delta & LD & ED).
  exists delta. split; auto. rewrite G. unfold deviating128. rewrite RQ. cbn [bind]. rewrite EA. cbn [bind]. rewrite ED.
  unfold lwe_reconstruct_bytes128 in *. rewrite matrix128_roundtrip.
  - cbn [bind]. rewrite parse128 in E by auto. exact E.
  - cbn [m_rows]. unfold is_u32, w32. lia.
  - cbn [m_cols]. unfold is_u32, w32. lia.
  - cbn [m_data]. apply words128. auto.
Qed.
End Session128.

(** ** the kernels against the textbook product *)
Theorem kernel_product k a b r n c : k = 32 \/ k = 128 -> exact_shape a r n -> exact_shape b n c -> int_dimensions r n c -> indexable r n c ->
  exists m, m_mul (2 ^ k) a b = Ok m /\
    c_kernel (2 ^ k) (op_mul (2 ^ k)) (Z.of_nat r) (Z.of_nat n) (Z.of_nat c) (m_data a) (m_data b) (repeat 0 (r * c)) = Some (m_data m) /\
    length (m_data m) = (r * c)%nat /\ forall i j, (i < r)%nat -> (j < c)%nat -> nth (c * i + j) (m_data m) 0 = product_mod (2 ^ k) n a b i j.
Proof.
  intros HK A B ID IX. assert (Hw : 0 < 2 ^ k) by (destruct HK as [-> | ->]; reflexivity).
  destruct (mul_ok (2 ^ k) a b r n c Hw (exact_stored _ _ _ _ A) (exact_stored _ _ _ _ B)) as (m & E & S & W & N).
  exists m. split; auto. destruct A as ((Ra & Ca & La & R0 & N0) & LA). destruct B as ((Rb & Cb & Lb & _ & C0) & LB). destruct S as ((Rm & Cm & _) & Lm).
  rewrite kernel_some; auto; try lia. 2:{ rewrite repeat_length. lia. }
  split.
  - f_equal. unfold m_mul, m_mul_gen in E. rewrite Ca, Rb, Z.eqb_refl in E. cbn [negb] in E. unfold m_new, go_make in E. rewrite Ra, Cb in E.
    destruct (Z.ltb_spec (Z.of_nat r * Z.of_nat c) 0); [lia|]. cbn [bind m_data] in E.
    rewrite (buf_words_ok (2 ^ k) a r n), (buf_words_ok (2 ^ k) b n c) in E. 2,3: apply exact_stored; unfold exact_shape, shape; conj_split; auto; lia.
    cbn [bind] in E. destruct (_ =? 0) in E; [discriminate|]. destruct (_ || _) in E; [discriminate|]. injection E as <-. cbn [m_data]. rewrite !Nat2Z.id.
    f_equal. f_equal. lia.
  - split; auto. intros i j Hi Hj. rewrite <- N by auto. unfold elem. rewrite Cm, Nat2Z.id. auto.
Qed.
Theorem kernel_binary_product k a b r n c : k = 32 \/ k = 128 -> exact_shape a r n -> exact_shape b n c -> words (2 ^ k) a -> binary b -> int_dimensions r n c -> indexable r n c ->
  exists m, m_binary_mul (2 ^ k) a b = Ok m /\
    c_kernel (2 ^ k) (op_and (2 ^ k)) (Z.of_nat r) (Z.of_nat n) (Z.of_nat c) (m_data a) (m_data b) (repeat 0 (r * c)) = Some (m_data m) /\
    length (m_data m) = (r * c)%nat /\ forall i j, (i < r)%nat -> (j < c)%nat -> nth (c * i + j) (m_data m) 0 = product_mod (2 ^ k) n a b i j.
Proof.
  intros HK A B WA BB ID IX. assert (K0 : 0 < k) by lia.
  destruct (binary_mul_ok k a b r n c K0 (exact_stored _ _ _ _ A) (proj1 B) WA BB) as (m & E & S & W & N).
  exists m. split; auto. destruct A as ((Ra & Ca & La & R0 & N0) & LA). destruct B as ((Rb & Cb & Lb & _ & C0) & LB). destruct S as ((Rm & Cm & _) & Lm).
  rewrite kernel_some; auto; try lia. 2:{ rewrite repeat_length. lia. }
  split.
  - f_equal. unfold m_binary_mul, m_mul_gen in E. rewrite Ca, Rb, Z.eqb_refl in E. cbn [negb] in E. unfold m_new, go_make in E. rewrite Ra, Cb in E.
    destruct (Z.ltb_spec (Z.of_nat r * Z.of_nat c) 0); [lia|]. cbn [bind m_data] in E.
    rewrite (buf_words_ok (2 ^ k) a r n) in E. 2: apply exact_stored; unfold exact_shape, shape; conj_split; auto; lia.
    rewrite (buf_raw_ok b n c) in E. 2: unfold shape; conj_split; auto; lia.
    cbn [bind] in E. destruct (_ =? 0) in E; [discriminate|]. destruct (_ || _) in E; [discriminate|]. injection E as <-. cbn [m_data]. rewrite !Nat2Z.id.
    f_equal. f_equal. lia.
  - split; auto. intros i j Hi Hj. rewrite <- N by auto. unfold elem. rewrite Cm, Nat2Z.id. auto.
Qed.
