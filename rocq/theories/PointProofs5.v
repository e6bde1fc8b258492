(** Proofs about the constructors of point databases and a toy DPF. *)
From Coq Require Import String ZArith List Bool Lia Permutation Arith.
From Verif Require Import GoBase BaseFacts EncodingModel EncodingProofs MerkleModel MerkleSpec MerkleProofs MerkleProofs2 MerkleProofs3
  FSSModel XorFacts FSSProofs PointModel PointSpec PointProofs PointProofs2 PointProofs3 PointProofs4.
Import ListNotations.
Open Scope Z_scope.
Open Scope go_scope.

Lemma zsum_repeat x n : zsum (repeat x n) = x * Z.of_nat n.
Proof. induction n; cbn [repeat zsum]; lia. Qed.

Lemma firstn_repeat {A} (x : A) n m : firstn n (repeat x m) = repeat x (Nat.min n m).
Proof. revert m; induction n; intros [|m]; cbn; auto. rewrite IHn. auto. Qed.

Lemma create_random_bytes_ok rnd dbLen numRows blockLen : 0 < blockLen -> 0 < numRows ->
  8 * numRows * blockLen <= dbLen -> dbLen < 2 ^ 62 -> zlen rnd = dbLen / 8 ->
  exists db, create_random_bytes rnd dbLen numRows blockLen = Ok db /\ db_ok db /\ i_type (b_info db) = ""%string /\
    i_rows (b_info db) = numRows /\ i_cols (b_info db) = dbLen / (8 * numRows * blockLen) /\ i_bs (b_info db) = blockLen /\
    forall k, Z.of_nat k < i_rows (b_info db) * i_cols (b_info db) -> padded db k = cut blockLen rnd k.
Proof.
  intros Hb Hr HL H62 HR. unfold create_random_bytes. rewrite !Z.quot_div_nonneg by nia.
  unfold go_make at 1. destruct (Z.ltb_spec (dbLen / 8) 0) as [N|N]; [pose proof (Z.div_pos dbLen 8); nia|]. cbn [bind].
  rewrite go_copy_full by (rewrite repeat_length; unfold zlen in HR; lia).
  destruct (Z.eqb_spec (8 * numRows * blockLen) 0); [nia|].
  set (cols := dbLen / (8 * numRows * blockLen)).
  assert (C1 : 1 <= cols) by (apply Z.div_le_lower_bound; nia).
  assert (C2 : 8 * numRows * blockLen * cols <= dbLen) by (apply Z.mul_div_le; nia).
  assert (C3 : numRows * cols * blockLen <= dbLen / 8) by (apply Z.div_le_lower_bound; nia).
  unfold go_make. destruct (Z.ltb_spec (numRows * cols) 0); [nia|]. cbn [bind].
  eexists. split; [reflexivity|]. cbn [b_info i_type i_rows i_cols i_bs].
  split.
  { unfold db_ok. cbn [b_info b_entries i_rows i_cols i_bs i_lens]. conj_split; try lia.
    - unfold zlen. rewrite repeat_length. nia.
    - apply Forall_forall. intros x Hx. apply repeat_spec in Hx. lia.
    - rewrite zsum_repeat, HR. nia. }
  conj_split; auto. intros k Hk.
  assert (Hkn : (k < Z.to_nat (numRows * cols))%nat) by lia.
  assert (ST : stored (mkBytes rnd (mkInfo' numRows cols blockLen (repeat blockLen (Z.to_nat (numRows * cols))) "" [] 0)) k = cut blockLen rnd k).
  { unfold stored, cut. cbn [b_info b_entries i_lens]. rewrite firstn_repeat, zsum_repeat, Nat.min_l by lia.
    rewrite (nth_indep _ 0 blockLen) by (rewrite repeat_length; auto). rewrite nth_repeat.
    replace (Z.to_nat (blockLen * Z.of_nat k)) with (k * Z.to_nat blockLen)%nat by nia. reflexivity. }
  unfold padded. rewrite ST. cbn [b_info i_bs].
  assert (LC : length (cut blockLen rnd k) = Z.to_nat blockLen).
  { unfold cut. rewrite firstn_length, skipn_length. unfold zlen in HR. nia. }
  rewrite LC, Nat.sub_diag. apply app_nil_r.
Qed.

Lemma query_bytes_index D inf rnd index n : 0 <= index < w32 ->
  pir_query_bytes D inf rnd (be_enc 4 index) n = pir_query D inf rnd index n.
Proof.
  intros Hi. unfold pir_query_bytes, be_u32. rewrite be_enc_length. cbn [Nat.ltb Nat.leb]. cbn [bind].
  rewrite firstn_all2 by (rewrite be_enc_length; lia). rewrite be_dec_enc by exact Hi. reflexivity.
Qed.

Lemma cuts_map len rnd n : cuts len rnd n = map (chunk (Z.to_nat len) rnd) (seq 0 (Z.to_nat n)).
Proof. reflexivity. Qed.

Lemma cuts_nth len rnd n k : (k < Z.to_nat n)%nat -> nth k (cuts len rnd n) [] = cut len rnd k.
Proof. intros Hk. unfold cuts. rewrite (nth_indep _ [] (cut len rnd 0)) by (rewrite map_length, seq_length; auto).
  rewrite map_nth, seq_nth by auto. reflexivity. Qed.

Lemma cuts_bytes len rnd n : bytes rnd -> Forall bytes (cuts len rnd n).
Proof.
  intros HB. apply Forall_forall. intros x Hx. apply in_map_iff in Hx as (k & <- & _). apply Forall_firstn', Forall_skipn'. exact HB.
Qed.

Lemma cuts_zlen len rnd n : 0 <= n -> zlen (cuts len rnd n) = n.
Proof. intros. unfold cuts, zlen. rewrite map_length, seq_length. lia. Qed.

(** the order of the answers does not matter *)
Lemma reconstruct_value_perm inf ix answers answers' : 0 <= i_bs inf -> 0 <= ix ->
  Forall (fun a => (ix + 1) * i_bs inf <= zlen a) answers -> Permutation answers answers' ->
  reconstruct_value inf ix answers = reconstruct_value inf ix answers'.
Proof.
  intros Hb Hx HF PM. unfold reconstruct_value, go_make. destruct (Z.ltb_spec (i_bs inf) 0); [lia|]. cbn [bind].
  destruct (sum_answers_ok (i_bs inf) ix Hb Hx answers (repeat 0 (Z.to_nat (i_bs inf))) (repeat_length _ _) HF) as (r & E & L & N).
  destruct (sum_answers_ok (i_bs inf) ix Hb Hx answers' (repeat 0 (Z.to_nat (i_bs inf))) (repeat_length _ _)
    (Permutation_Forall PM HF)) as (r' & E' & L' & N').
  rewrite E, E'. f_equal. apply nth_ext with (d := 0) (d' := 0); [lia|]. intros p Hp. rewrite N, N' by lia. f_equal.
  apply xors_perm, Permutation_map, PM.
Qed.

Lemma reconstruct_pir_perm H inf ix answers answers' : 0 <= i_bs inf -> 0 <= ix ->
  Forall (fun a => (ix + 1) * i_bs inf <= zlen a) answers -> Permutation answers answers' ->
  reconstruct_pir H inf ix answers = reconstruct_pir H inf ix answers'.
Proof.
  intros Hb Hx HF PM. unfold reconstruct_pir. rewrite (reconstruct_value_perm inf ix answers answers' Hb Hx HF PM). reflexivity.
Qed.

Lemma row_value_padded db q i p : db_ok db -> (i < Z.to_nat (i_rows (b_info db)))%nat -> (p < Z.to_nat (i_bs (b_info db)))%nat ->
  row_value db q i p = xors (map (fun c => if query_bit q c then nth p (padded db (i * Z.to_nat (i_cols (b_info db)) + c)) 0 else 0)
         (seq 0 (Z.to_nat (i_cols (b_info db))))).
Proof.
  intros HD Hi Hp. unfold row_value. f_equal. apply map_ext_in. intros c Hc. apply in_seq in Hc.
  destruct (query_bit q c); auto. unfold padded.
  destruct (Nat.lt_ge_cases p (length (stored db (i * Z.to_nat (i_cols (b_info db)) + c)))) as [L|L].
  - rewrite app_nth1 by auto. auto.
  - rewrite app_nth2 by auto. rewrite nth_repeat. apply nth_overflow. auto.
Qed.

Lemma answer_vector_padded D db q : db_ok db -> i_cols (b_info db) <= 8 * zlen q ->
  exists r, pir_answer D false db q = Ok r /\ zlen r = i_rows (b_info db) * i_bs (b_info db) /\
    forall row p, (row < Z.to_nat (i_rows (b_info db)))%nat -> (p < Z.to_nat (i_bs (b_info db)))%nat ->
      nth (row * Z.to_nat (i_bs (b_info db)) + p) r 0 =
      xors (map (fun c => if query_bit q c then nth p (padded db (row * Z.to_nat (i_cols (b_info db)) + c)) 0 else 0)
         (seq 0 (Z.to_nat (i_cols (b_info db))))).
Proof.
  intros HD HQ. destruct (answer_vector_ok D db q HD HQ) as (r & E & L & N). exists r. conj_split; auto.
  intros row p Hr Hp. rewrite N by auto. apply row_value_padded; auto.
Qed.

Lemma random_merkle_facts H rnd dbLen numRows blockLen : hash_ok H -> 0 < blockLen -> 0 < numRows ->
  numRows <= dbLen / (8 * blockLen) <= max_records -> zlen rnd = dbLen / (8 * blockLen) * blockLen ->
  fingerprints_ok (cuts blockLen rnd (dbLen / (8 * blockLen))) ->
  exists t db, create_random_merkle H rnd dbLen numRows blockLen = Ok db /\
    merkle_db H (cuts blockLen rnd (dbLen / (8 * blockLen))) t db /\
    i_rows (b_info db) = numRows /\ i_cols (b_info db) = dbLen / (8 * blockLen) / numRows.
Proof. intros HH Hb Hr HN HR ND. exact (create_random_merkle_ok H rnd dbLen numRows blockLen HH Hb Hr HN HR ND). Qed.

Lemma in_range_block db blocks t H k : merkle_db H blocks t db -> Z.of_nat k < i_rows (b_info db) * i_cols (b_info db) ->
  (k < length blocks)%nat.
Proof. intros (_ & _ & _ & _ & _ & _ & HN & _) Hk. unfold zlen in HN. lia. Qed.

Lemma merkle_random_correct D H rnd dbLen numRows blockLen : hash_ok H -> 0 < blockLen -> 0 < numRows ->
  numRows <= dbLen / (8 * blockLen) <= max_records -> zlen rnd = dbLen / (8 * blockLen) * blockLen ->
  fingerprints_ok (cuts blockLen rnd (dbLen / (8 * blockLen))) ->
  exists db, create_random_merkle H rnd dbLen numRows blockLen = Ok db /\
    i_rows (b_info db) = numRows /\ i_cols (b_info db) = dbLen / (8 * blockLen) / numRows /\
    (forall crnd index n, 0 <= index < i_rows (b_info db) * i_cols (b_info db) -> 3 <= n ->
      zlen crnd = (n - 1) * (i_cols (b_info db) / 8 + 1) ->
      exists ix qs answers, pir_query D (b_info db) crnd index n = Ok (ix, qs) /\ zlen qs = n /\
        mapM (pir_answer D false db) qs = Ok answers /\
        forall answers', Permutation answers answers' ->
          reconstruct_pir H (b_info db) ix answers' = Ok (cut blockLen rnd (Z.to_nat index))) /\
    (dpf_ok D -> forall crnd index, 0 <= index < i_rows (b_info db) * i_cols (b_info db) ->
      exists ix k0 k1 a0 a1, pir_query D (b_info db) crnd index 2 = Ok (ix, [k0; k1]) /\
        pir_answer D true db k0 = Ok a0 /\ pir_answer D true db k1 = Ok a1 /\
        reconstruct_pir H (b_info db) ix [a0; a1] = Ok (cut blockLen rnd (Z.to_nat index)) /\
        reconstruct_pir H (b_info db) ix [a1; a0] = Ok (cut blockLen rnd (Z.to_nat index))).
Proof.
  intros HH Hb Hr HN HR ND. destruct (random_merkle_facts H rnd dbLen numRows blockLen HH Hb Hr HN HR ND) as (t & db & E & MD & R & C).
  set (N := dbLen / (8 * blockLen)) in *.
  assert (LB : zlen (cuts blockLen rnd N) <= max_records) by (rewrite cuts_zlen; lia).
  exists db. split; [exact E|]. split; [exact R|]. split; [exact C|]. split.
  - intros crnd index n Hi Hn HC.
    destruct (merkle_correct D H _ t db crnd index n HH LB ND MD Hi ltac:(lia) ltac:(lia) HC) as (ix & qs & ans & A1 & A2 & A3 & A4).
    exists ix, qs, ans. conj_split; auto. intros answers' PM. rewrite (A4 answers' PM). f_equal. apply cuts_nth.
    pose proof (in_range_block db _ t H (Z.to_nat index) MD ltac:(lia)) as K. unfold cuts in K. rewrite map_length, seq_length in K. exact K.
  - intros HF crnd index Hi.
    destruct (merkle_correct_two D H _ t db crnd index HF HH LB ND MD Hi) as (ix & k0 & k1 & a0 & a1 & A1 & A2 & A3 & A4 & A5).
    pose proof (in_range_block db _ t H (Z.to_nat index) MD ltac:(lia)) as K. unfold cuts in K. rewrite map_length, seq_length in K.
    rewrite cuts_nth in A4, A5 by exact K. exists ix, k0, k1, a0, a1. conj_split; auto.
Qed.

Lemma merkle_random_substitution H rnd dbLen numRows blockLen db : hash_ok H -> 0 < blockLen -> 0 < numRows ->
  numRows <= dbLen / (8 * blockLen) <= max_records -> zlen rnd = dbLen / (8 * blockLen) * blockLen -> bytes rnd ->
  fingerprints_ok (cuts blockLen rnd (dbLen / (8 * blockLen))) ->
  create_random_merkle H rnd dbLen numRows blockLen = Ok db ->
  forall ix rest j, 0 <= ix < i_rows (b_info db) -> Z.of_nat j < i_rows (b_info db) * i_cols (b_info db) ->
  Forall (fun a => zlen a = i_rows (b_info db) * i_bs (b_info db) /\ bytes a) rest ->
  exists a, zlen a = i_rows (b_info db) * i_bs (b_info db) /\ bytes a /\
    reconstruct_pir H (b_info db) ix (a :: rest) = Ok (cut blockLen rnd j).
Proof.
  intros HH Hb Hr HN HR HB ND ED ix rest j Hx Hj FR.
  destruct (random_merkle_facts H rnd dbLen numRows blockLen HH Hb Hr HN HR ND) as (t & db' & E & MD & _).
  rewrite ED in E. injection E as <-.
  set (N := dbLen / (8 * blockLen)) in *.
  assert (LB : zlen (cuts blockLen rnd N) <= max_records) by (rewrite cuts_zlen; lia).
  destruct (substitution H _ t db ix rest j HH LB ND MD (cuts_bytes _ _ _ HB) Hx Hj FR) as (a & L & B & A).
  pose proof (in_range_block db _ t H j MD ltac:(lia)) as K. unfold cuts in K. rewrite map_length, seq_length in K.
  rewrite cuts_nth in A by exact K. exists a. conj_split; auto.
Qed.

Lemma merkle_random_forgery H rnd dbLen numRows blockLen db : hash_ok H -> 60 <= blockLen -> 0 < numRows ->
  numRows <= dbLen / (8 * blockLen) <= max_records -> 2 <= dbLen / (8 * blockLen) ->
  zlen rnd = dbLen / (8 * blockLen) * blockLen ->
  fingerprints_ok (cuts blockLen rnd (dbLen / (8 * blockLen))) ->
  create_random_merkle H rnd dbLen numRows blockLen = Ok db ->
  forall ix rest, 0 <= ix < i_rows (b_info db) ->
  Forall (fun a => zlen a = i_rows (b_info db) * i_bs (b_info db) /\ bytes a) rest ->
  exists a d, zlen a = i_rows (b_info db) * i_bs (b_info db) /\ bytes a /\ length d = 60%nat /\
    reconstruct_pir H (b_info db) ix (a :: rest) = Ok d.
Proof.
  intros HH Hb Hr HN H2 HR ND ED ix rest Hx FR.
  destruct (random_merkle_facts H rnd dbLen numRows blockLen HH ltac:(lia) Hr HN HR ND) as (t & db' & E & MD & _).
  rewrite ED in E. injection E as <-.
  set (N := dbLen / (8 * blockLen)) in *.
  assert (LB : zlen (cuts blockLen rnd N) <= max_records) by (rewrite cuts_zlen; lia).
  apply (lifted_forgery H _ t db ix rest HH LB ND MD); auto.
  - unfold cuts. rewrite map_length, seq_length. lia.
  - pose proof MD as (_ & _ & HP & _ & Hr' & Hc & HNN & _ & HL & HB).
    assert (K : (0 < length (cuts blockLen rnd N))%nat) by (unfold cuts; rewrite map_length, seq_length; lia).
    assert (F0 : In (zlen (nth 0 (cuts blockLen rnd N) []) + encoded_proof_length t + 1) (i_lens (b_info db))).
    { rewrite HL. apply in_map_iff. exists (nth 0 (cuts blockLen rnd N) []). split; auto.
      rewrite <- (nth_firstn_lt (Z.to_nat (i_rows (b_info db) * i_cols (b_info db))) 0) by nia.
      apply nth_In. rewrite firstn_length. nia. }
    rewrite Forall_forall in HB. specialize (HB _ F0). rewrite cuts_nth in HB by lia.
    assert (LC : zlen (cut blockLen rnd 0) = blockLen).
    { unfold cut, zlen. rewrite firstn_length, skipn_length. unfold zlen in HR. nia. }
    lia.
Qed.

Lemma merkle_random_accepted H rnd dbLen numRows blockLen db : hash_ok H -> 0 < blockLen -> 0 < numRows ->
  numRows <= dbLen / (8 * blockLen) <= max_records -> zlen rnd = dbLen / (8 * blockLen) * blockLen ->
  fingerprints_ok (cuts blockLen rnd (dbLen / (8 * blockLen))) ->
  create_random_merkle H rnd dbLen numRows blockLen = Ok db ->
  forall ix answers data, Forall bytes answers -> reconstruct_pir H (b_info db) ix answers = Ok data ->
  In data (cuts blockLen rnd (dbLen / (8 * blockLen))) \/ length data = 60%nat \/
  exists p, collision_found H (tree_inputs H (cuts blockLen rnd (dbLen / (8 * blockLen)))) (proof_inputs H data p) \/
            padding_preimage H (proof_inputs H data p).
Proof.
  intros HH Hb Hr HN HR ND ED ix answers data HB EA.
  destruct (random_merkle_facts H rnd dbLen numRows blockLen HH Hb Hr HN HR ND) as (t & db' & E & MD & _).
  rewrite ED in E. injection E as <-.
  apply (accepted_data H _ t db ix answers data HH); auto. rewrite cuts_zlen; lia.
Qed.
