(** The authenticated database of the benchmark and the Merkle preprocessing. *)
From Coq Require Import String ZArith List Bool Lia Arith Permutation.
From Verif Require Import GoBase BaseFacts EncodingModel EncodingProofs MerkleModel MerkleSpec MerkleProofs MerkleProofs2 MerkleProofs3 PrgModel PrgProofs PointModel PointSpec PointProofs PointProofs2 PointProofs3 PointProofs4 PointProofs5
  LWEModel DirectoryModel DirectoryProofs3 FieldModel FSSModel PredicateModel FrontendModel MultiModel MultiSpec MultiProofs.
Import ListNotations.
Open Scope Z_scope.
Open Scope go_scope.

Lemma proof_bytes H blocks t : zlen blocks <= max_records -> new_using H blocks = Ok t -> fingerprints_ok blocks ->
  encoded_proof_length t = 32 * Z.of_nat (Nat.log2_up (length blocks)) + 8.
Proof.
  intros HM HT (_ & FL). pose proof (new_using_inv H blocks t ltac:(unfold max_records, w32 in *; lia) HT) as I.
  unfold encoded_proof_length, ceil_log2, hash_length. rewrite (ti_map _ _ _ I), md_of_length. unfold distinct_fingerprints. rewrite FL. lia.
Qed.

Lemma create_random_merkle_bs H rnd dbLen numRows blockLen db : create_random_merkle H rnd dbLen numRows blockLen = Ok db ->
  i_bs (b_info db) = blockLen + i_prooflen (b_info db) + 1.
Proof.
  unfold create_random_merkle. intros E. destruct (8 * blockLen =? 0); [discriminate|].
  destruct (go_make 0 (Z.quot dbLen (8 * blockLen) * blockLen)) as [buf| | |]; cbn [bind] in E; try discriminate.
  destruct (go_make tt _); cbn [bind] in E; try discriminate.
  match type of E with context [mapM ?g ?l] => destruct (mapM g l) as [blocks| | |] end; cbn [bind] in E; try discriminate.
  destruct (new_using H blocks) as [t| | |]; try discriminate. destruct (numRows =? 0); [discriminate|].
  destruct (go_make (blockLen + encoded_proof_length t + 1) _); cbn [bind] in E; try discriminate.
  destruct (make_merkle_entries _ _ _ _); cbn [bind] in E; try discriminate.
  destruct (root t); cbn [bind] in E; try discriminate. injection E as <-. reflexivity.
Qed.

Lemma merkle_retrieves D H rnd dbLen numRows blockLen n : dpf_ok D -> hash_ok H -> 0 < blockLen -> 0 < numRows ->
  numRows <= dbLen / (8 * blockLen) <= max_records -> zlen rnd = dbLen / (8 * blockLen) * blockLen ->
  fingerprints_ok (cuts blockLen rnd (dbLen / (8 * blockLen))) -> 2 <= n ->
  exists db, create_random_merkle H rnd dbLen numRows blockLen = Ok db /\
    i_rows (b_info db) = numRows /\ i_cols (b_info db) = dbLen / (8 * blockLen) / numRows /\
    i_prooflen (b_info db) = 32 * Z.of_nat (Nat.log2_up (Z.to_nat (dbLen / (8 * blockLen)))) + 8 /\
    i_bs (b_info db) = blockLen + i_prooflen (b_info db) + 1 /\
    retrieves D H n db (cut blockLen rnd).
Proof.
  intros HF HH Hb Hr HN HR ND Hn.
  destruct (random_merkle_facts H rnd dbLen numRows blockLen HH Hb Hr HN HR ND) as (t & db & E & MD & R & C).
  destruct (merkle_random_correct D H rnd dbLen numRows blockLen HH Hb Hr HN HR ND) as (db' & E' & _ & _ & M3 & M2).
  assert (db' = db) by congruence. subst db'. exists db. split; [exact E|]. split; [exact R|]. split; [exact C|].
  pose proof MD as (HT & _ & PL & _). split; [|split].
  - rewrite PL, (proof_bytes H (cuts blockLen rnd (dbLen / (8 * blockLen))) t); auto; [|rewrite cuts_zlen; lia]. unfold cuts. rewrite map_length, seq_length. reflexivity.
  - apply (create_random_merkle_bs H rnd dbLen numRows blockLen db E).
  - intros crnd index HI HC. destruct (Z.eqb_spec n 2) as [-> | N2].
    + destruct (M2 HF crnd index HI) as (ix & k0 & k1 & a0 & a1 & Q & A0 & A1 & R0 & R1).
      exists ix, [k0; k1], [a0; a1]. split; [exact Q|]. split; [reflexivity|]. split; [cbn [mapM bind]; rewrite A0; cbn [bind]; rewrite A1; reflexivity|].
      intros a' P. destruct (perm_two _ _ _ P) as [-> | ->]; assumption.
    + apply (M3 crnd index n HI ltac:(lia) HC).
Qed.

(** ** preprocessing *)
Lemma prep_loop_ok H blocks t out numRows : new_using H blocks = Ok t -> numRows <> 0 -> mapM (merkle_entry t) blocks = Ok out ->
  forall todo blockLen, 0 <= blockLen -> prep_loop H blocks (zlen blocks) numRows blockLen todo = Ok (repeat (concat out) todo).
Proof.
  intros HT HR ME. induction todo as [|k IH]; intros bl BL; cbn [prep_loop repeat]; auto.
  rewrite HT. destruct (Z.eqb_spec numRows 0); [contradiction|]. pose proof (encoded_proof_length_pos t) as EP. pose proof (zlen_nonneg blocks) as ZB.
  assert (NN : 0 <= numRows * Z.quot (zlen blocks) numRows).
  { pose proof (Z.quot_rem' (zlen blocks) numRows) as QR. pose proof (Z.rem_nonneg (zlen blocks) numRows HR ZB).
    destruct (Z.le_gt_cases 0 numRows); [apply Z.mul_nonneg_nonneg; auto; apply Z.quot_pos; lia|].
    assert (Z.quot (zlen blocks) numRows <= 0); [|nia]. rewrite <- (Z.opp_involutive numRows), Z.quot_opp_r by lia. pose proof (Z.quot_pos (zlen blocks) (- numRows) ZB ltac:(lia)). lia. }
  unfold go_make. destruct (Z.ltb_spec (numRows * Z.quot (zlen blocks) numRows) 0); [lia|]. cbn [bind].
  unfold prep_proofs. destruct (Z.ltb_spec ((bl + encoded_proof_length t + 1) * zlen blocks) 0); [nia|].
  unfold go_make. cbn [Z.ltb Z.compare bind]. rewrite ME. cbn [bind]. rewrite IH by lia. reflexivity.
Qed.

Lemma random_merkle_db_ok H rnd dbLen numRows blockLen nRepeat : hash_ok H -> 0 < blockLen -> numRows <> 0 ->
  1 <= dbLen / (8 * blockLen) <= max_records -> zlen rnd = dbLen / (8 * blockLen) * blockLen ->
  fingerprints_ok (cuts blockLen rnd (dbLen / (8 * blockLen))) ->
  exists db, create_random_merkle H rnd dbLen 1 blockLen = Ok db /\
    random_merkle_db H rnd dbLen numRows blockLen nRepeat = Ok (repeat (b_entries db) nRepeat).
Proof.
  intros HH Hb Hr HN HR ND.
  destruct (random_merkle_facts H rnd dbLen 1 blockLen HH Hb ltac:(lia) HN HR ND) as (t & db & E & MD & R & C).
  exists db. split; [exact E|]. pose proof MD as (HT & _ & _ & _ & _ & _ & _ & ME & _). rewrite R, C, Z.div_1_r in ME.
  set (N := dbLen / (8 * blockLen)) in *.
  assert (D0 : 0 <= dbLen). { unfold N in HN. destruct (Z.lt_ge_cases dbLen 0); [|lia]. assert (dbLen / (8 * blockLen) < 0) by (apply Z.div_lt_upper_bound; lia). lia. }
  unfold random_merkle_db. destruct (Z.eqb_spec (8 * blockLen) 0); [lia|]. rewrite Z.quot_div_nonneg by lia. fold N. cbv zeta.
  unfold go_make at 1. destruct (Z.ltb_spec (N * blockLen) 0); [nia|]. cbn [bind].
  rewrite go_copy_full by (rewrite repeat_length; unfold zlen in HR; lia).
  unfold go_make at 1. destruct (Z.ltb_spec N 0); [lia|]. cbn [bind].
  rewrite (mapM_ok _ (chunk (Z.to_nat blockLen) rnd)).
  2:{ intros i Hi. apply in_seq in Hi. unfold go_make. destruct (Z.ltb_spec blockLen 0); [lia|]. cbn [bind].
      rewrite go_slice_ok by (unfold zlen in *; nia). cbn [bind]. f_equal.
      replace (Z.to_nat ((Z.of_nat i + 1) * blockLen - Z.of_nat i * blockLen)) with (Z.to_nat blockLen) by nia.
      replace (Z.to_nat (Z.of_nat i * blockLen)) with (i * Z.to_nat blockLen)%nat by nia.
      fold (chunk (Z.to_nat blockLen) rnd i). apply go_copy_full. rewrite repeat_length.
      unfold chunk. rewrite firstn_length, skipn_length. unfold zlen in HR. nia. }
  cbn [bind]. unfold range. fold (cuts blockLen rnd N).
  assert (LB : zlen (cuts blockLen rnd N) = N) by (apply cuts_zlen; lia).
  unfold make_merkle_entries in ME. rewrite go_slice_ok in ME by lia. cbn [bind] in ME. rewrite Z.sub_0_r in ME. change (Z.to_nat 0) with 0%nat in ME. cbn [skipn] in ME.
  rewrite Z.mul_1_l in ME. rewrite firstn_all2 in ME by (unfold zlen in LB; lia).
  destruct (mapM (merkle_entry t) (cuts blockLen rnd N)) as [out| | |] eqn:EO; cbn [bind] in ME; try discriminate.
  assert (EC : concat out = b_entries db) by congruence. rewrite <- EC.
  rewrite <- LB at 2. apply prep_loop_ok with (t := t); auto. lia.
Qed.

(** ** the generated blocks *)
Lemma stream_cut ks b n k : 0 < b -> Z.of_nat (S k) * b <= n -> cut b (ks_bytes ks 0 (Z.to_nat n)) k = stream_block ks b k.
Proof.
  intros B L. unfold cut, ks_bytes, stream_block. rewrite skipn_map, firstn_map. f_equal.
  replace (Z.to_nat n) with (k * Z.to_nat b + (Z.to_nat b + (Z.to_nat n - S k * Z.to_nat b)))%nat by nia.
  rewrite !seq_app, skipn_app, seq_length. rewrite skipn_all2 by (rewrite seq_length; lia). rewrite Nat.sub_diag. cbn [app skipn].
  rewrite firstn_app, seq_length, Nat.sub_diag, firstn_all2 by (rewrite seq_length; lia). cbn [firstn]. rewrite app_nil_r. reflexivity.
Qed.

Lemma retrieves_ext D H n db v w : (forall k, Z.of_nat k < i_rows (b_info db) * i_cols (b_info db) -> v k = w k) ->
  retrieves D H n db v -> retrieves D H n db w.
Proof.
  intros E R crnd index HI HC. destruct (R crnd index HI HC) as (ix & qs & a & Q & L & A & G). exists ix, qs, a. split; [exact Q|]. split; [exact L|]. split; [exact A|].
  intros a' P. rewrite <- E by lia. auto.
Qed.

Lemma create_random_bytes_prooflen rnd dbLen numRows blockLen db : create_random_bytes rnd dbLen numRows blockLen = Ok db -> i_prooflen (b_info db) = 0.
Proof.
  unfold create_random_bytes. intros E.
  destruct (go_make 0 (Z.quot dbLen 8)) as [buf| | |]; cbn [bind] in E; try discriminate.
  destruct (8 * numRows * blockLen =? 0); [discriminate|].
  match type of E with context [go_make ?a ?b] => destruct (go_make a b) end; cbn [bind] in E; try discriminate. injection E as <-. reflexivity.
Qed.

Lemma multi_db_ok D H ks f : dpf_ok D -> hash_ok H -> s_scheme f = "pir-classic"%string \/ s_scheme f = "pir-merkle"%string ->
  s_elem f = 8 -> 0 < s_block f < 2 ^ 31 -> s_len f < 2 ^ 62 -> 2 <= s_servers f ->
  let N := s_len f / (8 * s_block f) in 0 < N < w32 ->
  (s_scheme f = "pir-merkle"%string -> N <= 2 ^ 31 /\ fingerprints_ok (map (stream_block ks (s_block f)) (seq 0 (Z.to_nat N)))) ->
  exists db R, multi_db H ks f = Ok db /\ arranged (s_rows f) N R /\ 0 < R <= N /\ i_rows (b_info db) = R /\ i_cols (b_info db) = N / R /\
    i_bs (b_info db) = s_block f + (if (s_scheme f =? "pir-merkle")%string then 32 * Z.of_nat (Nat.log2_up (Z.to_nat N)) + 9 else 0) /\
    0 < i_bs (b_info db) < w32 /\ 0 <= i_prooflen (b_info db) < w32 /\
    retrieves D H (s_servers f) db (stream_block ks (s_block f)).
Proof.
  intros HF HH HS HE HB H62 H2 N HN HM. assert (P31 : 2 ^ 31 = 2147483648) by reflexivity. assert (W : w32 = 4294967296) by reflexivity.
  assert (HL : 8 * s_block f <= s_len f).
  { unfold N in HN. destruct (Z.le_gt_cases (8 * s_block f) (s_len f)) as [|L]; auto.
    assert (s_len f / (8 * s_block f) < 1) by (apply Z.div_lt_upper_bound; lia). lia. }
  destruct (multi_rows_ok f HS HE ltac:(lia) HL) as (R & ER & AR & BR). fold N in AR, BR.
  assert (NB : N * s_block f * 8 <= s_len f). { pose proof (Z.mul_div_le (s_len f) (8 * s_block f) ltac:(lia)). fold N in H0. lia. }
  assert (TOT : R * (N / R) <= N) by (apply Z.mul_div_le; lia).
  unfold multi_db. rewrite ER. cbn [bind]. rewrite first_read_eq, first_read_eq. destruct HS as [HS|HS]; rewrite HS.
  - rewrite String.eqb_refl. destruct (String.eqb_spec "pir-classic" "pir-merkle") as [X|_]; [discriminate X|]. rewrite Z.quot_div_nonneg by lia.
    destruct (create_random_bytes_ok (ks_bytes ks 0 (Z.to_nat (s_len f / 8))) (s_len f) R (s_block f)) as (db & E & OKD & TY & RW & CL & BS & PD); try lia.
    { assert (8 * R * s_block f <= 8 * (N * s_block f)) by nia. lia. }
    { apply ks_bytes_zlen. apply Z.div_pos; lia. }
    assert (CL' : i_cols (b_info db) = N / R).
    { rewrite CL. unfold N. rewrite Z.div_div by lia. f_equal. lia. }
    exists db, R. split; [exact E|]. split; [exact AR|]. split; [exact BR|]. split; [exact RW|]. split; [exact CL'|]. split; [lia|]. split; [lia|].
    split; [rewrite (create_random_bytes_prooflen _ _ _ _ _ E); lia|].
    apply retrieves_ext with (v := fun k => padded db k).
    + intros k K. rewrite PD by exact K. rewrite RW, CL' in K. apply stream_cut; [lia|].
      assert (S1 : Z.of_nat (S k) <= N) by lia. apply Z.le_trans with (N * s_block f); [nia|]. apply Z.div_le_lower_bound; lia.
    + apply retrieves_plain; auto.
  - destruct (String.eqb_spec "pir-merkle" "pir-classic") as [X|_]; [discriminate X|]. rewrite String.eqb_refl.
    destruct (HM HS) as (M31 & FP). unfold merkle_bytes. rewrite Z.quot_div_nonneg by lia. fold N.
    assert (CU : cuts (s_block f) (ks_bytes ks 0 (Z.to_nat (N * s_block f))) N = map (stream_block ks (s_block f)) (seq 0 (Z.to_nat N))).
    { unfold cuts. apply map_ext_in. intros k K. apply in_seq in K. apply stream_cut; [lia|]. nia. }
    destruct (merkle_retrieves D H (ks_bytes ks 0 (Z.to_nat (N * s_block f))) (s_len f) R (s_block f) (s_servers f)) as (db & E & RW & CL & PL & BS & RT); auto; try lia.
    { fold N. unfold max_records. lia. }
    { fold N. apply ks_bytes_zlen. nia. }
    { fold N. rewrite CU. exact FP. }
    fold N in CL, PL. assert (L31 : Z.of_nat (Nat.log2_up (Z.to_nat N)) <= 31).
    { pose proof (log2_up_le_31 (Z.to_nat N)) as X. unfold max_records in X. lia. }
    exists db, R. split; [exact E|]. split; [exact AR|]. split; [exact BR|]. split; [exact RW|]. split; [exact CL|]. split; [lia|]. split; [lia|]. split; [lia|].
    apply retrieves_ext with (2 := RT). intros k K. rewrite RW, CL in K. apply stream_cut; [lia|]. assert (S1 : Z.of_nat (S k) <= N) by lia. nia.
Qed.
