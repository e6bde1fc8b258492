(** Lemmas about the databases built from the hash table of keys. *)
From Coq Require Import String ZArith List Bool Arith Lia Permutation Sorted.
From Verif Require Import GoBase BaseFacts EncodingModel EncodingProofs MerkleModel MerkleSpec MerkleProofs MerkleProofs2 LWEModel
  PointModel PointSpec PointProofs PointProofs2 PointProofs3 PointProofs4 DirectoryModel DirectorySpec DirectoryProofs.
Import ListNotations.
Open Scope Z_scope.
Open Scope go_scope.

Lemma load_ok contents : load_keys_from_disk (map Ok contents) = Ok (concat contents).
Proof.
  unfold load_keys_from_disk.
  assert (E : mapM (fun f : res (list pkey) => f) (map Ok contents) = Ok contents).
  { induction contents as [|c t IH]; cbn [map mapM bind]; [reflexivity|]. rewrite IH. reflexivity. }
  rewrite E. reflexivity.
Qed.

Lemma make_hash_table_nodup B n : forall keys m ht, NoDup (map fst m) -> make_hash_table B keys n m = Ok ht -> NoDup (map fst ht).
Proof.
  induction keys as [|key keys IH]; intros m ht ND E; cbn [make_hash_table] in E.
  - injection E as <-. auto.
  - destruct (hash_to_index B (k_id key) n) as [h| | |]; cbn [bind] in E; try discriminate.
    eapply IH; [|exact E]. apply append_keys. auto.
Qed.

Lemma zero_table B keys ht : hash_ok B -> make_hash_table B keys 0 [] = Ok ht -> ht = [].
Proof.
  intros HB E. destruct keys as [|key keys]; cbn [make_hash_table] in E; [congruence|].
  assert (P : exists m, hash_to_index B (k_id key) 0 = Panic m).
  { unfold hash_to_index. destruct (HB (k_id key)) as [L _]. rewrite go_slice_ok by (unfold zlen; lia). cbn [bind].
    unfold be_u32. rewrite firstn_length, skipn_length, L. cbn [bind]. eexists. reflexivity. }
  destruct P as [m P]. rewrite P in E. discriminate.
Qed.

(** the blocks stored for a list of keys, in bucket order *)
Notation blocks_of := bucket_blocks.

Lemma blocks_of_length B n keys : length (blocks_of B n keys) = Z.to_nat n.
Proof. unfold bucket_blocks. rewrite map_length, seq_length. reflexivity. Qed.
Lemma blocks_of_nth B n keys k : (k < Z.to_nat n)%nat -> nth k (blocks_of B n keys) [] = bucket_block B n keys (Z.of_nat k).
Proof.
  intros H. unfold bucket_blocks. rewrite (nth_indep _ [] (bucket_block B n keys (Z.of_nat 0))) by (rewrite map_length, seq_length; auto).
  rewrite (map_nth (fun k => bucket_block B n keys (Z.of_nat k))). rewrite seq_nth by auto. reflexivity.
Qed.

Lemma in_bucket_range B n keys k : 0 < n -> in_bucket B n keys k <> [] -> 0 <= k < n.
Proof.
  intros Hn H. unfold in_bucket in H. destruct (filter _ keys) as [|x l] eqn:E; [congruence|].
  assert (I : In x (filter (fun key => position B n (k_id key) =? k) keys)) by (rewrite E; left; auto).
  apply filter_In in I as [_ I]. apply Z.eqb_eq in I. rewrite <- I. apply position_range. auto.
Qed.

Lemma table_ok B n keys : hash_ok B -> 0 < n < w32 ->
  exists ht, make_hash_table B keys n [] = Ok ht /\ NoDup (map fst ht) /\
    (forall k, tget k ht = match in_bucket B n keys k with [] => None | _ => Some (bucket B n keys k) end) /\
    (forall ord, visits_all ord -> store_blocks (ord ht) (repeat [] (Z.to_nat n)) = Ok (blocks_of B n keys)) /\
    (forall ord, visits_all ord -> max_bytes_length (map snd (ord ht)) = max_bytes_length (map snd ht)).
Proof.
  intros HB Hn. destruct (hash_table_ok B n keys HB Hn [] []) as (ht & E & ND & G).
  { constructor. } { reflexivity. }
  cbn [app] in G. exists ht. split; [exact E|]. split; [exact ND|]. split; [exact G|]. split.
  - intros ord HO. pose proof (HO ht) as P.
    destruct (store_blocks_ok (ord ht) (repeat [] (Z.to_nat n))) as (b' & ES & L & N).
    + eapply Permutation_NoDup; [apply Permutation_map; exact P|exact ND].
    + intros k v I. apply (Permutation_in _ (Permutation_sym P)) in I. apply (In_tget _ _ _ ND) in I. rewrite G in I.
      unfold zlen. rewrite repeat_length, Z2Nat.id by lia.
      apply (in_bucket_range B n keys); [lia|]. intros X. rewrite X in I. discriminate.
    + rewrite ES. f_equal. rewrite repeat_length in L. apply nth_ext with (d := []) (d' := []).
      * rewrite blocks_of_length. exact L.
      * intros k Hk. rewrite N by (rewrite repeat_length; lia). rewrite nth_repeat, blocks_of_nth by lia.
        rewrite (tget_perm ht (ord ht) ND P), G. unfold bucket_block. destruct (in_bucket B n keys (Z.of_nat k)); reflexivity.
  - intros ord HO. apply max_bytes_length_perm. apply Permutation_map, Permutation_sym, HO.
Qed.

(** nothing depends on the order in which the table is visited *)
Definition plain_order (R : runtime) : runtime := mkRuntime (r_sort R) (fun m => m) (fun m => m).

Lemma cells_nonneg n reb : 0 <= n -> let '(r, c) := calculate_num_rows_and_columns n reb in 0 <= r * c.
Proof.
  intros H. unfold calculate_num_rows_and_columns. destruct reb; [|lia]. pose proof (Z.sqrt_nonneg (increase_to_next_square n)). nia.
Qed.

Lemma pre_square_nonneg n : 0 <= n -> 0 <= pre_square_num_blocks n.
Proof.
  intros H. destruct (Z_lt_le_dec n 10); [rewrite few_keys by lia; lia|]. pose proof (buckets_positive n l). lia.
Qed.

Definition cells (n : Z) (reb : bool) : Z :=
  let '(r, c) := calculate_num_rows_and_columns (pre_square_num_blocks n) reb in r * c.

Lemma table_plain B n keys ht ord : hash_ok B -> 0 <= n < w32 -> visits_all ord -> make_hash_table B keys n [] = Ok ht ->
  max_bytes_length (map snd (ord ht)) = max_bytes_length (map snd ht) /\
  store_blocks (ord ht) (repeat [] (Z.to_nat n)) = store_blocks ht (repeat [] (Z.to_nat n)).
Proof.
  intros HB Hn HO E. destruct (Z.eq_dec n 0) as [->|N0].
  - apply zero_table in E; auto. subst ht. pose proof (HO []) as P. apply Permutation_nil in P. rewrite P. auto.
  - destruct (table_ok B n keys HB ltac:(lia)) as (ht' & E' & _ & _ & S & M). rewrite E in E'. injection E' as <-.
    rewrite M, S by auto. split; [reflexivity|]. symmetry. apply (S (fun m => m)). intros m. apply Permutation_refl.
Qed.

Lemma generate_bytes_plain B R contents reb : hash_ok B -> runtime_ok R -> cells (zlen (concat contents)) reb < w32 ->
  generate_real_key_bytes B R (map Ok contents) reb = generate_real_key_bytes B (plain_order R) (map Ok contents) reb.
Proof.
  intros HB (HS & HO & HO') HC. unfold generate_real_key_bytes. rewrite load_ok. cbn [bind plain_order r_sort r_order r_order'].
  destruct (HS (concat contents)) as [P _]. apply Permutation_length in P.
  assert (EL : zlen (r_sort R (concat contents)) = zlen (concat contents)) by (unfold zlen; rewrite P; reflexivity).
  rewrite EL. unfold cells in HC. pose proof (cells_nonneg (pre_square_num_blocks (zlen (concat contents))) reb) as C0.
  destruct (calculate_num_rows_and_columns _ reb) as [r c]. specialize (C0 (pre_square_nonneg _ (zlen_nonneg _))).
  destruct (make_hash_table B _ (r * c) []) as [ht| | |] eqn:E; cbn [bind]; try reflexivity.
  destruct (table_plain B (r * c) _ ht (r_order R) HB ltac:(lia) HO E) as [M _].
  destruct (table_plain B (r * c) _ ht (r_order' R) HB ltac:(lia) HO' E) as [_ S].
  rewrite M. unfold go_make. destruct (Z.ltb_spec (r * c) 0); [lia|]. cbn [bind]. rewrite S. reflexivity.
Qed.

Lemma generate_merkle_plain H B R contents reb : hash_ok B -> runtime_ok R -> cells (zlen (concat contents)) reb < w32 ->
  generate_real_key_merkle H B R (map Ok contents) reb = generate_real_key_merkle H B (plain_order R) (map Ok contents) reb.
Proof.
  intros HB (HS & HO & HO') HC. unfold generate_real_key_merkle. rewrite load_ok. cbn [bind plain_order r_sort r_order r_order'].
  destruct (HS (concat contents)) as [P _]. apply Permutation_length in P.
  assert (EL : zlen (r_sort R (concat contents)) = zlen (concat contents)) by (unfold zlen; rewrite P; reflexivity).
  rewrite EL. unfold cells in HC. pose proof (cells_nonneg (pre_square_num_blocks (zlen (concat contents))) reb) as C0.
  destruct (calculate_num_rows_and_columns _ reb) as [r c]. specialize (C0 (pre_square_nonneg _ (zlen_nonneg _))).
  destruct (make_hash_table B _ (r * c) []) as [ht| | |] eqn:E; cbn [bind]; try reflexivity.
  destruct (table_plain B (r * c) _ ht (r_order' R) HB ltac:(lia) HO' E) as [_ S].
  unfold go_make. destruct (Z.ltb_spec (r * c) 0); [lia|]. cbn [bind]. rewrite S. reflexivity.
Qed.

(** same keys, in any order, give the same databases *)
Lemma same_bytes B R1 R2 c1 c2 reb : hash_ok B -> runtime_ok R1 -> runtime_ok R2 -> Permutation (concat c1) (concat c2) ->
  NoDup (map k_id (concat c1)) -> cells (zlen (concat c1)) reb < w32 ->
  generate_real_key_bytes B R1 (map Ok c1) reb = generate_real_key_bytes B R2 (map Ok c2) reb.
Proof.
  intros HB H1 H2 P ND HC.
  assert (EL : zlen (concat c2) = zlen (concat c1)) by (unfold zlen; rewrite (Permutation_length P); reflexivity).
  rewrite (generate_bytes_plain B R1), (generate_bytes_plain B R2) by (auto; rewrite ?EL; auto).
  pose proof (sort_canonical (r_sort R1) (r_sort R2) _ _ (proj1 H1) (proj1 H2) P ND) as E.
  unfold generate_real_key_bytes. rewrite !load_ok. cbn [bind plain_order r_sort r_order r_order']. rewrite E. reflexivity.
Qed.

Lemma same_merkle H B R1 R2 c1 c2 reb : hash_ok B -> runtime_ok R1 -> runtime_ok R2 -> Permutation (concat c1) (concat c2) ->
  NoDup (map k_id (concat c1)) -> cells (zlen (concat c1)) reb < w32 ->
  generate_real_key_merkle H B R1 (map Ok c1) reb = generate_real_key_merkle H B R2 (map Ok c2) reb.
Proof.
  intros HB H1 H2 P ND HC.
  assert (EL : zlen (concat c2) = zlen (concat c1)) by (unfold zlen; rewrite (Permutation_length P); reflexivity).
  rewrite (generate_merkle_plain H B R1), (generate_merkle_plain H B R2) by (auto; rewrite ?EL; auto).
  pose proof (sort_canonical (r_sort R1) (r_sort R2) _ _ (proj1 H1) (proj1 H2) P ND) as E.
  unfold generate_real_key_merkle. rewrite !load_ok. cbn [bind plain_order r_sort r_order r_order']. rewrite E. reflexivity.
Qed.

Lemma same_db read R1 R2 c1 c2 : runtime_ok R1 -> runtime_ok R2 -> Permutation (concat c1) (concat c2) ->
  NoDup (map k_id (concat c1)) -> generate_real_key_db read R1 (map Ok c1) = generate_real_key_db read R2 (map Ok c2).
Proof.
  intros H1 H2 P ND. unfold generate_real_key_db. rewrite !load_ok. cbn [bind].
  rewrite (sort_canonical (r_sort R1) (r_sort R2) _ _ (proj1 H1) (proj1 H2) P ND). reflexivity.
Qed.

(** what is built *)
Lemma bucket_block_len B n keys k ht : (forall k, tget k ht = match in_bucket B n keys k with [] => None | _ => Some (bucket B n keys k) end) ->
  0 <= zlen (bucket_block B n keys k) <= max_bytes_length (map snd ht) + 1.
Proof.
  intros G. destruct (max_bytes_length_spec (map snd ht)) as (F & _).
  split; [apply zlen_nonneg|]. unfold bucket_block. specialize (G k).
  destruct (in_bucket B n keys k) eqn:E.
  - change (zlen (@nil Z)) with 0. pose proof (max_fold_spec (map snd ht) 0) as (M & _). fold (max_bytes_length (map snd ht)) in M. lia.
  - rewrite zlen_app. apply tget_In in G. change (zlen [128]) with 1.
    assert (I : In (bucket B n keys k) (map snd ht)) by (apply in_map_iff; eexists; split; [|exact G]; reflexivity).
    specialize (F _ I). lia.
Qed.

Lemma concat_db_ok r c bs ty rt pl blocks : 0 < r -> 0 < c < 2 ^ 62 -> 0 <= bs -> zlen blocks = r * c ->
  Forall (fun b => zlen b <= bs) blocks ->
  let db := mkBytes (concat blocks) (mkInfo' r c bs (map zlen blocks) ty rt pl) in
  db_ok db /\ forall k, (k < length blocks)%nat -> stored db k = nth k blocks [].
Proof.
  intros Hr Hc Hb HL HF db. split.
  - unfold db_ok, db. cbn [b_info b_entries i_rows i_cols i_bs i_lens]. conj_split; try lia.
    + unfold zlen in *. rewrite map_length. exact HL.
    + apply Forall_forall. intros l Hl. apply in_map_iff in Hl as (b & <- & Hin). rewrite Forall_forall in HF.
      specialize (HF b Hin). pose proof (zlen_nonneg b). lia.
    + rewrite zsum_map_zlen. lia.
  - intros k Hk. apply (stored_concat db blocks); auto.
Qed.

Section Build.
Variables (B : hash_fn) (R : runtime) (contents : list (list pkey)) (reb : bool).
Hypothesis HB : hash_ok B.
Hypothesis HR : runtime_ok R.
Let keys := concat contents.
Let n := cells (zlen keys) reb.
Hypothesis Hn : n < w32.
Hypothesis Hk : 10 <= zlen keys.

Lemma sort_zlen : zlen (r_sort R keys) = zlen keys.
Proof. destruct HR as (HS & _). destruct (HS keys) as [P _]. unfold zlen. rewrite (Permutation_length P). reflexivity. Qed.

Lemma dims : exists r c, calculate_num_rows_and_columns (pre_square_num_blocks (zlen keys)) reb = (r, c) /\ 0 < r /\ 0 < c /\ r * c = n.
Proof.
  pose proof (layout_positive (pre_square_num_blocks (zlen keys)) reb (buckets_positive _ Hk)) as L. unfold n, cells.
  destruct (calculate_num_rows_and_columns _ reb) as [r c]. exists r, c. tauto.
Qed.

Lemma build_bytes : exists db, generate_real_key_bytes B R (map Ok contents) reb = Ok db /\ db_ok db /\
  (i_rows (b_info db), i_cols (b_info db)) = calculate_num_rows_and_columns (pre_square_num_blocks (zlen keys)) reb /\
  i_rows (b_info db) * i_cols (b_info db) = n /\ i_type (b_info db) = ""%string /\ i_prooflen (b_info db) = 0 /\ i_root (b_info db) = [] /\
  b_entries db = concat (blocks_of B n (r_sort R keys)) /\ i_lens (b_info db) = map zlen (blocks_of B n (r_sort R keys)) /\
  forall k, 0 <= k < n -> stored db (Z.to_nat k) = bucket_block B n (r_sort R keys) k.
Proof.
  destruct dims as (r & c & EL & Hr & Hc & En). unfold generate_real_key_bytes. rewrite load_ok. fold keys. cbn [bind].
  rewrite sort_zlen, EL, En. assert (N0 : 0 < n) by nia.
  destruct (table_ok B n (r_sort R keys) HB ltac:(lia)) as (ht & ET & _ & G & S & M). rewrite ET. cbn [bind].
  destruct HR as (_ & HO & HO'). rewrite (M _ HO). unfold go_make. destruct (Z.ltb_spec n 0); [lia|]. cbn [bind].
  rewrite (S _ HO'). cbn [bind]. eexists. split; [reflexivity|]. cbn [b_info b_entries i_rows i_cols i_lens i_type i_prooflen i_root].
  destruct (concat_db_ok r c (max_bytes_length (map snd ht) + 1) "" [] 0 (blocks_of B n (r_sort R keys))) as [OK ST]; auto.
  - unfold w32 in Hn. nia.
  - pose proof (bucket_block_len B n (r_sort R keys) 0 ht G). lia.
  - unfold zlen. rewrite blocks_of_length. lia.
  - apply Forall_forall. intros b Hin. apply in_map_iff in Hin as (k & <- & _). apply bucket_block_len. auto.
  - conj_split; auto. intros k Hkn. rewrite ST by (rewrite blocks_of_length; lia). rewrite blocks_of_nth by lia. rewrite Z2Nat.id by lia. reflexivity.
Qed.

Lemma max_block_len_spec lens : forall m, fold_left (fun m l => if m <? l then l else m) lens m >= m /\
  Forall (fun l => l <= fold_left (fun m l => if m <? l then l else m) lens m) lens.
Proof.
  induction lens as [|l lens IH]; intros m; cbn [fold_left]; [split; [lia|constructor]|].
  destruct (IH (if m <? l then l else m)) as [A F]. destruct (Z.ltb_spec m l); split; try lia; constructor; auto; lia.
Qed.

Section Merkle.
Variable H : hash_fn.
Hypothesis HH : hash_ok H.
Hypothesis Hmax : n <= max_records.
Let blocks := blocks_of B n (r_sort R keys).

Lemma blocks_zlen : zlen blocks = n.
Proof. unfold blocks, zlen. rewrite blocks_of_length. destruct dims as (r & c & _ & Hr & Hc & En). nia. Qed.

Lemma build_merkle : fingerprints_ok blocks ->
  exists db t, generate_real_key_merkle H B R (map Ok contents) reb = Ok db /\ merkle_db H blocks t db /\
    (i_rows (b_info db), i_cols (b_info db)) = calculate_num_rows_and_columns (pre_square_num_blocks (zlen keys)) reb /\
    i_rows (b_info db) * i_cols (b_info db) = n.
Proof.
  intros FK. destruct dims as (r & c & EL & Hr & Hc & En). unfold generate_real_key_merkle. rewrite load_ok. fold keys. cbn [bind].
  rewrite sort_zlen, EL, En. assert (N0 : 0 < n) by nia.
  destruct (table_ok B n (r_sort R keys) HB ltac:(lia)) as (ht & ET & _ & G & S & M). rewrite ET. cbn [bind].
  destruct HR as (_ & HO & HO'). unfold go_make. destruct (Z.ltb_spec n 0); [lia|]. cbn [bind].
  rewrite (S _ HO'). cbn [bind]. fold blocks.
  pose proof blocks_zlen as LB.
  destruct (new_using_ok H blocks) as (t & HT & _). { unfold zlen in LB. lia. } { unfold max_records, w32 in *. lia. }
  rewrite HT. cbn [bind].
  assert (ME : exists en, make_merkle_entries blocks t r c = Ok en).
  { unfold make_merkle_entries. rewrite go_slice_ok by lia. cbn [bind]. rewrite Z.sub_0_r. change (Z.to_nat 0) with 0%nat. cbn [skipn].
    destruct (mapM_Forall2 (merkle_entry t) (fun _ _ => True) (firstn (Z.to_nat (r * c)) blocks)) as (es & E & _).
    { intros d Hd. apply (In_nth _ _ []) in Hd as (k & Hkk & <-). rewrite firstn_length in Hkk. rewrite nth_firstn_lt by lia.
      destruct (merkle_entry_ok H blocks t k HH ltac:(lia) HT FK ltac:(lia)) as (p & e & rt & A & _). eauto. }
    rewrite E. cbn [bind]. eauto. }
  destruct ME as (en & ME). rewrite ME. cbn [bind].
  assert (RT : root t = Ok (nth 1 (t_nodes t) [])) by (apply (root_t H blocks t); auto; lia).
  rewrite RT. cbn [bind]. eexists. exists t. split; [reflexivity|].
  unfold merkle_db. cbv zeta. cbn [b_info b_entries i_rows i_cols i_bs i_lens i_type i_root i_prooflen].
  assert (CN : c <= n) by nia. unfold max_records in Hmax.
  rewrite firstn_all2 by (rewrite En; unfold zlen in LB; lia).
  split; [|split; [reflexivity|exact En]].
  conj_split; auto; try lia.
  destruct (max_block_len_spec (map (fun b => zlen b + encoded_proof_length t + 1) blocks) 0) as [_ F]. exact F.
Qed.

(** too few different fingerprints: building the database crashes *)
Lemma build_merkle_panics : (Nat.log2_up (length (nodup Z.eq_dec (map fnv1a64 blocks))) < Nat.log2_up (length blocks))%nat ->
  generate_real_key_merkle H B R (map Ok contents) reb = Panic "index out of range".
Proof.
  intros FK. destruct dims as (r & c & EL & Hr & Hc & En). unfold generate_real_key_merkle. rewrite load_ok. fold keys. cbn [bind].
  rewrite sort_zlen, EL, En. assert (N0 : 0 < n) by nia.
  destruct (table_ok B n (r_sort R keys) HB ltac:(lia)) as (ht & ET & _ & G & S & M). rewrite ET. cbn [bind].
  destruct HR as (_ & HO & HO'). unfold go_make. destruct (Z.ltb_spec n 0); [lia|]. cbn [bind].
  rewrite (S _ HO'). cbn [bind]. fold blocks.
  pose proof blocks_zlen as LB.
  destruct (new_using_ok H blocks) as (t & HT & _). { unfold zlen in LB. lia. } { unfold max_records, w32 in *. lia. }
  rewrite HT. cbn [bind]. unfold make_merkle_entries. rewrite go_slice_ok by lia. cbn [bind]. rewrite Z.sub_0_r. change (Z.to_nat 0) with 0%nat. cbn [skipn].
  rewrite firstn_all2 by (unfold zlen in LB; lia).
  destruct blocks as [|d ds] eqn:EB; [unfold zlen in LB; cbn in LB; lia|]. cbn [mapM].
  assert (P : merkle_entry t d = Panic "index out of range").
  { unfold merkle_entry. rewrite (generate_panics H (d :: ds) t); auto; try lia. left. reflexivity. }
  rewrite P. reflexivity.
Qed.
End Merkle.
End Build.
