(** Lemmas about looking a key up: the client's view of the database, the queries, the bucket that comes back. *)
From Coq Require Import String ZArith List Bool Arith Lia Permutation Sorted.
From Verif Require Import GoBase BaseFacts EncodingModel EncodingProofs MerkleModel MerkleSpec MerkleProofs MerkleProofs2 LWEModel LWEProofs4
  PointModel PointSpec PointProofs PointProofs2 PointProofs3 PointProofs4 PointProofs5 DirectoryModel DirectorySpec DirectoryProofs DirectoryProofs2.
Import ListNotations.
Open Scope Z_scope.
Open Scope go_scope.

(** ** the number of buckets fits 32 bits *)
Lemma round24_upper m : 0 <= m -> round24 m * 2 ^ 23 <= m * (2 ^ 23 + 1).
Proof.
  intros Hm. destruct (Z.eq_dec m 0) as [->|N]; [reflexivity|].
  destruct (Z_le_gt_dec (Z.log2 m - 23) 0) as [L|L].
  - unfold round24. destruct (Z.leb_spec (Z.log2 m - 23) 0); lia.
  - destruct (round24_near m ltac:(lia) ltac:(lia)) as (_ & U & _).
    set (s := Z.log2 m - 23) in *.
    assert (P : 2 ^ (s - 1) * 2 ^ 23 <= m).
    { rewrite <- Z.pow_add_r by lia. transitivity (2 ^ Z.log2 m); [apply Z.pow_le_mono_r; lia|apply Z.log2_spec; lia]. }
    nia.
Qed.

Lemma buckets_upper n : 0 <= n <= 2 ^ 35 -> pre_square_num_blocks n <= 3435975000.
Proof.
  intros H. unfold pre_square_num_blocks. apply Z.lt_succ_r. apply Z.div_lt_upper_bound; [lia|].
  pose proof (round24_upper n ltac:(lia)) as U1.
  assert (R0 : 0 <= round24 n).
  { destruct (Z.eq_dec n 0) as [->|N]; [discriminate|]. pose proof (round24_pos n ltac:(lia)). pose proof (Z.pow_pos_nonneg 2 (Z.log2 n) ltac:(lia) (Z.log2_nonneg n)). lia. }
  pose proof (round24_upper (round24 n * 13421773) ltac:(lia)) as U2. lia.
Qed.

Lemma cells_bound n reb : 0 <= n <= 2 ^ 35 -> cells n reb < w32.
Proof.
  intros H. unfold cells. pose proof (buckets_upper n H) as U. pose proof (pre_square_nonneg n ltac:(lia)) as P.
  destruct reb.
  - pose proof (square_layout (pre_square_num_blocks n) P) as S.
    assert (C0 : 0 <= snd (calculate_num_rows_and_columns (pre_square_num_blocks n) true)) by apply Z.sqrt_nonneg.
    destruct (calculate_num_rows_and_columns _ true) as [r c]. cbn [snd] in C0.
    destruct S as (-> & _ & S). assert (c <= 65000) by (apply S; lia). unfold w32. nia.
  - rewrite vector_layout. unfold w32. lia.
Qed.

Lemma buckets_upper' n : 0 <= n <= 2 ^ 34 -> pre_square_num_blocks n <= 1717990000.
Proof.
  intros H. unfold pre_square_num_blocks. apply Z.lt_succ_r. apply Z.div_lt_upper_bound; [lia|].
  pose proof (round24_upper n ltac:(lia)) as U1.
  assert (R0 : 0 <= round24 n).
  { destruct (Z.eq_dec n 0) as [->|N]; [discriminate|]. pose proof (round24_pos n ltac:(lia)). pose proof (Z.pow_pos_nonneg 2 (Z.log2 n) ltac:(lia) (Z.log2_nonneg n)). lia. }
  pose proof (round24_upper (round24 n * 13421773) ltac:(lia)) as U2. lia.
Qed.

Lemma cells_small n reb : 0 <= n <= 2 ^ 34 -> cells n reb <= max_records.
Proof.
  intros H. unfold cells. pose proof (buckets_upper' n H) as U. pose proof (pre_square_nonneg n ltac:(lia)) as P.
  destruct reb.
  - pose proof (square_layout (pre_square_num_blocks n) P) as S.
    assert (C0 : 0 <= snd (calculate_num_rows_and_columns (pre_square_num_blocks n) true)) by apply Z.sqrt_nonneg.
    destruct (calculate_num_rows_and_columns _ true) as [r c]. cbn [snd] in C0.
    destruct S as (-> & _ & S). assert (c <= 41450) by (apply S; lia). unfold max_records. nia.
  - rewrite vector_layout. unfold max_records. lia.
Qed.

(** ** what a client learns suffices *)
Definition fits (inf : info) : Prop :=
  0 <= i_rows inf < w32 /\ 0 <= i_cols inf < w32 /\ 0 <= i_bs inf < w32 /\ 0 <= i_prooflen inf < w32.

Lemma adv_query D inf rnd index n : fits inf -> pir_query D (advertised inf) rnd index n = pir_query D inf rnd index n.
Proof.
  intros (_ & Hc & _). unfold pir_query, advertised. cbn [i_cols]. unfold u32. rewrite (Z.mod_small (i_cols inf)) by lia. reflexivity.
Qed.

Lemma adv_reconstruct H inf ix answers : fits inf -> reconstruct_pir H (advertised inf) ix answers = reconstruct_pir H inf ix answers.
Proof.
  intros (_ & _ & Hb & Hp). unfold reconstruct_pir, reconstruct_value, advertised. cbn [i_type i_bs i_prooflen i_root]. unfold u32.
  rewrite (Z.mod_small (i_bs inf)), (Z.mod_small (i_prooflen inf)) by lia. reflexivity.
Qed.

Lemma ask_same f : forall qs n ans, length qs = n -> mapM f qs = Ok ans -> ask (repeat f n) qs = Ok ans.
Proof.
  induction qs as [|q qs IH]; intros n ans Hn E; cbn [mapM] in E; subst n; cbn [length repeat ask].
  - exact E.
  - destruct (f q) as [a| | |]; cbn [bind] in E |- *; try discriminate.
    destruct (mapM f qs) as [t| | |] eqn:Et; cbn [bind] in E; try discriminate. rewrite (IH _ t eq_refl eq_refl). exact E.
Qed.

Lemma fetch_generic H B D inf rnd servers arrive id blk : hash_ok B -> fits inf ->
  0 < i_rows inf * i_cols inf < w32 -> arrival_ok arrive ->
  (exists ix qs answers, pir_query D inf rnd (position B (i_rows inf * i_cols inf) id) (zlen servers) = Ok (ix, qs) /\
     ask servers qs = Ok answers /\
     forall answers', Permutation answers answers' -> reconstruct_pir H inf ix answers' = Ok blk) ->
  fetch_bucket H B D (advertised inf) rnd servers arrive id = unpad_block blk.
Proof.
  intros HB HF HN HA (ix & qs & answers & Q & A & RC). unfold fetch_bucket.
  pose proof HF as (Hr & Hc & _).
  assert (E : i_rows (advertised inf) * i_cols (advertised inf) = i_rows inf * i_cols inf).
  { unfold advertised, u32. cbn [i_rows i_cols]. rewrite !Z.mod_small by lia. reflexivity. }
  rewrite E, hash_to_index_ok by auto. cbn [bind].
  pose proof (position_range B (i_rows inf * i_cols inf) id ltac:(lia)) as PR.
  unfold u32. rewrite (Z.mod_small (position _ _ _)) by lia.
  rewrite query_bytes_index by (unfold w32 in *; lia). rewrite adv_query by auto. rewrite Q. cbn [bind].
  rewrite A. cbn [bind]. rewrite adv_reconstruct by auto. rewrite (RC (arrive answers)) by apply HA. reflexivity.
Qed.

(** ** the databases of the servers *)
Lemma sorted_is R keys l : sorts (r_sort R) -> listed keys -> Permutation keys l -> r_sort R l = keys.
Proof.
  intros HS (ND & SK) P. destruct (HS l) as [P1 S1].
  eapply sorted_unique; [| |exact S1|exact SK].
  - eapply Permutation_trans; [apply Permutation_sym; exact P1|apply Permutation_sym; exact P].
  - intros a b Ha Hb R1 R2. cbv beta in R1, R2. eapply nodup_ids_inj; [exact ND| | |apply string_lt_antisym; auto];
      (eapply Permutation_in; [apply Permutation_sym; exact P|]); (eapply Permutation_in; [apply Permutation_sym; exact P1|]); auto.
Qed.

Section Server.
Variables (B : hash_fn) (keys : list pkey) (srv : runtime * list (list pkey)) (reb : bool).
Hypothesis HB : hash_ok B.
Hypothesis HL : listed keys.
Hypothesis HK : 10 <= zlen keys <= 2 ^ 35.
Hypothesis HS : holds keys srv.

Lemma srv_zlen : zlen (concat (snd srv)) = zlen keys.
Proof. destruct HS as [_ P]. unfold zlen. rewrite (Permutation_length P). reflexivity. Qed.

Lemma srv_bytes : exists db, generate_real_key_bytes B (fst srv) (map Ok (snd srv)) reb = Ok db /\ db_ok db /\
  (i_rows (b_info db), i_cols (b_info db)) = calculate_num_rows_and_columns (pre_square_num_blocks (zlen keys)) reb /\
  i_rows (b_info db) * i_cols (b_info db) = cells (zlen keys) reb /\
  i_type (b_info db) = ""%string /\ i_prooflen (b_info db) = 0 /\
  forall k, 0 <= k < cells (zlen keys) reb -> stored db (Z.to_nat k) = bucket_block B (cells (zlen keys) reb) keys k.
Proof using All.
  pose proof HS as [HR P]. pose proof srv_zlen as EZ.
  destruct (build_bytes B (fst srv) (snd srv) reb HB HR) as (db & G & OK & DM & RC & TY & PL & _ & _ & _ & ST);
    rewrite ?EZ; [apply cells_bound; lia|lia|].
  rewrite EZ in *. exists db. conj_split; auto.
  intros k Hk. rewrite ST by auto. rewrite (sorted_is (fst srv) keys); auto. apply HR.
Qed.

Lemma srv_merkle H : hash_ok H -> cells (zlen keys) reb <= max_records -> fingerprints_ok (bucket_blocks B (cells (zlen keys) reb) keys) ->
  exists db t, generate_real_key_merkle H B (fst srv) (map Ok (snd srv)) reb = Ok db /\
  merkle_db H (bucket_blocks B (cells (zlen keys) reb) keys) t db /\
  (i_rows (b_info db), i_cols (b_info db)) = calculate_num_rows_and_columns (pre_square_num_blocks (zlen keys)) reb /\
  i_rows (b_info db) * i_cols (b_info db) = cells (zlen keys) reb.
Proof using All.
  intros HH HM FO. pose proof HS as [HR P]. pose proof srv_zlen as EZ.
  destruct (build_merkle B (fst srv) (snd srv) reb HB HR) with (H := H) as (db & t & G & MD & DM & RC); rewrite ?EZ; auto; try lia.
  - apply cells_bound; lia.
  - rewrite (sorted_is (fst srv) keys); auto. apply HR.
  - rewrite EZ in *. exists db, t. rewrite (sorted_is (fst srv) keys) in MD; auto. apply HR.
Qed.
End Server.

Lemma dims_fit db n : i_rows (b_info db) * i_cols (b_info db) = n -> 0 < i_rows (b_info db) -> 0 < i_cols (b_info db) -> n < w32 ->
  0 <= i_rows (b_info db) < w32 /\ 0 <= i_cols (b_info db) < w32.
Proof. intros E Hr Hc Hn. split; nia. Qed.

Lemma unpad_bucket B n keys k z : in_bucket B n keys k <> [] ->
  unpad_block (bucket_block B n keys k ++ repeat 0 z) = Ok (bucket B n keys k).
Proof.
  intros H. unfold bucket_block. destruct (in_bucket B n keys k); [congruence|]. rewrite <- app_assoc. apply unpad_signal.
Qed.

Lemma servers_same {A} (gen : A -> res bytes_db) db : forall builds dbs, Forall2 (fun b d => gen b = Ok d) builds dbs ->
  (forall b, In b builds -> gen b = Ok db) -> dbs = repeat db (length builds).
Proof.
  intros builds dbs F. induction F as [|b d builds dbs E F IH]; intros HA; [reflexivity|]. cbn [length repeat].
  rewrite <- IH by (intros; apply HA; right; auto). f_equal. specialize (HA b (or_introl eq_refl)). congruence.
Qed.

Lemma map_repeat {A C} (f : A -> C) x n : map f (repeat x n) = repeat (f x) n.
Proof. induction n; cbn; congruence. Qed.

Lemma fetch_plain H B D db reb keys rnd arrive id n : hash_ok B -> 10 <= zlen keys <= 2 ^ 35 ->
  db_ok db -> i_rows (b_info db) * i_cols (b_info db) = cells (zlen keys) reb ->
  i_type (b_info db) = ""%string -> i_prooflen (b_info db) = 0 ->
  (forall k, 0 <= k < cells (zlen keys) reb -> stored db (Z.to_nat k) = bucket_block B (cells (zlen keys) reb) keys k) ->
  i_bs (b_info db) < w32 -> arrival_ok arrive -> 
  (3 <= n /\ zlen rnd = (n - 1) * (i_cols (b_info db) / 8 + 1) \/ n = 2 /\ dpf_ok D) ->
  fetch_bucket H B D (advertised (b_info db)) rnd (repeat (pir_answer D (n =? 2) db) (Z.to_nat n)) arrive id =
  unpad_block (padded db (Z.to_nat (position B (cells (zlen keys) reb) id))).
Proof.
  intros HB HK OK RC TY PL ST BS HA HN. pose proof (cells_bound (zlen keys) reb ltac:(lia)) as CB.
  pose proof OK as (Hr & Hc & _ & Hb & _).
  destruct (dims_fit db _ RC Hr Hc CB) as [Fr Fc]. 
  apply fetch_generic; auto.
  - unfold fits. rewrite PL. unfold w32 in *. lia.
  - rewrite RC. split; [|lia]. rewrite <- RC. nia.
  - rewrite RC. pose proof (position_range B (cells (zlen keys) reb) id ltac:(nia)) as PR.
    destruct HN as [[Hn HR]|[-> HD]].
    + destruct (pir_correct D db rnd (position B (cells (zlen keys) reb) id) n OK ltac:(lia) ltac:(lia) ltac:(lia) HR) as (ix & qs & ans & Q & LQ & A & RCN).
      exists ix, qs, ans. destruct (Z.eqb_spec n 2); [lia|]. unfold zlen at 2. rewrite repeat_length, Z2Nat.id by lia.
      conj_split; auto.
      * apply ask_same; auto. unfold zlen in LQ. lia.
      * intros a' Pa. rewrite reconstruct_plain by auto. auto.
    + destruct (pir_correct_two D db rnd (position B (cells (zlen keys) reb) id) HD OK ltac:(lia)) as (ix & k0 & k1 & a0 & a1 & Q & A0 & A1 & R0 & R1).
      exists ix, [k0; k1], [a0; a1]. cbn [Z.eqb Pos.eqb]. change (Z.to_nat 2) with 2%nat. cbn [repeat]. change (zlen [pir_answer D true db; pir_answer D true db]) with 2.
      conj_split; auto.
      * cbn [ask]. rewrite A0. cbn [bind]. rewrite A1. reflexivity.
      * intros a' Pa. rewrite reconstruct_plain by auto. apply Permutation_length_2_inv in Pa as [->| ->]; auto.
Qed.

Lemma fetch_merkle H B D db t reb keys rnd arrive id n : hash_ok B -> hash_ok H -> 10 <= zlen keys <= 2 ^ 35 ->
  cells (zlen keys) reb <= max_records -> fingerprints_ok (bucket_blocks B (cells (zlen keys) reb) keys) ->
  merkle_db H (bucket_blocks B (cells (zlen keys) reb) keys) t db ->
  i_rows (b_info db) * i_cols (b_info db) = cells (zlen keys) reb ->
  i_bs (b_info db) < w32 -> arrival_ok arrive -> 
  (3 <= n /\ zlen rnd = (n - 1) * (i_cols (b_info db) / 8 + 1) \/ n = 2 /\ dpf_ok D) ->
  fetch_bucket H B D (advertised (b_info db)) rnd (repeat (pir_answer D (n =? 2) db) (Z.to_nat n)) arrive id =
  unpad_block (bucket_block B (cells (zlen keys) reb) keys (position B (cells (zlen keys) reb) id)).
Proof.
  intros HB HH HK HM FO MD RC BS HA HN. pose proof (cells_bound (zlen keys) reb ltac:(lia)) as CB.
  set (n0 := cells (zlen keys) reb) in *.
  assert (LB : zlen (bucket_blocks B n0 keys) = Z.max 0 n0) by (unfold zlen; rewrite blocks_of_length; lia).
  pose proof MD as (_ & _ & PL & _ & Hr & Hc & _ & _ & LN & FB).
  assert (N0 : 0 < n0) by nia. 
  pose proof (merkle_db_ok H _ t db HH ltac:(rewrite LB; unfold max_records in *; lia) FO MD) as OK. pose proof OK as (_ & _ & _ & Hb & _).
  destruct (dims_fit db _ RC Hr ltac:(lia) CB) as [Fr Fc]. pose proof (position_range B n0 id N0) as PR.
  assert (NB : nth (Z.to_nat (position B n0 id)) (bucket_blocks B n0 keys) [] = bucket_block B n0 keys (position B n0 id)).
  { rewrite blocks_of_nth by lia. rewrite Z2Nat.id by lia. reflexivity. }
  rewrite <- NB. 
  apply fetch_generic; auto.
  - unfold fits. pose proof (encoded_proof_length_pos t) as P0. rewrite <- PL in P0.
    assert (In (zlen (nth 0 (bucket_blocks B n0 keys) []) + i_prooflen (b_info db) + 1) (i_lens (b_info db))) as I.
    { rewrite LN. rewrite RC. rewrite firstn_all2 by (rewrite blocks_of_length; lia). rewrite PL.
      apply in_map_iff. eexists. split; [reflexivity|]. apply nth_In. rewrite blocks_of_length. lia. }
    rewrite Forall_forall in FB. specialize (FB _ I). pose proof (zlen_nonneg (nth 0 (bucket_blocks B n0 keys) [])). lia.
  - lia.
  - rewrite RC. destruct HN as [[Hn HR]|[-> HD]].
    + destruct (merkle_correct D H (bucket_blocks B n0 keys) t db rnd (position B n0 id) n HH ltac:(lia) FO MD ltac:(lia) ltac:(lia) ltac:(lia) HR) as (ix & qs & ans & Q & LQ & A & RCN).
      exists ix, qs, ans. destruct (Z.eqb_spec n 2); [lia|]. unfold zlen at 1. rewrite repeat_length, Z2Nat.id by lia.
      conj_split; auto.
      apply ask_same; auto. unfold zlen in LQ. lia.
    + destruct (merkle_correct_two D H (bucket_blocks B n0 keys) t db rnd (position B n0 id) HD HH ltac:(lia) FO MD ltac:(lia)) as (ix & k0 & k1 & a0 & a1 & Q & A0 & A1 & R0 & R1).
      exists ix, [k0; k1], [a0; a1]. cbn [Z.eqb Pos.eqb]. change (Z.to_nat 2) with 2%nat. cbn [repeat]. change (zlen [pir_answer D true db; pir_answer D true db]) with 2.
      conj_split; auto.
      * cbn [ask]. rewrite A0. cbn [bind]. rewrite A1. reflexivity.
      * intros a' Pa. apply Permutation_length_2_inv in Pa as [->| ->]; auto.
Qed.
