(** Proofs about authenticated point queries (Merkle databases). *)
From Coq Require Import String ZArith List Bool Lia Permutation Arith.
From Verif Require Import GoBase BaseFacts EncodingModel EncodingProofs MerkleModel MerkleSpec MerkleProofs MerkleProofs2 MerkleProofs3
  FSSModel XorFacts FSSProofs PointModel PointSpec PointProofs PointProofs2 PointProofs3.
Import ListNotations.
Open Scope Z_scope.
Open Scope go_scope.

(** records stored back to back *)
Lemma zsum_map_zlen {A} (es : list (list A)) : zsum (map zlen es) = zlen (concat es).
Proof. induction es; cbn [map zsum concat]; auto. rewrite IHes, zlen_app. auto. Qed.

Lemma stored_concat db es k : b_entries db = concat es -> i_lens (b_info db) = map zlen es -> (k < length es)%nat ->
  stored db k = nth k es [].
Proof.
  intros EE EL Hk. unfold stored. rewrite EE, EL.
  rewrite firstn_map, zsum_map_zlen. replace (Z.to_nat (zlen (concat (firstn k es)))) with (length (concat (firstn k es))) by (unfold zlen; lia).
  assert (EC : concat es = concat (firstn k es) ++ concat (skipn k es)) by (rewrite <- concat_app, firstn_skipn; auto).
  rewrite EC.
  rewrite skipn_app_exact by reflexivity. rewrite (skipn_S_nth k es []) by auto. cbn [concat].
  apply firstn_app_exact. change 0 with (zlen (@nil Z)). rewrite map_nth. unfold zlen. lia.
Qed.

Lemma Forall2_len {A B} (P : A -> B -> Prop) xs ys : Forall2 P xs ys -> length xs = length ys.
Proof. induction 1; cbn [length]; auto. Qed.

Definition unwrap (H : hash_fn) (inf : info) (block : list Z) : res (list Z) :=
  block <- unpad_block block ;;
  data <- go_slice block 0 (zlen block - i_prooflen inf) ;;
  encoded <- go_slice block (zlen block - i_prooflen inf) (zlen block) ;;
  proof <- decode_proof encoded ;;
  match verify_proof H data proof (i_root inf) with
  | Ok true => Ok data
  | Ok false => Err "REJECT!"
  | Err m => Fatal m
  | Panic m => Panic m
  | Fatal m => Fatal m
  end.

Lemma reconstruct_merkle H inf ix answers : i_type inf = "merkle"%string ->
  reconstruct_pir H inf ix answers = (r <- reconstruct_value inf ix answers ;; unwrap H inf r).
Proof. intros E. unfold reconstruct_pir. rewrite E. reflexivity. Qed.

Lemma reconstruct_plain H inf ix answers : i_type inf = ""%string \/ i_type inf = "classical"%string ->
  reconstruct_pir H inf ix answers = reconstruct_value inf ix answers.
Proof. intros [E|E]; unfold reconstruct_pir; rewrite E; reflexivity. Qed.

Lemma unwrap_ok H inf d e p n : decode_proof e = Ok p -> zlen e = i_prooflen inf -> verify_proof H d p (i_root inf) = Ok true ->
  unwrap H inf (d ++ e ++ [128] ++ repeat 0 n) = Ok d.
Proof.
  intros ED EL EV. unfold unwrap. rewrite app_assoc, unpad_signal. cbn [bind]. rewrite zlen_app, EL.
  replace (zlen d + i_prooflen inf - i_prooflen inf) with (zlen d) by lia.
  rewrite go_slice_prefix by auto. cbn [bind].
  rewrite <- EL, go_slice_suffix by auto. cbn [bind].
  rewrite ED. cbn [bind]. rewrite EV. reflexivity.
Qed.

(** a Merkle database over [blocks]: what both constructors produce *)
Definition merkle_db (H : hash_fn) (blocks : list (list Z)) (t : mtree) (db : bytes_db) : Prop :=
  let inf := b_info db in
  new_using H blocks = Ok t /\ root t = Ok (i_root inf) /\ i_prooflen inf = encoded_proof_length t /\
  i_type inf = "merkle"%string /\ 0 < i_rows inf /\ 0 < i_cols inf < 2 ^ 62 /\ i_rows inf * i_cols inf <= zlen blocks /\
  make_merkle_entries blocks t (i_rows inf) (i_cols inf) = Ok (b_entries db) /\
  i_lens inf = map (fun b => zlen b + encoded_proof_length t + 1) (firstn (Z.to_nat (i_rows inf * i_cols inf)) blocks) /\
  Forall (fun l => l <= i_bs inf) (i_lens inf).

Lemma encoded_proof_length_pos t : 0 <= encoded_proof_length t.
Proof. unfold encoded_proof_length. lia. Qed.

Lemma path_bytes H data t : hash_ok H -> tree_inv H data t -> (0 < length data)%nat ->
  forall e k, (2 ^ e <= k)%nat -> (k < 2 * 2 ^ Nat.log2_up (length data))%nat ->
  bytes (concat (path t k e)).
Proof.
  intros HH I Hp. induction e; intros k Hk Hb; cbn [path concat]; [constructor|]. apply Forall_app. split.
  - apply (node_bytes H data t I Hp HH). unfold sib. pose proof (pow2_pos e). simpl in Hk.
    destruct (Nat.even k) eqn:E; try lia. apply Nat.even_spec in E. destruct E. lia.
  - apply IHe. apply Nat.div_le_lower_bound; simpl in *; lia.
    apply Nat.le_lt_trans with k; auto. apply Nat.div_le_upper_bound; lia.
Qed.

Lemma generated_encoding_bytes H data t d p b : hash_ok H -> zlen data <= max_records -> new_using H data = Ok t ->
  generate_proof t d = Ok p -> encode_proof p = Ok b -> bytes b.
Proof.
  intros HH HM HT E EB.
  pose proof (inv_t H data t HM HT) as I. pose proof (new_using_nonempty H data t HT) as Hp.
  pose proof (log2_up_le_31 _ HM) as D31.
  destruct (in_dec Z.eq_dec (fnv1a64 d) (map fnv1a64 data)) as [Hin|Hin].
  2: { rewrite (generate_absent H data t HM HT) in E; auto. discriminate. }
  destruct (Nat.eq_dec (Nat.log2_up (distinct_fingerprints data)) (Nat.log2_up (length data))) as [He|He].
  - destruct (generate_ok H data t HM HT d Hin He) as (j & (Hj & _) & E'). rewrite E in E'. inversion E'; subst; clear E'.
    destruct (start_range H data t HT j Hj) as [R1 R2].
    rewrite encode_proof_ok in EB; cbn [p_hashes p_index] in *.
    + match type of EB with Ok ?x = Ok b => assert (EB' : x = b) by congruence end. rewrite <- EB'.
      apply Forall_app. split; [apply le_enc_bytes|]. apply Forall_app. split; [|apply le_enc_bytes].
      apply (path_bytes H data t HH I Hp); lia.
    + eapply path_len32; eauto. lia.
    + unfold zlen. rewrite path_length. unfold w32. lia.
  - assert (Nat.log2_up (distinct_fingerprints data) <= Nat.log2_up (length data))%nat
      by (apply Nat.log2_up_le_mono, distinct_le).
    rewrite (generate_panics H data t HM HT) in E; auto. discriminate. lia.
Qed.

Lemma nodup_fingerprints blocks : NoDup (map fnv1a64 blocks) -> fingerprints_ok blocks.
Proof.
  intros ND. split.
  - intros a b Ha Hb E. apply (In_nth _ _ []) in Ha as (i & Hi & <-). apply (In_nth _ _ []) in Hb as (j & Hj & <-). f_equal.
    apply (proj1 (NoDup_nth (map fnv1a64 blocks) (fnv1a64 [])) ND); rewrite ?map_length; auto. rewrite !map_nth. exact E.
  - rewrite nodup_fixed_point by auto. rewrite map_length. reflexivity.
Qed.

Lemma merkle_entry_ok H blocks t k : hash_ok H -> zlen blocks <= max_records -> new_using H blocks = Ok t ->
  fingerprints_ok blocks -> (k < length blocks)%nat ->
  exists p e rt, merkle_entry t (nth k blocks []) = Ok (nth k blocks [] ++ e ++ [128]) /\ decode_proof e = Ok p /\
    zlen e = encoded_proof_length t /\ root t = Ok rt /\ verify_proof H (nth k blocks []) p rt = Ok true /\ bytes e.
Proof.
  intros HH HM HT [FI FD] Hk.
  destruct (generate_ok H blocks t HM HT (nth k blocks [])) as (j & (Hj & Hf & _) & EG).
  { apply in_map, nth_In; auto. } { exact FD. }
  assert (EJ : nth j blocks [] = nth k blocks []) by (apply FI; auto using nth_In).
  pose proof (honest_verifies H blocks t HM HT j Hj) as EV. rewrite EJ in EV.
  set (p := mkProof _ _) in *. pose proof (root_t H blocks t HM HT) as ER.
  destruct (generated_proof_encoding H blocks t (nth k blocks []) p HH HM HT EG) as (e & EE & ED & LE).
  exists p, e, (nth 1 (t_nodes t) []). unfold merkle_entry. rewrite EG. cbn [bind]. rewrite EE. cbn [bind]. conj_split; auto.
  exact (generated_encoding_bytes H blocks t _ p e HH HM HT EG EE).
Qed.

Lemma merkle_db_entries H blocks t db : hash_ok H -> zlen blocks <= max_records -> fingerprints_ok blocks ->
  merkle_db H blocks t db ->
  exists es, b_entries db = concat es /\ i_lens (b_info db) = map zlen es /\
    Forall2 (fun d x => exists p e, x = d ++ e ++ [128] /\ decode_proof e = Ok p /\ zlen e = i_prooflen (b_info db) /\
               verify_proof H d p (i_root (b_info db)) = Ok true /\ bytes e)
      (firstn (Z.to_nat (i_rows (b_info db) * i_cols (b_info db))) blocks) es.
Proof.
  intros HH HM ND (HT & HR & HP & _ & Hr & Hc & HN & HE & HL & _).
  set (n := Z.to_nat _) in *. unfold make_merkle_entries in HE. unfold go_slice in HE.
  destruct (Z.leb_spec 0 0); [|lia]. destruct (Z.leb_spec 0 (i_rows (b_info db) * i_cols (b_info db))); [|nia].
  destruct (Z.leb_spec (i_rows (b_info db) * i_cols (b_info db)) (zlen blocks)); [|lia]. cbn [andb bind] in HE.
  rewrite Z.sub_0_r in HE. fold n in HE. change (Z.to_nat 0) with 0%nat in HE. cbn [skipn] in HE.
  destruct (mapM_Forall2 (merkle_entry t)
    (fun d x => exists p e, x = d ++ e ++ [128] /\ decode_proof e = Ok p /\ zlen e = i_prooflen (b_info db) /\
               verify_proof H d p (i_root (b_info db)) = Ok true /\ bytes e) (firstn n blocks)) as (es & EM & F).
  { intros d Hd. apply (In_nth _ _ []) in Hd as (k & Hk & <-). rewrite firstn_length in Hk.
    rewrite nth_firstn_lt by lia.
    destruct (merkle_entry_ok H blocks t k HH HM HT ND ltac:(lia)) as (p & e & rt & A & B & C & Dr & E & BE).
    rewrite HR in Dr. injection Dr as <-. eexists. split; [exact A|]. exists p, e. conj_split; auto. congruence. }
  rewrite EM in HE. cbn [bind] in HE. injection HE as HE. exists es. conj_split; auto.
  rewrite HL. clear -F HP. induction F as [|d x ds xs (p & e & -> & _ & L & _) F IH]; auto. cbn [map]. rewrite IH. f_equal.
  rewrite !zlen_app, L, HP. unfold zlen at 3. cbn [length]. lia.
Qed.

Lemma merkle_db_bytes H blocks t db : hash_ok H -> zlen blocks <= max_records -> fingerprints_ok blocks ->
  merkle_db H blocks t db -> Forall bytes blocks -> bytes (b_entries db).
Proof.
  intros HH HM ND HD HB. destruct (merkle_db_entries H blocks t db HH HM ND HD) as (es & -> & _ & F).
  apply (Forall_firstn' _ (Z.to_nat (i_rows (b_info db) * i_cols (b_info db)))) in HB.
  induction F as [|d x ds xs (p & e & -> & _ & _ & _ & BE) F IH]; cbn [concat]; [constructor|].
  inversion HB as [|? ? Bd Bds]; subst. apply Forall_app. split; [|apply IH; exact Bds].
  apply Forall_app. split; [exact Bd|]. apply Forall_app. split; [exact BE|]. constructor; [unfold is_byte, w8; lia|constructor].
Qed.

Lemma merkle_db_ok H blocks t db : hash_ok H -> zlen blocks <= max_records -> fingerprints_ok blocks ->
  merkle_db H blocks t db -> db_ok db.
Proof.
  intros HH HM ND HD. destruct (merkle_db_entries H blocks t db HH HM ND HD) as (es & EE & EL & F).
  destruct HD as (HT & HR & HP & _ & Hr & Hc & HN & HE & HL & HB).
  assert (LL : zlen (i_lens (b_info db)) = i_rows (b_info db) * i_cols (b_info db)).
  { rewrite HL. unfold zlen in HN |- *. rewrite map_length, firstn_length. lia. }
  unfold db_ok. conj_split; try lia.
  - destruct (i_lens (b_info db)) as [|l ls] eqn:E; [unfold zlen in LL; cbn in LL; nia|].
    pose proof (Forall_inv HB) as B. cbv beta in B.
    assert (In l (map zlen es)) by (rewrite <- EL; left; auto). apply in_map_iff in H0 as (x & <- & _).
    pose proof (zlen_nonneg x). lia.
  - rewrite EL in HB |- *. apply Forall_forall. intros l Hl. rewrite Forall_forall in HB. specialize (HB l Hl).
    apply in_map_iff in Hl as (x & <- & _). pose proof (zlen_nonneg x). lia.
  - rewrite EL, EE, zsum_map_zlen. lia.
Qed.

(** the honest value of the queried block unwraps to the record *)
Lemma padded_unwraps H blocks t db k : hash_ok H -> zlen blocks <= max_records -> fingerprints_ok blocks ->
  merkle_db H blocks t db -> Z.of_nat k < i_rows (b_info db) * i_cols (b_info db) ->
  unwrap H (b_info db) (padded db k) = Ok (nth k blocks []).
Proof.
  intros HH HM ND HD Hk. destruct (merkle_db_entries H blocks t db HH HM ND HD) as (es & EE & EL & F).
  pose proof HD as (_ & _ & _ & _ & _ & _ & HN & _).
  pose proof (Forall2_len _ _ _ F) as LF. rewrite firstn_length in LF. unfold zlen in HN.
  unfold padded. rewrite (stored_concat db es k EE EL) by lia.
  set (n := (Z.to_nat (i_bs (b_info db)) - _)%nat). clearbody n.
  assert (G : forall ds xs j, Forall2 (fun d x => exists p e, x = d ++ e ++ [128] /\ decode_proof e = Ok p /\ zlen e = i_prooflen (b_info db) /\
               verify_proof H d p (i_root (b_info db)) = Ok true /\ bytes e) ds xs -> (j < length xs)%nat ->
     unwrap H (b_info db) (nth j xs [] ++ repeat 0 n) = Ok (nth j ds [])).
  { induction ds as [|d ds IH]; intros xs j FF Hj; inversion FF as [|? x ? xs' (p & e & -> & ED & LE & EV & _) FF']; subst; cbn [length] in Hj; [lia|].
    destruct j as [|j]; cbn [nth].
    - rewrite <- !app_assoc. apply (unwrap_ok H _ d e p n); auto.
    - apply IH; auto. lia. }
  rewrite (G _ _ k F) by lia. f_equal. apply nth_firstn_lt. lia.
Qed.

Lemma merkle_correct D H blocks t db rnd index n : hash_ok H -> zlen blocks <= max_records -> fingerprints_ok blocks ->
  merkle_db H blocks t db -> 0 <= index < i_rows (b_info db) * i_cols (b_info db) ->
  1 <= n -> n <> 2 -> zlen rnd = (n - 1) * (i_cols (b_info db) / 8 + 1) ->
  exists ix qs answers,
    pir_query D (b_info db) rnd index n = Ok (ix, qs) /\ zlen qs = n /\
    mapM (pir_answer D false db) qs = Ok answers /\
    forall answers', Permutation answers answers' ->
      reconstruct_pir H (b_info db) ix answers' = Ok (nth (Z.to_nat index) blocks []).
Proof.
  intros HH HM ND HD Hi Hn N2 HR.
  destruct (pir_correct D db rnd index n (merkle_db_ok H blocks t db HH HM ND HD) Hi Hn N2 HR) as (ix & qs & answers & A & B & C & E).
  exists ix, qs, answers. conj_split; auto. intros answers' PM. rewrite reconstruct_merkle by apply HD.
  rewrite (E answers' PM). cbn [bind]. apply (padded_unwraps H blocks t db); auto. lia.
Qed.

Lemma merkle_correct_two D H blocks t db rnd index : dpf_ok D -> hash_ok H -> zlen blocks <= max_records -> fingerprints_ok blocks ->
  merkle_db H blocks t db -> 0 <= index < i_rows (b_info db) * i_cols (b_info db) ->
  exists ix k0 k1 a0 a1,
    pir_query D (b_info db) rnd index 2 = Ok (ix, [k0; k1]) /\
    pir_answer D true db k0 = Ok a0 /\ pir_answer D true db k1 = Ok a1 /\
    reconstruct_pir H (b_info db) ix [a0; a1] = Ok (nth (Z.to_nat index) blocks []) /\
    reconstruct_pir H (b_info db) ix [a1; a0] = Ok (nth (Z.to_nat index) blocks []).
Proof.
  intros HF HH HM ND HD Hi.
  destruct (pir_correct_two D db rnd index HF (merkle_db_ok H blocks t db HH HM ND HD) Hi) as (ix & k0 & k1 & a0 & a1 & A & B & C & E1 & E2).
  exists ix, k0, k1, a0, a1. conj_split; auto; rewrite reconstruct_merkle by apply HD.
  - rewrite E1. cbn [bind]. apply (padded_unwraps H blocks t db); auto. lia.
  - rewrite E2. cbn [bind]. apply (padded_unwraps H blocks t db); auto. lia.
Qed.

(** CreateRandomMerkle makes such a database *)
Lemma create_random_merkle_ok H rnd dbLen numRows blockLen : hash_ok H ->
  0 < blockLen -> 0 < numRows -> let numBlocks := dbLen / (8 * blockLen) in
  numRows <= numBlocks <= max_records -> zlen rnd = numBlocks * blockLen ->
  let blocks := map (chunk (Z.to_nat blockLen) rnd) (seq 0 (Z.to_nat numBlocks)) in
  fingerprints_ok blocks ->
  exists t db, create_random_merkle H rnd dbLen numRows blockLen = Ok db /\ merkle_db H blocks t db /\
    i_rows (b_info db) = numRows /\ i_cols (b_info db) = numBlocks / numRows.
Proof.
  intros HH Hb Hr numBlocks HN HR blocks ND.
  assert (D0 : 0 <= dbLen). { unfold numBlocks in HN. destruct (Z.lt_ge_cases dbLen 0); [|lia]. assert (dbLen / (8 * blockLen) < 0) by (apply Z.div_lt_upper_bound; lia). lia. }
  unfold create_random_merkle. destruct (Z.eqb_spec (8 * blockLen) 0); [lia|].
  rewrite Z.quot_div_nonneg by lia. fold numBlocks. cbv zeta.
  assert (M0 : 0 <= numBlocks * blockLen) by nia.
  unfold go_make at 1. destruct (Z.ltb_spec (numBlocks * blockLen) 0); [lia|]. cbn [bind].
  rewrite go_copy_full by (rewrite repeat_length; unfold zlen in HR; lia).
  unfold go_make at 1. destruct (Z.ltb_spec numBlocks 0); [lia|]. cbn [bind].
  rewrite (mapM_ok _ (chunk (Z.to_nat blockLen) rnd)).
  2:{ intros i Hi. apply in_seq in Hi. unfold go_make. destruct (Z.ltb_spec blockLen 0); [lia|]. cbn [bind].
      rewrite go_slice_ok by (unfold zlen in *; nia). cbn [bind]. f_equal.
      replace (Z.to_nat ((Z.of_nat i + 1) * blockLen - Z.of_nat i * blockLen)) with (Z.to_nat blockLen) by nia.
      replace (Z.to_nat (Z.of_nat i * blockLen)) with (i * Z.to_nat blockLen)%nat by nia.
      fold (chunk (Z.to_nat blockLen) rnd i). apply go_copy_full. rewrite repeat_length.
      unfold chunk. rewrite firstn_length, skipn_length. unfold zlen in HR. nia. }
  cbn [bind]. fold (range (Z.to_nat numBlocks)) in blocks. fold blocks.
  assert (LB : zlen blocks = numBlocks).
  { unfold zlen, blocks, range. rewrite map_length, seq_length. lia. }
  assert (LC : forall b, In b blocks -> zlen b = blockLen).
  { intros b Hin. pose proof (chunks_len (Z.to_nat blockLen) (Z.to_nat numBlocks) rnd) as F. unfold zlen in HR.
    specialize (F ltac:(nia)). rewrite Forall_forall in F. unfold zlen. rewrite (F b Hin). lia. }
  destruct (new_using_ok H blocks) as (t & HT & _). { unfold zlen in LB. lia. } { unfold max_records, w32 in *. lia. }
  rewrite HT. destruct (Z.eqb_spec numRows 0); [lia|]. rewrite Z.quot_div_nonneg by lia.
  set (cols := numBlocks / numRows).
  assert (C1 : 1 <= cols) by (apply Z.div_le_lower_bound; lia).
  assert (C2 : numRows * cols <= numBlocks) by (apply Z.mul_div_le; lia).
  unfold go_make. destruct (Z.ltb_spec (numRows * cols) 0); [nia|]. cbn [bind].
  assert (ME : exists en, make_merkle_entries blocks t numRows cols = Ok en).
  { unfold make_merkle_entries. rewrite go_slice_ok by lia. cbn [bind]. rewrite Z.sub_0_r. change (Z.to_nat 0) with 0%nat. cbn [skipn].
    destruct (mapM_Forall2 (merkle_entry t) (fun _ _ => True) (firstn (Z.to_nat (numRows * cols)) blocks)) as (es & E & _).
    { intros d Hd. apply (In_nth _ _ []) in Hd as (k & Hk & <-). rewrite firstn_length in Hk. rewrite nth_firstn_lt by lia.
      destruct (merkle_entry_ok H blocks t k HH ltac:(lia) HT ND ltac:(lia)) as (p & e & rt & A & _). eauto. }
    rewrite E. cbn [bind]. eauto. }
  destruct ME as (en & ME). rewrite ME. cbn [bind].
  assert (RT : root t = Ok (nth 1 (t_nodes t) [])) by (apply (root_t H blocks t); auto; lia).
  rewrite RT. cbn [bind]. exists t. eexists. split; [reflexivity|]. split; [|split; reflexivity].
  assert (RL : repeat (blockLen + encoded_proof_length t + 1) (Z.to_nat (numRows * cols)) =
    map (fun b => zlen b + encoded_proof_length t + 1) (firstn (Z.to_nat (numRows * cols)) blocks)).
  { apply nth_ext with (d := 0) (d' := zlen (@nil Z) + encoded_proof_length t + 1).
    - rewrite repeat_length, map_length, firstn_length. unfold zlen in LB. lia.
    - intros k Hk. rewrite repeat_length in Hk. rewrite (map_nth (fun b => zlen b + encoded_proof_length t + 1)).
      rewrite nth_firstn_lt by lia. rewrite (LC (nth k blocks [])) by (apply nth_In; unfold zlen in LB; lia).
      rewrite (nth_indep _ 0 (blockLen + encoded_proof_length t + 1)) by (rewrite repeat_length; auto). apply nth_repeat. }
  unfold merkle_db. cbn [b_info b_entries i_rows i_cols i_bs i_lens i_type i_root i_prooflen].
  conj_split; auto; try lia.
  - unfold max_records in *. nia.
  - apply Forall_forall. intros l Hl. apply repeat_spec in Hl. lia.
Qed.

(** ** integrity *)
Lemma decode_mapM_bound (p : list Z) m : forall n s (hs : list (list Z)),
  mapM (fun i => go_slice p (u32 (4 + u32 (32 * Z.of_nat i))) (u32 (4 + u32 (32 * u32 (Z.of_nat i + 1))))) (seq s n) = Ok hs ->
  zlen p < 36 + 32 * Z.of_nat m -> (m <= 31)%nat -> (s <= m)%nat ->
  (s + n <= m)%nat /\ length hs = n /\ Forall (fun h => length h = 32%nat) hs.
Proof.
  induction n as [|n IH]; intros s hs E HP Hm Hs; cbn [seq mapM] in E.
  - injection E as <-. conj_split; auto. lia.
  - assert (W : u32 (4 + u32 (32 * Z.of_nat s)) = 4 + 32 * Z.of_nat s /\
                u32 (4 + u32 (32 * u32 (Z.of_nat s + 1))) = 36 + 32 * Z.of_nat s).
    { unfold u32, w32. split; rewrite ?Z.mod_small; try lia; rewrite ?(Z.mod_small (Z.of_nat s + 1)) by lia; rewrite ?Z.mod_small; lia. }
    destruct W as [W1 W2]. rewrite W1, W2 in E.
    unfold go_slice in E at 1. destruct (Z.leb_spec 0 (4 + 32 * Z.of_nat s)); [|lia].
    destruct (Z.leb_spec (4 + 32 * Z.of_nat s) (36 + 32 * Z.of_nat s)); [|lia]. cbn [andb] in E.
    destruct (Z.leb_spec (36 + 32 * Z.of_nat s) (zlen p)); cbn [bind] in E; [|discriminate].
    destruct (mapM _ (seq (S s) n)) as [hs'| | |] eqn:E'; cbn [bind] in E; try discriminate.
    injection E as <-. destruct (IH (S s) hs' E' HP Hm ltac:(lia)) as (A & B & C). conj_split; [lia|cbn [length]; lia|].
    constructor; auto. rewrite firstn_length, skipn_length. unfold zlen in *. lia.
Qed.

Lemma decode_proof_shape p pr d : zlen p = 8 + 32 * Z.of_nat d -> (d <= 31)%nat -> bytes p -> decode_proof p = Ok pr ->
  (length (p_hashes pr) <= d)%nat /\ Forall (fun h => length h = 32%nat) (p_hashes pr) /\ is_u32 (p_index pr).
Proof.
  intros HL Hd HB E. unfold decode_proof in E.
  rewrite go_slice_ok in E by lia. cbn [bind] in E. change (Z.to_nat (4 - 0)) with 4%nat in E. change (Z.to_nat 0) with 0%nat in E. cbn [skipn] in E.
  assert (L4 : length (firstn 4 p) = 4%nat) by (rewrite firstn_length; unfold zlen in HL; lia).
  unfold le_u32 in E at 1. rewrite L4 in E. cbn [Nat.ltb Nat.leb bind] in E. rewrite firstn_firstn, Nat.min_id in E.
  set (nh := Z.to_nat (le_dec (firstn 4 p))) in E.
  destruct (mapM _ (range nh)) as [hs| | |] eqn:EM; cbn [bind] in E; try discriminate.
  destruct (decode_mapM_bound p d nh 0 hs EM ltac:(lia) Hd ltac:(lia)) as (A & B & C).
  rewrite go_slice_ok in E by lia. cbn [bind] in E.
  set (ib := firstn _ _) in E.
  assert (LI : length ib = 4%nat). { unfold ib. rewrite firstn_length, skipn_length. unfold zlen in *. lia. }
  assert (BI : bytes ib). { unfold ib. apply Forall_firstn', Forall_skipn'. exact HB. }
  unfold le_u32 in E. rewrite LI in E. cbn [Nat.ltb Nat.leb bind] in E. rewrite (firstn_all2 ib) in E by lia. injection E as <-. cbn [p_hashes p_index].
  split; [lia|]. split; [auto|]. unfold is_u32. pose proof (le_dec_bound ib BI) as BD.
  unfold zlen in BD. rewrite LI in BD. exact BD.
Qed.

Lemma unwrap_accept H inf r data d : bytes r -> i_prooflen inf = 8 + 32 * Z.of_nat d -> (d <= 31)%nat -> unwrap H inf r = Ok data ->
  exists p, (length (p_hashes p) <= d)%nat /\ Forall (fun h => length h = 32%nat) (p_hashes p) /\ is_u32 (p_index p) /\
    verify_proof H data p (i_root inf) = Ok true.
Proof.
  intros HB HP Hd E. unfold unwrap in E.
  destruct (unpad_block_cases r) as [(_ & m & EU)|(block & b & n & ER & _ & EU)]; rewrite EU in E; cbn [bind] in E; [discriminate|].
  assert (BB : bytes block). { rewrite ER in HB. apply Forall_app in HB. tauto. }
  destruct (go_slice block 0 (zlen block - i_prooflen inf)) as [dd| | |] eqn:E1; cbn [bind] in E; try discriminate.
  destruct (go_slice block (zlen block - i_prooflen inf) (zlen block)) as [en| | |] eqn:E2; cbn [bind] in E; try discriminate.
  destruct (decode_proof en) as [p| | |] eqn:E3; cbn [bind] in E; try discriminate.
  destruct (verify_proof H dd p (i_root inf)) as [[|]| | |] eqn:E4; try discriminate. injection E as ->.
  exists p.
  assert (LE : zlen en = 8 + 32 * Z.of_nat d /\ bytes en).
  { unfold go_slice in E2. destruct (_ && _)%bool eqn:EB; [|discriminate]. injection E2 as <-.
    apply andb_true_iff in EB as [EB _]. apply andb_true_iff in EB as [EB _]. apply Z.leb_le in EB. split.
    - unfold zlen in *. rewrite firstn_length, skipn_length. lia.
    - apply Forall_firstn', Forall_skipn'. exact BB. }
  destruct LE as [LE BE]. destruct (decode_proof_shape en p d LE Hd BE E3) as (A & B & C). conj_split; auto.
Qed.

Lemma xor_into_bytes d s : bytes d -> bytes s -> bytes (xor_into d d s).
Proof.
  revert s. induction d as [|x d IH]; intros s Hd Hs; [exact Hd|]. destruct s as [|y s]; cbn [xor_into]; [exact Hd|].
  inversion Hd; inversion Hs; subst. constructor; [apply lxor_byte; auto|]. apply IH; auto.
Qed.

Lemma sum_answers_bytes bs ix : forall answers sum r, Forall bytes answers -> bytes sum ->
  sum_answers bs ix answers sum = Ok r -> bytes r.
Proof.
  induction answers as [|a t IH]; intros sum r HF HB E; cbn [sum_answers] in E; [injection E as <-; auto|].
  inversion HF as [|? ? Ha Ht]; subst. unfold go_slice in E. destruct (_ && _)%bool; cbn [bind] in E; [|discriminate].
  eapply IH; [exact Ht| |exact E]. apply xor_into_bytes; auto. apply Forall_firstn', Forall_skipn'. exact Ha.
Qed.

Lemma zeros_bytes n : bytes (repeat 0 n).
Proof. apply Forall_forall. intros x Hx. apply repeat_spec in Hx. subst. unfold is_byte, w8. lia. Qed.

Lemma reconstruct_value_bytes inf ix answers r : Forall bytes answers -> reconstruct_value inf ix answers = Ok r -> bytes r.
Proof.
  intros HF E. unfold reconstruct_value, go_make in E. destruct (i_bs inf <? 0); cbn [bind] in E; [discriminate|].
  eapply sum_answers_bytes; [exact HF| |exact E]. apply Forall_forall. intros x Hx. apply repeat_spec in Hx. subst. unfold is_byte, w8. lia.
Qed.

Lemma encoded_proof_length_full H blocks t : zlen blocks <= max_records -> fingerprints_ok blocks -> new_using H blocks = Ok t ->
  encoded_proof_length t = 8 + 32 * Z.of_nat (Nat.log2_up (length blocks)).
Proof.
  intros HM [_ ND] HT. unfold encoded_proof_length.
  pose proof (inv_t H blocks t HM HT) as I. unfold ceil_log2. rewrite (ti_map _ _ _ I), md_of_length.
  unfold distinct_fingerprints. rewrite ND. unfold hash_length. lia.
Qed.

(** proofs shorter than the depth authenticate only 60-byte strings *)
Lemma binding_short H data t d p : zlen data <= max_records -> new_using H data = Ok t -> hash_ok H ->
  (length (p_hashes p) < Nat.log2_up (length data))%nat -> Forall (fun h => length h = 32%nat) (p_hashes p) ->
  is_u32 (p_index p) -> verify_proof H d p (nth 1 (t_nodes t) []) = Ok true ->
  length d = 60%nat \/ collision_found H (tree_inputs H data) (proof_inputs H d p).
Proof.
  intros HM HT HH HL HF HI E. unfold is_u32 in HI. unfold verify_proof, generate_proof_hash in E.
  rewrite index_to_bytes_ok in E by auto. cbn [bind] in E.
  injection E as E. apply bytes_equal_spec in E. symmetry in E.
  pose proof (inv_t H data t HM HT) as I. pose proof (new_using_nonempty H data t HT) as Hp.
  pose proof (log2_up_le_31 _ HM) as D31.
  set (dn := Nat.log2_up (length data)) in *. set (m := length (p_hashes p)) in *.
  pose proof (pow2_le_31 m ltac:(lia)) as P.
  assert (P0 : 0 < 2 ^ Z.of_nat m) by (apply Z.pow_pos_nonneg; lia).
  set (i := Z.to_nat (p_index p mod 2 ^ Z.of_nat m)).
  pose proof (Z.mod_pos_bound (p_index p) _ P0) as MB.
  assert (Hi : (i < 2 ^ m)%nat). { unfold i. apply Nat2Z.inj_lt. rewrite of_nat_pow2. lia. }
  assert (EK : Z.of_nat (2 ^ m + i) mod 2 ^ Z.of_nat m = p_index p mod 2 ^ Z.of_nat m).
  { rewrite Nat2Z.inj_add. rewrite of_nat_pow2. unfold i. rewrite Z2Nat.id by lia.
    rewrite <- Z.add_mod_idemp_l, Z.mod_same, Z.add_0_l, Z.mod_mod by lia. auto. }
  assert (SM : (2 ^ S m <= 2 ^ dn)%nat) by (apply Nat.pow_le_mono_r; lia).
  assert (SM' : (2 ^ S m = 2 * 2 ^ m)%nat) by reflexivity.
  destruct (descent H data t HM HT HH (p_hashes p) (H (d ++ le_enc 4 (p_index p)))
     (u32 (p_index p + u32 (2 ^ zlen (p_hashes p)))) (p_index p) (2 ^ m + i)%nat) as [D|D]; try assumption.
  - fold m. lia.
  - fold dn. lia.
  - unfold zlen. fold m. rewrite EK. unfold u32.
    rewrite (Z.mod_small (2 ^ Z.of_nat m)) by (unfold w32, max_records in *; lia).
    replace w32 with (2 ^ Z.of_nat m * 2 ^ (32 - Z.of_nat m)).
    2: { rewrite <- Z.pow_add_r by lia. replace (Z.of_nat m + (32 - Z.of_nat m)) with 32 by lia. reflexivity. }
    rewrite Z.rem_mul_r; [|lia|apply Z.pow_pos_nonneg; lia].
    rewrite Z.mul_comm, Z.mod_add, Z.mod_mod by lia.
    rewrite <- Z.add_mod_idemp_r, Z.mod_same, Z.add_0_r by lia. auto.
  - unfold zlen. fold m. rewrite EK. auto.
  - apply HH.
  - pose proof (pow2_pos m) as PP.
    assert (HK : (1 <= 2 ^ m + i < 2 ^ dn)%nat) by lia.
    pose proof (ti_branch _ _ _ I (2 ^ m + i) HK) as EB.
    set (l := nth (2 * (2 ^ m + i)) (t_nodes t) []) in *. set (r := nth (2 * (2 ^ m + i) + 1) (t_nodes t) []) in *.
    destruct (list_eq_dec Z.eq_dec (d ++ le_enc 4 (p_index p)) (l ++ r)) as [Eq|Ne].
    + left. assert (Ll : length l = 32%nat) by (apply (node_length H data t I Hp HH); fold dn; lia).
      assert (Lr : length r = 32%nat) by (apply (node_length H data t I Hp HH); fold dn; lia).
      apply (f_equal (@length Z)) in Eq. rewrite !app_length, le_enc_length in Eq. lia.
    + right. exists (l ++ r), (d ++ le_enc 4 (p_index p)). conj_split; auto.
      * apply (node_input_in H data t I Hp). exact HK.
      * left; auto.
      * rewrite <- EB. congruence.
  - right. destruct D as (x & y & Hx & Hy & N & Ec). exists x, y. conj_split; auto. right. auto.
Qed.

(** whatever the servers answer, accepted data is a record, or 60 bytes long, or exhibits a hash failure *)
Lemma accepted_data H blocks t db ix answers data : hash_ok H -> zlen blocks <= max_records -> fingerprints_ok blocks ->
  merkle_db H blocks t db -> Forall bytes answers -> reconstruct_pir H (b_info db) ix answers = Ok data ->
  In data blocks \/ length data = 60%nat \/
  exists p, collision_found H (tree_inputs H blocks) (proof_inputs H data p) \/ padding_preimage H (proof_inputs H data p).
Proof.
  intros HH HM ND HD HB E. pose proof HD as (HT & HR & HP & HY & _). rewrite reconstruct_merkle in E by auto.
  destruct (reconstruct_value (b_info db) ix answers) as [r| | |] eqn:ER; cbn [bind] in E; try discriminate.
  pose proof (reconstruct_value_bytes _ _ _ _ HB ER) as Br.
  rewrite (encoded_proof_length_full H blocks t HM ND HT) in HP.
  destruct (unwrap_accept H (b_info db) r data _ Br HP (log2_up_le_31 _ HM) E) as (p & L & F & I & V).
  rewrite (root_t H blocks t HM HT) in HR. injection HR as HR. rewrite <- HR in V.
  apply Nat.lt_eq_cases in L as [L|L].
  - destruct (binding_short H blocks t data p HM HT HH L F I V) as [|C]; auto. right. right. exists p. auto.
  - destruct (binding H blocks t HM HT HH data p L F I V) as [(i & Hi & _ & ->)|[C|C]].
    + left. apply nth_In. auto.
    + right. right. exists p. auto.
    + right. right. exists p. auto.
Qed.

(** one server decides what is reconstructed *)
Lemma sum_answers_first bs ix rows : 0 <= bs -> 0 <= ix < rows -> forall rest target,
  Forall (fun a => zlen a = rows * bs /\ bytes a) rest -> zlen target = bs -> bytes target ->
  exists a, zlen a = rows * bs /\ bytes a /\ sum_answers bs ix (a :: rest) (repeat 0 (Z.to_nat bs)) = Ok target.
Proof.
  intros Hb Hx rest target FR LT BT.
  assert (FL : Forall (fun a => (ix + 1) * bs <= zlen a) rest).
  { eapply Forall_impl; [|exact FR]. cbv beta. intros a [-> _]. nia. }
  destruct (sum_answers_ok bs ix Hb ltac:(lia) rest (repeat 0 (Z.to_nat bs)) (repeat_length _ _) FL) as (R & ER & LR & NR).
  assert (BR : bytes R).
  { refine (sum_answers_bytes bs ix rest (repeat 0 (Z.to_nat bs)) R _ _ ER).
    2:{ apply Forall_forall. intros x Hx'. apply repeat_spec in Hx'. subst. unfold is_byte, w8. lia. }
    eapply Forall_impl; [|exact FR]. cbv beta. tauto. }
  set (mid := xor_list R target).
  assert (LM : length mid = Z.to_nat bs) by (unfold mid; rewrite xor_list_length; unfold zlen in LT; lia).
  set (a := repeat 0 (Z.to_nat (ix * bs)) ++ mid ++ repeat 0 (Z.to_nat ((rows - ix - 1) * bs))).
  assert (LA : zlen a = rows * bs).
  { unfold a. rewrite !zlen_app. unfold zlen. rewrite !repeat_length, LM. nia. }
  exists a. conj_split; auto.
  - unfold a. apply Forall_app. split; [|apply Forall_app; split].
    + apply Forall_forall. intros x Hx'. apply repeat_spec in Hx'. subst. unfold is_byte, w8; lia.
    + unfold mid. apply xor_list_bytes; auto.
    + apply Forall_forall. intros x Hx'. apply repeat_spec in Hx'. subst. unfold is_byte, w8; lia.
  - destruct (sum_answers_ok bs ix Hb ltac:(lia) (a :: rest) (repeat 0 (Z.to_nat bs)) (repeat_length _ _)) as (S & ES & LS & NS).
    { constructor; auto. rewrite LA. nia. }
    rewrite ES. f_equal. apply nth_ext with (d := 0) (d' := 0). { unfold zlen in LT. lia. }
    intros p Hp. rewrite NS by lia. unfold xors in *. cbn [map fold_right].
    assert (EM : nth (Z.to_nat (ix * bs) + p) a 0 = Z.lxor (nth p R 0) (nth p target 0)).
    { unfold a. rewrite app_nth2 by (rewrite repeat_length; lia). rewrite repeat_length.
      replace (Z.to_nat (ix * bs) + p - Z.to_nat (ix * bs))%nat with p by lia.
      rewrite app_nth1 by lia. unfold mid. apply xor_list_nth; unfold zlen in LT; lia. }
    rewrite EM, NR by lia. rewrite !nth_repeat, !Z.lxor_0_l.
    rewrite (Z.lxor_comm _ (nth p target 0)), Z.lxor_assoc, Z.lxor_nilpotent. apply Z.lxor_0_r.
Qed.

Lemma steer inf ix rest target : 0 <= i_bs inf -> 0 <= ix < i_rows inf ->
  Forall (fun a => zlen a = i_rows inf * i_bs inf /\ bytes a) rest -> zlen target = i_bs inf -> bytes target ->
  exists a, zlen a = i_rows inf * i_bs inf /\ bytes a /\ reconstruct_value inf ix (a :: rest) = Ok target.
Proof.
  intros Hb Hx FR LT BT. unfold reconstruct_value, go_make. destruct (Z.ltb_spec (i_bs inf) 0); [lia|]. cbn [bind].
  apply (sum_answers_first (i_bs inf) ix (i_rows inf)); auto.
Qed.

(** any other record is accepted in place of the queried one *)
Lemma substitution H blocks t db ix rest j : hash_ok H -> zlen blocks <= max_records -> fingerprints_ok blocks ->
  merkle_db H blocks t db -> Forall bytes blocks -> 0 <= ix < i_rows (b_info db) -> Z.of_nat j < i_rows (b_info db) * i_cols (b_info db) ->
  Forall (fun a => zlen a = i_rows (b_info db) * i_bs (b_info db) /\ bytes a) rest ->
  exists a, zlen a = i_rows (b_info db) * i_bs (b_info db) /\ bytes a /\
    reconstruct_pir H (b_info db) ix (a :: rest) = Ok (nth j blocks []).
Proof.
  intros HH HM ND HD HB Hx Hj FR. pose proof (merkle_db_bytes H blocks t db HH HM ND HD HB) as BE. pose proof (merkle_db_ok H blocks t db HH HM ND HD) as DK.
  pose proof DK as (_ & _ & _ & Hb & HL & _).
  destruct (steer (b_info db) ix rest (padded db j) Hb Hx FR) as (a & La & Ba & E).
  - unfold zlen in *. rewrite padded_length by (auto; lia). lia.
  - unfold padded. apply Forall_app. split; [|apply zeros_bytes]. unfold stored. apply Forall_firstn', Forall_skipn'. exact BE.
  - exists a. conj_split; auto. rewrite reconstruct_merkle by apply HD. rewrite E. cbn [bind].
    apply (padded_unwraps H blocks t db); auto.
Qed.

(** a 60-byte string that is not a record is accepted *)
Lemma lifted_forgery H blocks t db ix rest : hash_ok H -> zlen blocks <= max_records -> fingerprints_ok blocks ->
  merkle_db H blocks t db -> (2 <= length blocks)%nat -> 0 <= ix < i_rows (b_info db) ->
  60 + i_prooflen (b_info db) + 1 <= i_bs (b_info db) ->
  Forall (fun a => zlen a = i_rows (b_info db) * i_bs (b_info db) /\ bytes a) rest ->
  exists a d, zlen a = i_rows (b_info db) * i_bs (b_info db) /\ bytes a /\ length d = 60%nat /\
    reconstruct_pir H (b_info db) ix (a :: rest) = Ok d.
Proof.
  intros HH HM ND HD H2 Hx HBS FR. pose proof HD as (HT & HR & HP & HY & _).
  rewrite (encoded_proof_length_full H blocks t HM ND HT) in HP.
  set (dep := Nat.log2_up (length blocks)) in *.
  rewrite (root_t H blocks t HM HT) in HR. injection HR as HR.
  destruct (forgery H blocks t HM HT HH H2) as (L60 & Bd & Ip & V). rewrite HR in V.
  set (d := nth 2 (t_nodes t) [] ++ _) in *. set (p := mkProof _ _) in *.
  set (enc := le_enc 4 0 ++ repeat 0 (32 * dep)%nat ++ le_enc 4 (p_index p)).
  assert (DE : decode_proof enc = Ok p).
  { unfold enc. change (le_enc 4 0) with (le_enc 4 (zlen (@nil (list Z)))).
    apply (decode_proof_ok [] (p_index p) (repeat 0 (32 * dep)%nat)); auto. reflexivity. }
  assert (LE : zlen enc = i_prooflen (b_info db)).
  { unfold enc. rewrite !zlen_app. unfold zlen. rewrite !le_enc_length, repeat_length. lia. }
  set (target := d ++ enc ++ [128] ++ repeat 0 (Z.to_nat (i_bs (b_info db) - (60 + i_prooflen (b_info db) + 1)))).
  destruct (steer (b_info db) ix rest target) as (a & La & Ba & E); auto; try lia.
  - unfold target. rewrite !zlen_app, LE. unfold zlen. rewrite L60, repeat_length. cbn [length]. lia.
  - assert (BE : bytes enc).
    { unfold enc. apply Forall_app. split; [apply le_enc_bytes|]. apply Forall_app. split; [apply zeros_bytes|apply le_enc_bytes]. }
    unfold target. apply Forall_app. split; [exact Bd|]. apply Forall_app. split; [exact BE|].
    apply Forall_app. split; [|apply zeros_bytes]. constructor; [unfold is_byte, w8; lia|constructor].
  - exists a, d. conj_split; auto. rewrite reconstruct_merkle by auto. rewrite E. cbn [bind].
    unfold target. apply (unwrap_ok H _ d enc p); auto.
Qed.

(** ** crashes *)
Lemma short_answer_panics H inf ix a rest : 0 < i_bs inf -> 0 <= ix -> zlen a < (ix + 1) * i_bs inf ->
  i_type inf = ""%string \/ i_type inf = "classical"%string \/ i_type inf = "merkle"%string ->
  is_panic (reconstruct_pir H inf ix (a :: rest)) = true.
Proof.
  intros Hb Hx HL HY.
  assert (E : exists m, reconstruct_value inf ix (a :: rest) = Panic m).
  { unfold reconstruct_value, go_make. destruct (Z.ltb_spec (i_bs inf) 0); [lia|]. cbn [bind sum_answers]. unfold go_slice.
    destruct (Z.leb_spec (i_bs inf * (ix + 1)) (zlen a)); [nia|]. rewrite andb_false_r. cbn [bind]. eauto. }
  destruct E as (m & E). destruct HY as [HY|[HY|HY]].
  - rewrite reconstruct_plain by auto. rewrite E. auto.
  - rewrite reconstruct_plain by auto. rewrite E. auto.
  - rewrite reconstruct_merkle by auto. rewrite E. auto.
Qed.

Lemma zero_sum_panics H inf ix rest : 0 <= i_bs inf -> 0 <= ix < i_rows inf -> i_type inf = "merkle"%string ->
  Forall (fun a => zlen a = i_rows inf * i_bs inf /\ bytes a) rest ->
  exists a, zlen a = i_rows inf * i_bs inf /\ bytes a /\ is_panic (reconstruct_pir H inf ix (a :: rest)) = true.
Proof.
  intros Hb Hx HY FR. destruct (steer inf ix rest (repeat 0 (Z.to_nat (i_bs inf))) Hb Hx FR) as (a & La & Ba & E).
  - unfold zlen. rewrite repeat_length. lia.
  - apply zeros_bytes.
  - exists a. conj_split; auto. rewrite reconstruct_merkle by auto. rewrite E. cbn [bind]. unfold unwrap.
    destruct (unpad_block_cases (repeat 0 (Z.to_nat (i_bs inf)))) as [(_ & m & EU)|(block & b & n & ER & NB & _)].
    + rewrite EU. reflexivity.
    + exfalso. apply NB. apply (repeat_spec (Z.to_nat (i_bs inf)) 0 b). rewrite ER. apply in_app_iff. right. left. auto.
Qed.

Lemma long_answers_no_panic H inf ix answers : 0 <= i_bs inf -> 0 <= ix ->
  i_type inf = ""%string \/ i_type inf = "classical"%string ->
  Forall (fun a => (ix + 1) * i_bs inf <= zlen a) answers ->
  exists r, reconstruct_pir H inf ix answers = Ok r /\ zlen r = i_bs inf.
Proof.
  intros Hb Hx HY HF. rewrite reconstruct_plain by auto. unfold reconstruct_value, go_make.
  destruct (Z.ltb_spec (i_bs inf) 0); [lia|]. cbn [bind].
  destruct (sum_answers_ok (i_bs inf) ix Hb Hx answers (repeat 0 (Z.to_nat (i_bs inf))) (repeat_length _ _) HF) as (r & E & L & _).
  exists r. split; auto. unfold zlen. lia.
Qed.
