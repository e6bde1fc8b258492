(** Lemmas about EncodingModel and the codecs of MatrixModel. *)
From Coq Require Import String ZArith List Bool Lia Permutation.
From Verif Require Import GoBase BaseFacts EncodingModel MatrixModel.
Import ListNotations.
Open Scope Z_scope.

(** ** uint32 slices *)
Lemma flat_map_concat {A B} (f : A -> list B) l : flat_map f l = concat (map f l).
Proof. induction l; simpl; congruence. Qed.

Lemma fixed_codec_roundtrip (k : nat) (enc : Z -> list Z) (dec : list Z -> Z) (P : Z -> Prop) l :
  (0 < k)%nat -> (forall v, length (enc v) = k) -> (forall v, P v -> dec (enc v) = v) ->
  Forall P l -> map dec (chunks k (flat_map enc l)) = l.
Proof.
  intros Hk HL HD HP. rewrite flat_map_concat, <- (app_nil_r (concat _)).
  rewrite chunks_concat; auto.
  - rewrite map_map. rewrite <- (map_id l) at 2. apply map_ext_Forall.
    eapply Forall_impl; [|apply HP]. auto.
  - apply Forall_forall. intros x Hx. apply in_map_iff in Hx as (v & <- & _). auto.
Qed.

Lemma uint32_slice_roundtrip l :
  Forall is_u32 l -> bytes_to_uint32_slice (uint32_slice_to_bytes l) = l.
Proof.
  intros. unfold bytes_to_uint32_slice, uint32_slice_to_bytes.
  apply fixed_codec_roundtrip with (P := is_u32); try assumption; try lia.
  - intros; apply be_enc_length.
  - intros v Hv. apply be_dec_enc. unfold is_u32, w32 in Hv. change (256 ^ Z.of_nat 4) with 4294967296. auto.
Qed.

Lemma uint32_slice_to_bytes_length l : length (uint32_slice_to_bytes l) = (4 * length l)%nat.
Proof.
  induction l; auto. unfold uint32_slice_to_bytes in *. cbn [flat_map length].
  rewrite app_length, IHl, be_enc_length. lia.
Qed.

Lemma uint32_slice_to_bytes_bytes l : bytes (uint32_slice_to_bytes l).
Proof.
  induction l; [constructor|]. unfold uint32_slice_to_bytes in *. cbn [flat_map].
  apply bytes_app; auto. apply be_enc_bytes.
Qed.

Lemma bytes_to_uint32_slice_prefix b :
  bytes b ->
  uint32_slice_to_bytes (bytes_to_uint32_slice b) = firstn (4 * (length b / 4)) b.
Proof.
  intros Hb. rewrite <- chunks_prefix by lia. unfold uint32_slice_to_bytes, bytes_to_uint32_slice.
  rewrite flat_map_concat, map_map. f_equal. rewrite <- (map_id (chunks 4 b)) at 2.
  apply map_ext_Forall.
  pose proof (chunks_all_len 4 b ltac:(lia)) as H1. pose proof (chunks_forall _ 4 b ltac:(lia) Hb) as H2.
  rewrite Forall_forall in *. intros x Hx. specialize (H1 _ Hx). specialize (H2 _ Hx).
  rewrite <- H1 at 1. apply be_enc_dec; auto.
Qed.

Lemma bytes_to_uint32_slice_u32 b : bytes b -> Forall is_u32 (bytes_to_uint32_slice b).
Proof.
  intros Hb. unfold bytes_to_uint32_slice. apply Forall_map.
  pose proof (chunks_all_len 4 b ltac:(lia)) as H1. pose proof (chunks_forall _ 4 b ltac:(lia) Hb) as H2.
  rewrite Forall_forall in *. intros x Hx. specialize (H1 _ Hx). specialize (H2 _ Hx).
  pose proof (be_dec_bound x H2). unfold zlen in H. rewrite H1 in H. exact H.
Qed.

(** ** ByteToBits *)
Lemma byte_to_bits_loop_length j d : length (byte_to_bits_loop j d) = j.
Proof. revert d; induction j; simpl; auto. Qed.

Lemma byte_to_bits_length l : length (byte_to_bits l) = (8 * length l)%nat.
Proof.
  induction l; auto. unfold byte_to_bits in *. cbn [flat_map length].
  rewrite app_length, IHl, byte_to_bits_loop_length. lia.
Qed.

(** all 256 bytes, computed by the kernel; the quantification over bytes is recovered below *)
Definition byte_bits_check (b : Z) : bool :=
  forallb (fun j => Bool.eqb (nth j (byte_to_bits_loop 8 b) false) (Z.testbit b (7 - Z.of_nat j)))
          (seq 0 8).

Lemma byte_bits_check_all : forallb byte_bits_check (map Z.of_nat (seq 0 256)) = true.
Proof. vm_compute. reflexivity. Qed.

Lemma byte_in_range b : is_byte b -> In b (map Z.of_nat (seq 0 256)).
Proof.
  unfold is_byte, w8. intros. apply in_map_iff. exists (Z.to_nat b). split. lia.
  apply in_seq. lia.
Qed.

Lemma byte_to_bits_loop_spec b j :
  is_byte b -> (j < 8)%nat -> nth j (byte_to_bits_loop 8 b) false = Z.testbit b (7 - Z.of_nat j).
Proof.
  intros Hb Hj. pose proof byte_bits_check_all as H. rewrite forallb_forall in H.
  specialize (H b (byte_in_range b Hb)). unfold byte_bits_check in H. rewrite forallb_forall in H.
  specialize (H j). apply eqb_prop, H, in_seq. lia.
Qed.

Lemma byte_to_bits_nth l i j :
  bytes l -> (i < length l)%nat -> (j < 8)%nat ->
  nth (8 * i + j) (byte_to_bits l) false = Z.testbit (nth i l 0) (7 - Z.of_nat j).
Proof.
  revert i. induction l; intros i Hb Hi Hj; simpl in Hi; try lia.
  inversion Hb; subst. unfold byte_to_bits in *. cbn [flat_map].
  destruct i.
  - rewrite app_nth1 by (rewrite byte_to_bits_loop_length; lia).
    rewrite Nat.mul_0_r, Nat.add_0_l. apply byte_to_bits_loop_spec; auto.
  - rewrite app_nth2 by (rewrite byte_to_bits_loop_length; lia).
    rewrite byte_to_bits_loop_length. cbn [nth].
    replace (8 * S i + j - 8)%nat with (8 * i + j)%nat by lia. apply IHl; auto; lia.
Qed.

Lemma testbit_byte_high b n : is_byte b -> 8 <= n -> Z.testbit b n = false.
Proof.
  intros Hb Hn. unfold is_byte, w8 in Hb.
  destruct (Z.eq_dec b 0) as [->|Hz]. apply Z.bits_0.
  apply Z.bits_above_log2; try lia.
  assert (Z.log2 b < 8) by (apply Z.log2_lt_pow2; lia). lia.
Qed.

Lemma byte_to_bits_inj l1 l2 :
  bytes l1 -> bytes l2 -> byte_to_bits l1 = byte_to_bits l2 -> l1 = l2.
Proof.
  intros H1 H2 E.
  assert (HL : length l1 = length l2).
  { apply (f_equal (@length bool)) in E. rewrite !byte_to_bits_length in E. lia. }
  apply nth_ext_Z; auto. intros i Hi.
  assert (B1 : is_byte (nth i l1 0)) by (apply (proj1 (Forall_forall _ _) H1), nth_In; lia).
  assert (B2 : is_byte (nth i l2 0)) by (apply (proj1 (Forall_forall _ _) H2), nth_In; lia).
  apply Z.bits_inj'. intros n Hn.
  destruct (Z_lt_le_dec n 8).
  - pose proof (byte_to_bits_nth l1 i (Z.to_nat (7 - n)) H1 Hi ltac:(lia)) as E1.
    pose proof (byte_to_bits_nth l2 i (Z.to_nat (7 - n)) H2 ltac:(lia) ltac:(lia)) as E2.
    replace (7 - Z.of_nat (Z.to_nat (7 - n))) with n in * by lia. congruence.
  - rewrite !testbit_byte_high; auto.
Qed.

(** ** Indices *)
Lemma vector_to_matrix_indices_bij rows cols :
  0 <= rows -> 0 < cols ->
  (forall i, 0 <= i < rows * cols -> exists r c, vector_to_matrix_indices i cols = Ok (r, c) /\
      0 <= r < rows /\ 0 <= c < cols /\ r * cols + c = i) /\
  (forall r c, 0 <= r < rows -> 0 <= c < cols ->
      0 <= r * cols + c < rows * cols /\ vector_to_matrix_indices (r * cols + c) cols = Ok (r, c)) /\
  (forall i j, 0 <= i -> 0 <= j ->
      vector_to_matrix_indices i cols = vector_to_matrix_indices j cols -> i = j).
Proof.
  intros Hr Hc. unfold vector_to_matrix_indices.
  destruct (Z.eqb_spec cols 0); try lia.
  split; [|split].
  - intros i Hi. exists (Z.quot i cols), (Z.rem i cols).
    rewrite Z.quot_div_nonneg, Z.rem_mod_nonneg by lia.
    split; auto. split. split. apply Z.div_pos; lia. apply Z.div_lt_upper_bound; lia.
    split. apply Z.mod_pos_bound; lia. pose proof (Z.div_mod i cols). lia.
  - intros r c Hr' Hc'. split. nia. 
    rewrite Z.quot_div_nonneg, Z.rem_mod_nonneg by nia.
    rewrite Z.div_add_l, Z.div_small by lia.
    rewrite (Z.add_comm (r * cols)), Z.mod_add, Z.mod_small by lia. do 2 f_equal. lia.
  - intros i j Hi Hj E. injection E as E1 E2.
    rewrite !Z.quot_div_nonneg in E1 by lia. rewrite !Z.rem_mod_nonneg in E2 by lia.
    pose proof (Z.div_mod i cols). pose proof (Z.div_mod j cols). lia.
Qed.

(** ** MaxBytesLength *)
Lemma max_fold_spec (vals : list (list Z)) m0 :
  let m := fold_left (fun m v => if m <? zlen v then zlen v else m) vals m0 in
  m0 <= m /\ (forall v, In v vals -> zlen v <= m) /\
  (m = m0 \/ exists v, In v vals /\ zlen v = m).
Proof.
  revert m0. induction vals as [|v t IH]; intros m0; cbn [fold_left].
  - split; [lia|split; auto; intros ? []].
  - specialize (IH (if m0 <? zlen v then zlen v else m0)).
    destruct IH as (H1 & H2 & H3). destruct (Z.ltb_spec m0 (zlen v)).
    + split; [lia|split].
      * intros x [<-|Hx]; auto.
      * right. destruct H3 as [->|(x & Hx & E)]. exists v; split; auto. left; auto.
        exists x; split; auto; right; auto.
    + split; [lia|split].
      * intros x [<-|Hx]; auto. lia.
      * destruct H3 as [->|(x & Hx & E)]; auto. right. exists x; split; auto; right; auto.
Qed.

Lemma max_bytes_length_spec vals :
  (forall v, In v vals -> zlen v <= max_bytes_length vals) /\
  (vals <> [] -> exists v, In v vals /\ zlen v = max_bytes_length vals) /\
  (vals = [] -> max_bytes_length vals = 0).
Proof.
  pose proof (max_fold_spec vals 0) as (H1 & H2 & H3). fold (max_bytes_length vals) in *.
  split; auto. split.
  - intros Hne. destruct H3 as [E|H3]; auto.
    destruct vals as [|v t]; try congruence. exists v. split. left; auto.
    specialize (H2 v (or_introl eq_refl)). pose proof (zlen_nonneg v). lia.
  - intros ->. reflexivity.
Qed.

Lemma max_bytes_length_perm v1 v2 :
  Permutation v1 v2 -> max_bytes_length v1 = max_bytes_length v2.
Proof.
  intros HP. pose proof (max_bytes_length_spec v1) as (A1 & B1 & C1).
  pose proof (max_bytes_length_spec v2) as (A2 & B2 & C2).
  destruct v1 as [|x t].
  - apply Permutation_nil in HP. subst. reflexivity.
  - destruct B1 as (m1 & I1 & E1); try congruence.
    assert (N2 : v2 <> []). { intros ->. symmetry in HP. apply Permutation_nil in HP. congruence. }
    destruct (B2 N2) as (m2 & I2 & E2).
    assert (In m1 v2) by (eapply Permutation_in; eauto).
    assert (In m2 (x :: t)) by (eapply Permutation_in; [symmetry; eauto|eauto]).
    specialize (A1 _ H0). specialize (A2 _ H). lia.
Qed.

(** ** Padding *)
Lemma drop_zeros_app_zeros n l : drop_zeros (repeat 0 n ++ l) = drop_zeros l.
Proof. induction n; simpl; auto. Qed.

Lemma rev_repeat {A} (x : A) n : rev (repeat x n) = repeat x n.
Proof.
  induction n; auto. cbn [repeat rev]. rewrite IHn. clear.
  induction n; auto. cbn. f_equal. auto.
Qed.

Lemma trim_signal block n : trim_right_zeros (block ++ [128] ++ repeat 0 n) = block ++ [128].
Proof.
  unfold trim_right_zeros. rewrite app_assoc, rev_app_distr, rev_repeat, drop_zeros_app_zeros.
  rewrite rev_app_distr. cbn. rewrite rev_involutive. auto.
Qed.

Lemma unpad_signal block n : unpad_block (block ++ [128] ++ repeat 0 n) = Ok block.
Proof.
  unfold unpad_block. rewrite trim_signal. apply go_slice_prefix.
  rewrite zlen_app. change (zlen [128]) with 1. lia.
Qed.

Lemma pad_block_unpad block blockLen p :
  pad_block block blockLen = Ok p -> unpad_block p = Ok block.
Proof.
  unfold pad_block. destruct (blockLen =? 0); try discriminate.
  unfold go_make. destruct (_ <? 0); try discriminate. cbn [bind].
  intros E. injection E as <-. rewrite <- app_assoc. apply unpad_signal.
Qed.

Lemma pad_block_ok block blockLen :
  0 < blockLen -> exists p, pad_block block blockLen = Ok p /\
    zlen p mod blockLen = 0 /\ zlen block < zlen p <= zlen block + blockLen + 1 /\
    exists n, p = block ++ 128 :: repeat 0 n.
Proof.
  intros H. unfold pad_block. destruct (Z.eqb_spec blockLen 0); try lia.
  set (b1 := block ++ [128]).
  assert (HR : 0 <= Z.rem (zlen b1) blockLen < blockLen).
  { apply Z.rem_bound_pos; try lia. apply zlen_nonneg. }
  unfold go_make. destruct (Z.ltb_spec (blockLen - Z.rem (zlen b1) blockLen) 0); try lia.
  cbn [bind]. eexists; split; [reflexivity|].
  assert (HL : zlen (b1 ++ repeat 0 (Z.to_nat (blockLen - Z.rem (zlen b1) blockLen)))
               = zlen b1 + (blockLen - Z.rem (zlen b1) blockLen)).
  { rewrite zlen_app. unfold zlen at 2. rewrite repeat_length. lia. }
  rewrite HL. rewrite Z.rem_mod_nonneg in * by (try lia; apply zlen_nonneg).
  assert (zlen b1 = zlen block + 1) by (unfold b1; rewrite zlen_app; reflexivity).
  split; [|split].
  - pose proof (Z.div_mod (zlen b1) blockLen ltac:(lia)).
    replace (zlen b1 + (blockLen - zlen b1 mod blockLen)) with ((zlen b1 / blockLen + 1) * blockLen) by lia.
    apply Z.mod_mul; lia.
  - lia.
  - eexists. unfold b1. rewrite <- app_assoc. reflexivity.
Qed.

Lemma drop_zeros_nil l : drop_zeros l = [] <-> Forall (fun b => b = 0) l.
Proof.
  induction l; simpl; split; auto.
  - destruct (Z.eqb_spec a 0); intros; try discriminate. constructor; auto. apply IHl; auto.
  - intros H. inversion H; subst. apply IHl; auto.
Qed.

Lemma drop_zeros_cases l : drop_zeros l = [] \/
  exists n b t, l = repeat 0 n ++ b :: t /\ b <> 0 /\ drop_zeros l = b :: t.
Proof.
  induction l; auto. simpl. destruct (Z.eqb_spec a 0).
  - subst. destruct IHl as [->|(n & b & t & -> & Hb & E)]; auto.
    right. exists (S n), b, t. auto.
  - right. exists 0%nat, a, l. auto.
Qed.

(** exact behaviour of UnPadBlock on every input *)
Lemma unpad_block_cases l :
  (Forall (fun b => b = 0) l /\ exists m, unpad_block l = Panic m) \/
  (exists block b n, l = block ++ b :: repeat 0 n /\ b <> 0 /\ unpad_block l = Ok block).
Proof.
  unfold unpad_block, trim_right_zeros.
  destruct (drop_zeros_cases (rev l)) as [E|(n & b & t & E & Hb & D)].
  - left. split. apply Forall_rev in E || idtac.
    + apply drop_zeros_nil in E. apply Forall_rev in E. rewrite rev_involutive in E. auto.
    + rewrite E. eexists. reflexivity.
  - right. exists (rev t), b, n. split; [|split]; auto.
    + apply (f_equal (@rev Z)) in E. rewrite rev_involutive in E. rewrite E.
      rewrite rev_app_distr, rev_repeat. cbn [rev]. rewrite <- app_assoc. reflexivity.
    + rewrite D. cbn [rev]. apply go_slice_prefix. rewrite zlen_app. change (zlen [b]) with 1. lia.
Qed.

Lemma unpad_block_panic_iff l :
  is_panic (unpad_block l) = true <-> Forall (fun b => b = 0) l.
Proof.
  destruct (unpad_block_cases l) as [(H & m & E)|(block & b & n & -> & Hb & E)]; rewrite E; simpl.
  - tauto.
  - split; try discriminate. intros H. apply Forall_app in H as [_ H]. inversion H; subst. lia.
Qed.

(** ** Matrix codecs *)
Lemma matrix_to_bytes_length m : zlen (matrix_to_bytes m) = 8 + 4 * zlen (m_data m).
Proof.
  unfold matrix_to_bytes, zlen. rewrite !app_length, !be_enc_length, uint32_slice_to_bytes_length. lia.
Qed.

Lemma header_split (a b rest : list Z) :
  length a = 4%nat -> length b = 4%nat ->
  go_slice (a ++ b ++ rest) 0 4 = Ok a /\ go_slice (a ++ b ++ rest) 4 8 = Ok b /\
  go_slice (a ++ b ++ rest) 8 (zlen (a ++ b ++ rest)) = Ok rest /\
  go_slice (a ++ b ++ rest) 4 (zlen (a ++ b ++ rest)) = Ok (b ++ rest).
Proof.
  intros Ha Hb.
  assert (Za : zlen a = 4) by (unfold zlen; lia). assert (Zb : zlen b = 4) by (unfold zlen; lia).
  repeat split.
  - apply go_slice_prefix; lia.
  - apply go_slice_mid; lia.
  - rewrite app_assoc. apply go_slice_suffix; rewrite !zlen_app; lia.
  - apply go_slice_suffix; rewrite ?zlen_app; lia.
Qed.

Lemma u32_small x : is_u32 x -> u32 x = x.
Proof. unfold is_u32, u32. intros. apply Z.mod_small; auto. Qed.

Lemma be_dec_enc_u32 x : is_u32 x -> be_dec (be_enc 4 (u32 x)) = x.
Proof.
  intros H. rewrite u32_small by auto. apply be_dec_enc. unfold is_u32, w32 in H.
  change (256 ^ Z.of_nat 4) with 4294967296. auto.
Qed.

Lemma matrix_roundtrip m :
  is_u32 (m_rows m) -> is_u32 (m_cols m) -> Forall is_u32 (m_data m) ->
  bytes_to_matrix (matrix_to_bytes m) = Ok m.
Proof.
  intros Hr Hc Hd. unfold bytes_to_matrix, matrix_to_bytes.
  destruct (header_split (be_enc 4 (u32 (m_rows m))) (be_enc 4 (u32 (m_cols m)))
              (uint32_slice_to_bytes (m_data m)) (be_enc_length _ _) (be_enc_length _ _)) as (E1 & E2 & E3 & _).
  rewrite E1, E2, E3. cbn [bind].
  rewrite !be_dec_enc_u32, uint32_slice_roundtrip by auto. destruct m; reflexivity.
Qed.

Lemma matrix128_roundtrip m :
  is_u32 (m_rows m) -> is_u32 (m_cols m) -> Forall is_u128 (m_data m) ->
  bytes_to_matrix128 (matrix128_to_bytes m) = Ok m.
Proof.
  intros Hr Hc Hd. unfold bytes_to_matrix128, matrix128_to_bytes.
  destruct (header_split (be_enc 4 (u32 (m_rows m))) (be_enc 4 (u32 (m_cols m)))
              (flat_map (le_enc 16) (m_data m)) (be_enc_length _ _) (be_enc_length _ _)) as (E1 & _ & E3 & E4).
  rewrite E1, E4, E3. cbn [bind]. unfold be_u32.
  rewrite app_length, be_enc_length. destruct (Nat.ltb_spec (4 + length (flat_map (le_enc 16) (m_data m))) 4); try lia.
  cbn [bind]. rewrite firstn_app, be_enc_length, Nat.sub_diag, firstn_O, app_nil_r.
  rewrite firstn_all2 by (rewrite be_enc_length; lia).
  rewrite !be_dec_enc_u32 by auto.
  rewrite (fixed_codec_roundtrip 16 (le_enc 16) le_dec is_u128); try assumption.
  - destruct m; reflexivity.
  - lia.
  - intros; apply le_enc_length.
  - intros v Hv. apply le_dec_enc. unfold is_u128 in Hv. rewrite w128_pow in Hv. exact Hv.
Qed.

Lemma go_copy_exact {A} (dst src : list A) :
  (length src <= length dst)%nat -> go_copy dst src = src ++ skipn (length src) dst.
Proof. intros. unfold go_copy. rewrite firstn_all2 by lia. auto. Qed.

Lemma matrices_loop_spec m0 lb : forall ms i pre rest,
  Forall (fun m => m_rows m = m_rows m0 /\ m_cols m = m_cols m0 /\ length (matrix_to_bytes m) = lb) ms ->
  length pre = (4 + lb * i)%nat -> length rest = (lb * length ms)%nat ->
  matrices_to_bytes_loop m0 lb i ms (pre ++ rest) = Ok (pre ++ flat_map matrix_to_bytes ms).
Proof.
  induction ms as [|m t IH]; intros i pre rest HF HP HR.
  - cbn [length] in HR. rewrite Nat.mul_0_r in HR. destruct rest; try discriminate. reflexivity.
  - inversion HF as [|? ? (R & C & L) HF']; subst. cbn [matrices_to_bytes_loop].
    rewrite R, C, !Z.eqb_refl. cbn [negb orb].
    rewrite <- HP at 1 2. rewrite firstn_app, Nat.sub_diag, firstn_O, app_nil_r, firstn_all.
    rewrite skipn_app, Nat.sub_diag, skipn_all. cbn [app skipn].
    cbn [length] in HR.
    rewrite go_copy_exact by lia. rewrite app_assoc. rewrite IH; auto.
    + cbn [flat_map]. rewrite <- app_assoc. auto.
    + rewrite app_length. lia.
    + rewrite skipn_length. lia.
Qed.

Lemma matrices_to_bytes_spec m0 ms :
  Forall (fun m => m_rows m = m_rows m0 /\ m_cols m = m_cols m0 /\ length (m_data m) = length (m_data m0)) ms ->
  matrices_to_bytes (m0 :: ms) =
    Ok (be_enc 4 (u32 (zlen (matrix_to_bytes m0))) ++ flat_map matrix_to_bytes (m0 :: ms)).
Proof.
  intros HF. unfold matrices_to_bytes. set (b := matrix_to_bytes m0).
  assert (Hlen : forall m, length (m_data m) = length (m_data m0) -> length (matrix_to_bytes m) = length b).
  { intros m Hm. pose proof (matrix_to_bytes_length m). pose proof (matrix_to_bytes_length m0).
    unfold zlen, b in *. lia. }
  rewrite repeat_app, (skipn_app_exact (repeat 0 4)) by reflexivity.
  cbv zeta. rewrite go_copy_exact by (rewrite repeat_length; cbn [length]; lia).
  rewrite app_assoc, matrices_loop_spec.
  - cbn [flat_map]. rewrite <- app_assoc. reflexivity.
  - eapply Forall_impl; [|apply HF]. cbv beta. intros m (R & C & L). repeat split; auto.
  - rewrite app_length, be_enc_length. lia.
  - rewrite skipn_length, repeat_length. cbn [length]. lia.
Qed.

Lemma skipn_flat {A B} (f : A -> list B) (k i : nat) (ls : list A) :
  (forall x, In x ls -> length (f x) = k) -> (i <= length ls)%nat ->
  skipn (k * i) (flat_map f ls) = flat_map f (skipn i ls).
Proof.
  revert i. induction ls; intros i H Hi.
  - cbn in Hi. assert (i = 0)%nat by lia. subst. rewrite Nat.mul_0_r. reflexivity.
  - destruct i. rewrite Nat.mul_0_r. reflexivity.
    cbn [flat_map skipn]. rewrite skipn_app. rewrite (H a) by (left; auto).
    rewrite skipn_all2 by (rewrite (H a) by (left; auto); lia).
    replace (k * S i - k)%nat with (k * i)%nat by lia. cbn. apply IHls.
    + intros; apply H; right; auto.
    + cbn in Hi. lia.
Qed.

Lemma bytes_to_matrices_spec (h : list Z) (k : nat) (ms : list matrix) :
  length h = 4%nat -> be_dec h = Z.of_nat k -> (0 < k)%nat -> is_u32 (zlen ms) ->
  Forall (fun m => length (matrix_to_bytes m) = k /\ bytes_to_matrix (matrix_to_bytes m) = Ok m) ms ->
  bytes_to_matrices (h ++ flat_map matrix_to_bytes ms) = Ok ms.
Proof.
  intros Hh Hd Hk Hn HF. unfold bytes_to_matrices.
  assert (HL : length (flat_map matrix_to_bytes ms) = (k * length ms)%nat).
  { clear Hn. induction HF as [|m t (L & _) HF IH]; cbn [flat_map length]. lia. rewrite app_length. lia. }
  assert (HZ : zlen (h ++ flat_map matrix_to_bytes ms) = 4 + Z.of_nat (k * length ms)).
  { unfold zlen. rewrite app_length. lia. }
  rewrite (go_slice_ok _ 0 4) by (rewrite ?HZ; lia). cbn [bind].
  change (Z.to_nat (4 - 0)) with 4%nat. change (Z.to_nat 0) with 0%nat. cbn [skipn].
  rewrite firstn_app, Hh, Nat.sub_diag, firstn_O, app_nil_r, firstn_all2 by lia.
  rewrite Hd. destruct (Z.eqb_spec (Z.of_nat k) 0); try lia.
  rewrite HZ. replace (4 + Z.of_nat (k * length ms) - 4) with (Z.of_nat (length ms) * Z.of_nat k) by lia.
  rewrite Z.quot_mul by lia. rewrite u32_small by exact Hn. rewrite Nat2Z.id.
  rewrite (mapM_ok _ (fun i => nth i ms (mkM 0 0 []))).
  - f_equal. apply map_nth_seq.
  - intros i Hi. unfold range in Hi. apply in_seq in Hi.
    rewrite go_slice_ok by (rewrite ?HZ; nia).
    replace (Z.to_nat (4 + (Z.of_nat i + 1) * Z.of_nat k - (4 + Z.of_nat i * Z.of_nat k))) with k by lia.
    replace (Z.to_nat (4 + Z.of_nat i * Z.of_nat k)) with (4 + k * i)%nat by lia.
    rewrite skipn_app. rewrite skipn_all2 by lia. rewrite Hh.
    replace (4 + k * i - 4)%nat with (k * i)%nat by lia. cbn [app].
    rewrite Forall_forall in HF.
    rewrite skipn_flat by (try lia; intros x Hx; apply HF; auto).
    destruct (skipn i ms) as [|m t] eqn:ES.
    { apply (f_equal (@length matrix)) in ES. rewrite skipn_length in ES. cbn in ES. lia. }
    assert (Hm : nth i ms (mkM 0 0 []) = m).
    { rewrite <- (firstn_skipn i ms), ES. rewrite app_nth2; rewrite firstn_length; try lia.
      rewrite Nat.min_l by lia. rewrite Nat.sub_diag. auto. }
    assert (Hin : In m ms). { rewrite <- Hm. apply nth_In. lia. }
    destruct (HF m Hin) as (L & R).
    cbn [flat_map bind]. rewrite firstn_app, <- L, Nat.sub_diag, firstn_all, firstn_O, app_nil_r.
    rewrite Hm. auto.
Qed.

Lemma matrices_roundtrip m0 ms :
  is_u32 (m_rows m0) -> is_u32 (m_cols m0) ->
  Forall (fun m => m_rows m = m_rows m0 /\ m_cols m = m_cols m0 /\ length (m_data m) = length (m_data m0)) ms ->
  Forall (fun m => Forall is_u32 (m_data m)) (m0 :: ms) ->
  is_u32 (8 + 4 * zlen (m_data m0)) -> is_u32 (zlen (m0 :: ms)) ->
  exists b, matrices_to_bytes (m0 :: ms) = Ok b /\ bytes_to_matrices b = Ok (m0 :: ms).
Proof.
  intros Hr Hc HF HD HB HN. eexists. split. apply matrices_to_bytes_spec; auto.
  pose proof (matrix_to_bytes_length m0) as HL.
  apply bytes_to_matrices_spec with (k := length (matrix_to_bytes m0)); try assumption.
  - apply be_enc_length.
  - rewrite HL, be_dec_enc_u32 by auto. unfold zlen in *. lia.
  - unfold zlen in *. lia.
  - rewrite Forall_forall in HF, HD. apply Forall_forall. intros m Hm.
    assert (Hsame : m_rows m = m_rows m0 /\ m_cols m = m_cols m0 /\ length (m_data m) = length (m_data m0)).
    { destruct Hm as [<-|Hm]; auto. }
    destruct Hsame as (R & C & L). split.
    + pose proof (matrix_to_bytes_length m). unfold zlen in *. lia.
    + apply matrix_roundtrip; try congruence; rewrite ?R, ?C; auto.
Qed.
