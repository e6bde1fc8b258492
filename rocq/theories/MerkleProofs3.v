(** Merkle proof wire codec. *)
From Coq Require Import String ZArith List Bool Arith Lia.
From Verif Require Import GoBase BaseFacts EncodingModel MerkleModel MerkleSpec MerkleProofs MerkleProofs2.
Import ListNotations.
Open Scope Z_scope.
Open Scope go_scope.

Lemma to_nat_zlen {A} (l : list A) : Z.to_nat (zlen l) = length l.
Proof. unfold zlen. apply Nat2Z.id. Qed.

Lemma zlen_le_enc k v : zlen (le_enc k v) = Z.of_nat k.
Proof. unfold zlen. rewrite le_enc_length. auto. Qed.

Lemma copy_at_ok a s c b i j : i = zlen a -> j = zlen a + zlen s -> length b = length s ->
  copy_at (a ++ s ++ c) i j b = Ok (a ++ b ++ c).
Proof.
  intros -> -> Hb. unfold copy_at. rewrite (go_slice_mid a s c) by reflexivity. cbn [bind].
  rewrite to_nat_zlen, firstn_app_exact by reflexivity.
  replace (Z.to_nat (zlen a + zlen s)) with (length (a ++ s)) by (rewrite app_length; unfold zlen; lia).
  rewrite (app_assoc a s c), skipn_app_exact by reflexivity.
  unfold go_copy. rewrite <- Hb, firstn_all, skipn_all2 by lia. rewrite app_nil_r. reflexivity.
Qed.

Lemma encode_hashes_ok : forall hs pre mid suf i, Forall (fun h => length h = 32%nat) hs ->
  zlen pre = 4 + 32 * i -> length mid = (32 * length hs)%nat -> 0 <= i ->
  encode_hashes i hs (pre ++ mid ++ suf) = Ok (pre ++ concat hs ++ suf).
Proof.
  induction hs as [|h hs IH]; intros pre mid suf i HF Hp Hm Hi; cbn [encode_hashes concat].
  - destruct mid; simpl in Hm; try lia. reflexivity.
  - inversion HF; subst. cbn [length] in Hm.
    rewrite <- (firstn_skipn 32 mid), <- (app_assoc (firstn 32 mid)).
    assert (Lf : length (firstn 32 mid) = 32%nat) by (rewrite firstn_length; lia).
    rewrite copy_at_ok.
    + cbn [bind]. rewrite app_assoc. rewrite IH; auto.
      * rewrite <- !app_assoc. reflexivity.
      * rewrite zlen_app. unfold zlen at 2. rewrite H1. lia.
      * rewrite skipn_length. lia.
      * lia.
    + unfold zlen. rewrite H1. unfold zlen in Hp. lia.
    + unfold zlen. rewrite H1, Lf. unfold zlen in Hp. lia.
    + congruence.
Qed.

Lemma encode_proof_ok p : Forall (fun h => length h = 32%nat) (p_hashes p) ->
  zlen (p_hashes p) < w32 ->
  encode_proof p = Ok (le_enc 4 (zlen (p_hashes p)) ++ concat (p_hashes p) ++ le_enc 4 (p_index p)).
Proof.
  intros HF HL. unfold encode_proof.
  assert (H0 := zlen_nonneg (p_hashes p)).
  set (n := length (p_hashes p)).
  unfold go_make. destruct (Z.ltb_spec (4 + zlen (p_hashes p) * 32 + 4) 0); try lia. cbn [bind].
  replace (Z.to_nat (4 + zlen (p_hashes p) * 32 + 4)) with (4 + (32 * n + 4))%nat by (unfold zlen, n; lia).
  rewrite repeat_app, repeat_app.
  pose proof (copy_at_ok [] (repeat 0 4) (repeat 0 (32 * n) ++ repeat 0 4) (le_enc 4 (u32 (zlen (p_hashes p)))) 0 4 eq_refl eq_refl) as C1.
  cbn [app] in C1. rewrite C1 by (rewrite le_enc_length, repeat_length; auto). cbn [bind].
  replace (u32 (zlen (p_hashes p))) with (zlen (p_hashes p)) by (unfold u32; rewrite Z.mod_small; auto; lia).
  rewrite encode_hashes_ok; auto; try lia.
  - cbn [bind]. rewrite app_assoc. rewrite <- (app_nil_r (repeat 0 4)).
    rewrite copy_at_ok.
    + rewrite app_nil_r, <- app_assoc. reflexivity.
    + rewrite app_nil_r. rewrite (zlen_app _ (repeat 0 4)). change (zlen (repeat 0 4)) with 4. lia.
    + rewrite app_nil_r. rewrite (zlen_app _ (repeat 0 4)). reflexivity.
    + rewrite le_enc_length, repeat_length. reflexivity.
  - rewrite repeat_length. reflexivity.
Qed.

Lemma concat_len32 (hs : list (list Z)) : Forall (fun h => length h = 32%nat) hs -> length (concat hs) = (32 * length hs)%nat.
Proof. induction 1; simpl; auto. rewrite app_length. lia. Qed.

Lemma concat_split : forall (hs : list (list Z)) i, (i < length hs)%nat ->
  concat hs = concat (firstn i hs) ++ nth i hs [] ++ concat (skipn (S i) hs).
Proof.
  induction hs as [|h hs IH]; intros [|i] Hi; simpl in Hi; try lia; cbn [firstn skipn concat nth app].
  - reflexivity.
  - rewrite <- app_assoc. f_equal. apply IH. lia.
Qed.

Lemma decode_proof_ok hs idx pad : Forall (fun h => length h = 32%nat) hs -> is_u32 idx ->
  4 + 32 * zlen hs < w32 ->
  decode_proof (le_enc 4 (zlen hs) ++ concat hs ++ pad ++ le_enc 4 idx) = Ok (mkProof hs idx).
Proof.
  intros HF HI HL. assert (H0 := zlen_nonneg hs). unfold decode_proof, is_u32 in *.
  rewrite go_slice_prefix by (unfold zlen; rewrite le_enc_length; reflexivity). cbn [bind].
  unfold le_u32. rewrite le_enc_length. cbn [Nat.ltb Nat.leb bind].
  rewrite (firstn_all2 (le_enc 4 (zlen hs))) by (rewrite le_enc_length; auto).
  rewrite le_dec_enc by (change (256 ^ Z.of_nat 4) with w32; lia).
  rewrite to_nat_zlen.
  rewrite mapM_ok with (g := fun i => nth i hs []).
  - cbn [bind]. unfold range. rewrite map_nth_seq.
    replace (le_enc 4 (zlen hs) ++ concat hs ++ pad ++ le_enc 4 idx)
      with ((le_enc 4 (zlen hs) ++ concat hs ++ pad) ++ le_enc 4 idx) by (rewrite <- !app_assoc; auto).
    rewrite go_slice_suffix.
    + cbn [bind]. rewrite le_enc_length. cbn [Nat.ltb Nat.leb bind].
      rewrite (firstn_all2 (le_enc 4 idx)) by (rewrite le_enc_length; auto).
      rewrite le_dec_enc by (change (256 ^ Z.of_nat 4) with w32; lia). reflexivity.
    + rewrite (zlen_app _ (le_enc 4 idx)). rewrite (zlen_le_enc 4 idx). lia.
    + apply zlen_app.
  - intros i Hi. unfold range in Hi. apply in_seq in Hi. unfold zlen in HL.
    rewrite (concat_split hs i) by lia.
    assert (Li : length (concat (firstn i hs)) = (32 * i)%nat).
    { rewrite concat_len32, firstn_length. lia. rewrite <- (firstn_skipn i hs) in HF. apply Forall_app in HF. tauto. }
    assert (Ln : length (nth i hs []) = 32%nat).
    { rewrite Forall_forall in HF. apply HF. apply nth_In. lia. }
    assert (W : 0 < w32) by reflexivity.
    replace (u32 (4 + u32 (32 * Z.of_nat i))) with (4 + 32 * Z.of_nat i)
      by (unfold u32; rewrite (Z.mod_small (32 * _)) by lia; rewrite Z.mod_small by lia; reflexivity).
    replace (u32 (4 + u32 (32 * u32 (Z.of_nat i + 1)))) with (4 + 32 * Z.of_nat i + 32).
    2: { unfold u32. rewrite (Z.mod_small (Z.of_nat i + 1)) by lia. rewrite (Z.mod_small (32 * _)) by lia.
         rewrite Z.mod_small by lia. lia. }
    rewrite <- !app_assoc, app_assoc.
    apply go_slice_mid.
    + rewrite zlen_app. unfold zlen. rewrite le_enc_length, Li. lia.
    + rewrite zlen_app. unfold zlen. rewrite le_enc_length, Li, Ln. lia.
Qed.

Lemma proof_roundtrip p : Forall (fun h => length h = 32%nat) (p_hashes p) -> is_u32 (p_index p) ->
  4 + 32 * zlen (p_hashes p) < w32 ->
  exists b, encode_proof p = Ok b /\ decode_proof b = Ok p /\ zlen b = 8 + 32 * zlen (p_hashes p).
Proof.
  intros HF HI HL. eexists. split. apply encode_proof_ok; auto. pose proof (zlen_nonneg (p_hashes p)); lia.
  split.
  - destruct p as [hs idx]. cbn [p_hashes p_index] in *.
    apply (decode_proof_ok hs idx []); auto.
  - rewrite !zlen_app, !zlen_le_enc. unfold zlen at 1. rewrite concat_len32 by auto. unfold zlen. lia.
Qed.

Lemma path_len32 H data t : hash_ok H -> tree_inv H data t -> (0 < length data)%nat ->
  forall e k, (2 ^ e <= k)%nat -> (k < 2 * 2 ^ Nat.log2_up (length data))%nat ->
  Forall (fun h => length h = 32%nat) (path t k e).
Proof.
  intros HH I Hp. induction e; intros k Hk Hb; cbn [path]; constructor.
  - apply (node_length H data t I Hp HH). unfold sib. pose proof (pow2_pos e). simpl in Hk.
    destruct (Nat.even k) eqn:E; try lia. apply Nat.even_spec in E. destruct E. lia.
  - apply IHe. apply Nat.div_le_lower_bound; simpl in *; lia.
    apply Nat.le_lt_trans with k; auto. apply Nat.div_le_upper_bound; lia.
Qed.

(** the encoding of every generated proof has the advertised length *)
Lemma generated_proof_encoding H data t d p : hash_ok H -> zlen data <= max_records -> new_using H data = Ok t ->
  generate_proof t d = Ok p ->
  exists b, encode_proof p = Ok b /\ decode_proof b = Ok p /\ zlen b = encoded_proof_length t.
Proof.
  intros HH HM HT E.
  pose proof (inv_t H data t HM HT) as I. pose proof (new_using_nonempty H data t HT) as Hp.
  pose proof (log2_up_le_31 _ HM) as D31.
  destruct (in_dec Z.eq_dec (fnv1a64 d) (map fnv1a64 data)) as [Hin|Hin].
  2: { rewrite (generate_absent H data t HM HT) in E; auto. discriminate. }
  destruct (Nat.eq_dec (Nat.log2_up (distinct_fingerprints data)) (Nat.log2_up (length data))) as [He|He].
  - destruct (generate_ok H data t HM HT d Hin He) as (j & (Hj & _) & E'). rewrite E in E'. inversion E'; subst; clear E'.
    destruct (start_range H data t HT j Hj) as [R1 R2].
    destruct (proof_roundtrip (mkProof (path t (2 ^ Nat.log2_up (length data) + j) (Nat.log2_up (length data))) (Z.of_nat j)))
      as (b & E1 & E2 & E3); cbn [p_hashes p_index].
    + eapply path_len32; eauto. lia.
    + unfold is_u32, zlen, max_records, w32 in *. lia.
    + unfold zlen. rewrite path_length. unfold w32. lia.
    + exists b. split; auto. split; auto. rewrite E3. cbn [p_hashes]. unfold zlen. rewrite path_length.
      unfold encoded_proof_length, hash_length, ceil_log2. rewrite (ti_map _ _ _ I), md_of_length, He. lia.
  - assert (Nat.log2_up (distinct_fingerprints data) <= Nat.log2_up (length data))%nat
      by (apply Nat.log2_up_le_mono, distinct_le).
    rewrite (generate_panics H data t HM HT) in E; auto. discriminate. lia.
Qed.
