(** Proofs about point queries: privacy, invalid requests, linearity, mismatched deployments. *)
From Coq Require Import String ZArith List Bool Lia Permutation Arith.
From Verif Require Import GoBase BaseFacts EncodingModel MerkleModel FSSModel XorFacts FSSProofs PointModel PointSpec
  PointProofs PointProofs2.
Import ListNotations.
Open Scope Z_scope.
Open Scope go_scope.

(** chunks of a random string and their concatenation *)
Lemma chunk_concat vlen : forall cs rest k, Forall (fun c => length c = vlen) cs -> (k < length cs)%nat ->
  chunk vlen (concat cs ++ rest) k = nth k cs [].
Proof.
  unfold chunk. induction cs as [|c cs IH]; intros rest k HF Hk; cbn [length] in Hk; [lia|].
  inversion HF as [|? ? Hc HF']; subst. cbn [concat]. rewrite <- app_assoc. destruct k as [|k]; cbn [nth].
  - cbn [Nat.mul skipn]. apply firstn_app_exact. auto.
  - replace (S k * length c)%nat with (length c + k * length c)%nat by lia.
    rewrite <- skipn_skipn'. rewrite skipn_app_exact by auto. apply IH; auto. lia.
Qed.

Lemma chunks_of_concat vlen cs : Forall (fun c => length c = vlen) cs ->
  map (chunk vlen (concat cs)) (seq 0 (length cs)) = cs.
Proof.
  intros HF. rewrite <- (map_nth_seq cs []) at 3. apply map_ext_in. intros k Hk. apply in_seq in Hk.
  rewrite <- (app_nil_r (concat cs)). apply chunk_concat; auto. lia.
Qed.

Lemma concat_chunks vlen n1 rnd : length rnd = (n1 * vlen)%nat -> concat (map (chunk vlen rnd) (seq 0 n1)) = rnd.
Proof.
  revert rnd. induction n1 as [|n IH]; intros rnd L.
  - destruct rnd; [reflexivity|cbn in L; lia].
  - cbn [seq map concat]. rewrite <- seq_shift, map_map.
    rewrite (map_ext _ (chunk vlen (skipn vlen rnd))).
    + rewrite IH by (rewrite skipn_length; lia). unfold chunk. cbn [Nat.mul skipn]. apply firstn_skipn.
    + intros k. unfold chunk. rewrite skipn_skipn'. f_equal.
Qed.

Lemma concat_length_const {A} vlen (cs : list (list A)) : Forall (fun c => length c = vlen) cs -> length (concat cs) = (length cs * vlen)%nat.
Proof. induction 1; cbn [concat length]; auto. rewrite app_length. lia. Qed.

Lemma fold_xor_out cs : forall e y, Forall (fun c => length c = length e) cs -> length y = length e ->
  fold_left xor_list cs (xor_list e y) = xor_list (fold_left xor_list cs e) y.
Proof.
  induction cs as [|x cs IH]; intros e y HF Hy; cbn [fold_left]; auto.
  inversion HF as [|? ? Hx HF']; subst.
  rewrite (xor_list_assoc e y x), (xor_list_comm y x), <- xor_list_assoc. apply IH.
  - eapply Forall_impl; [|exact HF']. cbv beta. intros. rewrite xor_list_length. lia.
  - rewrite xor_list_length. lia.
Qed.

Lemma xor_cancel_r a y : length y = length a -> xor_list (xor_list a y) y = a.
Proof. intros L. rewrite xor_list_assoc, xor_list_self. rewrite xor_list_zero; auto. lia. Qed.

Lemma fold_xor_bytes cs : forall e, bytes e -> Forall bytes cs -> bytes (fold_left xor_list cs e).
Proof. induction cs; intros e He HF; cbn; auto. inversion HF; subst. apply IHcs; auto. apply xor_list_bytes; auto. Qed.

Lemma unit_vector_bytes vlen iy : bytes (unit_vector vlen iy).
Proof.
  unfold unit_vector, bytes. generalize (iy / 8)%nat. intros k.
  assert (B : is_byte (2 ^ Z.of_nat (iy mod 8))).
  { unfold is_byte, w8. change 256 with (2 ^ 8). pose proof (Nat.mod_upper_bound iy 8 ltac:(lia)).
    split; [apply Z.pow_nonneg; lia|apply Z.pow_lt_mono_r; lia]. }
  revert k. induction vlen as [|v IH]; intros k; cbn [repeat upd]; [constructor|].
  destruct k; constructor; auto; try (unfold is_byte, w8; lia).
  clear. induction v; constructor; auto. unfold is_byte, w8; lia.
Qed.

(** all views of a coalition missing server m are reached by exactly one random string *)
Lemma view_unique vlen iy n1 m vs : (0 < n1)%nat -> (m <= n1)%nat -> length vs = n1 ->
  Forall (fun v => length v = vlen /\ bytes v) vs ->
  exists! rnd, (length rnd = (n1 * vlen)%nat /\ bytes rnd) /\ without m (shares vlen iy n1 rnd) = vs.
Proof.
  intros Hn Hm LV FV.
  assert (FL : Forall (fun v => length v = vlen) vs) by (eapply Forall_impl; [|exact FV]; cbv beta; tauto).
  assert (FB : Forall bytes vs) by (eapply Forall_impl; [|exact FV]; cbv beta; tauto).
  destruct (Nat.eq_dec m n1) as [->|NM].
  - (* the coalition sees exactly the random vectors *)
    exists (concat vs). split.
    + split; [split|].
      * rewrite (concat_length_const vlen) by auto. lia.
      * clear -FB. induction FB; cbn; [constructor|]. apply bytes_app; auto.
      * unfold without, shares. rewrite <- LV. rewrite chunks_of_concat by auto.
        rewrite firstn_app_exact by auto. rewrite skipn_all2 by (rewrite app_length; cbn; lia). apply app_nil_r.
    + intros rnd ((LR & _) & E). unfold without, shares in E.
      rewrite firstn_app_exact in E by (rewrite map_length, seq_length; auto).
      rewrite skipn_all2 in E by (rewrite app_length, map_length, seq_length; cbn; lia). rewrite app_nil_r in E.
      rewrite <- E. apply concat_chunks. auto.
  - destruct (exists_last (l := vs)) as (ws & L & ->). { destruct vs; [cbn in LV; lia|discriminate]. }
    rewrite app_length in LV. cbn [length] in LV.
    apply Forall_app in FL as [FLw FLl]. apply Forall_inv in FLl as LL. clear FLl.
    apply Forall_app in FB as [FBw FBl]. apply Forall_inv in FBl as BL. clear FBl.
    set (e := unit_vector vlen iy).
    assert (Le : length e = vlen) by apply unit_vector_length.
    set (X := fold_left xor_list ws e).
    assert (LX : length X = vlen). { unfold X. rewrite fold_xor_length; rewrite Le; auto. }
    set (x := xor_list L X).
    assert (Lx : length x = vlen). { unfold x. rewrite xor_list_length. lia. }
    set (cs := firstn m ws ++ x :: skipn m ws).
    assert (Lcs : length cs = n1).
    { unfold cs. rewrite app_length. cbn [length]. rewrite firstn_length, skipn_length. lia. }
    assert (Fcs : Forall (fun c => length c = vlen) cs).
    { unfold cs. apply Forall_app. split; [apply Forall_firstn'; auto|]. constructor; auto. apply Forall_skipn'; auto. }
    (* moving the missing share to the end *)
    assert (MV : forall y, length y = vlen ->
      fold_left xor_list (firstn m ws ++ y :: skipn m ws) e = xor_list X y).
    { intros y Hy. rewrite fold_left_app. cbn [fold_left].
      rewrite fold_xor_out.
      - unfold X. rewrite <- (firstn_skipn m ws) at 3. rewrite fold_left_app. reflexivity.
      - rewrite fold_xor_length; rewrite Le; [apply Forall_skipn'|apply Forall_firstn']; auto.
      - rewrite fold_xor_length; rewrite Le; auto. apply Forall_firstn'; auto. }
    assert (WO : forall rnd, length rnd = (n1 * vlen)%nat ->
       let ks := map (chunk vlen rnd) (seq 0 n1) in
       without m (shares vlen iy n1 rnd) = without m ks ++ [fold_left xor_list ks e]).
    { intros rnd LR ks. unfold shares. fold ks e.
      assert (LK : length ks = n1) by (unfold ks; rewrite map_length, seq_length; auto).
      unfold without. rewrite firstn_app, skipn_app.
      replace (m - length ks)%nat with 0%nat by lia. replace (S m - length ks)%nat with 0%nat by lia.
      cbn [firstn skipn]. rewrite app_nil_r, app_assoc. reflexivity. }
    exists (concat cs). split.
    + split; [split|].
      * rewrite (concat_length_const vlen) by auto. lia.
      * assert (FBc : Forall bytes cs).
        { unfold cs. apply Forall_app. split; [apply Forall_firstn'; auto|]. constructor; [|apply Forall_skipn'; auto].
          unfold x. apply xor_list_bytes; auto. apply fold_xor_bytes; auto. apply unit_vector_bytes. }
        clear -FBc. induction FBc; cbn; [constructor|]. apply bytes_app; auto.
      * rewrite WO by (rewrite (concat_length_const vlen) by auto; lia). cbv zeta. rewrite <- Lcs. rewrite chunks_of_concat by auto.
        f_equal.
        -- unfold without, cs. rewrite firstn_app_exact by (rewrite firstn_length; lia).
           rewrite skipn_app, (skipn_all2 (firstn m ws)) by (rewrite firstn_length; lia). cbn [app].
           rewrite firstn_length. replace (S m - Nat.min m (length ws))%nat with 1%nat by lia. cbn [skipn].
           apply firstn_skipn.
        -- unfold cs. rewrite MV by auto. unfold x. rewrite (xor_list_comm L X), <- xor_list_assoc, xor_list_self.
           rewrite xor_list_comm. rewrite xor_list_zero; auto. lia.
    + intros rnd ((LR & _) & E). rewrite WO in E by auto. cbv zeta in E.
      set (ks := map (chunk vlen rnd) (seq 0 n1)) in *.
      apply app_inj_tail in E as [E1 E2].
      assert (LK : length ks = n1) by (unfold ks; rewrite map_length, seq_length; auto).
      assert (Fks : Forall (fun c => length c = vlen) ks) by (apply chunks_len; auto).
      assert (DK : ks = firstn m ws ++ nth m ks [] :: skipn m ws).
      { rewrite <- E1. unfold without. rewrite firstn_app, firstn_firstn, Nat.min_id, firstn_length.
        replace (m - Nat.min m (length ks))%nat with 0%nat by lia. cbn [firstn]. rewrite app_nil_r.
        rewrite skipn_app, (skipn_all2 (firstn m ks)) by (rewrite firstn_length; lia). cbn [app].
        rewrite firstn_length. replace (m - Nat.min m (length ks))%nat with 0%nat by lia. cbn [skipn].
        rewrite <- (firstn_skipn m ks) at 1. f_equal. apply skipn_S_nth. lia. }
      assert (Ly : length (nth m ks []) = vlen) by (apply (Forall_at _ _ m [] Fks); lia).
      rewrite DK, MV in E2 by auto.
      assert (EX : nth m ks [] = x).
      { unfold x. rewrite <- E2. rewrite (xor_list_comm X), xor_cancel_r; auto. lia. }
      rewrite EX in DK. fold cs in DK. rewrite <- DK. symmetry. symmetry. apply concat_chunks; auto.
Qed.

Lemma privacy D inf n index m vs : 0 < i_cols inf -> 0 <= index -> 3 <= n -> (Z.of_nat m < n) ->
  zlen vs = n - 1 -> Forall (fun v => length v = query_bytes inf /\ bytes v) vs ->
  exists! rnd, (zlen rnd = (n - 1) * (i_cols inf / 8 + 1) /\ bytes rnd) /\
    exists ix qs, pir_query D inf rnd index n = Ok (ix, qs) /\ without m qs = vs.
Proof.
  intros Hc Hi Hn Hm LV FV.
  destruct (view_unique (query_bytes inf) (Z.to_nat (index mod i_cols inf)) (Z.to_nat (n - 1)) m vs) as (rnd & ((L & B) & E) & U);
    try (unfold zlen in LV; lia); auto.
  exists rnd. split.
  - split; [split; auto; unfold zlen, query_bytes in *; nia|].
    eexists _, _. split; [|exact E]. apply query_ok; try lia. unfold zlen, query_bytes in *. nia.
  - intros rnd' ((L' & B') & ix & qs & EQ & EW). apply U. rewrite query_ok in EQ by (auto; lia).
    injection EQ as <- <-. split; [split; auto|exact EW]. unfold zlen, query_bytes in *. nia.
Qed.

(** a single server receives the index in clear *)
Lemma single_server_clear D inf index : 0 < i_cols inf -> 0 <= index ->
  exists ix q, pir_query D inf [] index 1 = Ok (ix, [q]) /\
    forall c, query_bit q c = (Z.of_nat c =? index mod i_cols inf).
Proof.
  intros Hc Hi. rewrite query_ok by (auto; try lia). change (Z.to_nat (1 - 1)) with 0%nat. unfold shares. cbn [seq map fold_left app].
  eexists _, _. split; [reflexivity|]. intros c.
  pose proof (Z.mod_pos_bound index (i_cols inf) Hc).
  rewrite unit_vector_bit by (apply iy_in_vector; auto; lia).
  destruct (Nat.eqb_spec c (Z.to_nat (index mod i_cols inf))), (Z.eqb_spec (Z.of_nat c) (index mod i_cols inf)); auto; lia.
Qed.

(** out of range indices *)
Lemma reconstruct_oob inf ix answers : 0 < i_bs inf -> answers <> [] ->
  ix < 0 \/ (0 <= ix /\ Forall (fun a => zlen a < (ix + 1) * i_bs inf) answers) ->
  is_panic (reconstruct_value inf ix answers) = true.
Proof.
  intros Hb NE HX. unfold reconstruct_value, go_make. destruct (Z.ltb_spec (i_bs inf) 0); [lia|]. cbn [bind].
  destruct answers as [|a t]; [contradiction|]. cbn [sum_answers].
  assert (G : go_slice a (ix * i_bs inf) (i_bs inf * (ix + 1)) = Panic "slice bounds out of range").
  { unfold go_slice. destruct HX as [N|[N F]].
    - destruct (Z.leb_spec 0 (ix * i_bs inf)); [nia|reflexivity].
    - inversion F; subst. destruct (Z.leb_spec (i_bs inf * (ix + 1)) (zlen a)); [nia|]. rewrite andb_false_r. reflexivity. }
  rewrite G. reflexivity.
Qed.

Lemma out_of_range_crash D db rnd index n : db_ok db -> 0 < i_bs (b_info db) -> 3 <= n ->
  zlen rnd = (n - 1) * (i_cols (b_info db) / 8 + 1) ->
  index < 0 \/ i_rows (b_info db) * i_cols (b_info db) <= index ->
  is_panic (pir_query D (b_info db) rnd index n) = true \/
  exists ix qs, pir_query D (b_info db) rnd index n = Ok (ix, qs) /\
    forall answers, answers <> [] -> Forall (fun a => zlen a = i_rows (b_info db) * i_bs (b_info db)) answers ->
      is_panic (reconstruct_value (b_info db) ix answers) = true.
Proof.
  intros HD Hbs Hn HR HI. pose proof HD as (Hr & Hc & _ & _ & _).
  destruct (Z.lt_ge_cases index 0) as [NEG|POS].
  - assert (QN : (index <? 0) && (n <? 2) = false) by (destruct (Z.ltb_spec n 2); [lia|apply andb_false_r]).
    unfold pir_query, invalid_query_inputs_it. rewrite QN. unfold vector_to_matrix_indices.
    destruct (Z.eqb_spec (i_cols (b_info db)) 0); [lia|]. cbn [bind]. destruct (Z.eqb_spec n 2); [lia|].
    set (c := i_cols (b_info db)) in *.
    assert (R : - c < Z.rem index c <= 0).
    { pose proof (Z.rem_bound_pos_neg index c Hc ltac:(lia)). lia. }
    destruct (Z.eq_dec (Z.rem index c) 0) as [E0|E0].
    + right. rewrite E0. change 0 with (Z.of_nat 0). rewrite secret_share_ok by (auto; lia). cbn [bind].
      eexists _, _. split; [reflexivity|]. intros answers NE FA. apply reconstruct_oob; auto. left.
      assert (index = c * Z.quot index c + Z.rem index c) by (apply Z.quot_rem'). nia.
    + left. unfold secret_share. set (v := Z.quot c 8 + 1). assert (Hv : 0 < v) by (unfold v; rewrite Z.quot_div_nonneg by lia; lia).
      unfold go_make. destruct (Z.ltb_spec n 0); [lia|]. cbn [bind]. destruct (Z.ltb_spec v 0); [lia|].
      rewrite (mapM_ok _ (fun _ => repeat 0 (Z.to_nat v))) by reflexivity. cbn [bind].
      destruct (Z.ltb_spec ((n - 1) * v) 0); [nia|]. cbn [bind].
      destruct (Z.ltb_spec (Z.rem (Z.rem index c) 8) 0); [reflexivity|].
      rewrite (go_index_ok _ (n - 1) tt) by (unfold zlen; rewrite repeat_length; lia). cbn [bind].
      assert (Q8 : Z.quot (Z.rem index c) 8 < 0).
      { pose proof (Z.quot_rem' (Z.rem index c) 8). pose proof (Z.rem_bound_pos_neg (Z.rem index c) 8 ltac:(lia) ltac:(lia)). lia. }
      unfold go_store. destruct (Z.leb_spec 0 (Z.quot (Z.rem index c) 8)); [lia|]. reflexivity.
  - right. rewrite query_ok by (auto; lia). eexists _, _. split; [reflexivity|]. intros answers NE FA.
    assert (i_rows (b_info db) <= index / i_cols (b_info db)) by (apply Z.div_le_lower_bound; lia).
    apply reconstruct_oob; auto. right. split; [lia|]. eapply Forall_impl; [|exact FA]. cbv beta. intros a L. rewrite L. nia.
Qed.

(** the server is linear *)
Lemma answer_linear D db q1 q2 : db_ok db -> length q1 = length q2 -> i_cols (b_info db) <= 8 * zlen q1 ->
  exists a1 a2, pir_answer D false db q1 = Ok a1 /\ pir_answer D false db q2 = Ok a2 /\
    pir_answer D false db (xor_list q1 q2) = Ok (xor_list a1 a2).
Proof.
  intros HD L HQ. pose proof HD as (Hr & Hc & _ & Hb & _).
  destruct (answer_vector_ok D db q1 HD HQ) as (a1 & E1 & L1 & N1).
  destruct (answer_vector_ok D db q2 HD) as (a2 & E2 & L2 & N2). { unfold zlen in *. lia. }
  destruct (answer_vector_ok D db (xor_list q1 q2) HD) as (a & E & La & N). { unfold zlen in *. rewrite xor_list_length. lia. }
  exists a1, a2. conj_split; auto. rewrite E. f_equal. unfold zlen in L1, L2, La.
  apply nth_ext with (d := 0) (d' := 0). { rewrite xor_list_length. lia. }
  intros p Hp. rewrite xor_list_nth by lia.
  set (bs := Z.to_nat (i_bs (b_info db))) in *.
  assert (B0 : (0 < bs)%nat) by nia.
  rewrite (Nat.div_mod p bs) by lia. rewrite (Nat.mul_comm bs).
  pose proof (Nat.mod_upper_bound p bs ltac:(lia)).
  assert (p / bs < Z.to_nat (i_rows (b_info db)))%nat by (apply Nat.div_lt_upper_bound; nia).
  rewrite N, N1, N2 by auto. unfold row_value. rewrite <- xors_map_lxor. f_equal. apply map_ext. intros c.
  rewrite query_bit_xor by auto. destruct (query_bit q1 c), (query_bit q2 c); cbn [xorb]; auto using Z.lxor_0_r, Z.lxor_0_l, eq_sym, Z.lxor_nilpotent.
Qed.

(** two-server client, servers that do not evaluate the DPF *)
Lemma mismatch_value D db rnd index k0 k1 a0 a1 ix : db_ok db -> 0 <= index < i_rows (b_info db) * i_cols (b_info db) ->
  pir_query D (b_info db) rnd index 2 = Ok (ix, [k0; k1]) ->
  i_cols (b_info db) <= 8 * zlen k0 -> i_cols (b_info db) <= 8 * zlen k1 ->
  pir_answer D false db k0 = Ok a0 -> pir_answer D false db k1 = Ok a1 ->
  exists r, reconstruct_value (b_info db) ix [a0; a1] = Ok r /\ zlen r = i_bs (b_info db) /\
    forall p, (p < Z.to_nat (i_bs (b_info db)))%nat ->
    nth p r 0 = xors (map (fun c => if xorb (query_bit k0 c) (query_bit k1 c)
      then nth p (padded db (Z.to_nat (index / i_cols (b_info db)) * Z.to_nat (i_cols (b_info db)) + c)) 0 else 0)
      (seq 0 (Z.to_nat (i_cols (b_info db))))).
Proof.
  intros HD HI EQ Q0 Q1 A0 A1. pose proof HD as (Hr & Hc & H62 & Hb & _).
  pose proof (row_in_range _ _ _ Hc HI) as RI.
  assert (EX : ix = index / i_cols (b_info db)).
  { unfold pir_query, invalid_query_inputs_it, vector_to_matrix_indices in EQ.
    destruct (Z.ltb_spec index 0); [lia|]. cbn [andb] in EQ. destruct (Z.eqb_spec (i_cols (b_info db)) 0); [lia|]. cbn [bind Z.eqb Pos.eqb] in EQ.
    destruct (dpf_gen D _ _) as [[? ?]| | |]; cbn [bind] in EQ; try discriminate. injection EQ as <- _ _. apply Z.quot_div_nonneg; lia. }
  subst ix.
  destruct (answer_vector_ok D db k0 HD Q0) as (a0' & E0 & L0 & N0). rewrite A0 in E0. injection E0 as <-.
  destruct (answer_vector_ok D db k1 HD Q1) as (a1' & E1 & L1 & N1). rewrite A1 in E1. injection E1 as <-.
  unfold reconstruct_value, go_make. destruct (Z.ltb_spec (i_bs (b_info db)) 0); [lia|]. cbn [bind].
  destruct (sum_answers_ok (i_bs (b_info db)) (index / i_cols (b_info db)) Hb ltac:(lia) [a0; a1] (repeat 0 (Z.to_nat (i_bs (b_info db))))) as (r & E & L & N).
  { apply repeat_length. }
  { repeat constructor; nia. }
  exists r. split; [exact E|]. split; [unfold zlen; lia|]. intros p Hp. rewrite N by auto. rewrite nth_repeat, Z.lxor_0_l.
  cbn [map xors fold_right]. rewrite Z.lxor_0_r.
  replace (Z.to_nat (index / i_cols (b_info db) * i_bs (b_info db)) + p)%nat
    with (Z.to_nat (index / i_cols (b_info db)) * Z.to_nat (i_bs (b_info db)) + p)%nat by nia.
  rewrite N0, N1 by (auto; lia). unfold row_value. rewrite <- xors_map_lxor. f_equal. apply map_ext. intros c.
  rewrite nth_padded.
  destruct (query_bit k0 c), (query_bit k1 c); cbn [xorb]; auto using Z.lxor_0_r, Z.lxor_0_l, eq_sym, Z.lxor_nilpotent.
Qed.
