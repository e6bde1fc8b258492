(** Lemmas about the key directory: float32 rounding, sorting, the hash table. *)
From Coq Require Import String ZArith List Bool Arith Lia Permutation Sorted.
From Verif Require Import GoBase BaseFacts EncodingModel EncodingProofs MerkleModel MerkleSpec MerkleProofs LWEModel LWEProofs4
  PointModel PointSpec DirectoryModel DirectorySpec.
Import ListNotations.
Open Scope Z_scope.
Open Scope go_scope.

(** ** float32 *)
Lemma round24_small m : 0 <= m < 2 ^ 24 -> round24 m = m.
Proof.
  intros H. unfold round24. destruct (Z.leb_spec (Z.log2 m - 23) 0) as [_|L]; [reflexivity|]. exfalso.
  destruct (Z.eq_dec m 0) as [->|N]; [cbn in L; lia|].
  assert (Z.log2 m < 24) by (apply Z.log2_lt_pow2; lia). lia.
Qed.

Lemma round24_near m : 0 < m -> let s := Z.log2 m - 23 in 0 < s ->
  (exists q, round24 m = q * 2 ^ s /\ m / 2 ^ s <= q) /\ round24 m <= m + 2 ^ (s - 1) /\ 2 ^ Z.log2 m <= round24 m.
Proof.
  intros Hm s Hs. unfold round24. fold s. destruct (Z.leb_spec s 0); [lia|]. cbv zeta.
  assert (P : 0 < 2 ^ (s - 1)) by (apply Z.pow_pos_nonneg; lia).
  assert (E : 2 ^ s = 2 * 2 ^ (s - 1)) by (rewrite <- Z.pow_succ_r by lia; f_equal; lia).
  pose proof (Z.div_mod m (2 ^ s) ltac:(lia)) as DM. pose proof (Z.mod_pos_bound m (2 ^ s) ltac:(lia)) as MB.
  set (q := m / 2 ^ s) in *. set (r := m mod 2 ^ s) in *.
  assert (LQ : 2 ^ 23 <= q).
  { apply Z.div_le_lower_bound; [lia|]. rewrite <- Z.pow_add_r by lia. replace (s + 23) with (Z.log2 m) by lia. apply Z.log2_spec; lia. }
  assert (L2 : 2 ^ Z.log2 m = 2 ^ 23 * 2 ^ s) by (rewrite <- Z.pow_add_r by lia; f_equal; lia).
  destruct (_ || _) eqn:B.
  - assert (2 ^ (s - 1) <= r).
    { apply orb_true_iff in B as [B|B]; [apply Z.ltb_lt in B; lia|]. apply andb_true_iff in B as [B _]. apply Z.eqb_eq in B. lia. }
    split; [exists (q + 1); split; [reflexivity|lia]|]. split; nia.
  - split; [exists q; split; [reflexivity|lia]|]. split; nia.
Qed.

Lemma round24_pos m : 0 < m -> 2 ^ Z.log2 m <= round24 m.
Proof.
  intros Hm. destruct (Z_le_gt_dec (Z.log2 m - 23) 0) as [L|L].
  - unfold round24. destruct (Z.leb_spec (Z.log2 m - 23) 0); [|lia]. apply Z.log2_spec; lia.
  - apply round24_near; lia.
Qed.

Lemma buckets_tenth n : 0 <= n < 2 ^ 24 -> pre_square_num_blocks n = n / 10.
Proof.
  intros H. unfold pre_square_num_blocks. rewrite (round24_small n) by lia.
  destruct (Z.eq_dec n 0) as [->|N]; [reflexivity|].
  set (P := n * 13421773). assert (HP : 0 < P) by (unfold P; lia).
  pose proof (Z.div_mod n 10 ltac:(lia)) as DM. pose proof (Z.mod_pos_bound n 10 ltac:(lia)) as MB.
  set (k := n / 10) in *.
  assert (LP : k * 2 ^ 27 <= P) by (unfold P; lia).
  assert (UP : P + 2 ^ 23 < (k + 1) * 2 ^ 27) by (unfold P; lia).
  assert (G : k * 2 ^ 27 <= round24 P < (k + 1) * 2 ^ 27).
  { destruct (Z_le_gt_dec (Z.log2 P - 23) 0) as [L|L].
    - unfold round24. destruct (Z.leb_spec (Z.log2 P - 23) 0); [|lia]. lia.
    - destruct (round24_near P HP ltac:(lia)) as ((q & EQ & LQ) & RU & _).
      set (s := Z.log2 P - 23) in *.
      assert (S24 : s <= 24).
      { assert (Z.log2 P < 48) by (apply Z.log2_lt_pow2; unfold P; lia). lia. }
      assert (2 ^ (s - 1) <= 2 ^ 23) by (apply Z.pow_le_mono_r; lia).
      split; [|lia]. rewrite EQ.
      replace (2 ^ 27) with (2 ^ (27 - s) * 2 ^ s) by (rewrite <- Z.pow_add_r by lia; f_equal; lia).
      rewrite Z.mul_assoc. apply Z.mul_le_mono_nonneg_r; [apply Z.pow_nonneg; lia|].
      etransitivity; [|exact LQ]. apply Z.div_le_lower_bound; [apply Z.pow_pos_nonneg; lia|].
      rewrite (Z.mul_comm (2 ^ s)), <- Z.mul_assoc, <- Z.pow_add_r by lia. replace (27 - s + s) with 27 by lia. exact LP. }
  symmetry. apply Z.div_unique with (round24 P - k * 2 ^ 27); lia.
Qed.

Lemma buckets_positive n : 10 <= n -> 1 <= pre_square_num_blocks n.
Proof.
  intros H. destruct (Z_lt_le_dec n (2 ^ 24)) as [L|L].
  - rewrite buckets_tenth by lia. apply Z.div_le_lower_bound; lia.
  - unfold pre_square_num_blocks.
    assert (R1 : 2 ^ 24 <= round24 n).
    { pose proof (round24_pos n ltac:(lia)). assert (24 <= Z.log2 n) by (apply Z.log2_le_pow2; lia).
      assert (2 ^ 24 <= 2 ^ Z.log2 n) by (apply Z.pow_le_mono_r; lia). lia. }
    set (m := round24 n * 13421773). assert (M : 2 ^ 27 <= m) by (unfold m; lia).
    pose proof (round24_pos m ltac:(lia)). assert (27 <= Z.log2 m) by (apply Z.log2_le_pow2; lia).
    assert (2 ^ 27 <= 2 ^ Z.log2 m) by (apply Z.pow_le_mono_r; lia). apply Z.div_le_lower_bound; lia.
Qed.

Lemma few_keys n : 0 <= n < 10 -> pre_square_num_blocks n = 0.
Proof. intros H. rewrite buckets_tenth by lia. apply Z.div_small. lia. Qed.

Lemma layout_positive n reb : 1 <= n -> let '(r, c) := calculate_num_rows_and_columns n reb in 0 < r /\ 0 < c.
Proof.
  intros H. unfold calculate_num_rows_and_columns. destruct reb; [|lia].
  assert (0 < Z.sqrt (increase_to_next_square n)); [|lia].
  apply Z.sqrt_pos. unfold increase_to_next_square. destruct (_ =? _); [lia|].
  pose proof (Z.sqrt_nonneg n). nia.
Qed.

(** ** sorting *)
Lemma string_lt_antisym a : forall b, string_lt a b = false -> string_lt b a = false -> a = b.
Proof.
  induction a as [|x a IH]; intros [|y b] H1 H2; cbn [string_lt] in *; try discriminate; auto.
  apply orb_false_iff in H1 as [A1 B1]. apply orb_false_iff in H2 as [A2 B2].
  apply Z.ltb_ge in A1, A2. assert (x = y) by lia. subst y. rewrite Z.eqb_refl in B1, B2. cbn [andb] in *. f_equal. auto.
Qed.

Lemma string_lt_irrefl a : string_lt a a = false.
Proof. induction a as [|x a IH]; cbn [string_lt]; auto. rewrite Z.ltb_irrefl, Z.eqb_refl, IH. reflexivity. Qed.

Lemma nodup_ids_inj keys a b : NoDup (map k_id keys) -> In a keys -> In b keys -> k_id a = k_id b -> a = b.
Proof.
  intros ND Ha Hb E. destruct (In_nth _ _ a Ha) as (i & Hi & Ei). destruct (In_nth _ _ a Hb) as (j & Hj & Ej).
  assert (i = j).
  { apply (proj1 (NoDup_nth (map k_id keys) (k_id a)) ND); rewrite ?map_length; auto. rewrite !map_nth, Ei, Ej. exact E. }
  subst j. congruence.
Qed.

Lemma sorted_unique (R : pkey -> pkey -> Prop) : forall l1 l2, Permutation l1 l2 ->
  (forall a b, In a l1 -> In b l1 -> R a b -> R b a -> a = b) ->
  StronglySorted R l1 -> StronglySorted R l2 -> l1 = l2.
Proof.
  induction l1 as [|a l1 IH]; intros l2 P AS S1 S2.
  - apply Permutation_nil in P. auto.
  - destruct l2 as [|b l2]; [apply Permutation_sym, Permutation_nil in P; discriminate|].
    apply StronglySorted_inv in S1 as [S1 F1]. apply StronglySorted_inv in S2 as [S2 F2].
    rewrite Forall_forall in F1, F2.
    assert (a = b).
    { assert (Ia : In a (b :: l2)) by (eapply Permutation_in; [exact P|left; auto]).
      assert (Ib : In b (a :: l1)) by (eapply Permutation_in; [apply Permutation_sym; exact P|left; auto]).
      destruct Ia as [|Ia]; [auto|]. destruct Ib as [|Ib]; [auto|].
      apply AS; [left; auto|right; auto|apply F1; auto|apply F2; auto]. }
    subst b. f_equal. apply IH; auto.
    + eapply Permutation_cons_inv. exact P.
    + intros x y Hx Hy. apply AS; right; auto.
Qed.

Lemma sort_canonical s1 s2 k1 k2 : sorts s1 -> sorts s2 -> Permutation k1 k2 -> NoDup (map k_id k1) -> s1 k1 = s2 k2.
Proof.
  intros H1 H2 P ND. destruct (H1 k1) as [P1 S1]. destruct (H2 k2) as [P2 S2].
  eapply sorted_unique; [|intros a b Ha Hb R1 R2|exact S1|exact S2].
  - eapply Permutation_trans; [apply Permutation_sym; exact P1|]. eapply Permutation_trans; [exact P|exact P2].
  - cbv beta in R1, R2. eapply nodup_ids_inj; [exact ND| | |apply string_lt_antisym; auto];
      eapply Permutation_in; try (apply Permutation_sym; exact P1); auto.
Qed.

(** ** the hash table *)
Fixpoint tget (k : Z) (m : table) : option (list Z) :=
  match m with
  | [] => None
  | (k', v) :: t => if k =? k' then Some v else tget k t
  end.

Lemma tget_append k p m k' : tget k' (bucket_append k p m) =
  if k' =? k then Some (match tget k m with Some v => v ++ p | None => p end) else tget k' m.
Proof.
  induction m as [|[k0 v] m IH]; cbn [bucket_append tget].
  - destruct (Z.eqb_spec k' k); reflexivity.
  - destruct (Z.eqb_spec k k0); cbn [tget].
    + subst k0. destruct (Z.eqb_spec k' k); reflexivity.
    + rewrite IH. destruct (Z.eqb_spec k' k0); [subst k0|reflexivity]. destruct (Z.eqb_spec k' k); [congruence|reflexivity].
Qed.

Lemma append_keys k p m : NoDup (map fst m) -> NoDup (map fst (bucket_append k p m)).
Proof.
  assert (I : forall x m, In x (map fst (bucket_append k p m)) -> x = k \/ In x (map fst m)).
  { intros x m'. induction m' as [|[k0 v] m' IH]; cbn; [intuition auto|]. destruct (Z.eqb_spec k k0); cbn; intuition auto. }
  induction m as [|[k0 v] m IH]; cbn [bucket_append]; intros ND.
  - cbn. constructor; [auto|constructor].
  - cbn [map fst] in ND. apply NoDup_cons_iff in ND as [N ND]. destruct (Z.eqb_spec k k0); cbn [map fst].
    + subst. constructor; auto.
    + constructor; auto. intros X. apply I in X as [X|X]; auto.
Qed.

Lemma tget_In k v m : tget k m = Some v -> In (k, v) m.
Proof.
  induction m as [|[k0 v0] m IH]; cbn [tget]; [discriminate|]. destruct (Z.eqb_spec k k0); intros E.
  - injection E as <-. subst. left; auto.
  - right; auto.
Qed.
Lemma In_tget k v m : NoDup (map fst m) -> In (k, v) m -> tget k m = Some v.
Proof.
  induction m as [|[k0 v0] m IH]; cbn [map fst tget]; intros ND I; [destruct I|].
  apply NoDup_cons_iff in ND as [N ND]. destruct I as [E|I].
  - injection E as -> ->. rewrite Z.eqb_refl. reflexivity.
  - destruct (Z.eqb_spec k k0); [|auto]. subst. exfalso. apply N. apply in_map_iff. exists (k0, v). auto.
Qed.

Lemma tget_perm m m' : NoDup (map fst m) -> Permutation m m' -> forall k, tget k m' = tget k m.
Proof.
  intros ND P k.
  assert (ND' : NoDup (map fst m')) by (eapply Permutation_NoDup; [apply Permutation_map; exact P|exact ND]).
  destruct (tget k m) as [v|] eqn:E.
  - apply In_tget; auto. eapply Permutation_in; [exact P|]. apply tget_In; auto.
  - destruct (tget k m') as [v|] eqn:E'; auto. apply tget_In in E'.
    apply (Permutation_in _ (Permutation_sym P)) in E'. apply (In_tget _ _ _ ND) in E'. congruence.
Qed.

Lemma hash_ok_first B id : hash_ok B -> 0 <= be_dec (firstn 4 (B id)) < w32.
Proof.
  intros HB. destruct (HB id) as [L Bb]. rewrite w32_pow.
  assert (E : zlen (firstn 4 (B id)) = 4) by (unfold zlen; rewrite firstn_length, L; reflexivity).
  rewrite <- E. apply be_dec_bound. unfold bytes in *. rewrite <- (firstn_skipn 4 (B id)) in Bb. apply Forall_app in Bb. tauto.
Qed.

Lemma hash_to_index_ok B id n : hash_ok B -> 0 < n < w32 -> hash_to_index B id n = Ok (position B n id).
Proof.
  intros HB Hn. unfold hash_to_index, position. destruct (HB id) as [L _].
  rewrite go_slice_ok by (unfold zlen; lia). cbn [bind]. change (Z.to_nat 0) with 0%nat. change (Z.to_nat (4 - 0)) with 4%nat. cbn [skipn].
  unfold be_u32. rewrite firstn_length, L. change (Nat.min 4 32 <? 4)%nat with false. cbn [bind]. rewrite firstn_firstn. change (Nat.min 4 4) with 4%nat.
  assert (U : u32 n = n) by (apply Z.mod_small; lia). rewrite U. destruct (Z.eqb_spec n 0); [lia|reflexivity].
Qed.

Lemma position_range B n id : 0 < n -> 0 <= position B n id < n.
Proof. intros. apply Z.mod_pos_bound; auto. Qed.

Lemma hash_table_ok B n keys : hash_ok B -> 0 < n < w32 -> forall done m,
  NoDup (map fst m) ->
  (forall k, tget k m = match in_bucket B n done k with [] => None | _ => Some (bucket B n done k) end) ->
  exists ht, make_hash_table B keys n m = Ok ht /\ NoDup (map fst ht) /\
    forall k, tget k ht = match in_bucket B n (done ++ keys) k with [] => None | _ => Some (bucket B n (done ++ keys) k) end.
Proof.
  intros HB Hn. induction keys as [|key keys IH]; intros done m ND G; cbn [make_hash_table].
  - exists m. rewrite app_nil_r. auto.
  - rewrite hash_to_index_ok by auto. cbn [bind].
    destruct (IH (done ++ [key]) (bucket_append (position B n (k_id key)) (k_packet key) m)) as (ht & E & N & T).
    + apply append_keys; auto.
    + intros k. rewrite tget_append, !G. unfold bucket, in_bucket. rewrite !filter_app. cbn [filter].
      rewrite (Z.eqb_sym _ k). destruct (Z.eqb_spec k (position B n (k_id key))) as [->|_].
      * rewrite !map_app, !concat_app. cbn [map concat]. rewrite app_nil_r.
        destruct (filter (fun key0 => position B n (k_id key0) =? position B n (k_id key)) done) as [|x l]; reflexivity.
      * rewrite app_nil_r. reflexivity.
    + exists ht. rewrite <- app_assoc in T. auto.
Qed.

Lemma store_blocks_ok : forall entries blocks, NoDup (map fst entries) ->
  (forall k v, In (k, v) entries -> 0 <= k < zlen blocks) ->
  exists blocks', store_blocks entries blocks = Ok blocks' /\ length blocks' = length blocks /\
    forall k, (k < length blocks)%nat -> nth k blocks' [] =
      match tget (Z.of_nat k) entries with Some v => v ++ [128] | None => nth k blocks [] end.
Proof.
  induction entries as [|[k v] entries IH]; intros blocks ND R; cbn [store_blocks].
  - exists blocks. auto.
  - cbn [map fst] in ND. apply NoDup_cons_iff in ND as [N ND].
    pose proof (R k v ltac:(left; auto)) as Rk. unfold zlen in Rk.
    assert (ES : go_store blocks k (pad_with_signal_byte v) = Ok (upd blocks (Z.to_nat k) (pad_with_signal_byte v))).
    { pose proof (go_store_nat blocks (Z.to_nat k) (pad_with_signal_byte v)) as X. rewrite Z2Nat.id in X by lia. apply X. lia. }
    rewrite ES. cbn [bind].
    destruct (IH (upd blocks (Z.to_nat k) (pad_with_signal_byte v)) ND) as (b' & E & L & G).
    { intros k' v' I. unfold zlen. rewrite upd_length. apply (R k' v'). right; auto. }
    exists b'. rewrite upd_length in L. split; [exact E|]. split; [exact L|].
    intros j Hj. rewrite G by (rewrite upd_length; auto). cbn [tget].
    destruct (Z.eqb_spec (Z.of_nat j) k) as [Ej|Nj].
    + rewrite Ej. destruct (tget k entries) as [w|] eqn:Tk.
      * exfalso. apply N. apply tget_In in Tk. apply in_map_iff. exists (k, w). auto.
      * replace j with (Z.to_nat k) by lia. rewrite nth_upd_eq by lia. reflexivity.
    + destruct (tget (Z.of_nat j) entries); auto. apply nth_upd_neq. lia.
Qed.
