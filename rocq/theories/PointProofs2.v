(** Proofs about point queries: secret sharing, correctness, privacy. *)
From Coq Require Import String ZArith List Bool Lia Permutation Arith.
From Verif Require Import GoBase BaseFacts EncodingModel MerkleModel FSSModel XorFacts FSSProofs PointModel PointSpec PointProofs.
Import ListNotations.
Open Scope Z_scope.
Open Scope go_scope.

Lemma answer_vector_ok D db q : db_ok db -> i_cols (b_info db) <= 8 * zlen q ->
  exists r, pir_answer D false db q = Ok r /\ zlen r = i_rows (b_info db) * i_bs (b_info db) /\
    forall row p, (row < Z.to_nat (i_rows (b_info db)))%nat -> (p < Z.to_nat (i_bs (b_info db)))%nat ->
      nth (row * Z.to_nat (i_bs (b_info db)) + p) r 0 = row_value db q row p.
Proof.
  intros HD HQ. pose proof HD as (Hr & Hc & _ & Hb & _). unfold pir_answer. unfold go_make.
  destruct (Z.ltb_spec (i_rows (b_info db) * i_bs (b_info db)) 0); [nia|]. cbn [bind].
  set (out := repeat 0 _).
  assert (LO : length out = (Z.to_nat (i_rows (b_info db)) * Z.to_nat (i_bs (b_info db)))%nat).
  { unfold out. rewrite repeat_length. nia. }
  destruct (answer_rows_ok db q HD HQ (Z.to_nat (i_rows (b_info db))) 0 out) as (r & E & L & N); [lia|lia|].
  exists r. split; [exact E|]. split. { unfold zlen. nia. }
  intros row p Hrow Hp. rewrite N by auto. cbn [Nat.ltb Nat.leb]. unfold out. rewrite nth_repeat. apply Z.lxor_0_l.
Qed.

(** too short a query vector *)
Lemma xor_values_short entries q : forall lens j pos out,
  0 <= j -> 0 <= pos -> Forall (fun l => 0 <= l) lens -> pos + zsum lens <= zlen entries ->
  j <= 8 * zlen q < j + zlen lens ->
  xor_values entries lens q j pos out = Panic "index out of range".
Proof.
  induction lens as [|l t IH]; intros j pos out Hj Hp HF HS HQ; cbn [xor_values].
  - exfalso. unfold zlen in HQ. cbn [length] in HQ. lia.
  - inversion HF as [|? ? Hl Ht]; subst. cbn [zsum] in HS.
    assert (ZT : 0 <= zsum t) by (apply zsum_nonneg; auto).
    unfold zlen in HQ. cbn [length] in HQ. fold (@zlen Z q) in HQ.
    destruct (Z.lt_ge_cases j (8 * zlen q)).
    + rewrite (go_index_ok q (j / 8) 0) by lia. cbn [bind].
      destruct (Z.testbit _ _).
      * rewrite go_slice_ok by lia. cbn [bind]. apply IH; auto; try lia. unfold zlen in *. lia.
      * cbn [bind]. apply IH; auto; try lia. unfold zlen in *. lia.
    + rewrite go_index_panic by lia. reflexivity.
Qed.

Lemma answer_vector_short D db q : db_ok db -> 8 * zlen q < i_cols (b_info db) ->
  pir_answer D false db q = Panic "index out of range".
Proof.
  intros (Hr & Hc & Hc62 & Hb & HL & HF & HS) HQ. unfold pir_answer, go_make.
  destruct (Z.ltb_spec (i_rows (b_info db) * i_bs (b_info db)) 0); [nia|]. cbn [bind].
  destruct (Z.to_nat (i_rows (b_info db))) eqn:ER; [lia|]. cbn [answer_rows].
  set (cols := Z.to_nat (i_cols (b_info db))). set (lens := i_lens (b_info db)) in *.
  assert (HF0 : Forall (fun l => 0 <= l) lens). { eapply Forall_impl; [|exact HF]. cbv beta. lia. }
  assert (I1 : (cols <= length lens)%nat). { unfold zlen in HL. unfold cols. nia. }
  change (0 * i_cols (b_info db)) with (Z.of_nat 0). rewrite add_lens_ok by lia. cbn [bind skipn].
  pose proof (zsum_firstn_le lens cols HF0).
  pose proof (zsum_nonneg _ (Forall_firstn' _ cols _ HF0)).
  rewrite go_slice_ok by lia. cbn [bind skipn Z.to_nat].
  change (Z.of_nat 0) with 0.
  rewrite go_slice_ok by (unfold zlen; lia). cbn [bind skipn Z.to_nat].
  rewrite go_slice_ok; [|lia|unfold zlen; rewrite repeat_length; nia]. cbn [bind].
  replace (Z.to_nat ((0 + 1) * i_cols (b_info db) - 0)) with cols by (unfold cols; lia).
  rewrite xor_values_short; auto; try lia.
  - apply Forall_firstn'; auto.
  - change (Z.to_nat 0) with 0%nat. cbn [skipn]. unfold zlen in *. rewrite firstn_length. lia.
  - change (Z.to_nat 0) with 0%nat. cbn [skipn]. unfold zlen in *. rewrite firstn_length. lia.
Qed.

(** parity of the query bits *)
Definition parity (l : list bool) : bool := fold_right xorb false l.

Lemma xors_select (bit : list Z -> bool) v qs :
  xors (map (fun q => if bit q then v else 0) qs) = if parity (map bit qs) then v else 0.
Proof.
  unfold xors, parity. induction qs as [|q qs IH]; [reflexivity|]. cbn. rewrite IH.
  destruct (bit q), (fold_right xorb false (map bit qs)); cbn; auto using Z.lxor_nilpotent, Z.lxor_0_r.
Qed.

Lemma Forall_at {A} (P : A -> Prop) l k d : Forall P l -> (k < length l)%nat -> P (nth k l d).
Proof. intros F Hk. rewrite Forall_forall in F. apply F, nth_In, Hk. Qed.

Lemma stored_length db k : (k < length (i_lens (b_info db)))%nat -> db_ok db ->
  zlen (stored db k) = nth k (i_lens (b_info db)) 0.
Proof.
  intros Hk (Hr & Hc & _ & Hb & HL & HF & HS). unfold stored, zlen. rewrite firstn_length, skipn_length.
  set (lens := i_lens (b_info db)) in *.
  assert (HF0 : Forall (fun l => 0 <= l) lens). { eapply Forall_impl; [|exact HF]. cbv beta. lia. }
  pose proof (zsum_firstn_S lens k Hk). pose proof (zsum_firstn_le lens (S k) HF0).
  pose proof (zsum_nonneg _ (Forall_firstn' _ k _ HF0)).
  pose proof (Forall_at _ _ k 0 HF0 Hk). cbv beta in *.
  unfold zlen in HS. lia.
Qed.

Lemma padded_length db k : (k < length (i_lens (b_info db)))%nat -> db_ok db ->
  length (padded db k) = Z.to_nat (i_bs (b_info db)).
Proof.
  intros Hk HD. pose proof (stored_length db k Hk HD) as L. unfold padded. rewrite app_length, repeat_length.
  destruct HD as (Hr & Hc & _ & Hb & HL & HF & HS).
  pose proof (Forall_at _ _ k 0 HF Hk) as B. cbv beta in B.
  unfold zlen in L. lia.
Qed.

Lemma nth_padded db k p : nth p (padded db k) 0 = nth p (stored db k) 0.
Proof.
  unfold padded. destruct (Nat.lt_ge_cases p (length (stored db k))).
  - apply app_nth1; auto.
  - rewrite app_nth2 by lia. rewrite nth_repeat. symmetry. apply nth_overflow. lia.
Qed.

(** answers to queries whose bits have the parity of a unit vector add up to the record *)
Lemma answers_reconstruct db qs answers ix iy :
  db_ok db -> (ix < Z.to_nat (i_rows (b_info db)))%nat -> (iy < Z.to_nat (i_cols (b_info db)))%nat ->
  (forall c, (c < Z.to_nat (i_cols (b_info db)))%nat -> parity (map (fun q => query_bit q c) qs) = (c =? iy)%nat) ->
  Forall2 (fun q r => zlen r = i_rows (b_info db) * i_bs (b_info db) /\
    forall row p, (row < Z.to_nat (i_rows (b_info db)))%nat -> (p < Z.to_nat (i_bs (b_info db)))%nat ->
      nth (row * Z.to_nat (i_bs (b_info db)) + p) r 0 = row_value db q row p) qs answers ->
  forall answers', Permutation answers answers' ->
  reconstruct_value (b_info db) (Z.of_nat ix) answers' = Ok (padded db (ix * Z.to_nat (i_cols (b_info db)) + iy)).
Proof.
  intros HD Hix Hiy HP HF answers' PM. pose proof HD as (Hr & Hc & _ & Hb & HL & _).
  set (bs := Z.to_nat (i_bs (b_info db))) in *. set (cols := Z.to_nat (i_cols (b_info db))) in *.
  unfold reconstruct_value, go_make. destruct (Z.ltb_spec (i_bs (b_info db)) 0); [lia|]. cbn [bind].
  assert (FL : Forall (fun a => (Z.of_nat ix + 1) * i_bs (b_info db) <= zlen a) answers').
  { eapply Permutation_Forall; [exact PM|]. clear -HF Hix Hb Hr. induction HF as [|q r qs as' (L & _) F IH]; constructor; auto.
    rewrite L. nia. }
  destruct (sum_answers_ok (i_bs (b_info db)) (Z.of_nat ix) Hb ltac:(lia) answers' (repeat 0 bs)) as (r & E & L & N); auto.
  { apply repeat_length. }
  fold bs. rewrite E. f_equal.
  assert (K : (ix * cols + iy < length (i_lens (b_info db)))%nat).
  { unfold zlen in HL. unfold cols in *. nia. }
  apply nth_ext with (d := 0) (d' := 0). { rewrite L, padded_length; auto. }
  intros p Hp. rewrite L in Hp. rewrite N by auto. rewrite nth_repeat, Z.lxor_0_l.
  rewrite <- (xors_perm _ _ (Permutation_map _ PM)).
  assert (EM : map (fun a => nth (Z.to_nat (Z.of_nat ix * i_bs (b_info db)) + p) a 0) answers = map (fun q => row_value db q ix p) qs).
  { clear -HF Hix Hp Hb. induction HF as [|q a qs as' (_ & V) F IH]; auto. cbn [map]. rewrite IH. f_equal.
    rewrite <- V by auto. f_equal. fold bs. unfold bs. nia. }
  rewrite EM. unfold row_value. fold cols. rewrite xors_swap.
  rewrite nth_padded.
  transitivity (xors (map (fun c => if (c =? iy)%nat then nth p (stored db (ix * cols + c)) 0 else 0) (seq 0 cols))).
  - f_equal. apply map_ext_in. intros c Hc'. apply in_seq in Hc'. rewrite (xors_select (fun q => query_bit q c)).
    rewrite HP by lia. reflexivity.
  - set (f := fun c => if (c =? iy)%nat then nth p (stored db (ix * cols + c)) 0 else 0).
    rewrite (xors_single f iy cols 0).
    + unfold f. rewrite Nat.eqb_refl. reflexivity.
    + lia.
    + intros j Hj. unfold f. destruct (Nat.eqb_spec j iy); [contradiction|reflexivity].
Qed.

(** secret sharing *)
Lemma go_copy_full {A} (d s : list A) : length d = length s -> go_copy d s = s.
Proof. intros E. unfold go_copy. rewrite E, firstn_all, skipn_all2 by lia. apply app_nil_r. Qed.

Definition chunk (vlen : nat) (rnd : list Z) (k : nat) : list Z := firstn vlen (skipn (k * vlen) rnd).

Lemma share_loop_ok vlen rnd : forall todo k last,
  length last = vlen -> length rnd = ((k + todo) * vlen)%nat ->
  share_loop k todo (Z.of_nat vlen) rnd last =
  Ok (map (chunk vlen rnd) (seq k todo) ++ [fold_left xor_list (map (chunk vlen rnd) (seq k todo)) last]).
Proof.
  induction todo as [|t IH]; intros k last HL HR; cbn [share_loop]; [reflexivity|].
  rewrite go_slice_ok by (unfold zlen; nia). cbn [bind].
  replace (Z.to_nat ((Z.of_nat k + 1) * Z.of_nat vlen - Z.of_nat k * Z.of_nat vlen)) with vlen by nia.
  replace (Z.to_nat (Z.of_nat k * Z.of_nat vlen)) with (k * vlen)%nat by nia. rewrite Nat2Z.id.
  fold (chunk vlen rnd k).
  assert (LC : length (chunk vlen rnd k) = vlen). { unfold chunk. rewrite firstn_length, skipn_length. nia. }
  rewrite go_copy_full by (rewrite repeat_length; auto).
  assert (XI : xor_into last last (chunk vlen rnd k) = xor_list last (chunk vlen rnd k)).
  { apply nth_ext with (d := 0) (d' := 0). rewrite xor_into_length, xor_list_length; lia.
    intros p Hp. rewrite xor_into_length in Hp. rewrite xor_into_nth, xor_list_nth by lia. reflexivity. }
  rewrite XI. rewrite IH; [|rewrite xor_list_length; lia|nia]. cbn [bind]. reflexivity.
Qed.

(** the unit vector *)
Definition unit_vector (vlen : nat) (iy : nat) : list Z := upd (repeat 0 vlen) (iy / 8) (2 ^ Z.of_nat (iy mod 8)).

Definition shares (vlen iy n1 : nat) (rnd : list Z) : list (list Z) :=
  map (chunk vlen rnd) (seq 0 n1) ++ [fold_left xor_list (map (chunk vlen rnd) (seq 0 n1)) (unit_vector vlen iy)].

Lemma secret_share_ok nCols (iy : nat) n rnd : 0 < nCols -> Z.of_nat iy < nCols -> 1 <= n ->
  zlen rnd = (n - 1) * (nCols / 8 + 1) ->
  secret_share nCols (Z.of_nat iy) n rnd = Ok (shares (Z.to_nat (nCols / 8 + 1)) iy (Z.to_nat (n - 1)) rnd).
Proof.
  intros Hc Hiy Hn HR. unfold secret_share. rewrite !Z.quot_div_nonneg, Z.rem_mod_nonneg by lia.
  set (v := nCols / 8 + 1) in *. assert (Hv : 0 < v) by (unfold v; lia).
  unfold go_make. destruct (Z.ltb_spec n 0); [lia|]. cbn [bind].
  destruct (Z.ltb_spec v 0); [lia|].
  rewrite (mapM_ok _ (fun _ => repeat 0 (Z.to_nat v))) by reflexivity. cbn [bind].
  destruct (Z.ltb_spec ((n - 1) * v) 0); [nia|]. cbn [bind].
  destruct (Z.ltb_spec (Z.of_nat iy mod 8) 0); [lia|].
  rewrite (go_index_ok _ (n - 1) tt) by (unfold zlen; rewrite repeat_length; lia). cbn [bind].
  unfold go_store, zlen at 1. rewrite repeat_length.
  destruct (Z.leb_spec 0 (Z.of_nat iy / 8)); [|lia].
  destruct (Z.ltb_spec (Z.of_nat iy / 8) (Z.of_nat (Z.to_nat v))); [|unfold v in *; lia]. cbn [andb bind].
  rewrite go_copy_full by (rewrite repeat_length; unfold zlen in HR; lia).
  replace (2 ^ (Z.of_nat iy mod 8) mod w8) with (2 ^ Z.of_nat (iy mod 8)).
  2:{ rewrite Nat2Z.inj_mod. symmetry. apply Z.mod_small. unfold w8. change 256 with (2 ^ 8).
      split; [apply Z.pow_nonneg; lia|]. apply Z.pow_lt_mono_r; lia. }
  replace (Z.to_nat (Z.of_nat iy / 8)) with (iy / 8)%nat by (rewrite Z2Nat.inj_div, Nat2Z.id by lia; reflexivity).
  rewrite <- (Z2Nat.id v) at 1 by lia. rewrite share_loop_ok. reflexivity.
  - rewrite upd_length, repeat_length. reflexivity.
  - unfold zlen in HR. nia.
Qed.

Lemma unit_vector_length vlen iy : length (unit_vector vlen iy) = vlen.
Proof. unfold unit_vector. rewrite upd_length, repeat_length. auto. Qed.

Lemma unit_vector_bit vlen iy c : (iy / 8 < vlen)%nat -> query_bit (unit_vector vlen iy) c = (c =? iy)%nat.
Proof.
  intros Hv. unfold query_bit, unit_vector.
  destruct (Nat.eq_dec (iy / 8) (c / 8)) as [E|E].
  - rewrite <- E. rewrite nth_upd_eq by (rewrite repeat_length; auto).
    destruct (Nat.eqb_spec c iy) as [->|N].
    + rewrite Z.pow2_bits_true by lia. reflexivity.
    + rewrite Z.pow2_bits_false; auto. intros Q. apply Nat2Z.inj in Q. apply N.
      rewrite (Nat.div_mod c 8), (Nat.div_mod iy 8) by lia. congruence.
  - rewrite nth_upd_neq by auto. rewrite nth_repeat, Z.bits_0. destruct (Nat.eqb_spec c iy); congruence.
Qed.

Lemma query_bit_xor a b c : length a = length b -> query_bit (xor_list a b) c = xorb (query_bit a c) (query_bit b c).
Proof.
  intros L. unfold query_bit. destruct (Nat.lt_ge_cases (c / 8) (length a)).
  - rewrite xor_list_nth by lia. apply Z.lxor_spec.
  - rewrite !nth_overflow by (rewrite ?xor_list_length; lia). rewrite Z.bits_0. reflexivity.
Qed.

Lemma fold_xor_length cs : forall e, Forall (fun c => length c = length e) cs -> length (fold_left xor_list cs e) = length e.
Proof.
  induction cs as [|x cs IH]; intros e HF; auto. inversion HF as [|? ? Hx HF']; subst. cbn [fold_left].
  assert (L : length (xor_list e x) = length e) by (rewrite xor_list_length; lia).
  rewrite IH; auto. eapply Forall_impl; [|exact HF']. cbv beta. intros. lia.
Qed.

Lemma fold_xor_bit c cs : forall e, Forall (fun x => length x = length e) cs ->
  query_bit (fold_left xor_list cs e) c = xorb (query_bit e c) (parity (map (fun q => query_bit q c) cs)).
Proof.
  induction cs as [|x cs IH]; intros e HF; cbn [fold_left map parity fold_right].
  - rewrite xorb_false_r. auto.
  - inversion HF as [|? ? Hx HF']; subst.
    assert (L : length (xor_list e x) = length e) by (rewrite xor_list_length; lia).
    rewrite IH; [|eapply Forall_impl; [|exact HF']; cbv beta; intros; lia].
    rewrite query_bit_xor by lia. apply xorb_assoc.
Qed.

Lemma parity_app a b : parity (a ++ b) = xorb (parity a) (parity b).
Proof.
  unfold parity. induction a as [|x a IH]; cbn [app fold_right]; [symmetry; apply xorb_false_l|].
  rewrite IH. symmetry. apply xorb_assoc.
Qed.

Lemma chunks_len vlen n1 rnd : length rnd = (n1 * vlen)%nat ->
  Forall (fun c => length c = vlen) (map (chunk vlen rnd) (seq 0 n1)).
Proof.
  intros L. apply Forall_map, Forall_forall. intros k Hk. apply in_seq in Hk. unfold chunk.
  rewrite firstn_length, skipn_length. nia.
Qed.

Lemma shares_parity vlen iy n1 rnd c : (iy / 8 < vlen)%nat -> length rnd = (n1 * vlen)%nat ->
  parity (map (fun q => query_bit q c) (shares vlen iy n1 rnd)) = (c =? iy)%nat.
Proof.
  intros Hv L. unfold shares. rewrite map_app, parity_app. cbn [map parity fold_right].
  rewrite fold_xor_bit.
  - rewrite unit_vector_bit by auto. unfold parity. cbn [map fold_right].
    set (x := fold_right _ _ _). destruct x, (c =? iy)%nat; reflexivity.
  - rewrite unit_vector_length. apply chunks_len; auto.
Qed.

Lemma shares_length vlen iy n1 rnd : length (shares vlen iy n1 rnd) = S n1.
Proof. unfold shares. rewrite app_length, map_length, seq_length. cbn. lia. Qed.

Lemma shares_all vlen iy n1 rnd : length rnd = (n1 * vlen)%nat -> Forall (fun q => length q = vlen) (shares vlen iy n1 rnd).
Proof.
  intros L. unfold shares. apply Forall_app. split. apply chunks_len; auto. constructor; auto.
  rewrite fold_xor_length; rewrite unit_vector_length; auto. apply chunks_len; auto.
Qed.

Lemma query_ok D inf rnd (index : Z) n : 0 < i_cols inf -> 0 <= index -> 1 <= n -> n <> 2 ->
  zlen rnd = (n - 1) * (i_cols inf / 8 + 1) ->
  pir_query D inf rnd index n
  = Ok (index / i_cols inf, shares (query_bytes inf) (Z.to_nat (index mod i_cols inf)) (Z.to_nat (n - 1)) rnd).
Proof.
  intros Hc Hi Hn N2 HR. unfold pir_query, invalid_query_inputs_it.
  destruct (Z.ltb_spec index 0); [lia|]. cbn [andb]. unfold vector_to_matrix_indices.
  destruct (Z.eqb_spec (i_cols inf) 0); [lia|]. cbn [bind].
  rewrite Z.quot_div_nonneg, Z.rem_mod_nonneg by lia. destruct (Z.eqb_spec n 2); [lia|].
  pose proof (Z.mod_pos_bound index (i_cols inf) Hc) as B.
  rewrite <- (Z2Nat.id (index mod i_cols inf)) at 1 by lia.
  rewrite secret_share_ok by (auto; lia). cbn [bind]. reflexivity.
Qed.

Lemma query_bytes_enough inf (q : list Z) : 0 < i_cols inf -> length q = query_bytes inf -> i_cols inf <= 8 * zlen q.
Proof. intros Hc L. unfold zlen. rewrite L. unfold query_bytes. lia. Qed.

Lemma iy_in_vector inf iy : 0 < i_cols inf -> Z.of_nat iy < i_cols inf -> (iy / 8 < query_bytes inf)%nat.
Proof. intros. unfold query_bytes. apply Nat2Z.inj_lt. rewrite Nat2Z.inj_div. lia. Qed.

Lemma mapM_Forall2 {A B} (f : A -> res B) (R : A -> B -> Prop) l :
  (forall a, In a l -> exists b, f a = Ok b /\ R a b) -> exists bs, mapM f l = Ok bs /\ Forall2 R l bs.
Proof.
  induction l as [|a l IH]; intros HA; cbn [mapM]. { exists []. split; auto. }
  destruct (HA a (or_introl eq_refl)) as (b & -> & Rb). cbn [bind].
  destruct IH as (bs & -> & F). { intros. apply HA. right. auto. }
  exists (b :: bs). split; auto.
Qed.

Lemma record_number cols index : 0 < cols -> 0 <= index ->
  (Z.to_nat (index / cols) * Z.to_nat cols + Z.to_nat (index mod cols) = Z.to_nat index)%nat.
Proof.
  intros Hc Hi. pose proof (Z.div_mod index cols ltac:(lia)). pose proof (Z.mod_pos_bound index cols Hc).
  pose proof (Z.div_pos index cols Hi Hc). nia.
Qed.

Lemma row_in_range rows cols index : 0 < cols -> 0 <= index < rows * cols -> 0 <= index / cols < rows.
Proof. intros Hc Hi. split. apply Z.div_pos; lia. apply Z.div_lt_upper_bound; lia. Qed.

(** three servers or more (and the degenerate single server) *)
Lemma pir_correct D db rnd index n : db_ok db -> 0 <= index < i_rows (b_info db) * i_cols (b_info db) ->
  1 <= n -> n <> 2 -> zlen rnd = (n - 1) * (i_cols (b_info db) / 8 + 1) ->
  exists ix qs answers,
    pir_query D (b_info db) rnd index n = Ok (ix, qs) /\ zlen qs = n /\
    mapM (pir_answer D false db) qs = Ok answers /\
    forall answers', Permutation answers answers' ->
      reconstruct_value (b_info db) ix answers' = Ok (padded db (Z.to_nat index)).
Proof.
  intros HD Hi Hn N2 HR. pose proof HD as (Hr & Hc & _ & Hb & HL & _).
  rewrite query_ok by (auto; lia). eexists _, _. set (qs := shares _ _ _ _).
  set (iy := Z.to_nat (index mod i_cols (b_info db))) in *.
  pose proof (Z.mod_pos_bound index (i_cols (b_info db)) Hc) as B.
  pose proof (row_in_range _ _ _ Hc Hi) as RI.
  assert (LR : length rnd = (Z.to_nat (n - 1) * query_bytes (b_info db))%nat).
  { unfold query_bytes. unfold zlen in HR. nia. }
  assert (A : exists answers, mapM (pir_answer D false db) qs = Ok answers /\
     Forall2 (fun q r => zlen r = i_rows (b_info db) * i_bs (b_info db) /\
      forall row p, (row < Z.to_nat (i_rows (b_info db)))%nat -> (p < Z.to_nat (i_bs (b_info db)))%nat ->
      nth (row * Z.to_nat (i_bs (b_info db)) + p) r 0 = row_value db q row p) qs answers).
  { apply mapM_Forall2. intros q Hq. apply answer_vector_ok; auto. apply query_bytes_enough; auto.
    exact (proj1 (Forall_forall _ _) (shares_all _ iy _ rnd LR) q Hq). }
  destruct A as (answers & EA & F). exists answers. split; [reflexivity|].
  split. { unfold zlen, qs. rewrite shares_length. lia. }
  split; [exact EA|]. intros answers' PM.
  rewrite <- (Z2Nat.id (index / i_cols (b_info db))) by lia.
  rewrite <- (record_number (i_cols (b_info db)) index) by lia. fold iy.
  eapply answers_reconstruct; eauto; [unfold iy; lia|unfold iy; lia|].
  intros c Hcc. unfold qs. apply shares_parity; auto. apply iy_in_vector; auto. unfold iy. lia.
Qed.

(** two servers *)
Lemma bits_len_spec n : 0 < n < 2 ^ 62 -> 0 <= bits_len n <= 63 /\ n < 2 ^ bits_len n.
Proof.
  intros Hn. unfold bits_len, u64, w64. rewrite Z.mod_small by lia. destruct (Z.eqb_spec n 0); [lia|].
  pose proof (Z.log2_spec n ltac:(lia)) as L. pose proof (Z.log2_nonneg n).
  assert (Z.log2 n < 62) by (apply Z.log2_lt_pow2; lia). replace (Z.log2 n + 1) with (Z.succ (Z.log2 n)) by lia. lia.
Qed.

Lemma pir_correct_two D db rnd index : dpf_ok D -> db_ok db -> 0 <= index < i_rows (b_info db) * i_cols (b_info db) ->
  exists ix k0 k1 a0 a1,
    pir_query D (b_info db) rnd index 2 = Ok (ix, [k0; k1]) /\
    pir_answer D true db k0 = Ok a0 /\ pir_answer D true db k1 = Ok a1 /\
    reconstruct_value (b_info db) ix [a0; a1] = Ok (padded db (Z.to_nat index)) /\
    reconstruct_value (b_info db) ix [a1; a0] = Ok (padded db (Z.to_nat index)).
Proof.
  intros HDPF HD Hi. pose proof HD as (Hr & Hc & H62 & Hb & HL & _).
  unfold pir_query, invalid_query_inputs_it. destruct (Z.ltb_spec index 0); [lia|]. cbn [andb]. unfold vector_to_matrix_indices.
  destruct (Z.eqb_spec (i_cols (b_info db)) 0); [lia|]. cbn [bind].
  rewrite Z.quot_div_nonneg, Z.rem_mod_nonneg by lia. cbn [Z.eqb Pos.eqb].
  pose proof (Z.mod_pos_bound index (i_cols (b_info db)) Hc) as B.
  pose proof (row_in_range _ _ _ Hc Hi) as RI.
  destruct (bits_len_spec (i_cols (b_info db)) ltac:(lia)) as [L1 L2].
  set (iy := index mod i_cols (b_info db)) in *.
  unfold u64, w64. rewrite (Z.mod_small iy) by lia.
  destruct (HDPF iy (bits_len (i_cols (b_info db))) L1 ltac:(lia)) as (k0 & k1 & E & EV). rewrite E. cbn [bind fst snd].
  set (q0 := dpf_eval D k0 (bits_len (i_cols (b_info db)))) in *.
  set (q1 := dpf_eval D k1 (bits_len (i_cols (b_info db)))) in *.
  assert (Q : i_cols (b_info db) <= 8 * zlen q0 /\ i_cols (b_info db) <= 8 * zlen q1).
  { destruct (EV (Z.to_nat (i_cols (b_info db) - 1)) ltac:(lia)) as (A & C & _).
    apply Nat2Z.inj_lt in A, C. rewrite Nat2Z.inj_div in A, C. unfold zlen. lia. }
  destruct Q as [Q0 Q1].
  destruct (answer_vector_ok D db q0 HD Q0) as (a0 & E0 & R0).
  destruct (answer_vector_ok D db q1 HD Q1) as (a1 & E1 & R1).
  exists (index / i_cols (b_info db)), k0, k1, a0, a1. split; [reflexivity|].
  split; [exact E0|]. split; [exact E1|].
  assert (G : forall answers', Permutation [a0; a1] answers' ->
    reconstruct_value (b_info db) (index / i_cols (b_info db)) answers' = Ok (padded db (Z.to_nat index))).
  { intros answers' PM. rewrite <- (Z2Nat.id (index / i_cols (b_info db))) by lia.
    rewrite <- (record_number (i_cols (b_info db)) index) by lia.
    eapply (answers_reconstruct db [q0; q1]); eauto; [lia|fold iy; lia|].
    intros c Hcc. cbn [map].
    destruct (EV c ltac:(lia)) as (_ & _ & X). unfold parity. cbn [fold_right]. rewrite xorb_false_r, X.
    fold iy. destruct (Z.eqb_spec (Z.of_nat c) iy), (Nat.eqb_spec c (Z.to_nat iy)); auto; lia. }
  split; apply G; [apply Permutation_refl|apply perm_swap].
Qed.
