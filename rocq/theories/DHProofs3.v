(** Correctness and soundness of the DH retrieval. *)
From Coq Require Import String ZArith Znumtheory List Bool Lia Arith.
From Verif Require Import GoBase BaseFacts EncodingModel MerkleModel MerkleProofs LWEModel DHModel DHSpec DHProofs DHProofs2.
Import ListNotations.
Open Scope Z_scope.
Open Scope go_scope.

Lemma upd_map_range {A} (f h : nat -> A) n k : (k < n)%nat ->
  (forall j, (j < n)%nat -> h j = if (j =? k)%nat then h k else f j) ->
  upd (map f (seq 0 n)) k (h k) = map h (seq 0 n).
Proof.
  intros Hk E. apply nth_ext with (d := h 0%nat) (d' := h 0%nat). rewrite upd_length, !map_length; auto.
  intros j Hj. rewrite upd_length, map_length, seq_length in Hj.
  rewrite (map_nth h), seq_nth by auto. cbn. specialize (E j Hj).
  destruct (Nat.eqb_spec j k) as [Ejk|N].
  - clear E. subst j. apply nth_upd_eq. rewrite map_length, seq_length. auto.
  - rewrite nth_upd_neq by auto. rewrite nth_indep with (d' := f 0%nat) by (rewrite map_length, seq_length; auto).
    rewrite map_nth, seq_nth by auto. symmetry. exact E.
Qed.

Section Session.
Context (g : group) (H : hash_fn) (db : elliptic) (G : group_ok g) (T : table_ok g H db).
Local Notation "x [+] y" := (g_add g x y) (at level 50, left associativity).
Local Notation "a [*] x" := (g_mul g a x) (at level 40, left associativity).
Local Notation e0 := (g_id g).
Local Notation cols := (Z.to_nat (e_cols db)).
Local Notation rows := (Z.to_nat (e_rows db)).
Local Notation digest := (row_digest g (e_entries db) cols).

Lemma new_ok : dh_new H db = Ok tt.
Proof using T.
  unfold dh_new. rewrite (digest_hash g H db T).
  replace (bytes_equal _ _) with true by (symmetry; apply bytes_equal_spec; auto). auto.
Qed.

Lemma index_bounds index : 0 <= index < e_rows db * e_cols db ->
  0 <= index / e_cols db < e_rows db /\ 0 <= index mod e_cols db < e_cols db.
Proof using T.
  intros Hi. pose proof (cols_pos g H db T). split. split.
  - apply Z.div_pos; lia.
  - apply Z.div_lt_upper_bound; lia.
  - apply Z.mod_pos_bound; auto.
Qed.

Definition wanted index (ix iy : nat) : Prop :=
  0 <= index < e_rows db * e_cols db /\ ix = Z.to_nat (index / e_cols db) /\ iy = Z.to_nat (index mod e_cols db).

Lemma query_value r t index ix iy : wanted index ix iy ->
  dh_query g db r t index =
  Ok (mkDH (Z.of_nat ix) (Z.of_nat iy) r (t [*] column_point g iy),
      marshal_group_elements g (map (query_point g r t iy) (seq 0 cols))).
Proof using G T.
  intros (Hi & -> & ->). pose proof (index_bounds index Hi) as [Bx By]. pose proof (cols_pos g H db T).
  unfold dh_query, vector_to_matrix_indices. destruct (Z.eqb_spec (e_cols db) 0); [lia|].
  rewrite Z.quot_div_nonneg, Z.rem_mod_nonneg by lia. cbn [bind].
  set (ix := Z.to_nat (index / e_cols db)). set (iy := Z.to_nat (index mod e_cols db)).
  replace (index / e_cols db) with (Z.of_nat ix) by lia. replace (index mod e_cols db) with (Z.of_nat iy) by lia.
  assert (Hy : (iy < cols)%nat) by lia.
  rewrite (go_index_ok _ _ e0).
  2:{ unfold zlen, range. rewrite map_length, seq_length. lia. }
  cbn [bind]. unfold go_store.
  replace ((0 <=? Z.of_nat iy) && (Z.of_nat iy <? zlen _)) with true.
  2:{ symmetry. apply andb_true_iff. unfold zlen, range. rewrite map_length, seq_length.
      rewrite Z.leb_le, Z.ltb_lt. lia. }
  cbn [bind]. do 3 f_equal. rewrite Nat2Z.id. unfold range.
  assert (V : nth iy (map (fun j => commit_scalar_to_index g r (Z.of_nat j)) (seq 0 cols)) e0 [+]
          commit_scalar_to_index g t (Z.of_nat iy) = query_point g r t iy iy).
  { rewrite nth_indep with (d' := commit_scalar_to_index g r (Z.of_nat 0)) by (rewrite map_length, seq_length; auto).
    rewrite (map_nth (fun j => commit_scalar_to_index g r (Z.of_nat j))), seq_nth by auto. unfold query_point. rewrite Nat.eqb_refl, (mul_plus g G). reflexivity. }
  rewrite V. apply upd_map_range; auto.
  intros j Hj. unfold query_point. destruct (Nat.eqb_spec j iy); subst; auto. rewrite Nat.eqb_refl. auto.
Qed.

Lemma sub_full_slice i : (forall k, (k < rows)%nat -> full g (digest k)) -> (i < rows)%nat ->
  go_slice (e_sub db) (Z.of_nat i * g_size g) ((Z.of_nat i + 1) * g_size g) = Ok (g_enc g (digest i)).
Proof using G T.
  intros F Hi. rewrite (sub_digests g H db T).
  rewrite <- (map_map digest (g_enc g)).
  rewrite (sub_slice g G _ _ (digest 0)).
  - rewrite (map_nth digest), seq_nth by auto. reflexivity.
  - apply Forall_forall. intros x Hx. apply in_map_iff in Hx. destruct Hx as (k & <- & Hk). apply in_seq in Hk.
    apply F. lia.
  - rewrite map_length, seq_length. auto.
Qed.

(** The test the client makes on row i. *)
Definition row_value r (answer : list (g_elt g)) i : g_elt g := ((- r) mod g_order g) [*] digest i [+] nth i answer e0.

Lemma rows_inversion st answer : (forall k, (k < rows)%nat -> full g (digest k)) ->
  forall n i out b, (i + n = rows)%nat ->
  dh_rows g db st ((- dh_r st) mod g_order g) answer (Z.of_nat i) n out = Ok b ->
  (forall k, (i <= k < rows)%nat -> (k < length answer)%nat /\
     (row_value (dh_r st) answer k = e0 \/ row_value (dh_r st) answer k = dh_ht st)) /\
  (forall k, (i <= k < rows)%nat -> Z.of_nat k = dh_ix st ->
     b = (if g_eqb g (row_value (dh_r st) answer k) e0 then 0 else 1)) /\
  ((forall k, (i <= k < rows)%nat -> Z.of_nat k <> dh_ix st) -> b = out).
Proof using G T.
  intros F. induction n; intros i out b Hin E.
  - cbn in E. injection E as <-. repeat split; intros; lia.
  - cbn [dh_rows] in E. rewrite sub_full_slice in E by (auto; lia). cbn [bind] in E.
    rewrite (dec_enc g G) in E.
    destruct (Compare_dec.lt_dec i (length answer)) as [La|La].
    2:{ rewrite go_index_panic in E by (unfold zlen; lia). discriminate. }
    rewrite (go_index_ok _ _ e0) in E by (unfold zlen; lia). cbn [bind] in E. rewrite Nat2Z.id in E.
    fold (row_value (dh_r st) answer i) in E. set (m := row_value (dh_r st) answer i) in *.
    destruct (negb (g_eqb g m e0) && negb (g_eqb g m (dh_ht st))) eqn:Et; [discriminate|].
    replace (Z.of_nat i + 1) with (Z.of_nat (S i)) in E by lia.
    apply IHn in E; [|lia]. destruct E as (E1 & E2 & E3).
    assert (M : m = e0 \/ m = dh_ht st).
    { apply andb_false_iff in Et. rewrite !negb_false_iff in Et. rewrite !(eqb_spec g G) in Et. auto. }
    repeat split.
    + destruct (Nat.eq_dec k i); [subst; auto|]. apply E1; lia.
    + destruct (Nat.eq_dec k i); [subst; auto|]. apply E1; lia.
    + intros k Hk Ek. destruct (Nat.eq_dec k i) as [->|N].
      * rewrite E3 by (intros; lia). rewrite Ek, Z.eqb_refl. fold m.
        destruct (g_eqb g m e0) eqn:Em; auto. destruct M as [M|M].
        { apply (eqb_spec g G) in M. congruence. }
        apply (eqb_spec g G) in M. rewrite M. auto.
      * apply E2; auto. lia.
    + intros Hk. rewrite E3 by (intros; apply Hk; lia).
      destruct (Z.eqb_spec (Z.of_nat i) (dh_ix st)) as [X|X]; auto. exfalso. apply (Hk i); auto. lia.
Qed.

Lemma rows_accept st answer : (forall k, (k < rows)%nat -> full g (digest k)) -> length answer = rows ->
  (forall k, (k < rows)%nat -> row_value (dh_r st) answer k = e0 \/ row_value (dh_r st) answer k = dh_ht st) ->
  forall n i out, (i + n = rows)%nat ->
  exists b, dh_rows g db st ((- dh_r st) mod g_order g) answer (Z.of_nat i) n out = Ok b.
Proof using G T.
  intros F L A. induction n; intros i out Hin.
  - cbn. eauto.
  - cbn [dh_rows]. rewrite sub_full_slice by (auto; lia). cbn [bind]. rewrite (dec_enc g G).
    rewrite (go_index_ok _ _ e0) by (unfold zlen; lia). cbn [bind]. rewrite Nat2Z.id.
    fold (row_value (dh_r st) answer i). set (m := row_value (dh_r st) answer i) in *.
    assert (X : negb (g_eqb g m e0) && negb (g_eqb g m (dh_ht st)) = false).
    { destruct (A i ltac:(lia)) as [M|M]; fold m in M; apply (eqb_spec g G) in M; rewrite M;
      rewrite ?andb_false_r; auto. }
    rewrite X. replace (Z.of_nat i + 1) with (Z.of_nat (S i)) by lia. apply IHn. lia.
Qed.

Lemma data_len : length (e_entries db) = (rows * cols)%nat.
Proof using T.
  pose proof (entries_len g H db T) as L. pose proof (rows_nonneg g H db T). pose proof (cols_pos g H db T).
  unfold zlen in L. nia.
Qed.

Lemma answer_bytes_value r t iy : (iy < cols)%nat -> 0 < e_rows db ->
  (forall j, (j < cols)%nat -> full g (query_point g r t iy j)) ->
  dh_answer g db (marshal_group_elements g (map (query_point g r t iy) (seq 0 cols))) =
  Ok (marshal_group_elements g (map (answer_point g db r t iy) (seq 0 rows))).
Proof using G T.
  intros Hy Hr F. unfold dh_answer. rewrite (unmarshal_marshal g G).
  2:{ apply Forall_forall. intros x Hx. apply in_map_iff in Hx. destruct Hx as (k & <- & Hk). apply in_seq in Hk.
      apply F. lia. }
  cbn [bind]. destruct (Z.ltb_spec (e_rows db) 1); [lia|].
  change (range (Z.to_nat 1)) with [0%nat]. cbn [mapM]. unfold worker_rows.
  assert (ceil_div (e_rows db) 1 = e_rows db) as ->.
  { unfold ceil_div. rewrite Z.div_1_r. lia. }
  replace (Z.min ((Z.of_nat 0 + 1) * e_rows db) (e_rows db)) with (e_rows db) by lia.
  replace (Z.of_nat 0 * e_rows db) with 0 by lia.
  unfold process_rows. unfold go_make. destruct (Z.ltb_spec (e_rows db - 0) 0); [lia|]. cbn [bind].
  pose proof (cols_pos g H db T).
  rewrite (mapM_ok _ (fun i => answer_point g db r t iy (Z.to_nat i))).
  - cbn [bind concat]. rewrite app_nil_r. unfold between. rewrite map_map, Z.sub_0_r. do 2 f_equal.
    apply map_ext. intros k. f_equal. lia.
  - intros i Hi. unfold between in Hi. apply in_map_iff in Hi. destruct Hi as (k & <- & Hk).
    unfold range in Hk. apply in_seq in Hk.
    replace (0 + Z.of_nat k) with (Z.of_nat k) by lia. rewrite Nat2Z.id.
    replace (e_cols db) with (Z.of_nat cols) at 1 by lia.
    apply (row_product_row g _ _ rows); auto. apply data_len. lia.
    intros j Hj. rewrite (go_index_ok _ _ (query_point g r t iy 0)).
    + rewrite map_nth, Nat2Z.id, seq_nth by auto. reflexivity.
    + unfold zlen. rewrite map_length, seq_length. lia.
Qed.

Lemma row_value_answer r answer i x : nth i answer e0 = (r [*] digest i) [+] x -> row_value r answer i = x.
Proof using G.
  intros E. unfold row_value. rewrite E, (mul_mod g G), (add_assoc g G), <- (mul_plus g G).
  replace (- r + r) with 0 by lia. rewrite (mul_zero g G). apply (add_id g G).
Qed.
Lemma answer_row_value r answer i : nth i answer e0 = (r [*] digest i) [+] row_value r answer i.
Proof using G.
  unfold row_value. rewrite (mul_mod g G), (add_assoc g G), <- (mul_plus g G).
  replace (r + - r) with 0 by lia. rewrite (mul_zero g G). symmetry. apply (add_id g G).
Qed.

Lemma wanted_bounds index ix iy : wanted index ix iy ->
  (ix < rows)%nat /\ (iy < cols)%nat /\ 0 < e_rows db /\
  bit_at (e_entries db) cols ix iy = nth (Z.to_nat index) (e_entries db) 0.
Proof using T.
  intros (Hi & -> & ->). pose proof (index_bounds index Hi) as [Bx By]. pose proof (cols_pos g H db T).
  repeat split; try lia. unfold bit_at. f_equal.
  rewrite <- Z2Nat.inj_mul by lia. rewrite <- Z2Nat.inj_add by nia. f_equal.
  rewrite (Z.div_mod index (e_cols db)) at 3 by lia. lia.
Qed.

Lemma bits_cases ix iy : (ix < rows)%nat -> (iy < cols)%nat ->
  bit_at (e_entries db) cols ix iy = 0 \/ bit_at (e_entries db) cols ix iy = 1.
Proof using T.
  intros Hx Hy. pose proof (entries_bits g H db T) as F. rewrite Forall_forall in F. apply F.
  unfold bit_at. apply nth_In. rewrite data_len. nia.
Qed.

Lemma session_value r t index ix iy server : wanted index ix iy ->
  dh_session g H db server r t index =
  (a <- server (marshal_group_elements g (map (query_point g r t iy) (seq 0 cols))) ;;
   dh_reconstruct g db (mkDH (Z.of_nat ix) (Z.of_nat iy) r (t [*] column_point g iy)) a).
Proof using G T.
  intros W. unfold dh_session. rewrite new_ok. cbn [bind]. rewrite (query_value r t index ix iy W). reflexivity.
Qed.

Lemma dh_correct_full r t index ix iy : wanted index ix iy ->
  (forall i, (i < rows)%nat -> full g (digest i)) ->
  (forall j, (j < cols)%nat -> full g (query_point g r t iy j)) ->
  (forall i, (i < rows)%nat -> full g (answer_point g db r t iy i)) ->
  t [*] column_point g iy <> e0 ->
  dh_session g H db (dh_answer g db) r t index = Ok (nth (Z.to_nat index) (e_entries db) 0).
Proof using G T.
  intros W F1 F2 F3 Ht. rewrite (session_value r t index ix iy) by auto.
  destruct (wanted_bounds _ _ _ W) as (Bx & By & Br & <-).
  rewrite answer_bytes_value by auto. cbn [bind]. unfold dh_reconstruct.
  rewrite (unmarshal_marshal g G).
  2:{ apply Forall_forall. intros x Hx. apply in_map_iff in Hx. destruct Hx as (k & <- & Hk). apply in_seq in Hk.
      apply F3. lia. }
  cbn [bind]. set (st := mkDH (Z.of_nat ix) (Z.of_nat iy) r (t [*] column_point g iy)).
  set (answer := map (answer_point g db r t iy) (seq 0 rows)).
  assert (V : forall k, (k < rows)%nat -> row_value r answer k =
     if bit_at (e_entries db) cols k iy =? 1 then t [*] column_point g iy else e0).
  { intros k Hk. apply row_value_answer. unfold answer.
    rewrite nth_indep with (d' := answer_point g db r t iy 0) by (rewrite map_length, seq_length; auto).
    rewrite (map_nth (answer_point g db r t iy)), seq_nth by auto. apply (answer_value g G). auto. }
  assert (L : length answer = rows) by (unfold answer; rewrite map_length, seq_length; auto).
  destruct (rows_accept st answer F1 L) with (n := rows) (i := 0%nat) (out := 0) as (b & Eb); auto.
  { intros k Hk. cbn [dh_r dh_ht st]. rewrite V by auto. destruct (_ =? 1); auto. }
  change (Z.of_nat 0) with 0 in Eb. rewrite Eb. f_equal. cbn [dh_r st] in Eb.
  destruct (rows_inversion st answer F1 rows 0%nat 0 b eq_refl Eb) as (_ & R & _).
  rewrite (R ix ltac:(lia) eq_refl). cbn [dh_r st]. rewrite V by auto.
  destruct (bits_cases ix iy Bx By) as [-> | ->]; cbn [Z.eqb Pos.eqb].
  - rewrite (eqb_refl g G). reflexivity.
  - rewrite (eqb_neq g G) by auto. reflexivity.
Qed.

(** *** Soundness *)
Lemma accepted_inversion r t index ix iy server b : wanted index ix iy ->
  (forall i, (i < rows)%nat -> full g (digest i)) ->
  dh_session g H db server r t index = Ok b ->
  exists a es, server (marshal_group_elements g (map (query_point g r t iy) (seq 0 cols))) = Ok a /\
    unmarshal_group_elements g a = Ok es /\
    ((row_value r es ix = e0 /\ b = 0) \/ (row_value r es ix = t [*] column_point g iy /\ b = 1)).
Proof using G T.
  intros W F. rewrite (session_value r t index ix iy) by auto.
  destruct (wanted_bounds _ _ _ W) as (Bx & By & Br & _).
  destruct (server _) as [a| | |] eqn:Es; try discriminate. cbn [bind]. unfold dh_reconstruct.
  destruct (unmarshal_group_elements g a) as [es| | |] eqn:Eu; try discriminate. cbn [bind]. intros E.
  exists a, es. split; [auto|]. split; [auto|].
  destruct (rows_inversion _ es F rows 0%nat 0 b eq_refl E) as (A & R & _). cbn [dh_r dh_ht dh_ix] in A, R.
  specialize (R ix ltac:(lia) eq_refl). destruct (A ix ltac:(lia)) as [_ M].
  destruct (g_eqb g (row_value r es ix) e0) eqn:Em.
  - left. apply (eqb_spec g G) in Em. auto.
  - right. destruct M as [M|M]; auto. apply (eqb_spec g G) in M. congruence.
Qed.

Lemma dh_cheat r t index ix iy server b : wanted index ix iy ->
  (forall i, (i < rows)%nat -> full g (digest i)) ->
  dh_session g H db server r t index = Ok b -> b <> nth (Z.to_nat index) (e_entries db) 0 ->
  exists a es, server (marshal_group_elements g (map (query_point g r t iy) (seq 0 cols))) = Ok a /\
    unmarshal_group_elements g a = Ok es /\
    unblind g db (query_point g r t iy) es ix iy = r [*] column_point g iy.
Proof using G T.
  intros W F E N. destruct (accepted_inversion _ _ _ _ _ _ _ W F E) as (a & es & Es & Eu & M).
  exists a, es. split; [auto|]. split; [auto|].
  destruct (wanted_bounds _ _ _ W) as (Bx & By & Br & Eb). rewrite <- Eb in N.
  unfold unblind. fold (answer_point g db r t iy ix). rewrite (answer_value g G) by auto.
  rewrite (answer_row_value r es ix).
  assert (Q : query_point g r t iy iy = r [*] column_point g iy [+] t [*] column_point g iy).
  { unfold query_point. rewrite Nat.eqb_refl. apply (mul_plus g G). }
  rewrite Q. unfold g_sub.
  assert (S1 : forall x y, (x [+] y) [+] ((-1) [*] y) = x).
  { intros x y. rewrite <- (add_assoc g G), (add_neg g G). apply (add_id_r g G). }
  assert (S2 : forall x y, (x [+] y) [+] ((-1) [*] x) = y).
  { intros x y. rewrite (add_comm g G x y). apply S1. }
  destruct (bits_cases ix iy Bx By) as [B|B]; rewrite B in *; cbn [Z.eqb Pos.eqb].
  - destruct M as [[M ->]|[M ->]]; [congruence|]. rewrite M, (add_id_r g G), S2. apply S1.
  - destruct M as [[M ->]|[M ->]]; [|congruence]. rewrite M, (add_id_r g G), S2. apply S1.
Qed.

Lemma dh_count_one index ix iy a r t1 t2 : wanted index ix iy ->
  (forall i, (i < rows)%nat -> full g (digest i)) ->
  column_point g iy <> e0 -> 0 <= t1 < g_order g -> 0 <= t2 < g_order g ->
  dh_session g H db (fun _ => Ok a) r t1 index = Ok 1 ->
  dh_session g H db (fun _ => Ok a) r t2 index = Ok 1 -> t1 = t2.
Proof using G T.
  intros W F Hc H1 H2 E1 E2.
  destruct (accepted_inversion _ _ _ _ _ _ _ W F E1) as (a1 & es1 & X1 & U1 & M1).
  destruct (accepted_inversion _ _ _ _ _ _ _ W F E2) as (a2 & es2 & X2 & U2 & M2).
  assert (es1 = es2) by congruence. subst es2.
  destruct M1 as [[_ ?]|[M1 _]]; [discriminate|]. destruct M2 as [[_ ?]|[M2 _]]; [discriminate|].
  apply (mul_inj g G) with (x := column_point g iy); auto. congruence.
Qed.

Lemma dh_count_zero index ix iy a t r1 r2 : wanted index ix iy ->
  (forall i, (i < rows)%nat -> full g (digest i)) ->
  digest ix <> e0 -> 0 <= r1 < g_order g -> 0 <= r2 < g_order g ->
  dh_session g H db (fun _ => Ok a) r1 t index = Ok 0 ->
  dh_session g H db (fun _ => Ok a) r2 t index = Ok 0 -> r1 = r2.
Proof using G T.
  intros W F Hc H1 H2 E1 E2.
  destruct (accepted_inversion _ _ _ _ _ _ _ W F E1) as (a1 & es1 & X1 & U1 & M1).
  destruct (accepted_inversion _ _ _ _ _ _ _ W F E2) as (a2 & es2 & X2 & U2 & M2).
  assert (es1 = es2) by congruence. subst es2.
  destruct M1 as [[M1 _]|[_ ?]]; [|discriminate]. destruct M2 as [[M2 _]|[_ ?]]; [|discriminate].
  apply (mul_inj g G) with (x := digest ix); auto.
  pose proof (answer_row_value r1 es1 ix) as A1. pose proof (answer_row_value r2 es1 ix) as A2.
  rewrite M1, (add_id_r g G) in A1. rewrite M2, (add_id_r g G) in A2. congruence.
Qed.

Lemma sub_short : short_identity g -> (exists i, (i < rows)%nat /\ digest i = e0) ->
  zlen (e_sub db) < e_rows db * g_size g.
Proof using G T.
  intros Sh (i & Hi & Ei). rewrite (sub_digests g H db T). unfold short_identity in Sh.
  pose proof (rows_nonneg g H db T) as Hr. rewrite <- (Z2Nat.id (e_rows db) Hr) at 2.
  revert i Hi Ei. generalize rows as n.
  assert (Le : forall n, zlen (concat (map (fun i => g_enc g (digest i)) (seq 0 n))) <= Z.of_nat n * g_size g).
  { induction n; [unfold zlen; cbn [seq map concat length Z.of_nat]; lia|]. rewrite seq_S, map_app, concat_app, zlen_app. cbn [map concat plus]. rewrite app_nil_r.
    destruct (g_eqb g (digest n) e0) eqn:E.
    - apply (eqb_spec g G) in E. rewrite E. lia.
    - rewrite (enc_size g G (digest n)). lia. intros X. apply (eqb_spec g G) in X. congruence. }
  induction n; intros i Hi Ei; [lia|].
  rewrite seq_S, map_app, concat_app, zlen_app. cbn [map concat plus]. rewrite app_nil_r.
  destruct (Nat.eq_dec i n) as [->|N].
  - rewrite Ei. specialize (Le n). lia.
  - specialize (IHn i ltac:(lia) Ei).
    assert (zlen (g_enc g (digest n)) <= g_size g); [|lia].
    destruct (g_eqb g (digest n) e0) eqn:E.
    + apply (eqb_spec g G) in E. rewrite E. lia.
    + rewrite (enc_size g G (digest n)). lia. intros X. apply (eqb_spec g G) in X. congruence.
Qed.

Lemma rows_short st rneg answer : zlen (e_sub db) < e_rows db * g_size g -> 0 < e_rows db ->
  forall n i out b, (0 < n)%nat -> (i + n = rows)%nat ->
  dh_rows g db st rneg answer (Z.of_nat i) n out <> Ok b.
Proof using G.
  intros Sh Hr. induction n as [|n IH]; intros i out b Hn Hin E; [lia|].
  cbn [dh_rows] in E. destruct (go_slice _ _ _) as [s| | |] eqn:Es; try discriminate. cbn [bind] in E.
  destruct n as [|n].
  - unfold go_slice in Es.
    replace (((Z.of_nat i + 1) * g_size g <=? zlen (e_sub db))) with false in Es.
    + rewrite andb_false_r in Es. discriminate.
    + symmetry. apply Z.leb_gt. replace (Z.of_nat i + 1) with (e_rows db) by lia. auto.
  - destruct (g_dec g s); [|discriminate]. destruct (go_index _ _) as [a| | |]; try discriminate. cbn [bind] in E.
    destruct (_ && _); [discriminate|]. replace (Z.of_nat i + 1) with (Z.of_nat (S i)) in E by lia.
    apply IH in E; auto; lia.
Qed.

Lemma zero_row_never r t index ix iy server b : wanted index ix iy -> short_identity g ->
  (exists i, (i < rows)%nat /\ digest i = e0) -> dh_session g H db server r t index <> Ok b.
Proof using G T.
  intros W Sh Z E. rewrite (session_value r t index ix iy) in E by auto.
  destruct (wanted_bounds _ _ _ W) as (Bx & By & Br & _).
  destruct (server _) as [a| | |] eqn:Es; try discriminate. cbn [bind] in E. unfold dh_reconstruct in E.
  destruct (unmarshal_group_elements g a) as [es| | |] eqn:Eu; try discriminate. cbn [bind] in E.
  apply (rows_short _ _ _ (sub_short Sh Z) Br rows 0%nat) in E; auto; lia.
Qed.

(** *** How many blinding scalars fail *)
Lemma dh_few_failures r index ix iy l : wanted index ix iy ->
  (forall i, (i < rows)%nat -> digest i <> e0) ->
  (forall j, (j < cols)%nat -> column_point g j <> e0) ->
  0 < r < g_order g -> NoDup l ->
  (forall t, In t l -> 0 <= t < g_order g /\
     dh_session g H db (dh_answer g db) r t index <> Ok (nth (Z.to_nat index) (e_entries db) 0)) ->
  (length l <= rows + 2)%nat.
Proof using G T.
  intros W D P Hr N Hl. pose proof (order_prime g G) as Pr.
  destruct (wanted_bounds _ _ _ W) as (Bx & By & Br & Eb).
  set (q := g_order g) in *.
  set (pt := column_point g iy).
  set (hit := fun i => find (fun t => g_eqb g ((r [*] digest i) [+] (t [*] pt)) e0) (map Z.of_nat (seq 0 (Z.to_nat q)))).
  set (bad := 0 :: (q - r) :: map (fun i => match hit i with Some t => t | None => 0 end) (seq 0 rows)).
  assert (L : length bad = (rows + 2)%nat).
  { unfold bad. cbn [length]. rewrite map_length, seq_length. lia. }
  rewrite <- L. apply NoDup_incl_length; auto. intros t Ht. destruct (Hl t Ht) as [Rt F]. clear Hl Ht.
  destruct (in_dec Z.eq_dec t bad) as [I|I]; auto. exfalso. apply F. clear F.
  assert (Np : pt <> e0) by (apply P; auto).
  apply (dh_correct_full r t index ix iy); auto.
  - intros i Hi. apply (full_nonid g G). auto.
  - intros j Hj. apply (full_nonid g G). unfold query_point.
    assert (X : forall k, 0 < k < 2 * q -> k <> q -> forall x, x <> e0 -> k [*] x <> e0).
    { intros k Hk Nk x Hx Ex. apply (mul_eq_id g G) in Ex; auto. destruct Ex as [m Em]. fold q in Em.
      assert (m = 1) by nia. subst. lia. }
    destruct (Nat.eqb_spec j iy).
    + apply X; auto. lia. intros Q. apply I. unfold bad. right; left. lia.
    + apply X; auto; lia.
  - intros i Hi. apply (full_nonid g G). rewrite (answer_value g G) by auto. fold pt.
    destruct (bit_at _ _ i iy =? 1).
    + intros Q. apply I. unfold bad. right; right. apply in_map_iff. exists i. split; [|apply in_seq; lia].
      destruct (hit i) as [t'|] eqn:Eh.
      * unfold hit in Eh. apply find_some in Eh. destruct Eh as [Rh Eh].
        apply in_map_iff in Rh. destruct Rh as (k & <- & Hk). apply in_seq in Hk.
        apply (eqb_spec g G) in Eh. apply (mul_inj g G) with (x := pt); auto. fold q; lia.
        apply (add_cancel g G (r [*] digest i)). congruence.
      * exfalso. unfold hit in Eh. pose proof (find_none _ _ Eh t) as Y. cbn in Y.
        rewrite Q, (eqb_refl g G) in Y. assert (true = false); [|discriminate]. apply Y.
        apply in_map_iff. exists (Z.to_nat t). split; [lia|]. apply in_seq. lia.
    + rewrite (add_id_r g G). intros Q. apply (mul_eq_id g G) in Q; auto. destruct Q as [m Em]. fold q in Em.
      destruct (Z_le_gt_dec m 0); nia.
  - fold pt. intros Q. apply (mul_eq_id g G) in Q; auto. destruct Q as [m Em]. fold q in Em.
    apply I. unfold bad. left.
    destruct (Z_le_gt_dec m 0); [|nia]. destruct (Z_le_gt_dec 0 m); [|nia]. assert (m = 0) by lia. subst m. lia.
Qed.
End Session.

(** *** Building a table *)
Lemma land_one_bit b : Z.land b 1 = 0 \/ Z.land b 1 = 1.
Proof. change 1 with (Z.ones 1) at 1 2. rewrite Z.land_ones by lia. pose proof (Z.mod_pos_bound b (2 ^ 1)). lia. Qed.

Lemma create_layout dbLen rebalanced : 0 < dbLen ->
  let '(rows, cols) := calculate_num_rows_and_columns dbLen rebalanced in 0 < rows /\ 0 < cols.
Proof.
  intros Hd. unfold calculate_num_rows_and_columns. destruct rebalanced; [|lia].
  assert (0 < Z.sqrt (increase_to_next_square dbLen)); [|lia].
  apply Z.sqrt_pos. unfold increase_to_next_square. destruct (_ =? _); auto.
  pose proof (Z.sqrt_nonneg dbLen). nia.
Qed.

Section Create.
Context (g : group) (H : hash_fn) (ncpu : Z) (rnd : nat -> list Z) (dbLen : Z) (rebalanced : bool).
Context (G : group_ok g) (R : forall n, length (rnd n) = n) (Hd : 0 < dbLen) (Hc : 0 < ncpu).
Let rows := fst (calculate_num_rows_and_columns dbLen rebalanced).
Let cols := snd (calculate_num_rows_and_columns dbLen rebalanced).
Let n := elliptic_routines ncpu dbLen.
Let data := map (fun b => Z.land b 1) (rnd (Z.to_nat (rows * cols))).
Let table : elliptic :=
  mkEl data cols rows (H (row_digests g data (Z.to_nat cols) (Z.to_nat rows)))
       (row_digests g data (Z.to_nat cols) (Z.to_nat rows)).

Lemma create_unfold sched :
  create_random_elliptic g H ncpu rnd sched dbLen rebalanced =
  match par_result (digest_work g data (Z.of_nat (Z.to_nat rows)) (Z.of_nat (Z.to_nat cols)) n) sched with
  | None => None
  | Some r => Some (digests <- r ;; Ok (mkEl data cols rows (H digests) digests))
  end.
Proof using Hd.
  unfold create_random_elliptic. pose proof (create_layout dbLen rebalanced Hd) as L.
  unfold data, rows, cols, n.
  destruct (calculate_num_rows_and_columns dbLen rebalanced) as [a b]. cbn [fst snd].
  destruct (Z.ltb_spec (a * b) 0); [nia|]. rewrite !Z2Nat.id by lia. reflexivity.
Qed.

Lemma create_pos : 0 < rows /\ 0 < cols /\ 0 < n /\ length data = (Z.to_nat rows * Z.to_nat cols)%nat.
Proof using All.
  pose proof (create_layout dbLen rebalanced Hd) as L. unfold rows, cols, n, data.
  destruct (calculate_num_rows_and_columns dbLen rebalanced) as [a b] eqn:E. cbn [fst snd].
  repeat split; try tauto.
  - unfold elliptic_routines. destruct (dbLen <=? 1024 * 1024); lia.
  - rewrite map_length, R. apply Z2Nat.inj_mul; lia.
Qed.

Lemma create_fits sched : ~ overshoots rows n ->
  (forall r, create_random_elliptic g H ncpu rnd sched dbLen rebalanced = Some r -> r = Ok table) /\
  (exists more, create_random_elliptic g H ncpu rnd (sched ++ more) dbLen rebalanced = Some (Ok table)).
Proof using All.
  intros Ho. destruct create_pos as (P1 & P2 & P3 & P4).
  assert (Ho' : ~ overshoots (Z.of_nat (Z.to_nat rows)) n) by (rewrite Z2Nat.id by lia; auto).
  destruct (digests_parallel g data (Z.to_nat cols) (Z.to_nat rows) n sched G P4 P3 Ho') as [A (more & B)].
  cbn zeta in A, B. split.
  - intros r. rewrite create_unfold. destruct (par_result _ _) as [x|]; [|discriminate].
    rewrite (A x eq_refl). intros E. injection E as <-. reflexivity.
  - exists more. rewrite create_unfold, B. reflexivity.
Qed.

Lemma create_overshoots sched : overshoots rows n ->
  (forall r, create_random_elliptic g H ncpu rnd sched dbLen rebalanced = Some r -> is_panic r = true) /\
  (exists more r, create_random_elliptic g H ncpu rnd (sched ++ more) dbLen rebalanced = Some r).
Proof using All.
  intros Ho. destruct create_pos as (P1 & P2 & P3 & P4).
  assert (Ho' : overshoots (Z.of_nat (Z.to_nat rows)) n) by (rewrite Z2Nat.id by lia; auto).
  destruct (digests_overshoot g data (Z.to_nat cols) (Z.to_nat rows) n sched G P4 P3 Ho') as [A (more & r & B)].
  cbn zeta in A, B. split.
  - intros r'. rewrite create_unfold. destruct (par_result _ sched) as [x|]; [|discriminate].
    specialize (A x eq_refl). intros E. injection E as <-. destruct x; try discriminate. reflexivity.
  - exists more. eexists. rewrite create_unfold, B. reflexivity.
Qed.

Lemma table_good : table_ok g H table.
Proof using All.
  destruct create_pos as (P1 & P2 & P3 & P4).
  constructor; cbn [e_cols e_rows e_entries e_sub e_digest table]; auto; try lia.
  - unfold zlen. rewrite P4. nia.
  - unfold data. apply Forall_map, Forall_forall. intros b _. apply land_one_bit.
Qed.

Lemma create_good sched db : create_random_elliptic g H ncpu rnd sched dbLen rebalanced = Some (Ok db) ->
  table_ok g H db /\ e_rows db = rows /\ e_cols db = cols.
Proof using All.
  intros E. destruct create_pos as (P1 & P2 & P3 & P4).
  assert (Ho : ~ overshoots rows n).
  { intros Ho. destruct (create_overshoots sched Ho) as [A _]. apply A in E. discriminate. }
  destruct (create_fits sched Ho) as [A _]. apply A in E. injection E as ->. split; [apply table_good|auto].
Qed.
End Create.

Lemma zero_row_digest g data cols i :
  (forall j, (j < cols)%nat -> bit_at data cols i j = 0) -> row_digest g data cols i = g_id g.
Proof.
  intros Z0. unfold row_digest, row_sum.
  assert (E : forall l, (forall j, In j l -> (j < cols)%nat) -> filter (fun j => bit_at data cols i j =? 1) l = []).
  { induction l as [|j l IH]; intros Hl; cbn; auto. rewrite Z0 by (apply Hl; left; auto). cbn.
    apply IH. intros. apply Hl. right. auto. }
  rewrite E. reflexivity. intros j Hj. apply in_seq in Hj. lia.
Qed.
