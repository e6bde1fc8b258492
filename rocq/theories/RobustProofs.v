(** Proofs about the C kernels with the integers of C. *)
From Coq Require Import String ZArith List Bool Lia Arith.
From Verif Require Import GoBase BaseFacts EncodingModel MatrixModel LWEModel LWESpec MatrixProofs DHModel RobustModel RobustSpec.
Import ListNotations.
Open Scope Z_scope.
Open Scope go_scope.

Lemma c_int_small x : 0 <= x < 2 ^ 31 -> c_int x = x.
Proof.
  intros H. unfold c_int. rewrite Z.mod_small by (change (2 ^ 32) with 4294967296; change (2 ^ 31) with 2147483648 in H; lia).
  destruct (Z.ltb_spec x (2 ^ 31)); lia.
Qed.

Lemma c_fit_some x : 0 <= x < 2 ^ 31 -> c_fit x = Some x.
Proof. intros H. unfold c_fit. destruct (Z.leb_spec (- 2 ^ 31) x), (Z.ltb_spec x (2 ^ 31)); cbn [andb]; auto; lia. Qed.

Lemma c_index_some s i k n : 0 <= s -> 0 <= i -> 0 <= k -> s * i + k = n -> n < 2 ^ 31 -> c_index s i k = Some n.
Proof.
  intros Hs Hi Hk E B. unfold c_index. rewrite c_fit_some by nia. rewrite c_fit_some by nia. rewrite E. auto.
Qed.

Lemma c_index_none s i k : 0 <= s -> 0 <= i -> 0 <= k -> 2 ^ 31 <= s * i + k -> c_index s i k = None.
Proof.
  intros Hs Hi Hk B. unfold c_index, c_fit. destruct ((- 2 ^ 31 <=? s * i) && (s * i <? 2 ^ 31)) eqn:E; auto.
  destruct (Z.ltb_spec (s * i + k) (2 ^ 31)); [lia|]. rewrite andb_false_r. auto.
Qed.

Lemma c_read_some buf p : (p < length buf)%nat -> c_read buf (Z.of_nat p) = Some (nth p buf 0).
Proof.
  intros H. unfold c_read. destruct (Z.ltb_spec (Z.of_nat p) 0); [lia|]. rewrite Nat2Z.id. apply nth_error_nth'. auto.
Qed.

Definition kstep w op (aCols bCols : Z) a b (out : option (list Z)) (x : nat * (nat * nat)) : option (list Z) :=
  c_statement w op aCols bCols a b (fst x) (fst (snd x)) out (snd (snd x)).

Lemma kernel_flat w op r n c a b out :
  int_dimensions r n c ->
  c_kernel w op (Z.of_nat r) (Z.of_nat n) (Z.of_nat c) a b out =
  fold_left (kstep w op (Z.of_nat n) (Z.of_nat c) a b) (triples r n c) (Some out).
Proof.
  intros (Pr & Pn & Pc & Br & Bn & Bc). unfold c_kernel. rewrite !c_int_small, !Nat2Z.id by lia. unfold triples.
  set (F := kstep w op (Z.of_nat n) (Z.of_nat c) a b).
  transitivity (fold_left (fun s ab => F s (fst ab, snd ab))
    (flat_map (fun i => map (pair i) (flat_map (fun k => map (pair k) (range c)) (range n))) (range r)) (Some out)).
  2:{ apply fold_left_ext. intros s [i kj]. reflexivity. }
  rewrite <- (fold_left_flat (fun s i kj => F s (i, kj)) (range r) (fun i => flat_map (fun k => map (pair k) (range c)) (range n)) (Some out)).
  apply fold_left_ext. intros s i.
  transitivity (fold_left (fun s ab => F s (i, (fst ab, snd ab))) (flat_map (fun k => map (pair k) (range c)) (range n)) s).
  2:{ apply fold_left_ext. intros s' [k j]. reflexivity. }
  rewrite <- (fold_left_flat (fun s k j => F s (i, (k, j))) (range n) (fun k => range c) s).
  apply fold_left_ext. intros s' k. apply fold_left_ext. intros s'' j. reflexivity.
Qed.

Lemma kernel_some w op r n c a b out : int_dimensions r n c -> indexable r n c ->
  (r * n <= length a)%nat -> (n * c <= length b)%nat -> (r * c <= length out)%nat ->
  c_kernel w op (Z.of_nat r) (Z.of_nat n) (Z.of_nat c) a b out = Some (c_loops w op r n c a b out).
Proof.
  intros HD (I1 & I2 & I3) La Lb. rewrite kernel_flat by auto. rewrite c_loops_flat.
  pose proof (triples_in r n c) as T. revert out. induction (triples r n c) as [|x l IH]; intros out Lo; cbn [fold_left]; auto.
  rewrite <- IH.
  - f_equal. destruct (T x (or_introl eq_refl)) as (Hi & Hk & Hj). destruct x as (i & k & j). cbn [fst snd] in *.
    unfold kstep, c_statement, acc_at. cbn [fst snd].
    assert (B1 : (c * i + j < r * c)%nat) by (clear - Hi Hj; nia).
    assert (B2 : (n * i + k < r * n)%nat) by (clear - Hi Hk; nia).
    assert (B3 : (c * k + j < n * c)%nat) by (clear - Hk Hj; nia).
    rewrite (c_index_some _ _ _ (Z.of_nat (c * i + j))) by (clear - B1 I3; lia).
    rewrite (c_index_some _ _ _ (Z.of_nat (n * i + k))) by (clear - B2 I1; lia).
    rewrite (c_index_some _ _ _ (Z.of_nat (c * k + j))) by (clear - B3 I2; lia).
    rewrite !c_read_some by lia. rewrite Nat2Z.id. reflexivity.
  - intros y Hy. apply T. right. auto.
  - unfold acc_at. rewrite upd_length. auto.
Qed.

Lemma kstep_none w op ac bc a b l : fold_left (kstep w op ac bc a b) l None = None.
Proof. induction l; cbn [fold_left]; auto. Qed.

Lemma fold_none w op ac bc a b l x : In x l -> (forall out, kstep w op ac bc a b (Some out) x = None) ->
  forall out, fold_left (kstep w op ac bc a b) l out = None.
Proof.
  induction l as [|y l IH]; intros I H out; [destruct I|]. cbn [fold_left]. destruct I as [->|I]; [|apply IH; auto].
  destruct out as [out|]; [rewrite H|]; apply kstep_none.
Qed.

Lemma triples_intro r n c i k j : (i < r)%nat -> (k < n)%nat -> (j < c)%nat -> In (i, (k, j)) (triples r n c).
Proof.
  intros Hi Hk Hj. unfold triples, range. apply in_flat_map. exists i. split; [apply in_seq; lia|]. apply in_map.
  apply in_flat_map. exists k. split; [apply in_seq; lia|]. apply in_map. apply in_seq. lia.
Qed.

Lemma kernel_none w op r n c a b out : int_dimensions r n c -> ~ indexable r n c ->
  c_kernel w op (Z.of_nat r) (Z.of_nat n) (Z.of_nat c) a b out = None.
Proof.
  intros HD NI. rewrite kernel_flat by auto. destruct HD as (Pr & Pn & Pc & Br & Bn & Bc).
  apply (fold_none _ _ _ _ _ _ _ (r - 1, (n - 1, c - 1))%nat).
  { apply triples_intro; lia. }
  intros o. unfold kstep, c_statement. cbn [fst snd].
  assert (E : c_index (Z.of_nat c) (Z.of_nat (r - 1)) (Z.of_nat (c - 1)) = None \/ c_index (Z.of_nat n) (Z.of_nat (r - 1)) (Z.of_nat (n - 1)) = None \/
              c_index (Z.of_nat c) (Z.of_nat (n - 1)) (Z.of_nat (c - 1)) = None).
  { unfold indexable in NI. set (R := Z.of_nat r) in *. set (N := Z.of_nat n) in *. set (C := Z.of_nat c) in *.
    replace (Z.of_nat (r - 1)) with (R - 1) by (unfold R; lia). replace (Z.of_nat (n - 1)) with (N - 1) by (unfold N; lia).
    replace (Z.of_nat (c - 1)) with (C - 1) by (unfold C; lia).
    assert (PR : 0 < R) by (unfold R; lia). assert (PN : 0 < N) by (unfold N; lia). assert (PC : 0 < C) by (unfold C; lia).
    destruct (Z_le_gt_dec (R * C) (2 ^ 31)) as [H1|H1]; [|left; apply c_index_none; clear NI; lia].
    destruct (Z_le_gt_dec (R * N) (2 ^ 31)) as [H2|H2]; [|right; left; apply c_index_none; clear NI; lia].
    destruct (Z_le_gt_dec (N * C) (2 ^ 31)) as [H3|H3]; [|right; right; apply c_index_none; clear NI; lia].
    elim NI. auto. }
  destruct E as [->|[->| ->]]; auto.
  - destruct (c_index _ _ _); auto.
  - destruct (c_index _ _ _); auto. destruct (c_index _ _ _); auto.
Qed.
