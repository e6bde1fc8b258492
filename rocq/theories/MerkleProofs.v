(** Lemmas about the Merkle tree model. *)
From Coq Require Import String ZArith List Bool Arith Lia.
From Verif Require Import GoBase BaseFacts EncodingModel MerkleModel MerkleSpec.
Import ListNotations.
Open Scope Z_scope.
Open Scope go_scope.

(** ** checked accesses with nat indices *)
Lemma go_store_nat {A} (l : list A) i v : (i < length l)%nat -> go_store l (Z.of_nat i) v = Ok (upd l i v).
Proof.
  intros. unfold go_store, zlen. destruct (Z.leb_spec 0 (Z.of_nat i)); try lia.
  destruct (Z.ltb_spec (Z.of_nat i) (Z.of_nat (length l))); try lia. simpl. rewrite Nat2Z.id. auto.
Qed.

Lemma go_index_nat {A} (l : list A) i d : (i < length l)%nat -> go_index l (Z.of_nat i) = Ok (nth i l d).
Proof. intros. rewrite go_index_ok with (d := d). rewrite Nat2Z.id. auto. unfold zlen; lia. Qed.

Lemma bytes_equal_spec a b : bytes_equal a b = true <-> a = b.
Proof.
  revert b; induction a as [|x a IH]; intros [|y b]; cbn [bytes_equal]; split; intros Hab; try discriminate; auto.
  - apply andb_true_iff in Hab. destruct Hab as [H1 H2]. apply Z.eqb_eq in H1. apply IH in H2. congruence.
  - inversion Hab; subst. rewrite Z.eqb_refl. simpl. apply IH. auto.
Qed.

Lemma index_to_bytes_ok i : 0 <= i < w32 -> index_to_bytes i = Ok (le_enc 4 i).
Proof.
  intros. unfold index_to_bytes. destruct (Z.ltb_spec (w32 - 1) i); try lia.
  unfold u32. rewrite Z.mod_small by lia. auto.
Qed.

(** ** construction *)
Section Build.
Variable H : hash_fn.

Lemma leaf_loop_ok bl : forall ds i nodes md,
  (i + length ds <= bl)%nat -> (length nodes = bl + bl)%nat -> Z.of_nat (i + length ds) <= w32 ->
  exists nodes' md', leaf_loop H bl ds i nodes md = Ok (nodes', md') /\
    length nodes' = length nodes /\
    (forall j, (j < length ds)%nat -> nth (bl + (i + j)) nodes' [] = H (leaf_input (i + j) (nth j ds []))) /\
    (forall k, (k < bl + i \/ bl + i + length ds <= k)%nat -> nth k nodes' [] = nth k nodes []) /\
    md' = fold_left (fun m iv => map_set (fnv1a64 (snd iv)) (Z.of_nat (fst iv)) m) (combine (seq i (length ds)) ds) md.
Proof.
  induction ds as [|d ds IH]; intros i nodes md Hi Hn Hw; cbn [leaf_loop length] in *.
  - exists nodes, md. conj_split; auto. intros; lia.
  - rewrite index_to_bytes_ok by lia. cbn [bind].
    rewrite go_store_nat by lia. cbn [bind].
    replace (u32 (Z.of_nat i)) with (Z.of_nat i) by (unfold u32; rewrite Z.mod_small by lia; auto).
    destruct (IH (S i) (upd nodes (i + bl) (H (d ++ le_enc 4 (Z.of_nat i)))) (map_set (fnv1a64 d) (Z.of_nat i) md))
      as (n' & m' & E & L & Hleaf & Hout & Hm).
    + lia.
    + rewrite upd_length; auto.
    + lia.
    + exists n', m'. rewrite E. rewrite upd_length in L. conj_split; auto.
      * intros [|j] Hj.
        -- rewrite Hout by lia. rewrite (Nat.add_comm bl), Nat.add_0_r. rewrite nth_upd_eq by lia. reflexivity.
        -- cbn [nth]. specialize (Hleaf j ltac:(lia)).
           replace (S i + j)%nat with (i + S j)%nat in Hleaf by lia. exact Hleaf.
      * intros k Hk. rewrite Hout by lia. apply nth_upd_neq. lia.
Qed.

Lemma padding_loop_ok : forall k i nodes, (i + k <= length nodes)%nat ->
  exists nodes', padding_loop k i nodes = Ok nodes' /\ length nodes' = length nodes /\
    (forall j, (i <= j < i + k)%nat -> nth j nodes' [] = repeat 0 hash_length) /\
    (forall j, (j < i \/ i + k <= j)%nat -> nth j nodes' [] = nth j nodes []).
Proof.
  induction k; intros i nodes Hk; cbn [padding_loop].
  - exists nodes. conj_split; auto. intros; lia.
  - rewrite go_store_nat by lia. cbn [bind].
    destruct (IHk (S i) (upd nodes i (repeat 0 hash_length))) as (n' & E & L & Hin & Hout).
    { rewrite upd_length; lia. }
    exists n'. rewrite E. rewrite upd_length in L. conj_split; auto.
    + intros j Hj. destruct (Nat.eq_dec j i) as [->|].
      * rewrite Hout by lia. apply nth_upd_eq. lia.
      * apply Hin. lia.
    + intros j Hj. rewrite Hout by lia. apply nth_upd_neq; lia.
Qed.

Lemma branch_loop_ok : forall i nodes bl, (i < bl)%nat -> length nodes = (bl + bl)%nat ->
  (forall k, (i < k < bl)%nat -> nth k nodes [] = H (nth (2 * k) nodes [] ++ nth (2 * k + 1) nodes [])) ->
  exists nodes', branch_loop H i nodes = Ok nodes' /\ length nodes' = length nodes /\
    (forall k, (1 <= k < bl)%nat -> nth k nodes' [] = H (nth (2 * k) nodes' [] ++ nth (2 * k + 1) nodes' [])) /\
    (forall k, (bl <= k)%nat -> nth k nodes' [] = nth k nodes []).
Proof.
  induction i; intros nodes bl Hi HL Hinv; cbn [branch_loop].
  - exists nodes. conj_split; auto.
  - rewrite go_index_nat with (d := []) by lia. cbn [bind].
    rewrite go_index_nat with (d := []) by lia. cbn [bind].
    rewrite go_store_nat by lia. cbn [bind].
    match goal with |- context [upd nodes (S i) ?v] => set (nd := upd nodes (S i) v) end.
    destruct (IHi nd bl) as (n' & E & L & Hb & Ho); unfold nd in *.
    + lia.
    + rewrite upd_length; auto.
    + intros k Hk. destruct (Nat.eq_dec k (S i)) as [->|].
      * rewrite nth_upd_eq by lia. rewrite !nth_upd_neq by lia.
        rewrite (Nat.mul_comm 2). reflexivity.
      * rewrite !nth_upd_neq by lia. apply Hinv. lia.
    + exists n'. rewrite E. rewrite upd_length in L. conj_split; auto.
      intros k Hk. rewrite Ho by lia. apply nth_upd_neq; lia.
Qed.

Definition md_of (data : list (list Z)) : list (Z * Z) :=
  fold_left (fun m iv => map_set (fnv1a64 (snd iv)) (Z.of_nat (fst iv)) m) (combine (seq 0 (length data)) data) [].

(** invariant of a built tree *)
Record tree_inv (data : list (list Z)) (t : mtree) : Prop := {
  ti_len : length (t_nodes t) = (2 * 2 ^ Nat.log2_up (length data))%nat;
  ti_leaf : forall i, (i < length data)%nat ->
     nth (2 ^ Nat.log2_up (length data) + i) (t_nodes t) [] = H (leaf_input i (nth i data []));
  ti_pad : forall i, (length data <= i < 2 ^ Nat.log2_up (length data))%nat ->
     nth (2 ^ Nat.log2_up (length data) + i) (t_nodes t) [] = repeat 0 32%nat;
  ti_branch : forall k, (1 <= k < 2 ^ Nat.log2_up (length data))%nat ->
     nth k (t_nodes t) [] = H (nth (2 * k) (t_nodes t) [] ++ nth (2 * k + 1) (t_nodes t) []);
  ti_map : t_data t = md_of data
}.

Lemma pow_log2_up n : (0 < n)%nat -> (n <= 2 ^ Nat.log2_up n)%nat.
Proof.
  intros. destruct (Nat.eq_dec n 1) as [->|]. simpl; auto.
  pose proof (Nat.log2_up_spec n). lia.
Qed.

Lemma pow2_pos d : (0 < 2 ^ d)%nat.
Proof. induction d; simpl; lia. Qed.

Lemma new_using_ok data : (0 < length data)%nat -> zlen data <= w32 ->
  exists t, new_using H data = Ok t /\ tree_inv data t.
Proof.
  intros Hn Hw. unfold new_using. destruct (Nat.eqb_spec (length data) 0); try lia.
  unfold ceil_log2. set (bl := (2 ^ Nat.log2_up (length data))%nat).
  pose proof (pow_log2_up (length data) Hn) as Hbl. fold bl in Hbl. cbv zeta.
  destruct (leaf_loop_ok bl data 0 (repeat [] (bl + length data + (bl - length data))) [])
    as (n1 & m1 & E1 & L1 & Hl1 & Ho1 & Hm1).
  - lia.
  - rewrite repeat_length. lia.
  - unfold zlen in Hw. lia.
  - rewrite E1. cbn [bind]. rewrite repeat_length in L1.
    destruct (padding_loop_ok (length n1 - (length data + bl)) (length data + bl) n1) as (n2 & E2 & L2 & Hp2 & Ho2).
    { lia. }
    rewrite E2. cbn [bind].
    destruct (branch_loop_ok (bl - 1) n2 bl) as (n3 & E3 & L3 & Hb3 & Ho3).
    + pose proof (pow2_pos (Nat.log2_up (length data))). fold bl in H0. lia.
    + lia.
    + intros; lia.
    + rewrite E3. cbn [bind]. eexists. split. reflexivity.
      constructor; cbn [t_nodes t_data]; fold bl.
      * lia.
      * intros i Hi. rewrite Ho3 by lia. rewrite Ho2 by lia. apply (Hl1 i Hi).
      * intros i Hi. rewrite Ho3 by lia. apply Hp2. lia.
      * exact Hb3.
      * rewrite Hm1. reflexivity.
Qed.

Lemma new_using_inv data t : zlen data <= w32 -> new_using H data = Ok t -> tree_inv data t.
Proof.
  intros Hw E. destruct (Nat.eq_dec (length data) 0) as [H0|H0].
  - unfold new_using in E. rewrite H0 in E. discriminate.
  - destruct (new_using_ok data) as (t' & E' & I); auto. lia. congruence.
Qed.

Lemma new_using_nonempty data t : new_using H data = Ok t -> (0 < length data)%nat.
Proof. intros E. destruct data; simpl; try lia. discriminate. Qed.

Lemma root_ok data t : zlen data <= w32 -> new_using H data = Ok t -> root t = Ok (nth 1 (t_nodes t) []).
Proof.
  intros Hw E. pose proof (new_using_inv data t Hw E) as I. unfold root.
  change 1 with (Z.of_nat 1). apply go_index_nat. rewrite (ti_len _ _ I).
  pose proof (pow2_pos (Nat.log2_up (length data))). lia.
Qed.
End Build.

(** ** the fingerprint map *)
Lemma map_get_set k v k' m : map_get k (map_set k' v m) = if k =? k' then Some v else map_get k m.
Proof.
  induction m as [|[a b] m IH]; cbn [map_set map_get].
  - auto.
  - destruct (Z.eqb_spec k' a); cbn [map_get].
    + subst. destruct (Z.eqb_spec k a); auto.
    + destruct (Z.eqb_spec k a).
      * subst. destruct (Z.eqb_spec a k'); congruence.
      * apply IH.
Qed.

Lemma map_set_keys k v m x : In x (map fst (map_set k v m)) <-> x = k \/ In x (map fst m).
Proof.
  induction m as [|[a b] m IH]; cbn [map_set map fst In].
  - intuition.
  - destruct (Z.eqb_spec k a); cbn [map fst In]; [subst; intuition|rewrite IH; intuition].
Qed.

Lemma map_set_nodup k v m : NoDup (map fst m) -> NoDup (map fst (map_set k v m)).
Proof.
  induction m as [|[a b] m IH]; cbn [map_set map fst]; intros ND.
  - constructor; [intros []|constructor].
  - inversion ND; subst. destruct (Z.eqb_spec k a); cbn [map fst].
    + subst. constructor; auto.
    + constructor; auto. rewrite map_set_keys. intros [?|?]; auto.
Qed.

Definition md_from (i : nat) (data : list (list Z)) (md : list (Z * Z)) :=
  fold_left (fun m iv => map_set (fnv1a64 (snd iv)) (Z.of_nat (fst iv)) m) (combine (seq i (length data)) data) md.

Lemma md_from_keys : forall data i md x,
  In x (map fst (md_from i data md)) <-> In x (map fst md) \/ In x (map fnv1a64 data).
Proof.
  induction data as [|d data IH]; intros i md x; unfold md_from; cbn [length seq combine fold_left map fst snd].
  - intuition. destruct H0.
  - specialize (IH (S i) (map_set (fnv1a64 d) (Z.of_nat i) md) x). unfold md_from in IH.
    rewrite IH, map_set_keys. cbn [In]. intuition.
Qed.

Lemma md_from_nodup : forall data i md, NoDup (map fst md) -> NoDup (map fst (md_from i data md)).
Proof.
  induction data as [|d data IH]; intros i md HN; unfold md_from; cbn [length seq combine fold_left map fst snd]; auto.
  apply IH. apply map_set_nodup; auto.
Qed.

(** the map returns the last position carrying the fingerprint *)
Lemma md_from_get : forall data i md k,
  (~ In k (map fnv1a64 data) -> map_get k (md_from i data md) = map_get k md) /\
  (In k (map fnv1a64 data) -> exists j, (j < length data)%nat /\ fnv1a64 (nth j data []) = k /\
     (forall j', (j < j' < length data)%nat -> fnv1a64 (nth j' data []) <> k) /\
     map_get k (md_from i data md) = Some (Z.of_nat (i + j))).
Proof.
  induction data as [|d data IH]; intros i md k.
  - split; intros; auto. destruct H.
  - specialize (IH (S i) (map_set (fnv1a64 d) (Z.of_nat i) md) k). destruct IH as [I1 I2].
    change (md_from i (d :: data) md) with (md_from (S i) data (map_set (fnv1a64 d) (Z.of_nat i) md)).
    split; intros Hk; cbn [map In] in Hk.
    + rewrite I1 by tauto. rewrite map_get_set. destruct (Z.eqb_spec k (fnv1a64 d)); auto. subst. tauto.
    + destruct (in_dec Z.eq_dec k (map fnv1a64 data)) as [Hin|Hin].
      * destruct (I2 Hin) as (j & Hj & Hk' & Hlast & Hg). exists (S j). cbn [length nth]. conj_split; auto.
        -- lia.
        -- intros [|j'] Hj'; try lia. cbn [nth]. apply Hlast. lia.
        -- rewrite Hg. f_equal. lia.
      * exists 0%nat. cbn [length nth]. conj_split.
        -- lia.
        -- tauto.
        -- intros [|j'] Hj'; try lia. cbn [nth]. intros E. apply Hin. rewrite <- E.
           apply in_map. apply nth_In. lia.
        -- rewrite I1 by auto. rewrite map_get_set, Nat.add_0_r.
           destruct (Z.eqb_spec k (fnv1a64 d)); auto. destruct Hk; [congruence|contradiction].
Qed.

Lemma md_of_from data : md_of data = md_from 0 data [].
Proof. reflexivity. Qed.

(** number of distinct fingerprints *)
Definition distinct_fingerprints (data : list (list Z)) : nat := length (nodup Z.eq_dec (map fnv1a64 data)).

Lemma md_of_length data : length (md_of data) = distinct_fingerprints data.
Proof.
  unfold distinct_fingerprints. rewrite md_of_from, <- (map_length fst (md_from 0 data [])).
  apply Nat.le_antisymm; apply NoDup_incl_length.
  - apply md_from_nodup. constructor.
  - intros x Hx. apply md_from_keys in Hx. apply nodup_In. destruct Hx as [[]|]; auto.
  - apply NoDup_nodup.
  - intros x Hx. apply nodup_In in Hx. apply md_from_keys. auto.
Qed.

Lemma distinct_all data : NoDup (map fnv1a64 data) -> distinct_fingerprints data = length data.
Proof. intros. unfold distinct_fingerprints. rewrite nodup_fixed_point; auto. apply map_length. Qed.

Lemma distinct_le data : (distinct_fingerprints data <= length data)%nat.
Proof.
  unfold distinct_fingerprints. rewrite <- (map_length fnv1a64 data).
  apply NoDup_incl_length. apply NoDup_nodup. intros x Hx. apply nodup_In in Hx. auto.
Qed.

(** ** array layout = textbook tree *)
Section Layout.
Variable H : hash_fn.

Lemma combine_seq_nth : forall (data : list (list Z)) s i, (i < length data)%nat ->
  nth i (combine (seq s (length data)) data) (0%nat, []) = ((s + i)%nat, nth i data []).
Proof.
  intros. rewrite combine_nth by (rewrite seq_length; auto). rewrite seq_nth by auto. auto.
Qed.

Lemma spec_leaves_length data : (0 < length data)%nat -> length (spec_leaves H data) = (2 ^ Nat.log2_up (length data))%nat.
Proof.
  intros Hn. unfold spec_leaves. rewrite app_length, map_length, combine_length, seq_length, repeat_length, Nat.min_id.
  pose proof (pow_log2_up (length data) Hn). lia.
Qed.

Lemma spec_leaves_nth data t i : tree_inv H data t -> (i < 2 ^ Nat.log2_up (length data))%nat ->
  nth i (spec_leaves H data) [] = nth (2 ^ Nat.log2_up (length data) + i) (t_nodes t) [].
Proof.
  intros I Hi. unfold spec_leaves.
  assert (HL : length (map (fun iv => H (leaf_input (fst iv) (snd iv))) (combine (seq 0 (length data)) data)) = length data).
  { rewrite map_length, combine_length, seq_length, Nat.min_id. auto. }
  destruct (Nat.lt_ge_cases i (length data)) as [Hlt|Hge].
  - rewrite app_nth1 by (rewrite HL; auto). rewrite (ti_leaf _ _ _ I) by auto.
    set (F := fun iv : nat * list Z => H (leaf_input (fst iv) (snd iv))) in *.
    rewrite nth_indep with (d' := F (0%nat, [])) by (rewrite HL; auto).
    rewrite map_nth, combine_seq_nth by auto. reflexivity.
  - rewrite app_nth2 by (rewrite HL; auto). rewrite HL, (ti_pad _ _ _ I) by lia.
    rewrite nth_indep with (d' := repeat 0 32%nat) by (rewrite repeat_length; lia). apply nth_repeat.
Qed.

(** leaves below node k at height e *)
Definition slice_at (bl : nat) (leaves : list (list Z)) (k e : nat) : list (list Z) :=
  firstn (2 ^ e) (skipn (k * 2 ^ e - bl) leaves).

Lemma skipn_firstn_sub {A} (a b : nat) (l : list A) : skipn a (firstn (a + b) l) = firstn b (skipn a l).
Proof. rewrite skipn_firstn_comm. f_equal. lia. Qed.

Lemma slice_left bl leaves k e : (bl <= k * 2 ^ S e)%nat ->
  firstn (2 ^ e) (slice_at bl leaves k (S e)) = slice_at bl leaves (2 * k) e.
Proof.
  intros Hb. unfold slice_at. rewrite firstn_firstn. rewrite Nat.min_l by (simpl; lia).
  f_equal. f_equal. simpl. lia.
Qed.

Lemma skipn_skipn' {A} (a b : nat) (l : list A) : skipn a (skipn b l) = skipn (b + a) l.
Proof. revert l; induction b; intros l; simpl; auto. destruct l; auto. apply skipn_nil. Qed.

Lemma slice_right bl leaves k e : (bl <= k * 2 ^ S e)%nat ->
  skipn (2 ^ e) (slice_at bl leaves k (S e)) = slice_at bl leaves (2 * k + 1) e.
Proof.
  intros Hb. unfold slice_at. replace (2 ^ S e)%nat with (2 ^ e + 2 ^ e)%nat by (simpl; lia).
  rewrite skipn_firstn_sub. f_equal. rewrite skipn_skipn'. f_equal.
  simpl in Hb. simpl. rewrite !Nat.mul_add_distr_r. lia.
Qed.

Variables (data : list (list Z)) (t : mtree).
Hypothesis I : tree_inv H data t.
Hypothesis Hpos : (0 < length data)%nat.
Let bl := (2 ^ Nat.log2_up (length data))%nat.
Let leaves := spec_leaves H data.
Let nodes := t_nodes t.

Lemma node_spec : forall e k, (bl <= k * 2 ^ e)%nat -> ((k + 1) * 2 ^ e <= 2 * bl)%nat ->
  nth k nodes [] = spec_root H e (slice_at bl leaves k e).
Proof.
  induction e; intros k H1 H2.
  - cbn [spec_root]. unfold slice_at. simpl in H1, H2. rewrite Nat.mul_1_r. rewrite Nat.mul_1_r in H1.
    change (2 ^ 0)%nat with 1%nat.
    assert (Hi : (k - bl < bl)%nat) by lia.
    pose proof (spec_leaves_nth data t (k - bl) I Hi) as E.
    fold bl in E. replace (bl + (k - bl))%nat with k in E by lia. fold leaves nodes in E. rewrite <- E.
    assert (HL : (k - bl < length leaves)%nat) by (unfold leaves; rewrite spec_leaves_length; auto).
    clear -HL. revert HL. generalize (k - bl)%nat as i. intros i HL.
    rewrite <- (firstn_skipn i leaves) at 1. rewrite app_nth2; rewrite firstn_length, Nat.min_l by lia; auto.
    rewrite Nat.sub_diag. destruct (skipn i leaves); auto.
  - assert (Hk : (1 <= k < bl)%nat).
    { pose proof (pow2_pos (S e)). pose proof (pow2_pos (Nat.log2_up (length data))). fold bl in H3.
      split. destruct k; simpl in *; lia.
      simpl in H2. pose proof (pow2_pos e). nia. }
    unfold nodes at 1. rewrite (ti_branch _ _ _ I k Hk). fold nodes.
    cbn [spec_root]. rewrite slice_left, slice_right by auto.
    simpl in H1, H2. rewrite <- !IHe; try reflexivity; nia.
Qed.

Lemma root_spec : nth 1 nodes [] = spec_root H (Nat.log2_up (length data)) (spec_leaves H data).
Proof.
  rewrite (node_spec (Nat.log2_up (length data)) 1) by (fold bl; lia).
  unfold slice_at. fold bl leaves. rewrite Nat.mul_1_l, Nat.sub_diag. simpl skipn.
  rewrite firstn_all2; auto. unfold leaves. rewrite spec_leaves_length by auto. unfold bl. lia.
Qed.

Lemma inner_inputs_sub : forall j k e, (j + e = Nat.log2_up (length data))%nat -> (2 ^ j <= k < 2 ^ S j)%nat ->
  incl (inner_inputs H e (slice_at bl leaves k e)) (inner_inputs H (Nat.log2_up (length data)) leaves).
Proof.
  induction j; intros k e He Hk.
  - simpl in Hk. assert (k = 1%nat) by lia. subst k. simpl in He. subst e. fold bl.
    unfold slice_at. fold bl. rewrite Nat.mul_1_l, Nat.sub_diag. simpl skipn. rewrite firstn_all2. apply incl_refl.
    unfold leaves. rewrite spec_leaves_length by auto. unfold bl; lia.
  - specialize (IHj (k / 2)%nat (S e) ltac:(lia)).
    assert (Hk2 : (2 ^ j <= k / 2 < 2 ^ S j)%nat).
    { split. apply Nat.div_le_lower_bound; simpl in *; lia. apply Nat.div_lt_upper_bound; simpl in *; lia. }
    specialize (IHj Hk2). eapply incl_tran; [|exact IHj]. clear IHj.
    assert (Hb : (bl <= (k / 2) * 2 ^ S e)%nat).
    { unfold bl. rewrite <- He. replace (S j + e)%nat with (j + S e)%nat by lia. rewrite Nat.pow_add_r.
      apply Nat.mul_le_mono_r. lia. }
    cbn [inner_inputs]. rewrite slice_left, slice_right by auto.
    intros x Hx. right. apply in_or_app.
    pose proof (Nat.div_mod k 2 ltac:(lia)). pose proof (Nat.mod_upper_bound k 2 ltac:(lia)).
    destruct (Nat.eq_dec (k mod 2) 0).
    + left. replace (2 * (k / 2))%nat with k by lia. auto.
    + right. replace (2 * (k / 2) + 1)%nat with k by lia. auto.
Qed.

Lemma node_input_in k : (1 <= k < bl)%nat ->
  In (nth (2 * k) nodes [] ++ nth (2 * k + 1) nodes []) (tree_inputs H data).
Proof.
  intros Hk. unfold tree_inputs. apply in_or_app. right.
  set (j := Nat.log2 k).
  assert (Hj : (2 ^ j <= k < 2 ^ S j)%nat) by (apply Nat.log2_spec; lia).
  assert (Hjd : (j < Nat.log2_up (length data))%nat).
  { apply Nat.log2_lt_pow2; unfold bl in Hk; lia. }
  destruct (Nat.log2_up (length data) - j)%nat as [|e] eqn:Ee; try lia.
  apply (inner_inputs_sub j k (S e) ltac:(lia) Hj).
  assert (Hb : (bl <= k * 2 ^ S e)%nat).
  { unfold bl. replace (Nat.log2_up (length data)) with (j + S e)%nat by lia. rewrite Nat.pow_add_r.
    apply Nat.mul_le_mono_r. lia. }
  assert (Hu : ((k + 1) * 2 ^ S e <= 2 * bl)%nat).
  { unfold bl. replace (Nat.log2_up (length data)) with (j + S e)%nat by lia. rewrite Nat.pow_add_r.
    rewrite Nat.mul_assoc. apply Nat.mul_le_mono_r. simpl in Hj. lia. }
  cbn [inner_inputs]. left. rewrite slice_left, slice_right by auto.
  simpl in Hb, Hu. rewrite <- !node_spec; auto; nia.
Qed.

Lemma leaf_input_in i : (i < length data)%nat -> In (leaf_input i (nth i data [])) (tree_inputs H data).
Proof.
  intros Hi. unfold tree_inputs. apply in_or_app. left.
  replace (leaf_input i (nth i data [])) with
    ((fun iv : nat * list Z => leaf_input (fst iv) (snd iv)) (nth i (combine (seq 0 (length data)) data) (0%nat, [])))
    by (rewrite combine_seq_nth by auto; reflexivity).
  apply in_map with (f := fun iv : nat * list Z => leaf_input (fst iv) (snd iv)).
  apply nth_In. rewrite combine_length, seq_length. lia.
Qed.

Hypothesis HH : hash_ok H.
Lemma node_length k : (1 <= k < 2 * bl)%nat -> length (nth k nodes []) = 32%nat.
Proof.
  intros Hk. destruct (Nat.lt_ge_cases k bl).
  - unfold nodes. rewrite (ti_branch _ _ _ I) by (fold bl; lia). apply HH.
  - replace k with (bl + (k - bl))%nat by lia. unfold nodes.
    destruct (Nat.lt_ge_cases (k - bl) (length data)).
    + unfold bl. rewrite (ti_leaf _ _ _ I) by (fold bl; lia). apply HH.
    + unfold bl. rewrite (ti_pad _ _ _ I) by (fold bl; lia). apply repeat_length.
Qed.

Lemma node_bytes k : (1 <= k < 2 * bl)%nat -> bytes (nth k nodes []).
Proof.
  intros Hk. destruct (Nat.lt_ge_cases k bl).
  - unfold nodes. rewrite (ti_branch _ _ _ I) by (fold bl; lia). apply HH.
  - replace k with (bl + (k - bl))%nat by lia. unfold nodes.
    destruct (Nat.lt_ge_cases (k - bl) (length data)).
    + unfold bl. rewrite (ti_leaf _ _ _ I) by (fold bl; lia). apply HH.
    + unfold bl. rewrite (ti_pad _ _ _ I) by (fold bl; lia). apply Forall_forall.
      intros x Hx. apply repeat_spec in Hx. subst. unfold is_byte, w8. lia.
Qed.

(** ** proof generation *)
Definition sib (k : nat) : nat := if Nat.even k then (k + 1)%nat else (k - 1)%nat.
Fixpoint path (k e : nat) : list (list Z) :=
  match e with O => [] | S e' => nth (sib k) nodes [] :: path (k / 2) e' end.

Lemma path_length k e : length (path k e) = e.
Proof. revert k; induction e; intros; simpl; auto. Qed.

Lemma lxor_sib k : Z.lxor (Z.of_nat k) 1 = Z.of_nat (sib k).
Proof.
  unfold sib. destruct (Nat.even k) eqn:E.
  - apply Nat.even_spec in E. destruct E as [m ->].
    apply Z.bits_inj'. intros n Hn. rewrite Z.lxor_spec.
    replace (Z.of_nat (2 * m + 1)) with (2 * Z.of_nat m + 1) by lia.
    replace (Z.of_nat (2 * m)) with (2 * Z.of_nat m) by lia.
    destruct (Z.eq_dec n 0) as [->|].
    + rewrite Z.testbit_even_0, Z.testbit_odd_0. reflexivity.
    + replace n with (Z.succ (n - 1)) by lia. rewrite Z.testbit_even_succ, Z.testbit_odd_succ by lia.
      change 1 with (2 * 0 + 1) at 2. rewrite Z.testbit_odd_succ by lia. rewrite Z.bits_0, xorb_false_r. auto.
  - assert (O : Nat.odd k = true) by (unfold Nat.odd; rewrite E; auto).
    apply Nat.odd_spec in O. destruct O as [m ->].
    apply Z.bits_inj'. intros n Hn. rewrite Z.lxor_spec.
    replace (Z.of_nat (2 * m + 1 - 1)) with (2 * Z.of_nat m) by lia.
    replace (Z.of_nat (2 * m + 1)) with (2 * Z.of_nat m + 1) by lia.
    destruct (Z.eq_dec n 0) as [->|].
    + rewrite Z.testbit_even_0, Z.testbit_odd_0. reflexivity.
    + replace n with (Z.succ (n - 1)) by lia. rewrite Z.testbit_even_succ, Z.testbit_odd_succ by lia.
      change 1 with (2 * 0 + 1) at 2. rewrite Z.testbit_odd_succ by lia. rewrite Z.bits_0, xorb_false_r. auto.
Qed.

Lemma upd_app_r {A} (a b : list A) v : b <> [] -> upd (a ++ b) (length a) v = a ++ v :: tl b.
Proof. intros Hb. induction a; simpl; [destruct b; simpl; congruence|congruence]. Qed.

Lemma proof_loop_ok : forall e k fuel pre rest, (e <= fuel)%nat -> (2 ^ e <= k < 2 ^ S e)%nat -> (k < 2 * bl)%nat ->
  (length rest >= e)%nat ->
  proof_loop fuel nodes (Z.of_nat k) (zlen pre) (pre ++ rest) = Ok (pre ++ path k e ++ skipn e rest).
Proof.
  induction e; intros k fuel pre rest Hf Hk Hb Hr.
  - simpl in Hk. assert (k = 1%nat) by lia. subst. destruct fuel; reflexivity.
  - assert (Hk2 : (2 <= k)%nat) by (pose proof (pow2_pos e); simpl in Hk; lia).
    destruct fuel as [|fuel]; try lia. cbn [proof_loop].
    destruct (Z.ltb_spec 1 (Z.of_nat k)); try lia.
    rewrite lxor_sib.
    assert (Hs : (sib k < length nodes)%nat).
    { unfold nodes. rewrite (ti_len _ _ _ I). fold bl. unfold sib. destruct (Nat.even k) eqn:E; try lia.
      apply Nat.even_spec in E. destruct E. lia. }
    rewrite go_index_nat with (d := []) by auto. cbn [bind].
    unfold zlen at 1. rewrite go_store_nat by (rewrite app_length; lia). cbn [bind].
    rewrite upd_app_r by (destruct rest; simpl in *; [lia|congruence]).
    replace (Z.of_nat k / 2) with (Z.of_nat (k / 2)) by (rewrite Nat2Z.inj_div; auto).
    replace (pre ++ nth (sib k) nodes [] :: tl rest) with ((pre ++ [nth (sib k) nodes []]) ++ tl rest)
      by (rewrite <- app_assoc; auto).
    replace (zlen pre + 1) with (zlen (pre ++ [nth (sib k) nodes []])) by (rewrite zlen_app; auto).
    rewrite IHe.
    + f_equal. rewrite <- app_assoc. f_equal. cbn [path app]. f_equal. f_equal. destruct rest; simpl; auto. apply skipn_nil.
    + lia.
    + split. apply Nat.div_le_lower_bound; simpl in *; lia. apply Nat.div_lt_upper_bound; simpl in *; lia.
    + assert (k / 2 <= k)%nat by (apply Nat.div_le_upper_bound; lia). lia.
    + destruct rest; simpl in *; lia.
Qed.

Lemma proof_loop_panic : forall e k fuel pre rest, (e <= fuel)%nat -> (2 ^ e <= k < 2 ^ S e)%nat -> (k < 2 * bl)%nat ->
  (length rest < e)%nat ->
  proof_loop fuel nodes (Z.of_nat k) (zlen pre) (pre ++ rest) = Panic "index out of range".
Proof.
  induction e; intros k fuel pre rest Hf Hk Hb Hr; try lia.
  assert (Hk2 : (2 <= k)%nat) by (pose proof (pow2_pos e); simpl in Hk; lia).
  destruct fuel as [|fuel]; try lia. cbn [proof_loop].
  destruct (Z.ltb_spec 1 (Z.of_nat k)); try lia.
  rewrite lxor_sib.
  assert (Hs : (sib k < length nodes)%nat).
  { unfold nodes. rewrite (ti_len _ _ _ I). fold bl. unfold sib. destruct (Nat.even k) eqn:E; try lia.
    apply Nat.even_spec in E. destruct E. lia. }
  rewrite go_index_nat with (d := []) by auto. cbn [bind].
  destruct rest as [|r rest].
  - unfold go_store. destruct (Z.ltb_spec (zlen pre) (zlen (pre ++ []))).
    + rewrite app_nil_r in *. lia.
    + rewrite andb_false_r. reflexivity.
  - unfold zlen at 1. rewrite go_store_nat by (rewrite app_length; simpl; lia). cbn [bind].
    rewrite upd_app_r by congruence. cbn [tl].
    replace (Z.of_nat k / 2) with (Z.of_nat (k / 2)) by (rewrite Nat2Z.inj_div; auto).
    replace (pre ++ nth (sib k) nodes [] :: rest) with ((pre ++ [nth (sib k) nodes []]) ++ rest)
      by (rewrite <- app_assoc; auto).
    replace (zlen pre + 1) with (zlen (pre ++ [nth (sib k) nodes []])) by (rewrite zlen_app; auto).
    apply IHe.
    + lia.
    + split. apply Nat.div_le_lower_bound; simpl in *; lia. apply Nat.div_lt_upper_bound; simpl in *; lia.
    + assert (k / 2 <= k)%nat by (apply Nat.div_le_upper_bound; lia). lia.
    + simpl in *; lia.
Qed.

(** ** verification of an honest path *)
Lemma verify_path : forall e k, (2 ^ e <= k < 2 ^ S e)%nat -> (k < 2 * bl)%nat ->
  proof_hash_loop H (Z.of_nat k) (nth k nodes []) (path k e) = nth 1 nodes [].
Proof.
  induction e; intros k Hk Hb.
  - simpl in Hk. assert (k = 1%nat) by lia. subst. reflexivity.
  - assert (Hk2 : (2 <= k)%nat) by (pose proof (pow2_pos e); simpl in Hk; lia).
    cbn [path proof_hash_loop].
    replace (Z.of_nat k / 2) with (Z.of_nat (k / 2)) by (rewrite Nat2Z.inj_div; auto).
    assert (Hbr : nth (k / 2) nodes [] = H (nth (2 * (k / 2)) nodes [] ++ nth (2 * (k / 2) + 1) nodes [])).
    { apply (ti_branch _ _ _ I). fold bl. split. apply Nat.div_le_lower_bound; lia. apply Nat.div_lt_upper_bound; lia. }
    match goal with |- proof_hash_loop _ _ ?a _ = _ => replace a with (nth (k / 2) nodes []) end.
    + apply IHe.
      * split. apply Nat.div_le_lower_bound; simpl in *; lia. apply Nat.div_lt_upper_bound; simpl in *; lia.
      * assert (k / 2 <= k)%nat by (apply Nat.div_le_upper_bound; lia). lia.
    + rewrite Hbr. unfold sib. destruct (Nat.even k) eqn:E.
      * apply Nat.even_spec in E. destruct E as [m Hm].
        assert (Hkm : (k / 2 = m)%nat) by (subst; rewrite Nat.mul_comm, Nat.div_mul; lia).
        destruct (Z.eqb_spec (Z.of_nat k mod 2) 0); [|exfalso; lia].
        rewrite Hkm. subst k. reflexivity.
      * assert (O : Nat.odd k = true) by (unfold Nat.odd; rewrite E; auto).
        apply Nat.odd_spec in O. destruct O as [m Hm].
        assert (Hkm : (k / 2 = m)%nat) by (subst; symmetry; apply Nat.div_unique with 1%nat; lia).
        destruct (Z.eqb_spec (Z.of_nat k mod 2) 0); [exfalso; lia|].
        rewrite Hkm. replace (k - 1)%nat with (2 * m)%nat by lia. replace (2 * m + 1)%nat with k by lia. reflexivity.
Qed.
End Layout.
