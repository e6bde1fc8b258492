(** Duplicates and fingerprint collisions. *)
From Coq Require Import String ZArith List Bool Arith Lia.
From Verif Require Import GoBase BaseFacts EncodingModel MerkleModel MerkleSpec MerkleProofs MerkleProofs2 MerkleProofs3.
Import ListNotations.
Open Scope Z_scope.
Open Scope go_scope.

(** two different 8-byte records with the same FNV-1a fingerprint *)
Definition fnv_a : list Z := [1; 71; 62; 246; 87; 21; 132; 58].
Definition fnv_b : list Z := [45; 241; 130; 76; 86; 208; 79; 149].

Lemma fnv_collision : fnv_a <> fnv_b /\ fnv1a64 fnv_a = fnv1a64 fnv_b.
Proof. split. discriminate. vm_compute. reflexivity. Qed.

(** three further records to keep the depth: 5 records, 4 fingerprints would shrink; use 4 records, 3 fingerprints *)
Definition coll_data : list (list Z) := [fnv_a; fnv_b; [1]; [2]].

Lemma coll_depth : Nat.log2_up (distinct_fingerprints coll_data) = 2%nat.
Proof. vm_compute. reflexivity. Qed.

Lemma collision_proof_fails H : hash_ok H ->
  exists t p rt, new_using H coll_data = Ok t /\ root t = Ok rt /\ generate_proof t fnv_a = Ok p /\
    (verify_proof H fnv_a p rt = Ok true ->
       collision_found H (tree_inputs H coll_data) (proof_inputs H fnv_a p) \/
       padding_preimage H (proof_inputs H fnv_a p)).
Proof.
  intros HH.
  assert (HM : zlen coll_data <= max_records) by (vm_compute; discriminate).
  destruct (new_using_ok H coll_data) as (t & HT & I).
  { simpl; lia. } { vm_compute; discriminate. }
  destruct (generate_ok H coll_data t HM HT fnv_a) as (j & (Hj & Hf & Hl) & E).
  { left; auto. } { vm_compute; reflexivity. }
  exists t. eexists. exists (nth 1 (t_nodes t) []). split; auto. split. { eapply root_t; eauto. } split. exact E.
  intros V. destruct (start_range H coll_data t HT j Hj) as [R1 R2].
  set (p := mkProof _ _) in *.
  destruct (binding H coll_data t HM HT HH fnv_a p) as [(i & Hi & Ei & Ed)|C]; auto; unfold p; cbn [p_hashes p_index].
  - eapply path_len32; eauto. simpl; lia. lia.
  - unfold is_u32. simpl in Hj. unfold w32. lia.
  - exfalso. unfold p in Ei. cbn [p_index] in Ei.
    destruct i as [|[|[|[|i]]]]; simpl in Hi; try lia; cbn in Ed; try discriminate.
    assert (j = 0%nat) by lia. subst j.
    apply (Hl 1%nat). simpl; lia. cbn [nth coll_data]. symmetry. apply fnv_collision.
Qed.

Lemma duplicates_panic H d n : (1 <= n)%nat -> Z.of_nat (S n) <= max_records ->
  exists t, new_using H (repeat d (S n)) = Ok t /\ generate_proof t d = Panic "index out of range".
Proof.
  intros Hn HM. assert (HL : zlen (repeat d (S n)) <= max_records) by (unfold zlen; rewrite repeat_length; auto).
  destruct (new_using_ok H (repeat d (S n))) as (t & HT & I).
  { simpl; lia. } { unfold max_records, w32 in *. lia. }
  exists t. split; auto. apply (generate_panics H _ t HL HT).
  - left. auto.
  - assert (E : distinct_fingerprints (repeat d (S n)) = 1%nat).
    { unfold distinct_fingerprints.
      assert (I2 : incl (nodup Z.eq_dec (map fnv1a64 (repeat d (S n)))) [fnv1a64 d]).
      { intros x Hx. apply nodup_In, in_map_iff in Hx. destruct Hx as (y & <- & Hy). apply repeat_spec in Hy. subst. left; auto. }
      pose proof (NoDup_incl_length (NoDup_nodup Z.eq_dec _) I2) as L. simpl length in L at 2.
      assert (Hin : In (fnv1a64 d) (nodup Z.eq_dec (map fnv1a64 (repeat d (S n))))) by (apply nodup_In; left; auto).
      destruct (nodup Z.eq_dec (map fnv1a64 (repeat d (S n)))) as [|? [|]]; simpl in *; auto; try lia. }
    rewrite E. change (Nat.log2_up 1) with 0%nat. rewrite repeat_length. apply Nat.log2_up_pos. lia.
Qed.
