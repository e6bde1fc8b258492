(** Merkle properties: completeness, exact behaviour of proof generation, binding, forgery, commitment, codec. *)
From Coq Require Import String ZArith List Bool Arith Lia.
From Verif Require Import GoBase BaseFacts EncodingModel MerkleModel MerkleSpec MerkleProofs.
Import ListNotations.
Open Scope Z_scope.
Open Scope go_scope.

Definition max_records : Z := 2147483648.

Lemma log2_up_le_31 n : Z.of_nat n <= max_records -> (Nat.log2_up n <= 31)%nat.
Proof.
  intros Hn. destruct (Nat.le_gt_cases (Nat.log2_up n) 31) as [|C]; auto. exfalso.
  assert (1 < n)%nat. { destruct (Nat.le_gt_cases n 1) as [Hle|]; auto. rewrite Nat.log2_up_eqn0 in C by auto. lia. }
  pose proof (Nat.log2_up_spec n ltac:(lia)) as [S1 _].
  assert (2 ^ 31 <= 2 ^ pred (Nat.log2_up n))%nat by (apply Nat.pow_le_mono_r; lia).
  assert (Z.of_nat (2 ^ 31) < Z.of_nat n) by lia.
  rewrite Nat2Z.inj_pow in H1. change (Z.of_nat 2 ^ Z.of_nat 31) with max_records in H1. lia.
Qed.

Lemma of_nat_pow2 d : Z.of_nat (2 ^ d) = 2 ^ Z.of_nat d.
Proof. rewrite Nat2Z.inj_pow. reflexivity. Qed.

Lemma pow2_le_31 d : (d <= 31)%nat -> 2 ^ Z.of_nat d <= max_records.
Proof. intros. change max_records with (2 ^ 31). apply Z.pow_le_mono_r; lia. Qed.

(** the last position carrying the fingerprint of d *)
Definition last_with_fingerprint (data : list (list Z)) (d : list Z) (j : nat) : Prop :=
  (j < length data)%nat /\ fnv1a64 (nth j data []) = fnv1a64 d /\
  forall j', (j < j' < length data)%nat -> fnv1a64 (nth j' data []) <> fnv1a64 d.

Section Gen.
Variable H : hash_fn.
Variables (data : list (list Z)) (t : mtree).
Hypothesis Hmax : zlen data <= max_records.
Hypothesis HT : new_using H data = Ok t.

Let dn := Nat.log2_up (length data).
Let bl := (2 ^ dn)%nat.

Lemma inv_t : tree_inv H data t.
Proof. apply new_using_inv; auto. unfold max_records, w32 in *; lia. Qed.
Lemma pos_data : (0 < length data)%nat.
Proof. eapply new_using_nonempty; eauto. Qed.
Lemma dn31 : (dn <= 31)%nat.
Proof. apply log2_up_le_31. exact Hmax. Qed.
Lemma root_t : root t = Ok (nth 1 (t_nodes t) []).
Proof. eapply root_ok; eauto. unfold max_records, w32 in *; lia. Qed.

Lemma start_index j : (j < length data)%nat ->
  u32 (Z.of_nat j + u32 (zlen (t_nodes t) / 2)) = Z.of_nat (bl + j).
Proof.
  intros Hj. unfold zlen. rewrite (ti_len _ _ _ inv_t). fold dn bl.
  pose proof (pow2_le_31 dn dn31) as P. rewrite <- of_nat_pow2 in P. fold bl in P.
  replace (Z.of_nat (2 * bl) / 2) with (Z.of_nat bl) by (rewrite Nat2Z.inj_mul, Z.mul_comm, Z.div_mul; lia).
  pose proof (pow_log2_up (length data) pos_data) as Q. fold dn bl in Q.
  unfold u32, w32, max_records in *. rewrite Z.mod_small with (a := Z.of_nat bl) by lia.
  rewrite Z.mod_small by lia. lia.
Qed.

Lemma start_range j : (j < length data)%nat -> (2 ^ dn <= bl + j < 2 ^ S dn)%nat /\ (bl + j < 2 * bl)%nat.
Proof.
  intros Hj. pose proof (pow_log2_up (length data) pos_data) as Q. fold dn bl in Q.
  unfold bl in *. simpl. lia.
Qed.

Lemma generate_absent d : ~ In (fnv1a64 d) (map fnv1a64 data) -> generate_proof t d = Err "data not found".
Proof.
  intros Hd. unfold generate_proof, index_of. rewrite (ti_map _ _ _ inv_t), md_of_from.
  destruct (md_from_get data 0 [] (fnv1a64 d)) as [G _]. rewrite G by auto. reflexivity.
Qed.

Lemma generate_panics d : In (fnv1a64 d) (map fnv1a64 data) ->
  (Nat.log2_up (distinct_fingerprints data) < Nat.log2_up (length data))%nat ->
  generate_proof t d = Panic "index out of range".
Proof.
  intros Hd Hlt. unfold generate_proof, index_of.
  destruct (md_from_get data 0 [] (fnv1a64 d)) as [_ G]. destruct (G Hd) as (j & Hj & _ & _ & Eg).
  rewrite <- md_of_from in Eg. rewrite (ti_map _ _ _ inv_t), Eg. cbn [bind]. rewrite Nat.add_0_l.
  rewrite start_index by auto. unfold ceil_log2. rewrite md_of_length.
  change 0 with (zlen (@nil (list Z))).
  change (repeat [] (Nat.log2_up (distinct_fingerprints data))) with ([] ++ repeat (@nil Z) (Nat.log2_up (distinct_fingerprints data))).
  destruct (start_range j Hj).
  rewrite (proof_loop_panic H data t inv_t pos_data dn (bl + j)); auto.
  - pose proof dn31; lia.
  - rewrite repeat_length. auto.
Qed.

Lemma generate_ok d : In (fnv1a64 d) (map fnv1a64 data) ->
  Nat.log2_up (distinct_fingerprints data) = Nat.log2_up (length data) ->
  exists j, last_with_fingerprint data d j /\
    generate_proof t d = Ok (mkProof (path t (bl + j) dn) (Z.of_nat j)).
Proof.
  intros Hd Heq. unfold generate_proof, index_of.
  destruct (md_from_get data 0 [] (fnv1a64 d)) as [_ G]. destruct (G Hd) as (j & Hj & Hf & Hl & Eg).
  exists j. split. { split; auto. }
  rewrite <- md_of_from in Eg. rewrite (ti_map _ _ _ inv_t), Eg. cbn [bind]. rewrite Nat.add_0_l.
  rewrite start_index by auto. unfold ceil_log2. rewrite md_of_length, Heq. fold dn.
  change 0 with (zlen (@nil (list Z))).
  change (repeat [] dn) with ([] ++ repeat (@nil Z) dn).
  destruct (start_range j Hj).
  rewrite (proof_loop_ok H data t inv_t pos_data dn (bl + j)); auto.
  - cbn [bind app]. rewrite skipn_all2 by (rewrite repeat_length; lia). rewrite app_nil_r. reflexivity.
  - pose proof dn31; lia.
  - rewrite repeat_length. lia.
Qed.

(** the honest proof for position j verifies for record j *)
Lemma honest_verifies j : (j < length data)%nat ->
  verify_proof H (nth j data []) (mkProof (path t (bl + j) dn) (Z.of_nat j)) (nth 1 (t_nodes t) []) = Ok true.
Proof.
  intros Hj. unfold verify_proof, generate_proof_hash. cbn [p_index p_hashes].
  pose proof (pow2_le_31 dn dn31) as P. rewrite <- of_nat_pow2 in P. fold bl in P.
  pose proof (pow_log2_up (length data) pos_data) as Q. fold dn bl in Q.
  rewrite index_to_bytes_ok by (unfold w32, max_records in *; lia). cbn [bind].
  unfold zlen. rewrite path_length, <- of_nat_pow2. fold bl.
  assert (EI : u32 (Z.of_nat j + u32 (Z.of_nat bl)) = Z.of_nat (bl + j)).
  { unfold u32. rewrite (Z.mod_small (Z.of_nat bl)) by (unfold w32, max_records in *; lia).
    rewrite Z.mod_small by (unfold w32, max_records in *; lia). lia. }
  rewrite EI. fold (leaf_input j (nth j data [])).
  pose proof (ti_leaf _ _ _ inv_t j Hj) as EL. fold dn bl in EL. rewrite <- EL.
  destruct (start_range j Hj).
  rewrite (verify_path H data t inv_t pos_data dn (bl + j)); auto.
  f_equal. apply bytes_equal_spec. auto.
Qed.

Lemma completeness i : NoDup (map fnv1a64 data) -> (i < length data)%nat ->
  exists p rt, generate_proof t (nth i data []) = Ok p /\ root t = Ok rt /\
    p_index p = Z.of_nat i /\ length (p_hashes p) = Nat.log2_up (length data) /\
    verify_proof H (nth i data []) p rt = Ok true.
Proof.
  intros ND Hi. destruct (generate_ok (nth i data [])) as (j & (Hj & Hf & _) & E).
  - apply in_map, nth_In; auto.
  - rewrite distinct_all; auto.
  - assert (j = i).
    { apply (proj1 (NoDup_nth (map fnv1a64 data) (fnv1a64 [])) ND); rewrite ?map_length; auto.
      rewrite !map_nth. auto. }
    subst j. eexists _, _. split. exact E. split. exact root_t. cbn [p_index p_hashes]. split; auto.
    split. apply path_length. apply honest_verifies; auto.
Qed.

(** proof generated under a shared fingerprint *)
Lemma generated_proof_is_for_last d p : generate_proof t d = Ok p ->
  exists j, last_with_fingerprint data d j /\ p_index p = Z.of_nat j /\
    verify_proof H (nth j data []) p (nth 1 (t_nodes t) []) = Ok true.
Proof.
  intros E. destruct (in_dec Z.eq_dec (fnv1a64 d) (map fnv1a64 data)) as [Hin|Hin].
  2: { rewrite generate_absent in E; auto. discriminate. }
  destruct (Nat.eq_dec (Nat.log2_up (distinct_fingerprints data)) (Nat.log2_up (length data))) as [He|He].
  - destruct (generate_ok d Hin He) as (j & Hl & E'). rewrite E in E'. inversion E'; subst.
    exists j. split; auto. split; auto. apply honest_verifies. apply Hl.
  - assert (Nat.log2_up (distinct_fingerprints data) <= Nat.log2_up (length data))%nat
      by (apply Nat.log2_up_le_mono, distinct_le).
    rewrite generate_panics in E; auto. discriminate. lia.
Qed.

Lemma all_proofs_ok_iff : (forall d, In d data -> exists p, generate_proof t d = Ok p) <->
  Nat.log2_up (distinct_fingerprints data) = Nat.log2_up (length data).
Proof.
  split.
  - intros A. pose proof pos_data as Hpos.
    assert (Hin : In (nth 0 data []) data) by (apply nth_In; auto).
    destruct (A _ Hin) as [p Ep].
    destruct (Nat.eq_dec (Nat.log2_up (distinct_fingerprints data)) (Nat.log2_up (length data))) as [He|He]; auto.
    assert (Nat.log2_up (distinct_fingerprints data) <= Nat.log2_up (length data))%nat
      by (apply Nat.log2_up_le_mono, distinct_le).
    rewrite generate_panics in Ep. discriminate. apply in_map; auto. lia.
  - intros He d Hd. destruct (generate_ok d) as (j & _ & E); eauto. apply in_map; auto.
Qed.

(** ** binding *)
Lemma mod_half a b e : a mod 2 ^ Z.of_nat (S e) = b mod 2 ^ Z.of_nat (S e) ->
  a mod 2 = b mod 2 /\ (a / 2) mod 2 ^ Z.of_nat e = (b / 2) mod 2 ^ Z.of_nat e.
Proof.
  intros E. rewrite Nat2Z.inj_succ, Z.pow_succ_r in E by lia.
  assert (P : 0 < 2 ^ Z.of_nat e) by (apply Z.pow_pos_nonneg; lia).
  rewrite !Z.rem_mul_r in E by lia.
  pose proof (Z.mod_pos_bound a 2 ltac:(lia)). pose proof (Z.mod_pos_bound b 2 ltac:(lia)).
  pose proof (Z.mod_pos_bound (a / 2) _ P). pose proof (Z.mod_pos_bound (b / 2) _ P). lia.
Qed.

Hypothesis HH : hash_ok H.

Lemma app_inj_len {A} (a b c d : list A) : length a = length c -> a ++ b = c ++ d -> a = c /\ b = d.
Proof.
  intros L E. split.
  - rewrite <- (firstn_app_exact a b (length a)), E, firstn_app_exact; auto.
  - rewrite <- (skipn_app_exact a b (length a)), E, skipn_app_exact; auto.
Qed.

Lemma descent : forall hashes acc idx idx2 k,
  (2 ^ length hashes <= k < 2 ^ S (length hashes))%nat -> (k < 2 * bl)%nat ->
  idx mod 2 ^ zlen hashes = Z.of_nat k mod 2 ^ zlen hashes ->
  idx2 mod 2 ^ zlen hashes = Z.of_nat k mod 2 ^ zlen hashes ->
  Forall (fun h => length h = 32%nat) hashes -> length acc = 32%nat ->
  proof_hash_loop H idx acc hashes = nth 1 (t_nodes t) [] ->
  acc = nth k (t_nodes t) [] \/ collision_found H (tree_inputs H data) (path_inputs H idx2 acc hashes).
Proof.
  induction hashes as [|h hashes IH]; intros acc idx idx2 k Hk Hb M1 M2 HF HA E.
  - simpl in Hk. assert (k = 1%nat) by lia. subst. left. exact E.
  - cbn [length] in Hk. cbn [proof_hash_loop path_inputs] in *. unfold zlen in M1, M2. cbn [length] in M1, M2.
    apply mod_half in M1. apply mod_half in M2. destruct M1 as [P1 M1], M2 as [P2 M2].
    inversion HF; subst.
    replace (Z.of_nat k / 2) with (Z.of_nat (k / 2)) in * by (rewrite Nat2Z.inj_div; auto).
    set (inp := if Z.even idx2 then acc ++ h else h ++ acc).
    assert (EA : (if idx mod 2 =? 0 then H (acc ++ h) else H (h ++ acc)) = H inp).
    { unfold inp. rewrite Zmod_even in P2. rewrite P1, <- P2. destruct (Z.even idx2); reflexivity. }
    rewrite EA in E.
    destruct (IH (H inp) (idx / 2) (idx2 / 2) (k / 2)%nat) as [IHk|IHc]; try assumption.
    + split. apply Nat.div_le_lower_bound; simpl in *; lia. apply Nat.div_lt_upper_bound; simpl in *; lia.
    + apply Nat.le_lt_trans with k; [apply Nat.div_le_upper_bound; lia|exact Hb].
    + apply HH.
    + assert (Hk2 : (1 <= k / 2 < bl)%nat).
      { clear -Hk Hb. split.
        - apply Nat.div_le_lower_bound; [lia|]. pose proof (pow2_pos (length hashes)). simpl in Hk. lia.
        - apply Nat.div_lt_upper_bound; lia. }
      pose proof (ti_branch _ _ _ inv_t (k / 2) Hk2) as EB.
      set (l := nth (2 * (k / 2)) (t_nodes t) []) in *. set (r := nth (2 * (k / 2) + 1) (t_nodes t) []) in *.
      destruct (list_eq_dec Z.eq_dec inp (l ++ r)) as [Eq|Ne].
      * left.
        assert (Ll : length l = 32%nat) by (apply (node_length H data t inv_t pos_data HH); fold dn bl; clear -Hk2; lia).
        unfold inp in Eq.
        assert (EK : Z.of_nat k mod 2 = Z.of_nat (k mod 2)) by (rewrite Nat2Z.inj_mod; reflexivity).
        rewrite Zmod_even, EK in P2.
        destruct (Z.even idx2).
        -- apply app_inj_len in Eq; [|congruence]. destruct Eq as [-> _]. unfold l. f_equal.
           clear -P2. pose proof (Nat.div_mod k 2). lia.
        -- apply app_inj_len in Eq; [|congruence]. destruct Eq as [_ ->]. unfold r. f_equal.
           clear -P2. pose proof (Nat.div_mod k 2). lia.
      * right. exists (l ++ r), inp. conj_split.
        -- apply (node_input_in H data t inv_t pos_data). exact Hk2.
        -- left; reflexivity.
        -- congruence.
        -- rewrite <- EB. congruence.
    + right. destruct IHc as (x & y & Hx & Hy & N & Ec). exists x, y. conj_split; auto. right. exact Hy.
Qed.

Lemma binding d p :
  length (p_hashes p) = Nat.log2_up (length data) -> Forall (fun h => length h = 32%nat) (p_hashes p) ->
  is_u32 (p_index p) -> verify_proof H d p (nth 1 (t_nodes t) []) = Ok true ->
  (exists i, (i < length data)%nat /\ p_index p = Z.of_nat i /\ d = nth i data []) \/
  collision_found H (tree_inputs H data) (proof_inputs H d p) \/
  padding_preimage H (proof_inputs H d p).
Proof.
  intros HL HF HI E. unfold is_u32 in HI. unfold verify_proof, generate_proof_hash in E.
  rewrite index_to_bytes_ok in E by auto. cbn [bind] in E.
  injection E as E. apply bytes_equal_spec in E. symmetry in E.
  fold dn in HL. pose proof (pow2_le_31 dn dn31) as P.
  set (i := Z.to_nat (p_index p mod 2 ^ Z.of_nat dn)).
  assert (P0 : 0 < 2 ^ Z.of_nat dn) by (apply Z.pow_pos_nonneg; lia).
  pose proof (Z.mod_pos_bound (p_index p) _ P0) as MB.
  assert (Hi : (i < bl)%nat). { unfold i, bl. apply Nat2Z.inj_lt. rewrite of_nat_pow2. lia. }
  assert (EK : Z.of_nat (bl + i) mod 2 ^ Z.of_nat dn = p_index p mod 2 ^ Z.of_nat dn).
  { rewrite Nat2Z.inj_add. unfold bl. rewrite of_nat_pow2. unfold i. rewrite Z2Nat.id by lia.
    rewrite <- Z.add_mod_idemp_l, Z.mod_same, Z.add_0_l, Z.mod_mod by lia. auto. }
  destruct (descent (p_hashes p) (H (d ++ le_enc 4 (p_index p)))
     (u32 (p_index p + u32 (2 ^ zlen (p_hashes p)))) (p_index p) (bl + i)%nat) as [D|D]; try assumption.
  - rewrite HL. unfold bl in *. simpl. lia.
  - lia.
  - unfold zlen. rewrite HL, EK. unfold u32.
    rewrite (Z.mod_small (2 ^ Z.of_nat dn)) by (unfold w32, max_records in *; lia).
    replace w32 with (2 ^ Z.of_nat dn * 2 ^ (32 - Z.of_nat dn)).
    2: { rewrite <- Z.pow_add_r by (pose proof dn31; lia). replace (Z.of_nat dn + (32 - Z.of_nat dn)) with 32 by lia. reflexivity. }
    rewrite Z.rem_mul_r; [|lia|apply Z.pow_pos_nonneg; pose proof dn31; lia].
    rewrite Z.mul_comm, Z.mod_add, Z.mod_mod by lia.
    rewrite <- Z.add_mod_idemp_r, Z.mod_same, Z.add_0_r by lia. auto.
  - unfold zlen. rewrite HL, EK. auto.
  - apply HH.
  - destruct (Nat.lt_ge_cases i (length data)) as [Hlt|Hge].
    + pose proof (ti_leaf _ _ _ inv_t i Hlt) as EL. fold dn bl in EL. rewrite EL in D.
      destruct (list_eq_dec Z.eq_dec (d ++ le_enc 4 (p_index p)) (leaf_input i (nth i data []))) as [Eq|Ne].
      * left. exists i. unfold leaf_input in Eq.
        assert (LE : length d = length (nth i data [])).
        { apply (f_equal (@length Z)) in Eq. rewrite !app_length, !le_enc_length in Eq. lia. }
        apply app_inj_len in Eq; auto. destruct Eq as [-> Ei]. split; auto. split; auto.
        pose proof (pow_log2_up (length data) pos_data) as Q. fold dn bl in Q.
        assert (Bi : Z.of_nat i < 256 ^ Z.of_nat 4).
        { change (256 ^ Z.of_nat 4) with w32. assert (Z.of_nat bl <= max_records) by (unfold bl; rewrite of_nat_pow2; auto).
          unfold max_records, w32 in *. lia. }
        apply (f_equal le_dec) in Ei. rewrite !le_dec_enc in Ei; auto. lia.
      * right. left. exists (leaf_input i (nth i data [])), (d ++ le_enc 4 (p_index p)). conj_split; auto.
        -- apply leaf_input_in; [exact pos_data|assumption].
        -- left; auto.
    + right. right. exists (d ++ le_enc 4 (p_index p)). split. left; auto.
      rewrite D. pose proof (ti_pad _ _ _ inv_t i) as EP. fold dn bl in EP. apply EP. lia.
  - right. left. destruct D as (x & y & Hx & Hy & N & Ec). exists x, y. conj_split; auto. right. auto.
Qed.

(** ** forgery *)
Lemma forgery : (2 <= length data)%nat ->
  let l := nth 2 (t_nodes t) [] in let r := nth 3 (t_nodes t) [] in
  let d := l ++ firstn 28 r in
  let p := mkProof [] (le_dec (skipn 28 r)) in
  length d = 60%nat /\ bytes d /\ is_u32 (p_index p) /\ verify_proof H d p (nth 1 (t_nodes t) []) = Ok true.
Proof.
  intros Hn l r d p.
  assert (Hd1 : (1 <= dn)%nat). { unfold dn. assert (Nat.log2_up 2 <= Nat.log2_up (length data))%nat by (apply Nat.log2_up_le_mono; auto).
    change (Nat.log2_up 2) with 1%nat in *. auto. }
  assert (Hb : (2 <= bl)%nat). { unfold bl. change 2%nat with (2 ^ 1)%nat at 1. apply Nat.pow_le_mono_r; lia. }
  assert (Ll : length l = 32%nat) by (apply (node_length H data t inv_t pos_data HH); fold dn bl; lia).
  assert (Lr : length r = 32%nat) by (apply (node_length H data t inv_t pos_data HH); fold dn bl; lia).
  assert (Bl : bytes l) by (apply (node_bytes H data t inv_t pos_data HH); fold dn bl; lia).
  assert (Br : bytes r) by (apply (node_bytes H data t inv_t pos_data HH); fold dn bl; lia).
  rewrite <- (firstn_skipn 28 r) in Br. apply Forall_app in Br. destruct Br as [Br1 Br2].
  assert (Ls : length (skipn 28 r) = 4%nat) by (rewrite skipn_length; lia).
  assert (PI : 0 <= le_dec (skipn 28 r) < w32).
  { pose proof (le_dec_bound _ Br2) as B. unfold zlen in B. rewrite Ls in B. exact B. }
  conj_split.
  - unfold d. rewrite app_length, firstn_length. lia.
  - unfold d. apply bytes_app; auto.
  - exact PI.
  - unfold verify_proof, generate_proof_hash, p. cbn [p_index p_hashes].
    rewrite index_to_bytes_ok by exact PI. cbn [bind proof_hash_loop].
    replace (le_enc 4 (le_dec (skipn 28 r))) with (skipn 28 r).
    2: { pose proof (le_enc_dec _ Br2) as Q. rewrite Ls in Q. symmetry. exact Q. }
    unfold d. rewrite <- app_assoc, firstn_skipn.
    f_equal. apply bytes_equal_spec. apply (ti_branch _ _ _ inv_t 1). fold dn bl. lia.
Qed.
End Gen.

(** ** the root commits to the list *)
Section Commit.
Variable H : hash_fn.
Hypothesis HH : hash_ok H.

Lemma spec_root_length d : forall l, length l = (2 ^ d)%nat -> Forall (fun x => length x = 32%nat) l ->
  length (spec_root H d l) = 32%nat.
Proof.
  destruct d; intros l Hl HF; cbn [spec_root].
  - destruct l; simpl in *; try lia. inversion HF; auto.
  - apply HH.
Qed.

Lemma Forall_firstn' {A} (P : A -> Prop) n l : Forall P l -> Forall P (firstn n l).
Proof. intros. rewrite <- (firstn_skipn n l) in H0. apply Forall_app in H0. tauto. Qed.
Lemma Forall_skipn' {A} (P : A -> Prop) n l : Forall P l -> Forall P (skipn n l).
Proof. intros. rewrite <- (firstn_skipn n l) in H0. apply Forall_app in H0. tauto. Qed.

Lemma spec_root_inj : forall d l1 l2, length l1 = (2 ^ d)%nat -> length l2 = (2 ^ d)%nat ->
  Forall (fun x => length x = 32%nat) l1 -> Forall (fun x => length x = 32%nat) l2 ->
  spec_root H d l1 = spec_root H d l2 ->
  l1 = l2 \/ collision_found H (inner_inputs H d l1) (inner_inputs H d l2).
Proof.
  induction d; intros l1 l2 L1 L2 F1 F2 E; cbn [spec_root] in E.
  - left. destruct l1 as [|a [|]], l2 as [|b [|]]; simpl in *; try lia. congruence.
  - simpl in L1, L2.
    assert (A1 : length (firstn (2 ^ d) l1) = (2 ^ d)%nat) by (rewrite firstn_length; lia).
    assert (A2 : length (firstn (2 ^ d) l2) = (2 ^ d)%nat) by (rewrite firstn_length; lia).
    assert (B1 : length (skipn (2 ^ d) l1) = (2 ^ d)%nat) by (rewrite skipn_length; lia).
    assert (B2 : length (skipn (2 ^ d) l2) = (2 ^ d)%nat) by (rewrite skipn_length; lia).
    destruct (list_eq_dec Z.eq_dec
      (spec_root H d (firstn (2 ^ d) l1) ++ spec_root H d (skipn (2 ^ d) l1))
      (spec_root H d (firstn (2 ^ d) l2) ++ spec_root H d (skipn (2 ^ d) l2))) as [Eq|Ne].
    + apply app_inj_len in Eq.
      2: { rewrite !spec_root_length; auto using Forall_firstn'. }
      destruct Eq as [E1 E2].
      destruct (IHd _ _ A1 A2 (Forall_firstn' _ _ _ F1) (Forall_firstn' _ _ _ F2) E1) as [Q1|C1].
      2: { right. destruct C1 as (x & y & Hx & Hy & N & Ec). exists x, y. cbn [inner_inputs].
           conj_split; auto; right; apply in_or_app; auto. }
      destruct (IHd _ _ B1 B2 (Forall_skipn' _ _ _ F1) (Forall_skipn' _ _ _ F2) E2) as [Q2|C2].
      2: { right. destruct C2 as (x & y & Hx & Hy & N & Ec). exists x, y. cbn [inner_inputs].
           conj_split; auto; right; apply in_or_app; auto. }
      left. rewrite <- (firstn_skipn (2 ^ d) l1), <- (firstn_skipn (2 ^ d) l2). congruence.
    + right. eexists _, _. cbn [inner_inputs]. conj_split; [left; reflexivity|left; reflexivity| |]; auto.
Qed.

Lemma spec_leaves_len32 data : Forall (fun x => length x = 32%nat) (spec_leaves H data).
Proof.
  unfold spec_leaves. apply Forall_app. split.
  - apply Forall_map, Forall_forall. intros. apply HH.
  - apply Forall_forall. intros x Hx. apply repeat_spec in Hx. subst. apply repeat_length.
Qed.

Lemma first_difference (l1 l2 : list (list Z)) : length l1 = length l2 ->
  l1 = l2 \/ exists i, (i < length l1)%nat /\ nth i l1 [] <> nth i l2 [].
Proof.
  revert l2; induction l1 as [|a l1 IH]; intros [|b l2] L; simpl in L; try lia; auto.
  destruct (list_eq_dec Z.eq_dec a b) as [->|N].
  - destruct (IH l2 ltac:(lia)) as [->|(i & Hi & N)]; auto.
    right. exists (S i). simpl. split; auto. lia.
  - right. exists 0%nat. simpl. split; auto. lia.
Qed.

Lemma root_commits data1 data2 t1 t2 rt :
  length data1 = length data2 -> zlen data1 <= max_records ->
  new_using H data1 = Ok t1 -> new_using H data2 = Ok t2 -> root t1 = Ok rt -> root t2 = Ok rt ->
  data1 = data2 \/ collision_found H (tree_inputs H data1) (tree_inputs H data2).
Proof.
  intros HL HM E1 E2 R1 R2.
  assert (HM2 : zlen data2 <= max_records) by (unfold zlen in *; lia).
  pose proof (inv_t H data1 t1 HM E1) as I1. pose proof (inv_t H data2 t2 HM2 E2) as I2.
  pose proof (new_using_nonempty H data1 t1 E1) as P1. pose proof (new_using_nonempty H data2 t2 E2) as P2.
  rewrite (root_t H data1 t1 HM E1) in R1. rewrite (root_t H data2 t2 HM2 E2) in R2.
  assert (ER : nth 1 (t_nodes t1) [] = nth 1 (t_nodes t2) []) by congruence.
  rewrite (root_spec H data1 t1 I1 P1), (root_spec H data2 t2 I2 P2) in ER.
  destruct (first_difference data1 data2 HL) as [|(i & Hi & N)]; auto. right.
  rewrite HL in ER.
  destruct (spec_root_inj (Nat.log2_up (length data2)) (spec_leaves H data1) (spec_leaves H data2)) as [EL|C]; auto using spec_leaves_len32.
  - rewrite spec_leaves_length by auto. congruence.
  - rewrite spec_leaves_length by auto. congruence.
  - assert (Hn : forall dd tt, tree_inv H dd tt -> (i < length dd)%nat -> nth i (spec_leaves H dd) [] = H (leaf_input i (nth i dd []))).
    { intros dd tt II Hd. rewrite (spec_leaves_nth H dd tt i II).
      apply (ti_leaf _ _ _ II); auto. pose proof (pow_log2_up (length dd)). lia. }
    exists (leaf_input i (nth i data1 [])), (leaf_input i (nth i data2 [])). conj_split.
    + apply leaf_input_in; auto.
    + apply leaf_input_in; auto. lia.
    + unfold leaf_input. intros Q. apply app_inv_tail in Q. auto.
    + rewrite <- (Hn data1 t1), <- (Hn data2 t2); auto; try lia. congruence.
  - destruct C as (x & y & Hx & Hy & Nx & Ec). exists x, y. unfold tree_inputs. conj_split; auto; apply in_or_app; right; auto.
    rewrite HL. auto.
Qed.
End Commit.
