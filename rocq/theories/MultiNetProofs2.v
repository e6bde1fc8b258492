(** Proofs about the point-query benchmark through the network. *)
From Coq Require Import String ZArith List Bool Lia Permutation.
From Verif Require Import GoBase BaseFacts EncodingModel MerkleModel MerkleSpec MerkleProofs MerkleProofs2 PrgModel LWEModel LWEProofs PointModel PointSpec PointProofs2 DirectoryModel FrontendModel FrontendProofs2
  KeyPageModel MultiModel MultiSpec MultiProofs MultiProofs2 BenchModel ChannelModel FSSProofs WireModel WireSpec WireProofs WireProofs2 GobSpec MultiNetModel MultiNetSpec.
Import ListNotations.
Open Scope Z_scope.
Open Scope go_scope.

Lemma answer_length_two D two db q a : pir_answer D two db q = Ok a -> zlen a = i_rows (b_info db) * i_bs (b_info db).
Proof.
  destruct two; [|apply answer_length]. intros E. apply (answer_length D db (dpf_eval D q (bits_len (i_cols (b_info db))))). unfold pir_answer in *. exact E.
Qed.

Lemma point_same E D two db q : gzip_ok E -> small q -> i_rows (b_info db) * i_bs (b_info db) <= 1000000000 ->
  to_option (over_network E (pir_answer D two db) q) = to_option (pir_answer D two db q).
Proof.
  intros G SQ SM. destruct (pir_answer D two db q) as [a|m|m|m] eqn:EA.
  - rewrite (remote_ok E _ q a G SQ); auto. unfold small. rewrite (answer_length_two _ _ _ _ _ EA). exact SM.
  - destruct (remote_ends E (serve_query E (pir_answer D two db)) q G) as [(a & R)|(x & R)]; fold (over_network E (pir_answer D two db)) in R; rewrite R; auto. apply remote_inv in R as (R & _); auto. congruence.
  - destruct (remote_ends E (serve_query E (pir_answer D two db)) q G) as [(a & R)|(x & R)]; fold (over_network E (pir_answer D two db)) in R; rewrite R; auto. apply remote_inv in R as (R & _); auto. congruence.
  - destruct (remote_ends E (serve_query E (pir_answer D two db)) q G) as [(a & R)|(x & R)]; fold (over_network E (pir_answer D two db)) in R; rewrite R; auto. apply remote_inv in R as (R & _); auto. congruence.
Qed.

(** ** Sizes of queries *)

Definition query_size (len : Z -> Z) (n cols : Z) : Z := if n =? 2 then len (bits_len cols) else cols / 8 + 1.

Lemma query_size_small len n cols D : keys_sized D len -> 0 <= cols < 2 ^ 32 -> query_size len n cols <= 1000000000.
Proof.
  intros (_ & L) C. unfold query_size. destruct (n =? 2); [apply L|]. assert (cols / 8 <= 536870912) by (apply Z.div_le_upper_bound; lia). lia.
Qed.

Lemma query_sizes D len inf rnd inp n ix qs : keys_sized D len -> 0 <= i_cols inf < 2 ^ 32 -> pir_query_bytes D inf rnd inp n = Ok (ix, qs) ->
  Forall (fun q => zlen q = query_size len n (i_cols inf)) qs /\ zlen qs = n.
Proof.
  intros KS C E. split; [|exact (query_count _ _ _ _ _ _ _ E)].
  unfold pir_query_bytes in E. destruct (be_u32 inp) as [index| | |]; try discriminate. cbn [bind] in E. unfold pir_query in E.
  destruct (invalid_query_inputs_it index n); [discriminate|]. destruct (vector_to_matrix_indices _ _) as [[x y]| | |]; try discriminate. cbn [bind] in E.
  unfold query_size. destruct (Z.eqb_spec n 2).
  { destruct (dpf_gen D (u64 y) (bits_len (i_cols inf))) as [[k0 k1]| | |] eqn:EG; try discriminate. cbn [bind fst snd] in E. destruct (proj1 KS _ _ _ _ EG) as (L0 & L1).
    assert (qs = [k0; k1]) as -> by congruence. repeat constructor; auto. }
  destruct (secret_share _ _ _ _) as [vs| | |] eqn:ES; try discriminate. cbn [bind] in E. assert (vs = qs) as -> by congruence.
  unfold secret_share in ES. cbv zeta in ES.
  destruct (go_make tt n) as [v1| | |]; try discriminate. cbn [bind] in ES. destruct (mapM _ v1) as [v2| | |]; try discriminate. cbn [bind] in ES.
  destruct (go_make 0 ((n - 1) * _)) as [v3| | |]; try discriminate. cbn [bind] in ES. destruct (Z.rem y 8 <? 0); [discriminate|].
  destruct (go_index v1 _) as [v4| | |]; try discriminate. cbn [bind] in ES.
  destruct (go_make 0 (Z.quot (i_cols inf) 8 + 1)) as [z| | |] eqn:EZ; try discriminate. cbn [bind] in ES.
  destruct (go_store z _ _) as [l| | |] eqn:EL; try discriminate. cbn [bind] in ES.
  assert (Q : 0 <= Z.quot (i_cols inf) 8) by (rewrite Z.quot_div_nonneg by lia; apply Z.div_pos; lia).
  assert (LZ : length z = Z.to_nat (Z.quot (i_cols inf) 8 + 1)).
  { unfold go_make in EZ. destruct (_ <? 0); [discriminate|]. injection EZ as <-. apply repeat_length. }
  assert (LL : length l = length z).
  { unfold go_store in EL. destruct (_ && _)%bool; [|discriminate]. injection EL as <-. apply BaseFacts.upd_length. }
  rewrite <- Z.quot_div_nonneg by lia. eapply share_loop_lengths; [| |exact ES]; [lia|congruence].
Qed.

(** ** Two ways of reaching the servers *)

Section Same.
Context (D : dpf_scheme) (H : hash_fn) (len : Z -> Z) (inf : info) (n : Z) (conns : list (list Z)).
Context (serve serve' : list Z -> list Z -> option (list Z)).
Context (KS : keys_sized D len) (C : 0 <= i_cols inf < 2 ^ 32) (LC : zlen conns = n).
Context (SAME : forall c q, In c conns -> zlen q = query_size len n (i_cols inf) -> serve c q = serve' c q).

Lemma send_all_same : forall order queries j, (forall c, In c order -> In c conns) -> Forall (fun q => zlen q = query_size len n (i_cols inf)) queries ->
  send_all serve order queries j = send_all serve' order queries j.
Proof using SAME.
  induction order as [|c t IH]; intros queries j SUB F; cbn [send_all]; [reflexivity|].
  destruct (go_index queries j) as [q| | |] eqn:EQ; try reflexivity. cbn [bind].
  assert (IQ : In q queries). { unfold go_index in EQ. destruct (j <? 0); [discriminate|]. destruct (nth_error queries (Z.to_nat j)) as [x|] eqn:EN; [|discriminate].
    assert (x = q) as -> by congruence. apply nth_error_In in EN. exact EN. }
  rewrite Forall_forall in F. rewrite (SAME c q); [|apply SUB; left; reflexivity|auto]. rewrite IH; [reflexivity|intros; apply SUB; right; auto|apply Forall_forall; auto].
Qed.

Lemma block_same rnd order arrive index : Permutation conns order ->
  multi_block D H inf serve rnd order arrive index = multi_block D H inf serve' rnd order arrive index /\
  (forall bw b, multi_block D H inf serve' rnd order arrive index = Ok (bw, b) -> bw = n * query_size len n (i_cols inf)).
Proof using SAME KS C LC.
  intros P. assert (LO : zlen order = n) by (unfold zlen in *; rewrite <- (Permutation_length P); exact LC). unfold multi_block. rewrite LO.
  destruct (pir_query_bytes D inf rnd (be_enc 4 (u32 index)) n) as [[ix qs]| | |] eqn:EQ; try (split; [reflexivity|discriminate]). cbn [bind].
  destruct (query_sizes D len inf rnd _ n ix qs KS C EQ) as (F & L). split.
  - rewrite (send_all_same order qs 0); [reflexivity| |exact F]. intros c I. exact (Permutation_in _ (Permutation_sym P) I).
  - intros bw b E. destruct (send_all serve' order qs 0) as [ans| | |]; try discriminate. cbn [bind] in E.
    destruct (reconstruct_pir H inf ix (arrive ans)); try discriminate. assert (bw = zsum (map zlen qs)) as -> by congruence.
    rewrite (zsum_const zlen (query_size len n (i_cols inf)) qs F), L. lia.
Qed.

Lemma blocks_same hap start : (forall i, Permutation conns (h_order (hap i))) -> forall todo i,
  multi_blocks D H inf serve hap start i todo = multi_blocks D H inf serve' hap start i todo /\
  (forall l, multi_blocks D H inf serve' hap start i todo = Ok l -> Forall (fun b => fst b = n * query_size len n (i_cols inf)) l /\ length l = todo).
Proof using SAME KS C LC.
  intros P. induction todo as [|t IH]; intros i; cbn [multi_blocks]; [split; [reflexivity|]; intros l E; assert (l = []) as -> by congruence; repeat constructor|].
  destruct (block_same (h_rnd (hap i)) (h_order (hap i)) (h_arrive (hap i)) (start + Z.of_nat i) (P i)) as (-> & BW). destruct (IH (S i)) as (-> & BL). split; [reflexivity|].
  intros l E. destruct (multi_block D H inf serve' _ _ _ _) as [[bw b]| | |]; try discriminate. cbn [bind] in E.
  destruct (multi_blocks D H inf serve' hap start (S i) t) as [l'| | |]; try discriminate. cbn [bind] in E.
  assert (l = (bw, b) :: l') as -> by congruence. destruct (BL l' eq_refl) as (F & L). split; [constructor; [exact (BW bw b eq_refl)|exact F]|cbn [length]; lia].
Qed.

Lemma point_run_same hap pick elem bits reps : (forall j i, Permutation conns (h_order (hap j i))) ->
  retrieve_point D H inf serve hap pick elem bits reps = retrieve_point D H inf serve' hap pick elem bits reps /\
  (forall results, retrieve_point D H inf serve' hap pick elem bits reps = Ok results ->
     Forall (fun r => fst r = Z.max 0 (bits_to_blocks (i_bs inf) elem bits) * (n * query_size len n (i_cols inf))) results).
Proof using SAME KS C LC.
  intros P. unfold retrieve_point. cbv zeta. destruct (_ <=? 0); [split; [reflexivity|discriminate]|]. split.
  - apply mapM_ext. intros j _. rewrite (proj1 (blocks_same (hap j) _ (P j) _ _)). reflexivity.
  - intros results E. apply Forall_forall. intros r I. destruct (KeyPageProofs2.mapM_in _ _ _ _ E I) as (j & _ & EJ).
    destruct (multi_blocks D H inf serve' (hap j) _ 0 _) as [l| | |] eqn:EL; try discriminate. cbn [bind] in EJ.
    apply (proj2 (blocks_same (hap j) _ (P j) _ _)) in EL as (F & L). assert (r = (zsum (map fst l), map snd l)) as -> by congruence. cbn [fst].
    rewrite (zsum_const fst _ l F). unfold zlen. rewrite L. lia.
Qed.
End Same.

(** ** Descriptions of random databases *)

Lemma multi_db_sendable E H ks f db : utf8_ok E -> hash_ok H -> s_scheme f = "pir-classic"%string \/ s_scheme f = "pir-merkle"%string ->
  s_elem f = 8 -> 0 < s_block f -> 0 < s_len f / (8 * s_block f) < w32 -> (s_scheme f = "pir-merkle"%string -> s_len f / (8 * s_block f) <= 2 ^ 31) ->
  multi_db H ks f = Ok db -> sendable E (database_info (PointService db)) /\ info_of (database_info (PointService db)) = advertised (b_info db).
Proof.
  intros U HH HS HE HB HN HM E0. unfold multi_db in E0. destruct (multi_rows f) as [rows| | |]; try discriminate. cbn [bind] in E0.
  assert (T : (i_type (b_info db) = ""%string \/ i_type (b_info db) = "merkle"%string) /\ zlen (i_root (b_info db)) <= 32).
  { destruct HS as [HS|HS]; rewrite HS in E0.
    - change ("pir-classic" =? "pir-classic")%string with true in E0. cbv iota in E0. unfold create_random_bytes in E0.
      destruct (go_make 0 _) as [buf| | |]; try discriminate. cbn [bind] in E0. cbv zeta in E0. destruct (_ =? 0); [discriminate|].
      destruct (go_make (s_block f) _) as [lens| | |]; try discriminate. cbn [bind] in E0. injection E0 as <-. cbn [b_info i_type i_root]. split; [left; reflexivity|]. unfold zlen. cbn [length]. lia.
    - change ("pir-merkle" =? "pir-classic")%string with false in E0. change ("pir-merkle" =? "pir-merkle")%string with true in E0. cbv iota in E0. unfold create_random_merkle in E0.
      destruct (_ =? 0); [discriminate|]. cbv zeta in E0. destruct (go_make 0 _) as [buf| | |]; try discriminate. cbn [bind] in E0.
      destruct (go_make tt _) as [v| | |]; try discriminate. cbn [bind] in E0. destruct (mapM _ (range _)) as [blocks| | |] eqn:EM; try discriminate. cbn [bind] in E0.
      destruct (new_using H blocks) as [tree| | |] eqn:ET; try discriminate. destruct (rows =? 0); [discriminate|].
      destruct (go_make (_ + _ + 1) _) as [lens| | |]; try discriminate. cbn [bind] in E0. destruct (make_merkle_entries _ _ _ _) as [en| | |]; try discriminate. cbn [bind] in E0.
      destruct (root tree) as [rt| | |] eqn:ER; try discriminate. cbn [bind] in E0. injection E0 as <-. cbn [b_info i_type i_root]. split; [right; reflexivity|].
      assert (L : length rt = 32%nat); [|unfold zlen; lia]. refine (new_using_root H blocks tree rt HH _ ET ER).
      apply mapM_length in EM. unfold zlen. rewrite EM. unfold range. rewrite seq_length. specialize (HM HS).
      rewrite Z.quot_div_nonneg by (try lia; destruct (Z.le_gt_cases 0 (s_len f)) as [|L]; auto; exfalso; assert (s_len f / (8 * s_block f) < 0) by (apply Z.div_lt_upper_bound; lia); lia).
      unfold max_records. change (2 ^ 31) with 2147483648 in HM. lia. }
  destruct T as (T & RT). assert (W : forall x, 0 <= u32 x < 2 ^ 32) by (intros x; unfold u32; apply Z.mod_pos_bound; reflexivity).
  split.
  - unfold sendable, database_info. cbv zeta. cbn [di_rows di_cols di_bs di_type di_root di_plen]. repeat (split; [apply W|]).
    destruct T as [T|T]; rewrite T; (split; [apply U; vm_compute; repeat (constructor; [split; discriminate || reflexivity|]); constructor|]).
    + change (zlen (lit "")) with 0. lia.
    + change (zlen (lit "merkle")) with 6. lia.
  - unfold info_of, database_info, advertised. cbv zeta. cbn [di_rows di_cols di_bs di_type di_root di_plen].
    destruct T as [T|T]; rewrite T; reflexivity.
Qed.
