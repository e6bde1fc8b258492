(** Clients and servers started with different schemes, and requests built from flags. *)
From Coq Require Import String ZArith List Bool Lia Permutation.
From Verif Require Import GoBase BaseFacts FieldModel FSSModel EncodingModel MerkleModel MerkleSpec MerkleProofs PredicateModel PredicateSpec
  EncodingProofs FSSProofs PredicateProofs PredicateProofs2 PredicateProofs3 PredicateProofs4 FrontendModel FrontendSpec FrontendProofs.
Import ListNotations.
Open Scope Z_scope.
Open Scope go_scope.

Definition okp {A} (x : res A) : Prop := (exists a, x = Ok a) \/ is_panic x = true.

Lemma okp_bind {A B} (x : res A) (f : A -> res B) : okp x -> (forall a, x = Ok a -> okp (f a)) -> okp (bind x f).
Proof. intros [[a ->]|P] F; cbn [bind]; auto. destruct x; try discriminate. right. auto. Qed.
Lemma okp_ok {A} (a : A) : okp (Ok a). Proof. left. eauto. Qed.

Lemma okp_prf enc x n : okp (prf enc x n).
Proof. unfold prf. destruct (4 <? n)%nat; [right; auto|left; eauto]. Qed.

Lemma okp_slice {A} (l : list A) i j : okp (go_slice l i j).
Proof. unfold go_slice. destruct (_ && _); [left; eauto|right; auto]. Qed.

Lemma okp_mapM {A B} (f : A -> res B) l : (forall a, okp (f a)) -> okp (mapM f l).
Proof.
  intros F. induction l as [|a l IH]; cbn [mapM]. { apply okp_ok. }
  apply okp_bind; [apply F|]. intros b _. apply okp_bind; [apply IH|]. intros t _. apply okp_ok.
Qed.

Lemma mapM_length {A B} (f : A -> res B) : forall l out, mapM f l = Ok out -> length out = length l.
Proof.
  induction l as [|a l IH]; intros out E; cbn [mapM] in E; [injection E as <-; auto|].
  destruct (f a); try discriminate. cbn [bind] in E. destruct (mapM f l) as [t| | |]; try discriminate. cbn [bind] in E.
  injection E as <-. cbn [length]. rewrite (IH t); auto.
Qed.

Lemma okp_convert enc bl fresh x n : okp (convert_block enc bl fresh x n).
Proof.
  unfold convert_block. apply okp_bind; [apply okp_prf|]. intros p _. unfold bytes_to_elements. apply okp_mapM. intros i.
  apply okp_bind; [apply okp_slice|]. intros b _. apply okp_ok.
Qed.

Lemma convert_length enc bl fresh x n c : convert_block enc bl fresh x n = Ok c -> length c = n.
Proof.
  unfold convert_block. destruct (prf enc x (n / 4)); try discriminate. cbn [bind]. unfold bytes_to_elements. intros E.
  apply mapM_length in E. rewrite E. unfold range. apply seq_length.
Qed.

Lemma okp_eval_loop enc : forall x i cws s t, okp (eval_loop enc i x cws s t).
Proof.
  induction x as [|xb x IH]; intros i cws s t; cbn [eval_loop]. { apply okp_ok. }
  destruct cws as [|cw cws]; [right; auto|]. apply okp_bind.
  - unfold eval_step. apply okp_bind; [apply okp_prf|]. intros o _. destruct (length cw <? 18)%nat; [right; auto|].
    destruct (if (i =? 256)%nat then false else xb); apply okp_ok.
  - intros st _. apply IH.
Qed.

Lemma eval_outs_short sn t : forall tmp cws, (length cws < length tmp)%nat -> is_panic (eval_outs sn t tmp cws) = true.
Proof.
  induction tmp as [|x tmp IH]; intros cws L; [cbn in L; lia|]. destruct cws as [|c cws]; cbn [eval_outs]; auto.
  cbn [length] in L. specialize (IH cws ltac:(lia)). destruct (eval_outs sn t tmp cws); cbn [is_panic bind] in *; congruence.
Qed.

Lemma evaluate_short_payload enc bl fresh sn k x n :
  (length (k_finalcw k) < n)%nat -> is_panic (evaluate_pf enc bl fresh sn k x n) = true.
Proof.
  intros L. unfold evaluate_pf. destruct (okp_eval_loop enc x 0%nat (k_cw k) (go_copy (repeat 0 16) (k_sinit k)) (k_tinit k)) as [[[s t] ->]|P].
  2: { destruct (eval_loop _ _ _ _ _ _); cbn [is_panic bind] in *; congruence. }
  cbn [bind]. destruct (okp_convert enc bl fresh s n) as [[c E]|P].
  2: { destruct (convert_block _ _ _ _ _); cbn [is_panic bind] in *; congruence. }
  rewrite E. cbn [bind]. apply convert_length in E.
  pose proof (eval_outs_short sn t (map fst c) (k_finalcw k) ltac:(rewrite map_length; lia)) as P.
  destruct (eval_outs _ _ _ _); cbn [is_panic bind] in *; congruence.
Qed.

(** a counting request over the algorithm, with keys for fewer elements than the server evaluates *)
Lemma algo_short_payload enc H n sn db now fresh name k :
  db <> [] -> (length (k_finalcw k) < n)%nat ->
  is_panic (answer enc H n sn db (length db) now fresh (Some (request_info (ByAlgo name))) k) = true.
Proof.
  intros ND L. unfold answer. cbn. apply records_loop_panic. exists 0%nat. split; [destruct db; [congruence|cbn; lia]|]. split.
  - intros i st Hi. lia.
  - intros st ki _. unfold count_body. cbn [bind]. pose proof (evaluate_short_payload enc n (fresh 0%nat) sn k (id_for_algo (ki_algo ki)) n L) as P.
    destruct (evaluate_pf _ _ _ _ _ _ _); cbn [is_panic bind] in *; congruence.
Qed.

Lemma final_cws_length t1 : forall b t0 t1', (length b <= length t0)%nat -> (length b <= length t1')%nat -> length (final_cws t1 b t0 t1') = length b.
Proof. induction b as [|x b IH]; intros [|y t0] [|z t1'] A B; cbn in *; auto; try lia. rewrite IH; auto; lia. Qed.

Lemma generate_payload_length enc bl a b r k0 k1 fg : generate_tree_pf enc bl a b r = Ok (k0, k1, fg) ->
  length (k_finalcw k0) = length b /\ length (k_finalcw k1) = length b.
Proof.
  unfold generate_tree_pf. destruct (gen_loop _ _ _ _ _ _) as [[cws [[[s0 s1] t0] t1]]| | |]; try discriminate. cbn [bind].
  destruct (convert_block enc bl (r_fresh0 r) s0 (length b)) as [c0| | |] eqn:E0; try discriminate. cbn [bind].
  destruct (convert_block enc bl (r_fresh1 r) s1 (length b)) as [c1| | |] eqn:E1; try discriminate. cbn [bind].
  apply convert_length in E0. apply convert_length in E1. intros E. injection E as <- <- <-. cbn [k_finalcw].
  split; apply final_cws_length; rewrite map_length; lia.
Qed.

Lemma count_checks_len alphas a0 a1 data : forall n i, 0 <= i -> count_checks alphas a0 a1 data i n = Ok tt ->
  n = 0%nat \/ (i + Z.of_nat n < zlen a0 /\ i + Z.of_nat n < zlen a1).
Proof.
  assert (GI : forall (l : list Z) j v, go_index l j = Ok v -> j < zlen l).
  { intros l j v E. destruct (Z.lt_ge_cases j (zlen l)) as [X|X]; auto. rewrite go_index_panic in E by lia. discriminate. }
  induction n as [|n IH]; intros i P E; auto. right. cbn [count_checks] in E.
  destruct (go_index alphas i); try discriminate. cbn [bind] in E.
  destruct (go_index a0 (i + 1)) eqn:E0; try discriminate. cbn [bind] in E.
  destruct (go_index a1 (i + 1)) eqn:E1; try discriminate. cbn [bind] in E.
  apply GI in E0. apply GI in E1. destruct (negb _); try discriminate.
  destruct (IH (i + 1) ltac:(lia) E) as [->|[A B]]; cbn [Z.of_nat]; lia.
Qed.

(** answers shorter than the client expects are never accepted *)
Lemma short_answer_not_accepted e alphas a0 a1 v :
  (length a0 < e)%nat -> reconstruct e alphas [a0; a1] <> Ok v.
Proof.
  intros L E. unfold reconstruct in E. change (go_index [a0; a1] 0) with (@Ok (list Z) a0) in E. cbn [bind] in E.
  destruct (Z.eqb_spec (zlen a0) (2 * Z.of_nat e)) as [X|X]. { unfold zlen in X. lia. }
  destruct (go_index a0 0) as [z| | |] eqn:E0; try discriminate. cbn [bind] in E. change (go_index [a0; a1] 1) with (@Ok (list Z) a1) in E. cbn [bind] in E.
  destruct (go_index a1 0) as [z0| | |]; try discriminate. cbn [bind] in E.
  destruct (count_checks alphas a0 a1 (u32 (z + z0) mod ModP) 0 (e - 1)) as [[]| | |] eqn:C; try discriminate.
  apply count_checks_len in C; [|lia]. unfold zlen in *. destruct C as [C|[C _]]; [|lia].
  assert (length a0 = 0%nat) by lia. destruct a0; discriminate.
Qed.

Lemma query_payload_length enc e alphas r inp k0 k1 fg : client_query enc e alphas r inp 2 = Ok (k0, k1, fg) ->
  length (k_finalcw k0) = S (length alphas) /\ length (k_finalcw k1) = S (length alphas).
Proof. unfold client_query. cbn [Z.eqb negb Pos.eqb]. intros EQ. exact (generate_payload_length _ _ _ _ _ _ _ _ EQ). Qed.
