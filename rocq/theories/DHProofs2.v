(** Proofs about the group computations of the DH scheme. *)
From Coq Require Import String ZArith Znumtheory List Bool Lia Arith.
From Verif Require Import GoBase BaseFacts EncodingModel MerkleModel MerkleProofs LWEModel DHModel DHSpec DHProofs.
Import ListNotations.
Open Scope Z_scope.
Open Scope go_scope.

Section Group.
Context (g : group) (G : group_ok g).
Local Notation "x [+] y" := (g_add g x y) (at level 50, left associativity).
Local Notation "a [*] x" := (g_mul g a x) (at level 40, left associativity).
Local Notation e0 := (g_id g).

Lemma add_id_r x : x [+] e0 = x.
Proof using G. rewrite (add_comm g G). apply (add_id g G). Qed.
Lemma add_neg x : x [+] ((-1) [*] x) = e0.
Proof using G. rewrite <- (mul_one g G x) at 1. rewrite <- (mul_plus g G). apply (mul_zero g G). Qed.
Lemma add_cancel x y z : x [+] y = x [+] z -> y = z.
Proof using G.
  intros E. rewrite <- (add_id g G y), <- (add_id g G z), <- (add_neg x), (add_comm g G x).
  rewrite <- !(add_assoc g G). congruence.
Qed.
Lemma mul_id a : a [*] e0 = e0.
Proof using G. rewrite <- (mul_zero g G e0), (mul_mul g G). f_equal. lia. Qed.
Lemma mul_mod a x : (a mod g_order g) [*] x = a [*] x.
Proof using G.
  pose proof (order_prime g G) as P. destruct P as [P _].
  rewrite (Z.div_mod a (g_order g)) at 2 by lia. rewrite (mul_plus g G).
  rewrite Z.mul_comm, <- (mul_mul g G), (mul_order g G), mul_id, (add_id g G). reflexivity.
Qed.
Lemma mul_eq_id k x : x <> e0 -> k [*] x = e0 -> (g_order g | k).
Proof using G.
  intros Hx E. pose proof (order_prime g G) as P.
  destruct (Zdivide_dec (g_order g) k) as [D|D]; auto. exfalso. apply Hx.
  destruct (rel_prime_bezout _ _ (prime_rel_prime _ P k D)) as [u v Huv].
  rewrite <- (mul_one g G x), <- Huv, (mul_plus g G), <- !(mul_mul g G), (mul_order g G), E, !mul_id.
  apply (add_id g G).
Qed.
Lemma mul_inj a b x : x <> e0 -> 0 <= a < g_order g -> 0 <= b < g_order g -> a [*] x = b [*] x -> a = b.
Proof using G.
  intros Hx Ha Hb E. assert (D : (g_order g | a - b)).
  { apply (mul_eq_id (a - b) x); auto. apply (add_cancel (b [*] x)). rewrite <- (mul_plus g G), add_id_r.
    replace (b + (a - b)) with a by lia. auto. }
  destruct D as [k Dk]. assert (k = 0) by nia. nia.
Qed.
Lemma eqb_refl x : g_eqb g x x = true.
Proof using G. apply (eqb_spec g G). auto. Qed.
Lemma eqb_neq x y : x <> y -> g_eqb g x y = false.
Proof using G. intros. destruct (g_eqb g x y) eqn:E; auto. apply (eqb_spec g G) in E. congruence. Qed.

Lemma fold_sum l d : fold_left (g_add g) l d = d [+] group_sum g l.
Proof using G.
  revert d. induction l; intros d; cbn. symmetry; apply add_id_r. rewrite IHl. symmetry. apply (add_assoc g G).
Qed.
Lemma sum_point r t iy l : NoDup l ->
  group_sum g (map (query_point g r t iy) l) =
  (r [*] group_sum g (map (column_point g) l)) [+]
  (if in_dec Nat.eq_dec iy l then t [*] column_point g iy else e0).
Proof using G.
  induction l as [|j l IH]; intros N.
  - cbn. rewrite mul_id. symmetry. apply (add_id g G).
  - inversion N as [|? ? N1 N2]; subst. cbn [map group_sum fold_right].
    change (fold_right (g_add g) e0) with (group_sum g). rewrite IH by auto. rewrite (mul_add g G).
    unfold query_point. destruct (Nat.eqb_spec j iy) as [->|E].
    + destruct (in_dec Nat.eq_dec iy (iy :: l)) as [_|X]; [|exfalso; apply X; left; auto].
      destruct (in_dec Nat.eq_dec iy l) as [X|_]; [tauto|]. rewrite add_id_r, (mul_plus g G).
      rewrite <- !(add_assoc g G). f_equal. apply (add_comm g G).
    + destruct (in_dec Nat.eq_dec iy l) as [X|X]; destruct (in_dec Nat.eq_dec iy (j :: l)) as [Y|Y].
      * apply (add_assoc g G).
      * exfalso. apply Y. right. auto.
      * exfalso. destruct Y; auto.
      * apply (add_assoc g G).
Qed.

Lemma answer_value db r t iy i : (iy < Z.to_nat (e_cols db))%nat ->
  answer_point g db r t iy i =
  (r [*] row_digest g (e_entries db) (Z.to_nat (e_cols db)) i) [+]
  (if bit_at (e_entries db) (Z.to_nat (e_cols db)) i iy =? 1 then t [*] column_point g iy else e0).
Proof using G.
  intros Hy. unfold answer_point, row_digest, row_sum. rewrite sum_point by (apply NoDup_filter, seq_NoDup).
  f_equal. destruct (in_dec _ _ _) as [I|I].
  - apply filter_In in I. destruct I as [_ ->]. reflexivity.
  - destruct (_ =? 1) eqn:E; auto. exfalso. apply I. apply filter_In. split; auto. apply in_seq. lia.
Qed.

(** *** Encoding *)
Lemma full_nonid x : x <> e0 -> full g x.
Proof using G. apply (enc_size g G). Qed.
Lemma enc_len es : Forall (full g) es -> zlen (concat (map (g_enc g) es)) = zlen es * g_size g.
Proof using G.
  induction 1 as [|x es Hx _ IH]; cbn; auto. rewrite zlen_app, IH, Hx. unfold zlen. cbn [length]. lia.
Qed.
Lemma unmarshal_loop_marshal es : Forall (full g) es -> forall fuel, (length (concat (map (g_enc g) es)) <= fuel)%nat ->
  unmarshal_loop g fuel (concat (map (g_enc g) es)) = Ok es.
Proof using G.
  pose proof (size_pos g G) as Sp.
  induction 1 as [|x es Hx _ IH]; intros fuel Hf.
  - destruct fuel; reflexivity.
  - cbn [map concat] in *. unfold full in Hx.
    assert (Hl : length (g_enc g x) = Z.to_nat (g_size g)) by (unfold zlen in Hx; lia).
    rewrite app_length in Hf. destruct fuel; [lia|].
    cbn [unmarshal_loop]. destruct (g_enc g x ++ concat (map (g_enc g) es)) eqn:E.
    { apply (f_equal (@length Z)) in E. rewrite app_length in E. cbn in E. lia. }
    rewrite <- E. rewrite go_slice_prefix by lia. cbn [bind]. rewrite (dec_enc g G).
    rewrite skipn_app_exact by lia. rewrite IH by lia. reflexivity.
Qed.
Lemma unmarshal_marshal es : Forall (full g) es ->
  unmarshal_group_elements g (marshal_group_elements g es) = Ok es.
Proof using G.
  intros F. unfold unmarshal_group_elements. pose proof (size_pos g G).
  destruct (Z.eqb_spec (g_size g) 0); [lia|]. apply unmarshal_loop_marshal; auto.
Qed.
Lemma sub_slice es i d : Forall (full g) es -> (i < length es)%nat ->
  go_slice (concat (map (g_enc g) es)) (Z.of_nat i * g_size g) ((Z.of_nat i + 1) * g_size g) =
  Ok (g_enc g (nth i es d)).
Proof using G.
  intros F Hi. pose proof (size_pos g G).
  destruct (nth_split es d Hi) as (a & b & Eab & La).
  set (x := nth i es d) in *. clearbody x. subst es.
  apply Forall_app in F. destruct F as [Fa Fb]. inversion Fb as [|? ? Fx Fb']; subst.
  rewrite map_app, concat_app. cbn [map concat]. apply go_slice_mid.
  - rewrite enc_len by auto. reflexivity.
  - rewrite enc_len by auto. rewrite Fx. unfold zlen. lia.
Qed.
End Group.

(** *** Tables *)
Lemma bit_pos cols i j : (i * cols + j)%nat = (Z.to_nat (Z.of_nat i * Z.of_nat cols) + j)%nat.
Proof. lia. Qed.

Lemma row_product_row g data cols rows i elt pts : group_ok g ->
  length data = (rows * cols)%nat -> (i < rows)%nat ->
  (forall j, (j < cols)%nat -> elt (Z.of_nat j) = Ok (pts j)) ->
  row_product g data (Z.of_nat i * Z.of_nat cols) elt 0 cols (g_id g) = Ok (row_sum g data cols pts i).
Proof.
  intros G L Hi He. change 0 with (Z.of_nat 0) at 1.
  rewrite row_product_value with (cols := cols) (pts := pts); auto; try lia.
  - rewrite (fold_sum g G), (add_id g G). unfold row_sum, bit_at. do 3 f_equal.
    apply filter_ext. intros j. rewrite bit_pos. reflexivity.
  - intros j Hj. rewrite <- bit_pos. apply nth_error_nth'. nia.
Qed.

Lemma compute_digests_value g data cols rows b e : group_ok g ->
  length data = (rows * cols)%nat -> 0 <= b <= e -> e <= Z.of_nat rows ->
  compute_digests g data (Z.of_nat cols) (b, e) =
  Ok (concat (map (fun i => g_enc g (row_digest g data cols (Z.to_nat i))) (between b e))).
Proof.
  intros G L Hb He. unfold compute_digests.
  destruct (Z.ltb_spec ((e - b) * blake_size) 0). { unfold blake_size in *. lia. }
  rewrite (mapM_ok _ (fun i => g_enc g (row_digest g data cols (Z.to_nat i)))). reflexivity.
  intros i Hi. unfold between in Hi. apply in_map_iff in Hi. destruct Hi as (k & <- & Hk).
  unfold range in Hk. apply in_seq in Hk. rewrite Nat2Z.id.
  replace (b + Z.of_nat k) with (Z.of_nat (Z.to_nat b + k)) by lia.
  rewrite (row_product_row g data cols rows _ _ (column_point g)) by (auto; lia).
  cbn [bind]. rewrite Nat2Z.id. reflexivity.
Qed.

Lemma compute_digests_overshoot g data cols b e : e < b ->
  compute_digests g data cols (b, e) = Panic "makeslice: cap out of range".
Proof. intros. unfold compute_digests. destruct (Z.ltb_spec ((e - b) * blake_size) 0); auto. unfold blake_size in *. lia. Qed.

Lemma between_nat rows : between 0 (Z.of_nat rows) = map Z.of_nat (seq 0 rows).
Proof. unfold between. rewrite Z.sub_0_r, Nat2Z.id. apply map_ext. intros. lia. Qed.

Definition row_digests g data cols rows : list Z :=
  concat (map (fun i => g_enc g (row_digest g data cols i)) (seq 0 rows)).

Lemma digest_work_value g data cols rows n : group_ok g ->
  length data = (rows * cols)%nat -> 0 < n -> ~ overshoots (Z.of_nat rows) n ->
  (forall x, In x (digest_work g data (Z.of_nat rows) (Z.of_nat cols) n) -> is_ok x = true) /\
  concat (map okv (digest_work g data (Z.of_nat rows) (Z.of_nat cols) n)) = row_digests g data cols rows.
Proof.
  intros G L Hn Ho. set (f := fun i => g_enc g (row_digest g data cols (Z.to_nat i))).
  assert (V : digest_work g data (Z.of_nat rows) (Z.of_nat cols) n =
    map (fun i => Ok (concat (map f (let '(b, e) := worker_rows (Z.of_nat rows) n (Z.of_nat i) in between b e))))
        (range (Z.to_nat n))).
  { unfold digest_work. apply map_ext_in. intros i Hi. unfold range in Hi. apply in_seq in Hi.
    unfold worker_rows. apply compute_digests_value with (rows := rows); auto; try lia.
    pose proof (ceil_div_spec (Z.of_nat rows) n Hn). split. nia.
    apply Z.min_glb. nia.
    destruct (Z_le_gt_dec (Z.of_nat i * ceil_div (Z.of_nat rows) n) (Z.of_nat rows)); auto. exfalso. apply Ho.
    apply overshoots_iff; auto. exists (Z.of_nat i). lia. }
  rewrite V. split.
  - intros x Hx. apply in_map_iff in Hx. destruct Hx as (i & <- & _). reflexivity.
  - rewrite map_map. cbn [okv].
    rewrite <- (map_map (fun i => let '(b, e) := worker_rows (Z.of_nat rows) n (Z.of_nat i) in between b e)
                  (fun l => concat (map f l))).
    assert (C : forall ls, concat (map (fun l => concat (map f l)) ls) = concat (map f (concat ls))).
    { induction ls; cbn; auto. rewrite map_app, concat_app, IHls. reflexivity. }
    rewrite C, workers_cover_all by (auto; lia). rewrite between_nat, map_map.
    unfold row_digests. f_equal. apply map_ext. intros. unfold f. rewrite Nat2Z.id. reflexivity.
Qed.

Lemma digests_parallel g data cols rows n sched : group_ok g ->
  length data = (rows * cols)%nat -> 0 < n -> ~ overshoots (Z.of_nat rows) n ->
  let work := digest_work g data (Z.of_nat rows) (Z.of_nat cols) n in
  (forall r, par_result work sched = Some r -> r = Ok (row_digests g data cols rows)) /\
  (exists more, par_result work (sched ++ more) = Some (Ok (row_digests g data cols rows))).
Proof.
  intros G L Hn Ho work. destruct (digest_work_value g data cols rows n G L Hn Ho) as [Hok V]. fold work in Hok, V.
  assert (A : forall s r, par_result work s = Some r -> r = Ok (row_digests g data cols rows)).
  { intros s r E. apply par_result_value in E. destruct E as [[I E]|[-> _]].
    - apply Hok in I. congruence.
    - rewrite V. reflexivity. }
  split. apply A. destruct (par_progress work sched) as (more & r & E). exists more. rewrite E. f_equal. eapply A; eauto.
Qed.

Lemma digests_overshoot g data cols rows n sched : group_ok g ->
  length data = (rows * cols)%nat -> 0 < n -> overshoots (Z.of_nat rows) n ->
  let work := digest_work g data (Z.of_nat rows) (Z.of_nat cols) n in
  (forall r, par_result work sched = Some r -> is_panic r = true) /\
  (exists more r, par_result work (sched ++ more) = Some r).
Proof.
  intros G L Hn Ho work. split; [|apply par_progress].
  intros r E. pose proof (proj1 (overshoots_iff _ _ Hn) Ho) as (i & Hi & Hb). clear Ho.
  pose proof (ceil_div_spec (Z.of_nat rows) n Hn) as Hc.
  apply par_result_value in E. destruct E as [[I E]|[-> A]].
  - unfold work, digest_work in I. apply in_map_iff in I. destruct I as (j & Ej & Hj).
    unfold range in Hj. apply in_seq in Hj. unfold worker_rows in Ej.
    destruct (Z_le_gt_dec (Z.of_nat j * ceil_div (Z.of_nat rows) n) (Z.of_nat rows)) as [X|X].
    + rewrite compute_digests_value with (rows := rows) in Ej; auto; try lia.
      * subst. discriminate.
      * split. nia. apply Z.min_glb; auto. nia.
    + rewrite compute_digests_overshoot in Ej. subst; auto. lia.
  - exfalso. assert (X : In (Panic "makeslice: cap out of range") work).
    { unfold work, digest_work. apply in_map_iff. exists (Z.to_nat i). split.
      - unfold worker_rows. rewrite Z2Nat.id by lia. apply compute_digests_overshoot. lia.
      - unfold range. apply in_seq. lia. }
    apply A in X. discriminate.
Qed.

Lemma many_rows_fit rows n : 0 < n -> (n - 1) * (n - 1) <= rows -> ~ overshoots rows n.
Proof.
  intros Hn Hr (k & i & Hk & Hi & Ho).
  destruct (Z_le_gt_dec (n - 1) k).
  - assert (i * k <= (n - 1) * k) by nia. nia.
  - assert (i * k <= (n - 1) * (n - 2)) by nia. nia.
Qed.

Lemma one_row_overshoots n : 3 <= n -> overshoots 1 n.
Proof. intros. exists 1, 2. lia. Qed.
