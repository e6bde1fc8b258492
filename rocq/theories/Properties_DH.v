(** Property theorems: the single-server Diffie-Hellman scheme (C50-C52). *)
From Coq Require Import String ZArith Znumtheory List Bool Lia Arith.
From Verif Require Import GoBase BaseFacts EncodingModel MerkleModel LWEModel LWEProofs4 DHModel DHSpec DHProofs DHProofs2
  DHProofs3 ToyInstances ToyGroup.
Import ListNotations.
Open Scope Z_scope.

(** ** C50: decoding *)

(** With an encoding of fixed length, an honest run returns the stored bit for every first scalar and
    every second scalar that does not annihilate the wanted column's point. *)
Theorem C50_honest_run :
  forall g H db r t index,
  group_ok g -> fixed_length g -> table_ok g H db ->
  0 <= index < e_rows db * e_cols db ->
  g_mul g t (column_point g (Z.to_nat (index mod e_cols db))) <> g_id g ->
  dh_session g H db (dh_answer g db) r t index = Ok (nth (Z.to_nat index) (e_entries db) 0).
Proof.
  intros g H db r t index G F T Hi Ht.
  apply (dh_correct_full g H db G T r t index (Z.to_nat (index / e_cols db)) (Z.to_nat (index mod e_cols db))).
  - repeat split; tauto.
  - intros; apply F.
  - intros; apply F.
  - intros; apply F.
  - auto.
Qed.
Print Assumptions C50_honest_run.

Definition toy_table (short : bool) (data : list Z) (cols rows : nat) : elliptic :=
  let sub := row_digests (toy_group short) data cols rows in
  mkEl data (Z.of_nat cols) (Z.of_nat rows) (toy_hash sub) sub.
Lemma toy_table_ok short data cols rows : (0 < cols)%nat -> length data = (rows * cols)%nat ->
  Forall (fun b => b = 0 \/ b = 1) data -> table_ok (toy_group short) toy_hash (toy_table short data cols rows).
Proof.
  intros Hc L F. constructor; cbn [toy_table e_cols e_rows e_entries e_sub e_digest]; auto; try lia.
  - unfold zlen. rewrite L. lia.
  - rewrite !Nat2Z.id. reflexivity.
Qed.
Definition bits4 : list Z := [1; 0; 1; 1].
Lemma bits4_ok : Forall (fun b => b = 0 \/ b = 1) bits4.
Proof. repeat (apply Forall_cons; [lia|]). constructor. Qed.
Example C50_honest_run_example :
  let db := toy_table false bits4 2 2 in
  group_ok (toy_group false) /\ fixed_length (toy_group false) /\ table_ok (toy_group false) toy_hash db /\
  0 <= 2 < e_rows db * e_cols db /\
  g_mul (toy_group false) 4 (column_point (toy_group false) (Z.to_nat (2 mod e_cols db))) <> g_id (toy_group false) /\
  dh_session (toy_group false) toy_hash db (dh_answer (toy_group false) db) 3 4 2 = Ok 1 /\
  dh_session (toy_group false) toy_hash db (dh_answer (toy_group false) db) 3 4 1 = Ok 0.
Proof.
  split; [apply toy_group_ok|]. split; [apply toy_group_fixed|].
  split; [apply toy_table_ok; [lia|reflexivity|apply bits4_ok]|].
  split; [cbn; lia|]. split; [|split; vm_compute; reflexivity].
  intros E. apply (f_equal v11) in E. vm_compute in E. discriminate.
Qed.

(** With any encoding (the identity may be shorter): if no column point and no row digest is the
    identity, then for every non-zero first scalar at most two more second scalars than there are
    rows fail. *)
Theorem C50_few_scalars_fail :
  forall g H db r index failing,
  group_ok g -> table_ok g H db -> 0 <= index < e_rows db * e_cols db ->
  (forall j, (j < Z.to_nat (e_cols db))%nat -> column_point g j <> g_id g) ->
  (forall i, (i < Z.to_nat (e_rows db))%nat -> row_digest g (e_entries db) (Z.to_nat (e_cols db)) i <> g_id g) ->
  0 < r < g_order g ->
  NoDup failing ->
  (forall t, In t failing -> 0 <= t < g_order g /\
     dh_session g H db (dh_answer g db) r t index <> Ok (nth (Z.to_nat index) (e_entries db) 0)) ->
  zlen failing <= e_rows db + 2.
Proof.
  intros g H db r index l G T Hi P D Hr N Hl. pose proof (rows_nonneg g H db T).
  assert (length l <= Z.to_nat (e_rows db) + 2)%nat; [|unfold zlen; lia].
  apply (dh_few_failures g H db G T r index (Z.to_nat (index / e_cols db)) (Z.to_nat (index mod e_cols db))); auto.
  repeat split; tauto.
Qed.
Print Assumptions C50_few_scalars_fail.

Example C50_few_scalars_fail_example :
  let g := toy_group true in
  let db := toy_table true bits4 2 2 in
  group_ok g /\ table_ok g toy_hash db /\ 0 <= 2 < e_rows db * e_cols db /\
  (forall j, (j < Z.to_nat (e_cols db))%nat -> column_point g j <> g_id g) /\
  (forall i, (i < Z.to_nat (e_rows db))%nat -> row_digest g (e_entries db) (Z.to_nat (e_cols db)) i <> g_id g) /\
  0 < 3 < g_order g /\ NoDup [0; 8] /\
  (forall t, In t [0; 8] -> 0 <= t < g_order g /\ dh_session g toy_hash db (dh_answer g db) 3 t 2 <> Ok 1) /\
  dh_session g toy_hash db (dh_answer g db) 3 4 2 = Ok 1.
Proof.
  cbv zeta. split; [apply toy_group_ok|].
  split; [apply toy_table_ok; [lia|reflexivity|apply bits4_ok]|].
  split; [cbn; lia|]. split.
  { intros j Hj E. apply (f_equal v11) in E. destruct j as [|[|j]]; [| |cbn in Hj; lia]; vm_compute in E; discriminate. }
  split.
  { intros j Hj E. apply (f_equal v11) in E. destruct j as [|[|j]]; [| |cbn in Hj; lia]; vm_compute in E; discriminate. }
  split; [cbn; lia|]. split.
  { repeat constructor; cbn; lia. }
  split; [|vm_compute; reflexivity].
  intros t [<-|[<-|[]]]; (split; [cbn; lia|]); vm_compute; discriminate.
Qed.

(** The full expectation fails: if the identity has a shorter encoding and some row is all zero (its
    digest is the identity), no answer of any server to any query is ever accepted. *)
Theorem C50_zero_row_refuted :
  forall g H db r t index server b,
  group_ok g -> short_identity g -> table_ok g H db -> 0 <= index < e_rows db * e_cols db ->
  (exists i, (i < Z.to_nat (e_rows db))%nat /\
     forall j, (j < Z.to_nat (e_cols db))%nat -> bit_at (e_entries db) (Z.to_nat (e_cols db)) i j = 0) ->
  dh_session g H db server r t index <> Ok b.
Proof.
  intros g H db r t index server b G Sh T Hi (i & Bi & Zi).
  apply (zero_row_never g H db G T r t index (Z.to_nat (index / e_cols db)) (Z.to_nat (index mod e_cols db))); auto.
  - repeat split; tauto.
  - exists i. split; auto. apply zero_row_digest. auto.
Qed.
Print Assumptions C50_zero_row_refuted.

Example C50_zero_row_refuted_example :
  let g := toy_group true in
  let db := toy_table true [1; 0; 0; 0] 2 2 in
  group_ok g /\ short_identity g /\ table_ok g toy_hash db /\ 0 <= 0 < e_rows db * e_cols db /\
  (exists i, (i < Z.to_nat (e_rows db))%nat /\
     forall j, (j < Z.to_nat (e_cols db))%nat -> bit_at (e_entries db) (Z.to_nat (e_cols db)) i j = 0) /\
  is_panic (dh_session g toy_hash db (dh_answer g db) 3 4 0) = true.
Proof.
  cbv zeta. split; [apply toy_group_ok|]. split; [apply toy_group_short|].
  split; [apply toy_table_ok; [lia|reflexivity|repeat (apply Forall_cons; [lia|]); constructor]|].
  split; [cbn; lia|]. split; [|vm_compute; reflexivity].
  exists 1%nat. split; [cbn; lia|]. intros j Hj. destruct j as [|[|j]]; [reflexivity|reflexivity|cbn in Hj; lia].
Qed.

(** A database made by the library's generator is such a table. *)
Theorem C50_generated_table :
  forall g H ncpu rnd sched dbLen rebalanced db,
  group_ok g -> (forall n, length (rnd n) = n) -> 0 < dbLen -> 0 < ncpu ->
  create_random_elliptic g H ncpu rnd sched dbLen rebalanced = Some (Ok db) ->
  table_ok g H db /\ dbLen <= e_rows db * e_cols db.
Proof.
  intros g H ncpu rnd sched dbLen rebalanced db G R Hd Hc E.
  destruct (create_good g H ncpu rnd dbLen rebalanced G R Hd Hc sched db E) as (T & Er & Ec). split; auto.
  rewrite Er, Ec. destruct rebalanced.
  - pose proof (square_layout dbLen ltac:(lia)) as S. destruct (calculate_num_rows_and_columns dbLen true). cbn. tauto.
  - cbn. lia.
Qed.
Print Assumptions C50_generated_table.

Definition all_done (n : nat) : list par_event := map Work (rev (seq 0 n)) ++ repeat Collect n.
Example C50_generated_table_example :
  (forall n, length (repeat 7 n) = n) /\
  exists db, create_random_elliptic (toy_group false) toy_hash 4 (repeat 7) (all_done 8) 49 true = Some (Ok db) /\
             e_rows db = 7 /\ e_cols db = 7 /\ e_entries db = repeat 1 49.
Proof.
  split; [intros; apply repeat_length|]. eexists.
  split; [vm_compute; reflexivity|]. split; [reflexivity|]. split; reflexivity.
Qed.

(** ** C51: cheating *)

(** Whoever makes the client accept a wrong bit can, from what was sent to it and what it replied,
    compute r times the wanted column's point, which the client never sends: it solves a
    Diffie-Hellman problem. *)
Theorem C51_cheating_solves_diffie_hellman :
  forall g H db r t index server b,
  group_ok g -> table_ok g H db -> 0 <= index < e_rows db * e_cols db ->
  (forall i, (i < Z.to_nat (e_rows db))%nat -> full g (row_digest g (e_entries db) (Z.to_nat (e_cols db)) i)) ->
  dh_session g H db server r t index = Ok b ->
  b <> nth (Z.to_nat index) (e_entries db) 0 ->
  let ix := Z.to_nat (index / e_cols db) in
  let iy := Z.to_nat (index mod e_cols db) in
  exists answer reply,
    server (marshal_group_elements g (map (query_point g r t iy) (seq 0 (Z.to_nat (e_cols db))))) = Ok answer /\
    unmarshal_group_elements g answer = Ok reply /\
    unblind g db (query_point g r t iy) reply ix iy = g_mul g r (column_point g iy).
Proof.
  intros g H db r t index server b G T Hi F E N ix iy.
  apply (dh_cheat g H db G T r t index ix iy server b); auto. repeat split; tauto.
Qed.
Print Assumptions C51_cheating_solves_diffie_hellman.

Example C51_cheating_example :
  let g := toy_group true in
  let db := toy_table true bits4 2 2 in
  group_ok g /\ table_ok g toy_hash db /\ 0 <= 1 < e_rows db * e_cols db /\
  (forall i, (i < Z.to_nat (e_rows db))%nat -> full g (row_digest g (e_entries db) (Z.to_nat (e_cols db)) i)) /\
  dh_session g toy_hash db (fun _ => Ok [2; 10; 2; 3]) 2 4 1 = Ok 1 /\ nth (Z.to_nat 1) (e_entries db) 0 = 0.
Proof.
  cbv zeta. split; [apply toy_group_ok|].
  split; [apply toy_table_ok; [lia|reflexivity|apply bits4_ok]|].
  split; [cbn; lia|]. split; [|split; vm_compute; reflexivity].
  intros j Hj. destruct j as [|[|j]]; [reflexivity|reflexivity|cbn in Hj; lia].
Qed.

(** For a fixed answer: the client accepts a wrong 1 for at most one second scalar, and a wrong 0 for
    at most one first scalar. *)
Theorem C51_at_most_one_scalar :
  forall g H db index answer,
  group_ok g -> table_ok g H db -> 0 <= index < e_rows db * e_cols db ->
  column_point g (Z.to_nat (index mod e_cols db)) <> g_id g ->
  (forall i, (i < Z.to_nat (e_rows db))%nat -> full g (row_digest g (e_entries db) (Z.to_nat (e_cols db)) i)) ->
  row_digest g (e_entries db) (Z.to_nat (e_cols db)) (Z.to_nat (index / e_cols db)) <> g_id g ->
  (forall r t1 t2, 0 <= t1 < g_order g -> 0 <= t2 < g_order g ->
     dh_session g H db (fun _ => Ok answer) r t1 index = Ok 1 ->
     dh_session g H db (fun _ => Ok answer) r t2 index = Ok 1 -> t1 = t2) /\
  (forall t r1 r2, 0 <= r1 < g_order g -> 0 <= r2 < g_order g ->
     dh_session g H db (fun _ => Ok answer) r1 t index = Ok 0 ->
     dh_session g H db (fun _ => Ok answer) r2 t index = Ok 0 -> r1 = r2).
Proof.
  intros g H db index a G T Hi P F D. split; intros.
  - apply (dh_count_one g H db G T index (Z.to_nat (index / e_cols db)) (Z.to_nat (index mod e_cols db)) a r); auto.
    repeat split; tauto.
  - apply (dh_count_zero g H db G T index (Z.to_nat (index / e_cols db)) (Z.to_nat (index mod e_cols db)) a t); auto.
    repeat split; tauto.
Qed.
Print Assumptions C51_at_most_one_scalar.

Example C51_at_most_one_scalar_example :
  let g := toy_group true in
  let db := toy_table true bits4 2 2 in
  group_ok g /\ table_ok g toy_hash db /\ 0 <= 1 < e_rows db * e_cols db /\
  column_point g (Z.to_nat (1 mod e_cols db)) <> g_id g /\
  (forall i, (i < Z.to_nat (e_rows db))%nat -> full g (row_digest g (e_entries db) (Z.to_nat (e_cols db)) i)) /\
  row_digest g (e_entries db) (Z.to_nat (e_cols db)) (Z.to_nat (1 / e_cols db)) <> g_id g /\
  dh_session g toy_hash db (fun _ => Ok [2; 10; 2; 3]) 2 4 1 = Ok 1 /\
  dh_session g toy_hash db (fun _ => Ok [2; 10; 2; 3]) 2 5 1 = Err "reject".
Proof.
  cbv zeta. split; [apply toy_group_ok|].
  split; [apply toy_table_ok; [lia|reflexivity|apply bits4_ok]|].
  split; [cbn; lia|]. split. { intros E. apply (f_equal v11) in E. vm_compute in E. discriminate. }
  split. { intros j Hj. destruct j as [|[|j]]; [reflexivity|reflexivity|cbn in Hj; lia]. }
  split. { intros E. apply (f_equal v11) in E. vm_compute in E. discriminate. }
  split; vm_compute; reflexivity.
Qed.

(** ** C52: the digests of the rows *)

(** For every number of rows and workers such that no worker starts beyond the last row, and every
    schedule: a run that ends gives one digest per row in row order, and every run can be brought to
    its end. *)
Theorem C52_digests_in_row_order_partial :
  forall g data rows cols n sched,
  group_ok g -> length data = (rows * cols)%nat -> 0 < n -> ~ overshoots (Z.of_nat rows) n ->
  let work := digest_work g data (Z.of_nat rows) (Z.of_nat cols) n in
  let expected := concat (map (fun i => g_enc g (row_digest g data cols i)) (seq 0 rows)) in
  (forall r, par_result work sched = Some r -> r = Ok expected) /\
  (exists more, par_result work (sched ++ more) = Some (Ok expected)).
Proof. intros g data rows cols. exact (digests_parallel g data cols rows). Qed.
Print Assumptions C52_digests_in_row_order_partial.

Example C52_digests_in_row_order_example :
  ~ overshoots (Z.of_nat 2) 2 /\
  par_result (digest_work (toy_group true) bits4 (Z.of_nat 2) (Z.of_nat 2) 2)
             [Work 1; Collect; Work 0; Collect; Collect] = Some (Ok [2; 1; 2; 3]).
Proof.
  split; [|vm_compute; reflexivity]. apply many_rows_fit; lia.
Qed.

(** Otherwise every run that ends, ends in a panic. *)
Theorem C52_overshoot_refuted :
  forall g data rows cols n sched,
  group_ok g -> length data = (rows * cols)%nat -> 0 < n -> overshoots (Z.of_nat rows) n ->
  let work := digest_work g data (Z.of_nat rows) (Z.of_nat cols) n in
  (forall r, par_result work sched = Some r -> is_panic r = true) /\
  (exists more r, par_result work (sched ++ more) = Some r).
Proof. intros g data rows cols. exact (digests_overshoot g data cols rows). Qed.
Print Assumptions C52_overshoot_refuted.

Example C52_overshoot_example :
  overshoots (Z.of_nat 9) 8 /\
  par_result (digest_work (toy_group true) (repeat 1 9) (Z.of_nat 9) (Z.of_nat 1) 8) [Work 0; Work 5] =
  Some (Panic "makeslice: cap out of range").
Proof.
  split; [|vm_compute; reflexivity]. exists 2, 5. lia.
Qed.

(** No worker overshoots once there are at least (n-1)^2 rows. *)
Theorem C52_many_rows_fit :
  forall rows n, 0 < n -> (n - 1) * (n - 1) <= rows -> ~ overshoots rows n.
Proof. exact many_rows_fit. Qed.
Print Assumptions C52_many_rows_fit.

Example C52_many_rows_fit_example : (8 - 1) * (8 - 1) <= 49 /\ ceil_div 49 8 = 7 /\ worker_rows 49 8 7 = (49, 49).
Proof. split; [lia|]. split; reflexivity. Qed.

(** The generator with a square layout and between 48*48+1 and 1024*1024 bits always succeeds. *)
Theorem C52_square_tables_are_built :
  forall g H ncpu rnd sched dbLen,
  group_ok g -> (forall n, length (rnd n) = n) -> 0 < ncpu -> 48 * 48 < dbLen <= 1024 * 1024 ->
  (forall r, create_random_elliptic g H ncpu rnd sched dbLen true = Some r -> exists db, r = Ok db) /\
  (exists more db, create_random_elliptic g H ncpu rnd (sched ++ more) dbLen true = Some (Ok db)).
Proof.
  intros g H ncpu rnd sched dbLen G R Hc Hd.
  assert (Hd0 : 0 < dbLen) by lia.
  assert (Ho : ~ overshoots (fst (calculate_num_rows_and_columns dbLen true)) (elliptic_routines ncpu dbLen)).
  { unfold elliptic_routines. destruct (Z.leb_spec dbLen (1024 * 1024)); [|lia]. apply many_rows_fit. lia.
    pose proof (square_layout dbLen ltac:(lia)) as S. pose proof (create_layout dbLen true Hd0) as L.
    destruct (calculate_num_rows_and_columns dbLen true) as [a b].
    cbn [fst]. destruct S as (-> & S & _). nia. }
  destruct (create_fits g H ncpu rnd dbLen true G R Hd0 Hc sched Ho) as [A (more & B)]. split.
  - intros r E. apply A in E. eauto.
  - eauto.
Qed.
Print Assumptions C52_square_tables_are_built.

Example C52_square_tables_example :
  48 * 48 < 2400 <= 1024 * 1024 /\ calculate_num_rows_and_columns 2400 true = (49, 49) /\
  elliptic_routines 16 2400 = 8.
Proof. split; [lia|]. split; reflexivity. Qed.

(** The generator with a one-row layout panics for every size, unless the database is larger than
    1024*1024 bits and the machine has fewer than three processors. *)
Theorem C52_one_row_refuted :
  forall g H ncpu rnd sched dbLen,
  group_ok g -> (forall n, length (rnd n) = n) -> 0 < dbLen -> 0 < ncpu ->
  dbLen <= 1024 * 1024 \/ 3 <= ncpu ->
  (forall r, create_random_elliptic g H ncpu rnd sched dbLen false = Some r -> is_panic r = true) /\
  (exists more r, create_random_elliptic g H ncpu rnd (sched ++ more) dbLen false = Some r).
Proof.
  intros g H ncpu rnd sched dbLen G R Hd Hc Hn.
  apply (create_overshoots g H ncpu rnd dbLen false G R Hd Hc sched).
  cbn [calculate_num_rows_and_columns fst]. apply one_row_overshoots. unfold elliptic_routines.
  destruct (Z.leb_spec dbLen (1024 * 1024)); lia.
Qed.
Print Assumptions C52_one_row_refuted.

Example C52_one_row_example :
  create_random_elliptic (toy_group false) toy_hash 4 (repeat 7) (all_done 8) 20 false =
  Some (Panic "makeslice: cap out of range").
Proof. vm_compute. reflexivity. Qed.
