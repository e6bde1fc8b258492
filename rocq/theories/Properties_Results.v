(** C131: the figures of the single-server benchmark are the recorded ones. *)
From Coq Require Import String ZArith QArith List Bool Lia Permutation Sorted.
From Verif Require Import GoBase FrontendModel FrontendProofs LogModel DHModel DHSpec MultiModel SimulModel BenchModel BenchSpec BenchProofs BenchProofs3 Properties_Bench ResultsModel ResultsSpec ResultsProofs.
Import ListNotations.
Open Scope Z_scope.
Open Scope go_scope.

(** From the file of results: the digest, and the medians of the sizes and of the times, for exactly the lengths of the results. *)
Theorem C131_reads : forall nu results times, writable nu results times -> lengths_kept results -> Forall (fun e => sized (snd e) /\ snd e <> []) results ->
  exists st, all_stats nu (results_file nu results times) = Ok st /\ NoDup (map fst st) /\
  (forall len, In len (map fst st) <-> In len (map fst results)) /\
  forall len cs, In (len, cs) results -> exists f mt mq ma mz, In (len, f) st /\
    fi_digest f = last (map (fun c => inject_Z (ch_digest c)) cs) 0%Q /\ fi_client f = (Some mt, Some mq) /\ fi_server f = (Some mz, Some ma) /\
    middle (all_times times len cs) mt /\ middle (query_sizes cs) mq /\ middle (answer_sizes cs) ma /\ (mz == 0)%Q.
Proof.
  intros nu results times W LK F. eexists. split.
  { apply read_results; auto. eapply Forall_impl; [|exact F]. cbv beta. tauto. }
  assert (KE : map fst (map (fun e => (fst e, figures_of times e)) (sort key_order results)) = map fst (sort key_order results)) by (rewrite map_map; reflexivity).
  rewrite KE. split; [apply sort_nodup, LK|]. pose proof (sort_perm key_order results) as P. split.
  { intros len. split; apply Permutation_in; apply Permutation_map; auto using Permutation_sym. }
  intros len cs I. rewrite Forall_forall in F. destruct (F _ I) as (_ & N). cbn [snd] in N.
  destruct (median_some (all_times times len cs)) as (mt & ET); [unfold all_times; destruct cs; [congruence|discriminate]|].
  destruct (median_some (query_sizes cs)) as (mq & EQ); [destruct cs; [congruence|discriminate]|].
  destruct (median_some (answer_sizes cs)) as (ma & EA); [destruct cs; [congruence|discriminate]|].
  destruct (median_some (map (fun _ : chunk => 0%Q) cs)) as (mz & EZ); [destruct cs; [congruence|discriminate]|].
  exists (figures_of times (len, cs)), mt, mq, ma, mz. split.
  { apply in_map_iff. exists (len, cs). split; auto. apply (Permutation_in _ (Permutation_sym P)). auto. }
  unfold figures_of. cbn [fi_digest fi_client fi_server fst snd]. rewrite ET, EQ, EA, EZ. repeat split; auto using median_middle.
  apply (middle_const 0%Q (map (fun _ => 0%Q) cs)); [apply Forall_map, Forall_forall; auto|apply median_middle; auto].
Qed.

(** The cells of the printed table, in the units printed beside them: the digest; query plus answer; the time of a retrieval. *)
Theorem C131_table : forall nu results times scheme size cs m, writable nu results times -> lengths_kept results ->
  Forall (fun e => sized (snd e) /\ snd e <> []) results -> In (size, cs) results -> In size [2 ^ 13; 2 ^ 23; 2 ^ 33] ->
  size <> 2 ^ 33 \/ contains (lit "DH") scheme = false ->
  exists q, table_cell nu scheme (results_file nu results times) size m = Ok (Number (Some q)) /\
    shows times size cs m (q * unit_of size m).
Proof.
  intros nu results times scheme size cs m W LK F I S NA. unfold table_cell. rewrite read_results; auto. 2:{ eapply Forall_impl; [|exact F]. cbv beta. tauto. }
  cbn [bind]. assert (EB : (size =? 2 ^ 33) && contains (lit "DH") scheme = false).
  { destruct NA as [NA|NA]; [|rewrite NA; apply andb_false_r]. apply Z.eqb_neq in NA. rewrite NA. reflexivity. }
  rewrite EB. rewrite (find_entry (figures_of times) (sort key_order results) size cs).
  2:{ apply sort_nodup, LK. } 2:{ apply (Permutation_in _ (Permutation_sym (sort_perm key_order results))). auto. }
  cbn [bind]. rewrite Forall_forall in F. destruct (F _ I) as (_ & N).
  destruct (figures_table times (size, cs) size m N S) as (q & k & -> & E & R). cbn [bind]. rewrite E. exists q. split; [reflexivity|exact R].
Qed.

(** The bars above the labels 1KiB, 1MiB and 1GiB, in KiB or ms, are those of the three sizes. The Diffie-Hellman scheme, without the
    largest, has no bar there. *)
Theorem C131_bars : forall nu results times m, writable nu results times -> lengths_kept results -> Forall (fun e => sized (snd e) /\ snd e <> []) results ->
  (Permutation (map fst results) [2 ^ 13; 2 ^ 23; 2 ^ 33] -> exists c1 c2 c3 b1 b2 b3, Permutation results [(2 ^ 13, c1); (2 ^ 23, c2); (2 ^ 33, c3)] /\
     bars nu false (results_file nu results times) m = Ok [Some b1; Some b2; Some b3] /\
     shows times (2 ^ 13) c1 m (b1 * bar_unit m) /\ shows times (2 ^ 23) c2 m (b2 * bar_unit m) /\ shows times (2 ^ 33) c3 m (b3 * bar_unit m)) /\
  (Permutation (map fst results) [2 ^ 13; 2 ^ 23] -> exists c1 c2 b1 b2, Permutation results [(2 ^ 13, c1); (2 ^ 23, c2)] /\
     bars nu true (results_file nu results times) m = Ok [Some b1; Some b2; Some 0%Q] /\
     shows times (2 ^ 13) c1 m (b1 * bar_unit m) /\ shows times (2 ^ 23) c2 m (b2 * bar_unit m)).
Proof.
  intros nu results times m W LK F. split; intros P.
  - destruct (bars_read nu results times false m W LK F) as (l & E & H). pose proof (sort_perm (fun a b => fst a <=? fst b) results) as PB. fold (by_size results) in PB.
    apply by_size_keys in P. 2:{ repeat constructor; discriminate. } revert P H PB. generalize (by_size results) as o. intros o P H PB.
    destruct o as [|[k1 c1] [|[k2 c2] [|[k3 c3] [|]]]]; try discriminate. cbn [map fst] in P. assert (k1 = 2 ^ 13) by congruence. assert (k2 = 2 ^ 23) by congruence. assert (k3 = 2 ^ 33) by congruence. subst.
    inversion H as [|? b1 ? ? H1 T1]; subst. inversion T1 as [|? b2 ? ? H2 T2]; subst. inversion T2 as [|? b3 ? ? H3 T3]; subst. inversion T3; subst.
    exists c1, c2, c3, b1, b2, b3. split; [symmetry; exact PB|]. split; [exact E|]. auto.
  - destruct (bars_read nu results times true m W LK F) as (l & E & H). pose proof (sort_perm (fun a b => fst a <=? fst b) results) as PB. fold (by_size results) in PB.
    apply by_size_keys in P. 2:{ repeat constructor; discriminate. } revert P H PB. generalize (by_size results) as o. intros o P H PB.
    destruct o as [|[k1 c1] [|[k2 c2] [|]]]; try discriminate. cbn [map fst] in P. assert (k1 = 2 ^ 13) by congruence. assert (k2 = 2 ^ 23) by congruence. subst.
    inversion H as [|? b1 ? ? H1 T1]; subst. inversion T1 as [|? b2 ? ? H2 T2]; subst. inversion T2; subst.
    exists c1, c2, b1, b2. split; [symmetry; exact PB|]. split; [exact E|]. auto.
Qed.

(** From the run of the benchmark to the table, for the schemes whose sizes depend on the length alone: what is printed are the sizes of the
    digest, and of the query and the answer together. *)
Lemma last_repeat (c : chunk) n : (0 < n)%nat -> last (map (fun c => inject_Z (ch_digest c)) (repeat c n)) 0%Q = inject_Z (ch_digest c).
Proof. intros H. destruct n as [|n]; [lia|]. clear H. induction n as [|n IH]; [reflexivity|]. exact IH. Qed.
Lemma middle_repeat {A} (f : A -> Q) c n m : middle (map f (repeat c n)) m -> (m == f c)%Q.
Proof. apply middle_const. apply Forall_map, Forall_forall. intros x I. apply repeat_spec in I. congruence. Qed.
Lemma bench_kept env cfg inputs results : Forall (fun l => 0 < l < 2 ^ 63) (bc_lengths cfg) -> bench env cfg inputs = Some (Ok results) -> lengths_kept results.
Proof.
  intros F E. destruct (C105_report env cfg inputs results) as (N & K & _); auto. { eapply Forall_impl; [|exact F]. cbv beta. lia. }
  split; auto. apply Forall_forall. intros [len cs] I. cbn [fst]. rewrite Forall_forall in F. apply F. apply K. eauto.
Qed.
Lemma lattice_table nu results times scheme size s word n k r m : writable nu results times -> lengths_kept results ->
  Forall (fun e => sized (snd e) /\ snd e <> []) results -> In (size, repeat (lattice_sizes word n k s) r) results -> (0 < r)%nat -> In size [2 ^ 13; 2 ^ 23; 2 ^ 33] ->
  contains (lit "DH") scheme = false ->
  exists q, table_cell nu scheme (results_file nu results times) size m = Ok (Number (Some q)) /\
  (m = Offline -> q * unit_of size m == inject_Z (word * n * s))%Q /\
  (m = Online -> q * unit_of size m == inject_Z (2 * (word * s * k)))%Q /\
  (m = UserTime -> exists mt, middle (map (times size) (seq 0 r)) mt /\ (q * unit_of size m == mt)%Q).
Proof.
  intros W LK F I R S D. destruct (C131_table nu results times scheme size _ m W LK F I S (or_intror D)) as (q & E & H). exists q. split; auto.
  split; [|split]; intros ->; cbn [shows] in H.
  - rewrite H, last_repeat by auto. reflexivity.
  - destruct H as (mq & ma & MQ & MA & H). apply middle_repeat in MQ. apply middle_repeat in MA. cbn [lattice_sizes ch_bandwidth] in MQ, MA. rewrite H, MQ, MA.
    rewrite <- inject_Z_plus. replace (2 * (word * s * k))%Z with (word * s * k + word * s * k)%Z by lia. reflexivity.
  - destruct H as (mt & MT & H). unfold all_times in MT. rewrite repeat_length in MT. eauto.
Qed.
Theorem C131_run_lwe : forall env cfg inputs results nu times scheme size m, Forall (fun l => 0 < l < 2 ^ 63) (bc_lengths cfg) -> 0 < bc_repetitions cfg ->
  bc_primitive cfg = "cmp-vpir-lwe"%string -> bench env cfg inputs = Some (Ok results) -> writable nu results times ->
  contains (lit "DH") scheme = false -> In size (bc_lengths cfg) ->
  exists q s t, table_cell nu scheme (results_file nu results times) size m = Ok (Number (Some q)) /\
  side size s /\ In (size, t) [(2 ^ 13, 3); (2 ^ 23, 4); (2 ^ 33, 7)] /\
  (m = Offline -> q * unit_of size m == inject_Z (4 * 1100 * s))%Q /\
  (m = Online -> q * unit_of size m == inject_Z (2 * (4 * s * (2 * t + 1))))%Q /\
  (m = UserTime -> exists mt, middle (map (times size) (seq 0 (Z.to_nat (bc_repetitions cfg)))) mt /\ (q * unit_of size m == mt)%Q).
Proof.
  intros env cfg inputs results nu times scheme size m F R P E W D I. pose proof (bench_kept _ _ _ _ F E) as LK.
  assert (F' : Forall (fun l => 0 < l) (bc_lengths cfg)) by (eapply Forall_impl; [|exact F]; cbv beta; lia).
  destruct (C105_report env cfg inputs results F' E) as (_ & K & _). destruct (proj2 (K size)) as (cs & IC). { split; auto. intros (X & _). rewrite P in X. discriminate. }
  destruct (C105_figures_lwe _ _ _ _ _ _ F' P E IC) as (s & t & SD & T & EC). subst cs.
  assert (FS : Forall (fun e => sized (snd e) /\ snd e <> []) results).
  { apply Forall_forall. intros [len cs] J. destruct (C105_figures_lwe _ _ _ _ _ _ F' P E J) as (s' & t' & _ & _ & ->). cbn [snd]. split.
    - apply Forall_forall. intros c Hc. apply repeat_spec in Hc. subst. discriminate.
    - destruct (Z.to_nat (bc_repetitions cfg)) eqn:EN; [lia|discriminate]. }
  assert (S3 : In size [2 ^ 13; 2 ^ 23; 2 ^ 33]) by (destruct T as [T|[T|[T|[]]]]; injection T as <- _; cbn [In]; auto).
  destruct (lattice_table nu results times scheme size s _ _ _ _ m W LK FS IC ltac:(lia) S3 D) as (q & H). exists q, s, t. tauto.
Qed.
Theorem C131_run_lwe128 : forall env cfg inputs results nu times scheme size m, Forall (fun l => 0 < l < 2 ^ 63) (bc_lengths cfg) -> 0 < bc_repetitions cfg ->
  bc_primitive cfg = "cmp-vpir-lwe-128"%string -> bench env cfg inputs = Some (Ok results) -> writable nu results times ->
  contains (lit "DH") scheme = false -> In size (bc_lengths cfg) -> In size [2 ^ 13; 2 ^ 23; 2 ^ 33] ->
  exists q s, table_cell nu scheme (results_file nu results times) size m = Ok (Number (Some q)) /\ side size s /\
  (m = Offline -> q * unit_of size m == inject_Z (16 * 4800 * s))%Q /\
  (m = Online -> q * unit_of size m == inject_Z (2 * (16 * s * 1)))%Q /\
  (m = UserTime -> exists mt, middle (map (times size) (seq 0 (Z.to_nat (bc_repetitions cfg)))) mt /\ (q * unit_of size m == mt)%Q).
Proof.
  intros env cfg inputs results nu times scheme size m F R P E W D I S3. pose proof (bench_kept _ _ _ _ F E) as LK.
  assert (F' : Forall (fun l => 0 < l) (bc_lengths cfg)) by (eapply Forall_impl; [|exact F]; cbv beta; lia).
  destruct (C105_report env cfg inputs results F' E) as (_ & K & _). destruct (proj2 (K size)) as (cs & IC). { split; auto. intros (X & _). rewrite P in X. discriminate. }
  destruct (C105_figures_lwe128 _ _ _ _ _ _ F' P E IC) as (s & SD & EC). subst cs.
  assert (FS : Forall (fun e => sized (snd e) /\ snd e <> []) results).
  { apply Forall_forall. intros [len cs] J. destruct (C105_figures_lwe128 _ _ _ _ _ _ F' P E J) as (s' & _ & ->). cbn [snd]. split.
    - apply Forall_forall. intros c Hc. apply repeat_spec in Hc. subst. discriminate.
    - destruct (Z.to_nat (bc_repetitions cfg)) eqn:EN; [lia|discriminate]. }
  destruct (lattice_table nu results times scheme size s _ _ _ _ m W LK FS IC ltac:(lia) S3 D) as (q & H). exists q, s. tauto.
Qed.

(** The same for the Diffie-Hellman scheme, when no point has a short encoding. *)
Theorem C131_run_dh_partial : forall env cfg inputs, Forall (fun l => 0 < l < 2 ^ 63) (bc_lengths cfg) -> 0 < bc_repetitions cfg ->
  bc_primitive cfg = "cmp-vpir-dh"%string -> group_ok (be_group env) -> 0 < be_ncpu env ->
  (forall k len, nth_error (bc_lengths cfg) k = Some len -> len <> 2 ^ 33 ->
     exists db, 0 < len /\ reads_bytes (bi_rnd (inputs k)) /\
     create_random_elliptic (be_group env) (be_blake2 env) (be_ncpu env) (bi_rnd (inputs k)) (bi_sched (inputs k)) len true = Some (Ok db) /\
     forall r, (r < Z.to_nat (bc_repetitions cfg))%nat -> let d := bi_draws (inputs k) r in
       ordinary_points (be_group env) db (rd_r d) (rd_t d) (Z.to_nat (rd_index d mod (e_rows db * e_cols db) mod e_cols db))) ->
  exists results, bench env cfg inputs = Some (Ok results) /\
  forall nu times scheme size m, writable nu results times -> In size (bc_lengths cfg) -> In size [2 ^ 13; 2 ^ 23] ->
  exists q s dig, table_cell nu scheme (results_file nu results times) size m = Ok (Number (Some q)) /\ side size s /\
  (m = Offline -> q * unit_of size m == inject_Z (g_size (be_group env) * s + zlen (be_blake2 env dig)))%Q /\
  (m = Online -> q * unit_of size m == inject_Z (2 * (g_size (be_group env) * s)))%Q /\
  (m = UserTime -> exists mt, middle (map (times size) (seq 0 (Z.to_nat (bc_repetitions cfg)))) mt /\ (q * unit_of size m == mt)%Q).
Proof.
  intros env cfg inputs F R P G NC H. destruct (C105_completes_dh_partial env cfg inputs P ltac:(lia) G NC H) as (results & E & FG). exists results. split; auto.
  intros nu times scheme size m W I S3. pose proof (bench_kept _ _ _ _ F E) as LK.
  assert (F' : Forall (fun l => 0 < l) (bc_lengths cfg)) by (eapply Forall_impl; [|exact F]; cbv beta; lia).
  assert (N33 : size <> 2 ^ 33) by (destruct S3 as [<-|[<-|[]]]; discriminate).
  destruct (C105_report env cfg inputs results F' E) as (_ & K & _). destruct (proj2 (K size)) as (cs & IC). { split; auto. intros (_ & X). auto. }
  destruct (FG _ _ IC) as (s & dig & SD & EC). subst cs.
  assert (FS : Forall (fun e => sized (snd e) /\ snd e <> []) results).
  { apply Forall_forall. intros [len cs] J. destruct (FG _ _ J) as (s' & dig' & _ & ->). cbn [snd]. split.
    - apply Forall_forall. intros c Hc. apply repeat_spec in Hc. subst. discriminate.
    - destruct (Z.to_nat (bc_repetitions cfg)) eqn:EN; [lia|discriminate]. }
  assert (S3' : In size [2 ^ 13; 2 ^ 23; 2 ^ 33]) by (destruct S3 as [<-|[<-|[]]]; cbn [In]; auto).
  destruct (C131_table nu results times scheme size _ m W LK FS IC S3' (or_introl N33)) as (q & ET & HS). exists q, s, dig. split; auto. split; auto.
  split; [|split]; intros ->; cbn [shows] in HS.
  - rewrite HS, last_repeat by lia. reflexivity.
  - destruct HS as (mq & ma & MQ & MA & HS). apply middle_repeat in MQ. apply middle_repeat in MA. cbn [group_sizes ch_bandwidth] in MQ, MA. rewrite HS, MQ, MA.
    rewrite <- inject_Z_plus. replace (2 * (g_size (be_group env) * s))%Z with (g_size (be_group env) * s + g_size (be_group env) * s)%Z by lia. reflexivity.
  - destruct HS as (mt & MT & HS). unfold all_times in MT. rewrite repeat_length in MT. eauto.
Qed.

(** The Diffie-Hellman scheme is not run for 1 GiB, and its cell says so. A size that was not run, for any other cell, ends the script. *)
Theorem C131_missing : forall nu results times scheme size m, writable nu results times -> lengths_kept results -> Forall (fun e => sized (snd e)) results ->
  ~ In size (map fst results) ->
  table_cell nu scheme (results_file nu results times) size m =
  if (size =? 2 ^ 33) && contains (lit "DH") scheme then Ok NotApplicable else Err "KeyError".
Proof.
  intros nu results times scheme size m W LK F N. unfold table_cell. rewrite read_results by auto. cbn [bind]. destruct (_ && _); auto.
  rewrite find_none; [reflexivity|]. intros I. apply N. apply (Permutation_in _ (Permutation_map fst (sort_perm key_order results))). auto.
Qed.

Lemma same_entry {V} (l : list (Z * V)) k a b : NoDup (map fst l) -> In (k, a) l -> In (k, b) l -> a = b.
Proof.
  induction l as [|[k' c] l IH]; cbn [map fst In]; intros N I J; [destruct I|]. inversion N; subst.
  destruct I as [I|I], J as [J|J]; [congruence| | |auto].
  - exfalso. apply H1. replace k' with k by congruence. change k with (fst (k, b)). apply in_map. auto.
  - exfalso. apply H1. replace k' with k by congruence. change k with (fst (k, a)). apply in_map. auto.
Qed.
(** The preprocessing benchmark: if larger databases take no less time, the n-th point is that of the n-th size. *)
Theorem C131_preprocessing_partial : forall nu results times, writable nu results times -> lengths_kept results ->
  Forall (fun e => unsized (snd e) /\ snd e <> []) results ->
  (forall l1 c1 l2 c2 m1 m2, In (l1, c1) results -> In (l2, c2) results -> l1 < l2 -> middle (all_times times l1 c1) m1 -> middle (all_times times l2 c2) m2 -> (m1 <= m2)%Q) ->
  exists ordered points, Permutation ordered results /\ StronglySorted (fun a b => fst a <= fst b) ordered /\
    preprocessing_plot nu (results_file nu results times) = Ok (Some points) /\
    Forall2 (fun e p => fst p = Z.quot (fst e) (2 ^ 33) /\ exists m, middle (all_times times (fst e) (snd e)) m /\ (snd p * 1000 == m)%Q) ordered points.
Proof.
  intros nu results times W LK F MO. destruct (plot_read nu results times W LK F) as (vs & P & E). exists (by_size results). eexists. split; [apply sort_perm|]. split; [apply by_size_sorted|].
  split; [exact E|].
  set (g := fun e : Z * list chunk => med (all_times times (fst e) (snd e))) in *.
  assert (NE : forall e, In e results -> all_times times (fst e) (snd e) <> []).
  { intros e I. rewrite Forall_forall in F. destruct (F e I) as (_ & N). unfold all_times. destruct (snd e); [congruence|discriminate]. }
  assert (IN : forall e, In e (by_size results) -> In e results) by (intros e; apply Permutation_in, sort_perm).
  assert (U : Forall2 Qeq (sort Qle_bool vs) (map g (by_size results))).
  { apply q_sorted_unique; [apply sort_sorted; [apply q_total|apply q_trans]| |].
    - eapply sorted_map; [apply by_size_sorted|]. cbv beta. intros [l1 c1] [l2 c2] I1 I2 L. cbn [fst] in L. apply Qle_bool_iff. apply IN in I1, I2.
      destruct (Z.eq_dec l1 l2) as [<-|D]; [rewrite (same_entry results l1 c1 c2); auto; [apply Qle_refl|apply LK]|].
      apply (MO l1 c1 l2 c2); auto; [lia|apply (med_middle _ (NE _ I1))|apply (med_middle _ (NE _ I2))].
    - rewrite sort_perm, P. apply Permutation_map, Permutation_sym, sort_perm. }
  revert U IN. generalize (sort Qle_bool vs) as s, (by_size results) as o. clear - NE. induction s as [|x s IH]; intros [|e o] U IN; inversion U; subst; [constructor|].
  cbn [map combine]. constructor.
  - cbn [fst snd]. split; auto. exists (g e). split; [apply med_middle, NE, IN; left; auto|]. rewrite <- H2. field.
  - apply IH; auto. intros; apply IN; right; auto.
Qed.
(** Otherwise it is not: the times are sorted apart from the sizes. Of two sizes of which the smaller takes longer, each is shown with the
    time of the other. *)
Theorem C131_preprocessing_order_refuted : forall nu l1 c1 l2 c2 times m1 m2, let results := [(l1, c1); (l2, c2)] in
  writable nu results times -> lengths_kept results -> Forall (fun e => unsized (snd e) /\ snd e <> []) results -> l1 < l2 ->
  (forall m, middle (all_times times l1 c1) m -> m == m1)%Q -> (forall m, middle (all_times times l2 c2) m -> m == m2)%Q -> (m2 < m1)%Q ->
  exists p1 p2, preprocessing_plot nu (results_file nu results times) = Ok (Some [(Z.quot l1 (2 ^ 33), p1); (Z.quot l2 (2 ^ 33), p2)]) /\
    (p1 * 1000 == m2)%Q /\ (p2 * 1000 == m1)%Q.
Proof.
  intros nu l1 c1 l2 c2 times m1 m2 results W LK F L H1 H2 LT. destruct (plot_read nu results times W LK F) as (vs & P & E). rewrite E.
  assert (N1 : all_times times l1 c1 <> []). { inversion F as [|? ? (_ & N) _]; subst. unfold all_times. cbn [snd] in N. destruct c1; [congruence|discriminate]. }
  assert (N2 : all_times times l2 c2 <> []). { inversion F as [|? ? _ F2]; subst. inversion F2 as [|? ? (_ & N) _]; subst. unfold all_times. cbn [snd] in N. destruct c2; [congruence|discriminate]. }
  apply med_middle in N1, N2. apply H1 in N1. apply H2 in N2.
  assert (U : Forall2 Qeq (sort Qle_bool vs) [med (all_times times l2 c2); med (all_times times l1 c1)]).
  { apply q_sorted_unique; [apply sort_sorted; [apply q_total|apply q_trans]| |].
    - constructor; [repeat constructor|]. constructor; [|constructor]. apply Qle_bool_iff. rewrite N1, N2. apply Qlt_le_weak. auto.
    - rewrite sort_perm, P. cbn [map fst snd results]. apply perm_swap. }
  inversion U as [|x ? s ? E1 U2 EX]; subst. inversion U2 as [|y ? s' ? E2 U3]; subst. inversion U3; subst.
  assert (B : by_size results = results). { unfold by_size, results. cbn [sort fold_right insert fst]. destruct (Z.leb_spec l1 l2); [reflexivity|lia]. }
  rewrite B. cbn [results map fst combine]. exists (x / 1000)%Q, (y / 1000)%Q. split; [reflexivity|]. split.
  - rewrite <- N2, <- E1. field.
  - rewrite <- N1, <- E2. field.
Qed.
(** From a run of the preprocessing benchmark: it records only times, one per repetition, so its file is read as above. *)
Theorem C131_run_preprocessing : forall env cfg inputs results, Forall (fun l => 0 < l < 2 ^ 63) (bc_lengths cfg) -> 0 < bc_repetitions cfg ->
  bc_primitive cfg = "preprocessing"%string -> bench env cfg inputs = Some (Ok results) ->
  lengths_kept results /\ Forall (fun e => unsized (snd e) /\ snd e <> []) results /\
  forall nu times, writable nu results times -> exists r, preprocessing_times nu (results_file nu results times) = Ok r /\ NoDup (map fst r) /\
    forall len ts, In (len, ts) r <-> In len (bc_lengths cfg) /\ ts = map (times len) (seq 0 (Z.to_nat (bc_repetitions cfg))).
Proof.
  intros env cfg inputs results F R P E. pose proof (bench_kept _ _ _ _ F E) as LK. split; auto.
  assert (F' : Forall (fun l => 0 < l) (bc_lengths cfg)) by (eapply Forall_impl; [|exact F]; cbv beta; lia).
  destruct (C105_report env cfg inputs results F' E) as (N & K & L).
  assert (U : forall len cs, In (len, cs) results -> unsized cs).
  { unfold bench in E. destruct (negb _); [discriminate|]. apply (loop_values env cfg inputs (fun _ cs => unsized cs) _ _ _ _ E); [|intros ? ? []].
    intros k dl r _ B. revert B. unfold bench_length. rewrite P. cbn [String.eqb Ascii.eqb Bool.eqb andb].
    unfold pir_merkle. destruct (go_make tt (bc_repetitions cfg)) as [z| | |]; cbn [bind]; try discriminate.
    destruct (random_merkle_db _ _ _ _ _ _) as [ts| | |]; cbn [bind]; try discriminate. intros B.
    assert (r = map (fun _ => mkChunk 0 None) ts) by congruence. subst r. apply Forall_map, Forall_forall. reflexivity. }
  assert (FS : Forall (fun e => unsized (snd e) /\ snd e <> []) results).
  { apply Forall_forall. intros [len cs] I. cbn [snd]. split; [eapply U; eauto|]. specialize (L _ _ I). intros ->. change (zlen (@nil chunk)) with 0 in L. lia. }
  split; auto. intros nu times W. eexists. split.
  { apply read_times; auto. eapply Forall_impl; [|exact FS]. cbv beta. tauto. }
  rewrite map_map. cbn [fst]. split; [apply sort_nodup; auto|]. intros len ts. rewrite in_map_iff. pose proof (sort_perm key_order results) as PS.
  assert (ZL : forall cs, zlen cs = bc_repetitions cfg -> all_times times len cs = map (times len) (seq 0 (Z.to_nat (bc_repetitions cfg)))).
  { intros cs Z0. unfold all_times. rewrite <- Z0. unfold zlen. rewrite Nat2Z.id. reflexivity. }
  split.
  - intros ([len' cs] & EQ & I). cbn [fst snd] in EQ. apply (Permutation_in _ PS) in I. assert (len' = len) by congruence. subst len'. split; [apply K; eauto|].
    rewrite <- (ZL cs) by (eapply L; eauto). congruence.
  - intros (I & ->). destruct (proj2 (K len)) as (cs & J). { split; auto. intros (X & _). rewrite P in X. discriminate. }
    exists (len, cs). cbn [fst snd]. rewrite (ZL cs) by (eapply L; eauto). split; auto. apply (Permutation_in _ (Permutation_sym PS)). auto.
Qed.
Print Assumptions C131_reads.
Print Assumptions C131_table.
Print Assumptions C131_bars.
Print Assumptions C131_run_lwe.
Print Assumptions C131_run_lwe128.
Print Assumptions C131_missing.
Print Assumptions C131_preprocessing_partial.
Print Assumptions C131_preprocessing_order_refuted.
Print Assumptions C131_run_dh_partial.
Print Assumptions C131_run_preprocessing.

(** Whole numbers as digits, other numbers with nine decimals *)
Definition plain_numbers : numbers := mkNumbers
  (fun q => if (Qden q =? 1)%positive then itoa (Qnum q)
            else itoa (Qnum q / Zpos (Qden q)) ++ 46 :: pad 9 (itoa (Qnum q mod Zpos (Qden q) * 10 ^ 9 / Zpos (Qden q))))
  (fun s => match split_on 46 s with
            | [a; b] => match digits 0 (a ++ b) with Some v => Qmake v (Z.to_pos (10 ^ zlen b)) | None => 0%Q end
            | _ => match digits 0 s with Some v => inject_Z v | None => 0%Q end
            end).
Lemma plain_digits s : Forall (fun c => 48 <= c <= 57) s -> split_on 46 s = [s].
Proof. induction 1 as [|c s B _ IH]; [reflexivity|]. cbn [split_on]. destruct (Z.eqb_spec c 46); [lia|]. rewrite IH. reflexivity. Qed.
Lemma plain_whole n : 0 <= n < 2 ^ 63 -> number_ok plain_numbers (inject_Z n).
Proof.
  intros B. assert (FD : Forall (fun c => 48 <= c <= 57) (itoa n)) by (unfold itoa; destruct (Z.ltb_spec n 0); [lia|]; apply decimal_digits; lia).
  unfold number_ok, plain_numbers. cbn [nu_show nu_read inject_Z Qnum Qden Pos.eqb]. split; [|split].
  - unfold itoa. destruct (Z.ltb_spec n 0); [lia|]. destruct (decimal_head 19 n) as (d & t & E & _); [lia|]. rewrite E. discriminate.
  - eapply Forall_impl; [|exact FD]. cbv beta. intros c C. assert (X : c = 48 \/ c = 49 \/ c = 50 \/ c = 51 \/ c = 52 \/ c = 53 \/ c = 54 \/ c = 55 \/ c = 56 \/ c = 57) by lia.
    cbv. intuition subst; auto 12.
  - rewrite plain_digits by auto. unfold itoa. destruct (Z.ltb_spec n 0); [lia|]. pose proof (digits_decimal 20 n [] ltac:(change (10 ^ Z.of_nat 20) with 100000000000000000000; lia)) as D.
    rewrite app_nil_r in D. rewrite D. reflexivity.
Qed.
(** The first two entries of simulations/final_results/computationalDH.json *)
Definition dh_results : list (Z * list chunk) := [(2 ^ 13, [mkChunk 3035 (Some (3003, 3003)); mkChunk 3035 (Some (3003, 3003))])].
Definition dh_times (len : Z) (j : nat) : Q := match j with O => 129850661 # 1000000000 | _ => 129045875 # 1000000000 end.
Ltac number_is_ok := split; [discriminate|split; [repeat (apply Forall_cons; [cbv; auto 20|]); apply Forall_nil|vm_compute; reflexivity]].
Example C131_example :
  results_file plain_numbers dh_results dh_times = lit "{""Results"":{""8192"":[{""CPU"":[{""Query"":0,""Answers"":[0],""Reconstruct"":0.129850661}],""Bandwidth"":[{""Query"":3003,""Answers"":[3003],""Reconstruct"":0}],""Digest"":3035},{""CPU"":[{""Query"":0,""Answers"":[0],""Reconstruct"":0.129045875}],""Bandwidth"":[{""Query"":3003,""Answers"":[3003],""Reconstruct"":0}],""Digest"":3035}]}}" /\
  writable plain_numbers dh_results dh_times /\ lengths_kept dh_results /\ Forall (fun e => sized (snd e) /\ snd e <> []) dh_results /\
  (exists q, table_cell plain_numbers (lit "computationalDH.json") (results_file plain_numbers dh_results dh_times) (2 ^ 13) UserTime = Ok (Number (Some q)) /\ q == 129448268 # 1000000)%Q /\
  (exists q, table_cell plain_numbers (lit "computationalDH.json") (results_file plain_numbers dh_results dh_times) (2 ^ 13) Online = Ok (Number (Some q)) /\ q == 6006 # 1024)%Q /\
  table_cell plain_numbers (lit "computationalDH.json") (results_file plain_numbers dh_results dh_times) (2 ^ 33) UserTime = Ok NotApplicable.
Proof.
  split; [vm_compute; reflexivity|]. split; [|split; [|split; [|split; [|split]]]].
  - split; [apply (plain_whole 0); lia|]. intros len cs j c [I|[]] N. assert (len = 2 ^ 13) by congruence. assert (EC : cs = snd (hd (0, []) dh_results)) by (cbn; congruence). subst.
    assert (C : c = mkChunk 3035 (Some (3003, 3003))) by (destruct j as [|[|j]]; cbn in N; [congruence|congruence|destruct j; discriminate]). subst. cbn [ch_digest ch_bandwidth].
    split; [|split; [apply plain_whole; lia|intros q a E; assert (q = 3003) by congruence; assert (a = 3003) by congruence; subst; split; apply plain_whole; lia]].
    destruct j as [|j]; cbn [dh_times]; number_is_ok.
  - split; [repeat constructor; cbn; tauto|]. apply Forall_cons; [cbn; lia|apply Forall_nil].
  - apply Forall_cons; [|apply Forall_nil]. split; [|discriminate]. repeat (apply Forall_cons; [discriminate|]). apply Forall_nil.
  - eexists. split; vm_compute; reflexivity.
  - eexists. split; vm_compute; reflexivity.
  - vm_compute. reflexivity.
Qed.
(** A run of the 128-bit scheme, followed to the table *)
Example C131_run_lwe128_example : exists results, bench ex_env (ex_cfg "cmp-vpir-lwe-128" [2 ^ 13; 1000]) (fun k => ex_in (fun _ => ex_coins 16 (Z.to_nat 4800) (match k with O => 91 | _ => 32 end) (repeat 0 16)))
    = Some (Ok results) /\ writable plain_numbers results (fun _ j => inject_Z (Z.of_nat j mod 3)) /\
  exists q, table_cell plain_numbers (lit "computationalLWE128.json") (results_file plain_numbers results (fun _ j => inject_Z (Z.of_nat j mod 3))) (2 ^ 13) Offline = Ok (Number (Some q)) /\
    (q * 1024 == inject_Z (16 * 4800 * 91))%Q.
Proof.
  destruct C105_completes_lwe128_example as (results & E & _). exists results. split; [exact E|].
  revert E. match goal with |- bench _ _ ?i = _ -> _ => generalize i end. intros inputs E.
  assert (F : Forall (fun l => 0 < l < 2 ^ 63) (bc_lengths (ex_cfg "cmp-vpir-lwe-128" [2 ^ 13; 1000]))) by (repeat (apply Forall_cons; [lia|]); apply Forall_nil).
  assert (F' : Forall (fun l => 0 < l) (bc_lengths (ex_cfg "cmp-vpir-lwe-128" [2 ^ 13; 1000]))) by (eapply Forall_impl; [|exact F]; cbv beta; lia).
  assert (W : writable plain_numbers results (fun _ j => inject_Z (Z.of_nat j mod 3))).
  { split; [apply (plain_whole 0); lia|]. intros len cs j c I N. pose proof (Z.mod_pos_bound (Z.of_nat j) 3 ltac:(lia)).
    destruct (C105_figures_lwe128 _ _ _ _ _ _ F' eq_refl E I) as (s & SD & ->). apply nth_error_In, repeat_spec in N. subst c.
    destruct (C105_report _ _ _ _ F' E) as (_ & K & _). assert (EX : exists cs, In (len, cs) results) by (eexists; exact I). destruct (proj1 (K len) EX) as (IL & _). cbn [ex_cfg bc_lengths] in IL.
    assert (B : 0 < s < 200). { unfold side in SD. assert (len <= 2 ^ 13) by (destruct IL as [<-|[<-|[]]]; lia). nia. }
    cbn [lattice_sizes ch_digest ch_bandwidth]. split; [apply plain_whole; lia|]. split; [apply plain_whole; lia|].
    intros q a EQ. assert (q = 16 * s * 1) by congruence. assert (a = 16 * s * 1) by congruence. subst. split; apply plain_whole; lia. }
  split; [exact W|].
  destruct (C131_run_lwe128 _ _ _ _ plain_numbers _ (lit "computationalLWE128.json") (2 ^ 13) Offline F ltac:(cbn; lia) eq_refl E W) as (q & s & T & SD & H & _); [reflexivity|left; reflexivity|left; reflexivity|].
  exists q. split; [exact T|]. rewrite (side_unique _ _ _ SD ex_side13) in H. exact (H eq_refl).
Qed.
(** Two sizes of which the smaller took longer: 2 GiB in 3 s, 4 GiB in 2 s *)
Definition swap_results : list (Z * list chunk) := [(2 ^ 34, [mkChunk 0 None]); (2 ^ 35, [mkChunk 0 None])].
Definition swap_times (len : Z) (j : nat) : Q := if len =? 2 ^ 34 then 3000 else 2000.
Example C131_preprocessing_example :
  writable plain_numbers swap_results swap_times /\ lengths_kept swap_results /\ Forall (fun e => unsized (snd e) /\ snd e <> []) swap_results /\
  (forall m, middle (all_times swap_times (2 ^ 34) [mkChunk 0 None]) m -> m == 3000)%Q /\ (forall m, middle (all_times swap_times (2 ^ 35) [mkChunk 0 None]) m -> m == 2000)%Q /\
  exists p1 p2, preprocessing_plot plain_numbers (results_file plain_numbers swap_results swap_times) = Ok (Some [(2, p1); (4, p2)]) /\ (p1 == 2)%Q /\ (p2 == 3)%Q.
Proof.
  split; [|split; [|split; [|split; [|split]]]].
  - split; [apply (plain_whole 0); lia|]. intros len cs j c [I|[I|[]]] N; (assert (EC : cs = [mkChunk 0 None]) by congruence; subst; destruct j as [|j]; [|destruct j; discriminate]; cbn in N; assert (c = mkChunk 0 None) by congruence; subst;
      cbn [ch_digest ch_bandwidth]; split; [|split; [apply (plain_whole 0); lia|discriminate]]).
    + replace len with (2 ^ 34) by congruence. apply (plain_whole 3000). lia.
    + replace len with (2 ^ 35) by congruence. apply (plain_whole 2000). lia.
  - split; [repeat constructor; cbn; intuition discriminate|]. repeat (apply Forall_cons; [cbn; lia|]). apply Forall_nil.
  - repeat (apply Forall_cons; [split; [repeat constructor|discriminate]|]). apply Forall_nil.
  - intros m M. apply (middle_const 3000%Q) in M; auto. apply Forall_cons; [reflexivity|apply Forall_nil].
  - intros m M. apply (middle_const 2000%Q) in M; auto. apply Forall_cons; [reflexivity|apply Forall_nil].
  - eexists _, _. split; [vm_compute; reflexivity|]. split; reflexivity.
Qed.
