(** The single-server benchmark, continued: whole lengths. *)
From Coq Require Import String ZArith List Bool Lia Arith.
From Verif Require Import GoBase BaseFacts EncodingModel EncodingProofs MatrixModel LWEModel LWESpec MatrixProofs LWEProofs LWEProofs2 LWEProofs3 LWEProofs4
  MerkleModel DHModel DHSpec DHProofs DHProofs2 DHProofs3 MultiModel SimulModel AmplifyProofs BenchModel BenchSpec BenchProofs BenchProofs2.
Import ListNotations.
Open Scope Z_scope.
Open Scope go_scope.

(** *** Lists *)
Lemma mapM_each {A B} (f : A -> res B) : forall l r, mapM f l = Ok r -> forall x, In x l -> exists y, f x = Ok y.
Proof.
  induction l as [|x l IH]; intros r E z I; [destruct I|]. cbn [mapM] in E. destruct (f x) as [y| | |] eqn:F; cbn [bind] in E; try discriminate.
  destruct (mapM f l) as [ys| | |] eqn:M; cbn [bind] in E; try discriminate. destruct I as [<-|I]; eauto.
Qed.
Lemma mapM_const {A B} (f : A -> res B) c : forall l, (forall x, In x l -> f x = Ok c) -> mapM f l = Ok (repeat c (length l)).
Proof.
  induction l as [|x l IH]; intros F; [reflexivity|]. cbn [mapM length repeat]. rewrite (F x) by (left; auto). cbn [bind].
  rewrite IH by (intros; apply F; right; auto). reflexivity.
Qed.
Lemma loop_needs_at env cfg inputs : forall lens k m m', bench_loop env cfg inputs k lens m = Some (Ok m') ->
  forall i dl, nth_error lens i = Some dl -> exists r, bench_length env cfg (inputs (k + i)%nat) dl = Some (Ok r).
Proof.
  induction lens as [|d lens IH]; intros k m m' E i dl I; [destruct i; discriminate|]. cbn [bench_loop] in E.
  destruct (bench_length env cfg (inputs k) d) as [[[r|]| | |]|] eqn:B; try discriminate;
    (destruct i as [|i]; [injection I as ->; rewrite Nat.add_0_r; eauto|]; cbn [nth_error] in I;
     replace (k + S i)%nat with (S k + i)%nat by lia; eauto).
Qed.
Lemma make_ok n : 0 <= n -> go_make tt n = Ok (repeat tt (Z.to_nat n)).
Proof. intros. unfold go_make. destruct (Z.ltb_spec n 0); [lia|auto]. Qed.

Lemma side_unique len s s' : side len s -> side len s' -> s = s'.
Proof. unfold side. intros (A & B & C) (A' & B' & C'). assert (s <= s' \/ s' < s) as [|] by lia; assert (s' <= s \/ s < s') as [|] by lia; try lia; nia. Qed.

(** *** The databases *)
Lemma side_layout len s : side len s -> calculate_num_rows_and_columns len true = (s, s).
Proof.
  intros S. assert (0 < len) by (unfold side in S; nia). destruct (side_of len H) as (E & S'). rewrite E. f_equal; eapply side_unique; eauto.
Qed.
Lemma random_table len s rnd : side len (Z.of_nat s) -> reads_bytes rnd ->
  exists m, create_random_binary (rnd (Z.to_nat (Z.quot (Z.of_nat s * Z.of_nat s) 8 + 1))) (Z.of_nat s) (Z.of_nat s) = Ok m /\ exact_shape m s s /\ binary m.
Proof.
  intros S R. assert (0 < s)%nat by (unfold side in S; lia). destruct (R (Z.to_nat (Z.quot (Z.of_nat s * Z.of_nat s) 8 + 1))) as (B & L).
  assert (0 <= Z.of_nat s * Z.of_nat s / 8) by (apply Z.div_pos; nia).
  destruct (random_binary s s _ ltac:(auto) ltac:(auto) B) as (m & E & X & Y & _); [|eauto].
  unfold zlen. rewrite L. rewrite Z.quot_div_nonneg by nia. rewrite Z2Nat.id; lia.
Qed.
Lemma created32 len s rnd abytes dmem : side len (Z.of_nat s) -> reads_bytes rnd -> bytes abytes -> length abytes = (4 * (Z.to_nat 1100 * s))%nat ->
  exists m dg, create_lwe32 rnd abytes dmem len = Ok (m, dg) /\ exact_shape m s s /\ binary m /\
    lwe_digest w32 (new_random_of_bytes 1100 (Z.of_nat s) abytes dmem) m = Ok dg /\ exact_shape dg (Z.to_nat 1100) s /\
    create_random_binary (rnd (Z.to_nat (Z.quot (Z.of_nat s * Z.of_nat s) 8 + 1))) (Z.of_nat s) (Z.of_nat s) = Ok m.
Proof.
  intros S R BA LA. destruct (random_table len s rnd S R) as (m & E & X & Y). assert (HS : (0 < s)%nat) by (unfold side in S; lia).
  destruct (random_shape (Z.to_nat 1100) s abytes dmem ltac:(lia) HS BA LA) as (SA & WA & _). rewrite Z2Nat.id in SA, WA by lia.
  destruct (binary_mul_ok 32 _ m _ _ _ ltac:(lia) (shape_stored _ _ _ SA) (proj1 X) WA Y) as (dg & ED & SD & _).
  exists m, dg. change (2 ^ 32) with w32 in ED. conj_split; auto; try apply X; try apply SD.
  unfold create_lwe32. rewrite (side_layout len _ S), E. cbn [bind]. unfold lwe_digest. rewrite ED. reflexivity.
Qed.
Lemma created128 len s rnd abytes : side len (Z.of_nat s) -> reads_bytes rnd -> bytes abytes -> length abytes = (16 * (Z.to_nat 4800 * s))%nat ->
  exists m dg, create_lwe128 rnd abytes len = Ok (m, dg) /\ exact_shape m s s /\ binary m /\
    lwe_digest w128 (new_random128_of_bytes 4800 (Z.of_nat s) abytes) m = Ok dg /\ exact_shape dg (Z.to_nat 4800) s /\
    create_random_binary (rnd (Z.to_nat (Z.quot (Z.of_nat s * Z.of_nat s) 8 + 1))) (Z.of_nat s) (Z.of_nat s) = Ok m.
Proof.
  intros S R BA LA. destruct (random_table len s rnd S R) as (m & E & X & Y). assert (HS : (0 < s)%nat) by (unfold side in S; lia).
  destruct (random128_shape (Z.to_nat 4800) s abytes ltac:(lia) HS BA LA) as (SA & WA). rewrite Z2Nat.id in SA, WA by lia.
  destruct (binary_mul_ok 128 _ m _ _ _ ltac:(lia) (exact_stored _ _ _ _ SA) (proj1 X) WA Y) as (dg & ED & SD & _).
  exists m, dg. change (2 ^ 128) with w128 in ED. conj_split; auto; try apply X; try apply SD.
  unfold create_lwe128. rewrite (side_layout len _ S), E. cbn [bind]. unfold lwe_digest. rewrite ED. reflexivity.
Qed.

Lemma seed_size w n s : 0 <= w -> 0 <= n -> Z.to_nat (w * n * Z.of_nat s) = (Z.to_nat w * (Z.to_nat n * s))%nat.
Proof. intros. rewrite !Z2Nat.inj_mul by lia. rewrite Nat2Z.id. lia. Qed.

(** *** Whole lengths *)
Section Env.
Variables (env : bench_env) (cfg : bench_config).
Hypotheses (RP : 0 <= bc_repetitions cfg) (SEED : reads_bytes (be_abytes env)).

Lemma lwe_length_ok inp dl s t : bc_primitive cfg = "cmp-vpir-lwe"%string -> side dl (Z.of_nat s) -> 84 * Z.of_nat s + 1 < 2 ^ 32 -> t_ecc dl = Some t ->
  reads_bytes (bi_rnd inp) ->
  (forall r k, (r < Z.to_nat (bc_repetitions cfg))%nat -> (k <= 2 * t)%nat ->
     good_coins 4 (Z.to_nat 1100) (be_abytes env (Z.to_nat (4 * 1100 * Z.of_nat s))) s (rd_coins (bi_draws inp r) k) /\ ordinary_guess s (rd_coins (bi_draws inp r) k)) ->
  exists cs, bench_length env cfg inp dl = Some (Ok (Some cs)).
Proof using RP SEED.
  intros P S HB T RR C. unfold bench_length. rewrite P. cbn [String.eqb Ascii.eqb Bool.eqb andb]. rewrite (side_layout dl _ S). cbn [fst].
  set (ab := be_abytes env _) in *. destruct (SEED (Z.to_nat (4 * 1100 * Z.of_nat s))) as (BA & LA). fold ab in BA, LA. rewrite seed_size in LA by lia. change (Z.to_nat 4) with 4%nat in LA.
  destruct (created32 dl s (bi_rnd inp) ab (be_dmem env) S RR BA LA) as (m & dg & E & X & Y & ED & SD & _). rewrite E. cbn [bind fst snd]. rewrite T.
  assert (HS : (0 < s)%nat) by (unfold side in S; lia). destruct X as ((Rm & Cm & W) & LM). assert (X : exact_shape m s s) by (split; [split; auto|auto]).
  unfold pir_lwe. rewrite make_ok by auto. cbn [bind]. rewrite Rm, Cm, repeat_length.
  rewrite (mapM_const _ (lattice_sizes 4 1100 (Z.of_nat (2 * t + 1)) (Z.of_nat s))). { cbn [bind]. eauto. }
  intros r Hr. apply in_seq in Hr.
  assert (FC : forall k, In k (range (repetitions t)) -> (k <= 2 * t)%nat) by (intros k Hk; apply in_seq in Hk; unfold repetitions in Hk; lia).
  destruct (once32_far s m HS HB X Y ab (be_dmem env) dg t (bi_draws inp r) ED) as (qs & ans & FQ & FA & LQ & LN & EO).
  { apply Forall_map, Forall_forall. intros k Hk. apply C; [lia|auto]. }
  { apply Forall_map, Forall_forall. intros k Hk. apply C; [lia|auto]. }
  unfold lwe_chunk. rewrite EO. cbn [bind].
  destruct qs as [|q qs]; [cbn in LQ; lia|]. destruct ans as [|a ans]; [cbn in LN; lia|]. cbn [go_index].
  rewrite !(go_index_ok _ _ mat0) by (unfold zlen; cbn [length]; lia). change (Z.to_nat 0) with 0%nat. cbn [nth bind]. f_equal. unfold lattice_sizes.
  assert (SQ : exact_shape q 1 s) by (inversion FQ; tauto). assert (SN : exact_shape a 1 s) by (inversion FA; tauto).
  destruct SQ as ((Rq & Cq & _) & _). destruct SN as ((Ra & Ca & _) & _). destruct SD as ((Rd & Cd & _) & _).
  unfold bytes_size32, zlen. rewrite Rq, Cq, Ra, Ca, Rd, Cd, LQ, LN. rewrite Z2Nat.id by lia. f_equal; [|f_equal; f_equal]; lia.
Qed.

(** one bad first guess is enough *)
Lemma lwe_length_abort inp dl s t r m cs : bc_primitive cfg = "cmp-vpir-lwe"%string -> side dl (Z.of_nat s) -> 84 * Z.of_nat s + 1 < 2 ^ 32 -> t_ecc dl = Some t ->
  reads_bytes (bi_rnd inp) ->
  (r < Z.to_nat (bc_repetitions cfg))%nat ->
  (forall k, (k <= 2 * t)%nat -> good_coins 4 (Z.to_nat 1100) (be_abytes env (Z.to_nat (4 * 1100 * Z.of_nat s))) s (rd_coins (bi_draws inp r) k)) ->
  (forall k, (0 < k <= 2 * t)%nat -> ordinary_guess s (rd_coins (bi_draws inp r) k)) ->
  le_dec (c_t (rd_coins (bi_draws inp r) 0%nat)) < Z.of_nat s ->
  create_random_binary (bi_rnd inp (Z.to_nat (Z.quot (Z.of_nat s * Z.of_nat s) 8 + 1))) (Z.of_nat s) (Z.of_nat s) = Ok m ->
  elem m (Z.to_nat (rd_i (bi_draws inp r) mod Z.of_nat s)) (Z.to_nat (rd_j (bi_draws inp r) mod Z.of_nat s)) = 1 ->
  bench_length env cfg inp dl <> Some (Ok cs).
Proof using RP SEED.
  intros P S HB T RR Hr C F B0 EM E1. unfold bench_length. rewrite P. cbn [String.eqb Ascii.eqb Bool.eqb andb]. rewrite (side_layout dl _ S). cbn [fst].
  set (ab := be_abytes env _) in *. destruct (SEED (Z.to_nat (4 * 1100 * Z.of_nat s))) as (BA & LA). fold ab in BA, LA. rewrite seed_size in LA by lia. change (Z.to_nat 4) with 4%nat in LA.
  destruct (created32 dl s (bi_rnd inp) ab (be_dmem env) S RR BA LA) as (m' & dg & E & X & Y & ED & SD & EM'). rewrite EM in EM'. injection EM' as <-.
  rewrite E. cbn [bind fst snd]. rewrite T.
  assert (HS : (0 < s)%nat) by (unfold side in S; lia). destruct X as ((Rm & Cm & W) & LM). assert (X : exact_shape m s s) by (split; [split; auto|auto]).
  assert (TP : (0 < t)%nat). { apply t_ecc_cases in T as [T|[T|[T|[]]]]; injection T as _ <-; lia. }
  unfold pir_lwe. rewrite make_ok by auto. cbn [bind]. rewrite Rm, Cm, repeat_length.
  intros Q. injection Q as Q. destruct (mapM _ _) as [l| | |] eqn:M; cbn [bind] in Q; try discriminate.
  destruct (mapM_each _ _ _ M r) as (y & Ey). { apply in_seq. lia. }
  unfold lwe_chunk in Ey.
  destruct (once32_abort s m HS HB X Y ab (be_dmem env) dg t (bi_draws inp r) TP ED) as (e & EO); auto.
  { apply Forall_map, Forall_forall. intros k Hk. apply in_seq in Hk. apply C. unfold repetitions in Hk. lia. }
  { unfold range, repetitions. replace (t * 2 + 1)%nat with (Datatypes.S (2 * t)) by lia. cbn [seq map tl]. apply Forall_map, Forall_forall. intros k Hk. apply in_seq in Hk. apply F. lia. }
  rewrite EO in Ey. discriminate.
Qed.

Lemma lwe128_length_ok inp dl s : bc_primitive cfg = "cmp-vpir-lwe-128"%string -> side dl (Z.of_nat s) -> 84 * Z.of_nat s + 1 < 2 ^ 32 ->
  reads_bytes (bi_rnd inp) ->
  (forall r, (r < Z.to_nat (bc_repetitions cfg))%nat ->
     good_coins 16 (Z.to_nat 4800) (be_abytes env (Z.to_nat (16 * 4800 * Z.of_nat s))) s (rd_coins (bi_draws inp r) 0%nat)) ->
  exists cs, bench_length env cfg inp dl = Some (Ok (Some cs)).
Proof using RP SEED.
  intros P S HB RR C. unfold bench_length. rewrite P. cbn [String.eqb Ascii.eqb Bool.eqb andb]. rewrite (side_layout dl _ S). cbn [fst].
  set (ab := be_abytes env _) in *. destruct (SEED (Z.to_nat (16 * 4800 * Z.of_nat s))) as (BA & LA). fold ab in BA, LA. rewrite seed_size in LA by lia. change (Z.to_nat 16) with 16%nat in LA.
  destruct (created128 dl s (bi_rnd inp) ab S RR BA LA) as (m & dg & E & X & Y & ED & SD & _). rewrite E. cbn [bind fst snd].
  assert (HS : (0 < s)%nat) by (unfold side in S; lia). destruct X as ((Rm & Cm & W) & LM). assert (X : exact_shape m s s) by (split; [split; auto|auto]).
  unfold pir_lwe128. rewrite make_ok by auto. cbn [bind]. rewrite Rm, Cm, repeat_length.
  rewrite (mapM_const _ (lattice_sizes 16 4800 1 (Z.of_nat s))). { cbn [bind]. eauto. }
  intros r Hr. apply in_seq in Hr.
  destruct (once128 s m HS HB X Y ab dg (bi_draws inp r) ED) as (q & a & SQ & _ & SN & _ & EO). { apply C. lia. }
  unfold lwe128_chunk. rewrite EO. cbn [bind]. f_equal. unfold lattice_sizes.
  destruct SQ as ((Rq & Cq & _) & _). destruct SN as ((Ra & Ca & _) & _). destruct SD as ((Rd & Cd & _) & _).
  unfold bytes_size128. rewrite Rq, Cq, Ra, Ca, Rd, Cd. rewrite Z2Nat.id by lia. f_equal; [|f_equal; f_equal]; lia.
Qed.
End Env.

(** *** The Diffie-Hellman scheme *)
Lemma zlen_map {A B} (f : A -> B) l : zlen (map f l) = zlen l.
Proof. unfold zlen. rewrite map_length. auto. Qed.
Lemma zlen_seq n : zlen (seq 0 n) = Z.of_nat n.
Proof. unfold zlen. rewrite seq_length. auto. Qed.

Lemma marshal_len g (G : group_ok g) (f : nat -> g_elt g) n : (forall k, (k < n)%nat -> full g (f k)) ->
  zlen (marshal_group_elements g (map f (seq 0 n))) = Z.of_nat n * g_size g.
Proof.
  intros F. unfold marshal_group_elements. rewrite (enc_len g G), zlen_map, zlen_seq; auto. apply Forall_map, Forall_forall. intros k Hk. apply in_seq in Hk. apply F. lia.
Qed.
Lemma dh_once_ok g H db d : group_ok g -> table_ok g H db -> 0 < e_rows db ->
  let index := rd_index d mod (e_rows db * e_cols db) in
  ordinary_points g db (rd_r d) (rd_t d) (Z.to_nat (index mod e_cols db)) ->
  exists q a, dh_once g db d = Ok (q, a, nth (Z.to_nat index) (e_entries db) 0) /\ zlen q = e_cols db * g_size g /\ zlen a = e_rows db * g_size g.
Proof.
  intros G T Hr index (F1 & F2 & F3 & F4). pose proof (cols_pos g H db T) as Hc.
  assert (HI : 0 <= index < e_rows db * e_cols db) by (apply Z.mod_pos_bound; nia).
  set (ix := Z.to_nat (index / e_cols db)). set (iy := Z.to_nat (index mod e_cols db)) in *.
  assert (W : wanted db index ix iy) by (unfold wanted; auto).
  assert (By : (iy < Z.to_nat (e_cols db))%nat) by (pose proof (index_bounds g H db T index HI); unfold iy; lia).
  pose proof (dh_correct_full g H db G T (rd_r d) (rd_t d) index ix iy W F1 F2 F3 F4) as E. unfold dh_session in E. rewrite (new_ok g H db T) in E. cbn [bind] in E.
  rewrite (query_value g H db G T _ _ index ix iy W) in E. cbn [bind] in E. rewrite (answer_bytes_value g H db G T) in E by auto. cbn [bind] in E.
  eexists _, _. split.
  - unfold dh_once, go_intn. destruct (Z.leb_spec (e_rows db * e_cols db) 0); [nia|]. cbn [bind]. fold index.
    rewrite (query_value g H db G T _ _ index ix iy W). cbn [bind or_fatal fst snd]. rewrite (answer_bytes_value g H db G T) by auto. cbn [bind or_fatal].
    rewrite E. reflexivity.
  - rewrite !(marshal_len g G) by auto. rewrite !Z2Nat.id by lia. auto.
Qed.

Lemma dh_length_ok env cfg inp dl s db : bc_primitive cfg = "cmp-vpir-dh"%string -> dl <> 2 ^ 33 -> 0 <= bc_repetitions cfg ->
  group_ok (be_group env) -> 0 < be_ncpu env -> side dl s -> reads_bytes (bi_rnd inp) ->
  create_random_elliptic (be_group env) (be_blake2 env) (be_ncpu env) (bi_rnd inp) (bi_sched inp) dl true = Some (Ok db) ->
  (forall r, (r < Z.to_nat (bc_repetitions cfg))%nat -> let d := bi_draws inp r in
     ordinary_points (be_group env) db (rd_r d) (rd_t d) (Z.to_nat (rd_index d mod (e_rows db * e_cols db) mod e_cols db))) ->
  bench_length env cfg inp dl = Some (Ok (Some (repeat (group_sizes (g_size (be_group env)) (zlen (e_digest db)) s) (Z.to_nat (bc_repetitions cfg))))).
Proof.
  intros P N RP G NC S RR E C. set (g := be_group env) in *. unfold bench_length. rewrite P. cbn [String.eqb Ascii.eqb Bool.eqb andb].
  destruct (Z.eqb_spec dl (2 ^ 33)); [congruence|]. fold g. rewrite E. cbn [bind].
  assert (0 < dl) by (unfold side in S; nia).
  destruct (create_good g (be_blake2 env) (be_ncpu env) (bi_rnd inp) dl true G ltac:(intros; apply RR) ltac:(auto) NC _ db E) as (T & ER & EC).
  rewrite (side_layout dl s S) in ER, EC. cbn [fst snd] in ER, EC. assert (0 < s) by (unfold side in S; lia).
  unfold pir_elliptic. rewrite make_ok by auto. cbn [bind]. rewrite (new_ok g _ db T). cbn [bind]. rewrite repeat_length.
  rewrite (mapM_const _ (group_sizes (g_size g) (zlen (e_digest db)) s)). { cbn [bind]. unfold range. rewrite seq_length. reflexivity. }
  intros r Hr. apply in_seq in Hr. specialize (C r ltac:(lia)). cbv zeta in C.
  destruct (dh_once_ok g (be_blake2 env) db (bi_draws inp r) G T ltac:(lia) C) as (q & a & EO & LQ & LN).
  unfold dh_chunk. rewrite EO. cbn [bind]. f_equal. unfold group_sizes. rewrite LQ, LN, ER, EC.
  rewrite (sub_digests _ _ _ T). rewrite <- (map_map (fun i => row_digest g (e_entries db) (Z.to_nat (e_cols db)) i) (g_enc g)).
  pose proof (marshal_len g G (fun i => row_digest g (e_entries db) (Z.to_nat (e_cols db)) i) (Z.to_nat (e_rows db)) (proj1 C)) as ML.
  unfold marshal_group_elements in ML. rewrite ML, Z2Nat.id by lia.
  rewrite ER. f_equal; [|f_equal; f_equal]; lia.
Qed.
