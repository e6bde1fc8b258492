(** C105: what the single-server benchmark reports. *)
From Coq Require Import String ZArith List Bool Lia Arith.
From Verif Require Import GoBase BaseFacts EncodingModel EncodingProofs MatrixModel LWEModel LWESpec MatrixProofs LWEProofs LWEProofs2 LWEProofs3 LWEProofs4
  MerkleModel DHModel DHSpec DHProofs DHProofs2 DHProofs3 MultiModel SimulModel AmplifyProofs BenchModel BenchSpec BenchProofs BenchProofs2 BenchProofs3
  ToyGroup ToyInstances Properties_DH.
Import ListNotations.
Open Scope Z_scope.

(** A run that completes reports every configured length once, except 2^33 for the Diffie-Hellman scheme, each with one entry per repetition. *)
Theorem C105_report : forall env cfg inputs results, Forall (fun l => 0 < l) (bc_lengths cfg) -> bench env cfg inputs = Some (Ok results) ->
  NoDup (map fst results) /\
  (forall len, (exists cs, In (len, cs) results) <-> In len (bc_lengths cfg) /\ ~ (bc_primitive cfg = "cmp-vpir-dh"%string /\ len = 2 ^ 33)) /\
  forall len cs, In (len, cs) results -> zlen cs = bc_repetitions cfg.
Proof. exact report. Qed.

Lemma repeat_of {A} (c : A) l n : zlen l = n -> Forall (eq c) l -> l = repeat c (Z.to_nat n).
Proof. intros <- F. unfold zlen. rewrite Nat2Z.id. induction F; cbn [length repeat]; congruence. Qed.

(** The figures depend on the length alone: digest 1100 words per column, query and answer one word per row or column and repetition. *)
Theorem C105_figures_lwe : forall env cfg inputs results len cs, Forall (fun l => 0 < l) (bc_lengths cfg) ->
  bc_primitive cfg = "cmp-vpir-lwe"%string -> bench env cfg inputs = Some (Ok results) -> In (len, cs) results ->
  exists s t, side len s /\ In (len, t) [(2 ^ 13, 3); (2 ^ 23, 4); (2 ^ 33, 7)] /\
    cs = repeat (lattice_sizes 4 1100 (2 * t + 1) s) (Z.to_nat (bc_repetitions cfg)).
Proof.
  intros env cfg inputs results len cs F P E I. unfold bench in E. destruct (negb _); [discriminate|].
  apply (loop_values env cfg inputs (fun len cs => exists s t, side len s /\ In (len, t) [(2 ^ 13, 3); (2 ^ 23, 4); (2 ^ 33, 7)] /\
    cs = repeat (lattice_sizes 4 1100 (2 * t + 1) s) (Z.to_nat (bc_repetitions cfg))) _ _ _ _ E); auto.
  - intros k dl r HI B. pose proof (proj1 (Forall_forall _ _) F dl HI) as HP. cbv beta in HP.
    destruct (length_lwe _ _ _ _ _ P HP B) as (L & s & t & S & T & FA). exists s, (Z.of_nat t). split; auto. split.
    + destruct T as [T|[T|[T|[]]]]; injection T as <- <-; cbn [In]; auto.
    + replace (2 * Z.of_nat t + 1) with (Z.of_nat (2 * t + 1)) by lia. apply repeat_of; auto.
  - intros ? ? [].
Qed.
Theorem C105_figures_lwe128 : forall env cfg inputs results len cs, Forall (fun l => 0 < l) (bc_lengths cfg) ->
  bc_primitive cfg = "cmp-vpir-lwe-128"%string -> bench env cfg inputs = Some (Ok results) -> In (len, cs) results ->
  exists s, side len s /\ cs = repeat (lattice_sizes 16 4800 1 s) (Z.to_nat (bc_repetitions cfg)).
Proof.
  intros env cfg inputs results len cs F P E I. unfold bench in E. destruct (negb _); [discriminate|].
  apply (loop_values env cfg inputs (fun len cs => exists s, side len s /\ cs = repeat (lattice_sizes 16 4800 1 s) (Z.to_nat (bc_repetitions cfg))) _ _ _ _ E); auto.
  - intros k dl r HI B. pose proof (proj1 (Forall_forall _ _) F dl HI) as HP. cbv beta in HP.
    destruct (length_lwe128 _ _ _ _ _ P HP B) as (L & s & S & FA). exists s. split; auto. apply repeat_of; auto.
  - intros ? ? [].
Qed.

(** When it completes. The amplified scheme: all noise is small and no scalar is near an end of its range. *)
Theorem C105_completes_lwe_partial : forall env cfg inputs,
  bc_primitive cfg = "cmp-vpir-lwe"%string -> 0 <= bc_repetitions cfg -> reads_bytes (be_abytes env) ->
  (forall k len, nth_error (bc_lengths cfg) k = Some len -> exists s t, side len (Z.of_nat s) /\ In (len, t) [(2 ^ 13, 3%nat); (2 ^ 23, 4%nat); (2 ^ 33, 7%nat)] /\
     reads_bytes (bi_rnd (inputs k)) /\
     forall r q, (r < Z.to_nat (bc_repetitions cfg))%nat -> (q <= 2 * t)%nat -> let c := rd_coins (bi_draws (inputs k) r) q in
       good_coins 4 (Z.to_nat 1100) (be_abytes env (Z.to_nat (4 * 1100 * Z.of_nat s))) s c /\ ordinary_guess s c) ->
  exists results, bench env cfg inputs = Some (Ok results).
Proof.
  intros env cfg inputs P RP SE H. unfold bench, valid_simulation. rewrite P. cbn [existsb String.eqb Ascii.eqb Bool.eqb orb negb].
  apply loop_completes. intros k dl N. cbn [Nat.add]. destruct (H k dl N) as (s & t & S & T & RR & C).
  assert (TE : t_ecc dl = Some t) by (destruct T as [T|[T|[T|[]]]]; injection T as <- <-; reflexivity).
  assert (HB : 84 * Z.of_nat s + 1 < 2 ^ 32). { assert (dl <= 2 ^ 33) by (destruct T as [T|[T|[T|[]]]]; injection T as <- <-; lia). unfold side in S. nia. }
  destruct (lwe_length_ok env cfg RP SE (inputs k) dl s t P S HB TE RR C) as (cs & E). eauto.
Qed.
(** The 128-bit scheme needs no luck with its scalars. *)
Theorem C105_completes_lwe128_partial : forall env cfg inputs,
  bc_primitive cfg = "cmp-vpir-lwe-128"%string -> 0 <= bc_repetitions cfg -> reads_bytes (be_abytes env) ->
  (forall k len, nth_error (bc_lengths cfg) k = Some len -> exists s, side len (Z.of_nat s) /\ 84 * Z.of_nat s + 1 < 2 ^ 32 /\ reads_bytes (bi_rnd (inputs k)) /\
     forall r, (r < Z.to_nat (bc_repetitions cfg))%nat ->
       good_coins 16 (Z.to_nat 4800) (be_abytes env (Z.to_nat (16 * 4800 * Z.of_nat s))) s (rd_coins (bi_draws (inputs k) r) 0)) ->
  exists results, bench env cfg inputs = Some (Ok results).
Proof.
  intros env cfg inputs P RP SE H. unfold bench, valid_simulation. rewrite P. cbn [existsb String.eqb Ascii.eqb Bool.eqb orb negb].
  apply loop_completes. intros k dl N. cbn [Nat.add]. destruct (H k dl N) as (s & S & HB & RR & C).
  destruct (lwe128_length_ok env cfg RP SE (inputs k) dl s P S HB RR C) as (cs & E). eauto.
Qed.
(** The Diffie-Hellman scheme: the table was built and no point of a retrieval has a short encoding. Here the figures need that as well. *)
Theorem C105_completes_dh_partial : forall env cfg inputs,
  bc_primitive cfg = "cmp-vpir-dh"%string -> 0 <= bc_repetitions cfg -> group_ok (be_group env) -> 0 < be_ncpu env ->
  (forall k len, nth_error (bc_lengths cfg) k = Some len -> len <> 2 ^ 33 ->
     exists db, 0 < len /\ reads_bytes (bi_rnd (inputs k)) /\
     create_random_elliptic (be_group env) (be_blake2 env) (be_ncpu env) (bi_rnd (inputs k)) (bi_sched (inputs k)) len true = Some (Ok db) /\
     forall r, (r < Z.to_nat (bc_repetitions cfg))%nat -> let d := bi_draws (inputs k) r in
       ordinary_points (be_group env) db (rd_r d) (rd_t d) (Z.to_nat (rd_index d mod (e_rows db * e_cols db) mod e_cols db))) ->
  exists results, bench env cfg inputs = Some (Ok results) /\
    forall len cs, In (len, cs) results -> exists s dig, side len s /\ cs = repeat (group_sizes (g_size (be_group env)) (zlen (be_blake2 env dig)) s) (Z.to_nat (bc_repetitions cfg)).
Proof.
  intros env cfg inputs P RP G NC H. unfold bench, valid_simulation. rewrite P. cbn [existsb String.eqb Ascii.eqb Bool.eqb orb negb].
  assert (B : forall k len, nth_error (bc_lengths cfg) k = Some len -> bench_length env cfg (inputs k) len = Some (Ok None) \/
    exists s dig, side len s /\ bench_length env cfg (inputs k) len = Some (Ok (Some (repeat (group_sizes (g_size (be_group env)) (zlen (be_blake2 env dig)) s) (Z.to_nat (bc_repetitions cfg)))))).
  { intros k dl N. destruct (Z.eq_dec dl (2 ^ 33)) as [->|NE].
    - left. unfold bench_length. rewrite P. rewrite Z.eqb_refl. reflexivity.
    - right. destruct (H k dl N NE) as (db & HL & RR & E & C). destruct (side_of dl HL) as (_ & S). exists (fst (calculate_num_rows_and_columns dl true)), (e_sub db).
      split; auto. rewrite (dh_length_ok env cfg (inputs k) dl _ db P NE RP G NC S RR E C). do 6 f_equal.
      destruct (create_good (be_group env) (be_blake2 env) (be_ncpu env) (bi_rnd (inputs k)) dl true G ltac:(intros; apply RR) HL NC _ db E) as (T & _ & _).
      rewrite (digest_hash _ _ _ T). reflexivity. }
  clear H. assert (X : forall lens k m, (forall i len, nth_error lens i = Some len -> bench_length env cfg (inputs (k + i)%nat) len = Some (Ok None) \/
      exists s dig, side len s /\ bench_length env cfg (inputs (k + i)%nat) len = Some (Ok (Some (repeat (group_sizes (g_size (be_group env)) (zlen (be_blake2 env dig)) s) (Z.to_nat (bc_repetitions cfg)))))) ->
      (forall len cs, In (len, cs) m -> exists s dig, side len s /\ cs = repeat (group_sizes (g_size (be_group env)) (zlen (be_blake2 env dig)) s) (Z.to_nat (bc_repetitions cfg))) ->
      exists results, bench_loop env cfg inputs k lens m = Some (Ok results) /\
        forall len cs, In (len, cs) results -> exists s dig, side len s /\ cs = repeat (group_sizes (g_size (be_group env)) (zlen (be_blake2 env dig)) s) (Z.to_nat (bc_repetitions cfg))).
  { induction lens as [|d lens IH]; intros k m HB HM; cbn [bench_loop]; [eauto|].
    assert (HB' : forall i len, nth_error lens i = Some len -> bench_length env cfg (inputs (S k + i)%nat) len = Some (Ok None) \/
      exists s dig, side len s /\ bench_length env cfg (inputs (S k + i)%nat) len = Some (Ok (Some (repeat (group_sizes (g_size (be_group env)) (zlen (be_blake2 env dig)) s) (Z.to_nat (bc_repetitions cfg)))))).
    { intros i len N. replace (S k + i)%nat with (k + S i)%nat by lia. apply HB. exact N. }
    destruct (HB 0%nat d eq_refl) as [E|(s & dig & S & E)]; rewrite Nat.add_0_r in E; rewrite E; apply IH; auto.
    intros len cs I. unfold results_set in I. apply in_app_or in I as [I|[I|[]]]; [apply filter_In in I as (I & _); auto|]. injection I as <- <-. eauto. }
  apply X; auto. intros ? ? [].
Qed.

(** What was retrieved. Under the same conditions it is the stored bit. *)
Theorem C105_retrieves_lwe_partial : forall s m abytes dmem dg t d, (0 < s)%nat -> 84 * Z.of_nat s + 1 < 2 ^ 32 -> exact_shape m s s -> binary m ->
  lwe_digest w32 (new_random_of_bytes 1100 (Z.of_nat s) abytes dmem) m = Ok dg ->
  (forall k, (k <= 2 * t)%nat -> good_coins 4 (Z.to_nat 1100) abytes s (rd_coins d k) /\ ordinary_guess s (rd_coins d k)) ->
  exists qs ans, lwe_once (params_32 (Z.of_nat s) (Z.of_nat s)) abytes m dg t d =
    Ok (qs, ans, elem m (Z.to_nat (rd_i d mod Z.of_nat s)) (Z.to_nat (rd_j d mod Z.of_nat s))).
Proof.
  intros s m abytes dmem dg t d HS HB X Y ED C.
  assert (FC : forall k, In k (range (repetitions t)) -> (k <= 2 * t)%nat) by (intros k Hk; apply in_seq in Hk; unfold repetitions in Hk; lia).
  destruct (once32_far s m HS HB X Y abytes dmem dg t d ED) as (qs & ans & _ & _ & _ & _ & E); [| |eauto];
    apply Forall_map, Forall_forall; intros k Hk; apply C; auto.
Qed.
Theorem C105_retrieves_dh_partial : forall g H db d, group_ok g -> table_ok g H db -> 0 < e_rows db ->
  let index := rd_index d mod (e_rows db * e_cols db) in
  ordinary_points g db (rd_r d) (rd_t d) (Z.to_nat (index mod e_cols db)) ->
  exists q a, dh_once g db d = Ok (q, a, nth (Z.to_nat index) (e_entries db) 0).
Proof. intros g H db d G T HR index O. destruct (dh_once_ok g H db d G T HR O) as (q & a & E & _). eauto. Qed.

(** What a user would expect and is not so. Any other length ends the whole run without results. *)
Theorem C105_other_length_refuted : forall env cfg inputs results len,
  bc_primitive cfg = "cmp-vpir-lwe"%string -> In len (bc_lengths cfg) -> len <> 2 ^ 13 -> len <> 2 ^ 23 -> len <> 2 ^ 33 -> bench env cfg inputs <> Some (Ok results).
Proof.
  intros env cfg inputs results len P I N1 N2 N3 E. unfold bench in E. destruct (negb _); [discriminate|].
  destruct (loop_needs _ _ _ _ _ _ _ E len I) as (k & r & B). revert B. unfold bench_length. rewrite P. cbn [String.eqb Ascii.eqb Bool.eqb andb].
  destruct (t_ecc len) as [t|] eqn:T. { apply t_ecc_cases in T as [T|[T|[T|[]]]]; congruence. }
  destruct (create_lwe32 _ _ _ _); cbn [bind]; discriminate.
Qed.
(** One unlucky scalar, the first of some repetition, ends the whole run although all other queries of the repetition are answered well: the
    decoder only ever considers the first value. *)
Theorem C105_first_guess_refuted : forall env cfg inputs results k len s t r m,
  bc_primitive cfg = "cmp-vpir-lwe"%string -> 0 <= bc_repetitions cfg -> reads_bytes (be_abytes env) ->
  nth_error (bc_lengths cfg) k = Some len -> side len (Z.of_nat s) -> In (len, t) [(2 ^ 13, 3%nat); (2 ^ 23, 4%nat); (2 ^ 33, 7%nat)] ->
  reads_bytes (bi_rnd (inputs k)) -> (r < Z.to_nat (bc_repetitions cfg))%nat -> let d := bi_draws (inputs k) r in
  (forall q, (q <= 2 * t)%nat -> good_coins 4 (Z.to_nat 1100) (be_abytes env (Z.to_nat (4 * 1100 * Z.of_nat s))) s (rd_coins d q)) ->
  (forall q, (0 < q <= 2 * t)%nat -> ordinary_guess s (rd_coins d q)) -> le_dec (c_t (rd_coins d 0)) < Z.of_nat s ->
  create_random_binary (bi_rnd (inputs k) (Z.to_nat (Z.quot (Z.of_nat s * Z.of_nat s) 8 + 1))) (Z.of_nat s) (Z.of_nat s) = Ok m ->
  elem m (Z.to_nat (rd_i d mod Z.of_nat s)) (Z.to_nat (rd_j d mod Z.of_nat s)) = 1 ->
  bench env cfg inputs <> Some (Ok results).
Proof.
  intros env cfg inputs results k dl s t r m P RP SE N S T RR Hr d C F B0 EM E1 E. unfold bench in E. destruct (negb _); [discriminate|].
  destruct (loop_needs_at _ _ _ _ _ _ _ E k dl N) as (cs & B). cbn [Nat.add] in B. revert B.
  assert (TE : t_ecc dl = Some t) by (destruct T as [T|[T|[T|[]]]]; injection T as <- <-; reflexivity).
  assert (HB : 84 * Z.of_nat s + 1 < 2 ^ 32). { assert (dl <= 2 ^ 33) by (destruct T as [T|[T|[T|[]]]]; injection T as <- <-; lia). unfold side in S. nia. }
  exact (lwe_length_abort env cfg RP SE (inputs k) dl s t r m cs P S HB TE RR Hr C F B0 EM E1).
Qed.
(** A completed run does not mean that the right bits were retrieved: nothing is compared. The 128-bit client that draws the scalar 0 reads 0
    whatever is stored (and completes, by [C105_completes_lwe128_partial]). *)
Theorem C105_unchecked_refuted : forall s m abytes dg d, (0 < s)%nat -> 84 * Z.of_nat s + 1 < 2 ^ 32 -> exact_shape m s s -> binary m ->
  lwe_digest w128 (new_random128_of_bytes 4800 (Z.of_nat s) abytes) m = Ok dg -> good_coins 16 (Z.to_nat 4800) abytes s (rd_coins d 0) ->
  le_dec (c_t (rd_coins d 0)) = 0 ->
  exists q a, lwe128_once (params_128 (Z.of_nat s) (Z.of_nat s)) abytes m dg d = Ok (q, a, 0).
Proof.
  intros s m abytes dg d HS HB X Y ED GC T0. destruct (once128 s m HS HB X Y abytes dg d ED GC) as (q & a & _ & _ & _ & _ & E). exists q, a. rewrite E.
  set (i := Z.to_nat (rd_i d mod Z.of_nat s)) in *. set (j := Z.to_nat (rd_j d mod Z.of_nat s)) in *.
  clear E. destruct (elem m i j =? 0); [reflexivity|]. rewrite T0, Z.add_0_r.
  assert (Hj : (j < s)%nat) by (apply (intn_ok s m HS HB X Y (rd_j d))). destruct GC as (D & N83).
  assert (LN : length (c_noise (rd_coins d 0)) = s) by apply D.
  assert (L84 : Z.abs (noise (map stored_sample (c_noise (rd_coins d 0))) m s j) <= 84 * Z.of_nat s).
  { apply (noise_default (map stored_sample (c_noise (rd_coins d 0))) m s s 84); auto. rewrite map_length; auto.
    apply Forall_map. eapply Forall_impl; [|exact N83]. cbv beta. intros g Hg. unfold stored_sample. destruct (g <? 0); lia. }
  assert (U : noise (map stored_sample (c_noise (rd_coins d 0))) m s j <= 83 * Z.of_nat s).
  { apply noise_upper; auto. }
  rewrite (inr_small w128 (in_range128 (84 * Z.of_nat s)) (84 * Z.of_nat s + 1) (84 * Z.of_nat s - 1)). reflexivity. all: try (unfold w128; lia). apply range128; unfold w32; lia.
Qed.
(** The figures are not the sizes of the messages: these are 8 bytes longer per matrix, and 4 more for the amplified scheme. *)
Theorem C105_messages_refuted : forall s t (qs : list matrix) (q : matrix), (0 < s)%nat ->
  Forall (fun m => exact_shape m 1 s) qs -> length qs = (2 * t + 1)%nat -> exact_shape q 1 s ->
  (exists b, matrices_to_bytes qs = Ok b /\ zlen b = 4 * Z.of_nat s * (2 * Z.of_nat t + 1) + 8 * (2 * Z.of_nat t + 1) + 4) /\
  zlen (matrix128_to_bytes q) = 16 * Z.of_nat s + 8.
Proof.
  intros s t qs q HS F L ((_ & _ & _) & LQ). split.
  - destruct qs as [|m0 ms]; [cbn in L; lia|]. inversion F as [|? ? ((R0 & C0 & _) & L0) F']; subst.
    rewrite matrices_to_bytes_spec.
    + eexists. split; [reflexivity|]. rewrite zlen_app. unfold zlen at 1. rewrite be_enc_length.
      assert (LF : forall l, Forall (fun m => exact_shape m 1 s) l -> zlen (flat_map matrix_to_bytes l) = zlen l * (8 + 4 * Z.of_nat s)).
      { induction 1 as [|x l (_ & LX) _ IH]; [reflexivity|]. cbn [flat_map]. rewrite zlen_app, matrix_to_bytes_length, IH. unfold zlen. rewrite LX. cbn [length]. nia. }
      rewrite LF by auto. unfold zlen. rewrite L. nia.
    + eapply Forall_impl; [|exact F']. cbv beta. intros x ((RX & CX & _) & LX). rewrite RX, CX, LX, R0, C0, L0. auto.
  - unfold matrix128_to_bytes, zlen. rewrite !app_length, !be_enc_length.
    assert (LF : forall l, length (flat_map (le_enc 16) l) = (16 * length l)%nat) by (induction l as [|x l IH]; [reflexivity|cbn [flat_map]; rewrite app_length, IH, le_enc_length; cbn [length]; lia]).
    rewrite LF, LQ. lia.
Qed.
Print Assumptions C105_report.
Print Assumptions C105_figures_lwe.
Print Assumptions C105_figures_lwe128.
Print Assumptions C105_completes_lwe_partial.
Print Assumptions C105_completes_lwe128_partial.
Print Assumptions C105_completes_dh_partial.
Print Assumptions C105_retrieves_lwe_partial.
Print Assumptions C105_retrieves_dh_partial.
Print Assumptions C105_other_length_refuted.
Print Assumptions C105_first_guess_refuted.
Print Assumptions C105_unchecked_refuted.
Print Assumptions C105_messages_refuted.

(** Concrete cases. All random bytes are 255 (all stored bits are 1), the noise and the secret are 0, the scalar is 2^31 unless said otherwise. *)
Lemma bytes_repeat b n : is_byte b -> bytes (repeat b n).
Proof. intros B. induction n; constructor; auto. Qed.
Definition ex_coins (word n s : nat) (t : list Z) : lwe_coins := mkC t (repeat 0 (word * n)) (repeat 0 s) (fun _ => 0) (fun _ => 0) (fun _ => 0).
Definition half : list Z := [0; 0; 0; 128].
Definition ex_env : bench_env := mkEnv (toy_group false) toy_hash toy_hash 4 (repeat 0) (fun _ => 0).
Definition ex_in (coins : nat -> lwe_coins) : bench_input := mkIn (repeat 255) (all_done 8) (fun _ => mkRep 5 7 coins 3 1 1).
Definition ex_cfg (prim : string) (lens : list Z) : bench_config := mkCfg lens 30 prim 1 1.

Lemma ex_reads b : is_byte b -> reads_bytes (repeat b).
Proof. intros B n. split; [apply bytes_repeat; auto|apply repeat_length]. Qed.
Lemma ex_side13 : side (2 ^ 13) (Z.of_nat 91).
Proof. unfold side. lia. Qed.
Lemma ex_good word n s t : bytes t -> length t = word ->
  good_coins word n (repeat 0 (Z.to_nat (Z.of_nat word * Z.of_nat n * Z.of_nat s))) s (ex_coins word n s t).
Proof.
  intros B L. split.
  - unfold drawn, ex_coins. cbn [c_t c_secret c_noise]. rewrite !repeat_length. conj_split; auto; try (apply bytes_repeat; unfold is_byte, w8; lia).
    rewrite <- !Nat2Z.inj_mul, Nat2Z.id. reflexivity.
  - cbn [c_noise ex_coins]. apply Forall_forall. intros g Hg. apply repeat_spec in Hg. subst. lia.
Qed.
Lemma ex_half_bytes : bytes half.
Proof. repeat constructor; unfold w8; lia. Qed.

Example C105_completes_lwe_example : exists results, bench ex_env (ex_cfg "cmp-vpir-lwe" [2 ^ 13]) (fun _ => ex_in (fun _ => ex_coins 4 (Z.to_nat 1100) 91 half)) = Some (Ok results) /\
  exists cs, In (2 ^ 13, cs) results /\ cs = repeat (mkChunk (4 * 1100 * 91) (Some (4 * 91 * 7, 4 * 91 * 7))) 30.
Proof.
  destruct (C105_completes_lwe_partial ex_env (ex_cfg "cmp-vpir-lwe" [2 ^ 13]) (fun _ => ex_in (fun _ => ex_coins 4 (Z.to_nat 1100) 91 half))) as (results & E); auto.
  - cbn. lia.
  - apply ex_reads. unfold is_byte, w8. lia.
  - intros [|k] len N; [|destruct k; discriminate]. injection N as <-. exists 91%nat, 3%nat. split; [exact ex_side13|]. split; [left; auto|].
    split; [apply ex_reads; unfold is_byte, w8; lia|]. intros r q Hr Hq c. cbn [ex_in bi_draws rd_coins] in c. subst c. split.
    + pose proof (ex_good 4 (Z.to_nat 1100) 91 half ex_half_bytes eq_refl) as G. rewrite (Z2Nat.id 1100) in G by lia; change (Z.of_nat 4) with 4 in G. exact G.
    + unfold ordinary_guess. cbn [c_t ex_coins]. change (le_dec half) with (2 ^ 31). lia.
  - exists results. split; auto. assert (F : Forall (fun l => 0 < l) (bc_lengths (ex_cfg "cmp-vpir-lwe" [2 ^ 13]))) by (constructor; [lia|constructor]).
    destruct (C105_report _ _ _ _ F E) as (_ & K & _). destruct (proj2 (K (2 ^ 13))) as (cs & I). { split; [left; auto|]. intros (A & _). discriminate A. }
    exists cs. split; auto. destruct (C105_figures_lwe _ _ _ _ _ _ F eq_refl E I) as (s & t & S & T & ->).
    rewrite (side_unique _ _ _ S ex_side13). destruct T as [T|[T|[T|[]]]]; pose proof (f_equal fst T) as T1; pose proof (f_equal snd T) as T2; cbn [fst snd] in T1, T2; try lia. subst t. reflexivity.
Qed.
Example C105_completes_lwe128_example : exists results, bench ex_env (ex_cfg "cmp-vpir-lwe-128" [2 ^ 13; 1000]) (fun k => ex_in (fun _ => ex_coins 16 (Z.to_nat 4800) (match k with O => 91 | _ => 32 end) (repeat 0 16)))
    = Some (Ok results) /\ exists cs, In (1000, cs) results /\ cs = repeat (mkChunk (16 * 4800 * 32) (Some (16 * 32, 16 * 32))) 30.
Proof.
  assert (S32 : side 1000 (Z.of_nat 32)) by (unfold side; lia).
  destruct (C105_completes_lwe128_partial ex_env (ex_cfg "cmp-vpir-lwe-128" [2 ^ 13; 1000]) (fun k => ex_in (fun _ => ex_coins 16 (Z.to_nat 4800) (match k with O => 91 | _ => 32 end) (repeat 0 16)))) as (results & E); auto.
  - cbn. lia.
  - apply ex_reads. unfold is_byte, w8. lia.
  - intros k len N. assert (X : (k = 0%nat /\ len = 2 ^ 13) \/ (k = 1%nat /\ len = 1000)).
    { destruct k as [|[|k]]; [injection N as <-; auto|injection N as <-; auto|destruct k; discriminate]. }
    destruct X as [(-> & ->)|(-> & ->)]; [exists 91%nat|exists 32%nat]; (split; [try exact ex_side13; exact S32|]; split; [lia|]; split; [apply ex_reads; unfold is_byte, w8; lia|];
      intros r Hr; cbn [ex_in bi_draws rd_coins]).
    + pose proof (ex_good 16 (Z.to_nat 4800) 91 (repeat 0 16) ltac:(apply bytes_repeat; unfold is_byte, w8; lia) eq_refl) as G. rewrite (Z2Nat.id 4800) in G by lia; change (Z.of_nat 16) with 16 in G. exact G.
    + pose proof (ex_good 16 (Z.to_nat 4800) 32 (repeat 0 16) ltac:(apply bytes_repeat; unfold is_byte, w8; lia) eq_refl) as G. rewrite (Z2Nat.id 4800) in G by lia; change (Z.of_nat 16) with 16 in G. exact G.
  - exists results. split; auto. assert (F : Forall (fun l => 0 < l) (bc_lengths (ex_cfg "cmp-vpir-lwe-128" [2 ^ 13; 1000]))) by (repeat (constructor; [lia|]); constructor).
    destruct (C105_report _ _ _ _ F E) as (_ & K & _). destruct (proj2 (K 1000)) as (cs & I). { split; [right; left; auto|]. intros (A & _). discriminate A. }
    exists cs. split; auto. destruct (C105_figures_lwe128 _ _ _ _ _ _ F eq_refl E I) as (s & S & ->). rewrite (side_unique _ _ _ S S32). reflexivity.
Qed.
(** the scalar 0 was drawn there: the client read 0, although 1 is stored everywhere *)
Example C105_unchecked_example : let d := mkRep 5 7 (fun _ => ex_coins 16 (Z.to_nat 4800) 32 (repeat 0 16)) 0 0 0 in
  exists m dg q a, create_lwe128 (repeat 255) (repeat 0 (Z.to_nat (16 * 4800 * Z.of_nat 32))) 1000 = Ok (m, dg) /\
    lwe128_once (params_128 32 32) (repeat 0 (Z.to_nat (16 * 4800 * Z.of_nat 32))) m dg d = Ok (q, a, 0) /\ elem m 5 7 = 1.
Proof.
  assert (T0 : le_dec (c_t (ex_coins 16 (Z.to_nat 4800) 32 (repeat 0 16))) = 0) by reflexivity.
  pose proof (ex_good 16 (Z.to_nat 4800) 32 (repeat 0 16) ltac:(apply bytes_repeat; unfold is_byte, w8; lia) eq_refl) as G. rewrite (Z2Nat.id 4800) in G by lia; change (Z.of_nat 16) with 16 in G.
  revert G T0. generalize (ex_coins 16 (Z.to_nat 4800) 32 (repeat 0 16)). intros c G T0 d.
  assert (S32 : side 1000 (Z.of_nat 32)) by (unfold side; lia).
  assert (B255 : reads_bytes (repeat 255)) by (apply ex_reads; unfold is_byte, w8; lia).
  destruct (created128 1000 32 (repeat 255) (repeat 0 (Z.to_nat (16 * 4800 * Z.of_nat 32))) S32 B255 ltac:(apply bytes_repeat; unfold is_byte, w8; lia)) as (m & dg & E & X & Y & ED & _ & EM).
  { rewrite repeat_length. rewrite seed_size by lia. reflexivity. }
  revert G E ED. generalize (repeat 0 (Z.to_nat (16 * 4800 * Z.of_nat 32))). intros ab G E ED.
  destruct (C105_unchecked_refuted 32 m _ dg d ltac:(lia) ltac:(lia) X Y ED (G : good_coins _ _ _ _ (rd_coins d 0))) as (q & a & EO); [exact T0|]. exists m, dg, q, a. split; [exact E|]. split; [exact EO|].
  clear E EO ED G.
  destruct (random_binary 32 32 (repeat 255 (Z.to_nat (Z.quot (Z.of_nat 32 * Z.of_nat 32) 8 + 1))) ltac:(lia) ltac:(lia) ltac:(apply bytes_repeat; unfold is_byte, w8; lia)) as (m' & E' & _ & _ & N); [reflexivity|].
  assert (m' = m) by congruence. subst m'.
  unfold elem. assert (CM : m_cols m = 32). { apply create_binary_dims in E' as (_ & C'). exact C'. } rewrite CM.
  replace (Z.to_nat 32 * 5 + 7)%nat with 167%nat by reflexivity. rewrite N by lia. vm_compute. reflexivity.
Qed.
Example C105_retrieves_lwe_example : good_coins 4 (Z.to_nat 1100) (repeat 0 (Z.to_nat (4 * 1100 * Z.of_nat 2))) 2 (ex_coins 4 (Z.to_nat 1100) 2 half) /\
  ordinary_guess 2 (ex_coins 4 (Z.to_nat 1100) 2 half) /\ exists dg, lwe_digest w32 (new_random_of_bytes 1100 2 (repeat 0 (Z.to_nat (4 * 1100 * Z.of_nat 2))) (fun _ => 0)) (mkM 2 2 [1; 0; 1; 1]) = Ok dg.
Proof.
  split; [|split].
  - pose proof (ex_good 4 (Z.to_nat 1100) 2 half ex_half_bytes eq_refl) as G. rewrite (Z2Nat.id 1100) in G by lia; change (Z.of_nat 4) with 4 in G. exact G.
  - unfold ordinary_guess. cbn [c_t ex_coins]. change (le_dec half) with (2 ^ 31). lia.
  - eexists. vm_compute. reflexivity.
Qed.
Example C105_other_length_example : In 1000 [2 ^ 13; 1000] /\ 1000 <> 2 ^ 13 /\ 1000 <> 2 ^ 23 /\ 1000 <> 2 ^ 33.
Proof. conj_split; try lia. right; left; auto. Qed.
(** every query but the first of each repetition is fine, and all stored bits are 1 *)
Example C105_first_guess_example : forall results,
  bench ex_env (ex_cfg "cmp-vpir-lwe" [2 ^ 13]) (fun _ => ex_in (fun q => ex_coins 4 (Z.to_nat 1100) 91 (match q with O => [7; 0; 0; 0] | _ => half end))) <> Some (Ok results).
Proof.
  intros results.
  destruct (random_binary 91 91 (repeat 255 (Z.to_nat (Z.quot (Z.of_nat 91 * Z.of_nat 91) 8 + 1))) ltac:(lia) ltac:(lia) ltac:(apply bytes_repeat; unfold is_byte, w8; lia)) as (m & E & X & _ & N); [reflexivity|].
  assert (B7 : bytes [7; 0; 0; 0]) by (repeat constructor; unfold w8; lia).
  apply (C105_first_guess_refuted ex_env (ex_cfg "cmp-vpir-lwe" [2 ^ 13]) _ results 0 (2 ^ 13) 91 3 0 m); auto.
  - cbn. lia.
  - apply ex_reads. unfold is_byte, w8. lia.
  - exact ex_side13.
  - left. auto.
  - apply ex_reads. unfold is_byte, w8. lia.
  - cbn. lia.
  - intros q Hq. cbn [ex_in bi_draws rd_coins].
    pose proof (ex_good 4 (Z.to_nat 1100) 91 (match q with O => [7; 0; 0; 0] | _ => half end) ltac:(destruct q; auto; exact ex_half_bytes) ltac:(destruct q; reflexivity)) as G.
    rewrite (Z2Nat.id 1100) in G by lia; change (Z.of_nat 4) with 4 in G. exact G.
  - intros q Hq. cbn [ex_in bi_draws rd_coins]. destruct q; [lia|]. unfold ordinary_guess. cbn [c_t ex_coins]. change (le_dec half) with (2 ^ 31). lia.
  - cbn. lia.
  - cbn [ex_in bi_draws rd_i rd_j]. unfold elem. destruct X as ((_ & -> & _) & _). replace (Z.to_nat (Z.of_nat 91) * _ + _)%nat with 462%nat by reflexivity.
    rewrite N by lia. vm_compute. reflexivity.
Qed.
Example C105_completes_dh_example : bench ex_env (ex_cfg "cmp-vpir-dh" [49; 2 ^ 33]) (fun _ => ex_in (fun _ => ex_coins 0 0 0 [])) =
    Some (Ok [(49, repeat (group_sizes 2 (zlen (toy_hash [])) 7) 30)]) /\
  exists db, create_random_elliptic (toy_group false) toy_hash 4 (repeat 255) (all_done 8) 49 true = Some (Ok db) /\ ordinary_points (toy_group false) db 1 1 3.
Proof.
  split; [vm_compute; reflexivity|]. eexists. split; [vm_compute; reflexivity|]. unfold ordinary_points. conj_split; try (intros; apply toy_group_fixed). vm_compute. discriminate.
Qed.
Example C105_messages_example : Forall (fun m => exact_shape m 1 2) (repeat (mkM 1 2 [3; 4]) 7) /\ length (repeat (mkM 1 2 [3; 4]) 7) = (2 * 3 + 1)%nat /\
  exists b, matrices_to_bytes (repeat (mkM 1 2 [3; 4]) 7) = Ok b /\ zlen b = 4 * 2 * 7 + 60.
Proof.
  split; [|split; [reflexivity|eexists; split; vm_compute; reflexivity]]. repeat constructor; cbn; lia.
Qed.
