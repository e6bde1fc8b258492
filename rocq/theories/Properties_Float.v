(** Properties C113-C115: floating-point computations of sizes, of CPU times and of the logged database size. Vocabulary in
    FloatSpec.v. *)
From Coq Require Import String Reals ZArith List Lia Lra.
From Flocq Require Import Core.
From Verif Require Import GoBase BaseFacts MerkleModel PredicateModel PredicateSpec PointModel DHModel LWEModel MultiModel DirectoryModel DirectorySpec FrontendModel
  FilesModel KeyPageModel KeyPageSpec KeyPageProofs3 SessionModel SessionSpec SessionProofs2
  FloatModel FloatSpec FloatProofs FloatProofs2 ToyInstances ToyDirectory Properties_KeyPage Properties_Session.
Import ListNotations.
Open Scope Z_scope.

(** ** C113: sizes computed with floating-point numbers are exact *)

(** The rounded-up quotient, by which rows are dealt to threads and bits to blocks, is the least number of parts that suffices. *)
Theorem C113_ceiling (rnd : R -> R) (a b : Z) : nearest rnd -> 0 <= a < 2 ^ 53 -> 0 < b < 2 ^ 53 ->
  let c := float_ceil_div rnd a b in a <= c * b /\ forall d, a <= d * b -> c <= d.
Proof.
  intros N A B c. set (q := (a + b - 1) / b). assert (Q : (q - 1) * b < a <= q * b).
  { pose proof (Z.div_mod (a + b - 1) b ltac:(lia)) as E. pose proof (Z.mod_pos_bound (a + b - 1) b ltac:(lia)). fold q in E. lia. }
  assert (E : c = q) by (apply float_ceil_div_ok; assumption). rewrite E. split; [lia|]. intros d D. nia.
Qed.
Print Assumptions C113_ceiling.

(** A number of blocks is increased to the least perfect square that is not smaller. *)
Theorem C113_next_square (rnd : R -> R) (n : Z) : nearest rnd -> 0 <= n <= 2 ^ 52 ->
  exists k, 0 <= k /\ float_next_square rnd n = k * k /\ n <= k * k /\ forall j, n <= j * j -> k * k <= j * j.
Proof.
  intros N H. rewrite float_next_square_ok by assumption. cbn zeta. destruct (Z.sqrt_spec n) as [A B]; [lia|]. set (k := Z.sqrt n) in *.
  assert (K0 : 0 <= k) by apply Z.sqrt_nonneg. destruct (Z.eqb_spec (k * k) n) as [E|E].
  - exists k. conj_split; lia.
  - exists (k + 1). unfold Z.succ in B. conj_split; try lia. intros j J.
    assert (J' : k < Z.abs j). { destruct (Z_le_gt_dec (Z.abs j) k) as [C|C]; [|lia]. assert (Z.abs j * Z.abs j <= k * k) by (apply Z.mul_le_mono_nonneg; lia). lia. }
    assert ((k + 1) * (k + 1) <= Z.abs j * Z.abs j) by (apply Z.mul_le_mono_nonneg; lia). lia.
Qed.
Print Assumptions C113_next_square.

(** A square matrix has the least number of rows and columns with room for the blocks. *)
Theorem C113_matrix (rnd : R -> R) (n : Z) : nearest rnd -> 0 <= n <= 2 ^ 52 ->
  exists k, 0 <= k /\ float_rows_and_columns rnd n true = (k, k) /\ n <= k * k /\ forall j, 0 <= j -> n <= j * j -> k <= j.
Proof.
  intros N H. destruct (C113_next_square rnd n N H) as (k & K & E & L & M). exists k. unfold float_rows_and_columns. rewrite E.
  assert (K1 : k <= 2 ^ 26). { assert (k * k <= 2 ^ 26 * 2 ^ 26) by (apply M; lia). destruct (Z_le_gt_dec k (2 ^ 26)) as [|C]; [assumption|]. assert ((2 ^ 26 + 1) * (2 ^ 26 + 1) <= k * k) by (apply Z.mul_le_mono_nonneg; lia). lia. }
  assert (R1 : float_sqrt rnd (k * k) = k).
  { rewrite float_sqrt_ok; [apply Z.sqrt_square; exact K|exact N|]. assert (k * k <= 2 ^ 26 * 2 ^ 26) by (apply Z.mul_le_mono_nonneg; lia). nia. }
  rewrite R1. conj_split; auto. intros j J LJ. specialize (M j LJ). destruct (Z_le_gt_dec k j) as [|C]; [assumption|].
  assert ((j + 1) * (j + 1) <= k * k) by (apply Z.mul_le_mono_nonneg; lia). lia.
Qed.
Print Assumptions C113_matrix.

(** The length of a Merkle proof is the least number of levels with room for the leaves, and the number of leaves is the power of two. *)
Theorem C113_tree (rnd log2 exp2 : R -> R) (n : Z) : nearest rnd -> log2_ok log2 -> exp2_ok exp2 -> 1 <= n <= 2 ^ 38 ->
  let d := float_depth rnd log2 n in
  0 <= d /\ n <= 2 ^ d /\ (forall e, 0 <= e -> n <= 2 ^ e -> d <= e) /\ float_branches rnd log2 exp2 n = 2 ^ d.
Proof.
  intros N L E H d. assert (D : d = Z.log2_up n) by (apply float_depth_ok; assumption). rewrite D. conj_split.
  - apply Z.log2_up_nonneg.
  - destruct (Z.eq_dec n 1) as [->|]; [cbn; lia|]. apply Z.log2_up_spec. lia.
  - intros e E0 LE. rewrite <- (Z.log2_up_pow2 e E0). apply Z.log2_up_le_mono. exact LE.
  - apply float_branches_ok; assumption.
Qed.
Print Assumptions C113_tree.

(** So the integer functions in the other models are what the code computes. *)
Theorem C113_models (rnd log2 : R -> R) : nearest rnd -> log2_ok log2 ->
  (forall a b, 0 <= a < 2 ^ 53 -> 0 < b < 2 ^ 53 -> float_ceil_div rnd a b = ceil_div a b) /\
  (forall bs es n, 0 <= n < 2 ^ 53 -> 0 < bs * es < 2 ^ 53 -> float_ceil_div rnd n (bs * es) = bits_to_blocks bs es n) /\
  (forall n, 0 <= n <= 2 ^ 52 -> float_next_square rnd n = increase_to_next_square n) /\
  (forall n m, 0 <= n <= 2 ^ 52 -> float_rows_and_columns rnd n m = calculate_num_rows_and_columns n m) /\
  (forall n, 0 <= n <= 2 ^ 52 -> float_sqrt rnd n = Z.sqrt n) /\
  (forall n : nat, 1 <= Z.of_nat n <= 2 ^ 38 -> float_depth rnd log2 (Z.of_nat n) = Z.of_nat (ceil_log2 n)).
Proof.
  intros N L. assert (NS : forall n, 0 <= n <= 2 ^ 52 -> float_next_square rnd n = increase_to_next_square n).
  { intros n H. rewrite float_next_square_ok by assumption. reflexivity. }
  conj_split.
  - intros a b A B. unfold ceil_div. apply float_ceil_div_ok; try assumption. set (q := (a + b - 1) / b).
    pose proof (Z.div_mod (a + b - 1) b ltac:(lia)) as E. pose proof (Z.mod_pos_bound (a + b - 1) b ltac:(lia)). fold q in E. lia.
  - intros bs es n A B. unfold bits_to_blocks. set (b := bs * es) in *. clearbody b. apply float_ceil_div_ok; try assumption. set (q := - n / b).
    pose proof (Z.div_mod (- n) b ltac:(lia)) as E. pose proof (Z.mod_pos_bound (- n) b ltac:(lia)). fold q in E. lia.
  - exact NS.
  - intros n m H. unfold calculate_num_rows_and_columns. rewrite <- NS by exact H.
    destruct m; [|reflexivity]. destruct (C113_matrix rnd n N H) as (k & K & E & LE & M).
    destruct (C113_next_square rnd n N H) as (k' & K' & E' & LE' & M'). rewrite E, E'.
    assert (k = k'). { specialize (M' k LE). specialize (M k' K' LE'). nia. } subst k'. rewrite Z.sqrt_square by exact K. reflexivity.
  - intros n H. apply float_sqrt_ok; assumption.
  - intros n H. rewrite float_depth_ok by assumption. unfold ceil_log2. destruct (Z.eq_dec (Z.of_nat n) 1) as [E|E].
    + assert (n = 1%nat) by lia. subst n. reflexivity.
    + destruct (Nat.log2_up_spec n) as [A B]; [lia|]. assert (P : (0 < Nat.log2_up n)%nat) by (apply Nat.log2_up_pos; lia).
      set (d := Nat.log2_up n) in *. apply Z.log2_up_unique; [lia|]. rewrite <- Nat2Z.inj_pred by exact P.
      change 2 with (Z.of_nat 2). rewrite <- !Nat2Z.inj_pow. lia.
Qed.
Print Assumptions C113_models.

(** The bounds are sharp: one block more than 2^52 is not increased although it is not a square, and beyond 2^53 a part is missing. *)
Theorem C113_limits (rnd : R -> R) : nearest rnd ->
  float_next_square rnd (2 ^ 52 + 1) = 2 ^ 52 + 1 /\ (forall k, k * k <> 2 ^ 52 + 1) /\
  float_ceil_div rnd (2 ^ 54 + 1) 1 * 1 < 2 ^ 54 + 1.
Proof.
  intros N. split; [apply next_square_big; exact N|]. split; [|rewrite ceil_div_big by exact N; lia].
  intros k E. assert (A : Z.abs k * Z.abs k = 2 ^ 52 + 1) by lia. set (j := Z.abs k) in *. assert (0 <= j) by lia. clearbody j.
  destruct (Z_le_gt_dec j (2 ^ 26)) as [C|C].
  - assert (j * j <= 2 ^ 26 * 2 ^ 26) by (apply Z.mul_le_mono_nonneg; lia). lia.
  - assert ((2 ^ 26 + 1) * (2 ^ 26 + 1) <= j * j) by (apply Z.mul_le_mono_nonneg; lia). lia.
Qed.
Print Assumptions C113_limits.

(** ** C114: the monitor measures CPU time *)

(** In every history of a monitor, each record is the CPU time used since its creation or its last reset, to a hundredth of a
    millisecond, and is never negative. *)
Theorem C114_records (rnd : R -> R) (r0 : rusage) (ops : list (mon_op * rusage)) (i : nat) (o : mon_op) (r : rusage) :
  nearest rnd -> usage_ok r0 -> in_order r0 ops -> nth_error ops i = Some (o, r) -> o <> MReset ->
  exists v, nth_error (mon_session rnd r0 ops) i = Some (Some v) /\ (0 <= v)%R /\
    (Rabs (v - IZR (total_us r - total_us (since r0 ops i)) / 1000) <= / 100)%R.
Proof.
  intros N U I E O. destruct (mon_run_ok rnd N ops r0 r0 i o r U ltac:(unfold later; lia) I E) as (out & EO & M).
  destruct o; [contradiction| |]; destruct M as (v & -> & V); exists v; split; assumption.
Qed.
Print Assumptions C114_records.

(** The records of a monitor that is reset with each record add up to the CPU time used, to a hundredth of a millisecond each:
    nothing is counted twice and nothing is lost. *)
Fixpoint add_up (l : list (option R)) : R := match l with Some v :: t => (v + add_up t)%R | None :: t => add_up t | [] => 0%R end.
Theorem C114_adds_up (rnd : R -> R) : nearest rnd -> forall (rs : list rusage) (r0 : rusage), usage_ok r0 ->
  in_order r0 (map (fun r => (MRecordAndReset, r)) rs) ->
  (Rabs (add_up (mon_session rnd r0 (map (fun r => (MRecordAndReset, r)) rs)) - IZR (total_us (last rs r0) - total_us r0) / 1000)
     <= IZR (zlen rs) / 100)%R.
Proof.
  intros N. induction rs as [|r t IH]; intros r0 U I.
  - change (zlen []) with 0. cbn -[IZR]. rewrite Z.sub_diag. replace (0 - 0 / 1000)%R with 0%R by lra. rewrite Rabs_R0. lra.
  - cbn [map] in *. destruct I as (U1 & L1 & I). specialize (IH r U1 I). unfold mon_session in *. cbn [mon_run mon_step add_up].
    destruct (record_ok rnd N r0 r U U1 L1) as [_ Q]. assert (EL : last (r :: t) r0 = last t r).
    { destruct t as [|y t]; [reflexivity|]. cbn [last]. clear. revert y. induction t as [|z t IH]; intros y; [reflexivity|]. cbn [last] in *. apply IH. }
    rewrite EL. unfold zlen in *. cbn [length]. rewrite Nat2Z.inj_succ, succ_IZR. rewrite minus_IZR in *.
    set (A := add_up _) in *. set (B := rnd _) in *. clearbody A B. clear - IH Q. unfold Rabs in *. repeat destruct Rcase_abs; lra.
Qed.
Print Assumptions C114_adds_up.

(** ** C115: the database size a server logs *)

(** A server for point queries logs the number of bytes it stores, in GiB: within one part in 40000 and a millionth of a GiB. *)
Theorem C115_point_servers (rnd : R -> R) G H B es scheme sid m addr svc : nearest rnd ->
  started_as G H B es scheme sid m = Ok (addr, svc) -> In scheme [lit "pointPIR"; lit "pointVPIR"] ->
  exists db, svc = PointService db /\ (zlen (b_entries db) <= 2 ^ 50 ->
    (Rabs (logged_size rnd svc - IZR (zlen (b_entries db)) / IZR (2 ^ 30)) <= IZR (zlen (b_entries db)) / IZR (2 ^ 30) / 40000 + / 1000000)%R).
Proof.
  intros N E I. unfold started_as in E. destruct (start_inv _ _ _ _ _ _ _ _ _ _ _ _ _ E) as (addrs & names & _ & _ & EN & EL & _).
  assert (X : exists db, svc = PointService db).
  { unfold load_service in EL. cbn [In] in I. destruct I as [<-|[<-|[]]].
    - change (bytes_equal (lit "pointPIR") (lit "pointPIR")) with true in EL. cbv iota in EL. destruct (generate_real_key_bytes _ _ _ _); cbn [bind] in EL; try discriminate. injection EL as <-. eauto.
    - change (bytes_equal (lit "pointVPIR") (lit "pointPIR")) with false in EL. change (bytes_equal (lit "pointVPIR") (lit "pointVPIR")) with true in EL. cbv iota in EL.
      destruct (generate_real_key_merkle _ _ _ _ _); cbn [bind] in EL; try discriminate. injection EL as <-. eauto. }
  destruct X as [db ->]. exists db. split; [reflexivity|]. intros L. cbn [logged_size]. apply bytes_size_ok; [exact N|]. unfold zlen in *. lia.
Qed.
Print Assumptions C115_point_servers.

(** A server for predicate queries logs the size 0 whatever keys it holds. *)
Theorem C115_predicate_servers_refuted (rnd : R -> R) G H B es auth keys sid m s : nearest rnd -> keyring_ok (g_serialize G) (g_read G) ->
  listed keys -> Forall (filed G) keys -> stores keys m -> started_as G H B es (predicate_scheme_name auth) sid m = Ok s ->
  logged_size rnd (snd s) = 0%R /\ exists v n rows, snd s = PredicateService v n (zlen keys) rows /\ zlen rows = zlen keys.
Proof.
  intros N K L F S E. destruct s as [a s]. destruct (started_predicate _ _ _ _ _ _ _ _ _ _ K L F S E) as (rows & -> & KR). cbn [snd]. split.
  - cbn [logged_size]. unfold db_size_gib. change (0 * 16) with 0. rewrite (rnd_int rnd N 0) by lia. rewrite Rmult_0_l. apply (rnd_int rnd N 0). lia.
  - eexists _, _, _. split; [reflexivity|]. unfold zlen. f_equal. exact (rows_length _ _ _ KR).
Qed.
Print Assumptions C115_predicate_servers_refuted.

(** A database of n 32-bit entries takes 4n bytes, and its size is given as four times that. *)
Theorem C115_entries_refuted (rnd : R -> R) (n : Z) : nearest rnd -> 2 ^ 20 <= n <= 2 ^ 46 ->
  (3 * (IZR (4 * n) / IZR (2 ^ 30)) < db_size_gib rnd n)%R.
Proof.
  intros N H. pose proof (bytes_size_ok rnd (n * 16) N ltac:(lia)) as B. change (bytes_size_gib rnd (n * 16)) with (db_size_gib rnd n) in B.
  replace (IZR (2 ^ 30)) with 1073741824%R in * by (f_equal; reflexivity). rewrite !mult_IZR in *.
  assert (L : (IZR (2 ^ 20) <= IZR n)%R) by (apply IZR_le; lia). replace (IZR (2 ^ 20)) with 1048576%R in L by (f_equal; reflexivity).
  set (w := db_size_gib rnd n) in *. clearbody w. unfold Rabs in B. destruct Rcase_abs in B; lra.
Qed.
Print Assumptions C115_entries_refuted.

(** ** The hypotheses are met: rounding to nearest, ties to even, as IEEE 754 prescribes it *)

Definition ieee_round : R -> R := round radix2 (FLT_exp (-1074) 53) ZnearestE.
Local Instance prec53 : Prec_gt_0 53. Proof. reflexivity. Qed.
Lemma double_format x : double x <-> FLT_format radix2 (-1074) 53 x.
Proof.
  split.
  - intros (m & e & M & E & ->). exists (Float radix2 m e); [|exact M|exact E]. unfold F2R. cbn [Fnum Fexp]. rewrite bpow_powerRZ. reflexivity.
  - intros [[m e] -> M E]. exists m, e. split; [exact M|]. split; [exact E|]. unfold F2R. cbn [Fnum Fexp]. rewrite bpow_powerRZ. reflexivity.
Qed.
Lemma ieee_nearest : nearest ieee_round.
Proof.
  intros x. destruct (round_N_pt radix2 (FLT_exp (-1074) 53) (fun z => negb (Z.even z)) x) as [F B]. split.
  - apply double_format, FLT_format_generic; [exact prec53|exact F].
  - intros y Y. apply double_format, generic_format_FLT in Y. specialize (B y Y). rewrite (Rabs_minus_sym x y), Rabs_minus_sym. exact B.
Qed.

Example C113_example : nearest ieee_round /\ log2_ok (fun x => ln x / ln 2)%R /\ exp2_ok (fun x => Rpower 2 x) /\
  float_ceil_div ieee_round 1000 7 = 143 /\ float_ceil_div ieee_round 4503599627370495 3 = 1501199875790165 /\
  float_next_square ieee_round 1000 = 1024 /\ float_next_square ieee_round (2 ^ 40) = 2 ^ 40 /\ float_next_square ieee_round (2 ^ 40 + 1) = 1099513724929 /\
  float_rows_and_columns ieee_round 1000 true = (32, 32) /\ float_depth ieee_round (fun x => ln x / ln 2)%R 1000 = 10 /\
  float_depth ieee_round (fun x => ln x / ln 2)%R 1025 = 11.
Proof.
  assert (L : log2_ok (fun x => ln x / ln 2)%R).
  { destruct ln2_bounds as [P _]. split.
    - intros k K. rewrite ln_pow2 by lia. field. lra.
    - intros n _. rewrite Rminus_diag_eq by reflexivity. rewrite Rabs_R0. left. apply Rinv_0_lt_compat, (IZR_lt 0). lia. }
  destruct (C113_models ieee_round _ ieee_nearest L) as (A & _ & B & C & _ & D).
  split; [exact ieee_nearest|]. split; [exact L|]. split.
  { intros k K. rewrite <- powerRZ_Rpower by lra. apply powerRZ_pos2. lia. }
  repeat split; try (rewrite A by lia; reflexivity); try (rewrite B by lia; reflexivity); try (rewrite C by lia; reflexivity).
  - exact (D 1000%nat ltac:(lia)).
  - exact (D 1025%nat ltac:(lia)).
Qed.

Definition some_ops : list (mon_op * rusage) :=
  [(MRecord, mkUsage 0 5000 1 999999); (MReset, mkUsage 0 5000 2 10); (MRecordAndReset, mkUsage 0 5000 2 1010); (MRecord, mkUsage 1 0 2 1010)].
Example C114_example : nearest ieee_round /\ usage_ok (mkUsage 0 3000 1 500000) /\ in_order (mkUsage 0 3000 1 500000) some_ops /\
  (exists v, nth_error (mon_session ieee_round (mkUsage 0 3000 1 500000) some_ops) 0 = Some (Some v) /\ (501.98 < v < 502.01)%R) /\
  (exists v, nth_error (mon_session ieee_round (mkUsage 0 3000 1 500000) some_ops) 3 = Some (Some v) /\ (994.99 <= v <= 995.01)%R).
Proof.
  assert (U : usage_ok (mkUsage 0 3000 1 500000)) by (unfold usage_ok; cbn; lia).
  assert (I : in_order (mkUsage 0 3000 1 500000) some_ops) by (unfold some_ops, in_order, usage_ok, later, sys_us, user_us; cbn; lia).
  split; [exact ieee_nearest|]. split; [exact U|]. split; [exact I|]. split.
  - destruct (C114_records ieee_round _ _ 0 MRecord _ ieee_nearest U I eq_refl ltac:(discriminate)) as (v & E & _ & B). exists v. split; [exact E|].
    match type of B with context [IZR (?x - ?y)] => change (x - y) with 501999 in B end. unfold Rabs in B. destruct Rcase_abs in B; lra.
  - destruct (C114_records ieee_round _ _ 3 MRecord _ ieee_nearest U I eq_refl ltac:(discriminate)) as (v & E & _ & B). exists v. split; [exact E|].
    match type of B with context [IZR (?x - ?y)] => change (x - y) with 995000 in B end. unfold Rabs in B. destruct Rcase_abs in B; lra.
Qed.

(** The servers started in C108 and C112, for point and for predicate queries. *)
Example C115_example : nearest ieee_round /\ stores page_keys (desk_machine 0) /\
  started_as page_pgp toy_hash toy_hash page_config (predicate_scheme_name true) 0 (desk_machine 0) = Ok (desk_service 5 0) /\
  (exists a db, started_as page_pgp toy_hash toy_hash page_config (lit "pointPIR") 0 (desk_machine 0) = Ok (a, PointService db) /\ 0 < zlen (b_entries db) <= 2 ^ 50).
Proof.
  split; [exact ieee_nearest|]. destruct C112_example as (S & T & _). split; [exact (Forall_inv S)|]. split; [exact (T true 0%nat (or_introl eq_refl))|].
  eexists _, _. split; [vm_compute; reflexivity|]. split; vm_compute; [reflexivity|discriminate].
Qed.
