(** Properties of the multi-server benchmark and of the preprocessing benchmark. *)
From Coq Require Import String ZArith List Bool Lia Arith Permutation.
From Verif Require Import GoBase BaseFacts EncodingModel MerkleModel MerkleSpec MerkleProofs MerkleProofs2 PrgModel PrgProofs PointModel PointSpec PointProofs PointProofs2
  LWEModel DirectoryModel FieldModel FSSModel FSSProofs PredicateModel PredicateSpec PredicateProofs2 FrontendModel FrontendSpec FrontendProofs
  PointProofs4 MultiModel MultiSpec MultiProofs MultiProofs2 MultiProofs3 ToyInstances ToyPoint Properties_Predicate Properties_Frontend.
Import ListNotations.
Open Scope Z_scope.
Open Scope go_scope.

(** ** C89: a benchmark run retrieves the blocks it asks for *)

(** Servers and client agree on everything through the command line, the configuration file and the fixed generator key: the servers
    cut the generator's output into blocks, and every repetition of the client retrieves the same run of consecutive blocks, starting at
    the random position, byte for byte; whatever the order in which the client visits its connections and in which answers arrive. With
    three or more servers the logged bandwidth is the number of selection bytes. *)
Theorem C89_benchmark_retrieves :
  forall D H ks f addrs, dpf_ok D -> hash_ok H -> s_scheme f = "pir-classic"%string \/ s_scheme f = "pir-merkle"%string ->
  s_elem f = 8 -> 0 < s_block f < 2 ^ 31 -> s_len f < 2 ^ 62 -> 2 <= s_servers f <= zlen addrs -> NoDup addrs ->
  let N := s_len f / (8 * s_block f) in 0 < N < w32 ->
  (s_scheme f = "pir-merkle"%string -> N <= 2 ^ 31 /\ fingerprints_ok (map (stream_block ks (s_block f)) (seq 0 (Z.to_nat N)))) ->
  exists db R bs, multi_db H ks f = Ok db /\ arranged (s_rows f) N R /\
    bs = s_block f + (if (s_scheme f =? "pir-merkle")%string then 32 * Z.of_nat (Nat.log2_up (Z.to_nat N)) + 9 else 0) /\
    forall hap pick bits reps k, needed bits (8 * bs) k -> 0 <= k < R * (N / R) ->
    (forall j i, fair (firstn (Z.to_nat (s_servers f)) addrs) (N / R / 8 + 1) (hap j i)) -> (forall m, 0 < m -> 0 <= pick m < m) ->
    exists results,
      multi_exec D H addrs (s_servers f) (repeat (Some (advertised (b_info db))) (Z.to_nat (s_servers f))) (fun _ => multi_serve D f db) hap pick 8 bits reps = Ok results /\
      length results = reps /\
      Forall (fun r => snd r = run_of (stream_block ks (s_block f)) (pick (R * (N / R) - k)) k /\
                       (3 <= s_servers f -> fst r = k * s_servers f * (N / R / 8 + 1))) results.
Proof.
  intros D H ks f addrs HF HH HS HE HB H62 HSV ND N HN HM.
  destruct (multi_db_ok D H ks f HF HH HS HE HB H62 ltac:(lia) HN HM) as (db & R & E & AR & BR & RW & CL & BS & B1 & B2 & RT).
  fold N in AR, BR, CL, BS. exists db, R, (i_bs (b_info db)). split; [exact E|]. split; [exact AR|]. split; [exact BS|].
  intros hap pick bits reps k NE HK HFA HP.
  assert (TOT : R * (N / R) <= N) by (apply Z.mul_div_le; lia). assert (C1 : 1 <= N / R) by (apply Z.div_le_lower_bound; lia).
  assert (C2 : N / R <= N) by (apply Z.div_le_upper_bound; nia).
  destruct (multi_exec_ok D H f db (stream_block ks (s_block f)) addrs hap pick bits reps k) as (results & EX & L & F); auto; rewrite ?RW, ?CL; auto; try lia.
  exists results. split; [exact EX|]. split; [exact L|]. rewrite RW, CL in F. exact F.
Qed.
Print Assumptions C89_benchmark_retrieves.

(** Without a fault every server describes the same database; a client told otherwise stops. *)
Theorem C89_disagreement_stops :
  forall D H addrs n rs serve hap pick bits reps a b, In (Some a) rs -> In (Some b) rs ->
  i_rows a <> i_rows b \/ i_cols a <> i_cols b \/ i_bs a <> i_bs b ->
  0 <= n <= zlen addrs -> exists m, multi_exec D H addrs n rs serve hap pick 8 bits reps = Fatal m.
Proof.
  intros D H addrs n rs serve hap pick bits reps a b IA IB DF HN. unfold multi_exec, multi_connect. rewrite go_slice_ok by lia. cbn [bind].
  unfold multi_db_info. destruct (collect rs) as [infos| m | m | m] eqn:EC.
  - assert (X : forall x, In (Some x) rs -> In x infos).
    { clear - EC. revert infos EC. induction rs as [|[y|] rs IH]; intros infos EC x I; cbn [collect] in EC; try discriminate; [destruct I|].
      destruct (collect rs) as [l| | |]; cbn [bind] in EC; try discriminate. injection EC as <-. destruct I as [I|I]; [injection I as ->; left; auto|right; eauto]. }
    apply X in IA, IB. destruct infos as [|x l]; [destruct IA|]. cbn [bind].
    match goal with |- context [forallb ?g ?l] => destruct (forallb g l) eqn:FB end; [|eexists; reflexivity].
    exfalso. rewrite forallb_forall in FB. pose proof (FB _ IA) as FA. pose proof (FB _ IB) as F2. rewrite !andb_true_iff, !Z.eqb_eq in FA, F2. lia.
  - clear - EC. exfalso. revert m EC. induction rs as [|[y|] rs IH]; intros m EC; cbn [collect] in EC; try discriminate.
    destruct (collect rs) as [| m' | |]; cbn [bind] in EC; try discriminate. eauto.
  - clear - EC. exfalso. revert m EC. induction rs as [|[y|] rs IH]; intros m EC; cbn [collect] in EC; try discriminate.
    destruct (collect rs) as [| | m' |]; cbn [bind] in EC; try discriminate. eauto.
  - cbn [bind]. eauto.
Qed.
Print Assumptions C89_disagreement_stops.

(** A key stream for the examples: 1, 2, 3, ... *)
Definition ex_ks (i : nat) : Z := Z.of_nat i + 1.
Definition ex_flags (scheme : string) (rows servers : Z) : sflags := mkSF scheme 8 80 rows 1 servers.
Definition ex_addrs : list (list Z) := [lit "a"; lit "b"; lit "c"; lit "d"].
Definition ex_hap (v : Z) (j i : nat) : happening (list Z) :=
  mkHap (map (fun k => Z.of_nat (j + 3 * i + k)) (seq 0 (Z.to_nat (2 * v)))) [lit "b"; lit "c"; lit "a"] (@rev _).
Example C89_example :
  (** ten blocks in a square layout of 4 x 2; three servers *)
  (exists db, multi_db toy_hash ex_ks (ex_flags "pir-classic" 0 3) = Ok db /\ i_rows (b_info db) = 4 /\ i_cols (b_info db) = 2 /\
     multi_exec toy_dpf toy_hash ex_addrs 3 (repeat (Some (advertised (b_info db))) 3) (fun _ => multi_serve toy_dpf (ex_flags "pir-classic" 0 3) db)
       (ex_hap 1) (fun m => m - 1) 8 20 2 = Ok [(9, [[5]; [6]; [7]]); (9, [[5]; [6]; [7]])]) /\
  (forall j i, fair (firstn 3 ex_addrs) 1 (ex_hap 1 j i)) /\
  fingerprints_ok (map (stream_block ex_ks 1) (seq 0 10)) /\
  (exists db, multi_db toy_hash ex_ks (ex_flags "pir-merkle" 0 3) = Ok db /\ i_bs (b_info db) = 1 + 32 * 4 + 9 /\
     multi_exec toy_dpf toy_hash ex_addrs 3 (repeat (Some (advertised (b_info db))) 3) (fun _ => multi_serve toy_dpf (ex_flags "pir-merkle" 0 3) db)
       (ex_hap 1) (fun m => 2) 8 (8 * 138 * 3) 1 = Ok [(9, [[3]; [4]; [5]])]).
Proof.
  split; [eexists; split; [vm_compute; reflexivity|]; split; [vm_compute; reflexivity|]; split; vm_compute; reflexivity|]. split; [|split].
  - intros j i. unfold fair, ex_hap. cbn [h_order h_arrive h_rnd]. split; [|split; [apply Permutation_rev|reflexivity]].
    change (firstn 3 ex_addrs) with ([lit "a"] ++ [lit "b"; lit "c"]). change [lit "b"; lit "c"; lit "a"] with ([lit "b"; lit "c"] ++ [lit "a"]). apply Permutation_app_comm.
  - apply nodup_fingerprints.
    assert (E : nodup Z.eq_dec (map fnv1a64 (map (stream_block ex_ks 1) (seq 0 10))) = map fnv1a64 (map (stream_block ex_ks 1) (seq 0 10))) by (vm_compute; reflexivity).
    rewrite <- E. apply NoDup_nodup.
  - eexists. split; [vm_compute; reflexivity|]. split; vm_compute; reflexivity.
Qed.

(** ** C90: a benchmark run measures the retrieval of the requested number of bits, from anywhere in the database *)

Lemma run_amount ks b s bits k : 0 < b -> 0 <= k -> needed bits (8 * b) k ->
  let data := concat (run_of (stream_block ks b) s k) in 8 * zlen data - 8 * b < bits <= 8 * zlen data.
Proof.
  intros B K (N1 & N2) data. assert (L : zlen data = k * b); [|lia].
  unfold data, run_of. rewrite <- (Z2Nat.id k) at 2 by lia. generalize (Z.to_nat k). intros n. generalize 0%nat. induction n as [|n IH]; intros i; [reflexivity|].
  cbn [seq map concat]. unfold zlen in *. rewrite app_length, Nat2Z.inj_add, IH. unfold stream_block. rewrite map_length, seq_length. lia.
Qed.

(** With the unauthenticated scheme it does: the blocks of a repetition make up the requested bits, and with one block fewer they would not. *)
Theorem C90_classic_amount_partial :
  forall D H ks f addrs, dpf_ok D -> hash_ok H -> s_scheme f = "pir-classic"%string ->
  s_elem f = 8 -> 0 < s_block f < 2 ^ 31 -> s_len f < 2 ^ 62 -> 2 <= s_servers f <= zlen addrs -> NoDup addrs ->
  let N := s_len f / (8 * s_block f) in 0 < N < w32 ->
  exists db R, multi_db H ks f = Ok db /\ arranged (s_rows f) N R /\
    forall hap pick bits reps, 0 < bits <= 8 * s_block f * (R * (N / R) - 1) ->
    (forall j i, fair (firstn (Z.to_nat (s_servers f)) addrs) (N / R / 8 + 1) (hap j i)) -> (forall m, 0 < m -> 0 <= pick m < m) ->
    exists results,
      multi_exec D H addrs (s_servers f) (repeat (Some (advertised (b_info db))) (Z.to_nat (s_servers f))) (fun _ => multi_serve D f db) hap pick 8 bits reps = Ok results /\
      length results = reps /\
      Forall (fun r => 8 * zlen (concat (snd r)) - 8 * s_block f < bits <= 8 * zlen (concat (snd r))) results.
Proof.
  intros D H ks f addrs HF HH HS HE HB H62 HSV ND N HN.
  destruct (C89_benchmark_retrieves D H ks f addrs HF HH (or_introl HS) HE HB H62 HSV ND HN) as (db & R & bs & E & AR & BS & X).
  { rewrite HS. discriminate. }
  fold N in AR, BS, X. exists db, R. split; [exact E|]. split; [exact AR|]. intros hap pick bits reps HK HFA HP.
  rewrite HS in BS. change ("pir-classic" =? "pir-merkle")%string with false in BS. cbv iota in BS. rewrite Z.add_0_r in BS. subst bs.
  set (k := (bits + 8 * s_block f - 1) / (8 * s_block f)).
  pose proof (Z.div_mod (bits + 8 * s_block f - 1) (8 * s_block f) ltac:(lia)) as DM. fold k in DM.
  pose proof (Z.mod_pos_bound (bits + 8 * s_block f - 1) (8 * s_block f) ltac:(lia)) as MB.
  assert (NE : needed bits (8 * s_block f) k) by (unfold needed; nia).
  assert (K0 : 0 <= k) by (apply Z.div_pos; lia).
  assert (K1 : k < R * (N / R)). { destruct NE. assert (k - 1 < R * (N / R) - 1); [|lia]. nia. }
  destruct (X hap pick bits reps k NE (conj K0 K1) HFA HP) as (results & EX & L & F). exists results. split; [exact EX|]. split; [exact L|].
  eapply Forall_impl; [|exact F]. cbv beta. intros r (-> & _). apply run_amount; auto. lia.
Qed.
Print Assumptions C90_classic_amount_partial.

(** Refuted for the authenticated scheme: the client takes proofs and padding for payload. Asked for the size of k entries, it retrieves
    k blocks, which hold fewer bits than requested. *)
Theorem C90_merkle_amount_refuted :
  forall D H ks f addrs, dpf_ok D -> hash_ok H -> s_scheme f = "pir-merkle"%string ->
  s_elem f = 8 -> 0 < s_block f < 2 ^ 31 -> s_len f < 2 ^ 62 -> 2 <= s_servers f <= zlen addrs -> NoDup addrs ->
  let N := s_len f / (8 * s_block f) in 0 < N <= 2 ^ 31 -> fingerprints_ok (map (stream_block ks (s_block f)) (seq 0 (Z.to_nat N))) ->
  exists db R, multi_db H ks f = Ok db /\ arranged (s_rows f) N R /\
    forall hap pick reps k, 0 < k < R * (N / R) ->
    (forall j i, fair (firstn (Z.to_nat (s_servers f)) addrs) (N / R / 8 + 1) (hap j i)) -> (forall m, 0 < m -> 0 <= pick m < m) ->
    let bits := 8 * k * (s_block f + 32 * Z.of_nat (Nat.log2_up (Z.to_nat N)) + 9) in
    exists results,
      multi_exec D H addrs (s_servers f) (repeat (Some (advertised (b_info db))) (Z.to_nat (s_servers f))) (fun _ => multi_serve D f db) hap pick 8 bits reps = Ok results /\
      length results = reps /\
      Forall (fun r => 8 * zlen (concat (snd r)) = 8 * k * s_block f /\ 8 * zlen (concat (snd r)) < bits) results.
Proof.
  intros D H ks f addrs HF HH HS HE HB H62 HSV ND N HN HM.
  destruct (C89_benchmark_retrieves D H ks f addrs HF HH (or_intror HS) HE HB H62 HSV ND) as (db & R & bs & E & AR & BS & X).
  { fold N. unfold w32. change (2 ^ 31) with 2147483648 in HN. lia. }
  { intros _. fold N. split; [lia|exact HM]. }
  fold N in AR, BS, X. exists db, R. split; [exact E|]. split; [exact AR|]. intros hap pick reps k HK HFA HP bits.
  rewrite HS, String.eqb_refl in BS.
  destruct (X hap pick bits reps k) as (results & EX & L & F); auto; try lia.
  { unfold needed, bits. rewrite BS. nia. }
  exists results. split; [exact EX|]. split; [exact L|]. eapply Forall_impl; [|exact F]. cbv beta. intros r (-> & _).
  pose proof (run_amount ks (s_block f) (pick (R * (N / R) - k)) (8 * s_block f * k) k ltac:(lia) ltac:(lia)) as Y. cbv zeta in Y.
  pose proof (run_amount ks (s_block f) (pick (R * (N / R) - k)) (8 * s_block f * k - 8 * s_block f + 1) k ltac:(lia) ltac:(lia)) as Z'. cbv zeta in Z'.
  unfold needed in Y, Z'. specialize (Y ltac:(nia)). specialize (Z' ltac:(nia)).
  assert (LE : 8 * zlen (concat (run_of (stream_block ks (s_block f)) (pick (R * (N / R) - k)) k)) = 8 * k * s_block f) by nia.
  split; [exact LE|]. rewrite LE. unfold bits. nia.
Qed.
Print Assumptions C90_merkle_amount_refuted.

Lemma last_not_in_run (block : nat -> list Z) pick total k : 0 <= k < total -> (forall m, 0 < m -> 0 <= pick m < m) ->
  (forall i, Z.of_nat i < total - 1 -> block i <> block (Z.to_nat (total - 1))) ->
  ~ In (block (Z.to_nat (total - 1))) (run_of block (pick (total - k)) k).
Proof.
  intros HK HP DS I. unfold run_of in I. apply in_map_iff in I. destruct I as (i & EQ & I). apply in_seq in I.
  pose proof (HP (total - k) ltac:(lia)). apply (DS (Z.to_nat (pick (total - k)%Z) + i)%nat); auto. lia.
Qed.

(** Refuted: the last block of the database is never retrieved (unless an earlier block has the same contents). *)
Theorem C90_last_block_refuted :
  forall D H ks f addrs, dpf_ok D -> hash_ok H -> s_scheme f = "pir-classic"%string \/ s_scheme f = "pir-merkle"%string ->
  s_elem f = 8 -> 0 < s_block f < 2 ^ 31 -> s_len f < 2 ^ 62 -> 2 <= s_servers f <= zlen addrs -> NoDup addrs ->
  let N := s_len f / (8 * s_block f) in 0 < N < w32 ->
  (s_scheme f = "pir-merkle"%string -> N <= 2 ^ 31 /\ fingerprints_ok (map (stream_block ks (s_block f)) (seq 0 (Z.to_nat N)))) ->
  exists db R bs, multi_db H ks f = Ok db /\ arranged (s_rows f) N R /\
    bs = s_block f + (if (s_scheme f =? "pir-merkle")%string then 32 * Z.of_nat (Nat.log2_up (Z.to_nat N)) + 9 else 0) /\
    let last := stream_block ks (s_block f) (Z.to_nat (R * (N / R) - 1)) in
    (forall i, Z.of_nat i < R * (N / R) - 1 -> stream_block ks (s_block f) i <> last) ->
    forall hap pick bits reps k, needed bits (8 * bs) k -> 0 <= k < R * (N / R) ->
    (forall j i, fair (firstn (Z.to_nat (s_servers f)) addrs) (N / R / 8 + 1) (hap j i)) -> (forall m, 0 < m -> 0 <= pick m < m) ->
    exists results,
      multi_exec D H addrs (s_servers f) (repeat (Some (advertised (b_info db))) (Z.to_nat (s_servers f))) (fun _ => multi_serve D f db) hap pick 8 bits reps = Ok results /\
      length results = reps /\ Forall (fun r => ~ In last (snd r)) results.
Proof.
  intros D H ks f addrs HF HH HS HE HB H62 HSV ND N HN HM.
  destruct (C89_benchmark_retrieves D H ks f addrs HF HH HS HE HB H62 HSV ND HN HM) as (db & R & bs & E & AR & BS & X).
  fold N in AR, BS, X. exists db, R, bs. split; [exact E|]. split; [exact AR|]. split; [exact BS|]. intros last DS hap pick bits reps k NE HK HFA HP.
  destruct (X hap pick bits reps k NE HK HFA HP) as (results & EX & L & F). exists results. split; [exact EX|]. split; [exact L|].
  eapply Forall_impl; [|exact F]. cbv beta. intros r (-> & _). apply last_not_in_run; auto.
Qed.
Print Assumptions C90_last_block_refuted.

(** Refuted: asked for as many bits as the whole database holds, or more, the client panics. *)
Theorem C90_whole_database_refuted :
  forall D H addrs n inf serve hap pick bits reps k, 0 < n <= zlen addrs -> 0 < i_bs inf -> needed bits (8 * i_bs inf) k -> i_rows inf * i_cols inf <= k ->
  exists m, multi_exec D H addrs n (repeat (Some inf) (Z.to_nat n)) serve hap pick 8 bits reps = Panic m.
Proof.
  intros D H addrs n inf serve hap pick bits reps k HN BS (N1 & N2) HK. unfold multi_exec, multi_connect. rewrite go_slice_ok by lia. cbn [bind].
  rewrite multi_db_info_ok by lia. cbn [bind]. unfold retrieve_point. 
  assert (EB : bits_to_blocks (i_bs inf) 8 bits = k).
  { unfold bits_to_blocks. assert (EQ : - k = (- bits) / (i_bs inf * 8)); [|lia]. apply (Z.div_unique_pos (- bits) (i_bs inf * 8) (- k) (k * (i_bs inf * 8) - bits)); nia. }
  rewrite EB. destruct (Z.leb_spec (i_rows inf * i_cols inf - k) 0); [eexists; reflexivity|lia].
Qed.
Print Assumptions C90_whole_database_refuted.

(** Refuted: in the square layout the server keeps only the blocks that fill its columns; the remainder of the generated data is not
    in the database. *)
Theorem C90_dropped_blocks_refuted :
  forall D H ks f, dpf_ok D -> hash_ok H -> s_scheme f = "pir-classic"%string \/ s_scheme f = "pir-merkle"%string ->
  s_elem f = 8 -> 0 < s_block f < 2 ^ 31 -> s_len f < 2 ^ 62 -> 2 <= s_servers f ->
  let N := s_len f / (8 * s_block f) in 0 < N < w32 ->
  (s_scheme f = "pir-merkle"%string -> N <= 2 ^ 31 /\ fingerprints_ok (map (stream_block ks (s_block f)) (seq 0 (Z.to_nat N)))) ->
  exists db R, multi_db H ks f = Ok db /\ arranged (s_rows f) N R /\ i_rows (b_info db) * i_cols (b_info db) = N - N mod R.
Proof.
  intros D H ks f HF HH HS HE HB H62 HSV N HN HM.
  destruct (multi_db_ok D H ks f HF HH HS HE HB H62 HSV HN HM) as (db & R & E & AR & BR & RW & CL & _).
  fold N in AR, BR, CL. exists db, R. split; [exact E|]. split; [exact AR|]. rewrite RW, CL. pose proof (Z.div_mod N R ltac:(lia)). lia.
Qed.
Print Assumptions C90_dropped_blocks_refuted.

Example C90_example :
  arranged 0 10 4 /\ 10 mod 4 = 2 /\ needed 20 8 3 /\ needed (8 * 138 * 3) (8 * 138) 3 /\
  run_of (stream_block ex_ks 1) 4 3 = [[5]; [6]; [7]] /\
  (exists db, multi_db toy_hash ex_ks (ex_flags "pir-classic" 0 3) = Ok db /\ i_rows (b_info db) * i_cols (b_info db) = 8 /\
     multi_exec toy_dpf toy_hash ex_addrs 3 (repeat (Some (advertised (b_info db))) 3) (fun _ => multi_serve toy_dpf (ex_flags "pir-classic" 0 3) db)
       (ex_hap 1) (fun m => m - 1) 8 64 2 = Panic "invalid argument to Intn").
Proof.
  unfold arranged, needed. split; [lia|]. split; [reflexivity|]. split; [lia|]. split; [lia|]. split; [vm_compute; reflexivity|].
  eexists. split; [vm_compute; reflexivity|]. split; vm_compute; reflexivity.
Qed.

(** ** C91: the predicate benchmark runs to completion *)

(** The random key database has the requested number of well-formed records. *)
Theorem C91_random_keys :
  forall zone dr n, zone_ok zone -> (forall i, drawn (dr i)) -> 0 <= n ->
  exists db, create_random_keys_db zone dr n = Ok db /\ zlen db = n /\ Forall (fun ki => record_ok ki /\ random_record ki) db.
Proof. exact random_keys_ok. Qed.
Print Assumptions C91_random_keys.

(** A repetition with two honest servers over the same records reconstructs without an error, although the client visits its connections in
    an arbitrary order. In one order the result is the number of addresses starting with the random text, in the other its negation. *)
Theorem C91_benchmark_completes :
  forall C enc H e alphas r (serve : C -> qinfo * fss_key -> option (list Z)) (c0 c1 : C) now0 now1 fresh0 fresh1 order arrive n draw db,
  cipher_ok enc -> hash_ok H -> rand_ok r -> e = S (length alphas) -> (e < 20)%nat -> Forall reduced alphas ->
  Forall (fun ki => record_ok ki /\ random_record ki) db -> 0 < n -> (forall i, 0 <= draw i < 36) ->
  honest enc H e db serve c0 0 now0 fresh0 -> honest enc H e db serve c1 1 now1 fresh1 -> some_order arrive -> Permutation [c0; c1] order ->
  let q := mkInfo target_userid n 0 false false false in
  exists text, ranstring draw n = Ok text /\ zlen text = n /\
   (unresampled enc H e alphas r 0 1 now0 now1 fresh0 fresh1 db q (byte_to_bits text) ->
    unresampled enc H e alphas r 1 0 now1 now0 fresh1 fresh0 db q (byte_to_bits text) ->
    let count := count_matching (fun ki => is_prefix text (ki_email ki)) db in
    exists c, multi_complex enc e alphas r serve order arrive n draw = Ok c /\ (c = count mod ModP \/ c = (- count) mod ModP)).
Proof.
  intros C enc H e alphas r serve c0 c1 now0 now1 fresh0 fresh1 order arrive n draw db He HH Hr HE H20 Ha HD HN DR S0 S1 SO PO q.
  destruct (multi_complex_ok enc H e alphas r serve c0 c1 now0 now1 fresh0 fresh1 order arrive n draw db He HH Hr HE H20 Ha HD HN DR S0 S1 SO)
    as (text & ET & LT & X). exists text. split; [exact ET|]. split; [exact LT|]. cbv zeta in X. intros U0 U1 count. destruct X as (X0 & X1).
  apply perm_two in PO. destruct PO as [PO|PO].
  - exists (count mod ModP). split; [apply X0; auto|left; auto].
  - exists ((- count) mod ModP). split; [apply X1; auto|right; auto].
Qed.
Print Assumptions C91_benchmark_completes.

(** With any other number of servers the client stops at its first query. *)
Theorem C91_two_servers_only :
  forall C enc e alphas r (serve : C -> qinfo * fss_key -> option (list Z)) order arrive n draw, zlen order <> 2 -> 0 <= n -> (forall i, 0 <= draw i < 36) ->
  exists m, multi_complex enc e alphas r serve order arrive n draw = Fatal m.
Proof.
  intros C enc e alphas r serve order arrive n draw NO HN DR. destruct (ranstring_ok draw n DR HN) as (text & ET & _).
  apply (multi_complex_servers _ _ _ _ _ _ _ _ _ text); auto.
Qed.
Print Assumptions C91_two_servers_only.

(** Refuted: with the default length of the text, -1, the client panics. *)
Theorem C91_default_length_refuted :
  forall C enc e alphas r (serve : C -> qinfo * fss_key -> option (list Z)) order arrive draw,
  exists m, multi_complex enc e alphas r serve order arrive (-1) draw = Panic m.
Proof. intros. unfold multi_complex, ranstring, go_make. cbn. eexists. reflexivity. Qed.
Print Assumptions C91_default_length_refuted.

(** Two random keys, and servers over them. *)
Definition ex_draws (i : nat) : draws := mkDraws (86400 * 100 * Z.of_nat (Nat.modulo i 20)) (Z.of_nat (Nat.modulo i 5)) (fun j => Z.of_nat (Nat.modulo (i + j) 36)).
Definition ex_keys : list key_info := match create_random_keys_db None ex_draws 2 with Ok l => l | _ => [] end.
Definition ex_serve (c : Z) (qk : qinfo * fss_key) : option (list Z) :=
  match answer_bytes toy_cipher toy_hash 3 c ex_keys (length ex_keys) (fun _ => 2021) (fun _ _ => 0) (Some (fst qk)) (snd qk) with
  | Ok b => Some b | _ => None end.
Example C91_example :
  zone_ok None /\ (forall i, drawn (ex_draws i)) /\ map (fun ki => firstn 2 (ki_email ki)) ex_keys = [lit "ab"; lit "bc"] /\
  (forall c, honest toy_cipher toy_hash 3 ex_keys ex_serve c c (fun _ => 2021) (fun _ _ => 0)) /\
  multi_complex toy_cipher 3 [5; 7] toy_rand ex_serve [0; 1] (@rev _) 1 (fun _ => 1) = Ok 1 /\
  multi_complex toy_cipher 3 [5; 7] toy_rand ex_serve [1; 0] (@rev _) 1 (fun _ => 1) = Ok 2147483646 /\
  match run toy_cipher toy_hash 3 [5; 7] toy_rand 0 1 (fun _ => 2021) (fun _ => 2021) (fun _ _ => 0) (fun _ _ => 0) ex_keys
    (mkInfo target_userid 1 0 false false false) (byte_to_bits (lit "b")) with Ok (_, b) => b | _ => true end = false.
Proof.
  split; [intros m E; discriminate E|]. split; [|split; [vm_compute; reflexivity|]].
  - intros i. unfold drawn, ex_draws. cbn [d_sec d_algo d_text]. split; [pose proof (Nat.mod_upper_bound i 20 ltac:(lia)); lia|]. split.
    + pose proof (Nat.mod_upper_bound i 5 ltac:(lia)). lia.
    + intros j. pose proof (Nat.mod_upper_bound (i + j) 36 ltac:(lia)). lia.
  - split; [intros c q k; reflexivity|]. split; [vm_compute; reflexivity|]. split; vm_compute; reflexivity.
Qed.

(** ** C92: the preprocessing benchmark builds the database a server would build *)

(** Every repetition builds the entries of a one-row authenticated database over the same data, although the block length the
    program keeps grows from repetition to repetition, and whatever number of rows it was given. *)
Theorem C92_preprocessing :
  forall H rnd dbLen numRows blockLen nRepeat, hash_ok H -> 0 < blockLen -> numRows <> 0 ->
  1 <= dbLen / (8 * blockLen) <= max_records -> zlen rnd = dbLen / (8 * blockLen) * blockLen ->
  fingerprints_ok (cuts blockLen rnd (dbLen / (8 * blockLen))) ->
  exists db, create_random_merkle H rnd dbLen 1 blockLen = Ok db /\
    random_merkle_db H rnd dbLen numRows blockLen nRepeat = Ok (repeat (b_entries db) nRepeat).
Proof. exact random_merkle_db_ok. Qed.
Print Assumptions C92_preprocessing.

(** The number of rows the driver passes is never zero. *)
Theorem C92_rows_positive : forall dbLen nRows, 0 < dbLen -> prep_rows dbLen nRows <> 0.
Proof.
  intros dbLen nRows HD. unfold prep_rows. destruct (Z.eqb_spec nRows 1); cbn [negb]; [lia|].
  assert (0 < Z.sqrt (increase_to_next_square dbLen)); [|lia]. apply Z.sqrt_pos. unfold increase_to_next_square. destruct (_ =? _); auto.
  pose proof (Z.sqrt_nonneg dbLen). nia.
Qed.
Print Assumptions C92_rows_positive.

Example C92_example :
  fingerprints_ok (cuts 2 [1;2; 3;4; 5;6] 3) /\
  match random_merkle_db toy_hash [1;2; 3;4; 5;6] 48 (prep_rows 48 0) 2 2, create_random_merkle toy_hash [1;2; 3;4; 5;6] 48 1 2 with
  | Ok [a; b], Ok db => a = b /\ a = b_entries db /\ zlen a = 3 * (2 + 32 * 2 + 9)
  | _, _ => False
  end.
Proof.
  split; [apply nodup_fingerprints|].
  - assert (E : nodup Z.eq_dec (map fnv1a64 (cuts 2 [1;2; 3;4; 5;6] 3)) = map fnv1a64 (cuts 2 [1;2; 3;4; 5;6] 3)) by (vm_compute; reflexivity).
    rewrite <- E. apply NoDup_nodup.
  - vm_compute. split; [reflexivity|]. split; reflexivity.
Qed.
