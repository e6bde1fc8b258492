(** Property C128: runs of the multi-server benchmark for point queries. Vocabulary in MultiNetSpec.v and MultiSpec.v. *)
From Coq Require Import String ZArith List Bool Lia Permutation.
From Verif Require Import GoBase BaseFacts EncodingModel MerkleModel MerkleSpec PrgModel LWEModel PointModel PointSpec DirectoryModel FSSModel PredicateModel FrontendModel KeyPageModel
  MultiModel MultiSpec MultiProofs MultiProofs2 BenchModel ChannelModel FSSProofs WireModel WireSpec WireProofs WireProofs2 GobModel GobSpec MultiNetModel MultiNetSpec MultiNetProofs2
  ToyInstances ToyPoint Properties_Multi Properties_Wire Properties_KeyPage Properties_Gob.
Import ListNotations.
Open Scope Z_scope.
Open Scope go_scope.

(** Servers started with the numbers 0, 1, ... and the same flags, and a client with the configuration they have: through the network every
    repetition retrieves the blocks it asks for, whatever the draws and the orders, and reports the number of bytes it sent: for every block
    and server a key of the function shares with two servers, and a bit for every column and up to a byte more with more servers. *)
Theorem C128_benchmark_run :
  forall E D len H ks zone dr es addrs listens f started g enc now fresh serve described,
  gzip_ok E -> utf8_ok E -> dpf_ok D -> keys_sized D len -> hash_ok H -> s_scheme f = "pir-classic"%string \/ s_scheme f = "pir-merkle"%string ->
  s_elem f = 8 -> 0 < s_block f < 2 ^ 31 -> s_len f < 2 ^ 62 -> 2 <= s_servers f -> load_config es = Ok addrs -> NoDup addrs ->
  let N := s_len f / (8 * s_block f) in 0 < N < w32 ->
  (s_scheme f = "pir-merkle"%string -> N <= 2 ^ 31 /\ fingerprints_ok (map (stream_block ks (s_block f)) (seq 0 (Z.to_nat N)))) ->
  zlen started = s_servers f ->
  (forall i s, nth_error started i = Some s -> multi_server_start num_identifiers H ks zone dr (Ok (Z.of_nat i)) (Ok es) (listens i) f = Ok s) ->
  (forall s, In s started -> serve (fst s) = over_network E (multi_answer (g s) D enc H (now s) (fresh s) (snd s))) ->
  (forall l, Permutation l (described l)) ->
  exists R bs, arranged (s_rows f) N R /\
    bs = s_block f + (if (s_scheme f =? "pir-merkle")%string then 32 * Z.of_nat (Nat.log2_up (Z.to_nat N)) + 9 else 0) /\
    (R * bs <= 1000000000 -> forall hap pick bits reps k, needed bits (8 * bs) k -> 0 <= k < R * (N / R) ->
     (forall j i, fair (map fst started) (N / R / 8 + 1) (hap j i)) -> (forall m, 0 < m -> 0 <= pick m < m) ->
     exists results,
       multi_point_run D H addrs (s_servers f) (described (map (fun s => remote_description E (multi_info (snd s))) started)) serve hap pick 8 bits reps = Ok results /\
       length results = reps /\
       Forall (fun r => snd r = run_of (stream_block ks (s_block f)) (pick (R * (N / R) - k)) k /\
                        fst r = k * s_servers f * (if s_servers f =? 2 then len (Z.log2 (N / R) + 1) else N / R / 8 + 1)) results).
Proof.
  intros E D len H ks zone dr es addrs listens f started g enc now fresh serve described GZ U HF KS HH HS HE HB H62 HSV LC ND N HN HM LS ST SV PD.
  destruct (multi_db_ok D H ks f HF HH HS HE HB H62 HSV HN HM) as (db & R & EDB & AR & BR & RW & CL & BS & B1 & B2 & _). fold N in AR, BR, CL, BS.
  assert (NP : predicate_values (s_scheme f) = None) by (destruct HS as [->| ->]; reflexivity).
  assert (SS : forall i s, nth_error started i = Some s -> nth_error addrs i = Some (fst s) /\ snd s = MultiPoint (s_servers f =? 2) db).
  { intros i s I. apply ST in I. unfold multi_server_start in I. cbn [or_fatal bind] in I. rewrite LC in I. cbn [or_fatal bind] in I. unfold go_index in I at 1.
    destruct (Z.ltb_spec (Z.of_nat i) 0); [lia|]. rewrite Nat2Z.id in I. destruct (nth_error addrs i) as [a|]; try discriminate. cbn [bind] in I.
    destruct (server_peer (Z.of_nat i)); try discriminate. cbn [bind] in I. destruct (listens i a); try discriminate. cbn [or_fatal bind] in I.
    unfold multi_service_of in I. rewrite NP, EDB in I. destruct (multi_rows f); try discriminate. cbn [bind] in I. assert (s = (a, MultiPoint (s_servers f =? 2) db)) as -> by congruence. auto. }
  assert (LN : length started = Z.to_nat (s_servers f)) by (unfold zlen in LS; lia).
  assert (FA : firstn (Z.to_nat (s_servers f)) addrs = map fst started).
  { rewrite <- LN. clear - SS. revert started SS. induction addrs as [|a t IH]; intros [|s ss] SS; cbn [firstn length map]; try reflexivity.
    - destruct (SS 0%nat s eq_refl) as (X & _). discriminate X.
    - destruct (SS 0%nat s eq_refl) as (X & _). cbn [nth_error] in X. f_equal; [congruence|]. apply IH. intros i x I. exact (SS (S i) x I). }
  assert (LA : 2 <= s_servers f <= zlen addrs).
  { split; [exact HSV|]. apply (f_equal (@length _)) in FA. rewrite map_length, firstn_length in FA. unfold zlen. lia. }
  destruct (C89_benchmark_retrieves D H ks f addrs HF HH HS HE HB H62 LA ND HN HM) as (db' & R' & bs & EDB' & AR' & EBS & X). fold N in AR', EBS, X.
  assert (db' = db) as -> by congruence. assert (R' = R). { clear - AR AR' HM. unfold arranged in *. destruct AR as [AR|AR], AR' as [AR'|AR']; nia. } subst R'.
  rewrite FA in X. exists R, bs. split; [exact AR|]. split; [exact EBS|]. intros SM hap pick bits reps k NE HK FR PK.
  destruct (X hap pick bits reps k NE HK FR PK) as (results & EX & LR & F). clear X.
  assert (EB : i_bs (b_info db) = bs) by congruence.
  assert (HM' : s_scheme f = "pir-merkle"%string -> s_len f / (8 * s_block f) <= 2 ^ 31) by (intros Q; apply (proj1 (HM Q))).
  destruct (multi_db_sendable E H ks f db U HH HS HE (proj1 HB) HN HM' EDB) as (SD & IA).
  assert (IS : forall s, In s started -> snd s = MultiPoint (s_servers f =? 2) db). { intros s I. apply In_nth_error in I as (i & I). exact (proj2 (SS i s I)). }
  assert (EI : map (option_map info_of) (described (map (fun s => remote_description E (multi_info (snd s))) started)) = repeat (Some (advertised (b_info db))) (Z.to_nat (s_servers f))).
  { assert (M : map (fun s : list Z * multi_service => remote_description E (multi_info (snd s))) started = repeat (Some (database_info (PointService db))) (Z.to_nat (s_servers f))).
    { rewrite <- LN. clear - IS GZ SD. induction started as [|s t IH]; cbn [map repeat length]; [reflexivity|]. rewrite IH by (intros; apply IS; right; auto). f_equal.
      rewrite (IS s) by (left; reflexivity). cbn [multi_info]. apply description_ok; auto. }
    rewrite M. pose proof (PD (repeat (Some (database_info (PointService db))) (Z.to_nat (s_servers f)))) as P. apply Permutation_sym, Permutation_repeat in P. rewrite P. rewrite <- IA. clear. induction (Z.to_nat (s_servers f)) as [|m IH]; cbn [repeat map option_map]; [reflexivity|]. rewrite IH. reflexivity. }
  assert (C1 : 1 <= N / R) by (apply Z.div_le_lower_bound; lia). assert (C2 : N / R <= N) by (apply Z.div_le_upper_bound; nia).
  assert (CC : i_cols (advertised (b_info db)) = N / R). { unfold advertised. cbn [i_cols]. rewrite CL. unfold u32. apply Z.mod_small. lia. }
  assert (CB : i_bs (advertised (b_info db)) = bs). { unfold advertised. cbn [i_bs]. rewrite EB. unfold u32. apply Z.mod_small. lia. }
  assert (SMQ : query_size len (s_servers f) (N / R) <= 1000000000) by (apply (query_size_small len _ _ D KS); change (2 ^ 32) with w32; lia).
  destruct (point_run_same D H len (advertised (b_info db)) (s_servers f) (map fst started)
    (fun c b => match serve c b with Ok a => Some a | _ => None end) (fun _ => multi_serve D f db) KS) with (hap := hap) (pick := pick) (elem := 8) (bits := bits) (reps := reps) as (SAME & BW).
  - rewrite CC. change (2 ^ 32) with w32. lia.
  - unfold zlen in *. rewrite map_length. exact LS.
  - intros c q I Q. apply in_map_iff in I as (s & <- & I). rewrite (SV s I), (IS s I). cbn [multi_answer]. unfold multi_serve.
    apply (point_same E D (s_servers f =? 2) db q GZ). { unfold small. rewrite Q, CC. exact SMQ. } rewrite RW, EB. exact SM.
  - intros j i. exact (proj1 (FR j i)).
  - exists results. split; [|split; [exact LR|]].
    + unfold multi_point_run. rewrite EI. unfold multi_exec in *. destruct (multi_connect addrs (s_servers f)); try discriminate. cbn [bind] in *.
      rewrite multi_db_info_ok in * by lia. cbn [bind] in *. rewrite SAME. exact EX.
    + unfold multi_exec in EX. destruct (multi_connect addrs (s_servers f)); try discriminate. cbn [bind] in EX. rewrite multi_db_info_ok in EX by lia. cbn [bind] in EX.
      apply BW in EX. rewrite Forall_forall in *. intros r I. split; [exact (proj1 (F r I))|]. rewrite (EX r I), CC, CB.
      assert (KK : bits_to_blocks bs 8 bits = k).
      { unfold bits_to_blocks. destruct NE as (N1 & N2). assert (EQ : - k = (- bits) / (bs * 8)); [|lia]. apply (Z.div_unique_pos (- bits) (bs * 8) (- k) (k * (bs * 8) - bits)); nia. }
      rewrite KK. unfold query_size, bits_len. replace (u64 (N / R)) with (N / R) by (unfold u64; symmetry; apply Z.mod_small; unfold w32, w64 in *; lia).
      destruct (Z.eqb_spec (N / R) 0); [lia|]. rewrite Z.max_r by lia. ring.
Qed.
Print Assumptions C128_benchmark_run.

(** Two and three servers over ten blocks of one byte, and a server with its own order of everything. *)
Definition point_addrs : list (list Z) := [lit "10.0.0.1:50"; lit "10.0.0.2:50"; lit "10.0.0.3:51"].
Definition point_server (s : string) (servers : Z) (sid : Z) : list Z * multi_service :=
  match multi_server_start num_identifiers toy_hash ex_ks None (fun _ => mkDraws 0 0 (fun _ => 0)) (Ok sid) (Ok page_config) (fun _ => Ok tt) (ex_flags s 0 servers) with
  | Ok x => x | _ => ([], MultiPredicate 0 0 []) end.
Definition point_serve (s : string) (servers : Z) (a : list Z) : list Z -> res (list Z) :=
  let sid := if bytes_equal a (lit "10.0.0.1:50") then 0 else if bytes_equal a (lit "10.0.0.2:50") then 1 else 2 in
  over_network plain_codec (multi_answer (demo_gobs 65) toy_dpf toy_cipher toy_hash (fun _ => 2021) (fun _ _ => 0) (snd (point_server s servers sid))).
Definition point_run (s : string) (servers bits : Z) : res (list (Z * list (list Z))) :=
  let started := map (fun i => point_server s servers (Z.of_nat i)) (seq 0 (Z.to_nat servers)) in
  multi_point_run toy_dpf toy_hash point_addrs servers (rev (map (fun x => remote_description plain_codec (multi_info (snd x))) started)) (point_serve s servers)
    (fun j i => mkHap [77; 3] (if Nat.even j then map fst started else rev (map fst started)) (@rev _)) (fun m => m - 1) 8 bits 2.
Example C128_example :
  keys_sized toy_dpf (fun _ => 9) /\ dpf_ok toy_dpf /\ load_config page_config = Ok point_addrs /\ NoDup point_addrs /\
  Forall (fun sn => let '(s, servers) := sn in forall i, (i < Z.to_nat servers)%nat ->
      exists db, multi_server_start num_identifiers toy_hash ex_ks None (fun _ => mkDraws 0 0 (fun _ => 0)) (Ok (Z.of_nat i)) (Ok page_config) (fun _ => Ok tt) (ex_flags s 0 servers) =
        Ok (nth i point_addrs [], MultiPoint (servers =? 2) db) /\ i_rows (b_info db) = 4 /\ i_cols (b_info db) = 2)
    [("pir-classic"%string, 2); ("pir-classic"%string, 3); ("pir-merkle"%string, 3)] /\
  fingerprints_ok (map (stream_block ex_ks 1) (seq 0 10)) /\ arranged 0 10 4 /\ needed 20 8 3 /\ needed 2000 (8 * 138) 2 /\
  point_run "pir-classic" 2 20 = Ok (repeat (3 * 2 * 9, [[5]; [6]; [7]]) 2) /\
  point_run "pir-classic" 3 20 = Ok (repeat (3 * 3 * 1, [[5]; [6]; [7]]) 2) /\
  point_run "pir-merkle" 3 2000 = Ok (repeat (2 * 3 * 1, [[6]; [7]]) 2).
Proof.
  split. { split; [|intros; lia]. intros alpha logN k0 k1 E. cbn [toy_dpf dpf_gen] in E. assert (k0 = repeat 0 9 /\ k1 = 1 :: le_enc 8 alpha) as (-> & ->) by (split; congruence).
    split; [reflexivity|]. unfold zlen. cbn [length]. rewrite le_enc_length. reflexivity. }
  split; [exact toy_dpf_ok|]. split; [vm_compute; reflexivity|].
  split. { repeat constructor; cbn [In]; intros I; repeat (destruct I as [I|I]; [vm_compute in I; discriminate I|]); destruct I. }
  split. { apply Forall_cons; [|apply Forall_cons; [|apply Forall_cons; [|apply Forall_nil]]]; intros i L; change (Z.to_nat 2) with 2%nat in L; change (Z.to_nat 3) with 3%nat in L;
    (do 3 (destruct i as [|i]; [eexists; split; [vm_compute; reflexivity|]; split; reflexivity|])); exfalso; lia. }
  split; [exact (proj1 (proj2 (proj2 C89_example)))|]. 
  split; [right; lia|]. split; [unfold needed; lia|]. split; [unfold needed; lia|].
  split; [vm_compute; reflexivity|]. split; vm_compute; reflexivity.
Qed.
