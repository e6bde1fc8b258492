(** Proofs about the point queries of the multi-server benchmark. *)
From Coq Require Import String ZArith List Bool Lia Arith Permutation.
From Verif Require Import GoBase BaseFacts EncodingModel EncodingProofs MerkleModel MerkleSpec PrgModel PrgProofs PointModel PointSpec PointProofs PointProofs2 PointProofs3 PointProofs4 PointProofs5
  LWEModel DirectoryModel DirectoryProofs3 FieldModel FSSModel PredicateModel FrontendModel MultiModel MultiSpec.
Import ListNotations.
Open Scope Z_scope.
Open Scope go_scope.

Lemma zlen_cons {A} (x : A) l : zlen (x :: l) = 1 + zlen l.
Proof. unfold zlen. cbn [length]. lia. Qed.

Lemma multi_rows_ok f : s_scheme f = "pir-classic"%string \/ s_scheme f = "pir-merkle"%string -> s_elem f = 8 -> 0 < s_block f -> 8 * s_block f <= s_len f ->
  exists R, multi_rows f = Ok R /\ arranged (s_rows f) (s_len f / (8 * s_block f)) R /\ 0 < R <= s_len f / (8 * s_block f).
Proof.
  intros HS HE HB HL. unfold multi_rows. rewrite HE.
  assert (N1 : 1 <= s_len f / (8 * s_block f)) by (apply Z.div_le_lower_bound; lia).
  set (n := s_len f / (8 * s_block f)) in *.
  replace (String.length (s_scheme f) <? 3)%nat with false by (destruct HS as [-> | ->]; reflexivity).
  replace (String.substring 0 3 (s_scheme f) =? "cmp")%string with false by (destruct HS as [-> | ->]; reflexivity).
  destruct (Z.eqb_spec (8 * s_block f) 0); [lia|]. cbn [bind]. rewrite Z.quot_div_nonneg by lia. fold n.
  destruct (Z.eqb_spec (s_rows f) 1) as [E|E]; cbn [negb].
  - exists (s_rows f). split; [reflexivity|]. rewrite E. split; [left; auto|lia].
  - exists (Z.sqrt (increase_to_next_square n)). split; [reflexivity|]. unfold increase_to_next_square.
    pose proof (Z.sqrt_spec n ltac:(lia)) as SP. set (s := Z.sqrt n) in *. assert (S0 : 0 < s) by (apply Z.sqrt_pos; lia).
    destruct (Z.eqb_spec (s * s) n) as [Q|Q].
    + assert (SS : s <= s * s) by (clear - S0; nia). fold s. split; [right|lia]. split; [exact E|]. split; [exact S0|]. rewrite <- Q. clear - S0. nia.
    + assert (SS : s <= s * s) by (clear - S0; nia). destruct SP as [SP1 SP2]. rewrite Z.sqrt_square by lia. split; [right|lia]. split; [exact E|]. split; [lia|].
      replace (s + 1 - 1) with s by lia. unfold Z.succ in SP2. lia.
Qed.

Lemma first_read_eq ks n : first_read ks n = ks_bytes ks 0 (Z.to_nat n).
Proof. unfold first_read. rewrite read_zeroed. reflexivity. Qed.
Lemma ks_bytes_zlen ks n : 0 <= n -> zlen (ks_bytes ks 0 (Z.to_nat n)) = n.
Proof. intros H. unfold zlen, ks_bytes. rewrite map_length, seq_length. lia. Qed.

(** The two-server and the many-server scheme in one statement. *)
Definition retrieves (D : dpf_scheme) (H : hash_fn) (n : Z) (db : bytes_db) (val : nat -> list Z) : Prop :=
  forall crnd index, 0 <= index < i_rows (b_info db) * i_cols (b_info db) -> zlen crnd = (n - 1) * (i_cols (b_info db) / 8 + 1) ->
  exists ix qs answers, pir_query D (b_info db) crnd index n = Ok (ix, qs) /\ zlen qs = n /\
    mapM (pir_answer D (n =? 2) db) qs = Ok answers /\
    forall answers', Permutation answers answers' -> reconstruct_pir H (b_info db) ix answers' = Ok (val (Z.to_nat index)).

Lemma perm_two {A} (a b : A) l : Permutation [a; b] l -> l = [a; b] \/ l = [b; a].
Proof. intros P. apply Permutation_length_2_inv in P. intuition. Qed.

Lemma retrieves_plain D H n db : dpf_ok D -> db_ok db -> i_type (b_info db) = ""%string \/ i_type (b_info db) = "classical"%string -> 2 <= n ->
  retrieves D H n db (fun k => padded db k).
Proof.
  intros HF HD HY Hn crnd index HI HR. destruct (Z.eqb_spec n 2) as [-> | N2].
  - destruct (pir_correct_two D db crnd index HF HD HI) as (ix & k0 & k1 & a0 & a1 & Q & A0 & A1 & R0 & R1).
    exists ix, [k0; k1], [a0; a1]. split; [exact Q|]. split; [reflexivity|]. split; [cbn [mapM bind]; rewrite A0; cbn [bind]; rewrite A1; reflexivity|].
    intros a' P. rewrite reconstruct_plain by exact HY. destruct (perm_two _ _ _ P) as [-> | ->]; assumption.
  - destruct (pir_correct D db crnd index n HD HI ltac:(lia) N2 HR) as (ix & qs & ans & Q & L & A & R).
    exists ix, qs, ans. split; [exact Q|]. split; [exact L|]. split; [exact A|]. intros a' P. rewrite reconstruct_plain by exact HY. apply R, P.
Qed.

Lemma send_all_ok {C} D f db (conns : list C) : forall qs pre answers, length conns = length qs ->
  mapM (pir_answer D (s_servers f =? 2) db) qs = Ok answers ->
  send_all (fun _ => multi_serve D f db) conns (pre ++ qs) (zlen pre) = Ok answers.
Proof.
  induction conns as [|c t IH]; intros qs pre answers L M; destruct qs as [|q qs]; try discriminate L; cbn [mapM send_all] in *.
  - exact M.
  - rewrite (go_index_ok _ (zlen pre) []) by (rewrite zlen_app, zlen_cons; pose proof (zlen_nonneg pre); pose proof (zlen_nonneg qs); lia).
    cbn [bind]. unfold zlen at 1. rewrite Nat2Z.id, app_nth2, Nat.sub_diag by lia. cbn [nth]. unfold multi_serve at 1.
    destruct (pir_answer D (s_servers f =? 2) db q) as [a| | |]; cbn [bind] in M; try discriminate M.
    destruct (mapM (pir_answer D (s_servers f =? 2) db) qs) as [as'| | |] eqn:E; cbn [bind] in M; try discriminate M.
    assert (X : answers = a :: as') by congruence. rewrite X.
    specialize (IH qs (pre ++ [q]) as' ltac:(cbn [length] in L; lia) E). rewrite <- app_assoc in IH. cbn [app] in IH.
    replace (zlen pre + 1) with (zlen (pre ++ [q])) by (rewrite zlen_app; reflexivity). rewrite IH. reflexivity.
Qed.

Lemma zsum_const {A} (g : A -> Z) v l : Forall (fun x => g x = v) l -> zsum (map g l) = v * zlen l.
Proof. induction 1; cbn [map zsum]; [unfold zlen; cbn; lia|]. rewrite IHForall, H, zlen_cons. lia. Qed.

Section Run.
Context {C : Type}.
Variables (D : dpf_scheme) (H : hash_fn) (f : sflags) (db : bytes_db) (val : nat -> list Z) (conns : list C).
Let n := s_servers f.
Let inf := b_info db.
Let R := i_rows inf.
Let K := i_cols inf.
Hypothesis n2 : 2 <= n.
Hypothesis LC : zlen conns = n.
Hypothesis FIT : 0 < R < w32 /\ 0 < K < w32 /\ 0 <= i_bs inf < w32 /\ 0 <= i_prooflen inf < w32.
Hypothesis TOT : R * K < w32.
Hypothesis GOOD : retrieves D H n db val.

Lemma multi_block_ok h index : fair conns (K / 8 + 1) h -> 0 <= index < R * K ->
  exists bw, multi_block D H (advertised inf) (fun _ => multi_serve D f db) (h_rnd h) (h_order h) (h_arrive h) index = Ok (bw, val (Z.to_nat index)) /\
    (3 <= n -> bw = n * (K / 8 + 1)).
Proof using n2 LC FIT TOT GOOD.
  intros (PO & PA & LR) HI. unfold multi_block.
  assert (LO : zlen (h_order h) = n) by (unfold zlen; rewrite <- (Permutation_length PO); exact LC). rewrite LO.
  unfold u32. rewrite (Z.mod_small index) by lia. rewrite query_bytes_index by lia.
  assert (FT : fits inf) by (unfold fits; unfold R, K in *; intuition lia). rewrite adv_query by exact FT.
  rewrite LC in LR. destruct (GOOD (h_rnd h) index HI LR) as (ix & qs & ans & Q & L & A & REC).
  fold inf in Q. rewrite Q. cbn [bind].
  pose proof (send_all_ok D f db (h_order h) qs [] ans ltac:(unfold zlen in *; lia) A) as SA. cbn [app] in SA. change (zlen (@nil (list Z))) with 0 in SA. rewrite SA. cbn [bind].
  rewrite adv_reconstruct by exact FT. fold inf in REC. rewrite (REC _ (PA ans)). eexists. split; [reflexivity|].
  intros N3. rewrite (query_ok D inf (h_rnd h) index n) in Q; try exact LR; try (unfold K, R in *; lia).
  assert (EQ : qs = shares (query_bytes inf) (Z.to_nat (index mod i_cols inf)) (Z.to_nat (n - 1)) (h_rnd h)) by congruence.
  rewrite (zsum_const zlen (K / 8 + 1)); [rewrite L; lia|]. rewrite EQ.
  assert (LL : length (h_rnd h) = (Z.to_nat (n - 1) * query_bytes inf)%nat).
  { unfold query_bytes, zlen in *. fold K. assert (0 <= K / 8) by (apply Z.div_pos; lia). nia. }
  pose proof (shares_all (query_bytes inf) (Z.to_nat (index mod i_cols inf)) (Z.to_nat (n - 1)) (h_rnd h) LL) as F.
  eapply Forall_impl; [|exact F]. intros q Lq. cbv beta in Lq. unfold zlen. rewrite Lq. unfold query_bytes. fold K.
  assert (0 <= K / 8) by (apply Z.div_pos; lia). lia.
Qed.

Lemma multi_blocks_ok hap start : forall todo i, (forall i, fair conns (K / 8 + 1) (hap i)) -> 0 <= start -> start + Z.of_nat (i + todo) <= R * K ->
  exists l, multi_blocks D H (advertised inf) (fun _ => multi_serve D f db) hap start i todo = Ok l /\ length l = todo /\
    map snd l = map (fun j => val (Z.to_nat start + j)%nat) (seq i todo) /\ (3 <= n -> Forall (fun b => fst b = n * (K / 8 + 1)) l).
Proof using n2 LC FIT TOT GOOD.
  induction todo as [|t IH]; intros i HF HS HB; cbn [multi_blocks].
  - exists []. cbn. auto.
  - destruct (multi_block_ok (hap i) (start + Z.of_nat i) (HF i) ltac:(lia)) as (bw & E & W). rewrite E. cbn [bind].
    destruct (IH (S i) HF HS ltac:(lia)) as (l & EL & LL & VL & WL). rewrite EL. cbn [bind]. eexists. split; [reflexivity|].
    split; [cbn [length]; lia|]. split; [|intros N3; apply Forall_cons; auto].
    cbn [map seq snd]. rewrite VL. f_equal. f_equal. lia.
Qed.

Lemma retrieve_point_ok hap pick bits reps k : (forall j i, fair conns (K / 8 + 1) (hap j i)) -> (forall m, 0 < m -> 0 <= pick m < m) ->
  0 < i_bs inf -> needed bits (8 * i_bs inf) k -> 0 <= k < R * K ->
  exists results, retrieve_point D H (advertised inf) (fun _ => multi_serve D f db) hap pick 8 bits reps = Ok results /\ length results = reps /\
    Forall (fun r => snd r = run_of val (pick (R * K - k)) k /\ (3 <= n -> fst r = k * n * (K / 8 + 1))) results.
Proof using n2 LC FIT TOT GOOD.
  intros HF HP BS ND HK. unfold retrieve_point.
  assert (EA : i_rows (advertised inf) * i_cols (advertised inf) = R * K) by (unfold advertised, u32; cbn [i_rows i_cols]; rewrite !Z.mod_small by (unfold R, K in *; lia); reflexivity).
  assert (EB : bits_to_blocks (i_bs (advertised inf)) 8 bits = k).
  { unfold advertised, u32; cbn [i_bs]. rewrite Z.mod_small by lia. unfold bits_to_blocks. unfold needed in ND.
    rewrite <- (Z.div_unique_pos (- bits) (i_bs inf * 8) (- k) (k * (8 * i_bs inf) - bits)); nia. }
  cbv zeta. rewrite EA, EB. destruct (Z.leb_spec (R * K - k) 0); [lia|]. specialize (HP (R * K - k) ltac:(lia)).
  set (start := pick (R * K - k)) in *.
  assert (G : forall js, exists results, mapM (fun j => l <- multi_blocks D H (advertised inf) (fun _ => multi_serve D f db) (hap j) start 0 (Z.to_nat k) ;; Ok (zsum (map fst l), map snd l)) js = Ok results /\
    length results = length js /\ Forall (fun r => snd r = run_of val start k /\ (3 <= n -> fst r = k * n * (K / 8 + 1))) results).
  { induction js as [|j js IH]; cbn [mapM].
    - exists []. auto.
    - destruct (multi_blocks_ok (hap j) start (Z.to_nat k) 0 (HF j) ltac:(lia) ltac:(lia)) as (l & EL & LL & VL & WL). rewrite EL. cbn [bind].
      destruct IH as (rs & ER & LRS & FR). rewrite ER. cbn [bind]. eexists. split; [reflexivity|]. split; [cbn [length]; lia|].
      apply Forall_cons; [|exact FR]. cbn [fst snd]. split; [exact VL|]. intros N3. rewrite (zsum_const fst (n * (K / 8 + 1))) by auto. unfold zlen. rewrite LL. nia. }
  destruct (G (range reps)) as (rs & ER & LR & FR). exists rs. split; [exact ER|]. split; [|exact FR]. rewrite LR. unfold range. apply seq_length.
Qed.
End Run.

Lemma connections_nodup l : NoDup l -> connections l = l.
Proof. intros ND. unfold connections. apply nodup_fixed_point. exact ND. Qed.
Lemma NoDup_firstn {A} (l : list A) : forall n, NoDup l -> NoDup (firstn n l).
Proof.
  induction l as [|x l IH]; intros [|n] ND; cbn [firstn]; auto; try apply NoDup_nil. inversion ND; subst. apply NoDup_cons; auto.
  intros I. apply H1. rewrite <- (firstn_skipn n l). apply in_or_app. left. exact I.
Qed.
Lemma multi_connect_ok addrs n : NoDup addrs -> 0 <= n <= zlen addrs -> multi_connect addrs n = Ok (firstn (Z.to_nat n) addrs).
Proof.
  intros ND HN. unfold multi_connect. rewrite go_slice_ok by lia. rewrite Z.sub_0_r. cbn [bind skipn Z.to_nat].
  rewrite connections_nodup by (apply NoDup_firstn; exact ND). reflexivity.
Qed.
Lemma collect_repeat {A} (x : A) m : collect (repeat (Some x) m) = Ok (repeat x m).
Proof. induction m; cbn [repeat collect]; auto. rewrite IHm. reflexivity. Qed.
Lemma multi_db_info_ok x m : (0 < m)%nat -> multi_db_info (repeat (Some x) m) = Ok x.
Proof.
  intros M. unfold multi_db_info. rewrite collect_repeat. cbn [bind]. destruct m as [|m]; [lia|]. cbn [repeat bind].
  match goal with |- (if forallb ?g ?l then _ else _) = _ => replace (forallb g l) with true; auto end. symmetry. apply forallb_forall.
  intros y I. change (x :: repeat x m) with (repeat x (S m)) in I. apply repeat_spec in I. subst y. rewrite !Z.eqb_refl. reflexivity.
Qed.

Lemma multi_exec_ok D H f db val addrs hap pick bits reps k : 2 <= s_servers f <= zlen addrs -> NoDup addrs ->
  0 < i_rows (b_info db) < w32 /\ 0 < i_cols (b_info db) < w32 /\ 0 < i_bs (b_info db) < w32 /\ 0 <= i_prooflen (b_info db) < w32 ->
  i_rows (b_info db) * i_cols (b_info db) < w32 -> retrieves D H (s_servers f) db val ->
  (forall j i, fair (firstn (Z.to_nat (s_servers f)) addrs) (i_cols (b_info db) / 8 + 1) (hap j i)) -> (forall m, 0 < m -> 0 <= pick m < m) ->
  needed bits (8 * i_bs (b_info db)) k -> 0 <= k < i_rows (b_info db) * i_cols (b_info db) ->
  exists results, multi_exec D H addrs (s_servers f) (repeat (Some (advertised (b_info db))) (Z.to_nat (s_servers f))) (fun _ => multi_serve D f db) hap pick 8 bits reps = Ok results /\
    length results = reps /\
    Forall (fun r => snd r = run_of val (pick (i_rows (b_info db) * i_cols (b_info db) - k)) k /\
                     (3 <= s_servers f -> fst r = k * s_servers f * (i_cols (b_info db) / 8 + 1))) results.
Proof.
  intros HN ND FIT TOT GOOD HF HP NE HK. unfold multi_exec. rewrite multi_connect_ok by (auto; lia). cbn [bind].
  rewrite multi_db_info_ok by lia. cbn [bind].
  apply (retrieve_point_ok D H f db val (firstn (Z.to_nat (s_servers f)) addrs)); auto; try lia; try tauto.
  - unfold zlen. rewrite firstn_length. unfold zlen in HN. lia.
Qed.
