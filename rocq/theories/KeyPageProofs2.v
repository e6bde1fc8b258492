(** Proofs about lookups with dishonest servers. *)
From Coq Require Import String ZArith List Bool Arith Lia Permutation.
From Verif Require Import GoBase BaseFacts FieldModel FSSModel XorFacts EncodingModel EncodingProofs MerkleModel MerkleSpec MerkleProofs MerkleProofs2 PredicateModel LWEModel
  PointModel PointSpec PointProofs PointProofs2 PointProofs4
  DirectoryModel DirectorySpec DirectoryProofs DirectoryProofs2 DirectoryProofs3 DirectoryProofs4 DirectoryProofs5 FrontendModel FilesModel
  KeyPageModel KeyPageSpec KeyPageProofs.
Import ListNotations.
Open Scope Z_scope.
Open Scope go_scope.

(** ** tampered answers *)
Lemma nth_concat_repeat (delta : list Z) (bs rows r p : nat) : length delta = bs -> (r < rows)%nat -> (p < bs)%nat ->
  nth (r * bs + p) (concat (repeat delta rows)) 0 = nth p delta 0.
Proof.
  intros L. revert r. induction rows as [|rows IH]; intros r Hr Hp; [lia|]. cbn [repeat concat]. destruct r as [|r].
  - rewrite app_nth1 by lia. reflexivity.
  - rewrite app_nth2 by lia. replace (S r * bs + p - length delta)%nat with (r * bs + p)%nat by lia. apply IH; lia.
Qed.

Lemma length_concat_repeat {A} (delta : list A) rows : length (concat (repeat delta rows)) = (rows * length delta)%nat.
Proof. induction rows; cbn [repeat concat Nat.mul]; [reflexivity|]. rewrite app_length. lia. Qed.

Lemma tampered_value inf ix pre a post delta R : 0 <= i_bs inf -> 0 <= ix < i_rows inf -> zlen delta = i_bs inf ->
  Forall (fun a => zlen a = i_rows inf * i_bs inf) (pre ++ a :: post) ->
  reconstruct_value inf ix (pre ++ a :: post) = Ok R ->
  forall answers', Permutation (pre ++ xor_list a (concat (repeat delta (Z.to_nat (i_rows inf)))) :: post) answers' ->
  reconstruct_value inf ix answers' = Ok (xor_list R delta).
Proof.
  intros Hb Hx LD FL ER answers' PM. unfold reconstruct_value, go_make in *. destruct (Z.ltb_spec (i_bs inf) 0); [lia|]. cbn [bind] in *.
  set (z := repeat 0 (Z.to_nat (i_bs inf))) in *. assert (LZ : length z = Z.to_nat (i_bs inf)) by apply repeat_length.
  set (D := concat _) in *.
  assert (LDD : length D = (Z.to_nat (i_rows inf) * Z.to_nat (i_bs inf))%nat).
  { unfold D. rewrite length_concat_repeat. unfold zlen in LD. f_equal. lia. }
  assert (LA : length a = (Z.to_nat (i_rows inf) * Z.to_nat (i_bs inf))%nat).
  { apply Forall_app in FL as [_ FL]. apply Forall_inv in FL. unfold zlen in FL. nia. }
  assert (FL' : Forall (fun a => (ix + 1) * i_bs inf <= zlen a) (pre ++ a :: post)).
  { eapply Forall_impl; [|exact FL]. cbv beta. intros x ->. nia. }
  assert (FT : Forall (fun a => (ix + 1) * i_bs inf <= zlen a) answers').
  { eapply Permutation_Forall; [exact PM|]. apply Forall_app in FL' as [F1 F2]. inversion F2 as [|? ? Fa F3]; subst. apply Forall_app. split; auto.
    constructor; auto. unfold zlen in Fa |- *. rewrite xor_list_length. lia. }
  destruct (sum_answers_ok (i_bs inf) ix Hb ltac:(lia) _ z LZ FL') as (R' & ER' & LR & NR).
  assert (R' = R) as -> by congruence.
  destruct (sum_answers_ok (i_bs inf) ix Hb ltac:(lia) answers' z LZ FT) as (S' & ES & LS & NS).
  rewrite ES. f_equal. apply nth_ext with (d := 0) (d' := 0).
  { rewrite xor_list_length. unfold zlen in LD. lia. }
  intros p Hp. rewrite NS by lia. unfold zlen in LD. rewrite xor_list_nth by lia. rewrite NR by lia.
  rewrite <- (xors_perm _ _ (Permutation_map (fun a => nth (Z.to_nat (ix * i_bs inf) + p) a 0) PM)).
  rewrite !map_app, !xors_app. cbn [map]. unfold xors at 2 4. cbn [fold_right].
  rewrite xor_list_nth by (rewrite ?LA, ?LDD; nia).
  replace (Z.to_nat (ix * i_bs inf)) with (Z.to_nat ix * Z.to_nat (i_bs inf))%nat by nia.
  unfold D. rewrite nth_concat_repeat by lia.
  fold (xors (map (fun a0 => nth (Z.to_nat ix * Z.to_nat (i_bs inf) + p) a0 0) post)).
  rewrite !Z.lxor_assoc. f_equal. f_equal. f_equal. apply Z.lxor_comm.
Qed.

Lemma ask_tampered f h : forall m n qs ans, (m < n)%nat -> length qs = n -> mapM f qs = Ok ans ->
  ask (repeat f m ++ (fun q => match f q with Ok a => Ok (h a) | r => r end) :: repeat f (n - S m)) qs =
  Ok (firstn m ans ++ h (nth m ans []) :: skipn (S m) ans).
Proof.
  induction m as [|m IH]; intros n qs ans Hm L E; destruct qs as [|q qs]; cbn [length] in L; try lia; cbn [mapM] in E;
    destruct (f q) as [a| | |] eqn:Ef; cbn [bind] in E; try discriminate;
    destruct (mapM f qs) as [t| | |] eqn:Et; cbn [bind] in E; try discriminate; injection E as <-; subst n.
  - cbn [repeat app ask]. rewrite Ef. cbn [firstn nth skipn app].
    replace (S (length qs) - 1)%nat with (length qs) by lia. rewrite (ask_same f qs _ t eq_refl Et). reflexivity.
  - cbn [repeat app ask]. rewrite Ef. replace (S (length qs) - S (S m))%nat with (length qs - S m)%nat by lia.
    rewrite (IH (length qs) qs t ltac:(lia) eq_refl Et). reflexivity.
Qed.

Lemma firstn_repeat {A} (x : A) m n : firstn m (repeat x n) = repeat x (Nat.min m n).
Proof. revert n. induction m as [|m IH]; intros [|n]; cbn; auto. f_equal. apply IH. Qed.
Lemma skipn_repeat {A} (x : A) m n : skipn m (repeat x n) = repeat x (n - m).
Proof. revert n. induction m as [|m IH]; intros [|n]; cbn [skipn repeat Nat.sub]; auto. Qed.

Lemma split_nth {A} (x : A) m : forall l, (m < length l)%nat -> l = firstn m l ++ nth m l x :: skipn (S m) l.
Proof. induction m as [|m IH]; intros [|y l] L; cbn in L |- *; try lia; auto. f_equal. apply IH. lia. Qed.

Lemma mapM_length' {A C} (f : A -> res C) l ys : mapM f l = Ok ys -> length ys = length l.
Proof.
  revert ys. induction l as [|x l IH]; intros ys E; cbn [mapM] in E; [injection E as <-; reflexivity|].
  destruct (f x); cbn [bind] in E; try discriminate. destruct (mapM f l) as [t| | |]; cbn [bind] in E; try discriminate.
  injection E as <-. cbn. f_equal. apply IH. reflexivity.
Qed.

Lemma mapM_in {A C} (f : A -> res C) l ys y : mapM f l = Ok ys -> In y ys -> exists x, In x l /\ f x = Ok y.
Proof.
  revert ys. induction l as [|x l IH]; intros ys E I; cbn [mapM] in E; [injection E as <-; destruct I|].
  destruct (f x) eqn:Ex; cbn [bind] in E; try discriminate. destruct (mapM f l) as [t| | |]; cbn [bind] in E; try discriminate.
  injection E as <-. destruct I as [->|I]; [exists x; split; auto; left; auto|]. destruct (IH _ eq_refl I) as (x' & I' & E'). exists x'. split; auto. right. auto.
Qed.

Lemma query_inv D inf rnd index n ix qs : 0 < i_cols inf -> 0 <= index -> 1 <= n -> n <> 2 ->
  zlen rnd = (n - 1) * (i_cols inf / 8 + 1) -> pir_query D inf rnd index n = Ok (ix, qs) ->
  ix = index / i_cols inf /\ Forall (fun q => i_cols inf <= 8 * zlen q) qs.
Proof.
  intros Hc Hi Hn N2 HR E. rewrite query_ok in E by auto. injection E as <- <-. split; [reflexivity|].
  apply Forall_forall. intros q Hq. apply query_bytes_enough; auto.
  assert (LR : length rnd = (Z.to_nat (n - 1) * query_bytes inf)%nat) by (unfold query_bytes; unfold zlen in HR; nia).
  exact (proj1 (Forall_forall _ _) (shares_all _ _ _ rnd LR) q Hq).
Qed.

(** ** the tables of a directory *)
Section Directory.
Variables (G : openpgp) (H B : hash_fn) (D : dpf_scheme) (auth : bool) (keys : list pkey).
Variables (srvs : list (runtime * list (list pkey))) (dbs : list bytes_db).
Hypothesis HD : directory G H B auth keys srvs dbs.

Lemma directory_db db : In db dbs -> db_ok db /\ fits (b_info db) /\ 0 < buckets db < w32 /\ buckets db <= max_records /\
  (if auth then exists t, merkle_db H (bucket_blocks B (buckets db) keys) t db
   else i_type (b_info db) = ""%string /\ forall k, 0 <= k < buckets db -> stored db (Z.to_nat k) = bucket_block B (buckets db) keys k).
Proof using HD.
  intros I. pose proof HD as (HH & HB & _ & HL & _ & HK & HS & F & BS & FO).
  assert (A : exists s, In s srvs /\ built H B auth s db).
  { clear - F I. revert I. induction F as [|s d ss ds Bd F IH]; intros I; [destruct I|]. destruct I as [->|I].
    - exists s. split; auto. left. auto.
    - destruct (IH I) as (s' & I' & B'). exists s'. split; auto. right. auto. }
  destruct A as (s & Is & Bs). rewrite Forall_forall in HS, BS. specialize (HS s Is). specialize (BS db I).
  pose proof (cells_bound (zlen keys) true ltac:(lia)) as CB. pose proof (cells_small (zlen keys) true ltac:(lia)) as CS.
  unfold built in Bs. unfold buckets in *. destruct auth.
  - pose proof HS as [HRs Ps]. pose proof (merkle_dims H B (fst s) (snd s) true db HRs Bs) as MDm.
    replace (zlen (concat (snd s))) with (zlen keys) in MDm by (unfold zlen; rewrite (Permutation_length Ps); auto).
    assert (RC : i_rows (b_info db) * i_cols (b_info db) = cells (zlen keys) true) by (unfold cells; rewrite <- MDm; reflexivity).
    specialize (FO eq_refl). rewrite Forall_forall in FO. specialize (FO db I). unfold buckets in FO. rewrite RC in *.
    destruct (srv_merkle B keys s true HB HL ltac:(lia) HS H HH CS FO) as (db' & t & G' & MD & DM & _).
    assert (db' = db) as -> by congruence.
    assert (LB : zlen (bucket_blocks B (cells (zlen keys) true) keys) = Z.max 0 (cells (zlen keys) true)) by (unfold zlen; rewrite blocks_of_length; lia).
    pose proof MD as (_ & _ & PL & _ & Hr & Hc & _ & _ & LN & FB).
    assert (N0 : 0 < cells (zlen keys) true) by nia.
    pose proof (merkle_db_ok H _ t db HH ltac:(rewrite LB; unfold max_records in *; lia) FO MD) as OK. pose proof OK as (_ & _ & _ & Hb & _).
    destruct (dims_fit db _ RC Hr ltac:(lia) CB) as [Fr Fc].
    conj_split; auto; [|exists t; exact MD].
    unfold fits. pose proof (encoded_proof_length_pos t) as P0. rewrite <- PL in P0.
    assert (In (zlen (nth 0 (bucket_blocks B (cells (zlen keys) true) keys) []) + i_prooflen (b_info db) + 1) (i_lens (b_info db))) as I'.
    { rewrite LN. rewrite RC. rewrite firstn_all2 by (rewrite blocks_of_length; lia). rewrite PL.
      apply in_map_iff. eexists. split; [reflexivity|]. apply nth_In. rewrite blocks_of_length. lia. }
    rewrite Forall_forall in FB. specialize (FB _ I'). pose proof (zlen_nonneg (nth 0 (bucket_blocks B (cells (zlen keys) true) keys) [])).
    unfold w32 in *. lia.
  - destruct (srv_bytes B keys s true HB HL ltac:(lia) HS) as (db' & G' & OK & DM & RC & TY & PL & ST).
    assert (db' = db) as -> by congruence. rewrite RC in *. pose proof OK as (Hr & Hc & _ & Hb & _).
    destruct (dims_fit db _ RC Hr Hc CB) as [Fr Fc]. assert (N0 : 0 < cells (zlen keys) true) by nia.
    conj_split; auto. unfold fits. rewrite PL. unfold w32 in *. lia.
Qed.

(** one server that adds a constant to its answers *)
Lemma tampered_answers db m delta rnd id : In db dbs -> 3 <= zlen dbs -> randomness_for dbs rnd -> (m < length dbs)%nat ->
  zlen delta = i_bs (b_info db) ->
  exists ix qs answers, pir_query D (b_info db) rnd (position B (buckets db) id) (zlen dbs) = Ok (ix, qs) /\
    ask (one_tampering D dbs m db delta) qs = Ok answers /\
    forall answers', Permutation answers answers' ->
      reconstruct_value (b_info db) ix answers' = Ok (xor_list (padded db (Z.to_nat (position B (buckets db) id))) delta).
Proof using HD.
  intros I N3 HR Hm LD. pose proof (directory_same G H B auth keys srvs dbs HD db I) as ED.
  destruct (directory_db db I) as (OK & FT & N0 & _). pose proof (position_range B (buckets db) id ltac:(lia)) as PR.
  pose proof OK as (Hr & Hc & _ & Hb & _).
  assert (HR' : zlen rnd = (zlen dbs - 1) * (i_cols (b_info db) / 8 + 1)).
  { unfold randomness_for in HR. rewrite Forall_forall in HR. rewrite (HR db I). unfold query_bytes. rewrite Z2Nat.id; [reflexivity|].
    pose proof (Z.div_pos (i_cols (b_info db)) 8). lia. }
  destruct (pir_correct D db rnd (position B (buckets db) id) (zlen dbs) OK PR ltac:(lia) ltac:(lia) HR') as (ix & qs & ans & Q & LQ & A & RCN).
  destruct (query_inv D (b_info db) rnd (position B (buckets db) id) (zlen dbs) ix qs Hc ltac:(lia) ltac:(lia) ltac:(lia) HR' Q) as (EX & FQ).
  pose proof (mapM_length' _ _ _ A) as LA.
  assert (FA : Forall (fun a => zlen a = i_rows (b_info db) * i_bs (b_info db)) ans).
  { apply Forall_forall. intros a Ia. destruct (mapM_in _ _ _ _ A Ia) as (q & Iq & Eq). rewrite Forall_forall in FQ.
    destruct (answer_vector_ok D db q OK (FQ q Iq)) as (r & Er & Lr & _). congruence. }
  assert (SP : ans = firstn m ans ++ nth m ans [] :: skipn (S m) ans).
  { apply split_nth. unfold zlen in LQ. lia. }
  exists ix, qs, (firstn m ans ++ xor_list (nth m ans []) (concat (repeat delta (Z.to_nat (i_rows (b_info db))))) :: skipn (S m) ans).
  split; [exact Q|]. split.
  - assert (EO : one_tampering D dbs m db delta = repeat (pir_answer D false db) m ++
      (fun q => match pir_answer D false db q with Ok a => Ok (xor_list a (concat (repeat delta (Z.to_nat (i_rows (b_info db)))))) | r => r end)
      :: repeat (pir_answer D false db) (length dbs - S m)).
    { unfold one_tampering. rewrite ED at 1 2. rewrite firstn_repeat, skipn_repeat, !map_repeat. rewrite Nat.min_l by lia. reflexivity. }
    rewrite EO. apply (ask_tampered (pir_answer D false db) (fun a => xor_list a (concat (repeat delta (Z.to_nat (i_rows (b_info db))))))); auto.
    unfold zlen in LQ. lia.
  - intros answers' PM. eapply tampered_value; [exact Hb| |exact LD| | |exact PM].
    + rewrite EX. clear - PR Hc. set (k := position B (buckets db) id) in *. unfold buckets in PR. clearbody k. split; [apply Z.div_pos; lia|]. apply Z.div_lt_upper_bound; lia.
    + rewrite <- SP. exact FA.
    + rewrite <- SP. apply RCN. apply Permutation_refl.
Qed.
(** what a description says, with another type *)
Definition retyped (s : string) (i : info) : info :=
  mkInfo' (i_rows i) (i_cols i) (i_bs i) (i_lens i) s (i_root i) (i_prooflen i).

Lemma tampered_fetch db m delta rnd arrive id s blk : In db dbs -> 3 <= zlen dbs -> randomness_for dbs rnd -> (m < length dbs)%nat ->
  arrival_ok arrive -> zlen delta = i_bs (b_info db) ->
  (forall ix answers r, reconstruct_value (b_info db) ix answers = Ok r ->
     r = xor_list (padded db (Z.to_nat (position B (buckets db) id))) delta ->
     reconstruct_pir H (retyped s (b_info db)) ix answers = Ok blk) ->
  fetch_bucket H B D (advertised (retyped s (b_info db))) rnd (one_tampering D dbs m db delta) arrive id = unpad_block blk.
Proof using HD.
  intros I N3 HR Hm HA LD HT. destruct (directory_db db I) as (OK & FT & N0 & _).
  pose proof HD as (_ & HB & _).
  destruct (tampered_answers db m delta rnd id I N3 HR Hm LD) as (ix & qs & answers & Q & A & RC).
  apply fetch_generic; auto.
  exists ix, qs, answers.
  replace (zlen (one_tampering D dbs m db delta)) with (zlen dbs).
  2:{ unfold one_tampering, zlen. rewrite app_length. cbn [length]. rewrite !map_length, firstn_length, skipn_length. lia. }
  conj_split; [exact Q|exact A|]. intros a' P. eapply HT; [apply RC; exact P|reflexivity].
Qed.

(** a chosen block *)
Lemma delta_for db k target : db_ok db -> Z.of_nat k < buckets db -> zlen target = i_bs (b_info db) ->
  xor_list (padded db k) (xor_list (padded db k) target) = target /\ zlen (xor_list (padded db k) target) = i_bs (b_info db).
Proof.
  intros OK Hk LT. pose proof OK as (_ & _ & _ & Hb & HL & _).
  assert (LP : length (padded db k) = Z.to_nat (i_bs (b_info db))).
  { apply padded_length; auto. unfold zlen, buckets in *. lia. }
  split.
  - rewrite <- xor_list_assoc, xor_list_self, xor_list_comm. apply xor_list_zero. unfold zlen in LT. lia.
  - unfold zlen in *. rewrite xor_list_length. lia.
Qed.

Lemma directory_bytes db k : Forall (fun key => bytes (k_packet key)) keys -> In db dbs -> Z.of_nat k < buckets db -> bytes (padded db k).
Proof using HD.
  intros FB I Hk. destruct (directory_db db I) as (OK & FT & N0 & NM & TY). pose proof HD as (HH & _ & _ & _ & _ & _ & _ & _ & _ & FO).
  assert (BB : forall j, bytes (bucket_block B (buckets db) keys j)).
  { intros j. unfold bucket_block. destruct (in_bucket B (buckets db) keys j) as [|k0 l] eqn:E; [constructor|]. clear E.
    apply Forall_app. split; [|constructor; [unfold is_byte, w8; lia|constructor]].
    unfold bucket. apply Forall_concat, Forall_map, Forall_forall. intros key Ik. apply filter_In in Ik as [Ik _]. rewrite Forall_forall in FB. apply FB. auto. }
  unfold padded. apply Forall_app. split; [|apply zeros_bytes]. destruct auth.
  - destruct TY as (t & MD). unfold stored. apply Forall_firstn', Forall_skipn'. specialize (FO eq_refl). rewrite Forall_forall in FO.
    eapply (merkle_db_bytes H); [exact HH| |apply FO; exact I|exact MD|].
    + unfold zlen. rewrite blocks_of_length. lia.
    + apply Forall_map, Forall_forall. intros j _. apply BB.
  - destruct TY as (_ & ST). rewrite <- (Nat2Z.id k). rewrite ST by lia. apply BB.
Qed.

(** the client believes whoever describes the table first *)
Lemma downgraded db m rnd arrive id p : In db dbs -> 3 <= zlen dbs -> (m < length dbs)%nat -> zlen p < i_bs (b_info db) ->
  let target := p ++ 128 :: repeat 0 (Z.to_nat (i_bs (b_info db) - zlen p - 1)) in
  let delta := xor_list (padded db (Z.to_nat (position B (buckets db) id))) target in
  randomness_for dbs rnd -> arrival_ok arrive ->
  fetch_bucket H B D (info_of (undescribed db)) rnd (one_tampering D dbs m db delta) arrive id = Ok p.
Proof using HD.
  intros I N3 Hm LP target delta HR HA. destruct (directory_db db I) as (OK & FT & N0 & _).
  pose proof (position_range B (buckets db) id ltac:(lia)) as PR.
  assert (LT : zlen target = i_bs (b_info db)).
  { pose proof (zlen_nonneg p). unfold target. rewrite zlen_app. unfold zlen at 2. cbn [length]. rewrite repeat_length. lia. }
  destruct (delta_for db (Z.to_nat (position B (buckets db) id)) target OK ltac:(lia) LT) as [EX LD]. fold delta in EX, LD.
  assert (EI : info_of (undescribed db) = advertised (retyped "" (b_info db))).
  { unfold info_of, undescribed, advertised, retyped. cbn [di_rows di_cols di_bs di_type di_root di_plen database_info]. rewrite text_lit. reflexivity. }
  rewrite EI, (tampered_fetch db m delta rnd arrive id "" target); auto.
  - unfold target. apply unpad_signal.
  - intros ix answers r ER ->. rewrite reconstruct_plain by (left; reflexivity). rewrite EX in ER. exact ER.
Qed.

(** a key can be hidden behind another bucket *)
Lemma hidden db m rnd arrive id other : In db dbs -> 3 <= zlen dbs -> (m < length dbs)%nat -> auth = true -> In other keys ->
  let delta := xor_list (padded db (Z.to_nat (position B (buckets db) id))) (padded db (Z.to_nat (position B (buckets db) (k_id other)))) in
  randomness_for dbs rnd -> arrival_ok arrive ->
  fetch_bucket H B D (advertised (b_info db)) rnd (one_tampering D dbs m db delta) arrive id =
  Ok (bucket B (buckets db) keys (position B (buckets db) (k_id other))).
Proof using HD.
  intros I N3 Hm AU IO delta HR HA. destruct (directory_db db I) as (OK & FT & N0 & NM & TY).
  pose proof (position_range B (buckets db) id ltac:(lia)) as PR. pose proof (position_range B (buckets db) (k_id other) ltac:(lia)) as PR'.
  pose proof HD as (HH & _ & _ & _ & _ & _ & _ & _ & _ & FO). specialize (FO AU). rewrite Forall_forall in FO. specialize (FO db I).
  rewrite AU in TY. destruct TY as (t & MD). pose proof MD as (_ & _ & _ & TYP & _).
  pose proof OK as (_ & _ & _ & Hb & HL & _).
  destruct (delta_for db (Z.to_nat (position B (buckets db) id)) (padded db (Z.to_nat (position B (buckets db) (k_id other)))) OK) as [EX LD].
  { lia. }
  { unfold zlen. rewrite padded_length; auto; [lia|]. unfold zlen, buckets in *. lia. }
  fold delta in EX, LD.
  assert (EI : advertised (b_info db) = advertised (retyped "merkle" (b_info db))).
  { unfold advertised, retyped. cbn. rewrite TYP. reflexivity. }
  rewrite EI, (tampered_fetch db m delta rnd arrive id "merkle" (bucket_block B (buckets db) keys (position B (buckets db) (k_id other)))); auto.
  - rewrite <- (app_nil_r (bucket_block _ _ _ _)). apply (unpad_bucket B (buckets db) keys _ 0). apply (in_bucket_not_nil B _ keys other); auto.
  - intros ix answers r ER ->. rewrite EX in ER. rewrite reconstruct_merkle by reflexivity.
    change (reconstruct_value (retyped "merkle" (b_info db)) ix answers) with (reconstruct_value (b_info db) ix answers). rewrite ER. cbn [bind].
    change (unwrap H (retyped "merkle" (b_info db))) with (unwrap H (b_info db)).
    rewrite (padded_unwraps H (bucket_blocks B (buckets db) keys) t db); auto.
    + rewrite blocks_of_nth by lia. rewrite Z2Nat.id by lia. reflexivity.
    + unfold zlen. rewrite blocks_of_length. lia.
    + unfold buckets in *. lia.
Qed.

(** whatever the servers answer *)
Lemma ask_in : forall servers qs ans, answers_bytes servers -> ask servers qs = Ok ans -> Forall bytes ans.
Proof.
  induction servers as [|s ss IH]; intros qs ans AB E; cbn [ask] in E; [injection E as <-; constructor|].
  destruct qs as [|q qs]; [discriminate|]. destruct (s q) as [a| | |] eqn:Es; try discriminate.
  destruct (ask ss qs) as [t| | |] eqn:Et; cbn [bind] in E; try discriminate. injection E as <-. constructor.
  - apply (AB s q a); auto. left. auto.
  - apply (IH qs t); auto. intros s' q' a' I'. apply AB. right. auto.
Qed.

Lemma authenticated db rnd servers arrive id text : In db dbs -> auth = true -> answers_bytes servers -> arrival_ok arrive ->
  actor_get_key G H B D (advertised (b_info db)) rnd servers arrive id = Ok text ->
  (exists key, In key keys /\ k_id key = id /\ text = g_armor G (k_packet key)) \/ tiny_ring G id text \/
  hash_broken H (bucket_blocks B (buckets db) keys).
Proof using HD.
  intros I AU AB HA E. destruct (directory_db db I) as (OK & FT & N0 & NM & TY).
  pose proof HD as (HH & HB & KR & HL & FL & _ & _ & _ & _ & FO). specialize (FO AU). rewrite Forall_forall in FO. specialize (FO db I).
  rewrite AU in TY. destruct TY as (t & MD).
  apply actor_inv in E as (b & e & buf & FB & RK & SE & ->). apply recover_inv in RK as (es & RE & IE & PE).
  unfold fetch_bucket in FB. destruct (hash_to_index _ _ _) as [h| | |]; cbn [bind] in FB; try discriminate.
  destruct (pir_query_bytes _ _ _ _ _) as [[ix qs]| | |]; cbn [bind] in FB; try discriminate.
  destruct (ask servers qs) as [ans| | |] eqn:EA; cbn [bind] in FB; try discriminate.
  destruct (reconstruct_pir _ _ _ _) as [data| | |] eqn:ER; cbn [bind] in FB; try discriminate.
  rewrite adv_reconstruct in ER by auto.
  assert (BA : Forall bytes (arrive ans)) by (eapply Permutation_Forall; [apply HA|]; apply (ask_in servers qs); auto).
  destruct (accepted_data H (bucket_blocks B (buckets db) keys) t db ix (arrive ans) data HH) as [ID|[L|(p & C)]]; auto.
  { unfold zlen. rewrite blocks_of_length. lia. }
  - left. unfold bucket_blocks in ID. apply in_map_iff in ID as (j & <- & _).
    destruct (in_bucket B (buckets db) keys (Z.of_nat j)) as [|k0 l] eqn:EB.
    { pose proof (empty_bucket_panics B (buckets db) keys (Z.of_nat j) 0 EB) as P. cbn [repeat] in P. rewrite app_nil_r, FB in P. discriminate. }
    pose proof (unpad_bucket B (buckets db) keys (Z.of_nat j) 0 ltac:(rewrite EB; discriminate)) as U. cbn [repeat] in U. rewrite app_nil_r, FB in U.
    injection U as ->.
    assert (FF : Forall (filed G) (in_bucket B (buckets db) keys (Z.of_nat j))).
    { apply Forall_forall. intros k Ik. apply filter_In in Ik as [Ik _]. rewrite Forall_forall in FL. apply FL. auto. }
    destruct (entities_of (g_lower G) (g_serialize G) _ FF) as (es' & ES & EM).
    unfold bucket in RE. rewrite (KR es' _ ES) in RE. injection RE as ->.
    assert (X : exists key, In key (in_bucket B (buckets db) keys (Z.of_nat j)) /\ k_id key = id /\ k_packet key = buf).
    { revert ES EM. generalize (in_bucket B (buckets db) keys (Z.of_nat j)). clear - IE PE SE. induction es as [|x es IH]; intros ks ES EM; [destruct IE|].
      destruct ks as [|k ks]; [discriminate|]. cbn [map] in ES, EM. cbn [mapM] in ES.
      destruct (g_serialize G x) as [bx| | |] eqn:Ex; cbn [bind] in ES; try discriminate.
      destruct (mapM (g_serialize G) es) as [bs| | |] eqn:Ebs; cbn [bind] in ES; try discriminate.
      injection ES as E1 E2. injection EM as E3 E4. destruct IE as [->|IE].
      - exists k. split; [left; auto|]. split; congruence.
      - destruct (IH IE ks) as (key & Ik & A & C); auto. { rewrite E2. reflexivity. } exists key. split; auto. right. auto. }
    destruct X as (key & Ik & A & C). apply filter_In in Ik as [Ik _]. exists key. rewrite C. auto.
  - right. left. exists b, es, e, buf. conj_split; auto.
    destruct (unpad_block_cases data) as [(_ & m & EU)|(blk & x & n & ED & _ & EU)]; rewrite EU in FB; [discriminate|]. injection FB as ->.
    rewrite ED in L. rewrite !app_length in L. cbn [length] in L. lia.
  - right. right. exists data, p. exact C.
Qed.
End Directory.
