(** Lemmas about lookups from end to end. *)
From Coq Require Import String ZArith List Bool Arith Lia Permutation Sorted.
From Verif Require Import GoBase BaseFacts EncodingModel EncodingProofs MerkleModel MerkleSpec MerkleProofs LWEModel PointModel PointSpec
  PointProofs2 PointProofs4 DirectoryModel DirectorySpec DirectoryProofs DirectoryProofs2 DirectoryProofs3 DirectoryProofs4.
Import ListNotations.
Open Scope Z_scope.
Open Scope go_scope.

(** ** the bucket *)
Lemma padded_bucket B n keys db k : stored db k = bucket_block B n keys (Z.of_nat k) ->
  exists z, padded db k = bucket_block B n keys (Z.of_nat k) ++ repeat 0 z.
Proof. intros E. unfold padded. rewrite E. eexists. reflexivity. Qed.

Lemma in_bucket_not_nil B n keys key k : In key keys -> position B n (k_id key) = k -> in_bucket B n keys k <> [].
Proof.
  intros I E X. assert (In key (in_bucket B n keys k)) by (apply filter_In; split; auto; apply Z.eqb_eq; auto).
  rewrite X in H. destruct H.
Qed.

Lemma holds_length {A C} (P : A -> C -> Prop) l l' : Forall2 P l l' -> length l = length l'.
Proof. induction 1; cbn; congruence. Qed.

Section Lookup.
Variables (H B : hash_fn) (D : dpf_scheme) (reb : bool) (keys : list pkey).
Variables (srvs : list (runtime * list (list pkey))) (dbs : list bytes_db).
Hypothesis HB : hash_ok B.
Hypothesis HL : listed keys.
Hypothesis HK : 10 <= zlen keys <= 2 ^ 35.
Hypothesis HS : Forall (holds keys) srvs.
Hypothesis HBS : Forall (fun db => i_bs (b_info db) < 2 ^ 32) dbs.
Let n := zlen dbs.
Let cnt := cells (zlen keys) reb.

Lemma lookup_plain_block inf rnd arrive id :
  Forall2 (fun s db => generate_real_key_bytes B (fst s) (map Ok (snd s)) reb = Ok db) srvs dbs ->
  In inf (map (fun db => advertised (b_info db)) dbs) -> arrival_ok arrive ->
  3 <= n /\ zlen rnd = (n - 1) * (i_cols inf / 8 + 1) \/ n = 2 /\ dpf_ok D ->
  i_rows inf * i_cols inf = cnt /\
  exists z, fetch_bucket H B D inf rnd (map (pir_answer D (n =? 2)) dbs) arrive id =
    unpad_block (bucket_block B cnt keys (position B cnt id) ++ repeat 0 z).
Proof using HB HL HK HS HBS.
  intros F IN HA HN. pose proof (holds_length _ _ _ F) as LE.
  destruct srvs as [|s0 ss] eqn:ES.
  { inversion F; subst. cbn in IN. destruct IN. }
  assert (H0 : holds keys s0) by (inversion HS; auto).
  destruct (srv_bytes B keys s0 reb HB HL HK H0) as (db & G & OK & DM & RC & TY & PL & ST).
  assert (ED : dbs = repeat db (length (s0 :: ss))).
  { eapply servers_same; [exact F|]. intros s Hs. rewrite Forall_forall in HS. specialize (HS s Hs).
    rewrite <- G. destruct HS as [HR P]. destruct H0 as [HR0 P0]. apply same_bytes; auto.
    - eapply Permutation_trans; [apply Permutation_sym; exact P|exact P0].
    - eapply Permutation_NoDup; [apply Permutation_map; exact P|]. apply HL.
    - replace (zlen (concat (snd s))) with (zlen keys) by (unfold zlen; rewrite (Permutation_length P); auto). apply cells_bound. lia. }
  rewrite LE in ED. assert (IN' : inf = advertised (b_info db)).
  { rewrite ED, map_repeat in IN. apply repeat_spec in IN. auto. }
  assert (BS : i_bs (b_info db) < w32).
  { rewrite Forall_forall in HBS. apply HBS. rewrite ED. destruct dbs; [cbn in LE; lia|]. left. auto. }
  pose proof OK as (Hr & Hc & _). pose proof (cells_bound (zlen keys) reb ltac:(lia)) as CB. fold cnt in CB, RC, ST.
  destruct (dims_fit db _ RC Hr Hc CB) as [Fr Fc].
  subst inf. split.
  { unfold advertised, u32. cbn [i_rows i_cols]. rewrite !Z.mod_small by (unfold w32 in *; lia). exact RC. }
  assert (C0 : 0 < cnt) by (rewrite <- RC; apply Z.mul_pos_pos; lia).
  pose proof (position_range B cnt id C0) as PR.
  destruct (padded_bucket B cnt keys db (Z.to_nat (position B cnt id))) as [z Ez].
  { rewrite ST by lia. rewrite Z2Nat.id by lia. reflexivity. }
  exists z. rewrite Z2Nat.id in Ez by lia. rewrite <- Ez.
  replace (map (pir_answer D (n =? 2)) dbs) with (repeat (pir_answer D (n =? 2) db) (Z.to_nat n)).
  2:{ rewrite ED at 1. rewrite map_repeat. f_equal. unfold n, zlen. lia. }
  apply fetch_plain; auto.
  destruct HN as [[N3 RN]|N2]; [left|right; auto]. split; auto.
  unfold advertised, u32 in RN. cbn [i_cols] in RN. rewrite (Z.mod_small (i_cols _)) in RN by (unfold w32 in *; lia). exact RN.
Qed.

Lemma lookup_merkle_block inf rnd arrive id : hash_ok H -> cnt <= 2 ^ 31 -> fingerprints_ok (bucket_blocks B cnt keys) ->
  Forall2 (fun s db => generate_real_key_merkle H B (fst s) (map Ok (snd s)) reb = Ok db) srvs dbs ->
  In inf (map (fun db => advertised (b_info db)) dbs) -> arrival_ok arrive ->
  3 <= n /\ zlen rnd = (n - 1) * (i_cols inf / 8 + 1) \/ n = 2 /\ dpf_ok D ->
  i_rows inf * i_cols inf = cnt /\
  exists z, fetch_bucket H B D inf rnd (map (pir_answer D (n =? 2)) dbs) arrive id =
    unpad_block (bucket_block B cnt keys (position B cnt id) ++ repeat 0 z).
Proof using HB HL HK HS HBS.
  intros HH HM FO F IN HA HN. pose proof (holds_length _ _ _ F) as LE.
  destruct srvs as [|s0 ss] eqn:ES.
  { inversion F; subst. cbn in IN. destruct IN. }
  assert (H0 : holds keys s0) by (inversion HS; auto).
  destruct (srv_merkle B keys s0 reb HB HL HK H0 H HH HM FO) as (db & t & G & MD & DM & RC).
  assert (ED : dbs = repeat db (length (s0 :: ss))).
  { eapply servers_same; [exact F|]. intros s Hs. rewrite Forall_forall in HS. specialize (HS s Hs).
    rewrite <- G. destruct HS as [HR P]. destruct H0 as [HR0 P0]. apply same_merkle; auto.
    - eapply Permutation_trans; [apply Permutation_sym; exact P|exact P0].
    - eapply Permutation_NoDup; [apply Permutation_map; exact P|]. apply HL.
    - replace (zlen (concat (snd s))) with (zlen keys) by (unfold zlen; rewrite (Permutation_length P); auto). apply cells_bound. lia. }
  rewrite LE in ED. assert (IN' : inf = advertised (b_info db)).
  { rewrite ED, map_repeat in IN. apply repeat_spec in IN. auto. }
  assert (BS : i_bs (b_info db) < w32).
  { rewrite Forall_forall in HBS. apply HBS. rewrite ED. destruct dbs; [cbn in LE; lia|]. left. auto. }
  pose proof MD as (_ & _ & _ & _ & Hr & Hc & _). pose proof (cells_bound (zlen keys) reb ltac:(lia)) as CB. fold cnt in CB, RC, MD.
  destruct (dims_fit db _ RC Hr ltac:(lia) CB) as [Fr Fc].
  subst inf. split.
  { unfold advertised, u32. cbn [i_rows i_cols]. rewrite !Z.mod_small by (unfold w32 in *; lia). exact RC. }
  exists O. cbn [repeat]. rewrite app_nil_r.
  replace (map (pir_answer D (n =? 2)) dbs) with (repeat (pir_answer D (n =? 2) db) (Z.to_nat n)).
  2:{ rewrite ED at 1. rewrite map_repeat. f_equal. unfold n, zlen. lia. }
  apply (fetch_merkle H B D db t reb keys); auto.
  destruct HN as [[N3 RN]|N2]; [left|right; auto]. split; auto.
  unfold advertised, u32 in RN. cbn [i_cols] in RN. rewrite (Z.mod_small (i_cols _)) in RN by (unfold w32 in *; lia). exact RN.
Qed.
End Lookup.

Lemma empty_bucket_panics B n keys k z : in_bucket B n keys k = [] -> is_panic (unpad_block (bucket_block B n keys k ++ repeat 0 z)) = true.
Proof.
  intros E. unfold bucket_block. rewrite E. cbn [app]. apply unpad_block_panic_iff. apply Forall_forall. intros x Hx. apply repeat_spec in Hx. auto.
Qed.

(** ** finding the key in its bucket *)
Lemma keyring_inj serialize read e e' b : keyring_ok serialize read -> serialize e = Ok b -> serialize e' = Ok b -> e = e'.
Proof.
  intros K E E'. pose proof (K [e] [b]) as A. pose proof (K [e'] [b]) as A'. cbn [mapM] in A, A'. rewrite E in A. rewrite E' in A'. cbn [bind] in A, A'.
  specialize (A eq_refl). specialize (A' eq_refl). congruence.
Qed.

Lemma entities_of lower serialize found : Forall (fun k => exists e, serialize e = Ok (k_packet k) /\ primary_email lower e = k_id k) found ->
  exists es, mapM serialize es = Ok (map k_packet found) /\ map (primary_email lower) es = map k_id found.
Proof.
  induction 1 as [|k found (e & S & P) F (es & E & M)]; [exists []; auto|]. exists (e :: es). cbn [mapM map]. rewrite S. cbn [bind]. rewrite E. cbn [bind].
  split; congruence.
Qed.

Lemma find_unique {A} (f : A -> list Z) l i d : NoDup (map f l) -> (i < length l)%nat ->
  find (fun e => bytes_equal (f e) (f (nth i l d))) l = Some (nth i l d).
Proof.
  revert i. induction l as [|x l IH]; intros i ND Hi; cbn [length] in Hi; [lia|]. cbn [map] in ND. inversion ND as [|? ? NI ND']; subst.
  destruct i as [|i]; cbn [nth find].
  - rewrite bytes_equal_refl. reflexivity.
  - rewrite bytes_equal_neq; [apply IH; auto; lia|]. intros E. apply NI. rewrite E. apply in_map. apply nth_In. lia.
Qed.

Lemma recover_ok lower serialize read found k e : keyring_ok serialize read ->
  Forall (fun k => exists e, serialize e = Ok (k_packet k) /\ primary_email lower e = k_id k) found -> NoDup (map k_id found) ->
  In k found -> serialize e = Ok (k_packet k) ->
  recover_key_from_block lower read (concat (map k_packet found)) (k_id k) = Ok e.
Proof.
  intros K F ND I S. destruct (entities_of lower serialize found F) as (es & E & M). unfold recover_key_from_block.
  rewrite (K es _ E). cbn [bind].
  assert (L : length es = length found) by (apply (f_equal (@length _)) in M; rewrite !map_length in M; auto).
  destruct (In_nth _ _ k I) as (i & Hi & Ei).
  assert (Pi : primary_email lower (nth i es e) = k_id k).
  { rewrite <- Ei. rewrite <- (map_nth (primary_email lower)), <- (map_nth k_id). rewrite M. apply nth_indep. rewrite map_length. auto. }
  assert (Si : serialize (nth i es e) = Ok (k_packet k)).
  { rewrite <- Ei. clear - E L Hi. revert found E L i Hi. induction es as [|x es IH]; intros [|k0 found] E L i Hi; cbn [length] in *; try lia.
    cbn [mapM map] in E. destruct (serialize x) as [b| | |] eqn:Sx; cbn [bind] in E; try discriminate.
    destruct (mapM serialize es) as [bs| | |] eqn:Es; cbn [bind] in E; try discriminate. injection E as E1 E2.
    destruct i as [|i]; cbn [nth]; [congruence|]. apply (IH found); auto; try lia. congruence. }
  rewrite <- Pi. rewrite find_unique; [|rewrite M; auto|lia]. f_equal. eapply keyring_inj; eauto.
Qed.

Lemma bucket_nodup B n keys k : NoDup (map k_id keys) -> NoDup (map k_id (in_bucket B n keys k)).
Proof.
  unfold in_bucket. intros ND. induction keys as [|x keys IH]; cbn [filter map] in *; [constructor|]. inversion ND as [|? ? NI ND']; subst.
  destruct (_ =? k); cbn [map]; auto. constructor; auto. intros I. apply NI. apply in_map_iff in I as (y & Ey & Iy). apply filter_In in Iy as [Iy _].
  apply in_map_iff. exists y. auto.
Qed.

(** what the dump gives is written under its own e-mail address *)
Lemma written_keys lower serialize contents m entries ks : analyze_key_dump lower (map Ok contents) = Ok m -> Permutation m entries ->
  write_keys_on_disk serialize entries = Ok ks ->
  NoDup (map k_id ks) /\
  Forall (fun k => exists e, serialize e = Ok (k_packet k) /\ primary_email lower e = k_id k) ks /\
  (forall email e buf, email <> [] -> freshest (candidates lower (concat contents) email) e -> serialize (primary_only e) = Ok buf ->
     zlen buf <= key_size_limit -> In (mkKey email buf) ks) /\
  (forall email e buf, freshest (candidates lower (concat contents) email) e -> serialize (primary_only e) = Ok buf ->
     key_size_limit < zlen buf -> ~ In email (map k_id ks)) /\
  (forall k, In k ks -> exists e, freshest (candidates lower (concat contents) (k_id k)) e /\ serialize (primary_only e) = Ok (k_packet k)).
Proof.
  intros A P W. destruct (analyze_ok lower contents) as (m' & A' & ND & N0 & G). rewrite A in A'. injection A' as <-.
  destruct (write_ok serialize entries ks W) as (WI & WN & WF).
  assert (NDE : NoDup (map fst entries)) by (eapply Permutation_NoDup; [apply Permutation_map; exact P|auto]).
  assert (GE : forall email e, In (email, e) entries -> email <> [] /\ exists e0, freshest (candidates lower (concat contents) email) e0 /\ e = primary_only e0).
  { intros email e I. apply (Permutation_in _ (Permutation_sym P)) in I. apply (In_key_get _ _ _ ND) in I.
    assert (NE : email <> []) by (intros ->; congruence). split; auto. apply (proj2 (G email NE)). auto. }
  assert (LAST : forall k, In k ks -> exists e, freshest (candidates lower (concat contents) (k_id k)) e /\ serialize (primary_only e) = Ok (k_packet k)).
  { intros k I. apply WI in I as (e & I & S & _). apply GE in I as (_ & e0 & Fr & ->). eauto. }
  conj_split; auto.
  - apply Forall_forall. intros k I. destruct (LAST k I) as (e & Fr & S). exists (primary_only e). split; auto.
    destruct Fr as (b & a & EC & _). assert (In e (candidates lower (concat contents) (k_id k))) by (rewrite EC; apply in_or_app; right; left; auto).
    apply filter_In in H as [_ H]. apply andb_true_iff in H as [_ H]. apply bytes_equal_spec in H. exact H.
  - intros email e buf NE Fr S Z. apply WI. cbn [k_id k_packet]. exists (primary_only e). conj_split; auto.
    eapply Permutation_in; [exact P|]. apply key_get_In. apply (proj2 (G email NE)). eauto.
  - intros email e buf Fr S Z I. apply in_map_iff in I as (k & <- & I). pose proof (proj1 (WI k) I) as (e' & I' & S' & Z').
    destruct (GE _ _ I') as (_ & e0 & Fr0 & ->). pose proof (freshest_unique _ _ _ Fr Fr0). subst e0.
    assert (buf = k_packet k) by congruence. subst buf. lia.
Qed.

Lemma some_listing (s : list pkey -> list pkey) ks : sorts s -> NoDup (map k_id ks) -> listed (s ks) /\ Permutation (s ks) ks.
Proof.
  intros HS ND. destruct (HS ks) as [P SS]. split; [|apply Permutation_sym; auto]. split; auto.
  eapply Permutation_NoDup; [apply Permutation_map; exact P|auto].
Qed.

Lemma concat_perm {A} (l l' : list (list A)) : Permutation l l' -> Permutation (concat l) (concat l').
Proof.
  induction 1; cbn [concat]; auto.
  - apply Permutation_app_head. auto.
  - rewrite !app_assoc. apply Permutation_app_tail. apply Permutation_app_comm.
  - eapply Permutation_trans; eauto.
Qed.

Lemma merkle_dims H B R contents reb db : runtime_ok R -> generate_real_key_merkle H B R (map Ok contents) reb = Ok db ->
  (i_rows (b_info db), i_cols (b_info db)) = calculate_num_rows_and_columns (pre_square_num_blocks (zlen (concat contents))) reb.
Proof.
  intros HR E. unfold generate_real_key_merkle in E. rewrite load_ok in E. cbn [bind] in E. rewrite sort_zlen in E by auto.
  destruct (calculate_num_rows_and_columns _ reb) as [r c].
  repeat match type of E with bind ?x _ = _ => destruct x; cbn [bind] in E; try discriminate E end. injection E as <-. reflexivity.
Qed.

Lemma merkle_cells H B keys srvs dbs inf reb : Forall (holds keys) srvs -> 10 <= zlen keys <= 2 ^ 35 ->
  Forall2 (fun s db => generate_real_key_merkle H B (fst s) (map Ok (snd s)) reb = Ok db) srvs dbs ->
  In inf (map (fun db => advertised (b_info db)) dbs) -> i_rows inf * i_cols inf = cells (zlen keys) reb.
Proof.
  intros HS HK F IN. apply in_map_iff in IN as (db & <- & I). 
  assert (G : exists s, holds keys s /\ generate_real_key_merkle H B (fst s) (map Ok (snd s)) reb = Ok db).
  { clear HK. induction F as [|s d ss ds E F IH]; [destruct I|]. inversion HS; subst. destruct I as [->|I]; eauto. }
  destruct G as (s & [HR P] & G). apply merkle_dims in G; auto.
  replace (zlen (concat (snd s))) with (zlen keys) in G by (unfold zlen; rewrite (Permutation_length P); auto).
  pose proof (cells_bound (zlen keys) reb ltac:(lia)) as CB.
  pose proof (layout_positive (pre_square_num_blocks (zlen keys)) reb (buckets_positive (zlen keys) ltac:(lia))) as L.
  unfold cells in *. rewrite <- G in *. destruct L as [Lr Lc]. unfold advertised, u32. cbn [i_rows i_cols].
  assert (0 < i_rows (b_info db) < w32 /\ 0 < i_cols (b_info db) < w32) by nia.
  rewrite !Z.mod_small by (unfold w32 in *; lia). reflexivity.
Qed.

Lemma few_keys_bytes B R contents reb : hash_ok B -> runtime_ok R -> 1 <= zlen (concat contents) < 10 ->
  generate_real_key_bytes B R (map Ok contents) reb = Panic "integer divide by zero".
Proof.
  intros HB HR HK. unfold generate_real_key_bytes. rewrite load_ok. cbn [bind]. rewrite sort_zlen by auto. rewrite few_keys by lia.
  destruct HR as (HS & _). destruct (HS (concat contents)) as [P _]. 
  destruct (r_sort R (concat contents)) as [|k ks]; [apply Permutation_sym, Permutation_nil in P; rewrite P in HK; change (zlen (@nil pkey)) with 0 in HK; lia|].
  replace (calculate_num_rows_and_columns 0 reb) with (if reb then (0, 0) else (1, 0)) by (destruct reb; reflexivity).
  replace (if reb then (0, 0) else (1, 0)) with ((if reb then 0 else 1), 0) by (destruct reb; reflexivity). rewrite Z.mul_0_r.
  assert (E : make_hash_table B (k :: ks) 0 [] = Panic "integer divide by zero"); [|rewrite E; reflexivity].
  cbn [make_hash_table]. unfold hash_to_index. destruct (HB (k_id k)) as [L _]. rewrite go_slice_ok by (unfold zlen; lia). cbn [bind].
  unfold be_u32. rewrite firstn_length, skipn_length, L. reflexivity.
Qed.

Lemma few_keys_merkle H B R contents reb : hash_ok B -> runtime_ok R -> 1 <= zlen (concat contents) < 10 ->
  generate_real_key_merkle H B R (map Ok contents) reb = Panic "integer divide by zero".
Proof.
  intros HB HR HK. unfold generate_real_key_merkle. rewrite load_ok. cbn [bind]. rewrite sort_zlen by auto. rewrite few_keys by lia.
  destruct HR as (HS & _). destruct (HS (concat contents)) as [P _]. 
  destruct (r_sort R (concat contents)) as [|k ks]; [apply Permutation_sym, Permutation_nil in P; rewrite P in HK; change (zlen (@nil pkey)) with 0 in HK; lia|].
  replace (calculate_num_rows_and_columns 0 reb) with ((if reb then 0 else 1), 0) by (destruct reb; reflexivity). rewrite Z.mul_0_r.
  assert (E : make_hash_table B (k :: ks) 0 [] = Panic "integer divide by zero"); [|rewrite E; reflexivity].
  cbn [make_hash_table]. unfold hash_to_index. destruct (HB (k_id k)) as [L _]. rewrite go_slice_ok by (unfold zlen; lia). cbn [bind].
  unfold be_u32. rewrite firstn_length, skipn_length, L. reflexivity.
Qed.

Lemma increase_smallest n : 0 <= n -> increase_to_next_square n = smallest_square n.
Proof.
  intros Hn. unfold increase_to_next_square, smallest_square. destruct (Z.eqb_spec (Z.sqrt n * Z.sqrt n) n) as [E|E].
  - pose proof (Z.sqrt_up_square (Z.sqrt n) (Z.sqrt_nonneg n)) as Q. rewrite E in Q. rewrite Q. auto.
  - assert (S : Z.sqrt_up n = Z.sqrt n + 1).
    { destruct (Z.eq_dec n 0) as [->|]; [exfalso; apply E; reflexivity|].
      apply Z.sqrt_up_unique; [pose proof (Z.sqrt_nonneg n); lia|]. pose proof (Z.sqrt_spec n Hn) as S. unfold Z.succ in S. replace (Z.pred (Z.sqrt n + 1)) with (Z.sqrt n) by lia. nia. }
    rewrite S. reflexivity.
Qed.

Lemma cells_tenth n reb : 0 <= n < 2 ^ 24 -> cells n reb = if reb then smallest_square (n / 10) else n / 10.
Proof.
  intros Hn. unfold cells, calculate_num_rows_and_columns. rewrite buckets_tenth by auto. destruct reb; [|lia].
  rewrite increase_smallest by (apply Z.div_pos; lia). unfold smallest_square. pose proof (Z.sqrt_up_nonneg (n / 10)).
  rewrite Z.sqrt_square by auto. reflexivity.
Qed.

(** ** the database for predicate queries *)
Lemma mapM_ext {A C} (f g : A -> res C) l : (forall x, In x l -> f x = g x) -> mapM f l = mapM g l.
Proof.
  induction l as [|x l IH]; intros E; cbn [mapM]; [reflexivity|]. rewrite (E x) by (left; auto). rewrite IH by (intros; apply E; right; auto). reflexivity.
Qed.

Lemma db_rows lower serialize read keys srv : keyring_ok serialize read -> listed keys -> holds keys srv ->
  Forall (fun k => exists e, serialize e = Ok (k_packet k) /\ primary_email lower e = k_id k) keys ->
  exists es, generate_real_key_db read (fst srv) (map Ok (snd srv)) = Ok (zlen keys, es) /\
    map (primary_email lower) es = map k_id keys /\ mapM serialize es = Ok (map k_packet keys).
Proof.
  intros K HL [HR P] F. destruct (entities_of lower serialize keys F) as (es & E & M). exists es. split; [|auto].
  unfold generate_real_key_db. rewrite load_ok. cbn [bind]. rewrite (sorted_is (fst srv) keys) by (auto; apply HR).
  assert (G : mapM (fun k => match get_key_info_from_packet read (k_packet k) with Err m => Fatal m | r => r end) keys = Ok es).
  { clear - K E. revert es E. induction keys as [|k keys IH]; intros es E; cbn [map] in E; destruct es as [|e es]; cbn [mapM] in E.
    - reflexivity.
    - destruct (serialize e); cbn [bind] in E; try discriminate. destruct (mapM serialize es); cbn [bind] in E; discriminate.
    - discriminate.
    - destruct (serialize e) as [b| | |] eqn:S; cbn [bind] in E; try discriminate. destruct (mapM serialize es) as [bs| | |] eqn:Es; cbn [bind] in E; try discriminate.
      injection E as E1 E2. cbn [mapM]. unfold get_key_info_from_packet at 1.
      pose proof (K [e] [b]) as Kb. cbn [mapM] in Kb. rewrite S in Kb. cbn [bind concat] in Kb. rewrite app_nil_r in Kb. specialize (Kb eq_refl).
      rewrite <- E1, Kb. cbn [bind]. rewrite (IH es) by congruence. reflexivity. }
  rewrite G. reflexivity.
Qed.
