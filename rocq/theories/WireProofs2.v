(** Proofs about lookups through the network. *)
From Coq Require Import String ZArith List Bool Lia Arith Permutation.
From Verif Require Import GoBase BaseFacts LWEModel EncodingModel MerkleModel MerkleSpec MerkleProofs MerkleProofs2 PointModel PointSpec DirectoryModel DirectorySpec DirectoryProofs DirectoryProofs2 DirectoryProofs3 FrontendModel KeyPageModel SessionModel ChannelModel ChannelProofs
  KeyPageSpec KeyPageProofs FSSProofs WireModel WireSpec WireProofs.
Import ListNotations.
Open Scope Z_scope.

Lemma go_slice_len {A} (l s : list A) i j : go_slice l i j = Ok s -> zlen s = j - i /\ 0 <= i <= j /\ j <= zlen l /\ s = firstn (Z.to_nat (j - i)) (skipn (Z.to_nat i) l).
Proof.
  unfold go_slice. destruct ((0 <=? i) && (i <=? j) && (j <=? zlen l))%bool eqn:C; [|discriminate].
  apply andb_prop in C as [C C3]. apply andb_prop in C as [C1 C2]. apply Z.leb_le in C1, C2, C3. intros E.
  assert (s = firstn (Z.to_nat (j - i)) (skipn (Z.to_nat i) l)) as -> by congruence.
  split; [|auto]. unfold zlen in *. rewrite firstn_length, skipn_length. lia.
Qed.

Lemma share_loop_lengths : forall todo k vl rand last vs, 0 <= vl -> length last = Z.to_nat vl -> share_loop k todo vl rand last = Ok vs ->
  Forall (fun q => zlen q = vl) vs.
Proof.
  induction todo as [|t IH]; intros k vl rand last vs V L E; cbn [share_loop] in E.
  - injection E as <-. constructor; [unfold zlen; lia|constructor].
  - destruct (go_slice _ _ _) as [s| | |] eqn:ES; try discriminate. cbn [bind] in E. cbv zeta in E.
    destruct (share_loop (S k) t vl rand _) as [vs'| | |] eqn:EV; try discriminate. cbn [bind] in E. injection E as <-. constructor.
    + apply go_slice_len in ES as (LS & _). unfold zlen in *. rewrite go_copy_length, repeat_length. lia.
    + eapply IH; [exact V| |exact EV]. rewrite xor_into_length. exact L.
Qed.

Lemma query_lengths D inf rnd inp n ix qs : n <> 2 -> 0 <= i_cols inf < 2 ^ 32 -> pir_query_bytes D inf rnd inp n = Ok (ix, qs) -> Forall small qs.
Proof.
  intros N C E. unfold pir_query_bytes in E. destruct (be_u32 inp) as [index| | |]; try discriminate. cbn [bind] in E. unfold pir_query in E.
  destruct (invalid_query_inputs_it index n); [discriminate|]. destruct (vector_to_matrix_indices _ _) as [[x y]| | |]; try discriminate. cbn [bind] in E.
  destruct (Z.eqb_spec n 2); [contradiction|]. destruct (secret_share _ _ _ _) as [vs| | |] eqn:ES; try discriminate. cbn [bind] in E. injection E as <- <-.
  unfold secret_share in ES. cbv zeta in ES.
  destruct (go_make tt n) as [v1| | |]; try discriminate. cbn [bind] in ES. destruct (mapM _ v1) as [v2| | |]; try discriminate. cbn [bind] in ES.
  destruct (go_make 0 ((n - 1) * _)) as [v3| | |]; try discriminate. cbn [bind] in ES. destruct (Z.rem y 8 <? 0); [discriminate|].
  destruct (go_index v1 _) as [v4| | |]; try discriminate. cbn [bind] in ES.
  destruct (go_make 0 (Z.quot (i_cols inf) 8 + 1)) as [z| | |] eqn:EZ; try discriminate. cbn [bind] in ES.
  destruct (go_store z _ _) as [l| | |] eqn:EL; try discriminate. cbn [bind] in ES.
  assert (Q : 0 <= Z.quot (i_cols inf) 8 <= 536870912).
  { rewrite Z.quot_div_nonneg by lia. split; [apply Z.div_pos; lia|]. apply Z.div_le_upper_bound; lia. }
  assert (LZ : length z = Z.to_nat (Z.quot (i_cols inf) 8 + 1)).
  { unfold go_make in EZ. destruct (_ <? 0); [discriminate|]. injection EZ as <-. apply repeat_length. }
  assert (LL : length l = length z).
  { unfold go_store in EL. destruct (_ && _)%bool; [|discriminate]. injection EL as <-. apply BaseFacts.upd_length. }
  assert (F : Forall (fun q => zlen q = Z.quot (i_cols inf) 8 + 1) vs) by (eapply share_loop_lengths; [| |exact ES]; [lia|congruence]).
  eapply Forall_impl; [|exact F]. intros q X. cbv beta in X. unfold small. lia.
Qed.

Lemma xor_values_length : forall entries lens q j pos out r, xor_values entries lens q j pos out = Ok r -> length r = length out.
Proof.
  intros entries. induction lens as [|l t IH]; intros q j pos out r E; cbn [xor_values] in E; [injection E as <-; reflexivity|].
  destruct (go_index q (j / 8)) as [b| | |]; try discriminate. cbn [bind] in E. destruct (Z.testbit b (j mod 8)).
  - destruct (go_slice entries pos (pos + l)) as [s| | |]; try discriminate. cbn [bind] in E. apply IH in E. rewrite E. apply xor_into_length.
  - cbn [bind] in E. apply IH in E. exact E.
Qed.

Lemma answer_length D db q a : pir_answer D false db q = Ok a -> zlen a = i_rows (b_info db) * i_bs (b_info db).
Proof.
  unfold pir_answer. cbv zeta. unfold go_make. destruct (Z.ltb_spec (i_rows (b_info db) * i_bs (b_info db)) 0); [discriminate|]. cbn [bind].
  assert (A : forall todo i prev out r, answer_rows db q i todo prev out = Ok r -> length r = length out).
  { induction todo as [|t IH]; intros i prev out r E; cbn [answer_rows] in E; [injection E as <-; reflexivity|]. cbv zeta in E.
    destruct (add_lens _ _ _ _) as [nx| | |]; try discriminate. cbn [bind] in E. destruct (go_slice (b_entries db) _ _) as [sg| | |]; try discriminate. cbn [bind] in E.
    destruct (go_slice (i_lens _) _ _) as [ls| | |]; try discriminate. cbn [bind] in E. destruct (go_slice out _ _) as [o| | |] eqn:EO; try discriminate. cbn [bind] in E.
    destruct (xor_values sg ls q 0 0 o) as [o'| | |] eqn:EX; try discriminate. cbn [bind] in E. apply IH in E. rewrite E. apply xor_values_length in EX.
    apply go_slice_len in EO as (LO & R1 & R2 & _). rewrite !app_length, firstn_length, skipn_length, EX. unfold zlen in *. lia. }
  intros E. apply A in E. unfold zlen. rewrite E, repeat_length. lia.
Qed.

Lemma ask_remote E : gzip_ok E -> forall servers qs, Forall small qs -> Forall (fun s => forall q a, s q = Ok a -> small a) servers ->
  ask (map (over_network E) servers) qs = ask servers qs.
Proof.
  intros G. induction servers as [|s t IH]; intros qs Q A; cbn [map ask]; auto. destruct qs as [|q qs]; auto.
  inversion Q as [|? ? Q1 Q2]; subst. inversion A as [|? ? A1 A2]; subst. rewrite (IH qs Q2 A2).
  destruct (s q) as [a|m|m|m] eqn:ES.
  - rewrite (remote_ok E s q a G Q1 (A1 q a ES) ES). reflexivity.
  - destruct (remote_ends E (serve_query E s) q G) as [(a & R)|(x & R)]; fold (over_network E s) in R; rewrite R; auto. apply remote_inv in R as (R & _); auto. congruence.
  - destruct (remote_ends E (serve_query E s) q G) as [(a & R)|(x & R)]; fold (over_network E s) in R; rewrite R; auto. apply remote_inv in R as (R & _); auto. congruence.
  - destruct (remote_ends E (serve_query E s) q G) as [(a & R)|(x & R)]; fold (over_network E s) in R; rewrite R; auto. apply remote_inv in R as (R & _); auto. congruence.
Qed.

Lemma actor_remote E G H B D inf rnd servers arrive id : gzip_ok E ->
  (forall h ix qs, pir_query_bytes D inf rnd (be_enc 4 (u32 h)) (zlen servers) = Ok (ix, qs) -> Forall small qs) ->
  Forall (fun s => forall q a, s q = Ok a -> small a) servers ->
  actor_get_key G H B D inf rnd (map (over_network E) servers) arrive id = actor_get_key G H B D inf rnd servers arrive id.
Proof.
  intros GZ Q A. unfold actor_get_key. destruct (hash_to_index _ _ _) as [h| | |]; try reflexivity. cbn [bind].
  replace (zlen (map (over_network E) servers)) with (zlen servers) by (unfold zlen; rewrite map_length; reflexivity).
  destruct (pir_query_bytes _ _ _ _ _) as [[ix qs]| | |] eqn:EQ; try reflexivity. cbn [wrap bind].
  rewrite (ask_remote E GZ servers qs (Q h ix qs EQ) A). reflexivity.
Qed.

(** ** Descriptions *)

Lemma store_blocks_length : forall entries blocks r, store_blocks entries blocks = Ok r -> length r = length blocks.
Proof.
  induction entries as [|[k v] t IH]; intros blocks r E; cbn [store_blocks] in E; [injection E as <-; reflexivity|].
  unfold go_store in E. destruct (_ && _)%bool; [|discriminate]. cbn [bind] in E. apply IH in E. rewrite E. apply BaseFacts.upd_length.
Qed.

Lemma new_using_root H data t rt : hash_ok H -> zlen data <= max_records -> new_using H data = Ok t -> root t = Ok rt -> length rt = 32%nat.
Proof.
  intros HH HM E R. pose proof (inv_t H data t HM E) as I. pose proof (new_using_nonempty H data t E) as P.
  rewrite (root_t H data t HM E) in R. assert (rt = nth 1 (t_nodes t) []) as -> by congruence. rewrite (root_spec H data t I P).
  apply spec_root_length; auto using spec_leaves_length, spec_leaves_len32.
Qed.

Lemma built_sendable E G H B auth keys srvs dbs db : utf8_ok E -> directory G H B auth keys srvs dbs -> In db dbs ->
  sendable E (database_info (PointService db)).
Proof.
  intros U HD I. pose proof HD as (HH & HB & _ & HL & _ & HK & HS & F & BS & FO).
  assert (A : exists s, holds keys s /\ built H B auth s db).
  { clear - F HS I. induction F as [|s d ss ds E F IH]; [destruct I|]. inversion HS; subst. destruct I as [->|I]; eauto. }
  destruct A as (s & HO & BU).
  assert (T : Forall (fun b => 0 <= b < 128) (lit (i_type (b_info db))) /\ zlen (lit (i_type (b_info db))) <= 10 /\ zlen (i_root (b_info db)) <= 32).
  { unfold built in BU. destruct auth.
    - unfold generate_real_key_merkle in BU. rewrite load_ok in BU. cbn [bind] in BU. destruct HO as [HR P]. rewrite sort_zlen in BU by auto.
      assert (EZ : zlen (concat (snd s)) = zlen keys) by (unfold zlen; rewrite (Permutation_length P); reflexivity). rewrite EZ in BU.
      assert (CB : cells (zlen keys) true <= max_records) by (apply cells_small; lia). unfold cells in CB.
      destruct (calculate_num_rows_and_columns _ true) as [r c] eqn:ED. cbn [fst snd] in CB.
      destruct (make_hash_table _ _ _ _) as [ht| | |]; try discriminate. cbn [bind] in BU.
      destruct (go_make (A := list Z) [] (r * c)) as [bl0| | |] eqn:EM; try discriminate. cbn [bind] in BU.
      destruct (store_blocks _ _) as [bl| | |] eqn:ES; try discriminate. cbn [bind] in BU.
      destruct (new_using H bl) as [t| | |] eqn:ET; try discriminate. cbn [bind] in BU. cbv zeta in BU.
      destruct (make_merkle_entries _ _ _ _) as [en| | |]; try discriminate. cbn [bind] in BU.
      destruct (root t) as [rt| | |] eqn:ER; try discriminate. cbn [bind] in BU. injection BU as <-. cbn [b_info i_type i_root].
      split; [vm_compute; repeat (constructor; [split; discriminate || reflexivity|]); constructor|]. split; [vm_compute; discriminate|].
      assert (L : length rt = 32%nat); [|unfold zlen; lia]. refine (new_using_root H bl t rt HH _ ET ER).
      unfold go_make in EM. destruct (Z.ltb_spec (r * c) 0); [discriminate|]. injection EM as <-. apply store_blocks_length in ES.
      unfold zlen. rewrite ES, repeat_length. lia.
    - unfold generate_real_key_bytes in BU. rewrite load_ok in BU. cbn [bind] in BU. destruct (calculate_num_rows_and_columns _ true) as [r c].
      repeat match type of BU with bind ?x _ = _ => destruct x; cbn [bind] in BU; try discriminate BU end. injection BU as <-.
      cbn [b_info i_type i_root]. vm_compute. repeat split; try discriminate. constructor. }
  destruct T as (T1 & T2 & T3). unfold sendable, database_info. cbv zeta. cbn [di_rows di_cols di_bs di_type di_root di_plen].
  assert (W : forall x, 0 <= u32 x < 2 ^ 32) by (intros x; unfold u32; apply Z.mod_pos_bound; reflexivity).
  repeat (split; [apply W|]). split; [apply U, T1|lia].
Qed.

Lemma collect_in : forall rs is (d : db_info), collect rs = Ok is -> In d is -> In (Some d) rs.
Proof.
  induction rs as [|[x|] rs IH]; intros is d E I; cbn [collect] in E; try discriminate.
  - injection E as <-. destruct I.
  - destruct (collect rs) as [t| | |] eqn:EC; try discriminate. cbn [bind] in E. injection E as <-. destruct I as [->|I]; [left; auto|right; eauto].
Qed.
Lemma infos_in infos is d : get_db_infos infos = Ok is -> go_index is 0 = Ok d -> In (Some d) infos.
Proof.
  unfold get_db_infos. destruct (collect infos) as [xs| | |] eqn:EC; try discriminate. cbn [bind]. destruct (equal_db_info xs); [|discriminate].
  destruct (go_index xs 0) eqn:E0; try discriminate. cbn [bind]. intros E1 E2. injection E1 as <-. eapply collect_in; eauto.
  unfold go_index in E2. change (0 <? 0) with false in E2. cbv iota in E2. destruct (nth_error xs _) eqn:N; [|discriminate]. injection E2 as ->. eapply nth_error_In; eauto.
Qed.

Lemma actor_remote' E G H B D infos is d rnd servers arrive id : gzip_ok E -> zlen servers <> 2 -> Forall columns_fit infos ->
  Forall (fun s => forall q a, s q = Ok a -> small a) servers -> get_db_infos infos = Ok is -> go_index is 0 = Ok d ->
  actor_get_key G H B D (info_of d) rnd (map (over_network E) servers) arrive id = actor_get_key G H B D (info_of d) rnd servers arrive id.
Proof.
  intros GZ N F A EI E0. apply actor_remote; auto. intros h ix qs EQ. apply (query_lengths D (info_of d) rnd (be_enc 4 (u32 h)) (zlen servers) ix qs); auto.
  pose proof (infos_in _ _ _ EI E0) as I. rewrite Forall_forall in F. exact (F _ I).
Qed.
Lemma web_remote E G H B D infos rnd servers arrive form : gzip_ok E -> zlen servers <> 2 -> Forall columns_fit infos ->
  Forall (fun s => forall q a, s q = Ok a -> small a) servers ->
  web_retrieve G H B D infos rnd (map (over_network E) servers) arrive form = web_retrieve G H B D infos rnd servers arrive form.
Proof.
  intros GZ N F A. unfold web_retrieve. destruct form as [f| | |]; auto. cbv zeta. destruct (bytes_equal _ _); auto.
  destruct (get_db_infos infos) as [is| | |] eqn:EI; auto. destruct (go_index is 0) as [d| | |] eqn:E0; auto. cbn [bind].
  rewrite (actor_remote' E G H B D infos is d) by auto. reflexivity.
Qed.
Lemma download_remote E G H B D infos rnd servers arrive typed : gzip_ok E -> zlen servers <> 2 -> Forall columns_fit infos ->
  Forall (fun s => forall q a, s q = Ok a -> small a) servers ->
  download_key G H B D infos rnd (map (over_network E) servers) arrive typed = download_key G H B D infos rnd servers arrive typed.
Proof.
  intros GZ N F A. unfold download_key. destruct typed as [email|]; auto. cbv zeta.
  destruct (get_db_infos infos) as [is| | |] eqn:EI; auto. destruct (go_index is 0) as [d| | |] eqn:E0; auto. cbn [bind].
  rewrite (actor_remote' E G H B D infos is d) by auto. reflexivity.
Qed.
Lemma retrieve_in infos d : retrieve_db_info infos = Ok d -> exists is, collect infos = Ok is /\ In d is.
Proof.
  unfold retrieve_db_info. destruct (collect infos) as [xs| | |] eqn:EC; try discriminate. cbn [bind]. destruct (equal_db_info xs); [|discriminate].
  intros E2. exists xs. split; auto. unfold go_index in E2. change (0 <? 0) with false in E2. cbv iota in E2. destruct (nth_error xs _) eqn:N; [|discriminate]. injection E2 as ->. eapply nth_error_In; eauto.
Qed.

Lemma network_infos E G H B auth keys srvs dbs infos : gzip_ok E -> utf8_ok E -> directory G H B auth keys srvs dbs ->
  Permutation (map (fun db => remote_description E (database_info (PointService db))) dbs) infos ->
  described dbs infos /\ Forall columns_fit infos.
Proof.
  intros GZ U HD P. assert (M : map (fun db => remote_description E (database_info (PointService db))) dbs = map (fun db => Some (database_info (PointService db))) dbs).
  { apply map_ext_in. intros db I. apply description_ok; auto. eapply built_sendable; eauto. }
  rewrite M in P. split; [exact P|]. apply Forall_forall. intros o I. apply (Permutation_in _ (Permutation_sym P)) in I. apply in_map_iff in I as (db & <- & _).
  unfold columns_fit, database_info. cbv zeta. cbn [di_cols]. unfold u32. apply Z.mod_pos_bound. reflexivity.
Qed.

Lemma honest_small D dbs : Forall (fun db => i_rows (b_info db) * i_bs (b_info db) <= 1000000000) dbs -> small_answers (map (pir_answer D false) dbs).
Proof.
  intros F. apply Forall_forall. intros s I. apply in_map_iff in I as (db & <- & I). rewrite Forall_forall in F. intros q a EA.
  apply answer_length in EA. unfold small. specialize (F _ I). lia.
Qed.

Lemma share_loop_count : forall todo k vl rand last vs, share_loop k todo vl rand last = Ok vs -> length vs = S todo.
Proof.
  induction todo as [|t IH]; intros k vl rand last vs E; cbn [share_loop] in E; [injection E as <-; reflexivity|].
  destruct (go_slice _ _ _) as [s| | |]; try discriminate. cbn [bind] in E. cbv zeta in E.
  destruct (share_loop (S k) t vl rand _) as [vs'| | |] eqn:EV; try discriminate. cbn [bind] in E. injection E as <-. cbn [length]. f_equal. eapply IH; eauto.
Qed.
Lemma query_count D inf rnd inp n ix qs : pir_query_bytes D inf rnd inp n = Ok (ix, qs) -> zlen qs = n.
Proof.
  intros E. unfold pir_query_bytes in E. destruct (be_u32 inp) as [index| | |]; try discriminate. cbn [bind] in E. unfold pir_query in E.
  destruct (invalid_query_inputs_it index n); [discriminate|]. destruct (vector_to_matrix_indices _ _) as [[x y]| | |]; try discriminate. cbn [bind] in E.
  destruct (Z.eqb_spec n 2) as [->|N].
  - destruct (dpf_gen _ _ _); try discriminate. cbn [bind] in E. injection E as <- <-. reflexivity.
  - destruct (secret_share _ _ _ _) as [vs| | |] eqn:ES; try discriminate. cbn [bind] in E. injection E as <- <-.
    unfold secret_share in ES. cbv zeta in ES.
    destruct (go_make tt n) as [v1| | |] eqn:E1; try discriminate. cbn [bind] in ES. destruct (mapM _ v1) as [v2| | |]; try discriminate. cbn [bind] in ES.
    destruct (go_make 0 ((n - 1) * _)) as [v3| | |]; try discriminate. cbn [bind] in ES. destruct (Z.rem y 8 <? 0); [discriminate|].
    destruct (go_index v1 _) as [v4| | |] eqn:E4; try discriminate. cbn [bind] in ES.
    destruct (go_make 0 (Z.quot (i_cols inf) 8 + 1)) as [z| | |]; try discriminate. cbn [bind] in ES.
    destruct (go_store z _ _) as [l| | |]; try discriminate. cbn [bind] in ES. apply share_loop_count in ES.
    unfold go_index in E4. destruct (Z.ltb_spec (n - 1) 0); [discriminate|]. unfold zlen. rewrite ES. lia.
Qed.

Lemma ask_large E : gzip_ok E -> forall servers qs, length servers = length qs ->
  (exists s, In s servers /\ forall q a, s q = Ok a -> max_size < zlen a) ->
  ask (map (over_network E) servers) qs = Fatal "could not query".
Proof.
  intros GZ. induction servers as [|s t IH]; intros qs EL (x & I & L); [destruct I|]. destruct qs as [|q qs]; [discriminate|]. cbn [map ask] in *.
  destruct (remote_ends E (serve_query E s) q GZ) as [(a' & R)|(m & R)]; fold (over_network E s) in R; rewrite R; [|reflexivity].
  destruct I as [->|I].
  - apply remote_inv in R as (R & _ & R2); auto. apply L in R. lia.
  - rewrite (IH qs); eauto.
Qed.

(** ** Fields that are not known *)

Lemma fold_unknown {A} (f : A -> Z * wire -> A) n : (forall a x, fst x <> n -> f a x = a) -> forall fs a, Forall (fun x => fst x <> n) fs -> fold_left f fs a = a.
Proof. intros H. induction fs as [|x fs IH]; intros a F; auto. inversion F; subst. cbn [fold_left]. rewrite H by auto. auto. Qed.
Lemma bytes_field_unknown n fa fu fb : Forall (fun x => fst x <> n) fu -> bytes_field n (fa ++ fu ++ fb) = bytes_field n (fa ++ fb).
Proof.
  intros F. unfold bytes_field. rewrite !fold_left_app. rewrite (fold_unknown _ n) with (fs := fu); auto.
  intros a x N. destruct (snd x); auto. destruct (Z.eqb_spec (fst x) n); congruence.
Qed.
Lemma uint32_field_unknown n fa fu fb : Forall (fun x => fst x <> n) fu -> uint32_field n (fa ++ fu ++ fb) = uint32_field n (fa ++ fb).
Proof.
  intros F. unfold uint32_field. rewrite !fold_left_app. rewrite (fold_unknown _ n) with (fs := fu); auto.
  intros a x N. destruct (snd x); auto. destruct (Z.eqb_spec (fst x) n); congruence.
Qed.

Lemma query_unknown a u b : well_formed a -> well_formed b -> unknown_fields [1] u -> decode_query (a ++ u ++ b) = decode_query (a ++ b).
Proof.
  intros (fa & A) (fb & B) (fu & U & F). unfold decode_query. rewrite (fields_app a fa (u ++ b) (fu ++ fb)), (fields_app a fa b fb); auto.
  - cbn [bind]. f_equal. apply bytes_field_unknown. eapply Forall_impl; [|exact F]. intros x X. cbv beta in X. cbn [In] in X. intuition.
  - apply fields_app; auto.
Qed.
Lemma info_unknown E a u b : well_formed a -> well_formed b -> unknown_fields [1; 2; 3; 4; 5; 6] u -> decode_info E (a ++ u ++ b) = decode_info E (a ++ b).
Proof.
  intros (fa & A) (fb & B) (fu & U & F). unfold decode_info. rewrite (fields_app a fa (u ++ b) (fu ++ fb)), (fields_app a fa b fb); auto; [|apply fields_app; auto].
  cbn [bind]. assert (N : forall n, In n [1; 2; 3; 4; 5; 6] -> Forall (fun x => fst x <> n) fu).
  { intros n I. eapply Forall_impl; [|exact F]. intros x X Y. cbv beta in X. apply X. rewrite Y. exact I. }
  assert (EI : info_of_fields (fa ++ fu ++ fb) = info_of_fields (fa ++ fb)).
  { unfold info_of_fields. rewrite !uint32_field_unknown, !bytes_field_unknown by (apply N; cbn [In]; auto 10). reflexivity. }
  rewrite EI. rewrite !forallb_app. replace (forallb _ fu) with true; [reflexivity|]. symmetry. apply forallb_forall. intros x I.
  pose proof (N 4 ltac:(cbn [In]; auto 10)) as N4. rewrite Forall_forall in N4. apply N4 in I. destruct (snd x); auto. destruct (Z.eqb_spec (fst x) 4); [congruence|reflexivity].
Qed.

(** ** What is decoded, and how calls end *)

Lemma uint32_field_range n fs : 0 <= uint32_field n fs < 2 ^ 32.
Proof.
  unfold uint32_field. assert (G : forall fs a, 0 <= a < 2 ^ 32 ->
    0 <= fold_left (fun acc f => match snd f with WVarint v => if fst f =? n then u32 v else acc | _ => acc end) fs a < 2 ^ 32).
  { intros l. induction l as [|x l IH]; intros a H; auto. cbn [fold_left]. apply IH. destruct (snd x); auto. destruct (fst x =? n); auto. unfold u32. apply Z.mod_pos_bound. reflexivity. }
  apply G. split; [discriminate|reflexivity].
Qed.
Lemma decode_info_ends E b : (exists d, decode_info E b = Ok d) \/ fails (decode_info E b).
Proof.
  unfold decode_info, fields. destruct (get_fields_ends (length b) b) as [(r & X)|(m & X)]; rewrite X; cbn [bind]; [|right; eexists; reflexivity].
  destruct (forallb _ _); [left|right]; eexists; reflexivity.
Qed.
Lemma send_ends E m : (exists f, send_frame E m = Ok f) \/ fails (send_frame E m).
Proof.
  unfold send_frame. destruct (_ <? _); [right; eexists; reflexivity|]. cbv zeta. destruct (_ <? _); [right|left]; eexists; reflexivity.
Qed.
Lemma call_ends E s m : gzip_ok E -> (exists a, call E s m = Ok a) \/ fails (call E s m).
Proof.
  intros G. unfold call. destruct (send_ends E m) as [(f & X)|(x & X)]; rewrite X; cbn [bind]; [|right; eexists; reflexivity].
  destruct (s f) as [r| | |]; try (right; eexists; reflexivity). apply recv_ends; auto.
Qed.
Lemma remote_info_ends E s : gzip_ok E -> (exists d, remote_info E s = Ok d) \/ fails (remote_info E s).
Proof.
  intros G. unfold remote_info. destruct (call_ends E s [] G) as [(r & X)|(m & X)]; rewrite X; cbn [bind]; [apply decode_info_ends|right; eexists; reflexivity].
Qed.
Lemma decode_info_range E b d : decode_info E b = Ok d -> 0 <= di_rows d < 2 ^ 32 /\ 0 <= di_cols d < 2 ^ 32 /\ 0 <= di_bs d < 2 ^ 32 /\ 0 <= di_plen d < 2 ^ 32.
Proof.
  unfold decode_info. destruct (fields b) as [fs| | |]; try discriminate. cbn [bind]. destruct (forallb _ _); [|discriminate]. intros X. injection X as <-.
  unfold info_of_fields. cbn [di_rows di_cols di_bs di_plen]. repeat split; apply uint32_field_range.
Qed.

Lemma serve_query_ends E h f : gzip_ok E -> (exists r, serve_query E h f = Ok r) \/ fails (serve_query E h f) \/
  exists m q, recv_frame E f = Ok m /\ decode_query m = Ok q /\ forall a, h q <> Ok a.
Proof.
  intros G. unfold serve_query. destruct (recv_ends E f G) as [(m & X)|(x & X)]; rewrite X; cbn [bind]; [|right; left; eexists; reflexivity].
  destruct (decode_query_ends m) as [(q & Y)|(x & Y)]; rewrite Y; cbn [bind]; [|right; left; eexists; reflexivity].
  destruct (h q) as [a|m'|m'|m'] eqn:EH; cbn [bind].
  - destruct (send_ends E (encode_query a)) as [?|?]; auto.
  - right; left; eexists; reflexivity.
  - right; right. exists m, q. repeat split; auto. congruence.
  - right; right. exists m, q. repeat split; auto. congruence.
Qed.

Lemma frame_truncated E m f k : send_frame E m = Ok f -> (k < length f)%nat -> fails (recv_frame E (firstn k f)).
Proof.
  intros S K. unfold send_frame in S. destruct (4294967295 <? zlen m); [discriminate|]. cbv zeta in S.
  destruct (Z.ltb_spec max_size (zlen (gzip E m))) as [?|L]; [discriminate|]. assert (EF : f = 1 :: be_enc 4 (zlen (gzip E m)) ++ gzip E m) by congruence.
  rewrite EF in *. clear S EF f. set (c := gzip E m) in *. pose proof (be_enc_length 4 (zlen c)) as L4. destruct k as [|k]; [eexists; reflexivity|].
  cbn [firstn length] in *. unfold recv_frame. destruct (Nat.ltb_spec (length (firstn k (be_enc 4 (zlen c) ++ c))) 4) as [?|K4]; [eexists; reflexivity|].
  rewrite firstn_length in K4. rewrite app_length in K, K4. cbv zeta.
  assert (K4' : (4 <= k)%nat) by lia.
  assert (F4 : firstn 4 (firstn k (be_enc 4 (zlen c) ++ c)) = be_enc 4 (zlen c)).
  { rewrite firstn_firstn. replace (Nat.min 4 k) with 4%nat by lia. rewrite firstn_app_short by lia. rewrite firstn_all2 by lia. reflexivity. }
  rewrite F4, be_frame by lia. destruct (Z.ltb_spec max_size (zlen c)); [lia|].
  destruct (Z.ltb_spec (zlen (skipn 4 (firstn k (be_enc 4 (zlen c) ++ c)))) (zlen c)) as [?|X]; [eexists; reflexivity|].
  exfalso. unfold zlen in X. rewrite skipn_length, firstn_length, app_length in X. lia.
Qed.
