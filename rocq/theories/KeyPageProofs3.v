(** Proofs about starting servers. *)
From Coq Require Import String ZArith List Bool Arith Lia Permutation.
From Verif Require Import GoBase BaseFacts FieldModel FSSModel EncodingModel MerkleModel MerkleSpec MerkleProofs PredicateModel PointModel PointSpec FSSProofs PointProofs4
  DirectoryModel DirectorySpec DirectoryProofs2 DirectoryProofs3 DirectoryProofs4 FrontendModel FilesModel KeyPageModel KeyPageSpec KeyPageProofs KeyPageProofs2.
Import ListNotations.
Open Scope Z_scope.
Open Scope go_scope.

Lemma bytes_equal_true a b : bytes_equal a b = true -> a = b.
Proof. apply bytes_equal_spec. Qed.

Lemma start_inv G H B R es cap d can sid scheme files addr svc :
  start_server G H B R es cap d can sid scheme files = Ok (addr, svc) ->
  exists addrs names, load_config es = Ok addrs /\ go_index addrs sid = Ok addr /\ get_sks_files cap files d = Ok names /\
    load_service G H B R scheme sid (map (open_keys d) names) = Ok svc /\ (exists c, go_index certificates sid = Ok c) /\ can addr = true /\
    In scheme [lit "pointPIR"; lit "pointVPIR"; lit "complexPIR"; lit "complexVPIR"].
Proof.
  unfold start_server, server_address. destruct (load_config es) as [addrs| | |] eqn:EC; cbn [bind]; try discriminate.
  destruct (go_index addrs sid) as [a| | |] eqn:EA; cbn [bind]; try discriminate.
  destruct (_ || _)%bool eqn:ES; cbn [bind]; [|discriminate].
  destruct (get_sks_files cap files d) as [names| | |] eqn:EN; cbn [bind]; try discriminate.
  destruct (load_service _ _ _ _ _ _ _) as [s| | |] eqn:EL; cbn [bind]; try discriminate.
  destruct (go_index certificates sid) as [c| | |] eqn:ECe; cbn [bind]; try discriminate.
  destruct (can a) eqn:CA; [|discriminate]. intros E. injection E as <- <-. exists addrs, names. conj_split; eauto.
  rewrite !orb_true_iff in ES. cbn [In]. destruct ES as [[[ES|ES]|ES]|ES]; apply bytes_equal_true in ES; subst scheme; tauto.
Qed.

Lemma start_ok G H B R es cap d can sid scheme files addrs addr names svc :
  load_config es = Ok addrs -> go_index addrs sid = Ok addr -> get_sks_files cap files d = Ok names ->
  load_service G H B R scheme sid (map (open_keys d) names) = Ok svc -> 0 <= sid < 5 -> can addr = true ->
  In scheme [lit "pointPIR"; lit "pointVPIR"; lit "complexPIR"; lit "complexVPIR"] ->
  start_server G H B R es cap d can sid scheme files = Ok (addr, svc).
Proof.
  intros EC EA EN EL S CA IS. unfold start_server, server_address. rewrite EC. cbn [bind]. rewrite EA. cbn [bind].
  assert (X : bytes_equal scheme (lit "pointPIR") || bytes_equal scheme (lit "pointVPIR")
             || bytes_equal scheme (lit "complexPIR") || bytes_equal scheme (lit "complexVPIR") = true).
  { rewrite !orb_true_iff. cbn [In] in IS. destruct IS as [<-|[<-|[<-|[<-|[]]]]]; rewrite bytes_equal_refl; tauto. }
  rewrite X, EN. cbn [bind]. rewrite EL. cbn [bind].
  assert (C : exists c, go_index certificates sid = Ok c).
  { assert (sid = 0 \/ sid = 1 \/ sid = 2 \/ sid = 3 \/ sid = 4) as Y by lia. destruct Y as [->|[->|[->|[->| ->]]]]; eexists; reflexivity. }
  destruct C as (c & ->). cbn [bind]. rewrite CA. reflexivity.
Qed.

Lemma certificate_panic sid : 5 <= sid -> go_index certificates sid = Panic "index out of range".
Proof. intros S. apply go_index_panic. change (zlen certificates) with 5. lia. Qed.
Lemma certificate_range sid c : go_index certificates sid = Ok c -> 0 <= sid < 5.
Proof.
  intros E. destruct (Z_lt_le_dec sid 0) as [N|N]; [rewrite go_index_panic in E by lia; discriminate|].
  destruct (Z_lt_le_dec sid 5) as [L|L]; [lia|]. rewrite certificate_panic in E by auto. discriminate.
Qed.

Lemma load_inv files ks : load_keys_from_disk files = Ok ks -> exists contents, files = map Ok contents /\ ks = concat contents.
Proof.
  unfold load_keys_from_disk. intros E. destruct (mapM _ files) as [css| | |] eqn:EM; cbn [bind] in E; try discriminate. injection E as <-.
  exists css. split; auto. clear - EM. revert css EM. induction files as [|f fs IH]; intros css EM; cbn [mapM] in EM; [injection EM as <-; reflexivity|].
  destruct f as [c| | |]; cbn [bind] in EM; try discriminate. destruct (mapM _ fs) as [t| | |]; cbn [bind] in EM; try discriminate.
  injection EM as <-. cbn [map]. f_equal. apply IH. reflexivity.
Qed.

Lemma load_service_point G H B R auth sid files svc : load_service G H B R (point_scheme_name auth) sid files = Ok svc ->
  exists db, svc = PointService db /\
    (if auth then generate_real_key_merkle H B R files true else generate_real_key_bytes B R files true) = Ok db.
Proof.
  unfold load_service, point_scheme_name. destruct auth.
  - rewrite bytes_equal_neq by discriminate. rewrite bytes_equal_refl.
    destruct (generate_real_key_merkle _ _ _ _ _) as [db| | |]; cbn [bind]; intros E; try discriminate. injection E as <-. eauto.
  - rewrite bytes_equal_refl.
    destruct (generate_real_key_bytes _ _ _ _) as [db| | |]; cbn [bind]; intros E; try discriminate. injection E as <-. eauto.
Qed.

Lemma started_built G H B es auth sid m a s keys : stores keys m -> started_as G H B es (point_scheme_name auth) sid m = Ok (a, s) ->
  exists srv db, s = PointService db /\ holds keys srv /\ built H B auth srv db.
Proof.
  intros (HR & ks & EK & P) E. unfold started_as in E. apply start_inv in E as (addrs & names & _ & _ & EN & EL & _).
  apply load_service_point in EL as (db & -> & EB). unfold server_keys in EK. rewrite EN in EK. cbn [bind] in EK.
  unfold load_files in EK. apply load_inv in EK as (contents & EF & ->). rewrite EF in EB.
  exists (mc_runtime m, contents), db. split; [reflexivity|]. split; [split; auto|exact EB].
Qed.

Lemma deployment_directory G H B es auth keys : forall machines sids started,
  hash_ok H -> hash_ok B -> keyring_ok (g_serialize G) (g_read G) -> listed keys -> Forall (filed G) keys -> 10 <= zlen keys <= 2 ^ 34 ->
  Forall (stores keys) machines -> length sids = length machines ->
  Forall2 (fun im s => started_as G H B es (point_scheme_name auth) (fst im) (snd im) = Ok s) (combine sids machines) started ->
  Forall (fun s => regular B auth keys (snd s)) started ->
  exists srvs dbs, map snd started = map PointService dbs /\ directory G H B auth keys srvs dbs /\ length dbs = length machines.
Proof.
  intros machines sids started HH HB KR HL FL HK FS LS F FR.
  assert (X : exists srvs dbs, map snd started = map PointService dbs /\ Forall (holds keys) srvs /\ Forall2 (built H B auth) srvs dbs /\ length dbs = length machines).
  { clear - FS LS F. revert sids started FS LS F. induction machines as [|m ms IH]; intros sids started FS LS F; destruct sids as [|i is]; cbn [length] in LS; try lia; cbn [combine] in F.
    - inversion F; subst. exists [], []. repeat split; constructor.
    - inversion F as [|? s ? ss E F']; subst. inversion FS as [|? ? Sm FS']; subst. destruct s as [a s]. cbn [fst snd] in E.
      destruct (started_built _ _ _ _ _ _ _ _ _ _ Sm E) as (srv & db & -> & HO & BU).
      destruct (IH is ss FS' ltac:(lia) F') as (srvs & dbs & EM & FH & FB & L). exists (srv :: srvs), (db :: dbs). cbn [map snd length]. rewrite EM, L.
      repeat split; auto. }
  destruct X as (srvs & dbs & EM & FH & FB & L). exists srvs, dbs. split; [exact EM|]. split; [|exact L].
  assert (FD : Forall (fun db => regular B auth keys (PointService db)) dbs).
  { apply Forall_map. rewrite <- EM. apply Forall_map in FR || apply Forall_map. exact FR. }
  unfold directory. conj_split; auto.
  - eapply Forall_impl; [|exact FD]. cbn. tauto.
  - intros AU. eapply Forall_impl; [|exact FD]. cbn. tauto.
Qed.

Lemma infos_of_started started dbs infos : map snd started = map PointService dbs ->
  Permutation (map (fun s : list Z * service => Some (database_info (snd s))) started) infos -> described dbs infos.
Proof.
  intros E P. unfold described. replace (map (fun db => Some (database_info (PointService db))) dbs) with (map (fun s : list Z * service => Some (database_info (snd s))) started); auto.
  rewrite <- (map_map snd (fun s => Some (database_info s))). rewrite E, map_map. reflexivity.
Qed.

Lemma answers_of_started D other started dbs : map snd started = map PointService dbs ->
  map (fun s : list Z * service => answer_point D other (snd s)) started = map (pir_answer D false) dbs.
Proof. intros E. rewrite <- (map_map snd (answer_point D other)), E, map_map. reflexivity. Qed.

(** ** a point client and predicate servers *)
Lemma no_rows_panics G H B D d rnd servers arrive id : hash_ok B -> di_rows d = 0 ->
  actor_get_key G H B D (info_of d) rnd servers arrive id = Panic "integer divide by zero".
Proof.
  intros HB E. unfold actor_get_key, info_of. cbn [i_rows i_cols]. rewrite E. change (0 * di_cols d) with 0.
  unfold hash_to_index. destruct (HB id) as [L _]. rewrite go_slice_ok by (unfold zlen; lia). cbn [bind].
  unfold be_u32. rewrite firstn_length, skipn_length, L. change (Nat.min (Z.to_nat (4 - 0)) (32 - Z.to_nat 0) <? 4)%nat with false. reflexivity.
Qed.

Lemma predicate_infos c services infos : services <> [] -> Forall (fun s => exists v sn r, s = PredicateService v sn c r) services ->
  Permutation (map (fun s => Some (database_info s)) services) infos ->
  first_info infos (mkDI 0 (u32 c) 0 [] [0] 0).
Proof.
  intros NE F P. assert (E : map (fun s => Some (database_info s)) services = repeat (Some (mkDI 0 (u32 c) 0 [] [0] 0)) (length services)).
  { clear - F. induction F as [|s ss (v & sn & r & ->) F IH]; cbn [map length repeat]; [reflexivity|]. f_equal. exact IH. }
  rewrite E in P. apply repeat_perm in P. rewrite P. apply first_info_repeat. destruct services; [congruence|cbn; lia].
Qed.

(** ** descriptions one of which is wrong *)
Lemma first_info_cons d d' n : same_shape d' d = true -> first_info (Some d' :: repeat (Some d) n) d'.
Proof.
  intros SH.
  assert (C : forall k, collect (repeat (Some d) k) = Ok (repeat d k)).
  { induction k as [|k IH]; cbn [repeat collect]; [reflexivity|]. rewrite IH. reflexivity. }
  assert (Q : equal_db_info (d' :: repeat d n) = true).
  { unfold equal_db_info. apply forallb_forall. intros x [<-|Hx].
    - unfold same_shape. rewrite !Z.eqb_refl. reflexivity.
    - apply repeat_spec in Hx. subst x. exact SH. }
  exists (repeat d n). unfold get_db_infos, retrieve_db_info. cbn [collect]. rewrite C. cbn [bind]. rewrite Q.
  change (go_index (d' :: repeat d n) 0) with (Ok d'). cbn [bind]. auto.
Qed.

Lemma same_shape_undescribed db : same_shape (undescribed db) (database_info (PointService db)) = true.
Proof. unfold same_shape, undescribed. cbn [di_rows di_cols di_bs]. rewrite !Z.eqb_refl. reflexivity. Qed.

Lemma undescribed_first G H B auth keys srvs dbs db m others : directory G H B auth keys srvs dbs -> In db dbs ->
  described (without m dbs) others -> first_info (Some (undescribed db) :: others) (undescribed db).
Proof.
  intros HD I P. pose proof (directory_same G H B auth keys srvs dbs HD db I) as E. unfold described, without in P.
  rewrite E, firstn_repeat, skipn_repeat, map_app, !map_repeat, <- repeat_app in P. apply repeat_perm in P. rewrite P.
  apply first_info_cons. apply same_shape_undescribed.
Qed.

(** ** honest answers are strings of bytes *)
Lemma slice_bytes l i j s : bytes l -> go_slice l i j = Ok s -> bytes s.
Proof. unfold go_slice. destruct (_ && _)%bool; [|discriminate]. intros L E. injection E as <-. apply Forall_firstn', Forall_skipn'. exact L. Qed.

Lemma xor_values_bytes entries q : bytes entries -> forall lens j pos out r, bytes out -> xor_values entries lens q j pos out = Ok r -> bytes r.
Proof.
  intros BE. induction lens as [|l t IH]; intros j pos out r BO E; cbn [xor_values] in E; [injection E as <-; auto|].
  destruct (go_index q (j / 8)) as [b| | |]; cbn [bind] in E; try discriminate. destruct (Z.testbit b (j mod 8)).
  - destruct (go_slice entries pos (pos + l)) as [s| | |] eqn:ES; cbn [bind] in E; try discriminate.
    eapply IH; [|exact E]. apply xor_into_bytes; [exact BO|]. eapply slice_bytes; [|exact ES]. exact BE.
  - cbn [bind] in E. eapply IH; [|exact E]. exact BO.
Qed.

Lemma answer_rows_bytes db q : bytes (b_entries db) -> forall todo i prev out r, bytes out -> answer_rows db q i todo prev out = Ok r -> bytes r.
Proof.
  intros BE. induction todo as [|todo IH]; intros i prev out r BO E; cbn [answer_rows] in E; [injection E as <-; auto|].
  destruct (add_lens _ _ _ _) as [next| | |]; cbn [bind] in E; try discriminate.
  destruct (go_slice (b_entries db) prev next) as [seg| | |] eqn:ES; cbn [bind] in E; try discriminate.
  destruct (go_slice (i_lens (b_info db)) _ _) as [lens| | |]; cbn [bind] in E; try discriminate.
  destruct (go_slice out _ _) as [o| | |] eqn:EO; cbn [bind] in E; try discriminate.
  destruct (xor_values seg lens q 0 0 o) as [o'| | |] eqn:EX; cbn [bind] in E; try discriminate.
  eapply IH; [|exact E]. apply Forall_app. split; [apply Forall_firstn'; auto|]. apply Forall_app. split; [|apply Forall_skipn'; auto].
  eapply xor_values_bytes; [| |exact EX]; eapply slice_bytes; [|exact ES| |exact EO]; assumption.
Qed.

Lemma honest_answer_bytes D two db q a : bytes (b_entries db) -> pir_answer D two db q = Ok a -> bytes a.
Proof.
  intros BE E. unfold pir_answer in E. destruct (go_make 0 _) as [out| | |] eqn:EM; cbn [bind] in E; try discriminate.
  eapply answer_rows_bytes; [exact BE| |exact E]. unfold go_make in EM. destruct (_ <? 0); [discriminate|]. injection EM as <-. apply zeros_bytes.
Qed.
