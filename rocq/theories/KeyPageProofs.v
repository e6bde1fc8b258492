(** Proofs about key lookups through the front ends. *)
From Coq Require Import String ZArith List Bool Lia Permutation.
From Verif Require Import GoBase BaseFacts FieldModel FSSModel EncodingModel MerkleModel MerkleSpec MerkleProofs PredicateModel LWEModel PointModel PointSpec PointProofs2 PointProofs4
  DirectoryModel DirectorySpec DirectoryProofs DirectoryProofs2 DirectoryProofs3 DirectoryProofs4 DirectoryProofs5 FrontendModel FilesModel
  KeyPageModel KeyPageSpec.
Import ListNotations.
Open Scope Z_scope.
Open Scope go_scope.

Lemma text_lit s : text_of (lit s) = s.
Proof.
  unfold text_of, lit. rewrite map_map.
  transitivity (string_of_list_ascii (list_ascii_of_string s)); [|apply string_of_list_ascii_of_string].
  f_equal. transitivity (map (fun a : Ascii.ascii => a) (list_ascii_of_string s)); [|apply map_id]. apply map_ext. intros a.
  rewrite Nat2Z.id. apply Ascii.ascii_nat_embedding.
Qed.

Lemma form_get_posted form email : posted form email -> form_get (lit "email") form = email.
Proof.
  intros (b & a & -> & F). induction F as [|[n v] b N F IH]; cbn [app form_get].
  - rewrite bytes_equal_refl. reflexivity.
  - cbn [fst] in N. rewrite bytes_equal_neq by auto. exact IH.
Qed.

Lemma info_of_point db : info_of (database_info (PointService db)) = advertised (b_info db).
Proof. unfold info_of, database_info, advertised. cbn [di_rows di_cols di_bs di_type di_root di_plen]. rewrite text_lit. reflexivity. Qed.

(** ** the lookup in terms of the bucket *)
Lemma actor_ok G H B D inf rnd servers arrive id b : fetch_bucket H B D inf rnd servers arrive id = Ok b ->
  actor_get_key G H B D inf rnd servers arrive id =
    (e <- wrap "error retrieving key from the block: " (recover_key_from_block (g_lower G) (g_read G) b id) ;;
     wrap "error armor-encoding the key: " (armor_key G e)).
Proof.
  unfold fetch_bucket, actor_get_key. destruct (hash_to_index _ _ _) as [h| | |]; cbn [bind]; try discriminate.
  destruct (pir_query_bytes _ _ _ _ _) as [[ix qs]| | |]; cbn [bind wrap]; try discriminate.
  destruct (ask servers qs) as [ans| | |]; cbn [bind]; try discriminate.
  destruct (reconstruct_pir _ _ _ _) as [r| | |]; cbn [bind wrap]; try discriminate. intros ->. reflexivity.
Qed.

Lemma actor_panic G H B D inf rnd servers arrive id : is_panic (fetch_bucket H B D inf rnd servers arrive id) = true ->
  is_panic (actor_get_key G H B D inf rnd servers arrive id) = true.
Proof.
  unfold fetch_bucket, actor_get_key. destruct (hash_to_index _ _ _) as [h| | |]; cbn [bind]; try discriminate; auto.
  destruct (pir_query_bytes _ _ _ _ _) as [[ix qs]| | |]; cbn [bind wrap]; try discriminate; auto.
  destruct (ask servers qs) as [ans| | |]; cbn [bind]; try discriminate; auto.
  destruct (reconstruct_pir _ _ _ _) as [r| | |]; cbn [bind wrap]; try discriminate; auto.
  destruct (unpad_block r); cbn [bind]; try discriminate; auto.
Qed.

Lemma actor_inv G H B D inf rnd servers arrive id out : actor_get_key G H B D inf rnd servers arrive id = Ok out ->
  exists b e buf, fetch_bucket H B D inf rnd servers arrive id = Ok b /\
    recover_key_from_block (g_lower G) (g_read G) b id = Ok e /\ g_serialize G e = Ok buf /\ out = g_armor G buf.
Proof.
  unfold fetch_bucket, actor_get_key. destruct (hash_to_index _ _ _) as [h| | |]; cbn [bind]; try discriminate.
  destruct (pir_query_bytes _ _ _ _ _) as [[ix qs]| | |]; cbn [bind wrap]; try discriminate.
  destruct (ask servers qs) as [ans| | |]; cbn [bind]; try discriminate.
  destruct (reconstruct_pir _ _ _ _) as [r| | |]; cbn [bind wrap]; try discriminate.
  destruct (unpad_block r) as [b| | |]; cbn [bind]; try discriminate.
  destruct (recover_key_from_block _ _ b id) as [e| | |] eqn:RE; cbn [bind wrap]; try discriminate.
  unfold armor_key. destruct (g_serialize G e) as [buf| | |] eqn:SE; cbn [bind wrap]; try discriminate.
  intros E. injection E as <-. exists b, e, buf. auto.
Qed.

Lemma recover_inv lower read b id e : recover_key_from_block lower read b id = Ok e ->
  exists es, read b = Ok es /\ In e es /\ primary_email lower e = id.
Proof.
  unfold recover_key_from_block. destruct (read b) as [es| | |]; cbn [bind]; try discriminate.
  destruct (find _ es) as [x|] eqn:F; intros E; try discriminate. injection E as <-.
  apply find_some in F as [I P]. exists es. conj_split; auto. apply bytes_equal_spec. exact P.
Qed.

Lemma actor_key_of G H B D inf rnd servers arrive id out : actor_get_key G H B D inf rnd servers arrive id = Ok out -> key_of G id out.
Proof.
  intros E. apply actor_inv in E as (b & e & buf & _ & R & S & ->). apply recover_inv in R as (es & RE & I & P).
  exists b, es, e, buf. auto.
Qed.

(** ** the three front ends in terms of the lookup *)
Definition first_info (infos : list (option db_info)) (d : db_info) : Prop :=
  exists is, get_db_infos infos = Ok (d :: is) /\ retrieve_db_info infos = Ok d.

Lemma web_inv G H B D infos rnd servers arrive form email p : posted form email ->
  web_retrieve G H B D infos rnd servers arrive (Ok form) = Ok p -> p_status p = Some 200 ->
  p_body p = lit "key not found in block" \/
  exists d is, get_db_infos infos = Ok (d :: is) /\ actor_get_key G H B D (info_of d) rnd servers arrive email = Ok (p_body p).
Proof.
  intros PF E ST. unfold web_retrieve in E. rewrite (form_get_posted _ _ PF) in E.
  destruct (bytes_equal email []).
  { injection E as <-. cbn in ST. discriminate. }
  destruct (get_db_infos infos) as [is| | |] eqn:EI; try discriminate.
  2:{ injection E as <-. cbn in ST. discriminate. }
  destruct is as [|d is]; [cbn in E; discriminate|]. change (go_index (d :: is) 0) with (Ok d) in E. cbn [bind] in E.
  destruct (actor_get_key _ _ _ _ _ _ _ _ _) as [r| | |] eqn:EA; try discriminate.
  - injection E as <-. right. exists d, is. cbn. auto.
  - destruct (is_not_found _).
    + injection E as <-. left. reflexivity.
    + injection E as <-. cbn in ST. discriminate.
Qed.

Lemma web_ok G H B D infos rnd servers arrive form email d : posted form email -> email <> [] -> first_info infos d ->
  web_retrieve G H B D infos rnd servers arrive (Ok form) =
  match actor_get_key G H B D (info_of d) rnd servers arrive email with
  | Ok result => Ok (mkPage (Some 200) result)
  | Err m => if is_not_found m then Ok (mkPage (Some 200) (lit "key not found in block"))
             else Ok (mkPage (Some 500) ((lit "failed to get result: " ++ lit m) ++ [10]))
  | Panic m => Panic m
  | Fatal m => Fatal m
  end.
Proof.
  intros PF NE (is & E & _). unfold web_retrieve. rewrite (form_get_posted _ _ PF), bytes_equal_neq by auto. rewrite E.
  change (go_index (d :: is) 0) with (Ok d). cbn [bind]. destruct (actor_get_key _ _ _ _ _ _ _ _ _); reflexivity.
Qed.

Lemma download_ok G H B D infos rnd servers arrive email d : first_info infos d ->
  download_key G H B D infos rnd servers arrive (Some email) =
  match actor_get_key G H B D (info_of d) rnd servers arrive email with
  | Ok result => (found_lines email result, Ok tt)
  | Err m => if is_not_found m then (not_found_lines email, Ok tt)
             else ([lit "email is " ++ email], Err ("failed to get result: " ++ m)%string)
  | Panic m => ([lit "email is " ++ email], Panic m)
  | Fatal m => ([lit "email is " ++ email], Fatal m)
  end.
Proof.
  intros (is & E & _). unfold download_key. rewrite E. change (go_index (d :: is) 0) with (Ok d). cbn [bind]. reflexivity.
Qed.

Lemma cli_point G H B D enc alphas gr infos rnd order arrive scheme f line d : point_scheme scheme -> f_id f <> [] ->
  retrieve_db_info infos = Ok d ->
  cli_exec G H B D enc alphas gr infos rnd order arrive scheme f line =
  match actor_get_key G H B D (info_of d) rnd (map r_point order) arrive (f_id f) with
  | Err m => Fatal m
  | r => r
  end.
Proof.
  intros PS NE E. unfold cli_exec. rewrite E. cbn [bind].
  assert (PS' : bytes_equal scheme (lit "pointPIR") || bytes_equal scheme (lit "pointVPIR") = true).
  { destruct PS as [-> | ->]; rewrite bytes_equal_refl; auto. }
  rewrite PS', bytes_equal_neq by auto. cbn [bind]. destruct (actor_get_key _ _ _ _ _ _ _ _ _); reflexivity.
Qed.

(** ** the tables of a directory *)
Lemma repeat_perm {A} (x : A) n l : Permutation (repeat x n) l -> l = repeat x n.
Proof.
  intros P. apply Permutation_sym in P. pose proof (Permutation_length P) as L. rewrite repeat_length in L. rewrite <- L.
  assert (F : Forall (eq x) l).
  { eapply Permutation_Forall; [apply Permutation_sym; exact P|]. apply Forall_forall. intros y Hy. apply repeat_spec in Hy. auto. }
  clear P L. induction F as [|y l Hy F IH]; cbn [length repeat]; [reflexivity|]. subst y. f_equal. exact IH.
Qed.

Lemma first_info_repeat d n : (0 < n)%nat -> first_info (repeat (Some d) n) d.
Proof.
  intros Hn. destruct n as [|n]; [lia|]. clear Hn.
  assert (C : forall k, collect (repeat (Some d) k) = Ok (repeat d k)).
  { induction k as [|k IH]; cbn [repeat collect]; [reflexivity|]. rewrite IH. reflexivity. }
  assert (Q : equal_db_info (repeat d (S n)) = true).
  { unfold equal_db_info. cbn [repeat]. apply forallb_forall. intros x Hx. assert (x = d) as ->.
    { destruct Hx as [->|Hx]; auto. apply repeat_spec in Hx. auto. }
    unfold same_shape. rewrite !Z.eqb_refl. reflexivity. }
  exists (repeat d n). unfold get_db_infos, retrieve_db_info. rewrite C. cbn [bind]. rewrite Q. cbn [repeat].
  change (go_index (d :: repeat d n) 0) with (Ok d). cbn [bind]. auto.
Qed.

Section Directory.
Variables (G : openpgp) (H B : hash_fn) (D : dpf_scheme) (auth : bool) (keys : list pkey).
Variables (srvs : list (runtime * list (list pkey))) (dbs : list bytes_db).
Hypothesis HD : directory G H B auth keys srvs dbs.

Lemma directory_same db : In db dbs -> dbs = repeat db (length dbs).
Proof using HD.
  intros I. destruct HD as (HH & HB & _ & HL & _ & HK & HS & F & _). clear HD.
  assert (A : exists s, In s srvs /\ built H B auth s db).
  { revert I. induction F as [|s d ss ds Bd F IH]; intros I; [destruct I|]. destruct I as [->|I].
    - exists s. split; auto. left. auto.
    - inversion HS; subst. destruct IH as (s' & I' & B'); auto. exists s'. split; auto. right. auto. }
  destruct A as (s0 & I0 & B0). rewrite <- (holds_length _ _ _ F).
  eapply (servers_same (fun s => if auth then generate_real_key_merkle H B (fst s) (map Ok (snd s)) true else generate_real_key_bytes B (fst s) (map Ok (snd s)) true)).
  - exact F.
  - intros s Hs. cbv beta. rewrite <- B0. rewrite Forall_forall in HS. pose proof (HS s Hs) as [HR P]. pose proof (HS s0 I0) as [HR0 P0].
    assert (PP : Permutation (concat (snd s)) (concat (snd s0))) by (eapply Permutation_trans; [apply Permutation_sym; exact P|exact P0]).
    assert (ND : NoDup (map k_id (concat (snd s)))) by (eapply Permutation_NoDup; [apply Permutation_map; exact P|]; apply HL).
    assert (CB : cells (zlen (concat (snd s))) true < w32).
    { replace (zlen (concat (snd s))) with (zlen keys) by (unfold zlen; rewrite (Permutation_length P); auto). apply cells_bound. lia. }
    destruct auth; [apply same_merkle|apply same_bytes]; auto.
Qed.

Lemma directory_first db infos : In db dbs -> described dbs infos -> first_info infos (database_info (PointService db)).
Proof using HD.
  intros I P. pose proof (directory_same db I) as E. unfold described in P. rewrite E, map_repeat in P.
  apply repeat_perm in P. rewrite P. apply first_info_repeat. destruct dbs; [destruct I|cbn; lia].
Qed.

Lemma directory_fetch db rnd arrive id : In db dbs -> 3 <= zlen dbs -> randomness_for dbs rnd -> arrival_ok arrive ->
  exists z, fetch_bucket H B D (advertised (b_info db)) rnd (map (pir_answer D false) dbs) arrive id =
    unpad_block (bucket_block B (buckets db) keys (position B (buckets db) id) ++ repeat 0 z).
Proof using HD.
  intros I N3 HR HA. pose proof HD as (HH & HB & _ & HL & _ & HK & HS & F & BS & FO).
  assert (IN : In (advertised (b_info db)) (map (fun db => advertised (b_info db)) dbs)) by (apply (in_map (fun db => advertised (b_info db))); auto).
  assert (NE : (zlen dbs =? 2) = false) by (apply Z.eqb_neq; lia).
  assert (C0 : 0 <= i_cols (advertised (b_info db))) by (unfold advertised, u32; cbn [i_cols]; apply Z.mod_pos_bound; unfold w32; lia).
  assert (BD : buckets db = cells (zlen keys) true /\ i_cols (advertised (b_info db)) = i_cols (b_info db)).
  { rewrite Forall_forall in HS.
    assert (A : exists s, In s srvs /\ built H B auth s db).
    { clear - F I. revert I. induction F as [|s d ss ds Bd F IH]; intros I; [destruct I|]. destruct I as [->|I].
      - exists s. split; auto. left. auto.
      - destruct (IH I) as (s' & I' & B'). exists s'. split; auto. right. auto. }
    destruct A as (s & Is & Bs). specialize (HS s Is). pose proof (cells_bound (zlen keys) true ltac:(lia)) as CB.
    assert (X : i_rows (b_info db) * i_cols (b_info db) = cells (zlen keys) true /\ 0 < i_rows (b_info db) /\ 0 < i_cols (b_info db)).
    { unfold built in Bs. destruct auth.
      - assert (RC : i_rows (b_info db) * i_cols (b_info db) = cells (zlen keys) true /\
          (i_rows (b_info db), i_cols (b_info db)) = calculate_num_rows_and_columns (pre_square_num_blocks (zlen keys)) true).
        { destruct HS as [HRs Ps]. pose proof (merkle_dims H B (fst s) (snd s) true db HRs Bs) as MDm.
          replace (zlen (concat (snd s))) with (zlen keys) in MDm by (unfold zlen; rewrite (Permutation_length Ps); auto).
          split; auto. unfold cells. rewrite <- MDm. reflexivity. }
        destruct RC as [RC DM]. split; auto.
        pose proof (layout_positive (pre_square_num_blocks (zlen keys)) true (buckets_positive (zlen keys) ltac:(lia))) as LP.
        rewrite <- DM in LP. exact LP.
      - destruct (srv_bytes B keys s true HB HL ltac:(lia) HS) as (db' & G' & OK & DM & RC & _).
        assert (db' = db) as -> by congruence. destruct OK as (Hr & Hc & _). auto. }
    destruct X as (RC & Hr & Hc). destruct (dims_fit db _ RC Hr Hc CB) as [Fr Fc].
    split; [exact RC|]. unfold advertised, u32. cbn [i_cols]. apply Z.mod_small. exact Fc. }
  destruct BD as (BD & EC).
  assert (RN : zlen rnd = (zlen dbs - 1) * (i_cols (advertised (b_info db)) / 8 + 1)).
  { unfold randomness_for in HR. rewrite Forall_forall in HR. rewrite (HR db I). unfold query_bytes. rewrite EC in *. rewrite Z2Nat.id; [reflexivity|]. pose proof (Z.div_pos (i_cols (b_info db)) 8). lia. }
  rewrite BD. destruct auth.
  - assert (FO' : fingerprints_ok (bucket_blocks B (cells (zlen keys) true) keys)).
    { specialize (FO eq_refl). rewrite Forall_forall in FO. specialize (FO db I). rewrite BD in FO. exact FO. }
    destruct (lookup_merkle_block H B D true keys srvs dbs HB HL ltac:(lia) HS BS (advertised (b_info db)) rnd arrive id HH) as (RC & z & E); auto.
    { apply cells_small. lia. }
    rewrite NE in E. exists z. exact E.
  - destruct (lookup_plain_block H B D true keys srvs dbs HB HL ltac:(lia) HS BS (advertised (b_info db)) rnd arrive id) as (RC & z & E); auto.
    rewrite NE in E. exists z. exact E.
Qed.

Lemma directory_found db rnd arrive key : In db dbs -> 3 <= zlen dbs -> randomness_for dbs rnd -> arrival_ok arrive -> In key keys ->
  actor_get_key G H B D (advertised (b_info db)) rnd (map (pir_answer D false) dbs) arrive (k_id key) = Ok (g_armor G (k_packet key)).
Proof using HD.
  intros I N3 HR HA IK. pose proof HD as (HH & HB & KR & HL & FL & _).
  destruct (directory_fetch db rnd arrive (k_id key) I N3 HR HA) as (z & E).
  rewrite unpad_bucket in E by (apply (in_bucket_not_nil B _ keys key); auto). rewrite (actor_ok G _ _ _ _ _ _ _ _ _ E).
  pose proof FL as FL'. rewrite Forall_forall in FL'. destruct (FL' key IK) as (e & SE & PE).
  match goal with |- context [recover_key_from_block _ _ ?x _] => change x with (concat (map k_packet (in_bucket B (buckets db) keys (position B (buckets db) (k_id key))))) end.
  rewrite (recover_ok (g_lower G) (g_serialize G) (g_read G) (in_bucket B (buckets db) keys (position B (buckets db) (k_id key))) key e); auto.
  - cbn [wrap bind]. unfold armor_key. rewrite SE. reflexivity.
  - apply Forall_forall. intros k Ik. apply filter_In in Ik as [Ik _]. apply FL'. auto.
  - apply bucket_nodup. apply HL.
  - apply filter_In. split; auto. apply Z.eqb_refl.
Qed.

Lemma directory_missing db rnd arrive id : In db dbs -> 3 <= zlen dbs -> randomness_for dbs rnd -> arrival_ok arrive ->
  bucket_used B keys db id -> (forall key, In key keys -> k_id key <> id) ->
  exists m, actor_get_key G H B D (advertised (b_info db)) rnd (map (pir_answer D false) dbs) arrive id = Err m /\ is_not_found m = true.
Proof using HD.
  intros I N3 HR HA (key & IK & PK) NO. pose proof HD as (HH & HB & KR & HL & FL & _).
  destruct (directory_fetch db rnd arrive id I N3 HR HA) as (z & E).
  rewrite unpad_bucket in E by (apply (in_bucket_not_nil B _ keys key); auto). rewrite (actor_ok G _ _ _ _ _ _ _ _ _ E).
  set (found := in_bucket B (buckets db) keys (position B (buckets db) id)) in *.
  assert (FF : Forall (filed G) found).
  { apply Forall_forall. intros k Ik. apply filter_In in Ik as [Ik _]. rewrite Forall_forall in FL. apply FL. auto. }
  destruct (entities_of (g_lower G) (g_serialize G) found FF) as (es & ES & EM).
  unfold recover_key_from_block. unfold bucket. fold found. rewrite (KR es _ ES). cbn [bind].
  destruct (find _ es) as [e|] eqn:FE.
  - exfalso. apply find_some in FE as [Ie Pe]. apply bytes_equal_spec in Pe.
    assert (IM : In id (map k_id found)) by (rewrite <- EM, <- Pe; apply in_map; auto).
    apply in_map_iff in IM as (k & Ek & Ik). apply filter_In in Ik as [Ik _]. exact (NO k Ik Ek).
  - cbn [wrap bind]. eexists. split; [reflexivity|]. vm_compute. reflexivity.
Qed.

Lemma directory_empty db rnd arrive id : In db dbs -> 3 <= zlen dbs -> randomness_for dbs rnd -> arrival_ok arrive ->
  ~ bucket_used B keys db id ->
  is_panic (actor_get_key G H B D (advertised (b_info db)) rnd (map (pir_answer D false) dbs) arrive id) = true.
Proof using HD.
  intros I N3 HR HA NU. apply actor_panic.
  destruct (directory_fetch db rnd arrive id I N3 HR HA) as (z & E). rewrite E. apply empty_bucket_panics.
  unfold in_bucket. destruct (filter _ keys) as [|k l] eqn:EF; auto. exfalso. apply NU.
  assert (Ik : In k (filter (fun key => position B (buckets db) (k_id key) =? position B (buckets db) id) keys)) by (rewrite EF; left; auto).
  apply filter_In in Ik as [Ik P]. apply Z.eqb_eq in P. exists k. auto.
Qed.
End Directory.
