(** Proofs about the whole path of a key. *)
From Coq Require Import String ZArith List Bool Arith Lia Permutation Sorted.
From Verif Require Import GoBase BaseFacts MerkleModel MerkleSpec MerkleProofs PointModel PointSpec DirectoryModel DirectorySpec DirectoryProofs DirectoryProofs4 DirectoryProofs5
  FrontendModel KeyPageModel KeyPageSpec KeyPageProofs KeyPageProofs3 FilesModel FilesSpec FilesProofs FilesProofs2 FilesProofs3 WireModel EndToEndSpec Properties_Directory Properties_Files.
Import ListNotations.
Open Scope Z_scope.
Open Scope go_scope.

Lemma published_rings d es : is_directory d -> published d es ->
  exists rings, map (open_ring d) (get_sks_original_dump_files d) = map Ok rings /\ es = concat rings.
Proof.
  intros (S & _) P. apply sorted_spec in S.
  assert (G : forall d', incl d' d -> forall es, published d' es ->
    exists rings, map (open_ring d) (get_sks_original_dump_files d') = map Ok rings /\ es = concat rings).
  { intros d' I es' P'. induction P' as [|n ring d' es' N P' IH|n f d' es' N P' IH].
    - exists []. split; reflexivity.
    - destruct IH as (rings & E & ->); [intros x X; apply I; right; exact X|]. exists (ring :: rings). split; [|reflexivity].
      unfold get_sks_original_dump_files in *. cbn [map fst filter]. rewrite (proj2 (dump_match_iff n) N). cbn [map]. f_equal; [|exact E].
      unfold open_ring. rewrite (lookup_in n (RingFile ring) d S); [reflexivity|]. apply I. left. reflexivity.
    - destruct IH as (rings & E & ->); [intros x X; apply I; right; exact X|]. exists rings. split; [|reflexivity].
      unfold get_sks_original_dump_files in *. cbn [map fst filter]. destruct (dump_match n) eqn:M; [|exact E].
      apply dump_match_iff in M. contradiction. }
  apply (G d); [apply incl_refl|exact P].
Qed.

Lemma key_bytes_perm l l' : Permutation l l' -> key_bytes l = key_bytes l'.
Proof. unfold key_bytes. induction 1; cbn [map zsum fold_right] in *; try lia; unfold zsum in *; cbn [map fold_right] in *; lia. Qed.

Lemma prepared_stores G d es keys m : is_directory d -> published d es -> directory_of_dump G es keys -> small_dump keys -> prepared G d m -> stores keys m.
Proof.
  intros DD PU (LI & DK) SD (order & p & o & p' & o' & out1 & full & OR & Np & No & Np' & No' & E1 & EF & E2 & FI & CAP & RT).
  destruct (C98_deployment _ _ _ p o p' o' _ _ Np No Np' No' E1) as (mm & ks & A & W & -> & X).
  destruct (published_rings d es DD PU) as (rings & ER & ->). rewrite ER in A.
  destruct (C77_partial _ _ _ _ _ _ A (OR mm) W) as (ND & IK).
  assert (PK : Permutation keys ks).
  { apply NoDup_Permutation; [eapply NoDup_map_inv; apply LI|eapply NoDup_map_inv; exact ND|]. intros [email packet]. split; intros I.
    - apply DK in I as (NE & e & Fr). apply IK; eauto.
    - apply DK. assert (NE : email <> []).
      { destruct (analyze_ok (g_lower G) rings) as (m' & A' & _ & N0 & _). assert (m' = mm) by congruence. subst m'.
        destruct (write_ok _ _ _ W) as (WI & _). apply WI in I as (e & I & _). cbn [k_id] in I. apply (Permutation_in _ (Permutation_sym (OR mm))) in I.
        intros ->. destruct (analyze_ok (g_lower G) rings) as (m' & A'' & ND' & N0' & _). assert (m' = mm) by congruence. subst m'.
        apply (In_key_get _ _ _ ND') in I. congruence. }
      split; auto. apply IK; auto. }
  assert (SK : small_dump ks) by (unfold small_dump in *; rewrite <- (key_bytes_perm _ _ PK); exact SD).
  unfold lookup, full_name in EF. cbn [fst] in EF. rewrite bytes_equal_refl in EF. assert (full = whole ks) by congruence. subst full.
  split; [exact RT|]. exists ks. split; [|exact PK].
  clear X E1. pose proof (split_chunking ks) as C. pose proof (chunking_count _ _ C SK) as L.
  assert (RO := rest_ok_full (whole ks)). assert (LM : (length (map whole (split_full_dump_into_chunks ks)) <= 1000)%nat) by (rewrite map_length; auto).
  assert (ED : mc_dir m = numbered (map whole (split_full_dump_into_chunks ks)) ++ [(full_name, whole ks)]).
  { unfold data_main in E2. rewrite !(bytes_equal_neq p'), !(bytes_equal_neq o') in E2 by auto. change (bytes_equal gen_chunks_cmd []) with false in E2.
    change (bytes_equal gen_chunks_cmd gen_chunks_cmd) with true in E2. cbn [orb] in E2. cbv iota in E2.
    change [(full_name, whole ks)] with (numbered [] ++ [(full_name, whole ks)]) in E2 at 1. rewrite split_numbered in E2; auto; [|cbn; lia].
    rewrite skipn_nil, app_nil_r in E2. unfold or_fatal in E2. congruence. }
  rewrite FI, ED in *. unfold zlen. rewrite app_length, numbered_length, map_length in *. cbn [length] in *.
  replace (Z.of_nat (length (split_full_dump_into_chunks ks) + 1) - 1) with (Z.of_nat (length (split_full_dump_into_chunks ks))) by lia.
  replace (Ok ks) with (Ok (concat (split_full_dump_into_chunks ks))) by (f_equal; apply C).
  replace (concat (split_full_dump_into_chunks ks)) with (concat (firstn (Z.to_nat (Z.of_nat (length (split_full_dump_into_chunks ks)))) (split_full_dump_into_chunks ks)))
    by (rewrite Nat2Z.id, firstn_all; reflexivity).
  apply server_numbered; auto.
  - cbn [map fst]. intros [Y|[]]. discriminate.
  - rewrite map_length. lia.
  - rewrite map_length. cbn [length]. lia.
  - rewrite map_length. lia.
  - apply firstn_map.
Qed.

Lemma dump_filed G es keys : directory_of_dump G es keys -> Forall (filed G) keys.
Proof.
  intros (_ & DK). apply Forall_forall. intros [email packet] I. apply DK in I as (_ & e & Fr & S & _). exists (primary_only e). split; [exact S|].
  destruct Fr as (b & a & EC & _). assert (J : In e (candidates (g_lower G) es email)) by (rewrite EC; apply in_or_app; right; left; auto).
  apply filter_In in J as [_ J]. apply andb_true_iff in J as [_ J]. apply bytes_equal_spec in J. exact J.
Qed.

Lemma started_list G H B config auth at_address : forall machines addrs k, length addrs = length machines ->
  (forall i m a, nth_error machines i = Some m -> nth_error addrs i = Some a ->
     started_as G H B config (point_scheme_name auth) (k + i) m = Ok (a, at_address a)) ->
  Forall2 (fun im s => started_as G H B config (point_scheme_name auth) (fst im) (snd im) = Ok s)
    (combine (seq k (length machines)) machines) (map (fun a => (a, at_address a)) addrs).
Proof.
  induction machines as [|m ms IH]; intros [|a addrs] k L S; cbn [length] in L; try lia; cbn [length seq combine map]; constructor.
  - cbn [fst snd]. rewrite <- (Nat.add_0_r k). apply (S 0%nat); reflexivity.
  - apply IH; [lia|]. intros i m' a' M A. replace (Datatypes.S k + i)%nat with (k + Datatypes.S i)%nat by lia. apply S; auto.
Qed.

(** a deployment is a directory in the sense of the lookups *)
Lemma deployed_directory G H B auth d es keys config addrs at_address :
  hash_ok H -> hash_ok B -> keyring_ok (g_serialize G) (g_read G) -> is_directory d -> published d es -> directory_of_dump G es keys ->
  small_dump keys -> 10 <= zlen keys <= 2 ^ 34 -> deployed G H B auth d keys config addrs at_address ->
  exists srvs dbs, map at_address addrs = map PointService dbs /\ directory G H B auth keys srvs dbs /\ length dbs = length addrs.
Proof.
  intros HH HB KR DD PU DK SD K (machines & FP & LC & LA & ST & FR).
  assert (FS : Forall (stores keys) machines) by (eapply Forall_impl; [|exact FP]; intros m Pm; eapply prepared_stores; eauto).
  destruct (deployment_directory G H B config auth keys machines (seq 0 (length machines)) (map (fun a => (a, at_address a)) addrs)) as (srvs & dbs & EM & HD & L); auto.
  - apply DK.
  - eapply dump_filed; eauto.
  - apply seq_length.
  - apply started_list; auto.
  - apply Forall_map. exact FR.
  - rewrite map_map in EM. cbn [snd] in EM. exists srvs, dbs. split; [exact EM|]. split; [exact HD|]. lia.
Qed.

Lemma at_address_map {X} (f : service -> X) at_address (addrs : list (list Z)) dbs : map at_address addrs = map PointService dbs ->
  map (fun a => f (at_address a)) addrs = map (fun db => f (PointService db)) dbs.
Proof. intros E. rewrite <- (map_map at_address f), E, map_map. reflexivity. Qed.

Lemma at_address_forall (P : bytes_db -> Prop) at_address (addrs : list (list Z)) dbs : map at_address addrs = map PointService dbs ->
  Forall (fun a => forall db, at_address a = PointService db -> P db) addrs -> Forall P dbs.
Proof.
  revert dbs. induction addrs as [|a addrs IH]; intros [|db dbs] E F; cbn [map] in E; try discriminate; constructor; inversion F; subst; injection E as E1 E2; auto.
Qed.
