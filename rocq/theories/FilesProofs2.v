(** Proofs about files: numbered directories, what is loaded from them, crashes. *)
From Coq Require Import String ZArith List Bool Arith Lia Sorted Permutation.
From Verif Require Import GoBase BaseFacts EncodingModel MerkleModel MerkleProofs DirectoryModel DirectoryProofs DirectoryProofs4 FrontendModel FrontendProofs FilesModel FilesSpec FilesProofs.
Import ListNotations.
Open Scope Z_scope.

Definition numbered_from (s : nat) (fs : list file) : dir := combine (map chunk_file (seq s (length fs))) fs.
Lemma numbered_from_cons s f fs : numbered_from s (f :: fs) = (chunk_file s, f) :: numbered_from (S s) fs.
Proof. reflexivity. Qed.
Lemma chunk_file_inj i j : (i < 1000)%nat -> (j < 1000)%nat -> chunk_file i = chunk_file j -> i = j.
Proof.
  intros I J E. destruct (Nat.lt_trichotomy i j) as [L|[L|L]]; auto; exfalso.
  - pose proof (chunk_file_lt i j ltac:(lia)) as A. rewrite E, string_lt_irrefl in A. discriminate.
  - pose proof (chunk_file_lt j i ltac:(lia)) as A. rewrite E, string_lt_irrefl in A. discriminate.
Qed.

(** further files, after all chunk files *)
Definition rest_ok (rest : dir) : Prop :=
  sorted rest /\ forall v, 0 <= v -> Forall (fun m => string_lt (chunk_name v) m = true) (map fst rest).
Lemma rest_ok_nil : rest_ok [].
Proof. split; [constructor|intros; constructor]. Qed.
Lemma rest_ok_full f : rest_ok [(full_name, f)].
Proof. split; [repeat constructor|]. intros v V. repeat constructor. apply chunk_name_full; auto. Qed.
Lemma rest_lookup rest v : rest_ok rest -> 0 <= v -> lookup (chunk_name v) rest = None.
Proof. intros (_ & R) V. apply lookup_none. auto. Qed.

Lemma numbered_names s fs : map fst (numbered_from s fs) = map chunk_file (seq s (length fs)).
Proof. revert s; induction fs as [|f fs IH]; intros s; [reflexivity|]. rewrite numbered_from_cons. cbn [map fst length seq]. f_equal. apply IH. Qed.
Lemma numbered_files s fs : map snd (numbered_from s fs) = fs.
Proof. revert s; induction fs as [|f fs IH]; intros s; [reflexivity|]. rewrite numbered_from_cons. cbn [map snd]. f_equal. apply IH. Qed.
Lemma numbered_sorted rest : rest_ok rest -> forall fs s, (s + length fs <= 1000)%nat -> sorted (numbered_from s fs ++ rest).
Proof.
  intros R fs; induction fs as [|f fs IH]; intros s L; cbn [length] in L.
  - apply R.
  - rewrite numbered_from_cons. cbn [app]. unfold sorted. cbn [map fst]. constructor.
    + apply IH. lia.
    + rewrite map_app, numbered_names. apply Forall_app. split.
      * apply Forall_forall. intros x X. apply in_map_iff in X. destruct X as (j & <- & J). apply in_seq in J. apply chunk_file_lt. lia.
      * rewrite <- chunk_name_small by lia. apply R. lia.
Qed.
Lemma lookup_numbered rest : rest_ok rest -> forall fs s i, (s + length fs <= 1000)%nat -> (s <= i < 1000)%nat ->
  lookup (chunk_file i) (numbered_from s fs ++ rest) = nth_error fs (i - s).
Proof.
  intros R fs; induction fs as [|f fs IH]; intros s i L I; cbn [length] in L.
  - cbn [numbered_from length seq map combine app]. rewrite <- chunk_name_small by lia. rewrite rest_lookup by (auto; lia).
    destruct (i - s)%nat; reflexivity.
  - rewrite numbered_from_cons. cbn [app lookup]. destruct (Nat.eq_dec i s) as [->|N].
    + rewrite bytes_equal_refl, Nat.sub_diag. reflexivity.
    + rewrite bytes_equal_neq by (intros E; apply chunk_file_inj in E; lia). rewrite IH by lia.
      replace (i - s)%nat with (S (i - S s)) by lia. reflexivity.
Qed.
Lemma lookup_numbered_other rest n : forall fs s, (forall i, (s <= i < s + length fs)%nat -> n <> chunk_file i) ->
  lookup n (numbered_from s fs ++ rest) = lookup n rest.
Proof.
  intros fs; induction fs as [|f fs IH]; intros s F; [reflexivity|]. rewrite numbered_from_cons. cbn [app lookup].
  rewrite bytes_equal_neq by (apply F; cbn [length]; lia). apply IH. intros i I. apply F. cbn [length]. lia.
Qed.

Lemma is_chunk_file_dec n : {i | (i < 1000)%nat /\ n = chunk_file i} + {forall i, (i < 1000)%nat -> n <> chunk_file i}.
Proof.
  assert (D : forall k, {i | (i < k)%nat /\ n = chunk_file i} + {forall i, (i < k)%nat -> n <> chunk_file i}).
  { induction k as [|k [(i & L & E)|N]].
    - right. lia.
    - left. exists i. split; auto.
    - destruct (list_eq_dec Z.eq_dec n (chunk_file k)) as [E|Q].
      + left. exists k. auto.
      + right. intros i L. destruct (Nat.eq_dec i k) as [->|]; auto. apply N. lia. }
  apply D.
Qed.

Lemma nth_error_skipn {A} (l : list A) k i : nth_error (skipn k l) i = nth_error l (k + i).
Proof. revert k; induction l as [|a l IH]; intros [|k]; auto. destruct i; reflexivity. apply IH. Qed.

Lemma put_chunks_numbered rest old chunks : rest_ok rest -> (length old <= 1000)%nat -> (length chunks <= 1000)%nat ->
  put_chunks 0 chunks (numbered old ++ rest) = numbered (map whole chunks ++ skipn (length chunks) old) ++ rest.
Proof.
  intros R LO LC. change numbered with (numbered_from 0).
  assert (S0 : sorted (numbered_from 0 old ++ rest)) by (apply numbered_sorted; auto; lia).
  assert (LN : (0 + length (map whole chunks ++ skipn (length chunks) old) <= 1000)%nat).
  { rewrite app_length, map_length, skipn_length. lia. }
  assert (BB : Z.of_nat 1000 < 2 ^ 63) by (vm_compute; reflexivity).
  apply sorted_ext.
  - apply put_chunks_sorted; auto.
  - apply numbered_sorted; auto.
  - intros n. destruct (lookup_put_chunks chunks 0 (numbered_from 0 old ++ rest) n S0 ltac:(lia) ltac:(lia)) as (A & B).
    destruct (is_chunk_file_dec n) as [(i & L & ->)|N].
    + rewrite lookup_numbered by (auto; lia). rewrite Nat.sub_0_r.
      destruct (Nat.lt_ge_cases i (length chunks)) as [I|I].
      * destruct (nth_error chunks i) as [c|] eqn:E; [|apply nth_error_None in E; lia].
        rewrite (A i c E) by (rewrite Z.add_0_l, chunk_name_small; auto).
        rewrite nth_error_app1 by (rewrite map_length; auto). symmetry. apply map_nth_error. auto.
      * rewrite B.
        -- rewrite lookup_numbered by (auto; lia). rewrite nth_error_app2 by (rewrite map_length; auto).
           rewrite map_length, nth_error_skipn, Nat.sub_0_r. f_equal. lia.
        -- intros j J. rewrite Z.add_0_l, chunk_name_small by lia. intros E. apply chunk_file_inj in E; lia.
    + rewrite B.
      * rewrite !lookup_numbered_other by (intros i I; apply N; lia). reflexivity.
      * intros j J. rewrite Z.add_0_l, chunk_name_small by lia. apply N. lia.
Qed.

Lemma numbered_no_folders rest fs : rest_ok rest -> (length fs <= 1000)%nat -> Forall (fun f => f <> Folder) fs -> no_folders (numbered fs ++ rest).
Proof.
  intros R L F v V. unfold not_folder. change numbered with (numbered_from 0).
  destruct (is_chunk_file_dec (chunk_name v)) as [(i & I & E)|N].
  - rewrite E. rewrite lookup_numbered by (auto; lia). rewrite Nat.sub_0_r. intros Q. apply nth_error_In in Q.
    rewrite Forall_forall in F. apply (F Folder); auto.
  - rewrite lookup_numbered_other by (intros i I; apply N; lia). rewrite rest_lookup by auto. discriminate.
Qed.

(** ** chunk counts *)
Lemma key_bytes_app a b : key_bytes (a ++ b) = key_bytes a + key_bytes b.
Proof. unfold key_bytes. rewrite map_app. induction (map _ a) as [|x l IH]; cbn [app zsum]; lia. Qed.
Lemma key_bytes_nonneg a : 0 <= key_bytes a.
Proof. unfold key_bytes. induction a as [|x l IH]; cbn [map zsum]; [lia|]. unfold zlen in *. lia. Qed.
Lemma key_bytes_concat (l : list (list pkey)) : Forall (fun c => 104857600 < key_bytes c) l -> 104857601 * Z.of_nat (length l) <= key_bytes (concat l).
Proof.
  induction l as [|c l IH]; intros F; cbn [concat length].
  - unfold key_bytes. cbn. lia.
  - inversion F; subst. rewrite key_bytes_app. specialize (IH H2). rewrite Nat2Z.inj_succ. lia.
Qed.
Lemma chunking_count keys chunks : chunking keys chunks -> small_dump keys -> (length chunks <= 1000)%nat.
Proof.
  intros (E & N & F & _) S. unfold small_dump in S. apply key_bytes_concat in F.
  rewrite (app_removelast_last [] N) in E.
  rewrite (app_removelast_last [] N), app_length. cbn [length].
  assert (A : key_bytes keys = key_bytes (concat (removelast chunks)) + key_bytes (concat [last chunks []])).
  { rewrite <- E, concat_app. apply key_bytes_app. }
  pose proof (key_bytes_nonneg (concat [last chunks []])). clear E. 
  assert (Z.of_nat (length (removelast chunks)) < 1000) by lia. lia.
Qed.
Lemma split_chunking keys : chunking keys (split_full_dump_into_chunks keys).
Proof.
  unfold chunking, split_full_dump_into_chunks.
  destruct (split_sizes keys [] 0) as (A & C & N); [reflexivity|cbn [removelast]; unfold chunk_bytes, hundred_mb; cbn; lia|].
  split; [apply (split_concat keys [] 0)|]. split; [exact N|]. split; [exact C|exact A].
Qed.

(** ** what is loaded *)
Definition content (f : file) : res (list pkey) := match f with KeyFile ks false => Ok ks | _ => Err "decode error" end.
Lemma open_content d n f : lookup n d = Some f -> open_keys d n = content f.
Proof. intros L. unfold open_keys. rewrite L. destruct f as [ks []| | |]; reflexivity. Qed.
Lemma open_sub d : sorted d -> forall l, incl l d -> map (open_keys d) (map fst l) = map content (map snd l).
Proof.
  intros S l; induction l as [|[n f] l IH]; intros I; [reflexivity|]. cbn [map fst snd]. f_equal.
  - apply open_content. apply lookup_in; auto. apply I. left. reflexivity.
  - apply IH. intros x X. apply I. right. auto.
Qed.
Lemma mapM_content css : mapM (fun f : res (list pkey) => f) (map content (map whole css)) = Ok css.
Proof. induction css as [|c css IH]; [reflexivity|]. cbn [map mapM content whole bind]. rewrite IH. reflexivity. Qed.
Lemma mapM_content_inv : forall fs css, mapM (fun f : res (list pkey) => f) (map content fs) = Ok css -> fs = map whole css.
Proof.
  induction fs as [|f fs IH]; intros css E; cbn [map mapM bind] in E.
  - injection E as <-. reflexivity.
  - destruct f as [ks []| | |]; cbn [content bind] in E; try discriminate.
    destruct (mapM _ _) as [l| | |] eqn:Q; cbn [bind] in E; try discriminate. injection E as <-. cbn [map]. f_equal. apply IH; auto.
Qed.
Lemma load_sub d l : sorted d -> incl l d -> load_files d (map fst l) = (ls <- mapM (fun f => f) (map content (map snd l)) ;; Ok (concat ls))%go.
Proof. intros S I. unfold load_files, load_keys_from_disk. rewrite open_sub by auto. reflexivity. Qed.
Lemma load_whole d l css : sorted d -> incl l d -> map snd l = map whole css -> load_files d (map fst l) = Ok (concat css).
Proof. intros S I E. rewrite load_sub, E, mapM_content by auto. reflexivity. Qed.

Lemma mapM_in_err {A} (l : list (res A)) a : In a l -> (forall x, a <> Ok x) -> forall x, mapM (fun f => f) l <> Ok x.
Proof.
  induction l as [|b l IH]; intros I N x E; [easy|]. cbn [mapM] in E. destruct I as [->|I].
  - destruct a; cbn [bind] in E; try discriminate. apply (N a). reflexivity.
  - destruct b; cbn [bind] in E; try discriminate. destruct (mapM _ l) eqn:Q; cbn [bind] in E; try discriminate. exact (IH I N _ eq_refl).
Qed.

(** ** the files a server opens *)
Lemma server_keys_iff cap n d ks : sorted d -> ~ In [] (map fst d) -> (length d <= cap)%nat ->
  server_keys cap n d = Ok ks <->
  0 <= n <= Z.of_nat (length d) /\ exists css, map snd (firstn (Z.to_nat n) d) = map whole css /\ ks = concat css.
Proof.
  intros S NE C. unfold server_keys, get_sks_files, get_all_files.
  destruct (Z.ltb_spec n 0) as [A|A]; cbn [orb bind]; [split; [discriminate|lia]|].
  destruct (Z.ltb_spec (Z.of_nat cap) n) as [B|B]; cbn [bind]; [split; [discriminate|lia]|].
  destruct (Z.leb_spec n (Z.of_nat (length d))) as [L|L].
  - rewrite firstn_app, map_length. replace (Z.to_nat n - length d)%nat with 0%nat by lia. cbn [firstn]. rewrite app_nil_r, firstn_map.
    assert (I : incl (firstn (Z.to_nat n) d) d).
    { intros x X. rewrite <- (firstn_skipn (Z.to_nat n) d). apply in_or_app. left. exact X. }
    rewrite load_sub by auto. split.
    + intros E. destruct (mapM _ _) as [css| | |] eqn:Q; cbn [bind] in E; try discriminate. apply mapM_content_inv in Q.
      split; [lia|]. exists css. split; auto. congruence.
    + intros (_ & css & E & ->). rewrite E, mapM_content. reflexivity.
  - split; [|lia]. intros E. exfalso.
    assert (I : In [] (firstn (Z.to_nat n) (map fst d ++ repeat [] (cap - length (map fst d))))).
    { rewrite firstn_app, map_length. apply in_or_app. right.
      destruct (Z.to_nat n - length d)%nat eqn:Q; [lia|]. destruct (cap - length d)%nat eqn:R; [lia|]. left. reflexivity. }
    unfold load_files, load_keys_from_disk in E. destruct (mapM _ _) as [css| | |] eqn:Q; cbn [bind] in E; try discriminate.
    revert Q. apply (mapM_in_err _ (open_keys d [])).
    + apply in_map. exact I.
    + intros x. unfold open_keys. rewrite lookup_out by auto. discriminate.
Qed.

(** ** crashes *)
Fixpoint appended (es : list effect) : list pkey :=
  match es with
  | [] => []
  | Append _ k :: t => k :: appended t
  | _ :: t => appended t
  end.
Lemma appended_app a b : appended (a ++ b) = appended a ++ appended b.
Proof. induction a as [|[n|n k|n] a IH]; cbn [app appended]; rewrite ?IH; reflexivity. Qed.
Lemma appended_map n c : appended (map (Append n) c) = c.
Proof. induction c as [|k c IH]; cbn [map appended]; congruence. Qed.
Lemma appended_effects chunks : forall num, appended (effects_of chunks num) = concat chunks.
Proof.
  induction chunks as [|c t IH]; intros num; [reflexivity|]. cbn [effects_of appended concat]. rewrite appended_app, appended_map, IH. reflexivity.
Qed.
Lemma appended_reach : forall es m, (m <= length (appended es))%nat -> exists p, appended (firstn p es) = firstn m (appended es).
Proof.
  induction es as [|e es IH]; intros m L.
  - exists 0%nat. cbn in *. destruct m; reflexivity.
  - destruct e as [n|n k|n]; cbn [appended length] in *.
    + destruct (IH m L) as (p & E). exists (S p). cbn [firstn appended]. exact E.
    + destruct m as [|m]; [exists 0%nat; reflexivity|]. destruct (IH m ltac:(lia)) as (p & E). exists (S p). cbn [firstn appended]. congruence.
    + destruct (IH m L) as (p & E). exists (S p). cbn [firstn appended]. exact E.
Qed.

Lemma firstn_effects : forall chunks num p, exists chunks',
  firstn p (effects_of chunks num) = effects_of chunks' num /\ (length chunks' <= length chunks)%nat /\
  (forall n k, nth_error (effects_of chunks num) p = Some (Append n k) ->
     exists a b, chunks' = a ++ [b] /\ n = chunk_name (num + Z.of_nat (length a))).
Proof.
  induction chunks as [|c t IH]; intros num p.
  - exists []. rewrite firstn_nil. cbn [effects_of length]. conj_split; auto. intros n k E. destruct p; discriminate.
  - destruct p as [|p].
    { exists []. cbn [firstn effects_of length nth_error]. conj_split; auto; [lia|]. intros n k E. discriminate. }
    cbn [effects_of firstn nth_error]. rewrite firstn_app, map_length.
    destruct (Nat.lt_ge_cases p (length c)) as [L|L].
    + exists [firstn p c]. replace (p - length c)%nat with 0%nat by lia. cbn [firstn effects_of length]. rewrite !app_nil_r, firstn_map.
      conj_split; [reflexivity|lia|]. intros n k E. exists [], (firstn p c). split; [reflexivity|].
      rewrite nth_error_app1 in E by (rewrite map_length; auto). rewrite nth_error_map in E. destruct (nth_error c p) as [k'|]; cbn [option_map] in E; [|discriminate].
      assert (Q : n = chunk_name num) by (apply (f_equal (fun o => match o with Some (Append m _) => m | _ => [] end)) in E; symmetry; exact E). rewrite Q. cbn [length]. rewrite Z.add_0_r. reflexivity.
    + destruct (IH (num + 1) (p - length c)%nat) as (t' & A & B & D). exists (c :: t'). cbn [effects_of length].
      rewrite A. rewrite firstn_all2 by (rewrite map_length; auto). conj_split; [reflexivity|lia|].
      intros n k E. rewrite nth_error_app2, map_length in E by (rewrite map_length; auto). destruct (D n k E) as (a & b & -> & ->).
      exists (c :: a), b. split; [reflexivity|]. cbn [length]. rewrite Nat2Z.inj_succ. apply (f_equal chunk_name). lia.
Qed.
