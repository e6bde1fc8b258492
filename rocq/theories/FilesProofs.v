(** Proofs about files: directories as sorted lists, names of chunks, the effects of splitting. *)
From Coq Require Import String ZArith List Bool Arith Lia Sorted Permutation.
From Verif Require Import GoBase BaseFacts EncodingModel MerkleModel MerkleProofs DirectoryModel DirectoryProofs DirectoryProofs4 FrontendModel FrontendProofs FilesModel FilesSpec.
Import ListNotations.
Open Scope Z_scope.

(** ** order on names *)
Lemma name_before_lt a : forall b, name_before a b <-> string_lt a b = true.
Proof.
  intros b; split.
  - intros (p & [(x & t & -> & ->)|(x & y & s & t & -> & -> & L)]).
    + induction p as [|z p IH]; cbn [app string_lt]; [reflexivity|]. rewrite Z.eqb_refl, IH. apply orb_true_r.
    + induction p as [|z p IH]; cbn [app string_lt].
      * apply Z.ltb_lt in L. rewrite L. reflexivity.
      * rewrite Z.eqb_refl, IH. apply orb_true_r.
  - revert b; induction a as [|x a IH]; intros [|y b] E; cbn [string_lt] in E; try discriminate.
    + exists []. left. exists y, b. auto.
    + apply orb_true_iff in E. destruct E as [L|E].
      * exists []. right. exists x, y, a, b. apply Z.ltb_lt in L. auto.
      * apply andb_true_iff in E. destruct E as [Q E]. apply Z.eqb_eq in Q. subst y.
        destruct (IH b E) as (p & [(z & t & -> & ->)|(z & w & s & t & -> & -> & L)]).
        -- exists (x :: p). left. exists z, t. auto.
        -- exists (x :: p). right. exists z, w, s, t. auto.
Qed.

Definition sorted (d : dir) : Prop := StronglySorted (fun a b => string_lt a b = true) (map fst d).
Lemma sorted_spec d : sorted d <-> StronglySorted name_before (map fst d).
Proof.
  unfold sorted. induction (map fst d) as [|n l IH]; split; intros S; constructor; inversion S; subst; try tauto;
    eapply Forall_impl; try eassumption; intros; apply name_before_lt; auto.
Qed.

Lemma lookup_none n d : Forall (fun m => string_lt n m = true) (map fst d) -> lookup n d = None.
Proof.
  induction d as [|[m f] d IH]; intros F; cbn [lookup]; auto. inversion F; subst. cbn [fst] in *.
  rewrite bytes_equal_neq; auto. intros ->. rewrite string_lt_irrefl in *. discriminate.
Qed.
Lemma lookup_in n f d : sorted d -> In (n, f) d -> lookup n d = Some f.
Proof.
  unfold sorted. induction d as [|[m g] d IH]; intros S I; cbn [lookup]; [easy|]. cbn [map fst] in S. inversion S; subst.
  destruct I as [E|I].
  - injection E as -> ->. rewrite bytes_equal_refl. reflexivity.
  - rewrite bytes_equal_neq; auto. intros ->. rewrite Forall_forall in *.
    assert (L : string_lt m m = true) by (apply H2; apply (in_map fst) in I; exact I). rewrite string_lt_irrefl in L. discriminate.
Qed.
Lemma lookup_some n f d : lookup n d = Some f -> In (n, f) d.
Proof.
  induction d as [|[m g] d IH]; cbn [lookup]; [discriminate|]. destruct (bytes_equal n m) eqn:E; intros Q.
  - apply bytes_equal_spec in E. injection Q as ->. subst. left. reflexivity.
  - right. auto.
Qed.

Lemma lookup_put n f d m : sorted d -> lookup m (put n f d) = if bytes_equal m n then Some f else lookup m d.
Proof.
  unfold sorted. induction d as [|[n' f'] d IH]; intros S; cbn [put lookup]; auto. cbn [map fst] in S. inversion S; subst.
  destruct (bytes_equal n n') eqn:E.
  - apply bytes_equal_spec in E. subst n'. cbn [lookup]. destruct (bytes_equal m n); reflexivity.
  - destruct (string_lt n n') eqn:L; cbn [lookup]; auto. rewrite IH by auto.
    destruct (bytes_equal m n) eqn:Q; auto. apply bytes_equal_spec in Q. subst m. rewrite E. reflexivity.
Qed.
Lemma string_lt_total a b : a <> b -> string_lt a b = false -> string_lt b a = true.
Proof. intros N L. destruct (string_lt b a) eqn:E; auto. exfalso. apply N. apply string_lt_antisym; auto. Qed.
Lemma put_names n f d x : In x (map fst (put n f d)) -> x = n \/ In x (map fst d).
Proof.
  induction d as [|[n' f'] d IH]; cbn [put map fst In].
  - intros [E|[]]. left. auto.
  - destruct (bytes_equal n n') eqn:E; [|destruct (string_lt n n')]; cbn [map fst In].
    + intros [Q|I]; auto.
    + intros [Q|[Q|I]]; auto.
    + intros [Q|I]; auto. apply IH in I. tauto.
Qed.
Lemma put_sorted n f d : sorted d -> sorted (put n f d).
Proof.
  unfold sorted. induction d as [|[n' f'] d IH]; intros S; cbn [put map fst].
  - repeat constructor.
  - cbn [map fst] in S. inversion S; subst. destruct (bytes_equal n n') eqn:E; [|destruct (string_lt n n') eqn:L]; cbn [map fst].
    + apply bytes_equal_spec in E. subst n'. exact S.
    + constructor; [exact S|]. constructor; auto. eapply Forall_impl; [|eassumption]. intros x X. cbn in X.
      exact (string_lt_trans n n' x L X).
    + constructor; auto. apply Forall_forall. intros x X. apply put_names in X. destruct X as [->|X].
      * apply string_lt_total; auto. intros ->. rewrite bytes_equal_refl in E. discriminate.
      * rewrite Forall_forall in H2. auto.
Qed.
Lemma lookup_out n d : ~ In n (map fst d) -> lookup n d = None.
Proof.
  induction d as [|[m f] d IH]; cbn [lookup map fst In]; auto. intros N. rewrite bytes_equal_neq by intuition congruence. auto.
Qed.
Lemma sorted_nodup d : sorted d -> NoDup (map fst d).
Proof.
  unfold sorted. induction (map fst d) as [|n l IH]; intros S; constructor; inversion S; subst; auto. intros I.
  rewrite Forall_forall in *. assert (L := H2 n I). cbn in L. rewrite string_lt_irrefl in L. discriminate.
Qed.
Lemma sorted_ext d1 : forall d2, sorted d1 -> sorted d2 -> (forall n, lookup n d1 = lookup n d2) -> d1 = d2.
Proof.
  induction d1 as [|[n1 f1] d1 IH]; intros [|[n2 f2] d2] S1 S2 E; auto.
  - specialize (E n2). cbn [lookup] in E. rewrite bytes_equal_refl in E. discriminate.
  - specialize (E n1). cbn [lookup] in E. rewrite bytes_equal_refl in E. discriminate.
  - assert (T1 := S1). assert (T2 := S2). unfold sorted in T1, T2. cbn [map fst] in T1, T2. inversion T1; subst. inversion T2; subst.
    assert (N : n1 = n2).
    { destruct (list_eq_dec Z.eq_dec n1 n2) as [|N]; auto. exfalso.
      destruct (string_lt n1 n2) eqn:L.
      - specialize (E n1). cbn [lookup] in E. rewrite bytes_equal_refl, bytes_equal_neq in E by auto.
        rewrite lookup_none in E; [discriminate|]. eapply Forall_impl; [|eassumption]. intros x X. exact (string_lt_trans n1 n2 x L X).
      - apply string_lt_total in L; auto. specialize (E n2). cbn [lookup] in E. rewrite bytes_equal_refl, bytes_equal_neq in E by auto.
        rewrite lookup_none in E; [discriminate|]. eapply Forall_impl; [|eassumption]. intros x X. exact (string_lt_trans n2 n1 x L X). }
    subst n2. f_equal.
    + assert (Q := E n1). cbn [lookup] in Q. rewrite bytes_equal_refl in Q. congruence.
    + apply IH; auto. intros n. destruct (list_eq_dec Z.eq_dec n n1) as [->|N].
      * rewrite !lookup_none; auto.
      * specialize (E n). cbn [lookup] in E. rewrite bytes_equal_neq in E by auto. exact E.
Qed.
Lemma put_put n f g d : put n f (put n g d) = put n f d.
Proof.
  induction d as [|[n' f'] d IH]; cbn [put].
  - rewrite bytes_equal_refl. reflexivity.
  - destruct (bytes_equal n n') eqn:E; [|destruct (string_lt n n') eqn:L]; cbn [put].
    + rewrite bytes_equal_refl. reflexivity.
    + rewrite bytes_equal_refl. reflexivity.
    + rewrite E, L, IH. reflexivity.
Qed.

(** ** names of chunks *)
Definition chunk_nameb (i : nat) : bool := bytes_equal (chunk_name (Z.of_nat i)) (chunk_file i).
Lemma chunk_names_ok : forallb chunk_nameb (seq 0 1000) = true.
Proof. vm_compute. reflexivity. Qed.
Lemma chunk_name_small i : (i < 1000)%nat -> chunk_name (Z.of_nat i) = chunk_file i.
Proof.
  intros L. apply bytes_equal_spec. pose proof chunk_names_ok as A. rewrite forallb_forall in A. apply A. apply in_seq. lia.
Qed.
Lemma chunk_file_lt i j : (i < j < 1000)%nat -> string_lt (chunk_file i) (chunk_file j) = true.
Proof.
  intros L. unfold chunk_file. cbn [string_lt]. rewrite !Z.eqb_refl, !Z.ltb_irrefl. cbn [andb orb].
  assert (A : Z.of_nat i = 100 * (Z.of_nat i / 100) + 10 * (Z.of_nat i / 10 mod 10) + Z.of_nat i mod 10).
  { pose proof (Z.div_mod (Z.of_nat i) 10 ltac:(lia)). pose proof (Z.div_mod (Z.of_nat i / 10) 10 ltac:(lia)).
    rewrite Z.div_div in H0 by lia. change (10 * 10) with 100 in H0. lia. }
  assert (B : Z.of_nat j = 100 * (Z.of_nat j / 100) + 10 * (Z.of_nat j / 10 mod 10) + Z.of_nat j mod 10).
  { pose proof (Z.div_mod (Z.of_nat j) 10 ltac:(lia)). pose proof (Z.div_mod (Z.of_nat j / 10) 10 ltac:(lia)).
    rewrite Z.div_div in H0 by lia. change (10 * 10) with 100 in H0. lia. }
  pose proof (Z.mod_pos_bound (Z.of_nat i) 10 ltac:(lia)). pose proof (Z.mod_pos_bound (Z.of_nat j) 10 ltac:(lia)).
  pose proof (Z.mod_pos_bound (Z.of_nat i / 10) 10 ltac:(lia)). pose proof (Z.mod_pos_bound (Z.of_nat j / 10) 10 ltac:(lia)).
  revert A B H H0 H1 H2. generalize (Z.of_nat i / 100), (Z.of_nat i / 10 mod 10), (Z.of_nat i mod 10),
    (Z.of_nat j / 100), (Z.of_nat j / 10 mod 10), (Z.of_nat j mod 10). intros a b c d e f A B H H0 H1 H2.
  rewrite !orb_true_iff, !andb_true_iff, !orb_true_iff, !andb_true_iff, !Z.ltb_lt, !Z.eqb_eq, !orb_true_iff, !andb_true_iff, !Z.ltb_lt, !Z.eqb_eq. lia.
Qed.
Lemma digits_zeros k : forall t, digits 0 (repeat 48 k ++ t) = digits 0 t.
Proof. induction k as [|k IH]; intros t; [reflexivity|]. cbn [repeat app digits]. change (digit 48) with (Some 0). apply IH. Qed.
Lemma chunk_name_inj v w : 0 <= v < 2 ^ 63 -> 0 <= w < 2 ^ 63 -> chunk_name v = chunk_name w -> v = w.
Proof.
  intros V W E. unfold chunk_name in E. apply app_inv_head in E. apply app_inv_tail in E.
  apply (f_equal (digits 0)) in E. unfold pad3 in E. rewrite !digits_zeros in E. unfold itoa in E.
  destruct (Z.ltb_spec v 0); [lia|]. destruct (Z.ltb_spec w 0); [lia|].
  rewrite <- (app_nil_r (decimal 20 v)), <- (app_nil_r (decimal 20 w)) in E.
  assert (P : 2 ^ 63 < 10 ^ Z.of_nat 20) by (vm_compute; reflexivity).
  rewrite !digits_decimal in E by lia. cbn [digits] in E. congruence.
Qed.
Lemma chunk_name_full v : 0 <= v -> string_lt (chunk_name v) full_name = true.
Proof.
  intros V. unfold chunk_name, pad3. assert (H : exists x t, repeat 48 (3 - length (itoa v)) ++ itoa v = x :: t /\ x <= 57).
  { unfold itoa. destruct (Z.ltb_spec v 0); [lia|]. destruct (decimal_head 19 v V) as (d & t & E & R). rewrite E.
    destruct (3 - length (d :: t))%nat; cbn [repeat app]; eexists _, _; split; eauto; lia. }
  destruct H as (x & t & E & L). rewrite E. unfold full_name. cbn [app string_lt]. rewrite !Z.eqb_refl, !Z.ltb_irrefl. cbn [andb orb].
  apply orb_true_iff. left. apply Z.ltb_lt. lia.
Qed.
Lemma chunk_name_nonempty v : chunk_name v <> [].
Proof. discriminate. Qed.

(** ** effects of splitting, chunk by chunk *)
Fixpoint effects_of (chunks : list (list pkey)) (num : Z) : list effect :=
  match chunks with
  | [] => []
  | c :: t => Create (chunk_name num) :: map (Append (chunk_name num)) c ++ effects_of t (num + 1)
  end.
Lemma split_effects_loop : forall keys cur written num,
  Create (chunk_name num) :: map (Append (chunk_name num)) cur ++ split_effects keys (Some (chunk_name num)) written (num + 1)
  = effects_of (split_loop keys cur written) num.
Proof.
  induction keys as [|k keys IH]; intros cur written num; cbn [split_effects split_loop].
  - destruct (hundred_mb <? written); cbn [effects_of map app]; rewrite ?app_nil_r; reflexivity.
  - destruct (hundred_mb <? written); cbn [effects_of map app].
    + f_equal. f_equal. rewrite <- IH. cbn [map app]. reflexivity.
    + rewrite <- IH. f_equal. rewrite map_app, <- app_assoc. reflexivity.
Qed.
Lemma split_effects_chunks keys : split_effects keys None 0 0 = effects_of (split_full_dump_into_chunks keys) 0.
Proof.
  unfold split_full_dump_into_chunks. rewrite <- split_effects_loop. cbn [map app].
  destruct keys as [|k keys]; cbn [split_effects app]; [reflexivity|]. change (hundred_mb <? 0) with false. reflexivity.
Qed.

Definition not_folder (n : list Z) (d : dir) : Prop := lookup n d <> Some Folder.
Lemma run_appends n : forall c ks d es, sorted d -> lookup n d = Some (KeyFile ks false) ->
  run_effects d (map (Append n) c ++ es) = run_effects (if (0 <? length c)%nat then put n (KeyFile (ks ++ c) false) d else d) es.
Proof.
  induction c as [|k c IH]; intros ks d es S L; cbn [map app run_effects length]; [reflexivity|].
  cbn [run_effect]. rewrite L. rewrite (IH (ks ++ [k])).
  - change (0 <? Datatypes.S (length c))%nat with true. cbv iota. destruct c as [|k' c]; [reflexivity|].
    change (0 <? length (k' :: c))%nat with true. cbv iota. rewrite put_put, <- app_assoc. reflexivity.
  - apply put_sorted; auto.
  - rewrite lookup_put, bytes_equal_refl by auto. reflexivity.
Qed.
Lemma run_chunk n c d es : sorted d -> not_folder n d ->
  run_effects d (Create n :: map (Append n) c ++ es) = run_effects (put n (whole c) d) es.
Proof.
  intros S N. cbn [run_effects run_effect].
  assert (E : match lookup n d with Some Folder => Err "is a directory" | _ => Ok (put n (KeyFile [] false) d) end = Ok (put n (KeyFile [] false) d)).
  { destruct (lookup n d) as [[ | | |]|] eqn:Q; auto. exfalso. apply N. auto. }
  rewrite E. rewrite (run_appends n c []).
  - destruct c as [|k c]; [reflexivity|]. change (0 <? length (k :: c))%nat with true. cbv iota. rewrite put_put. reflexivity.
  - apply put_sorted; auto.
  - rewrite lookup_put, bytes_equal_refl by auto. reflexivity.
Qed.

Fixpoint put_chunks (num : Z) (chunks : list (list pkey)) (d : dir) : dir :=
  match chunks with
  | [] => d
  | c :: t => put_chunks (num + 1) t (put (chunk_name num) (whole c) d)
  end.
Lemma put_chunks_sorted : forall chunks num d, sorted d -> sorted (put_chunks num chunks d).
Proof. induction chunks as [|c t IH]; intros num d S; cbn [put_chunks]; auto. apply IH. apply put_sorted; auto. Qed.

Definition no_folders (d : dir) : Prop := forall v, 0 <= v -> not_folder (chunk_name v) d.
Lemma no_folders_put n c d : sorted d -> no_folders d -> no_folders (put n (whole c) d).
Proof.
  intros S N v V. unfold not_folder. rewrite lookup_put by auto. destruct (bytes_equal (chunk_name v) n); [discriminate|]. apply N; auto.
Qed.
Lemma run_chunks : forall chunks num d es, 0 <= num -> sorted d -> no_folders d ->
  run_effects d (effects_of chunks num ++ es) = run_effects (put_chunks num chunks d) es.
Proof.
  induction chunks as [|c t IH]; intros num d es P S N; cbn [effects_of put_chunks]; [reflexivity|].
  rewrite <- app_comm_cons, <- app_assoc. rewrite run_chunk by auto. apply IH; [lia|apply put_sorted; auto|apply no_folders_put; auto].
Qed.
(** the number of a chunk, as an index *)
Lemma lookup_put_chunks : forall chunks num d n, sorted d -> 0 <= num -> num + Z.of_nat (length chunks) <= 2 ^ 63 ->
  (forall i c, nth_error chunks i = Some c -> n = chunk_name (num + Z.of_nat i) -> lookup n (put_chunks num chunks d) = Some (whole c)) /\
  ((forall i, (i < length chunks)%nat -> n <> chunk_name (num + Z.of_nat i)) -> lookup n (put_chunks num chunks d) = lookup n d).
Proof.
  induction chunks as [|c t IH]; intros num d n S P B.
  - split; [intros [|i] c; discriminate|auto].
  - cbn [length] in B. destruct (IH (num + 1) (put (chunk_name num) (whole c) d) n) as (A & C); [apply put_sorted; auto|lia|lia|].
    cbn [put_chunks]. split.
    + intros [|i] c' E Q.
      * cbn in E. injection E as ->. rewrite Z.add_0_r in Q. subst n. rewrite C.
        -- rewrite lookup_put, bytes_equal_refl by auto. reflexivity.
        -- intros i L E. apply chunk_name_inj in E; lia.
      * cbn [nth_error] in E. apply (A i); auto. subst n. f_equal. lia.
    + intros F. rewrite C.
      * rewrite lookup_put by auto. rewrite bytes_equal_neq; auto. specialize (F 0%nat ltac:(cbn [length]; lia)).
        rewrite Z.add_0_r in F. exact F.
      * intros i L. specialize (F (Datatypes.S i) ltac:(cbn [length]; lia)). intros ->. apply F. f_equal. lia.
Qed.
