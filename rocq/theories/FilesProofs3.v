(** Proofs about files: the commands of the tool, crashes and reruns. *)
From Coq Require Import String ZArith List Bool Arith Lia Sorted Permutation.
From Verif Require Import GoBase BaseFacts EncodingModel MerkleModel MerkleProofs DirectoryModel DirectoryProofs DirectoryProofs4 FrontendModel FrontendProofs FilesModel FilesSpec FilesProofs FilesProofs2.
Import ListNotations.
Open Scope Z_scope.

Lemma run_numbered rest old chunks es : rest_ok rest -> (length old <= 1000)%nat -> (length chunks <= 1000)%nat ->
  Forall (fun f => f <> Folder) old ->
  run_effects (numbered old ++ rest) (effects_of chunks 0 ++ es)
  = run_effects (numbered (map whole chunks ++ skipn (length chunks) old) ++ rest) es.
Proof.
  intros R LO LC F. rewrite run_chunks; [|lia| |apply numbered_no_folders; auto].
  - rewrite put_chunks_numbered by auto. reflexivity.
  - change numbered with (numbered_from 0). apply numbered_sorted; auto.
Qed.
Lemma split_numbered rest old keys : rest_ok rest -> (length old <= 1000)%nat -> small_dump keys -> Forall (fun f => f <> Folder) old ->
  split_into_chunks (SFile (whole keys)) (numbered old ++ rest)
  = (numbered (map whole (split_full_dump_into_chunks keys) ++ skipn (length (split_full_dump_into_chunks keys)) old) ++ rest, Ok tt).
Proof.
  intros R LO SD F. unfold split_into_chunks. cbn [decodable whole decode_end]. rewrite split_effects_chunks.
  rewrite <- (app_nil_r (effects_of _ 0)). rewrite run_numbered; auto.
  eapply chunking_count; [apply split_chunking|auto].
Qed.
Lemma numbered_nil : numbered [] ++ [] = []. Proof. reflexivity. Qed.
Lemma numbered_app_nil fs : numbered fs ++ [] = numbered fs. Proof. apply app_nil_r. Qed.

Lemma numbered_sorted0 rest fs : rest_ok rest -> (length fs <= 1000)%nat -> sorted (numbered fs ++ rest).
Proof. intros R L. change numbered with (numbered_from 0). apply numbered_sorted; auto. Qed.
Lemma numbered_directory fs : (length fs <= 1000)%nat -> is_directory (numbered fs).
Proof.
  intros L. split.
  - apply sorted_spec. rewrite <- numbered_app_nil. apply numbered_sorted0; auto. apply rest_ok_nil.
  - change numbered with (numbered_from 0). rewrite numbered_names. intros I. apply in_map_iff in I. destruct I as (j & E & _). discriminate.
Qed.
Lemma numbered_length fs : length (numbered fs) = length fs.
Proof. unfold numbered. rewrite combine_length, map_length, seq_length. lia. Qed.
Lemma load_numbered chunks : (length chunks <= 1000)%nat -> load_files (numbered (map whole chunks)) (get_all_files (numbered (map whole chunks))) = Ok (concat chunks).
Proof.
  intros L. unfold get_all_files. apply load_whole.
  - rewrite <- numbered_app_nil. apply numbered_sorted0; [apply rest_ok_nil|rewrite map_length; auto].
  - apply incl_refl.
  - change numbered with (numbered_from 0). apply numbered_files.
Qed.
Lemma server_numbered rest fs chunks cap n : rest_ok rest -> ~ In [] (map fst rest) -> (length fs <= 1000)%nat -> (length fs + length rest <= cap)%nat ->
  0 <= n <= Z.of_nat (length fs) -> firstn (Z.to_nat n) fs = map whole chunks ->
  server_keys cap n (numbered fs ++ rest) = Ok (concat chunks).
Proof.
  intros R E L C B F. apply server_keys_iff.
  - apply numbered_sorted0; auto.
  - rewrite map_app. intros I. apply in_app_or in I. destruct I as [I|I]; auto.
    change numbered with (numbered_from 0) in I. rewrite numbered_names in I. apply in_map_iff in I. destruct I as (j & Q & _). discriminate.
  - rewrite app_length, numbered_length. auto.
  - split; [rewrite app_length, numbered_length; lia|]. exists chunks. split; auto.
    rewrite firstn_app, numbered_length. replace (Z.to_nat n - length fs)%nat with 0%nat by lia. cbn [firstn]. rewrite app_nil_r.
    rewrite <- firstn_map. change numbered with (numbered_from 0). rewrite numbered_files. exact F.
Qed.

(** ** any number of chunks *)
Lemma lookup_in_iff n f d : sorted d -> In (n, f) d <-> lookup n d = Some f.
Proof. intros S. split; [apply lookup_in; auto|apply lookup_some]. Qed.
Fixpoint named_from (v : Z) (fs : list file) : dir := match fs with [] => [] | f :: t => (chunk_name v, f) :: named_from (v + 1) t end.
Lemma named_in n f : forall fs v, In (n, f) (named_from v fs) <-> exists i, nth_error fs i = Some f /\ n = chunk_name (v + Z.of_nat i).
Proof.
  induction fs as [|g fs IH]; intros v; cbn [named_from In].
  - split; [easy|]. intros ([|i] & E & _); discriminate.
  - split.
    + intros [E|I].
      * exists 0%nat. cbn [nth_error]. rewrite Z.add_0_r. split; congruence.
      * apply IH in I. destruct I as (i & E & Q). exists (S i). cbn [nth_error]. split; auto. rewrite Q. apply (f_equal chunk_name). lia.
    + intros ([|i] & E & Q).
      * left. cbn [nth_error] in E. rewrite Z.add_0_r in Q. congruence.
      * right. apply IH. exists i. split; auto. rewrite Q. apply (f_equal chunk_name). lia.
Qed.
Lemma named_files v fs : map snd (named_from v fs) = fs.
Proof. revert v; induction fs as [|f fs IH]; intros v; cbn [named_from map snd]; congruence. Qed.
Lemma named_nodup : forall fs v, 0 <= v -> v + Z.of_nat (length fs) <= 2 ^ 63 -> NoDup (named_from v fs).
Proof.
  induction fs as [|f fs IH]; intros v V B; cbn [named_from]; constructor; cbn [length] in B.
  - intros I. apply named_in in I. destruct I as (i & E & Q). assert (i < length fs)%nat by (apply nth_error_Some; congruence).
    apply chunk_name_inj in Q; lia.
  - apply IH; lia.
Qed.
Lemma put_chunks_perm chunks : Z.of_nat (length chunks) <= 2 ^ 63 -> Permutation (put_chunks 0 chunks []) (named_from 0 (map whole chunks)).
Proof.
  intros B. assert (S : sorted (put_chunks 0 chunks [])) by (apply put_chunks_sorted; constructor).
  apply NoDup_Permutation.
  - apply sorted_nodup in S. apply NoDup_map_inv in S. exact S.
  - apply named_nodup; [lia|rewrite map_length; lia].
  - intros (n & f). rewrite lookup_in_iff by auto. rewrite named_in.
    destruct (lookup_put_chunks chunks 0 [] n ltac:(constructor) ltac:(lia) ltac:(lia)) as (A & C). split.
    + intros L. destruct (in_dec (list_eq_dec Z.eq_dec) n (map (fun i => chunk_name (0 + Z.of_nat i)) (seq 0 (length chunks)))) as [I|N].
      * apply in_map_iff in I. destruct I as (i & <- & I). apply in_seq in I. exists i. split; auto.
        destruct (nth_error chunks i) as [c|] eqn:E; [|apply nth_error_None in E; lia].
        rewrite (A i c E eq_refl) in L. injection L as <-. apply map_nth_error. auto.
      * rewrite C in L; [discriminate|]. intros i I E. apply N. apply in_map_iff. exists i. split; auto. apply in_seq. lia.
    + intros (i & E & Q). rewrite nth_error_map in E. destruct (nth_error chunks i) as [c|] eqn:N; [|discriminate]. injection E as <-.
      apply (A i c); auto.
Qed.

(** ** crashes *)
Lemma killed_after_numbered rest old keys p : rest_ok rest -> (length old <= 1000)%nat -> small_dump keys -> Forall (fun f => f <> Folder) old ->
  exists chunks, (length chunks <= length (split_full_dump_into_chunks keys))%nat /\
    concat chunks = appended (firstn p (split_effects keys None 0 0)) /\
    killed_after keys p (numbered old ++ rest) = numbered (map whole chunks ++ skipn (length chunks) old) ++ rest.
Proof.
  intros R LO SD F. assert (LC := chunking_count _ _ (split_chunking keys) SD). unfold killed_after. rewrite split_effects_chunks.
  destruct (firstn_effects (split_full_dump_into_chunks keys) 0 p) as (ch & A & B & _). exists ch. split; auto. rewrite A. split.
  - symmetry. apply appended_effects.
  - rewrite <- (app_nil_r (effects_of ch 0)). rewrite run_numbered; auto. lia.
Qed.
Lemma put_numbered rest a f b g : rest_ok rest -> (length (a ++ f :: b) <= 1000)%nat ->
  put (chunk_file (length a)) g (numbered (a ++ f :: b) ++ rest) = numbered (a ++ g :: b) ++ rest.
Proof.
  intros R L. assert (L' : (length (a ++ g :: b) <= 1000)%nat) by (rewrite app_length in *; cbn [length] in *; lia).
  apply sorted_ext; [apply put_sorted; apply numbered_sorted0; auto|apply numbered_sorted0; auto|].
  intros n. rewrite lookup_put by (apply numbered_sorted0; auto). change numbered with (numbered_from 0).
  assert (I : (length a < 1000)%nat) by (rewrite app_length in L; cbn [length] in L; lia).
  destruct (is_chunk_file_dec n) as [(i & L1 & ->)|N].
  - rewrite !lookup_numbered by (auto; lia). rewrite Nat.sub_0_r. destruct (Nat.eq_dec i (length a)) as [->|N].
    + rewrite bytes_equal_refl. rewrite nth_error_app2, Nat.sub_diag by lia. reflexivity.
    + rewrite bytes_equal_neq by (intros E; apply chunk_file_inj in E; auto).
      destruct (Nat.lt_ge_cases i (length a)).
      * rewrite !nth_error_app1 by lia. reflexivity.
      * rewrite !nth_error_app2 by lia. destruct (i - length a)%nat eqn:Q; [lia|]. reflexivity.
  - rewrite bytes_equal_neq by (apply N; auto). rewrite !lookup_numbered_other by (intros i J; apply N; lia). reflexivity.
Qed.
Lemma killed_within_numbered rest old keys p d : rest_ok rest -> (length old <= 1000)%nat -> small_dump keys -> Forall (fun f => f <> Folder) old ->
  killed_within keys p (numbered old ++ rest) d ->
  exists chunks last, (length chunks < length (split_full_dump_into_chunks keys))%nat /\
    concat chunks ++ last = appended (firstn p (split_effects keys None 0 0)) /\
    d = numbered (map whole chunks ++ KeyFile last true :: skipn (S (length chunks)) old) ++ rest.
Proof.
  intros R LO SD F (n & k & E & ->). assert (LC := chunking_count _ _ (split_chunking keys) SD). rewrite split_effects_chunks in *.
  destruct (firstn_effects (split_full_dump_into_chunks keys) 0 p) as (ch & A & B & D).
  destruct (D n k E) as (a & b & -> & ->). exists a, b. rewrite app_length in B. cbn [length] in B. rewrite A. conj_split.
  - lia.
  - rewrite appended_effects, concat_app. cbn [concat]. rewrite app_nil_r. reflexivity.
  - rewrite run_numbered by (auto; rewrite app_length; cbn [length]; lia). rewrite Z.add_0_l.
    rewrite chunk_name_small by lia. cbn [run_effects run_effect].
    rewrite map_app, app_length. cbn [map length]. rewrite <- app_assoc. cbn [app]. rewrite Nat.add_1_r.
    assert (LL : (length (map whole a ++ whole b :: skipn (S (length a)) old) <= 1000)%nat).
    { rewrite app_length, map_length. cbn [length]. rewrite skipn_length. lia. }
    assert (Q : lookup (chunk_file (length a)) (numbered (map whole a ++ whole b :: skipn (S (length a)) old) ++ rest) = Some (whole b)).
    { change numbered with (numbered_from 0). rewrite lookup_numbered by (auto; lia). rewrite Nat.sub_0_r.
      rewrite nth_error_app2 by (rewrite map_length; lia). rewrite map_length, Nat.sub_diag. reflexivity. }
    rewrite Q. unfold whole at 1. cbn [fst run_effects]. rewrite <- (map_length whole a) at 1.
    rewrite put_numbered by auto. reflexivity.
Qed.

(** ** the expression for dump files *)
Lemma dump_prefix_iff s : dump_prefix s = true <->
  exists ds after, s = [115; 107; 115; 45; 100; 117; 109; 112; 45] ++ ds ++ [46; 112; 103; 112] ++ after /\
    length ds = 4%nat /\ Forall (fun x => 48 <= x <= 57) ds.
Proof.
  split.
  - intros E. unfold dump_prefix in E.
    repeat match type of E with
    | match ?x with _ => _ end = true => destruct x eqn:?; try discriminate E
    end; subst.
    all: match type of E with forallb _ [?a; ?b; ?c; ?d] = true =>
      match goal with |- context [46 :: 112 :: 103 :: 112 :: ?t] => exists [a; b; c; d], t end end.
    all: split; [reflexivity|]; split; [reflexivity|].
    all: rewrite forallb_forall in E; apply Forall_forall; intros x X; apply E in X; apply andb_true_iff in X; rewrite !Z.leb_le in X; lia.
  - intros (ds & after & -> & L & F). destruct ds as [|a [|b [|c [|d [|]]]]]; try discriminate L. cbn [app dump_prefix].
    apply forallb_forall. intros x X. rewrite Forall_forall in F. apply F in X. apply andb_true_iff. rewrite !Z.leb_le. lia.
Qed.
Lemma dump_match_iff s : dump_match s = true <-> dump_name s.
Proof.
  unfold dump_name. split.
  - induction s as [|x s IH]; intros E.
    + discriminate.
    + cbn [dump_match] in E. apply orb_true_iff in E. destruct E as [E|E].
      * apply dump_prefix_iff in E. destruct E as (ds & after & -> & L & F). exists [], ds, after. auto.
      * destruct (IH E) as (b & ds & a & -> & L & F). exists (x :: b), ds, a. auto.
  - intros (b & ds & a & -> & L & F).
    assert (P : dump_prefix ([115; 107; 115; 45; 100; 117; 109; 112; 45] ++ ds ++ [46; 112; 103; 112] ++ a) = true)
      by (apply dump_prefix_iff; eauto).
    revert P. generalize ([115; 107; 115; 45; 100; 117; 109; 112; 45] ++ ds ++ [46; 112; 103; 112] ++ a). intros s P.
    induction b as [|x b IH]; cbn [app dump_match].
    + destruct s as [|y s]; cbn [dump_match]; rewrite P; reflexivity.
    + rewrite IH. apply orb_true_r.
Qed.

(** ** writing the parsed dump *)
Lemma write_effects_ok serialize : forall entries ks, write_keys_on_disk serialize entries = Ok ks ->
  write_effects serialize entries = (map (Append full_name) ks, Ok tt).
Proof.
  induction entries as [|(email, e) t IH]; intros ks E; cbn [write_keys_on_disk write_effects] in *.
  - injection E as <-. reflexivity.
  - destruct (serialize e) as [buf| | |]; cbn [bind] in E; try discriminate.
    destruct (key_size_limit <? zlen buf).
    + rewrite (IH ks E). reflexivity.
    + destruct (write_keys_on_disk serialize t) as [l| | |]; cbn [bind] in E; try discriminate. injection E as <-.
      rewrite (IH l eq_refl). reflexivity.
Qed.
Lemma write_effects_inv serialize : forall entries es, write_effects serialize entries = (es, Ok tt) ->
  exists ks, write_keys_on_disk serialize entries = Ok ks /\ es = map (Append full_name) ks.
Proof.
  induction entries as [|(email, e) t IH]; intros es E; cbn [write_keys_on_disk write_effects] in *.
  - injection E as <-. exists []. auto.
  - destruct (serialize e) as [buf| | |]; cbn [bind]; try discriminate.
    destruct (write_effects serialize t) as (es', r) eqn:Q. destruct (key_size_limit <? zlen buf).
    + injection E as -> ->. apply IH. reflexivity.
    + injection E as <- ->. destruct (IH es' eq_refl) as (ks & A & ->). rewrite A. cbn [bind]. eexists. split; reflexivity.
Qed.
Lemma write_effects_appends serialize : forall entries es r, write_effects serialize entries = (es, r) -> exists ks, es = map (Append full_name) ks.
Proof.
  induction entries as [|(email, e) t IH]; intros es r E; cbn [write_effects] in *.
  - injection E as <- _. exists []. reflexivity.
  - destruct (serialize e) as [buf| | |]; try (injection E as <- _; exists []; reflexivity).
    destruct (write_effects serialize t) as (es', r') eqn:Q. destruct (IH es' r' eq_refl) as (ks & ->).
    destruct (key_size_limit <? zlen buf); injection E as <- _; [exists ks; reflexivity|exists (mkKey email buf :: ks); reflexivity].
Qed.
Lemma write_keys_run serialize entries out es r : sorted out -> not_folder full_name out -> write_effects serialize entries = (es, r) ->
  exists ks, es = map (Append full_name) ks /\ write_keys serialize entries out = (put full_name (whole ks) out, r).
Proof.
  intros S N E. destruct (write_effects_appends _ _ _ _ E) as (ks & ->). exists ks. split; auto. unfold write_keys. rewrite E.
  rewrite <- (app_nil_r (map (Append full_name) ks)). rewrite run_chunk by auto. reflexivity.
Qed.
