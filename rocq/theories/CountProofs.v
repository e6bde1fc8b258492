(** Proofs about the numbers computed from published dumps. *)
From Coq Require Import String ZArith List Bool Arith Lia Permutation Sorted.
From Verif Require Import GoBase BaseFacts MerkleModel MerkleSpec MerkleProofs PointModel PointSpec DirectoryModel DirectorySpec
  FrontendModel KeyPageModel KeyPageSpec SessionSpec FilesModel FilesSpec EndToEndSpec EndToEndProofs CountSpec.
Import ListNotations.
Open Scope Z_scope.
Open Scope go_scope.

Lemma serialize_inj serialize read e e' buf : keyring_ok serialize read -> serialize e = Ok buf -> serialize e' = Ok buf -> e = e'.
Proof.
  intros K E E'. assert (X : read (concat [buf]) = Ok [e]) by (apply K; cbn [mapM]; rewrite E; reflexivity).
  assert (Y : read (concat [buf]) = Ok [e']) by (apply K; cbn [mapM]; rewrite E'; reflexivity). congruence.
Qed.

Lemma mapM_zip {A B} (f : A -> res B) : forall l l', mapM f l = Ok l' -> Forall2 (fun a b => f a = Ok b) l l'.
Proof.
  induction l as [|a l IH]; intros l' E; cbn [mapM] in E.
  - injection E as <-. constructor.
  - destruct (f a) as [b| | |] eqn:F; cbn [bind] in E; try discriminate. destruct (mapM f l) as [bs| | |]; cbn [bind] in E; try discriminate.
    injection E as <-. constructor; auto.
Qed.

Lemma read_pairs G : forall keys rows, keys_read G keys rows ->
  Forall2 (fun k e => primary_email (g_lower G) e = k_id k /\ g_serialize G e = Ok (k_packet k)) keys rows.
Proof.
  intros keys rows (E & M). apply mapM_zip in M. revert keys E M. induction rows as [|e rows IH]; intros [|k keys] E M; cbn [map] in *; try discriminate; try (inversion M; fail); constructor.
  - inversion M; subst. split; congruence.
  - inversion M; subst. apply IH; auto. congruence.
Qed.

Lemma forall2_in_l {A B} (R : A -> B -> Prop) l l' : Forall2 R l l' -> forall a, In a l -> exists b, In b l' /\ R a b.
Proof. induction 1 as [|x y l l' X F IH]; intros a [].
  - subst. exists y. split; [left|]; auto.
  - destruct (IH a H) as (b & I & Rb). exists b. split; [right|]; auto.
Qed.
Lemma forall2_in_r {A B} (R : A -> B -> Prop) l l' : Forall2 R l l' -> forall b, In b l' -> exists a, In a l /\ R a b.
Proof. induction 1 as [|x y l l' X F IH]; intros b [].
  - subst. exists x. split; [left|]; auto.
  - destruct (IH b H) as (a & I & Rb). exists a. split; [right|]; auto.
Qed.

(** the rows of the servers are the current keys without their subkeys *)
Lemma rows_current G es keys rows people : keyring_ok (g_serialize G) (g_read G) -> directory_of_dump G es keys -> keys_read G keys rows -> current G es people ->
  Permutation (map primary_only people) rows.
Proof.
  intros KR ((ND & _) & DK) RD (NP & CP). pose proof (read_pairs _ _ _ RD) as F2. apply NoDup_Permutation.
  - apply (NoDup_map_inv (primary_email (g_lower G))). rewrite map_map. exact NP.
  - apply (NoDup_map_inv (primary_email (g_lower G))). rewrite (proj1 RD). exact ND.
  - intros e'. split; intros I.
    + apply in_map_iff in I as (e & <- & I). apply CP in I as (NE & Fr & packet & S & Z).
      assert (IK : In (mkKey (primary_email (g_lower G) e) packet) keys) by (apply DK; split; eauto).
      destruct (forall2_in_l _ _ _ F2 _ IK) as (r & IR & _ & Sr). cbn [k_packet] in Sr. rewrite (serialize_inj _ _ _ _ _ KR S Sr). exact IR.
    + destruct (forall2_in_r _ _ _ F2 _ I) as ([email packet] & IK & Em & Se). cbn [k_id k_packet] in *. apply DK in IK as (NE & e & Fr & S & Z).
      apply in_map_iff. exists e. split; [apply (serialize_inj _ _ _ _ _ KR S Se)|]. apply CP.
      assert (X : primary_email (g_lower G) e = email).
      { destruct Fr as (b & a & EC & _). assert (J : In e (candidates (g_lower G) es email)) by (rewrite EC; apply in_or_app; right; left; auto).
        apply filter_In in J as [_ J]. apply andb_true_iff in J as [_ J]. apply bytes_equal_spec in J. exact J. }
      rewrite X. split; [exact NE|]. split; eauto.
Qed.

Lemma filter_perm {A} (f : A -> bool) l l' : Permutation l l' -> Permutation (filter f l) (filter f l').
Proof.
  induction 1 as [|x l l' P IH|x y l|l l' l'' P IH P' IH']; cbn [filter].
  - constructor.
  - destruct (f x); [constructor|]; exact IH.
  - destruct (f x), (f y); try apply Permutation_refl. constructor.
  - eapply Permutation_trans; eauto.
Qed.

Lemma count_current (p : list Z -> bool) people rows : Permutation (map primary_only people) rows ->
  zlen (filter (fun e => p (e_primary e)) rows) = zlen (filter (fun e => p (e_primary e)) people).
Proof.
  intros P. unfold zlen. f_equal. rewrite <- (Permutation_length (filter_perm (fun e => p (e_primary e)) _ _ P)). clear P.
  induction people as [|e l IH]; cbn [map filter]; auto. change (e_primary (primary_only e)) with (e_primary e). destruct (p (e_primary e)); cbn [length]; auto.
Qed.
