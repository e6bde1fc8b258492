(** Counting words over a finite alphabet. *)
From Coq Require Import String ZArith List Bool Lia Arith Permutation.
From Verif Require Import GoBase BaseFacts MatrixModel LWEModel LWESpec AmplifySpec.
Import ListNotations.
Open Scope Z_scope.

Definition below_count (q : Z) (P : Z -> bool) : Z := Z.of_nat (length (filter P (below q))).

Lemma below_in q x : In x (below q) <-> 0 <= x < q.
Proof.
  unfold below. rewrite in_map_iff. split.
  - intros (k & <- & I). apply in_seq in I. lia.
  - intros B. exists (Z.to_nat x). split; [lia|]. apply in_seq. lia.
Qed.
Lemma below_nodup q : NoDup (below q).
Proof. unfold below. apply FinFun.Injective_map_NoDup; [intros a b; lia|apply seq_NoDup]. Qed.
Lemma below_length q : 0 <= q -> Z.of_nat (length (below q)) = q.
Proof. intros. unfold below. rewrite map_length, seq_length. lia. Qed.

Lemma zsum_le {A} (f g : A -> Z) l : (forall x, In x l -> f x <= g x) -> zsum (map f l) <= zsum (map g l).
Proof.
  induction l as [|x l IH]; intros H; cbn [map zsum]; [lia|].
  pose proof (H x (or_introl eq_refl)). assert (zsum (map f l) <= zsum (map g l)) by (apply IH; intros; apply H; right; auto). lia.
Qed.
Lemma zsum_ext {A} (f g : A -> Z) l : (forall x, In x l -> f x = g x) -> zsum (map f l) = zsum (map g l).
Proof. intros H. f_equal. apply map_ext_in. exact H. Qed.
Lemma zsum_if {A} (P : A -> bool) (u v : Z) l :
  zsum (map (fun x => if P x then u else v) l) = u * Z.of_nat (length (filter P l)) + v * Z.of_nat (length (filter (fun x => negb (P x)) l)).
Proof.
  induction l as [|x l IH]; cbn [map zsum filter length]; [lia|]. rewrite IH. destruct (P x); cbn [negb length]; lia.
Qed.
Lemma filter_split {A} (P : A -> bool) l : (length (filter P l) + length (filter (fun x => negb (P x)) l) = length l)%nat.
Proof. induction l as [|x l IH]; cbn [filter length]; [lia|]. destruct (P x); cbn [negb length]; lia. Qed.

Lemma count_words_le q n : forall P Q, (forall l, length l = n -> Forall (fun x => 0 <= x < q) l -> P l = true -> Q l = true) ->
  count_words q n P <= count_words q n Q.
Proof.
  induction n as [|n IH]; intros P Q H; cbn [count_words].
  - specialize (H [] eq_refl ltac:(constructor)). destruct (P []), (Q []); try lia; try (specialize (H eq_refl); discriminate).
  - apply zsum_le. intros x I. apply IH. intros l L F. apply H; [cbn [length]; lia|]. constructor; [apply below_in; exact I|exact F].
Qed.
Lemma count_words_ext q n P Q : (forall l, length l = n -> Forall (fun x => 0 <= x < q) l -> P l = Q l) ->
  count_words q n P = count_words q n Q.
Proof.
  intros H. apply Z.le_antisymm; apply count_words_le; intros l L F E; specialize (H l L F); congruence.
Qed.
Lemma count_words_nonneg q n : forall P, 0 <= count_words q n P.
Proof.
  induction n as [|n IH]; intros P; cbn [count_words]; [destruct (P []); lia|].
  assert (G : forall l : list Z, 0 <= zsum (map (fun x => count_words q n (fun l => P (x :: l))) l)).
  { induction l as [|x l IHl]; cbn [map zsum]; [lia|]. specialize (IH (fun l => P (x :: l))). lia. }
  apply G.
Qed.
Lemma count_words_false q n : forall P, (forall l, length l = n -> P l = false) -> count_words q n P = 0.
Proof.
  induction n as [|n IH]; intros P H; cbn [count_words]; [rewrite H; reflexivity|].
  rewrite (zsum_ext _ (fun _ => 0)) by (intros; apply IH; intros; apply H; cbn; lia).
  induction (below q) as [|x l IHl]; cbn [map zsum]; lia.
Qed.

Lemma below_count_nonneg q P : 0 <= below_count q P. Proof. unfold below_count. lia. Qed.
Lemma below_count_compl q P : 0 <= q -> below_count q (fun x => negb (P x)) = q - below_count q P.
Proof. intros H. unfold below_count. pose proof (filter_split P (below q)). pose proof (below_length q H). lia. Qed.
Lemma below_count_le q P : 0 <= q -> below_count q P <= q.
Proof. intros H. pose proof (below_count_compl q P H). pose proof (below_count_nonneg q (fun x => negb (P x))). lia. Qed.
Lemma below_count_incl q P bad : (forall x, 0 <= x < q -> P x = true -> In x bad) -> below_count q P <= Z.of_nat (length bad).
Proof.
  intros H. unfold below_count. apply inj_le. apply NoDup_incl_length; [apply NoDup_filter, below_nodup|].
  intros x I. apply filter_In in I as [I E]. apply H; auto. apply below_in. exact I.
Qed.
Lemma below_count_ext q P Q : (forall x, 0 <= x < q -> P x = Q x) -> below_count q P = below_count q Q.
Proof.
  intros H. unfold below_count. f_equal. f_equal. apply filter_ext_in. intros x I. apply H. apply below_in. exact I.
Qed.

Lemma NoDup_app' {A} (l m : list A) : NoDup l -> NoDup m -> (forall x, In x l -> In x m -> False) -> NoDup (l ++ m).
Proof.
  induction 1 as [|x l N _ IH]; intros M D; cbn [app]; [exact M|]. constructor.
  - intros I. apply in_app_or in I as [I|I]; [auto|]. eapply D; [left; reflexivity|exact I].
  - apply IH; [exact M|]. intros y I J. eapply D; [right; exact I|exact J].
Qed.

Lemma NoDup_map_in {A B} (f : A -> B) l : (forall a b, In a l -> In b l -> f a = f b -> a = b) -> NoDup l -> NoDup (map f l).
Proof.
  intros I. induction 1 as [|x l N _ IH]; cbn [map]; constructor.
  - intros J. apply in_map_iff in J as (y & E & J). apply N. rewrite (I x y); [exact J|left; reflexivity|right; exact J|congruence].
  - apply IH. intros a b Ia Ib. apply I; right; assumption.
Qed.

(** a shift modulo q does not change a count *)
Lemma filter_map_length {A B} (f : A -> B) P l : length (filter P (map f l)) = length (filter (fun x => P (f x)) l).
Proof. induction l as [|x l IH]; cbn [map filter]; [reflexivity|]. destruct (P (f x)); cbn [length]; lia. Qed.
Lemma perm_filter_length {A} (P : A -> bool) l l' : Permutation l l' -> length (filter P l) = length (filter P l').
Proof.
  induction 1 as [|x l l' _ IH|x y l|l l' l'' _ IH1 _ IH2]; cbn [filter]; auto.
  - destruct (P x); cbn [length]; lia.
  - destruct (P x), (P y); reflexivity.
  - congruence.
Qed.
Lemma below_shift q n : 0 < q -> Permutation (map (fun x => (n + x) mod q) (below q)) (below q).
Proof.
  intros H. apply NoDup_Permutation_bis.
  - apply NoDup_map_in; [|apply below_nodup].
    intros a b Ia Ib E. apply below_in in Ia, Ib. assert (G : (a - b) mod q = 0).
    { replace (a - b) with ((n + a) - (n + b)) by lia. rewrite Zminus_mod, E, Z.sub_diag. reflexivity. }
    apply Z.mod_divide in G; [|lia]. destruct G as [k G]. assert (k = 0) by nia. lia.
  - rewrite map_length. lia.
  - intros y I. apply in_map_iff in I as (x & <- & _). apply below_in. apply Z.mod_pos_bound. exact H.
Qed.
Lemma below_count_shift q n P : 0 < q -> below_count q (fun x => P ((n + x) mod q)) = below_count q P.
Proof.
  intros H. unfold below_count. f_equal. rewrite <- (filter_map_length (fun x => (n + x) mod q) P).
  apply perm_filter_length. apply below_shift. exact H.
Qed.
Lemma below_count_interval q a b P : 0 <= a -> a + b <= q -> 0 <= b -> (forall v, 0 <= v < q -> P v = true <-> v < a \/ q - b <= v) ->
  below_count q P = a + b.
Proof.
  intros Ha Hq Hb H. apply Z.le_antisymm.
  - pose (bad := below a ++ map (fun x => q - b + x) (below b)).
    assert (L : Z.of_nat (length bad) = a + b) by (unfold bad; rewrite app_length, map_length, Nat2Z.inj_add, !below_length; lia).
    rewrite <- L. apply below_count_incl. intros x B E. apply H in E; [|exact B]. unfold bad. apply in_or_app.
    destruct E as [E|E]; [left; apply below_in; lia|right]. apply in_map_iff. exists (x - (q - b)). split; [lia|apply below_in; lia].
  - pose (good := below a ++ map (fun x => q - b + x) (below b)).
    assert (L : Z.of_nat (length good) = a + b) by (unfold good; rewrite app_length, map_length, Nat2Z.inj_add, !below_length; lia).
    rewrite <- L. unfold below_count. apply inj_le. apply NoDup_incl_length.
    + unfold good. apply NoDup_app'; [apply below_nodup|apply FinFun.Injective_map_NoDup; [intros u v; lia|apply below_nodup]|].
      intros x I J. apply below_in in I. apply in_map_iff in J as (y & <- & J). apply below_in in J. lia.
    + intros x I. apply filter_In. unfold good in I. apply in_app_or in I.
      assert (B : 0 <= x < q /\ (x < a \/ q - b <= x)).
      { destruct I as [I|I]; [apply below_in in I; lia|]. apply in_map_iff in I as (y & <- & J). apply below_in in J. lia. }
      split; [apply below_in; lia|]. apply H; lia.
Qed.

(** ** words whose symbols satisfy one predicate each *)
Fixpoint all_hold (Ps : list (Z -> bool)) (l : list Z) : bool :=
  match Ps, l with
  | P :: Ps', x :: l' => P x && all_hold Ps' l'
  | _, _ => true
  end.
Fixpoint zprod (l : list Z) : Z := match l with [] => 1 | x :: t => x * zprod t end.
Lemma count_all q : forall Ps, count_words q (length Ps) (all_hold Ps) = zprod (map (below_count q) Ps).
Proof.
  induction Ps as [|P Ps IH]; cbn [length count_words map zprod all_hold]; [reflexivity|].
  rewrite (zsum_ext _ (fun x => if P x then zprod (map (below_count q) Ps) else 0)).
  - rewrite zsum_if. unfold below_count at 2. lia.
  - intros x _. destruct (P x); [exact IH|]. apply count_words_false. reflexivity.
Qed.

(** ** words with at least k hits *)
Fixpoint num_hold (Ps : list (Z -> bool)) (l : list Z) : nat :=
  match Ps, l with
  | P :: Ps', x :: l' => ((if P x then 1 else 0) + num_hold Ps' l')%nat
  | _, _ => O
  end.

Lemma choose_nonneg n : forall k, 0 <= choose n k.
Proof. induction n as [|n IH]; intros [|k]; cbn [choose]; try lia. pose proof (IH k). pose proof (IH (S k)). lia. Qed.
Lemma choose_over n : forall k, (n < k)%nat -> choose n k = 0.
Proof. induction n as [|n IH]; intros [|k] H; cbn [choose]; try lia. rewrite !IH by lia. reflexivity. Qed.

Lemma count_step q n P (F : bool -> list Z -> bool) :
  zsum (map (fun x => count_words q n (fun l => F (P x) l)) (below q)) =
  below_count q P * count_words q n (F true) + below_count q (fun x => negb (P x)) * count_words q n (F false).
Proof.
  rewrite (zsum_ext _ (fun x => if P x then count_words q n (F true) else count_words q n (F false))).
  - rewrite zsum_if. unfold below_count. lia.
  - intros x _. destruct (P x); reflexivity.
Qed.

Lemma count_at_least q h : 0 <= q -> forall Ps k, Forall (fun P => below_count q P <= h) Ps ->
  count_words q (length Ps) (fun l => (k <=? num_hold Ps l)%nat) <= choose (length Ps) k * h ^ Z.of_nat k * q ^ Z.of_nat (length Ps - k).
Proof.
  intros Hq. induction Ps as [|P Ps IH]; intros k F.
  - destruct k; cbn; lia.
  - inversion F as [|? ? HP F']; subst. assert (Hh : 0 <= h) by (pose proof (below_count_nonneg q P); lia).
    cbn [length count_words num_hold].
    rewrite (count_step q (length Ps) P (fun b l => (k <=? (if b then 1 else 0) + num_hold Ps l)%nat)). cbv beta iota.
    pose proof (below_count_nonneg q P) as P0. pose proof (below_count_compl q P Hq) as PC.
    destruct k as [|k].
    + change (fun l => (0 <=? 0 + num_hold Ps l)%nat) with (fun l => (0 <=? num_hold Ps l)%nat). specialize (IH 0%nat F'). rewrite Z.pow_0_r, Nat.sub_0_r in *.
      rewrite (count_words_ext q (length Ps) (fun l => (0 <=? 1 + num_hold Ps l)%nat) (fun l => (0 <=? num_hold Ps l)%nat)) by reflexivity.
      set (c := count_words q (length Ps) (fun l => (0 <=? num_hold Ps l)%nat)) in *.
      replace (choose (length Ps) 0) with 1 in IH by (destruct (length Ps); reflexivity). cbn [choose].
      rewrite Nat2Z.inj_succ, Z.pow_succ_r by lia. nia.
    + pose proof (IH k F') as I1. pose proof (IH (S k) F') as I2.
      rewrite (count_words_ext q (length Ps) (fun l => (S k <=? 1 + num_hold Ps l)%nat) (fun l => (k <=? num_hold Ps l)%nat)) by reflexivity.
      change (fun l => (S k <=? 0 + num_hold Ps l)%nat) with (fun l => (S k <=? num_hold Ps l)%nat).
      set (c1 := count_words q (length Ps) (fun l => (k <=? num_hold Ps l)%nat)) in *.
      set (c2 := count_words q (length Ps) (fun l => (S k <=? num_hold Ps l)%nat)) in *.
      assert (0 <= c1) by apply count_words_nonneg. assert (0 <= c2) by apply count_words_nonneg.
      cbn [choose]. replace (S (length Ps) - S k)%nat with (length Ps - k)%nat by lia.
      apply Z.le_trans with (h * c1 + q * c2). { nia. }
      assert (A1 : h * c1 <= choose (length Ps) k * h ^ Z.of_nat (S k) * q ^ Z.of_nat (length Ps - k)).
      { rewrite Nat2Z.inj_succ, Z.pow_succ_r by lia. nia. }
      assert (A2 : q * c2 <= choose (length Ps) (S k) * h ^ Z.of_nat (S k) * q ^ Z.of_nat (length Ps - k)).
      { destruct (Nat.le_gt_cases (S k) (length Ps)) as [L|L].
        - replace (Z.of_nat (length Ps - k)) with (Z.succ (Z.of_nat (length Ps - S k))) by lia. rewrite Z.pow_succ_r by lia. nia.
        - rewrite choose_over in I2 |- * by exact L. nia. }
      nia.
Qed.

Lemma count_exactly q h : 0 <= q -> forall Ps k, Forall (fun P => below_count q P = h) Ps ->
  count_words q (length Ps) (fun l => (num_hold Ps l =? k)%nat) = choose (length Ps) k * h ^ Z.of_nat k * (q - h) ^ Z.of_nat (length Ps - k).
Proof.
  intros Hq. induction Ps as [|P Ps IH]; intros k F.
  - destruct k; cbn; lia.
  - inversion F as [|? ? HP F']; subst. cbn [length count_words num_hold].
    rewrite (count_step q (length Ps) P (fun b l => ((if b then 1 else 0) + num_hold Ps l =? k)%nat)). cbv beta iota.
    rewrite (below_count_compl q P Hq). set (h := below_count q P) in *.
    destruct k as [|k].
    + rewrite (count_words_false q (length Ps) (fun l => (1 + num_hold Ps l =? 0)%nat)) by reflexivity.
      change (fun l => (0 + num_hold Ps l =? 0)%nat) with (fun l => (num_hold Ps l =? 0)%nat). rewrite (IH 0%nat F').
      rewrite !Nat.sub_0_r. replace (choose (length Ps) 0) with 1 by (destruct (length Ps); reflexivity). cbn [choose].
      rewrite Nat2Z.inj_succ, Z.pow_succ_r by lia. lia.
    + change (fun l => (1 + num_hold Ps l =? S k)%nat) with (fun l => (num_hold Ps l =? k)%nat).
      change (fun l => (0 + num_hold Ps l =? S k)%nat) with (fun l => (num_hold Ps l =? S k)%nat).
      rewrite (IH k F'), (IH (S k) F'). cbn [choose]. replace (S (length Ps) - S k)%nat with (length Ps - k)%nat by lia.
      rewrite Nat2Z.inj_succ, Z.pow_succ_r by lia.
      destruct (Nat.le_gt_cases (S k) (length Ps)) as [L|L].
      * replace (Z.of_nat (length Ps - k)) with (Z.succ (Z.of_nat (length Ps - S k))) by lia. rewrite (Z.pow_succ_r (q - h)) by lia. ring.
      * rewrite (choose_over _ (S k)) by exact L. ring.
Qed.
