(** Concrete sorting routine, key ring format and keys meeting the contracts of the external components, used only in
    examples and refutation witnesses. *)
From Coq Require Import String ZArith List Bool Lia Arith Permutation Sorted.
From Verif Require Import GoBase BaseFacts MerkleModel PointModel DirectoryModel DirectorySpec DirectoryProofs DirectoryProofs4.
Import ListNotations.
Open Scope Z_scope.
Open Scope go_scope.

(** Insertion sort, which is what sort.Slice does on at most twelve elements. *)
Fixpoint toy_insert (x : pkey) (l : list pkey) : list pkey :=
  match l with
  | [] => [x]
  | y :: t => if string_lt (k_id y) (k_id x) then x :: y :: t else y :: toy_insert x t
  end.
Definition toy_sort (l : list pkey) : list pkey := fold_left (fun acc x => toy_insert x acc) l [].

Lemma toy_insert_perm x l : Permutation (x :: l) (toy_insert x l).
Proof.
  induction l as [|y l IH]; cbn [toy_insert]; auto. destruct (string_lt _ _); auto.
  eapply Permutation_trans; [apply perm_swap|]. apply perm_skip. auto.
Qed.

Lemma string_le_trans a b c : string_lt a b = false -> string_lt b c = false -> string_lt a c = false.
Proof.
  intros AB BC. destruct (string_lt a c) eqn:AC; auto. destruct (string_lt c b) eqn:CB.
  - rewrite (string_lt_trans a c b) in AB; congruence.
  - pose proof (string_lt_antisym _ _ BC CB). subst c. congruence.
Qed.

Lemma toy_insert_sorted x l : StronglySorted (fun a b => string_lt (k_id a) (k_id b) = false) l ->
  StronglySorted (fun a b => string_lt (k_id a) (k_id b) = false) (toy_insert x l).
Proof.
  induction l as [|y l IH]; intros S; cbn [toy_insert]; [repeat constructor|].
  apply StronglySorted_inv in S as [S F]. destruct (string_lt (k_id y) (k_id x)) eqn:E.
  - assert (XY : string_lt (k_id x) (k_id y) = false).
    { destruct (string_lt (k_id x) (k_id y)) eqn:X; auto. pose proof (string_lt_trans _ _ _ E X) as C. rewrite string_lt_irrefl in C. discriminate. }
    constructor; [constructor; auto|]. constructor; auto. eapply Forall_impl; [|exact F]. cbv beta. intros z Hz. eapply string_le_trans; eauto.
  - constructor; auto. apply (Permutation_Forall (toy_insert_perm x l)). constructor; auto.
Qed.

Lemma toy_sort_ok : sorts toy_sort.
Proof.
  intros keys. unfold toy_sort.
  assert (G : forall l acc, StronglySorted (fun a b => string_lt (k_id a) (k_id b) = false) acc ->
    Permutation (acc ++ l) (fold_left (fun acc x => toy_insert x acc) l acc) /\
    StronglySorted (fun a b => string_lt (k_id a) (k_id b) = false) (fold_left (fun acc x => toy_insert x acc) l acc)).
  { induction l as [|x l IH]; intros acc S; cbn [fold_left]; [rewrite app_nil_r; auto|].
    destruct (IH (toy_insert x acc) (toy_insert_sorted x acc S)) as [P SS]. split; auto.
    eapply Permutation_trans; [|exact P]. eapply Permutation_trans; [apply Permutation_sym, Permutation_middle|].
    apply (Permutation_app_tail l (toy_insert_perm x acc)). }
  apply (G keys []). constructor.
Qed.

Definition toy_runtime : runtime := mkRuntime toy_sort (fun m => m) (fun m => m).
Definition toy_runtime' : runtime := mkRuntime toy_sort (@rev _) (@rev _).
Lemma toy_runtime_ok : runtime_ok toy_runtime.
Proof. repeat split; try apply toy_sort_ok; intros m; apply Permutation_refl. Qed.
Lemma toy_runtime'_ok : runtime_ok toy_runtime'.
Proof. repeat split; try apply toy_sort_ok; intros m; apply Permutation_rev. Qed.

(** strings.ToLower on ASCII *)
Definition ascii_lower (l : list Z) : list Z := map (fun b => if (65 <=? b) && (b <=? 90) then b + 32 else b) l.

(** A key ring format: every string is preceded by its length, every list of strings by its number of strings. *)
Definition enc_str (l : list Z) : list Z := zlen l :: l.
Definition enc_strs (l : list (list Z)) : list Z := zlen l :: concat (map enc_str l).
Definition toy_serialize (e : entity) : res (list Z) :=
  Ok (Z.of_nat (e_revocations e) :: e_created e :: enc_str (e_primary e) ++ enc_strs (e_emails e) ++ enc_strs (e_subkeys e) ++ enc_str (e_rest e)).
Definition dec_str (l : list Z) : list Z * list Z :=
  match l with
  | [] => ([], [])
  | n :: t => (firstn (Z.to_nat n) t, skipn (Z.to_nat n) t)
  end.
Fixpoint dec_n (n : nat) (l : list Z) : list (list Z) * list Z :=
  match n with
  | O => ([], l)
  | S n => let '(s, t) := dec_str l in let '(ss, t) := dec_n n t in (s :: ss, t)
  end.
Definition dec_strs (l : list Z) : list (list Z) * list Z :=
  match l with
  | [] => ([], [])
  | n :: t => dec_n (Z.to_nat n) t
  end.
Fixpoint toy_read_n (fuel : nat) (l : list Z) : list entity :=
  match fuel, l with
  | S fuel, r :: c :: l =>
    let '(p, l) := dec_str l in
    let '(em, l) := dec_strs l in
    let '(sk, l) := dec_strs l in
    let '(rest, l) := dec_str l in
    mkEntity (Z.to_nat r) p em c sk rest :: toy_read_n fuel l
  | _, _ => []
  end.
Definition toy_read (l : list Z) : res (list entity) := Ok (toy_read_n (length l) l).

Lemma dec_enc_str s t : dec_str (enc_str s ++ t) = (s, t).
Proof.
  unfold dec_str, enc_str, zlen. cbn [app]. rewrite Nat2Z.id.
  rewrite firstn_app_exact, skipn_app_exact by reflexivity. reflexivity.
Qed.
Lemma dec_enc_strs ss t : dec_strs (enc_strs ss ++ t) = (ss, t).
Proof.
  unfold dec_strs, enc_strs, zlen. cbn [app]. rewrite Nat2Z.id.
  induction ss as [|s ss IH]; cbn [length dec_n map concat app]; [reflexivity|].
  rewrite <- app_assoc, dec_enc_str, IH. reflexivity.
Qed.

Lemma toy_keyring : keyring_ok toy_serialize toy_read.
Proof.
  intros es bufs E. unfold toy_read. f_equal.
  assert (G : forall es bufs, mapM toy_serialize es = Ok bufs -> forall fuel, (length es <= fuel)%nat -> toy_read_n fuel (concat bufs) = es).
  { clear. induction es as [|e es IH]; intros bufs E fuel HF; cbn [mapM] in E.
    - injection E as <-. destruct fuel; reflexivity.
    - unfold toy_serialize at 1 in E. cbn [bind] in E. destruct (mapM toy_serialize es) as [bs| | |] eqn:Es; cbn [bind] in E; try discriminate.
      match type of E with Ok ?x = _ => assert (EB : bufs = x) by congruence end. subst bufs.
      destruct fuel as [|fuel]; [cbn in HF; lia|]. cbn [concat app toy_read_n].
      rewrite <- !app_assoc. rewrite dec_enc_str, !dec_enc_strs, dec_enc_str. rewrite Nat2Z.id. rewrite (IH bs eq_refl) by (cbn in HF; lia).
      destruct e; reflexivity. }
  apply G; auto. clear G. revert bufs E. induction es as [|e es IH]; intros bufs E; cbn [mapM] in E.
  - injection E as <-. auto.
  - unfold toy_serialize at 1 in E. cbn [bind] in E. destruct (mapM toy_serialize es) as [bs| | |] eqn:Es; cbn [bind] in E; try discriminate.
    injection E as <-. cbn [concat length app]. rewrite app_length. specialize (IH bs eq_refl). lia.
Qed.

(** A hash without any mixing: all identifiers fall into the first bucket. *)
Definition zero_hash : hash_fn := fun _ => repeat 0 32.
Lemma zero_hash_ok : MerkleSpec.hash_ok zero_hash.
Proof. intros x. split; [reflexivity|]. apply Forall_forall. intros z Hz. apply repeat_spec in Hz. subst. unfold is_byte, w8. lia. Qed.
