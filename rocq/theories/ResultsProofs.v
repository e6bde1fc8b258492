(** Proofs for ResultsModel.v. *)
From Coq Require Import String ZArith QArith List Bool Lia Permutation Sorted.
From Verif Require Import GoBase FrontendModel FrontendProofs LogModel BenchModel ResultsModel ResultsSpec.
Import ListNotations.
Open Scope Z_scope.
Open Scope go_scope.

(** ** JSON *)

Section JsonInd.
  Variable P : json -> Prop.
  Hypothesis HN : P JNull.
  Hypothesis HU : forall t, P (JNum t).
  Hypothesis HS : forall s, P (JStr s).
  Hypothesis HA : forall l, Forall P l -> P (JArr l).
  Hypothesis HO : forall l, Forall (fun kv => P (snd kv)) l -> P (JObj l).
  Fixpoint json_ind' (j : json) : P j :=
    match j with
    | JNull => HN
    | JNum t => HU t
    | JStr s => HS s
    | JArr l => HA l ((fix go l := match l return Forall P l with [] => Forall_nil _ | x :: t => Forall_cons x (json_ind' x) (go t) end) l)
    | JObj l => HO l ((fix go l := match l return Forall (fun kv => P (snd kv)) l with
                                   | [] => Forall_nil _ | x :: t => Forall_cons x (json_ind' (snd x)) (go t) end) l)
    end.
End JsonInd.

Definition str_ok (s : list Z) : Prop := Forall (fun c => (negb (c =? 34) && negb (c =? 92)) = true) s.
Inductive json_ok : json -> Prop :=
| ok_null : json_ok JNull
| ok_num t : t <> [] -> Forall (fun c => number_char c = true) t -> json_ok (JNum t)
| ok_str s : str_ok s -> json_ok (JStr s)
| ok_arr l : Forall json_ok l -> json_ok (JArr l)
| ok_obj l : Forall (fun kv => str_ok (fst kv) /\ json_ok (snd kv)) l -> json_ok (JObj l).

Fixpoint jsize (j : json) : nat :=
  match j with
  | JArr l => S (list_sum (map (fun x => S (jsize x)) l))
  | JObj l => S (list_sum (map (fun kv => S (jsize (snd kv))) l))
  | _ => 1%nat
  end.

Definition stops (rest : list Z) : Prop := match rest with [] => True | c :: _ => number_char c = false end.

Lemma span_all f a rest : Forall (fun c => f c = true) a -> match rest with [] => True | c :: _ => f c = false end -> span f (a ++ rest) = (a, rest).
Proof.
  induction 1 as [|c a H _ IH]; intros R.
  - cbn [app]. destruct rest as [|c t]; [reflexivity|]. cbn [span]. rewrite R. reflexivity.
  - cbn [app span]. rewrite H, IH; auto.
Qed.
Lemma string_read k t : str_ok k -> json_string (k ++ 34 :: t) = Some (k, t).
Proof. intros H. unfold json_string. rewrite (span_all _ k (34 :: t)); auto. Qed.

Lemma number_head c : number_char c = true -> c <> 110 /\ c <> 34 /\ c <> 91 /\ c <> 123 /\ c <> 93 /\ c <> 125.
Proof. intros H. repeat split; intros ->; discriminate H. Qed.

Lemma text_head j : json_ok j -> exists c t, json_text j = c :: t /\ c <> 93 /\ c <> 125.
Proof.
  destruct 1 as [|t N F|s F|l F|l F].
  - exists 110, (lit "ull"). split; [reflexivity|]; lia.
  - destruct t as [|c t]; [congruence|]. inversion F; subst. exists c, t. split; auto. apply number_head in H1. tauto.
  - exists 34, (s ++ [34]). split; auto; lia.
  - exists 91, (commas (map json_text l) ++ [93]). split; auto; lia.
  - eexists 123, _. split; [reflexivity|]; lia.
Qed.

Lemma commas_cons x l : l <> [] -> commas (x :: l) = x ++ 44 :: commas l.
Proof. destruct l; [congruence|reflexivity]. Qed.

Definition reads_back (j : json) : Prop := json_ok j -> forall f rest, stops rest -> (jsize j <= f)%nat -> json_value f (json_text j ++ rest) = Some (j, rest).

Lemma elements_read l : l <> [] -> Forall reads_back l -> Forall json_ok l -> forall f rest, (list_sum (map (fun x => S (jsize x)) l) <= f)%nat ->
  json_elements f (commas (map json_text l) ++ 93 :: rest) = Some (l, rest).
Proof.
  induction l as [|x l IH]; intros N R O f rest B; [congruence|]. inversion R as [|? ? R1 R2]; inversion O as [|? ? O1 O2]; subst.
  change (list_sum (map (fun x => S (jsize x)) (x :: l))) with (S (jsize x) + list_sum (map (fun x => S (jsize x)) l))%nat in B.
  destruct f as [|f]; [lia|]. destruct l as [|y l].
  - cbn [map commas]. cbn [json_elements]. rewrite R1; [|assumption|reflexivity|lia]. reflexivity.
  - cbn [map]. rewrite commas_cons by discriminate. rewrite <- app_assoc. cbn [app]. cbn [json_elements]. rewrite R1; [|assumption|reflexivity|lia].
    change (json_text y :: map json_text l) with (map json_text (y :: l)). rewrite IH; auto; [congruence|lia].
Qed.
Lemma members_read l : l <> [] -> Forall (fun kv => reads_back (snd kv)) l -> Forall (fun kv => str_ok (fst kv) /\ json_ok (snd kv)) l ->
  forall f rest, (list_sum (map (fun kv : list Z * json => S (jsize (snd kv))) l) <= f)%nat ->
  json_members f (commas (map (fun kv => 34 :: fst kv ++ 34 :: 58 :: json_text (snd kv)) l) ++ 125 :: rest) = Some (l, rest).
Proof.
  induction l as [|[k x] l IH]; intros N R O f rest B; [congruence|]. inversion R as [|? ? R1 R2]; inversion O as [|? ? [O1 O1'] O2]; subst.
  cbn [fst snd] in *.
  change (list_sum (map (fun kv : list Z * json => S (jsize (snd kv))) ((k, x) :: l))) with (S (jsize x) + list_sum (map (fun kv : list Z * json => S (jsize (snd kv))) l))%nat in B.
  destruct f as [|f]; [lia|]. destruct l as [|y l].
  - cbn [map commas fst snd app]. cbn [json_members]. rewrite <- app_assoc. cbn [app]. rewrite string_read by auto. rewrite R1; [|assumption|reflexivity|lia]. reflexivity.
  - cbn [map]. rewrite commas_cons by discriminate. cbn [fst snd app json_members]. repeat (rewrite <- app_assoc; cbn [app]). rewrite string_read by auto.
    rewrite R1; [|assumption|reflexivity|lia].
    change ((34 :: fst y ++ 34 :: 58 :: json_text (snd y)) :: map (fun kv => 34 :: fst kv ++ 34 :: 58 :: json_text (snd kv)) l) with
      (map (fun kv : list Z * json => 34 :: fst kv ++ 34 :: 58 :: json_text (snd kv)) (y :: l)). rewrite IH; auto; [congruence|lia].
Qed.

Lemma value_read j : reads_back j.
Proof.
  induction j as [|t|s|l IH|l IH] using json_ind'; intros O f rest ST B; (destruct f as [|f]; [cbn in B; lia|]).
  - reflexivity.
  - inversion O as [|? N F| | |]; subst. cbn [json_text].
    assert (SP : span number_char (t ++ rest) = (t, rest)) by (apply span_all; auto).
    destruct t as [|c t]; [congruence|]. cbn [app] in *. inversion F as [|? ? F1 _]; subst. apply number_head in F1 as (A1 & A2 & A3 & A4 & _).
    cbn [json_value]. apply Z.eqb_neq in A1, A2, A3, A4. rewrite A1, A2, A3, A4. rewrite SP. reflexivity.
  - inversion O as [| |? F| |]; subst. cbn [json_text app json_value Z.eqb Pos.eqb]. rewrite <- app_assoc. cbn [app]. rewrite string_read; auto.
  - inversion O as [| | |? F|]; subst. cbn [json_text app json_value Z.eqb Pos.eqb]. rewrite <- app_assoc. cbn [app].
    destruct l as [|x l]; [reflexivity|]. 
    assert (E : json_elements f (commas (map json_text (x :: l)) ++ 93 :: rest) = Some (x :: l, rest)).
    { apply elements_read; auto; [discriminate|]. cbn [jsize] in B. lia. }
    inversion F as [|? ? F1 _]; subst. destruct (text_head x F1) as (c & t & HT & C1 & _).
    assert (HD : exists t', commas (map json_text (x :: l)) ++ 93 :: rest = c :: t').
    { cbn [map]. destruct l; [cbn [map commas]|cbn [map]; rewrite commas_cons by discriminate]; rewrite HT; cbn [app]; eauto. }
    destruct HD as (t' & HD). rewrite HD in E |- *. rewrite E.
    destruct c as [|c|c]; try reflexivity. do 7 (destruct c as [c|c|]; try reflexivity). congruence.
  - inversion O as [| | | |? F]; subst. cbn [json_text app json_value Z.eqb Pos.eqb]. rewrite <- app_assoc. cbn [app].
    destruct l as [|x l]; [reflexivity|].
    assert (E : json_members f (commas (map (fun kv => 34 :: fst kv ++ 34 :: 58 :: json_text (snd kv)) (x :: l)) ++ 125 :: rest) = Some (x :: l, rest)).
    { apply members_read; auto; [discriminate|]. cbn [jsize] in B. lia. }
    assert (HD : exists t', commas (map (fun kv => 34 :: fst kv ++ 34 :: 58 :: json_text (snd kv)) (x :: l)) ++ 125 :: rest = 34 :: t').
    { cbn [map]. destruct l; [cbn [map commas]|cbn [map]; rewrite commas_cons by discriminate]; cbn [app]; eauto. }
    destruct HD as (t' & HD). rewrite HD in E |- *. rewrite E. reflexivity.
Qed.

Lemma size_bound j : json_ok j -> (jsize j <= length (json_text j))%nat.
Proof.
  induction j as [|t|s|l IH|l IH] using json_ind'; intros O.
  - cbn. lia.
  - inversion O; subst. destruct t; [congruence|cbn; lia].
  - cbn. lia.
  - inversion O as [| | |? F|]; subst. cbn [jsize json_text length]. rewrite app_length. cbn [length].
    assert (H : (list_sum (map (fun x => S (jsize x)) l) <= length (commas (map json_text l)) + 1)%nat); [|lia].
    clear O. induction l as [|x l IHl]; [cbn; lia|]. inversion IH as [|? ? I1 I2]; inversion F as [|? ? F1 F2]; subst.
    cbn [map]. change (list_sum (S (jsize x) :: ?r)) with (S (jsize x) + list_sum r)%nat. specialize (I1 F1). specialize (IHl I2 F2).
    destruct l as [|y l]; [cbn; lia|]. cbn [map] in *. rewrite commas_cons by discriminate. rewrite app_length. cbn [length]. lia.
  - inversion O as [| | | |? F]; subst. cbn [jsize json_text length]. rewrite app_length. cbn [length].
    set (g := fun kv : list Z * json => 34 :: fst kv ++ 34 :: 58 :: json_text (snd kv)) in *.
    assert (H : (list_sum (map (fun kv : list Z * json => S (jsize (snd kv))) l) <= length (commas (map g l)) + 1)%nat); [|lia].
    clear O. induction l as [|x l IHl]; [cbn; lia|]. inversion IH as [|? ? I1 I2]; inversion F as [|? ? [_ F1] F2]; subst.
    cbn [map]. change (list_sum (S (jsize (snd x)) :: ?r)) with (S (jsize (snd x)) + list_sum r)%nat. specialize (I1 F1). specialize (IHl I2 F2).
    assert (L : (jsize (snd x) <= length (g x))%nat). { unfold g. cbn [length]. rewrite app_length. cbn [length]. lia. }
    destruct l as [|y l]; [cbn [map commas list_sum fold_right]; lia|]. cbn [map] in *. rewrite commas_cons by discriminate. rewrite app_length. cbn [length]. lia.
Qed.

Theorem load_text j : json_ok j -> json_load (json_text j) = Ok j.
Proof. intros O. unfold json_load. pose proof (value_read j O (length (json_text j)) [] I (size_bound j O)) as H. rewrite app_nil_r in H. rewrite H. reflexivity. Qed.

(** ** Sorting *)

Section Sort.
  Context {A : Type} (le : A -> A -> bool).
  Lemma insert_perm x l : Permutation (insert le x l) (x :: l).
  Proof. induction l as [|y l IH]; cbn [insert]; [reflexivity|]. destruct (le x y); [reflexivity|]. rewrite IH. apply perm_swap. Qed.
  Lemma sort_perm l : Permutation (sort le l) l.
  Proof. induction l as [|x l IH]; cbn [sort fold_right]; [reflexivity|]. rewrite insert_perm. constructor. exact IH. Qed.
  Hypothesis tot : forall x y, le x y = false -> le y x = true.
  Hypothesis tr : forall x y z, le x y = true -> le y z = true -> le x z = true.
  Lemma insert_sorted x l : StronglySorted (fun a b => le a b = true) l -> StronglySorted (fun a b => le a b = true) (insert le x l).
  Proof.
    induction 1 as [|y l H IH F]; cbn [insert]; [repeat constructor|]. destruct (le x y) eqn:E.
    - constructor; [constructor; auto|]. constructor; auto. eapply Forall_impl; [|exact F]. cbv beta. eauto.
    - constructor; auto. rewrite Forall_forall in F |- *. intros z I. apply (Permutation_in _ (insert_perm x l)) in I as [<-|I]; auto.
  Qed.
  Lemma sort_sorted l : StronglySorted (fun a b => le a b = true) (sort le l).
  Proof. induction l; cbn [sort fold_right]; [constructor|]. apply insert_sorted; auto. Qed.
End Sort.
Lemma sorted_app {A} (R : A -> A -> Prop) l1 l2 : StronglySorted R (l1 ++ l2) -> (forall x y, In x l1 -> In y l2 -> R x y) /\ StronglySorted R l2.
Proof.
  induction l1 as [|a l1 IH]; cbn [app]; intros H; [split; auto; intros ? ? []|]. inversion H as [|? ? H1 H2]; subst. destruct (IH H1) as (X & Y). split; auto.
  intros x y [<-|I] J; auto. rewrite Forall_forall in H2. apply H2, in_or_app. auto.
Qed.
Lemma sorted_perm_eq {A} (R : A -> A -> Prop) (anti : forall x y, R x y -> R y x -> x = y) l1 : forall l2,
  StronglySorted R l1 -> StronglySorted R l2 -> Permutation l1 l2 -> l1 = l2.
Proof.
  induction l1 as [|x l1 IH]; intros l2 S1 S2 P; [apply Permutation_nil in P; auto|]. destruct l2 as [|y l2]; [symmetry in P; apply Permutation_nil in P; discriminate|].
  inversion S1 as [|? ? S1' F1]; inversion S2 as [|? ? S2' F2]; subst. rewrite Forall_forall in F1, F2.
  assert (x = y).
  { assert (I1 : In x (y :: l2)) by (apply (Permutation_in _ P); left; auto). assert (I2 : In y (x :: l1)) by (apply (Permutation_in _ (Permutation_sym P)); left; auto).
    destruct I1 as [->|I1]; auto. destruct I2 as [->|I2]; auto. }
  subst. f_equal. apply IH; auto. eapply Permutation_cons_inv; eauto.
Qed.
Lemma q_total x y : Qle_bool x y = false -> Qle_bool y x = true.
Proof. intros H. apply Qle_bool_iff. destruct (Qlt_le_dec y x) as [L|L]; [apply Qlt_le_weak; auto|]. apply Qle_bool_iff in L. congruence. Qed.
Lemma q_trans x y z : Qle_bool x y = true -> Qle_bool y z = true -> Qle_bool x z = true.
Proof. rewrite !Qle_bool_iff. apply Qle_trans. Qed.

(** ** The median *)

Lemma nth_split_at {A} (d : A) l k : (k < length l)%nat -> l = firstn k l ++ [nth k l d] ++ skipn (S k) l.
Proof.
  revert k. induction l as [|x l IH]; intros [|k] H; cbn [length] in H; try lia; cbn [firstn nth skipn app]; [reflexivity|].
  f_equal. apply IH. lia.
Qed.
Lemma median_middle l m : median l = Some m -> middle l m.
Proof.
  unfold median. pose proof (sort_perm Qle_bool l) as P. pose proof (sort_sorted Qle_bool q_total q_trans l) as SS.
  set (s := sort Qle_bool l) in *. destruct (length s) as [|n0] eqn:E; [discriminate|]. set (n := S n0) in *.
  destruct (Nat.even n) eqn:EV; intros M; injection M as <-.
  - apply Nat.even_spec in EV as (k & K). destruct k as [|k]; [lia|].
    assert (D : (n / 2 = S k)%nat) by (rewrite K, Nat.mul_comm; apply Nat.div_mul; lia). rewrite D. replace (S k - 1)%nat with k by lia.
    pose proof (nth_split_at 0%Q s k ltac:(lia)) as S1.
    pose proof (nth_split_at 0%Q (skipn (S k) s) 0 ltac:(rewrite skipn_length; lia)) as S2. cbn [firstn app] in S2.
    assert (NX : nth 0 (skipn (S k) s) 0%Q = nth (S k) s 0%Q).
    { rewrite <- (firstn_skipn (S k) s) at 2. rewrite app_nth2; rewrite firstn_length; [|lia]. replace (S k - Nat.min (S k) (length s))%nat with 0%nat by lia. reflexivity. }
    rewrite NX in S2. rewrite S2 in S1. remember (nth k s 0%Q) as x. remember (nth (S k) s 0%Q) as y.
    exists (firstn k s), [x; y], (skipn 1 (skipn (S k) s)).
    change ([x] ++ y :: skipn 1 (skipn (S k) s)) with ([x; y] ++ skipn 1 (skipn (S k) s)) in S1.
    rewrite S1 in SS. destruct (sorted_app _ _ _ SS) as (H1 & SS2). destruct (sorted_app _ _ _ SS2) as (H2 & _).
    split; [rewrite <- S1; symmetry; exact P|]. split; [rewrite firstn_length, !skipn_length; lia|].
    split; [intros a b Ha Hb; apply Qle_bool_iff, H1; auto; apply in_or_app; auto|].
    split; [intros a b Ha Hb; apply Qle_bool_iff, H2; auto|]. right. exists x, y. split; auto. split; [|reflexivity].
    apply Qle_bool_iff. inversion SS2 as [|? ? _ F]; subst. inversion F; auto.
  - assert (OD : Nat.odd n = true) by (unfold Nat.odd; rewrite EV; reflexivity). apply Nat.odd_spec in OD as (k & K).
    assert (D : (n / 2 = k)%nat). { rewrite K. symmetry. apply (Nat.div_unique _ 2 k 1); lia. } rewrite D.
    pose proof (nth_split_at 0%Q s k ltac:(lia)) as S1. remember (nth k s 0%Q) as x.
    exists (firstn k s), [x], (skipn (S k) s). rewrite S1 in SS. destruct (sorted_app _ _ _ SS) as (H1 & SS2). destruct (sorted_app _ _ _ SS2) as (H2 & _).
    split; [rewrite <- S1; symmetry; exact P|]. split; [rewrite firstn_length, skipn_length; lia|].
    split; [intros a b Ha Hb; apply Qle_bool_iff, H1; auto; apply in_or_app; auto|].
    split; [intros a b Ha Hb; apply Qle_bool_iff, H2; auto|]. left. reflexivity.
Qed.
Lemma median_some l : l <> [] -> exists m, median l = Some m.
Proof.
  intros N. unfold median. pose proof (Permutation_length (sort_perm Qle_bool l)) as L. destruct (length (sort Qle_bool l)); [|destruct (Nat.even _); eauto].
  destruct l; [congruence|discriminate].
Qed.
Lemma middle_const c l m : Forall (fun x => x = c) l -> middle l m -> (m == c)%Q.
Proof.
  intros F (lo & mid & hi & P & _ & _ & _ & M). apply (Permutation_Forall P) in F. apply Forall_app in F as (_ & F). apply Forall_app in F as (F & _).
  destruct M as [->|(x & y & -> & _ & M)].
  - inversion F; subst. reflexivity.
  - inversion F as [|? ? H1 H2]; subst. inversion H2; subst. rewrite M. field.
Qed.

(** ** Dictionaries *)

Lemma text_eq_iff a : forall b, text_eq a b = true <-> a = b.
Proof.
  induction a as [|x a IH]; intros [|y b]; cbn [text_eq]; split; intros H; try discriminate; auto.
  - apply andb_prop in H as (H1 & H2). apply Z.eqb_eq in H1. apply IH in H2. congruence.
  - injection H as -> ->. rewrite Z.eqb_refl. apply IH. reflexivity.
Qed.
Lemma dict_set_new {K V} (eq : K -> K -> bool) (d : list (K * V)) k v : Forall (fun e => eq (fst e) k = false) d -> dict_set eq d k v = d ++ [(k, v)].
Proof. induction 1 as [|e d H _ IH]; [reflexivity|]. cbn [dict_set app]. rewrite H, IH. reflexivity. Qed.
Lemma fold_dict (l : list (list Z * json)) : forall d, NoDup (map fst (d ++ l)) -> fold_left (fun d e => dict_set text_eq d (fst e) (snd e)) l d = d ++ l.
Proof.
  induction l as [|[k v] l IH]; intros d N; cbn [fold_left fst snd]; [rewrite app_nil_r; auto|].
  rewrite dict_set_new.
  - rewrite IH; rewrite <- app_assoc; auto.
  - rewrite map_app in N. apply Forall_forall. intros e I. destruct (text_eq (fst e) k) eqn:E; auto. apply text_eq_iff in E. exfalso.
    cbn [map fst] in N. apply NoDup_remove_2 in N. apply N, in_or_app. left. rewrite <- E. apply in_map. auto.
Qed.
Lemma py_dict_id (l : list (list Z * json)) : NoDup (map fst l) -> py_dict l = l.
Proof. intros N. apply (fold_dict l []). exact N. Qed.

Lemma fold_sizes {E V} (f : E -> res (Z * V)) (k : E -> Z) (v : E -> V) l : (forall e, In e l -> f e = Ok (k e, v e)) -> forall d,
  NoDup (map fst d ++ map k l) ->
  foldM (fun d e => kv <- f e ;; Ok (dict_set Z.eqb d (fst kv) (snd kv))) d l = Ok (d ++ map (fun e => (k e, v e)) l).
Proof.
  induction l as [|e l IH]; intros H d N; cbn [foldM map]; [rewrite app_nil_r; auto|]. rewrite H by (left; auto). cbn [bind fst snd].
  rewrite dict_set_new.
  - rewrite IH; [rewrite <- app_assoc; reflexivity|intros; apply H; right; auto|]. rewrite map_app. cbn [map fst]. rewrite <- app_assoc. exact N.
  - apply Forall_forall. intros x I. apply Z.eqb_neq. intros EQ. cbn [map] in N. apply NoDup_remove_2 in N. apply N, in_or_app. left. rewrite <- EQ. apply in_map. auto.
Qed.

(** ** The file *)

Lemma itoa_text v : 0 <= v -> str_ok (itoa v).
Proof.
  intros P. unfold itoa. destruct (Z.ltb_spec v 0); [lia|]. pose proof (decimal_digits 20 v P) as F. eapply Forall_impl; [|exact F]. cbv beta.
  intros c B. destruct (Z.eqb_spec c 34); [lia|]. destruct (Z.eqb_spec c 92); [lia|]. reflexivity.
Qed.
Lemma number_json nu x : number_ok nu x -> json_ok (JNum (nu_show nu x)).
Proof.
  intros (N & F & _). constructor; auto. eapply Forall_impl; [|exact F]. cbv beta. intros c I. cbv in I.
  repeat (destruct I as [<-|I]; [reflexivity|]). destruct I.
Qed.
Lemma read_number nu x : number_ok nu x -> py_number nu (JNum (nu_show nu x)) = Ok x.
Proof. intros (_ & _ & E). cbn [py_number]. rewrite E. reflexivity. Qed.

Definition block_ok (nu : numbers) (b : option block) : Prop :=
  match b with None => True | Some b => number_ok nu (bl_query b) /\ Forall (number_ok nu) (bl_answers b) /\ number_ok nu (bl_reconstruct b) end.
Definition chunk_ok (nu : numbers) (c : full_chunk) : Prop := Forall (block_ok nu) (fc_cpu c) /\ Forall (block_ok nu) (fc_bandwidth c) /\ number_ok nu (fc_digest c).

Ltac lit_ok := repeat (apply Forall_cons; [reflexivity|]); apply Forall_nil.
Lemma block_json_ok nu b : block_ok nu b -> json_ok (block_json nu b).
Proof.
  destruct b as [b|]; [|constructor]. intros (Q & A & R). cbn [block_json]. constructor.
  apply Forall_cons; [split; [lit_ok|apply number_json; auto]|]. apply Forall_cons; [|apply Forall_cons; [split; [lit_ok|apply number_json; auto]|constructor]].
  split; [lit_ok|]. cbn [snd]. constructor. apply Forall_map. eapply Forall_impl; [|exact A]. cbv beta. intros x. apply number_json.
Qed.
Lemma chunk_json_ok nu c : chunk_ok nu c -> json_ok (chunk_json nu c).
Proof.
  intros (C & B & D). constructor.
  apply Forall_cons; [split; [lit_ok|cbn [snd]; constructor; apply Forall_map; eapply Forall_impl; [|exact C]; apply block_json_ok]|].
  apply Forall_cons; [split; [lit_ok|cbn [snd]; constructor; apply Forall_map; eapply Forall_impl; [|exact B]; apply block_json_ok]|].
  apply Forall_cons; [split; [lit_ok|apply number_json; auto]|constructor].
Qed.
Definition key_order {V} (a b : Z * V) : bool := text_le (itoa (fst a)) (itoa (fst b)).
Definition entries_json (nu : numbers) (m : list (Z * list full_chunk)) : list (list Z * json) :=
  map (fun e => (itoa (fst e), JArr (map (chunk_json nu) (snd e)))) (sort key_order m).
Lemma experiment_entries nu m : experiment_json nu m = JObj [(lit "Results", JObj (entries_json nu m))].
Proof. reflexivity. Qed.
Definition experiment_ok (nu : numbers) (m : list (Z * list full_chunk)) : Prop :=
  Forall (fun e => 0 < fst e < 2 ^ 63 /\ Forall (chunk_ok nu) (snd e)) m /\ NoDup (map fst m).
Lemma experiment_json_ok nu m : experiment_ok nu m -> json_ok (experiment_json nu m).
Proof.
  intros (F & _). rewrite experiment_entries. constructor. apply Forall_cons; [|constructor]. split; [lit_ok|]. cbn [snd]. constructor.
  unfold entries_json. apply Forall_map. apply (Permutation_Forall (Permutation_sym (sort_perm key_order m))) in F. eapply Forall_impl; [|exact F]. cbv beta.
  intros e (B & C). split; [apply itoa_text; cbn; lia|]. cbn [snd]. constructor. apply Forall_map. eapply Forall_impl; [|exact C]. apply chunk_json_ok.
Qed.
Lemma entries_keys nu m : experiment_ok nu m -> NoDup (map fst (sort key_order m)) /\ NoDup (map fst (entries_json nu m)).
Proof.
  intros (F & N). pose proof (sort_perm key_order m) as P. assert (N' : NoDup (map fst (sort key_order m))) by (eapply Permutation_NoDup; [apply Permutation_map, Permutation_sym, P|auto]).
  split; auto. unfold entries_json. rewrite map_map. cbn [fst]. apply (Permutation_Forall (Permutation_sym P)) in F.
  revert N' F. generalize (sort key_order m) as l. induction l as [|e l IH]; intros N' F; cbn [map]; constructor; inversion N'; inversion F; subst; auto.
  intros I. apply in_map_iff in I as (e' & E & I). rewrite Forall_forall in H6. destruct (H6 e' I) as (B' & _). destruct H5 as (B & _).
  apply itoa_inj in E; [|lia|lia]. apply H1. rewrite <- E. apply in_map. auto.
Qed.
Lemma results_field x : py_field (JObj [(lit "Results", x)]) "Results" = Ok x.
Proof. reflexivity. Qed.
Lemma chunk_items a b d : py_items (JObj [(lit "CPU", a); (lit "Bandwidth", b); (lit "Digest", d)]) = Ok [(lit "CPU", a); (lit "Bandwidth", b); (lit "Digest", d)].
Proof. reflexivity. Qed.
Lemma chunk_cpu a b d : py_field (JObj [(lit "CPU", a); (lit "Bandwidth", b); (lit "Digest", d)]) "CPU" = Ok a.
Proof. reflexivity. Qed.
Lemma block_query a b c : py_field (JObj [(lit "Query", a); (lit "Answers", b); (lit "Reconstruct", c)]) "Query" = Ok a.
Proof. reflexivity. Qed.
Lemma block_answers a b c : py_field (JObj [(lit "Query", a); (lit "Answers", b); (lit "Reconstruct", c)]) "Answers" = Ok b.
Proof. reflexivity. Qed.
Lemma block_reconstruct a b c : py_field (JObj [(lit "Query", a); (lit "Answers", b); (lit "Reconstruct", c)]) "Reconstruct" = Ok c.
Proof. reflexivity. Qed.

Lemma q_add_0_l x : (0 + x)%Q = x.
Proof. destruct x as [a b]. unfold Qplus. cbn [Qnum Qden]. f_equal. lia. Qed.
Lemma q_add_0_r x : (x + 0)%Q = x.
Proof. destruct x as [a b]. unfold Qplus. cbn [Qnum Qden]. f_equal; lia. Qed.

Lemma read_numbers nu l : Forall (number_ok nu) l -> mapM (py_number nu) (map (fun x => JNum (nu_show nu x)) l) = Ok l.
Proof. induction 1 as [|x l H _ IH]; [reflexivity|]. cbn [map mapM]. rewrite read_number by auto. cbn [bind]. rewrite IH. reflexivity. Qed.
Lemma parse_block_json nu param p b : block_ok nu (Some b) -> parse_block nu param p (block_json nu (Some b)) =
  Ok (mkParsed (pa_digest p) (pa_client p ++ [(param, (bl_query b + bl_reconstruct b)%Q)]) (pa_server p ++ [(param, q_sum (bl_answers b))])).
Proof.
  intros (Q & A & R). unfold parse_block. cbn [block_json]. rewrite block_query. cbn [bind]. rewrite read_number by auto. cbn [bind].
  rewrite block_reconstruct. cbn [bind]. rewrite read_number by auto. cbn [bind]. rewrite block_answers. cbn [bind py_list]. rewrite read_numbers by auto. reflexivity.
Qed.

Definition query_size (c : chunk) : Q := match ch_bandwidth c with Some (q, _) => inject_Z q | None => 0%Q end.
Definition answer_size (c : chunk) : Q := match ch_bandwidth c with Some (_, a) => inject_Z a | None => 0%Q end.
Definition client_log (l : list (chunk * Q)) : list (list Z * Q) := flat_map (fun ct => [(lit "CPU", snd ct); (lit "Bandwidth", query_size (fst ct))]) l.
Definition server_log (l : list (chunk * Q)) : list (list Z * Q) := flat_map (fun ct => [(lit "CPU", 0%Q); (lit "Bandwidth", answer_size (fst ct))]) l.

Lemma parse_chunk nu p c t : ch_bandwidth c <> None -> chunk_ok nu (recorded c t) ->
  (items <- py_items (chunk_json nu (recorded c t)) ;; foldM (parse_param nu) p items) =
  Ok (mkParsed (inject_Z (ch_digest c)) (pa_client p ++ [(lit "CPU", t); (lit "Bandwidth", query_size c)]) (pa_server p ++ [(lit "CPU", 0%Q); (lit "Bandwidth", answer_size c)])).
Proof.
  unfold recorded, query_size, answer_size. destruct (ch_bandwidth c) as [[q a]|]; [|congruence]. intros _ (C & B & D). cbn [fc_cpu fc_bandwidth fc_digest] in *.
  unfold chunk_json. cbn [fc_cpu fc_bandwidth fc_digest]. rewrite chunk_items. cbn [bind foldM].
  inversion C; inversion B; subst. unfold parse_param. cbn [fst snd].
  change (text_eq (lit "CPU") (lit "Digest")) with false. change (text_eq (lit "Bandwidth") (lit "Digest")) with false. change (text_eq (lit "Digest") (lit "Digest")) with true.
  cbv iota. cbn [py_list bind map foldM]. rewrite parse_block_json by auto. cbn [bind]. rewrite parse_block_json by auto. cbn [bind].
  rewrite read_number by auto. cbn [bind pa_digest pa_client pa_server bl_query bl_reconstruct bl_answers q_sum fold_right].
  rewrite q_add_0_l, !q_add_0_r, <- !app_assoc. reflexivity.
Qed.
Lemma parse_chunks nu l : Forall (fun ct => ch_bandwidth (fst ct) <> None /\ chunk_ok nu (recorded (fst ct) (snd ct))) l -> forall p,
  foldM (fun p m => items <- py_items m ;; foldM (parse_param nu) p items) p (map (chunk_json nu) (map (fun ct => recorded (fst ct) (snd ct)) l)) =
  Ok (mkParsed (last (map (fun ct => inject_Z (ch_digest (fst ct))) l) (pa_digest p)) (pa_client p ++ client_log l) (pa_server p ++ server_log l)).
Proof.
  induction 1 as [|[c t] l (N & O) _ IH]; intros p.
  - cbn. rewrite !app_nil_r. destruct p; reflexivity.
  - cbn [map foldM fst snd]. rewrite (parse_chunk nu p c t N O). cbn [bind]. rewrite IH. cbn [pa_digest pa_client pa_server client_log server_log flat_map fst snd].
    rewrite <- !app_assoc. f_equal. f_equal. destruct l as [|x l]; [reflexivity|]. cbn [map last]. clear. revert x. generalize (pa_digest p) as d1.
    induction l as [|y l IH]; intros d1 x; [reflexivity|]. cbn [map last] in *. apply (IH d1 y).
Qed.
Lemma param_app k a b : of_param k (a ++ b) = of_param k a ++ of_param k b.
Proof. unfold of_param. rewrite filter_app, map_app. reflexivity. Qed.
Lemma client_params l : of_param "CPU" (client_log l) = map snd l /\ of_param "Bandwidth" (client_log l) = map (fun ct => query_size (fst ct)) l.
Proof.
  induction l as [|[c t] l (A & B)]; [split; reflexivity|]. unfold client_log in *. cbn [flat_map fst snd map]. rewrite !param_app, A, B. split; reflexivity.
Qed.
Lemma server_params l : of_param "CPU" (server_log l) = map (fun _ => 0%Q) l /\ of_param "Bandwidth" (server_log l) = map (fun ct => answer_size (fst ct)) l.
Proof.
  induction l as [|[c t] l (A & B)]; [split; reflexivity|]. unfold server_log in *. cbn [flat_map fst snd map]. rewrite !param_app, A, B. split; reflexivity.
Qed.

(** The results with their times, as pairs *)
Definition paired (times : Z -> nat -> Q) (e : Z * list chunk) : Z * list (chunk * Q) :=
  (fst e, map (fun cj => (fst cj, times (fst e) (snd cj))) (combine (snd e) (range (length (snd e))))).
Definition rec_entry (e : Z * list (chunk * Q)) : Z * list full_chunk := (fst e, map (fun ct => recorded (fst ct) (snd ct)) (snd e)).
Lemma with_times_paired results times : with_times results times = map rec_entry (map (paired times) results).
Proof. unfold with_times. rewrite map_map. apply map_ext. intros [len cs]. unfold rec_entry, paired. cbn [fst snd]. rewrite map_map. reflexivity. Qed.
Lemma insert_map {A B} (f : A -> B) le le' x l : (forall a b, le' (f a) (f b) = le a b) -> insert le' (f x) (map f l) = map f (insert le x l).
Proof. intros H. induction l as [|y l IH]; [reflexivity|]. cbn [map insert]. rewrite H. destruct (le x y); [reflexivity|]. cbn [map]. rewrite IH. reflexivity. Qed.
Lemma sort_map {A B} (f : A -> B) le le' l : (forall a b, le' (f a) (f b) = le a b) -> sort le' (map f l) = map f (sort le l).
Proof. intros H. induction l as [|y l IH]; [reflexivity|]. cbn [map sort fold_right]. change (fold_right (insert le') [] (map f l)) with (sort le' (map f l)). rewrite IH. apply insert_map. exact H. Qed.

Lemma combine_fst {A B} (a : list A) : forall b : list B, length a = length b -> map fst (combine a b) = a.
Proof. induction a as [|x a IH]; intros [|y b] H; cbn in *; try discriminate; auto. rewrite IH; auto. Qed.
Lemma combine_snd {A B} (a : list A) : forall b : list B, length a = length b -> map snd (combine a b) = b.
Proof. induction a as [|x a IH]; intros [|y b] H; cbn in *; try discriminate; auto. rewrite IH; auto. Qed.
Lemma paired_chunks times e : map fst (snd (paired times e)) = snd e /\ map snd (snd (paired times e)) = all_times times (fst e) (snd e).
Proof.
  destruct e as [len cs]. unfold paired. cbn [fst snd]. rewrite !map_map. cbn [fst snd]. split.
  - apply combine_fst. unfold range. rewrite seq_length. reflexivity.
  - rewrite <- (map_map snd (times len)). rewrite combine_snd by (unfold range; rewrite seq_length; reflexivity). reflexivity.
Qed.
Lemma paired_in times e c t : In (c, t) (snd (paired times e)) -> exists j, nth_error (snd e) j = Some c /\ t = times (fst e) j.
Proof.
  destruct e as [len cs]. unfold paired. cbn [fst snd]. rewrite in_map_iff. intros ([c' j] & E & I). cbn [fst snd] in E. assert (c' = c) by congruence. assert (t = times len j) by congruence. subst.
  exists j. split; auto. apply In_nth_error in I as (k & K).
  assert (KL : (k < length cs)%nat). { assert (L : (k < length (combine cs (range (length cs))))%nat) by (apply nth_error_Some; congruence). rewrite combine_length in L. unfold range in L. rewrite seq_length in L. lia. }
  assert (K1 : nth_error (map fst (combine cs (range (length cs)))) k = Some c) by (rewrite nth_error_map, K; reflexivity).
  assert (K2 : nth_error (map snd (combine cs (range (length cs)))) k = Some j) by (rewrite nth_error_map, K; reflexivity).
  rewrite combine_fst in K1 by (unfold range; rewrite seq_length; reflexivity). rewrite combine_snd in K2 by (unfold range; rewrite seq_length; reflexivity).
  unfold range in K2. assert (j = k). { apply nth_error_nth with (d := O) in K2. rewrite seq_nth in K2 by auto. lia. } congruence.
Qed.

Lemma recorded_ok nu results times e : writable nu results times -> In e results -> Forall (chunk_ok nu) (snd (rec_entry (paired times e))).
Proof.
  intros (Z0 & W) I. unfold rec_entry. cbn [snd]. apply Forall_map, Forall_forall. intros [c t] J. cbn [fst snd]. apply paired_in in J as (j & N & ->).
  destruct e as [len cs]. cbn [fst snd] in *. destruct (W len cs j c I N) as (A & B & C). unfold recorded, chunk_ok, block_ok.
  destruct (ch_bandwidth c) as [[q a]|]; cbn [fc_cpu fc_bandwidth fc_digest].
  - destruct (C q a eq_refl) as (Cq & Ca). split; [|split; [|exact B]]; (apply Forall_cons; [|apply Forall_nil]); cbn [bl_query bl_answers bl_reconstruct];
      (split; [assumption|split; [apply Forall_cons; [assumption|apply Forall_nil]|assumption]]).
  - split; [|split; [|exact B]]; (apply Forall_cons; [|apply Forall_nil]); cbn [bl_query bl_answers bl_reconstruct]; auto.
Qed.
Lemma experiment_is_ok nu results times : writable nu results times -> lengths_kept results -> experiment_ok nu (with_times results times).
Proof.
  intros W (N & B). rewrite with_times_paired, map_map. split.
  - apply Forall_map, Forall_forall. intros e I. split; [|eapply recorded_ok; eauto]. rewrite Forall_forall in B. exact (B e I).
  - rewrite map_map. exact N.
Qed.

Definition figures_of (times : Z -> nat -> Q) (e : Z * list chunk) : figures :=
  let l := snd (paired times e) in
  mkFigures (last (map (fun c => inject_Z (ch_digest c)) (snd e)) 0%Q) (median (all_times times (fst e) (snd e)), median (query_sizes (snd e)))
            (median (map (fun _ => 0%Q) (snd e)), median (answer_sizes (snd e))).
Lemma read_results nu results times : writable nu results times -> lengths_kept results -> Forall (fun e => sized (snd e)) results ->
  all_stats nu (results_file nu results times) = Ok (map (fun e => (fst e, figures_of times e)) (sort key_order results)).
Proof.
  intros W LK SZ. pose proof (experiment_is_ok _ _ _ W LK) as EO. unfold all_stats, parse_results, results_file.
  rewrite load_text by (apply experiment_json_ok; auto). cbn [bind]. rewrite experiment_entries, results_field. cbn [bind py_items].
  rewrite py_dict_id by (apply entries_keys; auto). cbn [bind].
  set (pr := fun e : Z * list chunk => let l := snd (paired times e) in
    mkParsed (last (map (fun ct => inject_Z (ch_digest (fst ct))) l) 0%Q) (client_log l) (server_log l)).
  assert (E : foldM (fun d e => p <- parse_size nu (snd e) ;; k <- py_int (fst e) ;; Ok (dict_set Z.eqb d k p)) [] (entries_json nu (with_times results times)) =
    Ok (map (fun e => (fst e, pr e)) (sort key_order results))).
  { unfold entries_json. rewrite with_times_paired, map_map. rewrite (sort_map (fun e => rec_entry (paired times e)) key_order key_order) by reflexivity. rewrite map_map.
    assert (NS : NoDup (map fst (sort key_order results))).
    { eapply Permutation_NoDup; [apply Permutation_map, Permutation_sym, sort_perm|]. apply LK. }
    assert (IS : forall e, In e (sort key_order results) -> In e results) by (intros e; apply Permutation_in, sort_perm).
    revert NS IS. generalize (sort key_order results) as l. intros l NS IS.
    assert (G : forall l d, (forall e, In e l -> In e results) -> NoDup (map fst d ++ map fst l) ->
      foldM (fun d e => p <- parse_size nu (snd e) ;; k <- py_int (fst e) ;; Ok (dict_set Z.eqb d k p)) d
        (map (fun e => (itoa (fst (rec_entry (paired times e))), JArr (map (chunk_json nu) (snd (rec_entry (paired times e)))))) l) =
      Ok (d ++ map (fun e => (fst e, pr e)) l)).
    { clear l NS IS. induction l as [|e l IH]; intros d IS N; cbn [map foldM]; [rewrite app_nil_r; auto|]. cbn [fst snd].
      assert (IE : In e results) by (apply IS; left; auto).
      unfold parse_size at 1. cbn [py_list bind]. unfold rec_entry at 1. cbn [snd]. rewrite parse_chunks.
      2:{ apply Forall_forall. intros [c t] J. pose proof J as J'. cbn [fst snd]. split.
          - apply paired_in in J as (j & NE & _). rewrite Forall_forall in SZ. specialize (SZ e IE). unfold sized in SZ. rewrite Forall_forall in SZ. apply SZ. eapply nth_error_In; eauto.
          - pose proof (recorded_ok nu results times e W IE) as F. unfold rec_entry in F. cbn [snd] in F. rewrite Forall_map, Forall_forall in F. exact (F _ J'). }
      cbn [bind pa_digest pa_client pa_server app]. unfold py_int. cbn [fst rec_entry paired].
      rewrite atoi_itoa. 2:{ destruct LK as (_ & B). rewrite Forall_forall in B. specialize (B e IE). cbv beta in B. lia. }
      cbn [bind]. rewrite dict_set_new.
      - rewrite IH; [rewrite <- app_assoc; reflexivity|intros; apply IS; right; auto|]. rewrite map_app, <- app_assoc. exact N.
      - apply Forall_forall. intros x I. apply Z.eqb_neq. intros EQ. cbn [map] in N. apply NoDup_remove_2 in N. apply N, in_or_app. left. rewrite <- EQ. apply in_map. auto. }
    apply (G l [] IS NS). }
  rewrite E. cbn [bind]. rewrite map_map. f_equal. apply map_ext. intros e. f_equal. unfold pr, figures_of. cbn [pa_digest pa_client pa_server fst snd].
  destruct (paired_chunks times e) as (P1 & P2). unfold stats. destruct (client_params (snd (paired times e))) as (-> & ->). destruct (server_params (snd (paired times e))) as (-> & ->).
  assert (MG : forall g : chunk -> Q, map (fun ct : chunk * Q => g (fst ct)) (snd (paired times e)) = map g (snd e)) by (intros g; rewrite <- P1, map_map; reflexivity).
  rewrite P2, (MG (fun c => inject_Z (ch_digest c))), (MG query_size), (MG answer_size), (MG (fun _ => 0%Q)). reflexivity.
Qed.

Lemma sort_nodup {V} (results : list (Z * V)) le : NoDup (map fst results) -> NoDup (map fst (sort le results)).
Proof. intros N. eapply Permutation_NoDup; [apply Permutation_map, Permutation_sym, sort_perm|auto]. Qed.
Lemma find_entry {V W} (f : Z * V -> W) results len v : NoDup (map fst results) -> In (len, v) results ->
  dict_get Z.eqb (map (fun e => (fst e, f e)) results) len = Ok (f (len, v)).
Proof.
  unfold dict_get. induction results as [|e l IH]; intros N I; [destruct I|]. inversion N; subst. cbn [map find fst].
  destruct I as [->|I]; [cbn [fst snd]; rewrite Z.eqb_refl; reflexivity|]. destruct (Z.eqb_spec (fst e) len) as [E|E]; [|auto].
  exfalso. apply H1. rewrite E. change len with (fst (len, v)). apply in_map. auto.
Qed.
Lemma find_none {V W} (f : Z * V -> W) results len : ~ In len (map fst results) -> dict_get Z.eqb (map (fun e => (fst e, f e)) results) len = Err "KeyError".
Proof.
  unfold dict_get. induction results as [|e l IH]; intros N; [reflexivity|]. cbn [map find fst]. cbn [map In] in N.
  destruct (Z.eqb_spec (fst e) len) as [E|E]; [tauto|]. apply IH. tauto.
Qed.

(** ** The preprocessing benchmark *)

Definition one_time (nu : numbers) (r : json) : res Q :=
  cpu <- py_field r "CPU" ;; cpu <- py_list cpu ;; b <- go_index cpu 0 ;;
  a <- py_field b "Answers" ;; a <- py_list a ;; x <- go_index a 0 ;; py_number nu x.
Lemma one_time_json nu c t : ch_bandwidth c = None -> number_ok nu t -> one_time nu (chunk_json nu (recorded c t)) = Ok t.
Proof.
  intros E N. unfold one_time, recorded. rewrite E. unfold chunk_json. cbn [fc_cpu fc_bandwidth fc_digest map]. rewrite chunk_cpu. cbn [bind py_list].
  change (go_index [block_json nu (Some (mkBlock 0 [t] 0))] 0) with (Ok (block_json nu (Some (mkBlock 0 [t] 0)))). cbn [bind block_json bl_query bl_answers bl_reconstruct map].
  rewrite block_answers. cbn [bind py_list]. change (go_index [JNum (nu_show nu t)] 0) with (Ok (JNum (nu_show nu t))). cbn [bind]. apply read_number. auto.
Qed.
Lemma times_json nu l : Forall (fun ct => ch_bandwidth (fst ct) = None /\ number_ok nu (snd ct)) l ->
  mapM (one_time nu) (map (chunk_json nu) (map (fun ct : chunk * Q => recorded (fst ct) (snd ct)) l)) = Ok (map snd l).
Proof. induction 1 as [|[c t] l (E & N) _ IH]; [reflexivity|]. cbn [map mapM fst snd]. rewrite one_time_json by auto. cbn [bind]. rewrite IH. reflexivity. Qed.

Lemma read_times nu results times : writable nu results times -> lengths_kept results -> Forall (fun e => unsized (snd e)) results ->
  preprocessing_times nu (results_file nu results times) = Ok (map (fun e => (fst e, all_times times (fst e) (snd e))) (sort key_order results)).
Proof.
  intros W LK SZ. pose proof (experiment_is_ok _ _ _ W LK) as EO. unfold preprocessing_times, results_file.
  rewrite load_text by (apply experiment_json_ok; auto). cbn [bind]. rewrite experiment_entries, results_field. cbn [bind py_items].
  rewrite py_dict_id by (apply entries_keys; auto). cbn [bind].
  unfold entries_json. rewrite with_times_paired, map_map. rewrite (sort_map (fun e => rec_entry (paired times e)) key_order key_order) by reflexivity. rewrite map_map.
  assert (NS : NoDup (map fst (sort key_order results))) by (apply sort_nodup, LK).
  assert (IS : forall e, In e (sort key_order results) -> In e results) by (intros e; apply Permutation_in, sort_perm).
  revert NS IS. generalize (sort key_order results) as l. intros l NS IS. change (@nil (Z * list Q)) with (@nil (Z * list Q)).
  set (step := fun d e => _).
  assert (G : forall l d, (forall e, In e l -> In e results) -> NoDup (map fst d ++ map fst l) ->
    foldM step d (map (fun e => (itoa (fst (rec_entry (paired times e))), JArr (map (chunk_json nu) (snd (rec_entry (paired times e)))))) l) =
    Ok (d ++ map (fun e => (fst e, all_times times (fst e) (snd e))) l)).
  { clear l NS IS. induction l as [|e l IH]; intros d IS N; cbn [map foldM]; [rewrite app_nil_r; auto|]. unfold step at 1. cbn [fst snd].
    assert (IE : In e results) by (apply IS; left; auto).
    unfold py_int. cbn [fst rec_entry paired]. rewrite atoi_itoa. 2:{ destruct LK as (_ & B). rewrite Forall_forall in B. specialize (B e IE). cbv beta in B. lia. }
    cbn [bind py_list]. fold (one_time nu). change (fun r : json => _) with (one_time nu). unfold rec_entry at 1. cbn [snd]. rewrite times_json.
    2:{ apply Forall_forall. intros [c t] J. cbn [fst snd]. apply paired_in in J as (j & NE & ->). split.
        - rewrite Forall_forall in SZ. specialize (SZ e IE). unfold unsized in SZ. rewrite Forall_forall in SZ. apply SZ. eapply nth_error_In; eauto.
        - destruct W as (_ & W). destruct e as [len cs]. apply (W len cs j c IE NE). }
    cbn [bind]. rewrite (proj2 (paired_chunks times e)). rewrite dict_set_new.
    - rewrite IH; [rewrite <- app_assoc; reflexivity|intros; apply IS; right; auto|]. rewrite map_app, <- app_assoc. exact N.
    - apply Forall_forall. intros x I. apply Z.eqb_neq. intros EQ. cbn [map] in N. apply NoDup_remove_2 in N. apply N, in_or_app. left. rewrite <- EQ. apply in_map. auto. }
  apply (G l [] IS NS).
Qed.

Definition med (l : list Q) : Q := match median l with Some m => m | None => 0%Q end.
Lemma med_middle l : l <> [] -> middle l (med l).
Proof. intros N. destruct (median_some l N) as (m & E). unfold med. rewrite E. apply median_middle. auto. Qed.
Lemma all_meds {A} (f : A -> list Q) l : Forall (fun e => f e <> []) l -> all_numbers (map (fun e => median (f e)) l) = Some (map (fun e => med (f e)) l).
Proof.
  induction 1 as [|e l N _ IH]; [reflexivity|]. cbn [map all_numbers]. destruct (median_some _ N) as (m & E). unfold med at 1. rewrite E, IH. reflexivity.
Qed.

Definition by_size {V} (results : list (Z * V)) : list (Z * V) := sort (fun a b => fst a <=? fst b) results.
Lemma by_size_sorted {V} (results : list (Z * V)) : StronglySorted (fun a b => fst a <= fst b) (by_size results).
Proof.
  assert (H : StronglySorted (fun a b : Z * V => (fst a <=? fst b) = true) (by_size results)).
  { apply sort_sorted; intros; rewrite ?Z.leb_le, ?Z.leb_gt in *; lia. }
  induction H as [|a l H IH F]; constructor; auto. eapply Forall_impl; [|exact F]. cbv beta. intros b. apply Z.leb_le.
Qed.
Lemma sorted_map {A B} (R : A -> A -> Prop) (R' : B -> B -> Prop) (f : A -> B) l : StronglySorted R l -> (forall x y, In x l -> In y l -> R x y -> R' (f x) (f y)) -> StronglySorted R' (map f l).
Proof.
  induction 1 as [|a l H IH F]; intros G; cbn [map]; constructor.
  - apply IH. intros. apply G; auto; right; auto.
  - apply Forall_map. rewrite Forall_forall in F |- *. intros x I. apply G; [left; auto|right; auto|auto].
Qed.
Lemma keys_sorted {V} (results l : list (Z * V)) : Permutation l results -> sort Z.leb (map fst l) = map fst (by_size results).
Proof.
  intros P. apply (sorted_perm_eq Z.le).
  - intros; lia.
  - assert (H : StronglySorted (fun a b => (a <=? b) = true) (sort Z.leb (map fst l))).
    { apply sort_sorted; intros; rewrite ?Z.leb_le, ?Z.leb_gt in *; lia. }
    induction H as [|a l' H IH F]; constructor; auto. eapply Forall_impl; [|exact F]. cbv beta. intros b. apply Z.leb_le.
  - eapply sorted_map; [apply by_size_sorted|]. auto.
  - rewrite sort_perm. apply Permutation_map. rewrite P. symmetry. apply sort_perm.
Qed.
Lemma q_sorted_unique l1 l2 : StronglySorted (fun a b => Qle_bool a b = true) l1 -> StronglySorted (fun a b => Qle_bool a b = true) l2 -> Permutation l1 l2 -> Forall2 Qeq l1 l2.
Proof.
  intros S1 S2 P. assert (E : map Qred l1 = map Qred l2).
  { apply (sorted_perm_eq (fun a b => (a <= b)%Q /\ Qred a = a /\ Qred b = b)).
    - intros x y (A & X & Y) (B & _). rewrite <- X, <- Y. apply Qred_complete. apply Qle_antisym; auto.
    - eapply sorted_map; [exact S1|]. cbv beta. intros x y _ _ L. rewrite !(Qred_complete (Qred _) _ (Qred_correct _)). split; auto. rewrite !Qred_correct. apply Qle_bool_iff. auto.
    - eapply sorted_map; [exact S2|]. cbv beta. intros x y _ _ L. rewrite !(Qred_complete (Qred _) _ (Qred_correct _)). split; auto. rewrite !Qred_correct. apply Qle_bool_iff. auto.
    - apply Permutation_map. auto. }
  clear S1 S2 P. revert l2 E. induction l1 as [|x l1 IH]; intros [|y l2] E; try discriminate; constructor.
  - cbn [map] in E. assert (H : Qred x = Qred y) by congruence. rewrite <- (Qred_correct x), <- (Qred_correct y), H. reflexivity.
  - apply IH. cbn [map] in E. congruence.
Qed.

Lemma plot_read nu results times : writable nu results times -> lengths_kept results -> Forall (fun e => unsized (snd e) /\ snd e <> []) results ->
  exists vs, Permutation vs (map (fun e => med (all_times times (fst e) (snd e))) results) /\
  preprocessing_plot nu (results_file nu results times) =
  Ok (Some (combine (map (fun x => Z.quot x (2 ^ 33)) (map fst (by_size results))) (map (fun x => (x / 1000)%Q) (sort Qle_bool vs)))).
Proof.
  intros W LK F. unfold preprocessing_plot. rewrite read_times; auto. 2:{ eapply Forall_impl; [|exact F]. cbv beta. tauto. }
  cbn [bind]. rewrite !map_map. cbn [fst snd].
  rewrite (all_meds (fun e : Z * list chunk => all_times times (fst e) (snd e))).
  2:{ apply (Permutation_Forall (Permutation_sym (sort_perm key_order results))) in F. eapply Forall_impl; [|exact F]. cbv beta. intros e (_ & N).
      unfold all_times. destruct (snd e); [congruence|discriminate]. }
  exists (map (fun e => med (all_times times (fst e) (snd e))) (sort key_order results)). split; [apply Permutation_map, sort_perm|].
  change (map (fun x : Z * list chunk => fst x) (sort key_order results)) with (map fst (sort key_order results)). rewrite (keys_sorted results) by apply sort_perm. rewrite !map_map. reflexivity.
Qed.

Ltac units := unfold unit_of; change (2 ^ 13 =? 2 ^ 13) with true; change (2 ^ 23 =? 2 ^ 13) with false; change (2 ^ 33 =? 2 ^ 13) with false;
  change (2 ^ 13 =? 2 ^ 33) with false; change (2 ^ 23 =? 2 ^ 33) with false; change (2 ^ 33 =? 2 ^ 33) with true; cbv iota.
Lemma figures_table times e size m : snd e <> [] -> In size [2 ^ 13; 2 ^ 23; 2 ^ 33] ->
  exists q k, multiplier size m = Ok k /\ nan_scale (table_entry m (figures_of times e)) k = Some q /\
  shows times (fst e) (snd e) m (q * unit_of size m).
Proof.
  intros N I.
  assert (NT : all_times times (fst e) (snd e) <> []) by (unfold all_times; destruct (snd e); [congruence|discriminate]).
  assert (NQ : query_sizes (snd e) <> []) by (unfold query_sizes; destruct (snd e); [congruence|discriminate]).
  assert (NA : answer_sizes (snd e) <> []) by (unfold answer_sizes; destruct (snd e); [congruence|discriminate]).
  assert (NZ : map (fun _ : chunk => 0%Q) (snd e) <> []) by (destruct (snd e); [congruence|discriminate]).
  destruct (median_some _ NT) as (mt & ET). destruct (median_some _ NQ) as (mq & EQ). destruct (median_some _ NA) as (ma & EA). destruct (median_some _ NZ) as (mz & EZ).
  assert (Z0 : (mz == 0)%Q). { apply (middle_const 0%Q (map (fun _ => 0%Q) (snd e))); [apply Forall_map, Forall_forall; auto|apply median_middle; auto]. }
  apply median_middle in ET as MT. apply median_middle in EQ as MQ. apply median_middle in EA as MA.
  unfold figures_of, table_entry, bw_mean, cpu_mean. cbn [fi_digest fi_client fi_server fst snd]. rewrite ET, EQ, EA, EZ.
  destruct m; cbn [nan_add nan_scale]; destruct I as [<-|[<-|[<-|[]]]]; (eexists _, _; split; [reflexivity|]; split; [reflexivity|]); unfold shows.
  1-3: units; field.
  1-3: exists mq, ma; split; [auto|split; [auto|units; field]].
  1-3: exists mt; split; [auto|units; rewrite Z0; field].
Qed.

Lemma bars_entry times e m : snd e <> [] -> exists q, table_entry m (figures_of times e) = Some q /\ shows times (fst e) (snd e) m (q * bar_unit m).
Proof.
  intros N. destruct (figures_table times e (2 ^ 13) m N (or_introl eq_refl)) as (q & k & K & E & H).
  assert (k = 1%Q) by (injection K as <-; reflexivity). subst k. destruct (table_entry m (figures_of times e)) as [x|]; [|discriminate]. cbn [nan_scale] in E.
  assert (EQ : q = (x * 1)%Q) by congruence. exists x. split; auto.
  assert (EU : (q * unit_of (2 ^ 13) m == x * bar_unit m)%Q) by (rewrite EQ; unfold bar_unit; destruct m; units; ring).
  destruct m; cbn [shows] in *.
  - rewrite <- EU. auto.
  - destruct H as (a & b & A & B & H). exists a, b. rewrite <- EU. auto.
  - destruct H as (a & A & H). exists a. rewrite <- EU. auto.
Qed.
Lemma bars_read nu results times first m : writable nu results times -> lengths_kept results -> Forall (fun e => sized (snd e) /\ snd e <> []) results ->
  exists l, bars nu first (results_file nu results times) m = Ok (map Some l ++ if first then [Some 0%Q] else []) /\
  Forall2 (fun e q => shows times (fst e) (snd e) m (q * bar_unit m)) (by_size results) l.
Proof.
  intros W LK F. unfold bars. rewrite read_results; auto. 2:{ eapply Forall_impl; [|exact F]. cbv beta. tauto. }
  cbn [bind]. rewrite map_map. cbn [fst]. change (map (fun x : Z * list chunk => fst x) (sort key_order results)) with (map fst (sort key_order results)).
  rewrite (keys_sorted results) by apply sort_perm.
  assert (G : exists l, mapM (fun k => f <- dict_get Z.eqb (map (fun e => (fst e, figures_of times e)) (sort key_order results)) k ;; Ok (table_entry m f)) (map fst (by_size results)) = Ok (map Some l) /\
    Forall2 (fun e q => shows times (fst e) (snd e) m (q * bar_unit m)) (by_size results) l).
  { assert (IN : forall e, In e (by_size results) -> In e results) by (intros e; apply Permutation_in, sort_perm).
    revert IN. generalize (by_size results) as o. induction o as [|[k cs] o IH]; intros IN; [exists []; split; [reflexivity|constructor]|].
    destruct IH as (l & E & H); [intros; apply IN; right; auto|]. assert (I : In (k, cs) results) by (apply IN; left; auto).
    rewrite Forall_forall in F. destruct (F _ I) as (_ & N). destruct (bars_entry times (k, cs) m N) as (q & EQ & HQ). exists (q :: l). split; [|constructor; auto].
    cbn [map mapM fst]. rewrite (find_entry (figures_of times) (sort key_order results) k cs); [|apply sort_nodup, LK|apply (Permutation_in _ (Permutation_sym (sort_perm key_order results))); auto].
    cbn [bind]. rewrite EQ. cbn [bind]. rewrite E. reflexivity. }
  destruct G as (l & -> & H). exists l. split; [reflexivity|exact H].
Qed.
Lemma by_size_keys {V} (results : list (Z * V)) ks : StronglySorted Z.le ks -> Permutation (map fst results) ks -> map fst (by_size results) = ks.
Proof.
  intros S P. apply (sorted_perm_eq Z.le); auto; [intros; lia|eapply sorted_map; [apply by_size_sorted|auto]|]. rewrite <- P. apply Permutation_map, sort_perm.
Qed.
