(** Repetition code and amplified scheme. *)
From Coq Require Import String ZArith List Bool Lia Arith.
From Verif Require Import GoBase BaseFacts EncodingModel EncodingProofs MatrixModel LWEModel LWESpec MatrixProofs LWEProofs LWEProofs2 LWEProofs3.
Import ListNotations.
Open Scope Z_scope.
Open Scope go_scope.

(** ** repetition code *)
Lemma filter_occ v l : length (filter (Z.eqb v) l) = occurrences v l.
Proof.
  unfold occurrences. induction l as [|x l IH]; cbn [filter count_occ length]; auto.
  destruct (Z.eqb_spec v x), (Z.eq_dec x v); try congruence; cbn [length]; lia.
Qed.

Lemma decode_cases l : l <> [] -> ecc_decode l =
  if (length l <? 2 * occurrences (hd 0%Z l) l)%nat then Ok (hd 0 l) else Err "impossible to find a decoded word".
Proof.
  destruct l as [|x l]; [congruence|]. intros _. unfold ecc_decode.
  rewrite (go_index_ok _ _ 0) by (unfold zlen; cbn [length]; lia). change (Z.to_nat 0) with 0%nat. cbn [bind nth hd].
  rewrite filter_occ. unfold zlen. rewrite Z.quot_div_nonneg by lia.
  set (n := length (x :: l)). set (c := occurrences x (x :: l)).
  pose proof (Z.div_mod (Z.of_nat n) 2 ltac:(lia)). pose proof (Z.mod_pos_bound (Z.of_nat n) 2 ltac:(lia)).
  destruct (Z.ltb_spec (Z.of_nat n / 2) (Z.of_nat c)), (Nat.ltb_spec n (2 * c)); auto; lia.
Qed.

Theorem decode_iff l v : ecc_decode l = Ok v <-> exists rest, l = v :: rest /\ (length l < 2 * occurrences v l)%nat.
Proof.
  split.
  - intros E. destruct l as [|x l]; [discriminate|]. rewrite decode_cases in E by congruence. cbn [hd] in E.
    destruct (Nat.ltb_spec (length (x :: l)) (2 * occurrences x (x :: l))); inversion E; subst. eauto.
  - intros (rest & -> & H). rewrite decode_cases by congruence. cbn [hd].
    destruct (Nat.ltb_spec (length (v :: rest)) (2 * occurrences v (v :: rest))); auto. lia.
Qed.

Theorem decode_majority l v : ecc_decode l = Ok v -> (length l < 2 * occurrences v l)%nat.
Proof. intros E. apply decode_iff in E as (rest & _ & H). auto. Qed.

(** errors of a received word with respect to the code word of x *)
Lemma occ_errors x l : (occurrences x l + errors x l = length l)%nat.
Proof.
  unfold occurrences, errors. induction l as [|y l IH]; cbn [count_occ filter length]; auto.
  destruct (Z.eq_dec y x), (Z.eqb_spec y x); try congruence; cbn [negb length]; lia.
Qed.

Theorem decode_corrects t x l : length l = (2 * t + 1)%nat -> (errors x l <= t)%nat ->
  hd 0 l = x -> ecc_decode l = Ok x.
Proof.
  intros L E H. apply decode_iff. destruct l as [|y l]; cbn [hd] in H; [cbn in L; lia|]. subst y. exists l. split; auto.
  pose proof (occ_errors x (x :: l)). lia.
Qed.

Theorem decode_first_error t x y l : length l = (2 * t + 1)%nat -> (errors x l <= t)%nat ->
  hd x l = y -> y <> x -> ecc_decode l = Err "impossible to find a decoded word".
Proof.
  intros L E H N. destruct l as [|z l]; [cbn in L; lia|]. cbn [hd] in H. subst z.
  rewrite decode_cases by congruence. cbn [hd].
  destruct (Nat.ltb_spec (length (y :: l)) (2 * occurrences y (y :: l))); auto. exfalso.
  pose proof (occ_errors x (y :: l)).
  assert (occurrences y (y :: l) <= errors x (y :: l))%nat.
  { clear - N. unfold errors. induction (y :: l) as [|z k IH]; cbn [filter]; unfold occurrences in *; cbn [count_occ]; auto.
    destruct (Z.eq_dec z y), (Z.eqb_spec z x); try congruence; cbn [negb length]; lia. }
  lia.
Qed.

Lemma encode_word t x : length (ecc_encode t x) = (2 * t + 1)%nat /\ Forall (eq x) (ecc_encode t x).
Proof. unfold ecc_encode. rewrite repeat_length. split; auto. apply Forall_forall. intros y H. apply repeat_spec in H. auto. Qed.

(** ** repetitions *)
Lemma outputs_ok p : forall sts as' outs pre, Forall2 (fun sa o => lwe_reconstruct32 p (fst sa) (snd sa) = Ok o) (combine sts as') outs ->
  length as' = length sts -> amplify_outputs p sts (pre ++ as') (length pre) = Ok outs.
Proof.
  induction sts as [|st sts IH]; intros [|a as'] outs pre F L; cbn [length combine] in *; try lia.
  - inversion F; subst. auto.
  - inversion F as [|? o ? os E F']; subst. cbn [fst snd] in E. cbn [amplify_outputs].
    rewrite (go_index_ok _ _ a) by (unfold zlen; rewrite app_length; cbn [length]; lia).
    rewrite Nat2Z.id, app_nth2, Nat.sub_diag by lia. cbn [nth bind]. rewrite E.
    replace (pre ++ a :: as') with ((pre ++ [a]) ++ as') by (rewrite <- app_assoc; auto).
    specialize (IH as' os (pre ++ [a]) F' ltac:(lia)). rewrite app_length in IH. cbn [length] in IH. rewrite Nat.add_1_r in IH. rewrite IH. auto.
Qed.

Lemma outputs_inv p : forall sts as' outs pre, amplify_outputs p sts (pre ++ as') (length pre) = Ok outs -> length as' = length sts ->
  Forall2 (fun sa o => lwe_reconstruct32 p (fst sa) (snd sa) = Ok o) (combine sts as') outs.
Proof.
  induction sts as [|st sts IH]; intros [|a as'] outs pre E L; cbn [length combine] in *; try lia.
  - inversion E; subst. auto.
  - cbn [amplify_outputs] in E.
    rewrite (go_index_ok _ _ a) in E by (unfold zlen; rewrite app_length; cbn [length]; lia).
    rewrite Nat2Z.id, app_nth2, Nat.sub_diag in E by lia. cbn [nth bind] in E.
    destruct (lwe_reconstruct32 p st a) as [o| | |] eqn:E1; try discriminate.
    destruct (amplify_outputs p sts (pre ++ a :: as') (S (length pre))) as [os| | |] eqn:E2; try discriminate. cbn [bind] in E.
    inversion E; subst. constructor; auto. apply (IH as' os (pre ++ [a])); [|lia].
    rewrite <- app_assoc, app_length. cbn [length app]. rewrite Nat.add_1_r. auto.
Qed.

Lemma outputs_reject p : forall sts as' pre, length as' = length sts ->
  Forall (fun sa => (exists o, lwe_reconstruct32 p (fst sa) (snd sa) = Ok o) \/ (exists e, lwe_reconstruct32 p (fst sa) (snd sa) = Err e)) (combine sts as') ->
  Exists (fun sa => exists e, lwe_reconstruct32 p (fst sa) (snd sa) = Err e) (combine sts as') ->
  amplify_outputs p sts (pre ++ as') (length pre) = Err "REJECT".
Proof.
  induction sts as [|st sts IH]; intros [|a as'] pre L F X; cbn [length combine] in *; try lia.
  - inversion X.
  - inversion F as [|? ? F1 F2]; subst. cbn [fst snd] in F1. cbn [amplify_outputs].
    rewrite (go_index_ok _ _ a) by (unfold zlen; rewrite app_length; cbn [length]; lia).
    rewrite Nat2Z.id, app_nth2, Nat.sub_diag by lia. cbn [nth bind].
    destruct F1 as [(o & E)|(e & E)].
    + rewrite E. inversion X as [? ? (e & E')|? ? X']; subst; [cbn [fst snd] in E'; congruence|].
      replace (pre ++ a :: as') with ((pre ++ [a]) ++ as') by (rewrite <- app_assoc; auto).
      specialize (IH as' (pre ++ [a]) ltac:(lia) F2 X'). rewrite app_length in IH. cbn [length] in IH. rewrite Nat.add_1_r in IH. rewrite IH. auto.
    + rewrite E. auto.
Qed.

(** ** whole amplified sessions *)
Lemma matrices_roundtrip' K ms : ms <> [] -> Forall (fun m => exact_shape m 1 K /\ words w32 m) ms ->
  8 + 4 * Z.of_nat K < 2 ^ 32 -> zlen ms < 2 ^ 32 -> exists b, matrices_to_bytes ms = Ok b /\ bytes_to_matrices b = Ok ms.
Proof.
  intros NE F HK HL. change (2 ^ 32) with w32 in *. destruct ms as [|m0 ms]; [congruence|].
  inversion F as [|? ? (((R0 & C0 & _) & L0) & W0) F']; subst.
  apply matrices_roundtrip.
  - unfold is_u32, w32. lia.
  - unfold is_u32. lia.
  - eapply Forall_impl; [|exact F']. intros m (((R & C & _) & L) & W). conj_split; congruence.
  - eapply Forall_impl; [|exact F]. intros m (_ & W). exact W.
  - unfold is_u32, zlen. lia.
  - unfold is_u32. unfold zlen in *. lia.
Qed.

Definition rep_ok (p : lwe_params) (db : matrix) (L M : nat) (i j : nat) (c : lwe_coins) (sq : lwe_state * matrix) (a : matrix) : Prop :=
  exact_shape (snd sq) 1 L /\ words w32 (snd sq) /\ lwe_answer w32 db (snd sq) = Ok a /\ exact_shape a 1 M /\ words w32 a /\
  lwe_reconstruct32 p (fst sq) a =
      session_value w32 (in_range32 (lp_b p)) (le_dec (c_t c)) (fun k => noise (c_noise c) db L k + le_dec (c_t c) * elem db i k) M j /\
  forall delta, length delta = M -> lwe_reconstruct32 p (fst sq) (deviated w32 a delta) =
      session_value w32 (in_range32 (lp_b p)) (le_dec (c_t c)) (fun k => noise (c_noise c) db L k + le_dec (c_t c) * elem db i k + nth k delta 0) M j.

Lemma amplify_run p abytes dmem db L M N (i j : nat) : deployment p db L M N -> (i < L)%nat -> (j < M)%nat -> forall cs, cs <> [] ->
  Forall (fun c => drawn 4 abytes c L N) cs -> exists dg sqs ans, lwe_digest w32 (new_random_of_bytes (lp_n p) (lp_l p) abytes dmem) db = Ok dg /\
   amplify_query p abytes dg cs (Z.of_nat i) (Z.of_nat j) = Ok sqs /\ amplify_answer db (map snd sqs) = Ok ans /\
   length sqs = length cs /\ length ans = length cs /\
   forall k, (k < length cs)%nat -> forall dc ds da, rep_ok p db L M i j (nth k cs dc) (nth k sqs ds) (nth k ans da).
Proof.
  intros DE Hi Hj cs NE F.
  destruct cs as [|c0 cs0]; [congruence|]. clear NE.
  pose proof F as F0. inversion F0 as [|? ? D0 _]; subst.
  destruct (rep32 p abytes dmem db c0 L M N i j DE D0 Hi Hj) as (dg & _ & _ & _ & ED & _).
  exists dg. revert F. generalize (c0 :: cs0). clear D0 F0 c0 cs0. induction l as [|c cs IH]; intros F.
  - exists [], []. conj_split; auto. intros k Hk. cbn in Hk. lia.
  - inversion F as [|? ? D F']; subst. destruct (IH F') as (sqs & ans & E0 & E1 & E2 & L1 & L2 & R).
    destruct (rep32 p abytes dmem db c L M N i j DE D Hi Hj) as (dg' & st & q & a & ED' & EQ & S1 & W1 & EA & S2 & W2 & R1 & R2).
    assert (dg' = dg) by congruence. subst dg'.
    exists ((st, q) :: sqs), (a :: ans). conj_split; auto.
    + unfold amplify_query in *. cbn [mapM]. rewrite EQ. cbn [bind]. rewrite E1. auto.
    + unfold amplify_answer in *. cbn [map mapM snd]. unfold lwe_answer in EA. rewrite EA. cbn [bind]. rewrite E2. auto.
    + cbn [length]. lia.
    + cbn [length]. lia.
    + intros [|k] Hk dc ds da; cbn [nth].
      * unfold rep_ok. cbn [fst snd]. conj_split; auto.
      * apply R. cbn [length] in Hk. lia.
Qed.

Lemma Forall_nth' {A} (P : A -> Prop) l d : (forall k, (k < length l)%nat -> P (nth k l d)) -> Forall P l.
Proof. intros H. apply Forall_forall. intros x Hx. apply (In_nth _ _ d) in Hx as (k & Hk & <-). auto. Qed.

Lemma Forall2_nth' {A B} (P : A -> B -> Prop) da db : forall l m, length l = length m ->
  (forall k, (k < length l)%nat -> P (nth k l da) (nth k m db)) -> Forall2 P l m.
Proof.
  induction l; intros [|b m] L H; cbn [length] in L; try lia; constructor.
  - apply (H 0%nat). cbn; lia.
  - apply IHl. lia. intros k Hk. apply (H (S k)). cbn [length]. lia.
Qed.
Lemma Forall2_nth_inv {A B} (P : A -> B -> Prop) da db : forall l m, Forall2 P l m -> forall k, (k < length l)%nat -> P (nth k l da) (nth k m db).
Proof. induction 1; intros [|k] Hk; cbn [length nth] in *; try lia; auto. apply IHForall2. lia. Qed.

Lemma Forall2_length' {A B} (P : A -> B -> Prop) l m : Forall2 P l m -> length l = length m.
Proof. induction 1; cbn [length]; auto. Qed.

Definition coin0 : lwe_coins := mkC [] [] [] (fun _ => 0) (fun _ => 0) (fun _ => 0).
Definition mat0 : matrix := mkM 0 0 [].
Definition st0 : lwe_state := mkS mat0 mat0 0 0 0.

Lemma nth_combine {A B} (a : list A) (b : list B) k da db : length a = length b -> nth k (combine a b) (da, db) = (nth k a da, nth k b db).
Proof. intros. apply combine_nth. auto. Qed.

(** value of a deviating session *)
Lemma amplify_deviating_value p abytes dmem db cs L M N index deltas : deployment p db L M N -> cs <> [] ->
  Forall (fun c => drawn 4 abytes c L N) cs -> 8 + 4 * Z.of_nat L < 2 ^ 32 -> 8 + 4 * Z.of_nat M < 2 ^ 32 -> zlen cs < 2 ^ 32 ->
  0 <= index < Z.of_nat L * Z.of_nat M -> length deltas = length cs -> Forall (fun d => length d = M) deltas ->
  exists i j, (i < L)%nat /\ (j < M)%nat /\ Z.to_nat index = (M * i + j)%nat /\
  exists sts as', length sts = length cs /\ length as' = length cs /\
    amplify_session p abytes dmem db cs (amplify_deviating db deltas) index = amplify_reconstruct p sts as' /\
    forall k, (k < length cs)%nat -> let c := nth k cs coin0 in lwe_reconstruct32 p (nth k sts st0) (nth k as' mat0) =
      session_value w32 (in_range32 (lp_b p)) (le_dec (c_t c))
        (fun l => noise (c_noise c) db L l + le_dec (c_t c) * elem db i l + nth l (nth k deltas []) 0) M j.
Proof.
  intros DE NE F HL HM HC HI LD FD.
  destruct (index_split L M index HI) as (i & j & Hi & Hj & EI & TI). exists i, j. split; [exact Hi|]. split; [exact Hj|]. split; [exact TI|].
  destruct (amplify_run p abytes dmem db L M N i j DE Hi Hj cs NE F) as (dg & sqs & ans & ED & EQ & EA & L1 & L2 & R).
  set (as' := map (fun ad => deviated w32 (fst ad) (snd ad)) (combine ans deltas)).
  assert (LA : length as' = length cs) by (unfold as'; rewrite map_length, combine_length; lia).
  assert (NA : forall k, (k < length cs)%nat -> nth k as' mat0 = deviated w32 (nth k ans mat0) (nth k deltas [])).
  { intros k Hk. unfold as'. rewrite (nth_indep _ mat0 ((fun ad => deviated w32 (fst ad) (snd ad)) (mat0, []))) by (rewrite map_length, combine_length; lia).
    rewrite (map_nth (fun ad => deviated w32 (fst ad) (snd ad))). rewrite nth_combine by lia. auto. }
  assert (FDk : forall k, (k < length cs)%nat -> length (nth k deltas []) = M).
  { intros k Hk. apply (proj1 (Forall_forall _ _) FD). apply nth_In. lia. }
  exists (map fst sqs), as'. split; [rewrite map_length; lia|]. split; [exact LA|]. split.
  - destruct DE as (HD & BD & PL & PM & PN & N0 & RL & RM). destruct cs as [|c0 cs0]; [congruence|].
    unfold amplify_session. rewrite ED. cbn [bind]. rewrite PM, EI. cbn [bind fst snd]. rewrite EQ. cbn [bind].
    destruct (matrices_roundtrip' L (map snd sqs)) as (b & EB & RB).
    + destruct sqs; [cbn in L1; lia|cbn; congruence].
    + apply (Forall_nth' _ _ mat0). intros k Hk. rewrite map_length in Hk.
      destruct (R k ltac:(lia) coin0 (st0, mat0) mat0) as (S1 & W1 & _).
      rewrite (nth_indep _ mat0 (snd (st0, mat0))) by (rewrite map_length; auto). rewrite map_nth. auto.
    + lia.
    + unfold zlen in *. rewrite map_length. lia.
    + rewrite EB. cbn [bind]. unfold amplify_deviating. rewrite RB. cbn [bind]. rewrite EA. cbn [bind]. fold as'.
      destruct (matrices_roundtrip' M as') as (b2 & EB2 & RB2).
      * destruct as'; [cbn in LA; lia|cbn; congruence].
      * apply (Forall_nth' _ _ mat0). intros k Hk. rewrite NA by lia. split.
        { destruct (R k ltac:(lia) coin0 (st0, mat0) mat0) as (_ & _ & _ & S2 & _). apply deviated_shape; auto. reflexivity. apply FDk. lia. }
        { apply deviated_words. reflexivity. }
      * lia.
      * unfold zlen in *. lia.
      * rewrite EB2. cbn [bind]. unfold amplify_reconstruct_bytes. rewrite RB2. auto.
  - intros k Hk c. rewrite NA by auto. destruct (R k Hk coin0 (st0, mat0) mat0) as (_ & _ & _ & _ & _ & _ & R2).
    rewrite (nth_indep _ st0 (fst (st0, mat0))) by (rewrite map_length; lia). rewrite map_nth. apply R2. apply FDk; auto.
Qed.

(** an honest server is the one with zero deviation *)
Lemma deviated_zero w a M : exact_shape a 1 M -> words w a -> deviated w a (repeat 0 M) = a.
Proof.
  intros ((Ra & Ca & _) & La) W. unfold deviated. destruct a as [r c d]. cbn [m_rows m_cols m_data] in *. f_equal.
  rewrite Nat.mul_1_l in La. subst M. unfold words in W. cbn [m_data] in W. clear -W. induction d as [|x d IH]; cbn [length repeat combine map fst snd]; auto.
  inversion W; subst. rewrite IH by auto. rewrite Z.add_0_r, Z.mod_small by auto. auto.
Qed.

Lemma amplify_honest_deviating p abytes dmem db cs L M N index : deployment p db L M N -> cs <> [] ->
  Forall (fun c => drawn 4 abytes c L N) cs -> 8 + 4 * Z.of_nat L < 2 ^ 32 -> 8 + 4 * Z.of_nat M < 2 ^ 32 -> zlen cs < 2 ^ 32 ->
  0 <= index < Z.of_nat L * Z.of_nat M ->
  amplify_session p abytes dmem db cs (amplify_answer_bytes db) index =
  amplify_session p abytes dmem db cs (amplify_deviating db (repeat (repeat 0 M) (length cs))) index.
Proof.
  intros DE NE F HL HM HC HI.
  destruct (index_split L M index HI) as (i & j & Hi & Hj & EI & TI).
  destruct (amplify_run p abytes dmem db L M N i j DE Hi Hj cs NE F) as (dg & sqs & ans & ED & EQ & EA & L1 & L2 & R).
  destruct DE as (HD & BD & PL & PM & PN & N0 & RL & RM). destruct cs as [|c0 cs0]; [congruence|].
  unfold amplify_session. rewrite ED. cbn [bind]. rewrite PM, EI. cbn [bind fst snd]. rewrite EQ. cbn [bind].
  destruct (matrices_roundtrip' L (map snd sqs)) as (b & EB & RB).
  + destruct sqs; [cbn in L1; lia|cbn; congruence].
  + apply (Forall_nth' _ _ mat0). intros k Hk. rewrite map_length in Hk.
    destruct (R k ltac:(lia) coin0 (st0, mat0) mat0) as (S1 & W1 & _).
    rewrite (nth_indep _ mat0 (snd (st0, mat0))) by (rewrite map_length; auto). rewrite map_nth. auto.
  + lia.
  + unfold zlen in *. rewrite map_length. lia.
  + rewrite EB. cbn [bind]. unfold amplify_deviating, amplify_answer_bytes. rewrite RB. cbn [bind]. rewrite EA. cbn [bind].
    f_equal. f_equal.
    assert (FA : Forall (fun a => exact_shape a 1 M /\ words w32 a) ans).
    { apply (Forall_nth' _ _ mat0). intros k Hk. destruct (R k ltac:(lia) coin0 (st0, mat0) mat0) as (_ & _ & _ & S2 & W2 & _). auto. }
    rewrite <- L2. clear -FA. induction ans as [|a ans IH]; cbn [length repeat combine map fst snd]; auto.
    inversion FA as [|? ? [S W] FA']; subst. rewrite deviated_zero by auto. f_equal. auto.
Qed.

Lemma occ_repeat x n : occurrences x (repeat x n) = n.
Proof. unfold occurrences. induction n; cbn [repeat count_occ]; auto. destruct (Z.eq_dec x x); congruence. Qed.

Theorem amplify_correct p abytes dmem db cs rows cols n index : deployment p db rows cols n -> cs <> [] ->
  Forall (fun c => drawn 4 abytes c rows n /\
    (forall k, (k < cols)%nat -> Z.abs (noise (c_noise c) db rows k) < lp_b p) /\
    2 * lp_b p - 1 <= le_dec (c_t c) <= 2 ^ 32 - (2 * lp_b p - 1)) cs ->
  8 + 4 * Z.of_nat rows < 2 ^ 32 -> 8 + 4 * Z.of_nat cols < 2 ^ 32 -> zlen cs < 2 ^ 32 -> lp_b p < 2 ^ 32 ->
  0 <= index < Z.of_nat rows * Z.of_nat cols ->
  amplify_session p abytes dmem db cs (amplify_answer_bytes db) index = Ok (nth (Z.to_nat index) (m_data db) 0).
Proof.
  intros DE NE F HL HM HC HB HI.
  assert (FD : Forall (fun c => drawn 4 abytes c rows n) cs) by (eapply Forall_impl; [|exact F]; intros c (D & _); auto).
  rewrite (amplify_honest_deviating p abytes dmem db cs rows cols n) by auto.
  destruct (amplify_deviating_value p abytes dmem db cs rows cols n index (repeat (repeat 0 cols) (length cs)) DE NE FD HL HM HC HI) as
    (i & j & Hi & Hj & TI & sts & as' & L1 & L2 & E & R).
  { apply repeat_length. }
  { apply Forall_forall. intros x Hx. apply repeat_spec in Hx. subst. apply repeat_length. }
  rewrite E. unfold amplify_reconstruct.
  destruct DE as (HD & BD & _).
  change (amplify_outputs p sts as' 0) with (amplify_outputs p sts ([] ++ as') (length (@nil matrix))).
  rewrite (outputs_ok p sts as' (repeat (elem db i j) (length cs)) []); auto; try lia.
  - cbn [bind]. rewrite TI, <- (elem_index db rows cols i j HD Hi Hj). apply decode_iff.
    destruct cs as [|c0 cs0]; [congruence|]. exists (repeat (elem db i j) (length cs0)). split. auto.
    rewrite occ_repeat, repeat_length. cbn [length]. lia.
  - apply (Forall2_nth' _ (st0, mat0) 0). rewrite combine_length, repeat_length. lia.
    intros k Hk. rewrite combine_length in Hk. rewrite nth_combine by lia. cbn [fst snd]. rewrite R by lia.
    assert (Hk' : (k < length cs)%nat) by lia.
    destruct (proj1 (Forall_forall _ _) F (nth k cs coin0) ltac:(apply nth_In; auto)) as (D & HN & Ht). set (c := nth k cs coin0) in *.
    rewrite (session_value_ext _ _ _ _ (fun l => noise (c_noise c) db rows l + le_dec (c_t c) * elem db i l)).
    2:{ intros l. f_equal. rewrite (nth_indep _ [] (repeat 0 cols)) by (rewrite repeat_length; lia). rewrite !nth_repeat. lia. }
    change (2 ^ 32) with w32 in *. pose proof (t_bound32 _ _ _ _ D) as Hb.
    assert (0 < lp_b p) by (specialize (HN j Hj); lia).
    rewrite (value_honest w32 (in_range32 (lp_b p)) (lp_b p - 1) (lp_b p - 1) db rows cols i j (noise (c_noise c) db rows)); try lia; auto.
    2: apply range32; lia. 2: intros l Hl; specialize (HN l Hl); lia.

    assert (ER : nth k (repeat (elem db i j) (length cs)) 0 = elem db i j).
    { rewrite (nth_indep _ 0 (elem db i j)) by (rewrite repeat_length; auto). apply nth_repeat. }
    rewrite ER. destruct (elem_in (fun x => x = 0 \/ x = 1) db rows cols i j (proj1 HD) BD Hi Hj) as [E0|E0]; rewrite E0; cbn [Z.eqb]; auto.
    specialize (HN j Hj). rewrite (inr_far w32 _ (lp_b p - 1) (lp_b p - 1)); auto; try lia. apply range32. lia.
Qed.

(** accepting the wrong bit needs a majority of guessed scaling secrets *)
Lemma hits_outs (v : Z) : forall ts bads outs, length bads = length ts -> length outs = length ts ->
  (forall k, (k < length ts)%nat -> nth k outs 0 = v -> In (le_dec (nth k ts [])) (nth k bads [])) ->
  (occurrences v outs <= hits ts bads)%nat.
Proof.
  unfold hits, occurrences. induction ts as [|t ts IH]; intros [|b bads] [|o outs] L1 L2 H; cbn [length] in *; try lia; cbn [combine filter count_occ fst snd]; auto.
  specialize (IH bads outs ltac:(lia) ltac:(lia) ltac:(intros k Hk; apply (H (S k)); lia)).
  destruct (Z.eq_dec o v) as [->|N].
  - specialize (H 0%nat ltac:(lia) eq_refl). cbn [nth] in H.
    assert (EB : existsb (Z.eqb (le_dec t)) b = true) by (apply existsb_exists; exists (le_dec t); split; auto; apply Z.eqb_refl).
    rewrite EB. cbn [length]. lia.
  - destruct (existsb _ b); cbn [length]; lia.
Qed.

Theorem amplify_cheating p abytes dmem db cs rows cols n index deltas : deployment p db rows cols n -> cs <> [] ->
  Forall (fun c => drawn 4 abytes c rows n) cs ->
  8 + 4 * Z.of_nat rows < 2 ^ 32 -> 8 + 4 * Z.of_nat cols < 2 ^ 32 -> zlen cs < 2 ^ 32 -> 0 < lp_b p < 2 ^ 32 ->
  0 <= index < Z.of_nat rows * Z.of_nat cols -> length deltas = length cs -> Forall (fun d => length d = cols) deltas ->
  exists bads, length bads = length cs /\ Forall (fun bad => Z.of_nat (length bad) <= 2 * lp_b p - 1) bads /\
    forall ts b, length ts = length cs -> Forall (fun t => bytes t /\ length t = 4%nat) ts ->
      amplify_session p abytes dmem db (map (fun ct => with_t (fst ct) (snd ct)) (combine cs ts)) (amplify_deviating db deltas) index = Ok b ->
      b <> nth (Z.to_nat index) (m_data db) 0 -> (length cs < 2 * hits ts bads)%nat.
Proof.
  intros DE NE F HL HM HC HB HI LD FD.
  destruct (index_split rows cols index HI) as (i & j & Hi & Hj & _ & TI). pose proof DE as (HD & BD & _).
  assert (HV : elem db i j = 0 \/ elem db i j = 1) by (apply (elem_in (fun x => x = 0 \/ x = 1) db rows cols i j); [apply HD|auto..]).
  assert (G : exists bads, length bads = length cs /\ Forall (fun bad => Z.of_nat (length bad) <= 2 * lp_b p - 1) bads /\
    forall k t, (k < length cs)%nat -> 0 <= t < w32 ->
      decode_one w32 (in_range32 (lp_b p)) t ((noise (c_noise (nth k cs coin0)) db rows j + t * elem db i j + nth j (nth k deltas []) 0) mod w32) = Ok (1 - elem db i j) ->
      In t (nth k bads [])).
  { clear F NE HC FD. revert deltas LD. induction cs as [|c cs IH]; intros [|d ds] LD; cbn [length] in LD; try lia.
    - exists []. conj_split; auto. intros k t Hk. cbn in Hk; lia.
    - destruct (IH ds ltac:(lia)) as (bads & L1 & F1 & H1). change (2 ^ 32) with w32 in HB.
      destruct (flip w32 (in_range32 (lp_b p)) (lp_b p - 1) (lp_b p - 1) (range32 _ HB) ltac:(lia) ltac:(lia) ltac:(lia) ltac:(lia)
        (noise (c_noise c) db rows j) (nth j d 0) (elem db i j) HV) as (bad & LB & HBad).
      exists (bad :: bads). conj_split.
      + cbn [length]. lia.
      + constructor; auto. lia.
      + intros [|k] t Hk Ht; cbn [nth]; auto. apply H1; auto. cbn [length] in Hk. lia. }
  destruct G as (bads & L1 & F1 & H1). exists bads. split; [exact L1|]. split; [exact F1|].
  intros ts b LT FT ES NB. set (cs' := map (fun ct => with_t (fst ct) (snd ct)) (combine cs ts)) in *.
  assert (LC : length cs' = length cs) by (unfold cs'; rewrite map_length, combine_length; lia).
  assert (NC : forall k, (k < length cs)%nat -> nth k cs' coin0 = with_t (nth k cs coin0) (nth k ts [])).
  { intros k Hk. unfold cs'. rewrite (nth_indep _ coin0 ((fun ct => with_t (fst ct) (snd ct)) (coin0, []))) by (rewrite map_length, combine_length; lia).
    rewrite (map_nth (fun ct => with_t (fst ct) (snd ct))). rewrite nth_combine by lia. auto. }
  assert (FC : Forall (fun c => drawn 4 abytes c rows n) cs').
  { apply (Forall_nth' _ _ coin0). intros k Hk. rewrite NC by lia.
    assert (Hk' : (k < length ts)%nat) by lia.
    destruct (proj1 (Forall_forall _ _) FT (nth k ts []) ltac:(apply nth_In; auto)) as (B4 & L4).
    assert (Hk2 : (k < length cs)%nat) by lia.
    destruct (proj1 (Forall_forall _ _) F (nth k cs coin0) ltac:(apply nth_In; auto)) as (D1 & D2 & _ & _ & D5 & D6 & D7).
    unfold drawn, with_t. cbn [c_t c_secret c_noise]. conj_split; auto. }
  destruct (amplify_deviating_value p abytes dmem db cs' rows cols n index deltas DE) as (i' & j' & Hi' & Hj' & TI' & sts & as' & L2 & L3 & E & R); auto; try lia.
  { destruct cs'; [destruct cs; [congruence|cbn in LC; lia]|congruence]. }
  { unfold zlen in *. lia. }
  assert (i' = i /\ j' = j) as [-> ->] by (apply (row_major_inj cols); auto; lia).
  rewrite E in ES. unfold amplify_reconstruct in ES.
  change (amplify_outputs p sts as' 0) with (amplify_outputs p sts ([] ++ as') (length (@nil matrix))) in ES.
  destruct (amplify_outputs p sts ([] ++ as') (length (@nil matrix))) as [outs| | |] eqn:EO; try discriminate. cbn [bind] in ES.
  apply outputs_inv in EO; [|lia]. pose proof (Forall2_length' _ _ _ EO) as LO. rewrite combine_length in LO.
  apply decode_majority in ES.
  assert (OC : (occurrences b outs <= hits ts bads)%nat).
  { apply hits_outs; try lia. intros k Hk Eb.
    pose proof (Forall2_nth_inv _ (st0, mat0) 0 _ _ EO k ltac:(rewrite combine_length; lia)) as EK. cbv beta in EK.
    rewrite nth_combine in EK by lia. cbn [fst snd] in EK. rewrite R in EK by lia. rewrite NC in EK by lia.
    apply session_value_inv in EK; auto. cbn [with_t c_t c_noise] in EK.
    apply H1; try lia.
    - assert (Hk2 : (k < length ts)%nat) by lia. destruct (proj1 (Forall_forall _ _) FT (nth k ts []) ltac:(apply nth_In; auto)) as (B4 & L4).
      pose proof (le_dec_bound _ B4) as HX. unfold zlen in HX. rewrite L4 in HX. exact HX.
    - pose proof (decode_values _ _ _ _ _ EK) as DV. rewrite EK. f_equal.
      rewrite TI, <- (elem_index db rows cols i j HD Hi Hj) in NB. rewrite Eb in *. lia. }
  lia.
Qed.

(** ** products as whole matrices *)
Lemma matrix_eq m m' r c : exact_shape m r c -> exact_shape m' r c -> (forall i j, (i < r)%nat -> (j < c)%nat -> elem m i j = elem m' i j) -> m = m'.
Proof.
  intros ((R & C & _ & P1 & P2) & L) ((R' & C' & _) & L') E. destruct m as [mr mc d], m' as [mr' mc' d']. cbn [m_rows m_cols m_data] in *.
  assert (d = d').
  { apply (nth_ext _ _ 0 0). lia. intros k Hk. specialize (E (k / c)%nat (k mod c)%nat).
    pose proof (Nat.div_mod k c ltac:(lia)). pose proof (Nat.mod_upper_bound k c ltac:(lia)).
    assert (k / c < r)%nat by (apply Nat.div_lt_upper_bound; nia). specialize (E ltac:(auto) ltac:(auto)).
    unfold elem in E. cbn [m_cols m_data] in E. rewrite C, C', Nat2Z.id in E. rewrite <- H in E. exact E. }
  subst. f_equal; congruence.
Qed.

Theorem mul_assoc w a b c r n l m : 0 < w -> stored w a r n -> stored w b n l -> stored w c l m ->
  (ab <- m_mul w a b ;; m_mul w ab c) = (bc <- m_mul w b c ;; m_mul w a bc).
Proof.
  intros Hw HA HB HC.
  destruct (mul_ok w a b r n l Hw HA HB) as (ab & E1 & S1 & W1 & N1).
  destruct (mul_ok w b c n l m Hw HB HC) as (bc & E2 & S2 & W2 & N2). rewrite E1, E2. cbn [bind].
  destruct (mul_ok w ab c r l m Hw (exact_stored _ _ _ _ S1) HC) as (x & E3 & S3 & W3 & N3).
  destruct (mul_ok w a bc r n m Hw HA (exact_stored _ _ _ _ S2)) as (y & E4 & S4 & W4 & N4). rewrite E3, E4. f_equal.
  apply (matrix_eq x y r m S3 S4). intros i j Hi Hj. rewrite N3, N4 by auto. unfold product_mod.
  rewrite (sum_to_ext l (fun k => elem ab i k * elem c k j) (fun k => (sum_to n (fun q => elem a i q * elem b q k) mod w) * elem c k j)).
  2:{ intros k Hk. rewrite N1 by auto. auto. }
  rewrite (sum_to_ext n (fun k => elem a i k * elem bc k j) (fun k => elem a i k * (sum_to l (fun q => elem b k q * elem c q j) mod w))).
  2:{ intros k Hk. rewrite N2 by auto. auto. }
  apply (product_assoc w n l (fun q => elem a i q) (fun k => elem c k j) (fun q k => elem b q k) Hw).
Qed.

Theorem binary_mul_is_mul k a b r n c : 0 < k -> stored (2 ^ k) a r n -> stored (2 ^ k) b n c -> words (2 ^ k) a -> binary b ->
  m_binary_mul (2 ^ k) a b = m_mul (2 ^ k) a b.
Proof.
  intros Hk HA HB WA BB. assert (Hw : 0 < 2 ^ k) by (apply Z.pow_pos_nonneg; lia).
  destruct (mul_ok (2 ^ k) a b r n c Hw HA HB) as (x & E1 & S1 & _ & N1).
  destruct (binary_mul_ok k a b r n c Hk HA (proj1 HB) WA BB) as (y & E2 & S2 & _ & N2). rewrite E1, E2. f_equal.
  apply (matrix_eq y x r c S2 S1). intros i j Hi Hj. rewrite N1, N2 by auto. auto.
Qed.

(** ** random matrices *)
Theorem random_size r c b mem : 0 <= r -> 0 <= c -> zlen b = 4 * r * c ->
  zlen (m_data (new_random_of_bytes r c b mem)) = 4 * r * c /\
  zlen (matrix_to_bytes (new_random_of_bytes r c b mem)) = 8 + 16 * r * c.
Proof.
  intros Hr Hc L. unfold zlen in *. 
  assert (E : length (m_data (new_random_of_bytes r c b mem)) = length b).
  { unfold new_random_of_bytes. cbn [m_data]. rewrite app_length, !map_length. unfold range. rewrite seq_length.
    rewrite chunks_length by lia. pose proof (Nat.div_le_upper_bound (length b) 4 (length b) ltac:(lia) ltac:(lia)). lia. }
  split. lia. pose proof (matrix_to_bytes_length (new_random_of_bytes r c b mem)) as HM. unfold zlen in HM. lia.
Qed.

Theorem random128_size r c b : 0 <= r -> 0 <= c -> zlen b = 16 * r * c -> zlen (m_data (new_random128_of_bytes r c b)) = r * c.
Proof.
  intros Hr Hc L. unfold zlen in *. unfold new_random128_of_bytes. cbn [m_data]. rewrite map_length.
  rewrite (chunks_len 16 ltac:(lia) (Z.to_nat (r * c))) by nia. nia.
Qed.

(** ** random binary databases *)
Lemma binary_fill_ok data : bytes data -> forall n i, Z.of_nat (i + n) <= 8 * zlen data ->
  exists l, binary_fill data i n = Ok l /\ length l = n /\
    forall k, (k < n)%nat -> nth k l 0 = Z.b2z (Z.testbit (nth ((i + k) / 8) data 0) (Z.of_nat ((i + k) mod 8))).
Proof.
  intros B. induction n; intros i H; cbn [binary_fill].
  - exists []. conj_split; auto. intros; lia.
  - assert (HQ : Z.of_nat i / 8 < zlen data) by (apply Z.div_lt_upper_bound; lia).
    rewrite (go_index_ok _ _ 0) by (split; [apply Z.div_pos; lia|lia]). cbn [bind].
    destruct (IHn (S i) ltac:(lia)) as (l & E & L & N). rewrite E. cbn [bind].
    eexists. split; [reflexivity|]. split; [cbn [length]; lia|]. intros [|k] Hk; cbn [nth].
    + rewrite Nat.add_0_r. change 8 with (Z.of_nat 8). rewrite <- Nat2Z.inj_div, <- Nat2Z.inj_mod, Nat2Z.id.
      rewrite (Z.land_ones _ 1) by lia. rewrite <- Z.bit0_mod, Z.shiftr_spec by lia. auto.
    + rewrite N by lia. replace (S i + k)%nat with (i + S k)%nat by lia. auto.
Qed.

Theorem random_binary rows cols rnd : (0 < rows)%nat -> (0 < cols)%nat -> bytes rnd -> zlen rnd = Z.of_nat rows * Z.of_nat cols / 8 + 1 ->
  exists m, create_random_binary rnd (Z.of_nat rows) (Z.of_nat cols) = Ok m /\ exact_shape m rows cols /\ binary m /\
    forall k, (k < rows * cols)%nat -> nth k (m_data m) 0 = Z.b2z (Z.testbit (nth (k / 8) rnd 0) (Z.of_nat (k mod 8))).
Proof.
  intros Hr Hc B L. unfold create_random_binary, m_new, go_make.
  destruct (Z.ltb_spec (Z.of_nat rows * Z.of_nat cols) 0); [lia|]. cbn [bind].
  rewrite Z.quot_div_nonneg by lia. pose proof (Z.div_pos (Z.of_nat rows * Z.of_nat cols) 8 ltac:(lia) ltac:(lia)).
  destruct (Z.ltb_spec (Z.of_nat rows * Z.of_nat cols / 8 + 1) 0); [lia|]. cbn [bind m_data]. rewrite repeat_length.
  assert (EC : go_copy (repeat 0 (Z.to_nat (Z.of_nat rows * Z.of_nat cols / 8 + 1))) rnd = rnd).
  { unfold go_copy. rewrite repeat_length. unfold zlen in L. rewrite firstn_all2 by lia. rewrite skipn_all2 by (rewrite repeat_length; lia). apply app_nil_r. }
  rewrite EC. replace (Z.to_nat (Z.of_nat rows * Z.of_nat cols)) with (rows * cols)%nat by lia.
  pose proof (Z.div_mod (Z.of_nat rows * Z.of_nat cols) 8 ltac:(lia)). pose proof (Z.mod_pos_bound (Z.of_nat rows * Z.of_nat cols) 8 ltac:(lia)).
  destruct (binary_fill_ok rnd B (rows * cols) 0 ltac:(lia)) as (l & E & LL & N). rewrite E. cbn [bind].
  eexists. split; [reflexivity|]. unfold exact_shape, shape, binary. cbn [m_rows m_cols m_data]. conj_split; auto; try lia.
  apply Forall_forall. intros x Hx. apply (In_nth _ _ 0) in Hx as (k & Hk & <-). rewrite N by lia. destruct (Z.testbit _ _); auto.
Qed.

(** ** square layout *)
Theorem square_layout n : 0 <= n -> let (r, c) := calculate_num_rows_and_columns n true in
  r = c /\ n <= r * c /\ forall s, 0 <= s -> n <= s * s -> r <= s.
Proof.
  intros H. unfold calculate_num_rows_and_columns, increase_to_next_square. pose proof (Z.sqrt_spec n H) as S. pose proof (Z.sqrt_nonneg n).
  destruct (Z.eqb_spec (Z.sqrt n * Z.sqrt n) n) as [E|E].
  - conj_split; auto. lia. intros s Hs Hn. rewrite <- (Z.sqrt_square s) by lia. apply Z.sqrt_le_mono. auto.
  - rewrite Z.sqrt_square by lia. unfold Z.succ in S. set (i := Z.sqrt n) in *. clearbody i. split; [auto|]. split; [nia|]. intros s Hs Hn.
    assert (i < s) by nia. lia.
Qed.

Theorem vector_layout n : calculate_num_rows_and_columns n false = (1, n).
Proof. auto. Qed.

(** ** accumulated noise beyond the bound *)
Lemma session_value_err w inr t v M j c e : (c < M)%nat -> decode_one w inr t (v c mod w) = Err e -> 
  session_value w inr t v M j = Err "REJECT".
Proof.
  intros Hc E. assert (G : forall n s, (s <= c < s + n)%nat -> mapM (fun c => decode_one w inr t (v c mod w)) (seq s n) = Err "REJECT").
  { assert (D : forall x, (exists o, decode_one w inr t x = Ok o) \/ decode_one w inr t x = Err "REJECT").
    { intros x. unfold decode_one. destruct (inr x); eauto. destruct (inr _); eauto. }
    induction n; intros s H; [lia|]. cbn [seq mapM]. destruct (D (v s mod w)) as [(o & Eo)|Ee].
    - rewrite Eo. cbn [bind]. destruct (Nat.eq_dec s c) as [->|N]; [congruence|]. rewrite IHn by lia. auto.
    - rewrite Ee. auto. }
  unfold session_value. rewrite G by lia. auto.
Qed.

Lemma noise_const g r rows cols k : (k < cols)%nat -> noise (repeat g rows) (mkM r (Z.of_nat cols) (repeat 1 (rows * cols))) rows k = g * Z.of_nat rows.
Proof.
  intros Hk. unfold noise.
  assert (G : forall n, (n <= rows)%nat -> sum_to n (fun q => nth q (repeat g rows) 0 * elem (mkM r (Z.of_nat cols) (repeat 1 (rows * cols))) q k) = g * Z.of_nat n).
  { induction n; intros Hn. unfold sum_to. cbn. lia. rewrite sum_to_S, IHn by lia.
    rewrite (nth_indep _ 0 g) by (rewrite repeat_length; lia). rewrite nth_repeat. unfold elem. cbn [m_cols m_data]. rewrite Nat2Z.id.
    rewrite (nth_indep _ 0 1) by (rewrite repeat_length; nia). rewrite nth_repeat. lia. }
  apply G. lia.
Qed.

(** With the deployed bound 84*rows and the largest sample of the deployed sampler, an honest server is rejected. *)
Theorem lwe32_default_reject rows cols abytes dmem c index :
  let p := params_32 (Z.of_nat rows) (Z.of_nat cols) in
  let db := mkM (Z.of_nat rows) (Z.of_nat cols) (repeat 1 (rows * cols)) in
  (0 < rows)%nat -> (0 < cols)%nat -> 212 * Z.of_nat rows <= 2 ^ 32 -> Z.of_nat cols < 2 ^ 32 -> drawn 4 abytes c rows (Z.to_nat 1100) ->
  0 <= index < Z.of_nat rows * Z.of_nat cols -> c_noise c = repeat 128 rows ->
  le_dec (c_t c) <= 2 ^ 32 - 212 * Z.of_nat rows ->
  lwe_session32 p abytes dmem db c (lwe_answer_bytes32 db) index = Err "REJECT".
Proof.
  intros p db Hr Hc HR HC DR HI EN Ht. change (2 ^ 32) with w32 in *. pose proof (t_bound32 _ _ _ _ DR) as Hb.
  assert (EB : lp_b p = 84 * Z.of_nat rows).
  { unfold p, params_32, compute_B. cbn [lp_b]. unfold u32. rewrite Z.mod_small; lia. }
  assert (DE : deployment p db rows cols (Z.to_nat 1100)).
  { unfold deployment, exact_shape, shape, binary, p, db, params_32. cbn [lp_l lp_m lp_n m_rows m_cols m_data]. rewrite repeat_length.
    conj_split; auto; try (change (2 ^ 32) with w32; lia). apply Forall_forall. intros x Hx. apply repeat_spec in Hx. auto. }
  destruct (session32_value p abytes dmem db c rows cols _ index DE DR HI) as (i & j & Hi & Hj & TI & E & _). rewrite E.
  assert (OUT : forall v, lp_b p <= v <= w32 - lp_b p -> in_range32 (lp_b p) (v mod w32) = false).
  { intros v Hv. rewrite Z.mod_small by lia. destruct (in_range32 (lp_b p) v) eqn:EV; auto. apply range32 in EV; lia. }
  apply (session_value_err _ _ _ _ _ _ j "REJECT" Hj).
  rewrite EN. unfold db at 1. rewrite noise_const by auto.
  assert (E1 : elem db i j = 1).
  { unfold elem, db. cbn [m_cols m_data]. rewrite Nat2Z.id. rewrite (nth_indep _ 0 1) by (rewrite repeat_length; nia). apply nth_repeat. }
  rewrite E1, Z.mul_1_r. unfold decode_one. rewrite OUT by lia. rewrite Zminus_mod_idemp_l.
  replace (128 * Z.of_nat rows + le_dec (c_t c) - le_dec (c_t c)) with (128 * Z.of_nat rows) by lia. rewrite OUT by lia. auto.
Qed.
