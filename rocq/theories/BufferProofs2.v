(** Interleaved calls: one uninterrupted call computes the answer, and no interleaving leaves lasting damage. *)
From Coq Require Import String ZArith List Bool Lia.
From Verif Require Import GoBase BaseFacts FieldModel FSSModel EncodingModel MerkleModel PredicateModel FieldProofs XorFacts
  FSSProofs BufferModel BufferSpec BufferProofs.
Import ListNotations.
Open Scope Z_scope.
Open Scope go_scope.

Lemma sbind_ok {A B} n (m : sm A) (f : A -> sm B) b :
  (buf_ok n (snd (m b))) -> (forall a b', buf_ok n b' -> buf_ok n (snd (f a b'))) -> buf_ok n (snd (sbind m f b)).
Proof. intros H1 H2. unfold sbind. destruct (m b) as [[a|m0|m0|m0] b']; cbn [snd] in *; auto. Qed.

Lemma call_step_ok enc n sn c b : cipher_ok enc -> buf_ok n b -> buf_ok n (snd (call_step enc n sn c b)).
Proof.
  intros He Hb. unfold call_step. destruct (c_phase c).
  - destruct (c_todo c) as [|[x f y] todo]; exact Hb.
  - apply sbind_ok; [apply prf_out_ocb_temp; auto|]. intros a b' Hb'. exact Hb'.
  - destruct x as [|xb x]; [exact Hb|]. destruct cws as [|cw cws]; [exact Hb|].
    apply sbind_ok; [apply correct_out_ok; auto|]. intros a b' Hb'. apply sbind_ok; [exact Hb'|]. intros a' b'' Hb''. exact Hb''.
  - apply sbind_ok; [apply prf_ocb_frame; auto|]. intros a b' Hb'. exact Hb'.
  - apply sbind_ok; [apply elements_ocb_spec; auto|]. intros a b' Hb'. apply sbind_ok; [exact Hb'|]. intros a' b'' Hb''. exact Hb''.
Qed.

Lemma run_calls_ok enc n sn : cipher_ok enc -> forall sched cs b, buf_ok n b -> buf_ok n (snd (run_calls enc n sn sched cs b)).
Proof.
  intros He. induction sched as [|i sched IH]; intros cs b Hb; cbn [run_calls]; [exact Hb|].
  destruct (nth_error cs i) as [c|]; [|apply IH; auto].
  pose proof (call_step_ok enc n sn c b He Hb) as S.
  destruct (call_step enc n sn c b) as [[c'|m|m|m] b']; cbn [snd] in *; auto.
Qed.

(** ** one call by itself *)

(** [k] steps of a call lead to call [c'], whatever the memory holds *)
Definition steps (enc : cipher) (n : nat) (sn : Z) (k : nat) (c c' : call) : Prop :=
  forall cs i b, buf_ok n b -> nth_error cs i = Some c ->
  exists b', buf_ok n b' /\ forall sched, run_calls enc n sn (repeat i k ++ sched) cs b = run_calls enc n sn sched (upd cs i c') b'.

Lemma upd_same {A} (l : list A) : forall i a, nth_error l i = Some a -> upd l i a = l.
Proof. induction l as [|x l IH]; intros [|i] a H; cbn in *; try discriminate; [inversion H; auto|rewrite IH; auto]. Qed.

Lemma upd_upd {A} (l : list A) : forall i a b, upd (upd l i a) i b = upd l i b.
Proof. induction l as [|x l IH]; intros [|i] a b; cbn; auto. rewrite IH. auto. Qed.

Lemma steps_trans enc n sn k1 k2 c1 c2 c3 :
  steps enc n sn k1 c1 c2 -> steps enc n sn k2 c2 c3 -> steps enc n sn (k1 + k2) c1 c3.
Proof.
  intros H1 H2 cs i b Hb Hc. destruct (H1 cs i b Hb Hc) as [b1 [B1 E1]].
  assert (I : (i < length cs)%nat) by (apply nth_error_Some; congruence).
  destruct (H2 (upd cs i c2) i b1 B1 (nth_error_upd_eq cs i c2 I)) as [b2 [B2 E2]].
  exists b2. split; auto. intros sched. rewrite repeat_app, <- app_assoc, E1, E2, upd_upd. reflexivity.
Qed.

Lemma steps_0 enc n sn c : steps enc n sn 0 c c.
Proof. intros cs i b Hb Hc. exists b. split; auto. intros sched. rewrite upd_same by auto. reflexivity. Qed.

Lemma steps_1 enc n sn c c' :
  (forall b, buf_ok n b -> exists b', buf_ok n b' /\ call_step enc n sn c b = (Ok c', b')) -> steps enc n sn 1 c c'.
Proof.
  intros H cs i b Hb Hc. destruct (H b Hb) as [b' [B E]]. exists b'. split; auto. intros sched.
  cbn [repeat app run_calls]. rewrite Hc, E. reflexivity.
Qed.

(** two steps in a row, the second depending on what the first left in the memory *)
Lemma steps_2 enc n sn c c' c'' (P : buffers -> Prop) :
  (forall b, buf_ok n b -> exists b', buf_ok n b' /\ P b' /\ call_step enc n sn c b = (Ok c', b')) ->
  (forall b, buf_ok n b -> P b -> exists b', buf_ok n b' /\ call_step enc n sn c' b = (Ok c'', b')) ->
  steps enc n sn 2 c c''.
Proof.
  intros H1 H2 cs i b Hb Hc. destruct (H1 b Hb) as [b1 [B1 [P1 E1]]]. destruct (H2 b1 B1 P1) as [b2 [B2 E2]].
  exists b2. split; auto. intros sched. cbn [repeat app run_calls]. rewrite Hc, E1.
  rewrite nth_error_upd_eq by (apply nth_error_Some; congruence). rewrite E2, upd_upd. reflexivity.
Qed.

Lemma level_steps enc n sn k todo y acc sum f : cipher_ok enc -> forall x i cws s t s' t', x <> [] -> length s = 16%nat ->
  eval_loop enc i x cws s t = Ok (s', t') ->
  steps enc n sn (2 * length x) (mkCall k todo y acc sum (Level i x cws s t f)) (mkCall k todo y acc sum (Convert s' t' f)).
Proof.
  intros He. induction x as [|xb x IH]; intros i cws s t s' t' Hx Hs E; [congruence|].
  cbn [eval_loop] in E. destruct cws as [|cw cws]; [discriminate|].
  destruct (eval_step enc (if (i =? 256)%nat then false else xb) cw s t) as [[s1 t1]| | |] eqn:ES; try discriminate.
  cbn [bind fst snd] in E.
  replace (2 * length (xb :: x))%nat with (2 + 2 * length x)%nat by (cbn [length]; lia).
  apply steps_trans with (mkCall k todo y acc sum (match x with [] => Convert s1 t1 f | _ => Level (S i) x cws s1 t1 f end)).
  - apply steps_2 with (c' := mkCall k todo y acc sum (Expanded i (xb :: x) (cw :: cws) s t f))
                       (P := fun b => firstn 48 (b_out b) = expansion enc s).
    + intros b Hb. destruct (prf_out_spec enc s n b He Hs Hb) as [E1 [B1 [F _]]].
      exists (snd (prf_out enc s b)). split; [exact B1|]. split; [exact F|].
      unfold call_step. cbn [c_phase]. unfold sbind. destruct (prf_out enc s b) as [r b']. cbn [fst snd] in *. subst r.
      reflexivity.
    + intros b Hb HP.
      destruct (correct_pick_spec enc n (if (i =? 256)%nat then false else xb) cw s t b He Hs Hb HP) as [E1 [B1 _]].
      exists (snd (correct_pick (if (i =? 256)%nat then false else xb) cw t b)). split; [exact B1|].
      unfold call_step. cbn [c_phase]. unfold correct_pick, sbind in *.
      destruct (correct_out cw t b) as [[u|m|m|m] b']; cbn [fst] in E1; try congruence.
      destruct (pick_out _ b') as [r b'']. cbn [fst snd] in *. rewrite E1, ES. cbn [fst snd lift]. unfold set_phase.
      cbn [c_key c_todo c_years c_acc c_sum]. destruct x; reflexivity.
  - destruct x as [|xb' x'].
    + cbn [eval_loop] in E. inversion E; subst. apply steps_0.
    + apply IH; [discriminate| |exact E]. eapply eval_step_seed; eauto.
Qed.

Lemma convert_steps enc n sn k todo y acc sum s t f c o : cipher_ok enc -> length s = 16%nat ->
  convert_block enc n f s n = Ok c -> eval_outs sn t (map fst c) (k_finalcw k) = Ok o ->
  steps enc n sn 2 (mkCall k todo y acc sum (Convert s t f)) (mkCall k todo y (fst (accumulate y acc sum o)) (snd (accumulate y acc sum o)) Between).
Proof.
  intros He Hs EC EO. unfold convert_block in EC.
  destruct (prf enc s (n / 4)) as [p| | |] eqn:EP; try discriminate. cbn [bind] in EC.
  apply steps_2 with (c' := mkCall k todo y acc sum (Filled s t f)) (P := fun b => b_ocb b = go_copy (repeat 0 (4 * n)) p).
  - intros b Hb. pose proof (prf_ocb_spec enc n s b He Hs Hb) as S. rewrite EP in S. destruct S as [S1 S2].
    exists (snd (prf_ocb enc s (n / 4) b)). split; [apply prf_ocb_frame; auto|]. split; [exact S2|].
    unfold call_step. cbn [c_phase]. unfold sbind. destruct (prf_ocb enc s (n / 4) b) as [r b']. cbn [fst] in S1. subst r.
    reflexivity.
  - intros b Hb HP. destruct (elements_ocb_spec n f b Hb) as [A B].
    exists (snd (elements_ocb f n b)). split; [exact B|].
    unfold call_step. cbn [c_phase]. unfold sbind. destruct (elements_ocb f n b) as [r b']. cbn [fst snd] in *.
    rewrite A, HP, EC. unfold lift. cbn [c_key c_todo c_years c_acc c_sum]. rewrite EO. destruct (accumulate y acc sum o); reflexivity.
Qed.

Lemma one_id_steps enc n sn k x f y y0 todo acc sum o fl : cipher_ok enc ->
  evaluate_pf enc n f sn k x n = Ok (o, fl) ->
  exists j, steps enc n sn j (mkCall k (mkItem x f y :: todo) y0 acc sum Between) (mkCall k todo y (fst (accumulate y acc sum o)) (snd (accumulate y acc sum o)) Between).
Proof.
  intros He E. unfold evaluate_pf in E.
  assert (L : length (go_copy (repeat 0 16) (k_sinit k)) = 16%nat) by (rewrite go_copy_length, repeat_length; auto).
  destruct (eval_loop enc 0 x (k_cw k) (go_copy (repeat 0 16) (k_sinit k)) (k_tinit k)) as [[s t]| | |] eqn:EL; try discriminate.
  cbn [bind] in E. destruct (convert_block enc n f s n) as [c| | |] eqn:EC; try discriminate. cbn [bind] in E.
  destruct (eval_outs sn t (map fst c) (k_finalcw k)) as [o'| | |] eqn:EO; try discriminate. cbn [bind] in E.
  assert (o' = o) by congruence. subst o'. clear E.
  assert (Ls : length s = 16%nat) by (eapply eval_loop_seed; [exact He|exact L|exact EL]).
  exists (1 + (2 * length x + 2))%nat.
  set (c1 := mkCall k todo y acc sum (match x with
     | [] => Convert (go_copy (repeat 0 16) (k_sinit k)) (k_tinit k) f
     | _ => Level 0 x (k_cw k) (go_copy (repeat 0 16) (k_sinit k)) (k_tinit k) f end)).
  apply steps_trans with c1.
  - apply steps_1. intros b Hb. exists b. split; auto.
  - apply steps_trans with (mkCall k todo y acc sum (Convert s t f)).
    + unfold c1. destruct x as [|xb x].
      * cbn [eval_loop] in EL. assert (s = go_copy (repeat 0 16) (k_sinit k)) as -> by congruence.
        assert (t = k_tinit k) as -> by congruence. apply steps_0.
      * apply level_steps; auto. discriminate.
    + eapply convert_steps; eauto.
Qed.

(** The two record loops, on the same work. *)
Lemma go_index_mid {A} (pre : list A) a db : go_index (pre ++ a :: db) (Z.of_nat (length pre)) = Ok a.
Proof.
  unfold go_index. destruct (Z.ltb_spec (Z.of_nat (length pre)) 0); [lia|]. rewrite Nat2Z.id.
  rewrite nth_error_app2, Nat.sub_diag by lia. reflexivity.
Qed.

Lemma count_steps enc H n sn k q now fresh rest : cipher_ok enc -> q_avg q = false -> forall db pre acc fl out fl' y,
  records_loop (pre ++ db ++ rest) (count_body enc sn k fresh n (record_id H q)) (length pre) (length db) (acc, fl) = Ok (out, fl') ->
  exists items y', work H q now fresh (length pre) db = Ok items /\
  exists j, steps enc n sn j (mkCall k items y acc [] Between) (mkCall k [] y' out [] Between).
Proof.
  intros He HV. induction db as [|ki db IH]; intros pre acc fl out fl' y E.
  - cbn in E. exists [], y. split; [reflexivity|]. exists 0%nat. assert (out = acc) as -> by congruence. apply steps_0.
  - cbn [length records_loop] in E. cbn [app] in E. rewrite go_index_mid in E. cbn [bind] in E. unfold count_body at 1 in E.
    cbn [work]. destruct (record_id H q ki) as [o| | |] eqn:EO; try discriminate. cbn [bind] in E |- *.
    assert (PRE : pre ++ ki :: db ++ rest = (pre ++ [ki]) ++ db ++ rest) by (rewrite <- app_assoc; reflexivity).
    assert (LEN : S (length pre) = length (pre ++ [ki])) by (rewrite app_length; cbn; lia).
    rewrite PRE, LEN in E. rewrite LEN. destruct o as [x|].
    + destruct (evaluate_pf enc n (fresh (length pre)) sn k x n) as [[e fe]| | |] eqn:EE; try discriminate.
      cbn [bind fst snd] in E.
      destruct (IH (pre ++ [ki]) _ _ _ _ None E) as (r & y' & W & j2 & S2).
      destruct (one_id_steps enc n sn k x (fresh (length pre)) None y r acc [] e fe He EE) as [j1 S1].
      cbn [accumulate fst snd] in S1. rewrite W, HV. cbn [bind].
      eexists. exists y'. split; [reflexivity|]. exists (j1 + j2)%nat. eapply steps_trans; eauto.
    + cbn [bind] in E. destruct (IH (pre ++ [ki]) _ _ _ _ y E) as (r & y' & W & j2 & S2).
      rewrite W. cbn [bind]. exists r, y'. split; [reflexivity|]. exists j2. exact S2.
Qed.

Lemma avg_steps enc H n sn k q now fresh rest : cipher_ok enc -> q_avg q = true -> forall db pre acc sum fl out sum' fl' y,
  records_loop (pre ++ db ++ rest) (avg_body enc H q now sn k fresh n) (length pre) (length db) (acc, sum, fl) = Ok (out, sum', fl') ->
  exists items y', work H q now fresh (length pre) db = Ok items /\
  exists j, steps enc n sn j (mkCall k items y acc sum Between) (mkCall k [] y' out sum' Between).
Proof.
  intros He HV. induction db as [|ki db IH]; intros pre acc sum fl out sum' fl' y E.
  - cbn in E. exists [], y. split; [reflexivity|]. exists 0%nat. assert (out = acc) as -> by congruence. assert (sum' = sum) as -> by congruence.
    apply steps_0.
  - cbn [length records_loop] in E. cbn [app] in E. rewrite go_index_mid in E. cbn [bind] in E. unfold avg_body at 1 in E.
    cbn [work]. unfold record_id at 1. rewrite HV.
    destruct (id_for_email H q (ki_email ki)) as [o| | |] eqn:EO; try discriminate. cbn [bind] in E |- *.
    assert (PRE : pre ++ ki :: db ++ rest = (pre ++ [ki]) ++ db ++ rest) by (rewrite <- app_assoc; reflexivity).
    assert (LEN : S (length pre) = length (pre ++ [ki])) by (rewrite app_length; cbn; lia).
    rewrite PRE, LEN in E. rewrite LEN. destruct o as [x|].
    + destruct (evaluate_pf enc n (fresh (length pre)) sn k x n) as [[e fe]| | |] eqn:EE; try discriminate.
      cbn [bind fst snd] in E.
      set (d := now (length pre) - time_year (ki_time ki)) in *.
      assert (E' : exists fl2, records_loop ((pre ++ [ki]) ++ db ++ rest) (avg_body enc H q now sn k fresh n) (length (pre ++ [ki])) (length db)
                     (fst (accumulate (Some d) acc sum e), snd (accumulate (Some d) acc sum e), fl2) = Ok (out, sum', fl')).
      { exists (fl || fe). unfold accumulate. destruct (d <? 0); cbn [bind fst snd] in E |- *; exact E. }
      destruct E' as [fl2 E'].
      destruct (IH (pre ++ [ki]) _ _ _ _ _ _ (Some d) E') as (r & y' & W & j2 & S2).
      destruct (one_id_steps enc n sn k x (fresh (length pre)) (Some d) y r acc sum e fe He EE) as [j1 S1].
      rewrite W. cbn [bind]. eexists. exists y'. split; [reflexivity|]. exists (j1 + j2)%nat. eapply steps_trans; eauto.
    + cbn [bind] in E. destruct (IH (pre ++ [ki]) _ _ _ _ _ _ y E) as (r & y' & W & j2 & S2).
      rewrite W. cbn [bind]. exists r, y'. split; [reflexivity|]. exists j2. exact S2.
Qed.

Lemma records_loop_short {S} db (body : nat -> key_info -> S -> res S) : forall n i st r, (i <= length db)%nat ->
  records_loop db body i n st = Ok r -> (i + n <= length db)%nat.
Proof.
  induction n as [|n IH]; intros i st r Hi E; [lia|]. cbn [records_loop] in E.
  destruct (go_index db (Z.of_nat i)) as [ki| | |] eqn:G; try discriminate. cbn [bind] in E.
  destruct (body i ki st) as [st'| | |]; try discriminate. cbn [bind] in E.
  assert (i < length db)%nat.
  { unfold go_index in G. destruct (Z.ltb_spec (Z.of_nat i) 0); [lia|]. rewrite Nat2Z.id in G.
    destruct (nth_error db i) eqn:N; [|discriminate]. apply nth_error_Some. congruence. }
  specialize (IH (Datatypes.S i) st' r ltac:(lia) E). lia.
Qed.

Lemma records_loop_ext {S} db (f g : nat -> key_info -> S -> res S) : (forall i ki st, f i ki st = g i ki st) ->
  forall n i st, records_loop db f i n st = records_loop db g i n st.
Proof.
  intros H. induction n as [|n IH]; intros i st; [reflexivity|]. cbn [records_loop].
  destruct (go_index db (Z.of_nat i)); cbn [bind]; try reflexivity. rewrite H. destruct (g i _ st); cbn [bind]; auto.
Qed.

Theorem answer_steps enc H n sn db numColumns q k now fresh out flag : cipher_ok enc ->
  answer enc H n sn db numColumns now fresh (Some q) k = Ok (out, flag) ->
  exists items, work H q now fresh 0 (firstn numColumns db) = Ok items /\
  exists j c, steps enc n sn j (start_call n k (q_avg q) items) c /\ finished c out.
Proof.
  intros He E. unfold answer in E.
  assert (CNT : forall id, q_avg q = false -> (forall ki, id ki = record_id H q ki) ->
    records_loop db (count_body enc sn k fresh n id) 0 numColumns (repeat 0 n, false) = Ok (out, flag) ->
    exists items, work H q now fresh 0 (firstn numColumns db) = Ok items /\
    exists j c, steps enc n sn j (start_call n k (q_avg q) items) c /\ finished c out).
  { intros id HV Hid R.
    pose proof (records_loop_short _ _ _ _ _ _ (Nat.le_0_l _) R) as L. cbn [Nat.add] in L.
    rewrite (records_loop_ext db _ (count_body enc sn k fresh n (record_id H q))) in R
      by (intros i ki st; unfold count_body; rewrite Hid; reflexivity).
    rewrite <- (firstn_skipn numColumns db) in R.
    replace numColumns with (length (firstn numColumns db)) in R at 3 by (rewrite firstn_length; lia).
    destruct (count_steps enc H n sn k q now fresh (skipn numColumns db) He HV (firstn numColumns db) [] _ _ _ _ None R) as (items & y' & W & j & S).
    exists items. split; [exact W|]. exists j. eexists. split; [unfold start_call; rewrite HV; exact S|]. repeat split. cbn [c_acc c_sum]. apply app_nil_r. }
  destruct (q_and q) eqn:HA, (q_avg q) eqn:HV, (q_sum q) eqn:HS; cbn [negb andb] in E; try discriminate.
  - destruct (records_loop db (avg_body enc H q now sn k fresh n) 0 numColumns (repeat 0 n, repeat 0 n, false)) as [[[o sm0] f0]| | |] eqn:R; try discriminate.
    cbn [bind] in E. assert (out = o ++ sm0) as -> by congruence. clear CNT.
    pose proof (records_loop_short _ _ _ _ _ _ (Nat.le_0_l _) R) as L. cbn [Nat.add] in L.
    rewrite <- (firstn_skipn numColumns db) in R.
    replace numColumns with (length (firstn numColumns db)) in R at 3 by (rewrite firstn_length; lia).
    destruct (avg_steps enc H n sn k q now fresh (skipn numColumns db) He HV (firstn numColumns db) [] _ _ _ _ _ _ None R) as (items & y' & W & j & S).
    exists items. split; [exact W|]. exists j. eexists. split; [exact S|]. repeat split.
  - apply (CNT (id_conj H q)); [reflexivity| |exact E]. intros ki. unfold record_id. rewrite HV, HA. reflexivity.
  - destruct (q_target q =? target_userid) eqn:T1; [|destruct (q_target q =? target_algo) eqn:T2; [|destruct (q_target q =? target_creation) eqn:T3; [|discriminate]]];
      (eapply CNT; [reflexivity| |exact E]); intros ki; unfold record_id; rewrite HV, HA, T1, ?T2; reflexivity.
Qed.
