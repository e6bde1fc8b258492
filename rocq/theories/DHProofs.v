(** Proofs about the parallel digest computation of lib/database/elliptic.go. *)
From Coq Require Import String ZArith Znumtheory List Bool Lia Arith.
From Verif Require Import GoBase BaseFacts EncodingModel MerkleModel LWEModel DHModel DHSpec.
Import ListNotations.
Open Scope Z_scope.
Open Scope go_scope.

Definition okv (r : res (list Z)) : list Z := match r with Ok c => c | _ => [] end.
Definition is_ok {A} (r : res A) : bool := match r with Ok _ => true | _ => false end.

Definition done_at (s : par_state) i := nth i (ps_done s) false.
Record par_inv (work : list (res (list Z))) (s : par_state) : Prop := {
  pi_slots : length (ps_slots s) = length work;
  pi_done : length (ps_done s) = length work;
  pi_next : (ps_next s <= length work)%nat;
  pi_ok : forall i, done_at s i = true -> is_ok (nth i work (Ok [])) = true;
  pi_slot : forall i, (i < length work)%nat ->
     nth i (ps_slots s) None = if done_at s i && (ps_next s <=? i)%nat then Some (okv (nth i work (Ok []))) else None;
  pi_recv : forall i, (i < ps_next s)%nat -> done_at s i = true;
  pi_acc : ps_acc s = concat (map okv (firstn (ps_next s) work));
  pi_dead : forall r, ps_dead s = Some r -> In r work /\ is_ok r = false }.

Lemma nth_error_nth_d {A} (l : list A) i d : (i < length l)%nat -> nth_error l i = Some (nth i l d).
Proof. intros. apply nth_error_nth'; auto. Qed.

Lemma par_inv_init work : par_inv work (par_init (length work)).
Proof.
  assert (D : forall i, nth i (repeat false (length work)) false = false).
  { intros i. generalize (length work). induction i; destruct n; cbn; auto. }
  constructor; cbn; try rewrite repeat_length; auto; try lia; try discriminate; unfold done_at; cbn.
  - intros i. rewrite D. discriminate.
  - intros i Hi. rewrite D. cbn. generalize (length work). induction i; destruct n; cbn; auto.
    apply IHi. lia.
Qed.

Lemma firstn_S_nth {A} (l : list A) n d : (n < length l)%nat -> firstn (S n) l = firstn n l ++ [nth n l d].
Proof.
  revert n. induction l; intros n Hn; cbn in Hn; [lia|]. destruct n; cbn; auto.
  rewrite <- IHl by lia. reflexivity.
Qed.

Lemma par_inv_step work s ev : par_inv work s -> par_inv work (par_step work s ev).
Proof.
  intros I. assert (I0 := I). destruct I as [I1 I2 I3 I4 I5 I6 I7 I8].
  unfold par_step. destruct (ps_dead s) eqn:Ed; [exact I0|].
  destruct ev as [i|].
  - destruct (Compare_dec.lt_dec i (length work)) as [Hi|Hi].
    2:{ assert (nth_error work i = None) as E by (apply nth_error_None; lia). rewrite E.
        destruct (nth_error (ps_done s) i) as [[|]|]; exact I0. }
    rewrite (nth_error_nth_d (ps_done s) i false) by lia.
    rewrite (nth_error_nth_d work i (Ok [])) by lia.
    fold (done_at s i). destruct (done_at s i) eqn:Edi.
    { exact I0. }
    assert (Hn : (ps_next s <= i)%nat).
    { destruct (Compare_dec.le_dec (ps_next s) i); auto. rewrite I6 in Edi by lia. discriminate. }
    destruct (nth i work (Ok [])) eqn:Ew.
    + constructor; cbn [ps_slots ps_done ps_next ps_acc ps_dead]; try rewrite upd_length; auto; try discriminate.
      * intros j. unfold done_at; cbn. destruct (Nat.eq_dec i j).
        -- subst. rewrite Ew. auto.
        -- rewrite nth_upd_neq by auto. apply I4.
      * intros j Hj. unfold done_at; cbn. destruct (Nat.eq_dec i j).
        -- subst j. rewrite !nth_upd_eq by lia. rewrite Ew. apply Nat.leb_le in Hn. rewrite Hn. reflexivity.
        -- rewrite !nth_upd_neq by auto. apply I5; auto.
      * intros j Hj. unfold done_at; cbn. rewrite nth_upd_neq by lia. apply I6; auto.
    + constructor; cbn; auto. intros r E. injection E as <-. split; auto. rewrite <- Ew. apply nth_In; auto.
    + constructor; cbn; auto. intros r E. injection E as <-. split; auto. rewrite <- Ew. apply nth_In; auto.
    + constructor; cbn; auto. intros r E. injection E as <-. split; auto. rewrite <- Ew. apply nth_In; auto.
  - destruct (nth_error (ps_slots s) (ps_next s)) as [[c|]|] eqn:E.
    2-3: exact I0.
    assert (Hl : (ps_next s < length work)%nat).
    { rewrite <- I1. apply nth_error_Some. congruence. }
    pose proof (I5 _ Hl) as S. rewrite (nth_error_nth_d _ _ None) in E by lia. injection E as E.
    rewrite E in S. rewrite Nat.leb_refl, andb_true_r in S. destruct (done_at s (ps_next s)) eqn:Edn; [|discriminate].
    injection S as ->.
    constructor; cbn [ps_slots ps_done ps_next ps_acc ps_dead]; try rewrite upd_length; auto; try discriminate.
    * intros j Hj. unfold done_at; cbn. destruct (Nat.eq_dec (ps_next s) j).
      -- subst j. rewrite nth_upd_eq by lia.
         destruct (ps_next s); rewrite ?andb_false_r; auto.
         replace (S n <=? n)%nat with false by (symmetry; apply Nat.leb_gt; lia). rewrite andb_false_r. auto.
      -- rewrite nth_upd_neq by auto. rewrite I5 by auto. unfold done_at.
         destruct (Nat.leb_spec (ps_next s) j), j; try lia; rewrite ?andb_false_r; auto.
         { replace (ps_next s <=? j)%nat with true by (symmetry; apply Nat.leb_le; lia). reflexivity. }
         { replace (ps_next s <=? j)%nat with false by (symmetry; apply Nat.leb_gt; lia). rewrite andb_false_r. reflexivity. }
    * intros j Hj. destruct (Nat.eq_dec j (ps_next s)); [subst; auto|]. apply I6. lia.
    * rewrite (firstn_S_nth work (ps_next s) (Ok [])) by auto. rewrite map_app, concat_app. cbn.
      rewrite app_nil_r, I7. reflexivity.
Qed.

Lemma par_inv_run work sched : par_inv work (par_run work sched).
Proof.
  unfold par_run. generalize (par_inv_init work). generalize (par_init (length work)).
  induction sched as [|e sched IH]; cbn; intros s Hs; auto. apply IH, par_inv_step, Hs.
Qed.

Lemma par_result_value work sched r : par_result work sched = Some r ->
  (In r work /\ is_ok r = false) \/
  (r = Ok (concat (map okv work)) /\ forall x, In x work -> is_ok x = true).
Proof.
  unfold par_result. pose proof (par_inv_run work sched) as I. destruct I as [I1 I2 I3 I4 I5 I6 I7 I8].
  destruct (ps_dead _) eqn:Ed.
  - intros E. injection E as <-. left. auto.
  - destruct (Nat.eqb_spec (ps_next (par_run work sched)) (length work)) as [En|]; [|discriminate].
    intros E. injection E as <-. right. rewrite I7, En, firstn_all. split; auto.
    intros x Hx. destruct (In_nth _ _ (Ok []) Hx) as (i & Hi & <-). apply I4, I6. lia.
Qed.

Lemma par_run_app work a b : par_run work (a ++ b) = fold_left (par_step work) b (par_run work a).
Proof. unfold par_run. apply fold_left_app. Qed.

Lemma par_dead_stays work l s r : ps_dead s = Some r -> fold_left (par_step work) l s = s.
Proof.
  revert s. induction l as [|e l IH]; cbn; intros s Hs; auto.
  assert (par_step work s e = s) as -> by (unfold par_step; rewrite Hs; auto). auto.
Qed.

(** Running every worker: dead, or all of them done. *)
Lemma par_work_all work : forall k s, par_inv work s -> (k <= length work)%nat ->
  let s' := fold_left (par_step work) (map Work (seq 0 k)) s in
  par_inv work s' /\ ((exists r, ps_dead s' = Some r) \/ forall i, (i < k)%nat -> done_at s' i = true).
Proof.
  induction k; intros s Is Hk.
  - cbn. split; auto. right. lia.
  - rewrite seq_S, map_app, fold_left_app. cbn. destruct (IHk s Is ltac:(lia)) as [I D]. cbn in I, D.
    set (s1 := fold_left (par_step work) (map Work (seq 0 k)) s) in *. clearbody s1.
    split. apply par_inv_step; auto.
    destruct D as [[r D]|D].
    { left. exists r. unfold par_step. rewrite D. auto. }
    destruct (ps_dead s1) eqn:Ed.
    { left. exists r. unfold par_step. rewrite Ed. auto. }
    destruct I as [I1 I2 I3 I4 I5 I6 I7 I8].
    unfold par_step. rewrite Ed. rewrite (nth_error_nth_d (ps_done s1) k false) by lia.
    rewrite (nth_error_nth_d work k (Ok [])) by lia. fold (done_at s1 k). destruct (done_at s1 k) eqn:Ek.
    { right. intros i Hi. destruct (Nat.eq_dec i k); [subst; auto|]. apply D. lia. }
    destruct (nth k work (Ok [])) eqn:Ew; cbn; try (left; eexists; reflexivity).
    right. intros i Hi. unfold done_at; cbn. destruct (Nat.eq_dec k i).
    + subst. apply nth_upd_eq. lia.
    + rewrite nth_upd_neq by auto. apply D. lia.
Qed.

Lemma par_collect_all work : forall k s, par_inv work s -> ps_dead s = None ->
  (forall i, (i < length work)%nat -> done_at s i = true) -> (length work - ps_next s <= k)%nat ->
  let s' := fold_left (par_step work) (repeat Collect k) s in
  ps_dead s' = None /\ ps_next s' = length work.
Proof.
  induction k; intros s Is Hd Hall Hk.
  - cbn. split; auto. destruct Is. lia.
  - cbn. destruct (Nat.eq_dec (ps_next s) (length work)) as [E|E].
    + assert (S : par_step work s Collect = s).
      { unfold par_step. rewrite Hd. destruct Is as [I1 I2 I3 I4 I5 I6 I7 I8].
        assert (nth_error (ps_slots s) (ps_next s) = None) as -> by (apply nth_error_None; lia). auto. }
      rewrite S. apply IHk; auto. lia.
    + pose proof (par_inv_step work s Collect Is) as Is'.
      assert (S : ps_next (par_step work s Collect) = Datatypes.S (ps_next s) /\
                  ps_dead (par_step work s Collect) = None /\
                  ps_done (par_step work s Collect) = ps_done s).
      { unfold par_step. rewrite Hd. destruct Is as [I1 I2 I3 I4 I5 I6 I7 I8].
        assert (L : (ps_next s < length work)%nat) by lia.
        rewrite (nth_error_nth_d _ _ None) by lia. rewrite I5 by lia. rewrite Hall by lia.
        rewrite Nat.leb_refl. cbn. auto. }
      destruct S as (S1 & S2 & S3). apply IHk; auto.
      * intros i Hi. unfold done_at. rewrite S3. apply Hall; auto.
      * lia.
Qed.

(** Whatever has happened so far, the run can be brought to an end. *)
Lemma par_progress work sched : exists more r, par_result work (sched ++ more) = Some r.
Proof.
  exists (map Work (seq 0 (length work)) ++ repeat Collect (length work)).
  unfold par_result. rewrite !par_run_app, fold_left_app.
  destruct (par_work_all work (length work) (par_run work sched) (par_inv_run _ _) (le_n _)) as [I D].
  cbn in I, D. set (s1 := fold_left _ (map Work _) _) in *. clearbody s1.
  destruct (ps_dead s1) eqn:Ed.
  - rewrite (par_dead_stays _ _ _ _ Ed), Ed. eauto.
  - destruct D as [[r D]|D]; [congruence|].
    destruct (par_collect_all work (length work) s1 I Ed D ltac:(lia)) as [C1 C2]. cbn in C1, C2.
    rewrite C1, C2, Nat.eqb_refl. eauto.
Qed.

(** *** The rows of the workers *)
Lemma ceil_div_spec a b : 0 < b -> (ceil_div a b - 1) * b < a <= ceil_div a b * b.
Proof.
  intros Hb. unfold ceil_div. pose proof (Z.div_mod (a + b - 1) b ltac:(lia)).
  pose proof (Z.mod_pos_bound (a + b - 1) b Hb). nia.
Qed.
Lemma ceil_div_unique a b k : 0 < b -> (k - 1) * b < a <= k * b -> k = ceil_div a b.
Proof. intros Hb Hk. pose proof (ceil_div_spec a b Hb). nia. Qed.

Lemma overshoots_iff rows n : 0 < n ->
  overshoots rows n <-> exists i, 0 <= i < n /\ rows < i * ceil_div rows n.
Proof.
  intros Hn. split.
  - intros (k & i & Hk & Hi & Ho). apply ceil_div_unique in Hk; auto. subst. eauto.
  - intros (i & Hi & Ho). exists (ceil_div rows n), i. pose proof (ceil_div_spec rows n Hn). tauto.
Qed.

Lemma between_app a b c : a <= b <= c -> between a b ++ between b c = between a c.
Proof.
  intros H. unfold between. replace (Z.to_nat (c - a)) with (Z.to_nat (b - a) + Z.to_nat (c - b))%nat by lia.
  unfold range. rewrite seq_app, map_app. f_equal. cbn [plus].
  assert (E : map (fun k => (Z.to_nat (b - a) + k)%nat) (seq 0 (Z.to_nat (c - b))) =
              seq (Z.to_nat (b - a)) (Z.to_nat (c - b))).
  { generalize (Z.to_nat (b - a)) (Z.to_nat (c - b)). clear. intros s n.
    apply nth_ext with (d := (s + 0)%nat) (d' := 0%nat). rewrite map_length, !seq_length; auto.
    intros i Hi. rewrite map_length, seq_length in Hi. rewrite map_nth, !seq_nth by auto. lia. }
  rewrite <- E, map_map. apply map_ext. intros k. lia.
Qed.

Lemma workers_cover rows n : 0 <= rows -> 0 < n ->
  (forall i, 0 <= i < n -> i * ceil_div rows n <= rows) ->
  forall m, (m <= Z.to_nat n)%nat ->
  concat (map (fun i => let '(b, e) := worker_rows rows n (Z.of_nat i) in between b e) (seq 0 m)) =
  between 0 (Z.min (Z.of_nat m * ceil_div rows n) rows).
Proof.
  intros Hr Hn Ho. pose proof (ceil_div_spec rows n Hn) as Hc. set (k := ceil_div rows n) in *.
  assert (Hk : 0 <= k) by nia.
  induction m; intros Hm.
  - unfold between. replace (Z.min (Z.of_nat 0 * k) rows - 0) with 0 by lia. reflexivity.
  - rewrite seq_S, map_app, concat_app, IHm by lia. cbn [map concat plus]. rewrite app_nil_r.
    unfold worker_rows. fold k.
    specialize (Ho (Z.of_nat m) ltac:(lia)).
    rewrite Z.min_l by lia. rewrite between_app by nia. f_equal. lia.
Qed.

Lemma workers_cover_all rows n : 0 <= rows -> 0 < n -> ~ overshoots rows n ->
  concat (map (fun i => let '(b, e) := worker_rows rows n (Z.of_nat i) in between b e) (range (Z.to_nat n))) =
  between 0 rows.
Proof.
  intros Hr Hn Ho. unfold range. rewrite workers_cover; auto.
  - rewrite Z2Nat.id by lia. pose proof (ceil_div_spec rows n Hn). f_equal. nia.
  - intros i Hi. destruct (Z_le_gt_dec (i * ceil_div rows n) rows); auto. exfalso. apply Ho.
    apply overshoots_iff; auto. exists i. lia.
Qed.

(** *** The digest of a row *)
Lemma row_product_value g data pos cols elt pts :
  (forall j, (j < cols)%nat -> nth_error data (Z.to_nat pos + j) = Some (nth (Z.to_nat pos + j) data 0)) ->
  0 <= pos ->
  (forall j, (j < cols)%nat -> elt (Z.of_nat j) = Ok (pts j)) ->
  forall n k d, (k + n = cols)%nat ->
  row_product g data pos elt (Z.of_nat k) n d =
  Ok (fold_left (g_add g) (map pts (filter (fun j => nth (Z.to_nat pos + j) data 0 =? 1) (seq k n))) d).
Proof.
  intros Hd Hp He. induction n; intros k d Hk.
  - reflexivity.
  - cbn [row_product seq filter]. unfold go_index.
    replace (pos + Z.of_nat k <? 0) with false by (symmetry; apply Z.ltb_ge; lia).
    replace (Z.to_nat (pos + Z.of_nat k)) with (Z.to_nat pos + k)%nat by lia.
    rewrite Hd by lia. cbn [bind].
    destruct (nth (Z.to_nat pos + k) data 0 =? 1).
    + rewrite He by lia. cbn [bind]. replace (Z.of_nat k + 1) with (Z.of_nat (S k)) by lia.
      rewrite IHn by lia. reflexivity.
    + cbn [bind]. replace (Z.of_nat k + 1) with (Z.of_nat (S k)) by lia. rewrite IHn by lia. reflexivity.
Qed.
