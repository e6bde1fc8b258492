(** Proofs about the shared random generator. *)
From Coq Require Import String ZArith List Bool Lia Arith.
From Verif Require Import GoBase BaseFacts PrgModel PrgSpec PrgProofs SharedModel SharedSpec.
Import ListNotations.
Open Scope Z_scope.
Opaque buf_size.

Lemma upd_length {A} (l : list A) : forall i v, length (upd l i v) = length l.
Proof. induction l; intros [|i] v; cbn [upd length]; auto. Qed.
Lemma upd_same {A} (l : list A) : forall i v, (i < length l)%nat -> nth_error (upd l i v) i = Some v.
Proof. induction l; intros [|i] v H; cbn [upd length nth_error] in *; try lia; auto. apply IHl. lia. Qed.
Lemma upd_other {A} (l : list A) : forall i j v, i <> j -> nth_error (upd l i v) j = nth_error l j.
Proof. induction l; intros [|i] [|j] v H; cbn [upd nth_error] in *; try lia; auto. Qed.

Lemma firstn_snoc {A} (l : list A) : forall n c r, skipn n l = c :: r -> firstn (n + 1) l = firstn n l ++ [c].
Proof. induction l as [|x l IH]; intros [|n] c r H; cbn [skipn firstn Nat.add app] in *; try discriminate. inversion H; auto. f_equal. eapply IH; eauto. Qed.

Section P.
  Variable ks : nat -> Z.
  Let st := buf_stream ks.

  (** the reader holds m + 1 blocks and has delivered k bytes; not empty *)
  Definition filled (b : bufprg) (k : nat) : Prop := buf_inv ks b k /\ (bp_r b < bp_w b)%nat.

  Lemma refill_step b k : buf_inv ks b k ->
    filled (if (bp_r b =? bp_w b)%nat then let (x, pos') := prg_read ks (bp_pos b) (bp_buf b) in mkB x 0 (length x) pos' else b) k.
  Proof.
    pose proof buf_size_pos as BP. intros I. destruct (Nat.eqb_spec (bp_r b) (bp_w b)) as [E|E].
    - pose proof (refill_inv ks b k I E) as R. destruct (prg_read ks (bp_pos b) (bp_buf b)) as [x pos'].
      destruct R as (LB & EPos & EM & EB). split; cbn [bp_r bp_w]; [|lia]. right. exists (k / buf_size)%nat.
      cbn [bp_r bp_w bp_buf bp_pos]. pose proof (Nat.div_mod k buf_size ltac:(lia)). conj_split; auto; lia.
    - split; auto. destruct I as [[-> ->]|(m & EP & EW & HR & EK & EB)]; [cbn [new_bufprg bp_r bp_w] in E; lia|lia].
  Qed.

  Lemma copy_step b k need : filled b k -> (0 < need)%nat ->
    exists c, (0 < c <= need)%nat /\ firstn (Nat.min need (bp_w b - bp_r b)) (skipn (bp_r b) (bp_buf b)) = piece st k c /\
      buf_inv ks (mkB (bp_buf b) (bp_r b + c) (bp_w b) (bp_pos b)) (k + c).
  Proof.
    intros [I H] Hn. destruct I as [[-> ->]|(m & EP & EW & HR & EK & EB)]; [cbn [new_bufprg bp_r bp_w] in H; lia|].
    exists (Nat.min need (bp_w b - bp_r b)). split; [lia|]. split.
    - rewrite EB, block_stream by lia. unfold piece, st. f_equal. f_equal. lia.
    - right. exists m. cbn [bp_r bp_w bp_buf bp_pos]. conj_split; auto; lia.
  Qed.

  Lemma piece_length k n : length (piece st k n) = n.
  Proof. unfold piece. rewrite map_length, seq_length. auto. Qed.
  Lemma piece_app k a b : piece st k a ++ piece st (k + a) b = piece st k (a + b).
  Proof. unfold piece. rewrite <- map_app, <- seq_app. auto. Qed.

  (** rounds of RandInt rejected between k and k0 *)
  Inductive missed (c : call) : nat -> nat -> Prop :=
  | missed_0 k : missed c k k
  | missed_1 k m k0 : c = CRandInt m -> m <= int_candidate m (piece st k (int_bytes m)) -> missed c (k + int_bytes m) k0 -> missed c k k0.
  Lemma missed_snoc c m k k0 : c = CRandInt m -> missed c k k0 -> m <= int_candidate m (piece st k0 (int_bytes m)) ->
    missed c k (k0 + int_bytes m).
  Proof.
    intros Ec M. induction M as [k|k m' k0 E H M IH]; intros L.
    - apply (missed_1 c k m); auto. constructor.
    - apply (missed_1 c k m'); auto.
  Qed.
  Lemma missed_takes c k k0 v k' : missed c k k0 -> takes st k0 c v k' -> takes st k c v k'.
  Proof. intros M. induction M; auto. intros T. subst c. apply takes_miss; auto. Qed.

  Definition size (c : call) : nat := match c with CUint64 => 8 | CRandInt m => int_bytes m end.

  (** what holds of the caller that has the mutex: K bytes were consumed by the calls before *)
  Definition holding (c : call) (p : pc) (b : bufprg) (K : nat) : Prop :=
    match p with
    | PEnter need got => exists k0, missed c K k0 /\ got = piece st k0 (length got) /\ (need + length got = size c)%nat /\
        buf_inv ks b (k0 + length got) /\ (match c with CUint64 => True | CRandInt m => 0 < m end)
    | PCopy need got => exists k0, missed c K k0 /\ got = piece st k0 (length got) /\ (need + length got = size c)%nat /\
        filled b (k0 + length got) /\ (0 < need)%nat /\ (match c with CUint64 => True | CRandInt m => 0 < m end)
    | PAdvance need got new => exists k0, missed c K k0 /\ got = piece st k0 (length got) /\ (need + length got = size c)%nat /\
        (0 < length new <= need)%nat /\ new = piece st (k0 + length got) (length new) /\
        buf_inv ks (mkB (bp_buf b) (bp_r b + length new) (bp_w b) (bp_pos b)) (k0 + length got + length new) /\
        (match c with CUint64 => True | CRandInt m => 0 < m end)
    | PPanicked => match c with CUint64 => False | CRandInt m => m <= 0 end
    | _ => False
    end.
  Definition away (p : pc) : Prop := match p with PNext | PUnlocked _ => True | _ => False end.

  (** the events of one caller against its program and state *)
  Definition mine_ok (p : list call) (t : caller) (mine : list (nat * call * Z)) : Prop :=
    exists pend, map what mine = returned t ++ pend /\ map which mine = firstn (length mine) p /\ skipn (length (returned t)) p = todo t /\
      match at_ t with PUnlocked v => pend = [v] /\ todo t <> [] | PNext => pend = [] | _ => pend = [] /\ todo t <> [] end.

  Definition inv (progs : list (list call)) (log : list (nat * call * Z)) (s : shared) : Prop :=
    length (callers s) = length progs /\
    (forall i p t, nth_error progs i = Some p -> nth_error (callers s) i = Some t -> mine_ok p t (of_caller i log)) /\
    exists K, one_by_one st 0 log K /\
      match holder s with
      | None => buf_inv ks (reader s) K /\ forall i t, nth_error (callers s) i = Some t -> away (at_ t)
      | Some h => (exists t c rest, nth_error (callers s) h = Some t /\ todo t = c :: rest /\ holding c (at_ t) (reader s) K) /\
                  forall i t, i <> h -> nth_error (callers s) i = Some t -> away (at_ t)
      end.

  Lemma obo_snoc k l k1 i c v k2 : one_by_one st k l k1 -> takes st k1 c v k2 -> one_by_one st k (l ++ [(i, c, v)]) k2.
  Proof. intros O. induction O; intros T; cbn [app]. econstructor; eauto. constructor. econstructor; eauto. Qed.
  Lemma of_caller_snoc i log e : of_caller i (log ++ [e]) = of_caller i log ++ (if (who e =? i)%nat then [e] else []).
  Proof. unfold of_caller. rewrite filter_app. cbn [filter]. destruct (who e =? i)%nat; auto. Qed.

  Lemma begin_ok c b K : buf_inv ks b K -> holding c (begin c) b K.
  Proof.
    intros I. unfold begin. destruct c as [|m].
    - cbn [holding]. exists K. cbn [length]. rewrite !Nat.add_0_r. conj_split; auto. apply missed_0.
    - destruct (Z.leb_spec m 0) as [L|L]; cbn [holding]; auto. exists K. cbn [length]. rewrite !Nat.add_0_r. conj_split; auto. apply missed_0.
  Qed.
  Lemma begin_away c : match begin c with PUnlocked _ | PNext => False | _ => True end.
  Proof. unfold begin. destruct c; auto. destruct (m <=? 0); auto. Qed.

  (** one step either adds nothing to the log or one event of the mover *)
  Lemma step_inv progs log s i s' : inv progs log s -> shared_step ks s i = Some s' -> exists more, inv progs (log ++ more) s'.
  Proof.
    intros (LEN & MINE & K & OBO & HOLD). unfold shared_step.
    destruct (nth_error (callers s) i) as [t|] eqn:ET; [|discriminate].
    destruct (todo t) as [|c rest] eqn:ETD; [discriminate|].
    assert (LI : (i < length (callers s))%nat) by (apply nth_error_Some; congruence).
    destruct (nth_error progs i) as [p|] eqn:EP; [|apply nth_error_None in EP; lia].
    pose proof (MINE i p t EP ET) as (pend & MW & MC & MT & MP).
    (* a step of i that leaves the log, the mutex and the other callers alone *)
    assert (QUIET : forall h b q, at_ t <> PNext -> (match at_ t with PUnlocked _ => False | _ => True end) ->
      (match q with PUnlocked _ | PNext => False | _ => True end) ->
      holder s = Some i -> h = Some i -> holding c q b K -> exists more, inv progs (log ++ more) (mkG h b (upd (callers s) i (mkC (c :: rest) q (returned t))))).
    { intros h b q N1 N2 NQ H0 H1 HQ. subst h. exists []. rewrite app_nil_r. split; [cbn [callers]; rewrite upd_length; auto|]. split.
      - intros j pj tj Ej Etj. cbn [callers] in Etj. destruct (Nat.eq_dec i j) as [<-|NE].
        + rewrite upd_same in Etj by auto. inversion Etj; subst tj. rewrite EP in Ej. inversion Ej; subst pj.
          exists pend. cbn [returned todo at_]. conj_split; auto; try congruence.
          assert (PE : pend = []) by (destruct (at_ t); try tauto; apply MP).
          destruct q; try tauto; split; auto; discriminate.
        + rewrite upd_other in Etj by auto. apply MINE; auto.
      - exists K. split; auto. cbn [holder reader callers]. rewrite H0 in HOLD. destruct HOLD as [_ OTH]. split.
        + exists (mkC (c :: rest) q (returned t)), c, rest. rewrite upd_same by auto. cbn [todo at_]. auto.
        + intros j tj NE Etj. rewrite upd_other in Etj by auto. eapply OTH; eauto. }
    (* when i is inside the mutex, it is the holder *)
    assert (HOLDER : ~ away (at_ t) -> holder s = Some i /\ holding c (at_ t) (reader s) K).
    { intros NA. destruct (holder s) as [h|].
      - destruct (Nat.eq_dec i h) as [<-|NE]; [|exfalso; apply NA; destruct HOLD as [_ OTH]; eapply OTH; eauto].
        destruct HOLD as [(t' & c' & r' & E1 & E2 & E3) _]. rewrite ET in E1. inversion E1; subst t'. rewrite ETD in E2. inversion E2; subst. auto.
      - exfalso. apply NA. destruct HOLD as [_ OTH]. eapply OTH; eauto. }
    destruct (at_ t) as [|[|n] got|need got|need got new|v|] eqn:EA; cbn [away] in HOLDER.
    - (* Lock *)
      destruct (holder s) as [h|] eqn:EH; [discriminate|]. intros E. inversion E; subst s'. clear E.
      destruct HOLD as [BI OTH]. exists []. rewrite app_nil_r. split; [cbn [callers]; rewrite upd_length; auto|]. split.
      + intros j pj tj Ej Etj. cbn [callers] in Etj. destruct (Nat.eq_dec i j) as [<-|NE].
        * rewrite upd_same in Etj by auto. inversion Etj; subst tj. rewrite EP in Ej. inversion Ej; subst pj.
          exists pend. cbn [returned todo at_]. conj_split; auto; try congruence.
          pose proof (begin_away c) as BA. destruct (begin c); try tauto; split; auto; discriminate.
        * rewrite upd_other in Etj by auto. apply MINE; auto.
      + exists K. split; auto. cbn [holder reader callers]. split.
        * exists (mkC (c :: rest) (begin c) (returned t)), c, rest. rewrite upd_same by auto. cbn [todo at_]. conj_split; auto. apply begin_ok; auto.
        * intros j tj NE Etj. rewrite upd_other in Etj by auto. eapply OTH; eauto.
    - (* all bytes there *)
      destruct (HOLDER ltac:(tauto)) as [EH HH]. cbn [holding] in HH. destruct HH as (k0 & M & EG & EN & BI & PM).
      cbn [Nat.add] in EN. destruct (finish c got) as [v|] eqn:EF.
      + intros E. inversion E; subst s'. clear E. exists [(i, c, v)].
        assert (T : takes st K c v (k0 + length got)).
        { apply (missed_takes c K k0); auto. rewrite EG in EF. rewrite EN in *. destruct c as [|m]; cbn [finish size] in *.
          - inversion EF; subst. constructor.
          - destruct (Z.ltb_spec (int_candidate m (piece st k0 (int_bytes m))) m); inversion EF; subst. constructor. auto. }
        split; [cbn [callers]; rewrite upd_length; auto|]. split.
        * intros j pj tj Ej Etj. cbn [callers] in Etj. rewrite of_caller_snoc. unfold who. cbn [fst].
          destruct (Nat.eq_dec i j) as [<-|NE].
          -- rewrite upd_same in Etj by auto. inversion Etj; subst tj. rewrite EP in Ej. inversion Ej; subst pj. rewrite Nat.eqb_refl.
             destruct MP as [-> _]. exists [v]. cbn [returned todo at_]. rewrite app_nil_r in MW. rewrite !map_app, MW, MC. cbn [map what which fst snd].
             assert (LM : length (of_caller i log) = length (returned t)) by (rewrite <- (map_length what), MW; auto).
             rewrite app_length. cbn [length]. conj_split; auto; try congruence; try discriminate.
             rewrite LM. symmetry. apply firstn_snoc with (r := rest). congruence.
          -- rewrite upd_other in Etj by auto. destruct (Nat.eqb_spec i j); [lia|]. rewrite app_nil_r. apply MINE; auto.
        * exists (k0 + length got)%nat. split; [apply (obo_snoc 0 log K); auto|]. cbn [holder reader callers]. split; auto.
          intros j tj Etj. destruct (Nat.eq_dec i j) as [<-|NE].
          -- rewrite upd_same in Etj by auto. inversion Etj; subst tj. cbn [at_ away]. auto.
          -- rewrite upd_other in Etj by auto. rewrite EH in HOLD. destruct HOLD as [_ OTH]. eapply OTH; eauto.
      + intros E. inversion E; subst s'. clear E.
        apply QUIET; auto; try discriminate.
        * pose proof (begin_away c) as BA. destruct (begin c); tauto.
        * destruct c as [|m]; cbn [finish size begin] in *; [discriminate|].
          destruct (Z.ltb_spec (int_candidate m got) m) as [|L]; [discriminate|]. destruct (Z.leb_spec m 0); [lia|].
          cbn [holding]. exists (k0 + int_bytes m)%nat. cbn [length]. rewrite !Nat.add_0_r. rewrite EN in EG, BI. conj_split; auto.
          apply missed_snoc; auto. rewrite <- EG. auto.
    - (* Read begins *)
      destruct (HOLDER ltac:(tauto)) as [EH HH]. cbn [holding] in HH. destruct HH as (k0 & M & EG & EN & BI & PM).
      intros E. inversion E; subst s'. clear E. apply QUIET; auto; try discriminate.
      cbn [holding]. exists k0. conj_split; auto; try lia. apply refill_step. auto.
    - destruct (HOLDER ltac:(tauto)) as [EH HH]. cbn [holding] in HH. destruct HH as (k0 & M & EG & EN & BI & HN & PM).
      intros E. inversion E; subst s'. clear E. apply QUIET; auto; try discriminate.
      cbn [holding]. exists k0. destruct (copy_step _ _ need BI HN) as (cc & Hc & EC & BI'). rewrite EC, piece_length. conj_split; auto; lia.
    - destruct (HOLDER ltac:(tauto)) as [EH HH]. cbn [holding] in HH. destruct HH as (k0 & M & EG & EN & HN & EW & BI & PM).
      intros E. inversion E; subst s'. clear E. apply QUIET; auto; try discriminate.
      cbn [holding]. exists k0. rewrite app_length, Nat.add_assoc. conj_split; auto; try lia.
      rewrite EG at 1. rewrite EW at 1. rewrite piece_app. auto.
      rewrite Nat.add_assoc. auto.
    - (* return *)
      intros E. inversion E; subst s'. clear E. destruct MP as [-> _]. exists []. rewrite app_nil_r. split; [cbn [callers]; rewrite upd_length; auto|]. split.
      + intros j pj tj Ej Etj. cbn [callers] in Etj. destruct (Nat.eq_dec i j) as [<-|NE].
        * rewrite upd_same in Etj by auto. inversion Etj; subst tj. rewrite EP in Ej. inversion Ej; subst pj.
          exists []. cbn [returned todo at_]. rewrite app_nil_r. conj_split; auto.
          rewrite app_length. cbn [length]. rewrite Nat.add_comm. cbn [Nat.add].
          assert (G : forall (l : list call) n x r, skipn n l = x :: r -> skipn (S n) l = r).
          { clear. induction l as [|y l IH]; intros [|n] x r H; cbn [skipn] in *; try discriminate. inversion H; auto. apply IH in H. auto. }
          eapply G. rewrite MT. exact ETD.
        * rewrite upd_other in Etj by auto. apply MINE; auto.
      + exists K. split; auto. cbn [holder reader callers]. destruct (holder s) as [h|].
        * destruct HOLD as [(t' & c' & r' & E1 & E2 & E3) OTH].
          assert (NE : i <> h). { intros <-. rewrite ET in E1. inversion E1; subst t'. rewrite EA in E3. cbn [holding] in E3. auto. }
          split. exists t', c', r'. rewrite upd_other by auto. auto.
          intros j tj NEj Etj. destruct (Nat.eq_dec i j) as [<-|NE'].
          -- rewrite upd_same in Etj by auto. inversion Etj; subst. cbn [at_ away]. auto.
          -- rewrite upd_other in Etj by auto. eapply OTH; eauto.
        * destruct HOLD as [BI OTH]. split; auto. intros j tj Etj. destruct (Nat.eq_dec i j) as [<-|NE'].
          -- rewrite upd_same in Etj by auto. inversion Etj; subst. cbn [at_ away]. auto.
          -- rewrite upd_other in Etj by auto. eapply OTH; eauto.
    - discriminate.
  Qed.

  Lemma run_inv progs : forall sched log s, inv progs log s -> exists more, inv progs (log ++ more) (shared_run ks s sched).
  Proof.
    induction sched as [|i r IH]; intros log s I; cbn [shared_run]. exists []. rewrite app_nil_r. auto.
    destruct (shared_step ks s i) as [s'|] eqn:E; [|apply IH; auto].
    destruct (step_inv _ _ _ _ _ I E) as [m1 I1]. destruct (IH _ _ I1) as [m2 I2]. exists (m1 ++ m2). rewrite app_assoc. auto.
  Qed.
  Lemma start_inv progs : inv progs [] (shared_start progs).
  Proof.
    unfold shared_start. split; [cbn [callers]; rewrite map_length; auto|]. split.
    - intros i p t E1 E2. cbn [callers] in E2. rewrite nth_error_map, E1 in E2. cbn [option_map] in E2. inversion E2; subst.
      exists []. cbn. auto.
    - exists 0%nat. split; [constructor|]. cbn [holder reader callers]. split. left. auto.
      intros i t E. rewrite nth_error_map in E. destruct (nth_error progs i); inversion E; subst. cbn. auto.
  Qed.
  Lemma inv_explains progs log s : inv progs log s -> explains st progs log s.
  Proof.
    intros (LEN & MINE & K & OBO & HOLD). split; [eauto|]. split; auto. intros i p t Ep Et. cbn zeta.
    destruct (MINE i p t Ep Et) as (pend & MW & MC & MT & MP).
    assert (L : (length (of_caller i log) = length (returned t) + length pend)%nat) by (rewrite <- (map_length what), MW, app_length; auto).
    assert (LP : (length pend <= 1)%nat) by (destruct (at_ t); [subst pend; cbn; lia|..]; destruct MP as [MP _]; subst pend; cbn; lia).
    conj_split; auto; try lia.
    - rewrite MW, firstn_app, Nat.sub_diag, firstn_all. cbn [firstn]. rewrite app_nil_r. auto.
    - unfold outside. intros E. rewrite E in MP. rewrite L, MP. cbn. lia.
  Qed.

  Theorem linearizable progs s1 s2 : exists log more,
    explains st progs log (shared_run ks (shared_start progs) s1) /\
    explains st progs (log ++ more) (shared_run ks (shared_start progs) (s1 ++ s2)).
  Proof.
    destruct (run_inv progs s1 [] _ (start_inv progs)) as [log I]. cbn [app] in I.
    destruct (run_inv progs s2 log _ I) as [more I2]. exists log, more. split; [apply inv_explains; auto|].
    assert (E : forall a b s, shared_run ks s (a ++ b) = shared_run ks (shared_run ks s a) b).
    { clear. induction a; intros; cbn [app shared_run]; auto. }
    rewrite E. apply inv_explains; auto.
  Qed.

  (** ** progress *)
  Definition positive (c : call) : Prop := match c with CUint64 => True | CRandInt m => 0 < m end.

  Lemma inv_todo progs log s i t : inv progs log s -> Forall (Forall positive) progs -> nth_error (callers s) i = Some t -> Forall positive (todo t).
  Proof.
    intros (LEN & MINE & _) F E. assert (LI : (i < length (callers s))%nat) by (apply nth_error_Some; congruence).
    destruct (nth_error progs i) as [p|] eqn:EP; [|apply nth_error_None in EP; lia].
    destruct (MINE i p t EP E) as (pend & _ & _ & MT & _). rewrite <- MT. 
    apply nth_error_In in EP. rewrite Forall_forall in F. specialize (F p EP). rewrite <- (firstn_skipn (length (returned t)) p), Forall_app in F. tauto.
  Qed.

  Theorem no_deadlock progs sched : Forall (Forall positive) progs ->
    let s := shared_run ks (shared_start progs) sched in
    (forall i, shared_step ks s i = None) -> finished s.
  Proof.
    intros F s STUCK t IN. destruct (run_inv progs sched [] _ (start_inv progs)) as [log I]. cbn [app] in I. fold s in I.
    destruct (In_nth_error _ _ IN) as [i Ei]. destruct I as (LEN & MINE & K & OBO & HOLD) eqn:II. clear II.
    destruct (todo t) as [|c rest] eqn:ET; auto. exfalso.
    destruct (holder s) as [h|] eqn:EH.
    - destruct HOLD as [(t' & c' & r' & E1 & E2 & E3) _]. specialize (STUCK h). unfold shared_step in STUCK. rewrite E1, E2 in STUCK.
      destruct (at_ t') as [|[|n] got|need got|need got new|v|] eqn:EA; try discriminate; cbn [holding] in E3; auto.
      + destruct (finish c' got); discriminate.
      + pose proof (inv_todo progs log s h t' I F E1) as FT. rewrite E2 in FT. inversion FT as [|? ? PC _]; subst. destruct c'; cbn in PC; auto. lia.
    - destruct HOLD as [_ OTH]. specialize (STUCK i). unfold shared_step in STUCK. rewrite Ei, ET, EH in STUCK. specialize (OTH i t Ei).
      destruct (at_ t); cbn [away] in OTH; try tauto; discriminate.
  Qed.

  (** ** words only: every call ends after at most 28 moves *)
  Definition words (c : call) : Prop := c = CUint64.
  Definition pc_cost (p : pc) : nat :=
    match p with PNext => 28 | PEnter need _ => 2 + 3 * need | PCopy need _ => 1 + 3 * need | PAdvance need _ _ => 3 * need | PUnlocked _ => 1 | PPanicked => 0 end.
  Definition cost (t : caller) : nat := match todo t with [] => 0 | _ :: r => pc_cost (at_ t) + 28 * length r end.
  Definition total (l : list caller) : nat := fold_right (fun t a => (cost t + a)%nat) 0%nat l.

  Lemma total_upd l : forall i t t', nth_error l i = Some t -> (cost t' < cost t)%nat -> (total (upd l i t') < total l)%nat.
  Proof.
    induction l as [|x l IH]; intros [|i] t t' E H; cbn [nth_error] in E; try discriminate; cbn [upd total fold_right].
    - inversion E; subst. unfold total in *. lia.
    - specialize (IH i t t' E H). unfold total in *. lia.
  Qed.

  Lemma step_cost progs log s i s' : Forall (Forall words) progs -> inv progs log s -> shared_step ks s i = Some s' ->
    (total (callers s') < total (callers s))%nat.
  Proof.
    intros F I. pose proof I as (LEN & MINE & K & OBO & HOLD). unfold shared_step.
    destruct (nth_error (callers s) i) as [t|] eqn:ET; [|discriminate].
    destruct (todo t) as [|c rest] eqn:ETD; [discriminate|].
    assert (LI : (i < length (callers s))%nat) by (apply nth_error_Some; congruence).
    destruct (nth_error progs i) as [p|] eqn:EP; [|apply nth_error_None in EP; lia].
    pose proof (MINE i p t EP ET) as (pend & MW & MC & MT & MP).
    assert (EC : c = CUint64).
    { apply nth_error_In in EP. rewrite Forall_forall in F. specialize (F p EP). rewrite <- (firstn_skipn (length (returned t)) p), Forall_app in F.
      destruct F as [_ F]. rewrite MT, ETD in F. inversion F; auto. }
    assert (HOLDER : ~ away (at_ t) -> holding c (at_ t) (reader s) K).
    { intros NA. destruct (holder s) as [h|].
      - destruct (Nat.eq_dec i h) as [<-|NE]; [|exfalso; apply NA; destruct HOLD as [_ OTH]; eapply OTH; eauto].
        destruct HOLD as [(t' & c' & r' & E1 & E2 & E3) _]. rewrite ET in E1. inversion E1; subst t'. rewrite ETD in E2. inversion E2; subst. auto.
      - exfalso. apply NA. destruct HOLD as [_ OTH]. eapply OTH; eauto. }
    subst c.
    destruct (at_ t) as [|[|n] got|need got|need got new|v|] eqn:EA; cbn [away] in HOLDER; intros E; try discriminate;
      try (destruct (holder s); [discriminate|]); cbn [finish] in E; try (inversion E; subst s'; cbn [callers]; eapply total_upd; [exact ET|];
        unfold cost; rewrite ETD, EA; cbn [todo at_ pc_cost begin length]; try lia).
    - specialize (HOLDER ltac:(tauto)). cbn [holding] in HOLDER. destruct HOLDER as (k0 & _ & _ & _ & HN & _). lia.
    - cbn [todo at_ pc_cost]. destruct rest; cbn [length]; lia.
  Qed.

  Theorem words_end progs sched : Forall (Forall words) progs ->
    (moves ks (shared_start progs) sched <= 28 * length (concat progs))%nat.
  Proof.
    intros F. assert (G : forall sched log s, inv progs log s -> (moves ks s sched <= total (callers s))%nat).
    { clear sched. induction sched as [|i r IH]; intros log s I; cbn [moves]; [lia|].
      destruct (shared_step ks s i) as [s'|] eqn:E; [|eapply IH; eauto].
      pose proof (step_cost _ _ _ _ _ F I E). destruct (step_inv _ _ _ _ _ I E) as [m I']. specialize (IH _ _ I'). lia. }
    pose proof (G sched [] _ (start_inv progs)) as H. etransitivity; [exact H|]. unfold shared_start. cbn [callers]. clear.
    induction progs as [|p r IH]; cbn [map total fold_right concat length]; auto. rewrite app_length. unfold total in IH.
    assert (cost (mkC p PNext []) <= 28 * length p)%nat by (unfold cost; destruct p; cbn [todo at_ pc_cost length]; lia). lia.
  Qed.

  (** ** a panic inside RandInt *)
  Theorem panic_blocks progs sched i t : let s := shared_run ks (shared_start progs) sched in
    nth_error (callers s) i = Some t -> at_ t = PPanicked ->
    forall later j u, nth_error (callers s) j = Some u -> outside u -> nth_error (callers (shared_run ks s later)) j = Some u.
  Proof.
    intros s Ei EA later. destruct (run_inv progs sched [] _ (start_inv progs)) as [log I]. cbn [app] in I. fold s in I.
    assert (H : holder s = Some i).
    { destruct I as (_ & _ & K & _ & HOLD). destruct (holder s) as [h|].
      - destruct (Nat.eq_dec i h) as [<-|NE]; auto. destruct HOLD as [_ OTH]. specialize (OTH i t NE Ei). rewrite EA in OTH. cbn in OTH. tauto.
      - destruct HOLD as [_ OTH]. specialize (OTH i t Ei). rewrite EA in OTH. cbn in OTH. tauto. }
    clearbody s. clear sched. revert log s Ei H I.
    induction later as [|k r IH]; intros log s Ei H I j u Ej OU; cbn [shared_run]; auto.
    destruct (shared_step ks s k) as [s'|] eqn:E; [|eapply IH; eauto].
    assert (G : nth_error (callers s') i = Some t /\ holder s' = Some i /\ nth_error (callers s') j = Some u).
    { unfold shared_step in E. destruct (nth_error (callers s) k) as [tk|] eqn:EK; [|discriminate]. destruct (todo tk) as [|c rest]; [discriminate|].
      assert (NI : k <> i) by (intros ->; rewrite Ei in EK; inversion EK; subst; rewrite EA in E; discriminate).
      assert (NJ : k <> j) by (intros ->; rewrite Ej in EK; inversion EK; subst; rewrite OU, H in E; discriminate).
      destruct I as (_ & _ & K & _ & HOLD). rewrite H in HOLD. destruct HOLD as [_ OTH]. specialize (OTH k tk NI EK).
      destruct (at_ tk); cbn [away] in OTH; try tauto.
      - rewrite H in E. discriminate.
      - inversion E; subst. cbn [callers holder]. rewrite !upd_other by auto. auto. }
    destruct G as (G1 & G2 & G3). destruct (step_inv _ _ _ _ _ I E) as [m I']. eapply IH; eauto.
  Qed.
End P.

Lemma takes_range st k m v k' : takes st k (CRandInt m) v k' -> (forall j, is_byte (st j)) -> 0 <= v < m.
Proof.
  intros T B. remember (CRandInt m) as c. revert m Heqc. induction T as [k|k m H|k m v k' H T IH]; intros m0 E; inversion E; subst; auto.
  split; auto. unfold int_candidate. unfold piece. destruct (seq k (int_bytes m0)) as [|x t]; cbn [map]; [lia|]. unfold be_dec.
  apply le_dec_bound, bytes_rev. constructor.
  - specialize (B x). unfold is_byte, w8 in *. split. apply Z.land_nonneg. lia.
    destruct (Z.eq_dec (Z.land (st x) (2 ^ (if int_bits m0 mod 8 =? 0 then 8 else int_bits m0 mod 8) - 1)) 0) as [->|N]; [lia|].
    assert (HB : 0 <= int_bits m0) by (unfold int_bits; destruct (m0 - 1 <=? 0); [lia|]; pose proof (Z.log2_nonneg (m0 - 1)); lia).
    set (r := if int_bits m0 mod 8 =? 0 then 8 else int_bits m0 mod 8) in *.
    assert (HR : 0 <= r <= 8) by (unfold r; pose proof (Z.mod_pos_bound (int_bits m0) 8); destruct (int_bits m0 mod 8 =? 0); lia).
    replace (2 ^ r - 1) with (Z.ones r) by (rewrite Z.ones_equiv; lia). rewrite Z.land_ones by lia.
    pose proof (Z.mod_pos_bound (st x) (2 ^ r) ltac:(apply Z.pow_pos_nonneg; lia)). pose proof (Z.pow_le_mono_r 2 r 8). lia.
  - unfold bytes. rewrite Forall_map. apply Forall_forall. intros; apply B.
Qed.
Transparent buf_size.
