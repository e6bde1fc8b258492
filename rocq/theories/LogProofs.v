(** Proofs about log files: what the script reads is what the programs wrote. *)
From Coq Require Import String ZArith List Bool Lia.
From Verif Require Import GoBase BaseFacts EncodingModel FrontendModel FrontendProofs PointModel MultiModel LogModel LogSpec.
Import ListNotations.
Open Scope Z_scope.
Open Scope go_scope.

(** ** texts *)
Lemma starts_spec : forall p s r, starts p s = Some r <-> s = p ++ r.
Proof.
  induction p as [|x p IH]; intros s r; cbn [starts app]; [split; congruence|]. destruct s as [|y s]; [split; discriminate|].
  destruct (Z.eqb_spec x y) as [->|N]; [rewrite IH; split; congruence|]. split; [discriminate|congruence].
Qed.
Lemma find_sub_none : forall p s, find_sub p s = None <-> ~ occurs p s.
Proof.
  intros p. induction s as [|c t IH]; cbn [find_sub].
  - destruct (starts p []) as [r|] eqn:E.
    + apply starts_spec in E. split; [discriminate|]. intros N. destruct N. exists [], r. exact E.
    + split; [|reflexivity]. intros _ (b & a & X). destruct b; [|discriminate]. cbn [app] in X. apply starts_spec in X. congruence.
  - destruct (starts p (c :: t)) as [r|] eqn:E.
    + apply starts_spec in E. split; [discriminate|]. intros N. destruct N. exists [], r. exact E.
    + rewrite IH. split; intros N (b & a & X).
      * destruct b as [|c' b]; cbn [app] in X; [apply starts_spec in X; congruence|]. apply N. exists b, a. congruence.
      * apply N. exists (c :: b), a. cbn [app]. congruence.
Qed.
Lemma contains_spec p s : contains p s = false <-> ~ occurs p s.
Proof. unfold contains. rewrite <- find_sub_none. destruct (find_sub p s); split; congruence. Qed.
Lemma occurs_sep p x c y : p <> [] -> ~ In c p -> occurs p (x ++ c :: y) -> occurs p x \/ occurs p y.
Proof.
  intros NP NC (b & a & E). apply app_eq_app in E as (l & [(E1 & E2)|(E1 & E2)]).
  - apply app_eq_app in E2 as (l' & [(E3 & E4)|(E3 & E4)]).
    + destruct l' as [|d l']; cbn [app] in E4; [left; exists b, []; rewrite app_nil_r in *; congruence|].
      exfalso. apply NC. rewrite E3. apply in_or_app. right. left. congruence.
    + left. exists b, l'. rewrite E1, E3. reflexivity.
  - destruct l as [|d l]; cbn [app] in E2.
    + destruct p as [|z p]; [congruence|]. exfalso. apply NC. left. cbn [app] in E2. congruence.
    + right. exists l, a. congruence.
Qed.
Lemma free_skip p c : forall x y, Forall (fun z => z <> c) x -> find_sub (c :: p) (x ++ y) = find_sub (c :: p) y.
Proof.
  induction x as [|z x IH]; intros y F; cbn [app]; [reflexivity|]. inversion F; subst. cbn [find_sub starts]. destruct (Z.eqb_spec c z); [congruence|]. apply IH. assumption.
Qed.

(** ** digits *)
Definition plain (c : Z) : Prop := 32 <= c <= 58 /\ c <> 44 /\ c <> 46.
Lemma itoa_plain v : Forall plain (itoa v).
Proof.
  unfold itoa. destruct (Z.ltb_spec v 0).
  - constructor; [unfold plain; lia|]. eapply Forall_impl; [|apply decimal_digits; lia]. cbv beta. unfold plain. lia.
  - eapply Forall_impl; [|apply decimal_digits; lia]. cbv beta. unfold plain. lia.
Qed.
Lemma pad_plain n s : Forall plain s -> Forall plain (pad n s).
Proof. intros F. unfold pad. apply Forall_app. split; [|exact F]. induction (n - length s)%nat; cbn [repeat]; constructor; [unfold plain; lia|assumption]. Qed.
Lemma stamp_plain t : Forall plain (stamp_text t).
Proof.
  unfold stamp_text. repeat (first [apply Forall_app; split; [apply pad_plain, itoa_plain|]|constructor; [unfold plain; lia|]]). constructor.
Qed.
Lemma itoa_digits v : 0 <= v < 2 ^ 63 -> itoa v <> [] /\ digits 0 (itoa v) = Some v.
Proof.
  intros V. unfold itoa. destruct (Z.ltb_spec v 0); [lia|]. split.
  - destruct (decimal_head 19 v ltac:(lia)) as (d & t & E & _). rewrite E. discriminate.
  - rewrite <- (app_nil_r (decimal 20 v)), digits_decimal; [reflexivity|]. change (10 ^ Z.of_nat 20) with 100000000000000000000. lia.
Qed.
Lemma pad_digits n s : digits 0 (pad n s) = digits 0 s.
Proof. unfold pad. induction (n - length s)%nat as [|k IH]; cbn [repeat app]; [reflexivity|]. cbn [digits digit]. exact IH. Qed.
Lemma split_no c : forall s, Forall (fun z => z <> c) s -> split_on c s = [s].
Proof. induction s as [|x t IH]; intros F; cbn [split_on]; [reflexivity|]. inversion F; subst. destruct (Z.eqb_spec x c); [congruence|]. rewrite IH by assumption. reflexivity. Qed.
Lemma split_cons c : forall s t, Forall (fun z => z <> c) s -> split_on c (s ++ c :: t) = s :: split_on c t.
Proof.
  induction s as [|x s IH]; intros t F; cbn [app split_on]; [rewrite Z.eqb_refl; reflexivity|]. inversion F; subst. destruct (Z.eqb_spec x c); [congruence|]. rewrite IH by assumption. reflexivity.
Qed.
Lemma plain_no c s : c = 44 \/ c = 46 \/ 58 < c \/ c < 32 -> Forall plain s -> Forall (fun z => z <> c) s.
Proof. intros C F. eapply Forall_impl; [|exact F]. unfold plain. cbv beta. intros; lia. Qed.
Lemma float_itoa v : count_ok v -> py_float (itoa v) = Ok (in_millionths v).
Proof.
  intros V. destruct (itoa_digits v V) as (N & D). unfold py_float. rewrite split_no by (apply plain_no; [lia|apply itoa_plain]). rewrite D. destruct (itoa v); [congruence|reflexivity].
Qed.
Lemma decimal_length f : forall v n, (1 <= n)%nat -> 0 <= v < 10 ^ Z.of_nat n -> (length (decimal f v) <= n)%nat.
Proof.
  induction f as [|f IH]; intros v n N V; cbn [decimal length]; [lia|]. rewrite app_length. cbn [length]. destruct (Z.ltb_spec v 10); [cbn [length]; lia|].
  destruct n as [|n]; [lia|]. destruct n as [|n]; [change (10 ^ Z.of_nat 1) with 10 in V; lia|].
  assert (length (decimal f (v / 10)) <= S n)%nat; [|lia]. apply IH; [lia|]. split; [apply Z.div_pos; lia|]. apply Z.div_lt_upper_bound; [lia|].
  replace (10 * 10 ^ Z.of_nat (S n)) with (10 ^ Z.of_nat (S (S n))); [lia|]. rewrite (Nat2Z.inj_succ (S n)), Z.pow_succ_r by lia. reflexivity.
Qed.
Lemma pad_length n s : (length s <= n)%nat -> length (pad n s) = n.
Proof. intros L. unfold pad. rewrite app_length, repeat_length. lia. Qed.
Lemma float_seconds us : count_ok us -> py_float (seconds us) = Ok us.
Proof.
  intros U. unfold count_ok in U. unfold seconds, py_float. assert (M : 0 <= us mod 1000000 < 1000000) by (apply Z.mod_pos_bound; lia).
  assert (Q : 0 <= us / 1000000 < 2 ^ 63). { split; [apply Z.div_pos; lia|]. apply Z.div_lt_upper_bound; lia. }
  rewrite split_cons by (apply plain_no; [lia|apply itoa_plain]). rewrite split_no by (apply plain_no; [lia|apply pad_plain, itoa_plain]).
  destruct (itoa_digits _ Q) as (N & D). destruct (itoa_digits (us mod 1000000) ltac:(lia)) as (_ & D'). 
  assert (L : length (pad 6 (itoa (us mod 1000000))) = 6%nat).
  { apply pad_length. unfold itoa. destruct (Z.ltb_spec (us mod 1000000) 0); [lia|]. apply decimal_length; [lia|]. change (10 ^ Z.of_nat 6) with 1000000. lia. }
  unfold zlen. rewrite L. change (Z.of_nat 6 <=? 6) with true. change (10 ^ (6 - Z.of_nat 6)) with 1. destruct (itoa (us / 1000000)) as [|d t]; [congruence|]. rewrite pad_digits, D, D'.
  f_equal. pose proof (Z.div_mod us 1000000 ltac:(lia)). lia.
Qed.
Lemma seconds_no c us : c = 44 \/ 58 < c \/ c < 32 -> Forall (fun z => z <> c) (seconds us).
Proof.
  intros C. unfold seconds. apply Forall_app. split; [apply plain_no; [lia|apply itoa_plain]|]. constructor; [lia|]. apply plain_no; [lia|apply pad_plain, itoa_plain].
Qed.

(** ** lines *)
Lemma stats_unbroken : unbroken (lit "stats,").
Proof. cbn. unfold unbroken. repeat (apply Forall_cons; [lia|]). apply Forall_nil. Qed.
Lemma plain_unbroken s : Forall plain s -> unbroken s.
Proof. intros F. eapply Forall_impl; [|exact F]. unfold plain. cbv beta. intros; lia. Qed.
Lemma universal_same : forall s, Forall (fun c => c <> 13) s -> universal s = s.
Proof. induction s as [|c t IH]; intros F; cbn [universal]; [reflexivity|]. inversion F; subst. destruct (Z.eqb_spec c 13); [congruence|]. rewrite IH by assumption. reflexivity. Qed.
Lemma lines_cons : forall s t, unbroken s -> py_lines (s ++ 10 :: t) = (s ++ [10]) :: py_lines t.
Proof.
  induction s as [|c s IH]; intros t F; cbn [app py_lines]; [reflexivity|]. inversion F as [|? ? (N & _) F']; subst. destruct (Z.eqb_spec c 10); [congruence|].
  rewrite IH by exact F'. reflexivity.
Qed.
Lemma ended_ok m : unbroken m -> ended m = m ++ [10].
Proof.
  intros F. unfold ended. destruct (Z.eqb_spec (last m 0) 10) as [E|]; [|reflexivity]. exfalso. destruct m as [|c t] using rev_ind; [discriminate E|].
  rewrite last_last in E. apply Forall_app in F as (_ & F). inversion F; subst. lia.
Qed.
Lemma filter_no s : unbroken s -> filter (fun c => negb (c =? 10)) (s ++ [10]) = s.
Proof.
  intros F. rewrite filter_app. cbn [filter]. rewrite Z.eqb_refl. cbn [negb]. rewrite app_nil_r. induction F as [|c s (N & _) F IH]; cbn [filter]; [reflexivity|].
  destruct (Z.eqb_spec c 10); [congruence|]. cbn [negb]. rewrite IH. reflexivity.
Qed.

(** ** messages *)
(** The beginnings of lines *)
Definition prefix_ok (p : list Z) : Prop := unbroken p /\ Forall (fun c => c <> 115) p.
Inductive reads : list (list Z) -> list (list Z) -> Prop :=
| reads_nil : reads [] []
| reads_quiet m ms rs : quiet m -> reads ms rs -> reads (m :: ms) rs
| reads_stats rest ms rs : unbroken rest -> reads ms rs -> reads ((lit "stats," ++ rest) :: ms) (rest :: rs).
Lemma reads_app : forall a ra b rb, reads a ra -> reads b rb -> reads (a ++ b) (ra ++ rb).
Proof. intros a ra b rb A B. induction A; cbn [app]; [exact B|apply reads_quiet; auto|apply reads_stats; auto]. Qed.
Lemma quiet_reads : forall ms, Forall quiet ms -> reads ms [].
Proof. induction ms as [|m ms IH]; intros F; [constructor|]. inversion F; subst. constructor; auto. Qed.
Lemma reads_ok prefix : prefix_ok prefix -> forall ms rs, reads ms rs -> forall clock,
  map stats_of (stats_lines (log_file prefix clock ms)) = map (split_on 44) rs.
Proof.
  intros (PU & PS).
  assert (BG : forall t, unbroken (prefix ++ stamp_text t) /\ Forall (fun c => c <> 115) (prefix ++ stamp_text t)).
  { intros t. split; apply Forall_app; split; auto; [apply plain_unbroken, stamp_plain|apply plain_no; [lia|apply stamp_plain]]. }
  assert (NR : forall ms rs, reads ms rs -> forall clock, Forall (fun c => c <> 13) (log_file prefix clock ms)).
  { assert (W : forall m t, unbroken m -> Forall (fun c => c <> 13) (log_line prefix t m)).
    { intros m t U. unfold log_line. rewrite ended_ok by exact U. rewrite app_assoc. apply Forall_app. split; [|apply Forall_app; split; [|repeat constructor; lia]].
      - eapply Forall_impl; [|exact (proj1 (BG t))]. cbv beta. tauto. - eapply Forall_impl; [|exact U]. cbv beta. tauto. }
    intros ms rs R. induction R as [|m ms rs Q R IH|rest ms rs U R IH]; intros clock; cbn [log_file]; [constructor|apply Forall_app; split; [apply W; exact (proj2 Q)|apply IH]|].
    apply Forall_app. split; [|apply IH]. apply W. apply Forall_app. split; [exact stats_unbroken|exact U]. }
  intros ms rs R clock. unfold stats_lines. rewrite universal_same by (eapply NR; exact R). clear NR. revert clock.
  assert (W : forall m clock ms, unbroken m -> py_lines (log_line prefix (clock O) m ++ log_file prefix (fun i => clock (S i)) ms) =
    ((prefix ++ stamp_text (clock O)) ++ m ++ [10]) :: py_lines (log_file prefix (fun i => clock (S i)) ms)).
  { intros m clock ms' U. unfold log_line. rewrite ended_ok by exact U.
    replace ((prefix ++ stamp_text (clock O) ++ m ++ [10]) ++ log_file prefix (fun i => clock (S i)) ms')
      with ((prefix ++ stamp_text (clock O) ++ m) ++ 10 :: log_file prefix (fun i => clock (S i)) ms') by (repeat rewrite <- app_assoc; reflexivity).
    rewrite lines_cons; [f_equal; repeat rewrite <- app_assoc; reflexivity|]. rewrite app_assoc. apply Forall_app. split; [apply BG|exact U]. }
  induction R as [|m ms rs Q R IH|rest ms rs U R IH]; intros clock; cbn [log_file]; [reflexivity| |].
  - rewrite W by exact (proj2 Q). cbn [filter].
    assert (C : contains (lit "stats") ((prefix ++ stamp_text (clock O)) ++ m ++ [10]) = false).
    { unfold contains. change (lit "stats") with (115 :: lit "tats"). rewrite free_skip by apply BG. change (115 :: lit "tats") with (lit "stats").
      rewrite (proj2 (find_sub_none (lit "stats") (m ++ [10]))); [reflexivity|]. intros O. apply occurs_sep in O as [O|O]; [exact (proj1 Q O)| |discriminate|].
      - destruct O as (b & a & E). destruct b; discriminate. - cbn. lia. }
    rewrite C. apply IH.
  - assert (UM : unbroken (lit "stats," ++ rest)) by (apply Forall_app; split; [exact stats_unbroken|exact U]). rewrite W by exact UM. cbn [filter].
    assert (C : contains (lit "stats") ((prefix ++ stamp_text (clock O)) ++ (lit "stats," ++ rest) ++ [10]) = true).
    { unfold contains. change (lit "stats") with (115 :: lit "tats"). rewrite free_skip by apply BG. reflexivity. }
    rewrite C. cbn [map]. rewrite IH. f_equal. unfold stats_of. rewrite app_assoc, filter_no by (apply Forall_app; split; [apply BG|exact UM]).
    unfold partition2. change (lit "stats,") with (115 :: lit "tats,") at 1. rewrite free_skip by apply BG. reflexivity.
Qed.

Lemma mapM_through {A B C} (f : B -> res C) (g : A -> B) : forall l, mapM (fun x => f (g x)) l = mapM f (map g l).
Proof. induction l as [|x l IH]; cbn [mapM map]; [reflexivity|]. rewrite IH. reflexivity. Qed.
Lemma mapM_all {A B} (f : A -> res B) (g : A -> B) : forall l, Forall (fun x => f x = Ok (g x)) l -> mapM f l = Ok (map g l).
Proof. induction l as [|x l IH]; intros F; cbn [mapM map]; [reflexivity|]. inversion F as [|? ? E F']; subst. rewrite E, IH by exact F'. reflexivity. Qed.

(** ** what the programs log *)
Lemma client_prefix_ok : prefix_ok client_prefix.
Proof. unfold client_prefix, prefix_ok, unbroken. cbn. split; repeat (apply Forall_cons; [lia|]); apply Forall_nil. Qed.
Lemma server_prefix_ok sid : prefix_ok (server_prefix sid).
Proof.
  unfold server_prefix. split; (apply Forall_app; split; [cbn; repeat (apply Forall_cons; [lia|]); apply Forall_nil|apply Forall_app; split; [|cbn; repeat (apply Forall_cons; [lia|]); apply Forall_nil]]).
  - apply plain_unbroken, itoa_plain. - apply plain_no; [lia|apply itoa_plain].
Qed.
Lemma quiet_plain s : Forall plain s -> quiet s.
Proof.
  intros F. split; [|apply plain_unbroken; exact F]. intros (b & a & ->). apply Forall_app in F as (_ & F).
  change (lit "stats" ++ a) with (115 :: lit "tats" ++ a) in F. apply Forall_inv in F. unfold plain in F. lia.
Qed.
Lemma quiet_words x y : quiet x -> quiet y -> quiet (x ++ 32 :: y).
Proof.
  intros (X & UX) (Y & UY). split.
  - intros O. apply occurs_sep in O as [O|O]; auto; [discriminate|cbn; lia].
  - apply Forall_app. split; [exact UX|]. constructor; [lia|exact UY].
Qed.
Lemma quiet_check s : contains (lit "stats") s = false -> forallb (fun c => negb (c =? 10) && negb (c =? 13)) s = true -> quiet s.
Proof.
  intros C F. split; [apply contains_spec; exact C|]. apply Forall_forall. intros c I. rewrite forallb_forall in F. specialize (F c I). apply andb_true_iff in F as (F1 & F2).
  apply negb_true_iff, Z.eqb_neq in F1, F2. auto.
Qed.
Ltac quiet_lit := apply quiet_check; vm_compute; reflexivity.

Definition client_stats (j : Z) (r : measured) : list Z := itoa j ++ lit "," ++ itoa (me_bytes r) ++ lit "," ++ seconds (me_us r).
Fixpoint client_all (j : Z) (rs : list measured) : list (list Z) :=
  match rs with [] => [] | r :: t => client_stats j r :: client_all (j + 1) t end.
Lemma client_stats_ok j r : unbroken (client_stats j r) /\ split_on 44 (client_stats j r) = [itoa j; itoa (me_bytes r); seconds (me_us r)].
Proof.
  unfold client_stats. change (lit ",") with [44]. cbn [app]. split.
  - apply Forall_app. split; [apply plain_unbroken, itoa_plain|]. constructor; [lia|]. apply Forall_app. split; [apply plain_unbroken, itoa_plain|]. constructor; [lia|].
    apply Forall_forall. intros c I. split; intros ->; [pose proof (seconds_no 10 (me_us r) ltac:(lia)) as F|pose proof (seconds_no 13 (me_us r) ltac:(lia)) as F]; rewrite Forall_forall in F; exact (F _ I eq_refl).
  - rewrite split_cons by (apply plain_no; [lia|apply itoa_plain]). rewrite split_cons by (apply plain_no; [lia|apply itoa_plain]). rewrite split_no by (apply seconds_no; lia). reflexivity.
Qed.
Lemma client_reads conns asked shown R rs : Forall quiet conns -> Forall quiet asked -> quiet shown -> Forall measured_ok rs ->
  reads (client_messages conns asked shown R rs) (client_all 0 rs).
Proof.
  intros QC QA QS F. unfold client_messages. change (client_all 0 rs) with ([] ++ [] ++ [] ++ client_all 0 rs).
  apply reads_app; [|apply reads_app; [|change ((lit "databaseInfo: " ++ shown) :: repetitions_messages R 0 rs) with ([lit "databaseInfo: " ++ shown] ++ repetitions_messages R 0 rs); apply reads_app]].
  - apply quiet_reads. apply Forall_map. eapply Forall_impl; [|exact QC]. intros a Qa. change (lit "connected to server " ++ a) with (lit "connected to server" ++ 32 :: a). apply quiet_words; [quiet_lit|exact Qa].
  - apply quiet_reads. apply Forall_map. eapply Forall_impl; [|exact QA]. intros a Qa. change (lit "sent databaseInfo request to " ++ a) with (lit "sent databaseInfo request to" ++ 32 :: a). apply quiet_words; [quiet_lit|exact Qa].
  - apply quiet_reads. constructor; [|constructor]. change (lit "databaseInfo: " ++ shown) with (lit "databaseInfo:" ++ 32 :: shown). apply quiet_words; [quiet_lit|exact QS].
  - clear QC QA QS. generalize 0. induction F as [|r rs (QB & _) F IH]; intros j; cbn [repetitions_messages client_all]; [constructor|].
    change (client_stats j r :: client_all (j + 1) rs) with ([client_stats j r] ++ client_all (j + 1) rs). apply reads_app; [|apply IH].
    unfold repetition_messages. constructor.
    + change (lit "start repetition " ++ itoa (j + 1) ++ lit " out of " ++ itoa R) with (lit "start repetition" ++ 32 :: itoa (j + 1) ++ 32 :: lit "out of" ++ 32 :: itoa R).
      apply quiet_words; [quiet_lit|]. apply quiet_words; [apply quiet_plain, itoa_plain|]. apply quiet_words; [quiet_lit|]. apply quiet_plain, itoa_plain.
    + change [client_stats j r] with ([] ++ [client_stats j r]). apply reads_app.
      * apply quiet_reads. clear - QB. induction QB as [|sent bl QS QB IH]; cbn [map concat]; [constructor|]. apply Forall_app. split; [|exact IH]. unfold block_messages.
        constructor; [quiet_lit|]. apply Forall_app. split; [|constructor; [quiet_lit|constructor]]. apply Forall_map. eapply Forall_impl; [|exact QS].
        intros a Qa. change (lit "sent query to " ++ a) with (lit "sent query to" ++ 32 :: a). apply quiet_words; [quiet_lit|exact Qa].
      * change (lit "stats," ++ itoa j ++ lit "," ++ itoa (me_bytes r) ++ lit "," ++ seconds (me_us r)) with (lit "stats," ++ client_stats j r).
        apply reads_stats; [apply client_stats_ok|constructor].
Qed.
Lemma client_parsed clock conns asked shown R rs : Forall quiet conns -> Forall quiet asked -> quiet shown -> Forall measured_ok rs ->
  parse_client_log (log_file client_prefix clock (client_messages conns asked shown R rs)) = Ok (map (fun r => in_millionths (me_bytes r)) rs, map me_us rs).
Proof.
  intros QC QA QS F. unfold parse_client_log.
  set (f := fun p : list (list Z) => b <- py_index p 1 ;; bw <- py_float b ;; t <- py_index p 2 ;; tm <- py_float t ;; Ok (bw, tm)).
  change (fun line : list Z => b <- py_index (stats_of line) 1 ;; bw <- py_float b ;; t <- py_index (stats_of line) 2 ;; tm <- py_float t ;; Ok (bw, tm)) with (fun line => f (stats_of line)).
  rewrite (mapM_through f stats_of), (reads_ok _ client_prefix_ok _ _ (client_reads conns asked shown R rs QC QA QS F)).
  assert (X : forall j, mapM f (map (split_on 44) (client_all j rs)) = Ok (map (fun r => (in_millionths (me_bytes r), me_us r)) rs)).
  { clear QC QA QS. induction F as [|r rs (_ & B & U) F IH]; intros j; cbn [client_all map mapM]; [reflexivity|]. rewrite (proj2 (client_stats_ok j r)). unfold f at 1.
    cbn [py_index nth_error bind]. unfold py_index. cbn [nth_error bind]. rewrite float_itoa, float_seconds by assumption. cbn [bind]. rewrite IH. reflexivity. }
  rewrite X. cbn [bind]. rewrite !map_map. reflexivity.
Qed.

Lemma served_reads : forall requests, reads (concat (map served_messages requests)) (map itoa (answered requests)).
Proof.
  induction requests as [|r rs IH]; [constructor|]. unfold answered in *. cbn [map concat]. rewrite map_app. apply reads_app; [|exact IH].
  destruct r as [|[a|m|m|m]]; cbn [served_messages map].
  - apply quiet_reads. constructor; [quiet_lit|constructor].
  - apply reads_quiet; [quiet_lit|]. apply reads_stats; [apply plain_unbroken, itoa_plain|constructor].
  - apply quiet_reads. constructor; [quiet_lit|constructor].
  - apply quiet_reads. constructor; [quiet_lit|constructor].
  - apply quiet_reads. constructor; [quiet_lit|constructor].
Qed.
Lemma server_reads sid logFile f pointer addr requests : quiet logFile -> quiet (lit (s_scheme f)) -> quiet pointer -> quiet addr ->
  reads (server_messages sid logFile f pointer addr requests) (map itoa (answered requests)).
Proof.
  intros QL QF QP QA. unfold server_messages. constructor.
  { unfold flags_message. change (lit "flags: ") with (lit "flags:" ++ [32]). change (lit " ") with [32]. rewrite <- !app_assoc. cbn [app].
    repeat (first [apply quiet_words; [first [quiet_lit|apply quiet_plain, itoa_plain|exact QL|exact QF]|]|apply quiet_plain, itoa_plain]). }
  change (map itoa (answered requests)) with ([] ++ map itoa (answered requests)). apply reads_app.
  { apply quiet_reads. destruct (_ && _)%bool; [|constructor]. constructor; [|constructor]. change (lit "using DPF with numServers: " ++ pointer) with (lit "using DPF with numServers:" ++ 32 :: pointer). apply quiet_words; [quiet_lit|exact QP]. }
  constructor. { change (lit "is listening at " ++ addr) with (lit "is listening at" ++ 32 :: addr). apply quiet_words; [quiet_lit|exact QA]. }
  constructor; [quiet_lit|]. rewrite <- (app_nil_r (map itoa (answered requests))). apply reads_app; [apply served_reads|]. apply quiet_reads. constructor; [quiet_lit|constructor].
Qed.
Lemma server_parsed clock sid logFile f pointer addr requests : quiet logFile -> quiet (lit (s_scheme f)) -> quiet pointer -> quiet addr -> lengths_ok requests ->
  parse_server_log (log_file (server_prefix sid) clock (server_messages sid logFile f pointer addr requests)) = Ok (map in_millionths (answered requests)).
Proof.
  intros QL QF QP QA LO. unfold parse_server_log.
  rewrite (mapM_through (fun p : list (list Z) => b <- py_index p 0 ;; py_float b) stats_of), (reads_ok _ (server_prefix_ok sid) _ _ (server_reads sid logFile f pointer addr requests QL QF QP QA)).
  unfold lengths_ok in LO. induction LO as [|n l N LO IH]; cbn [map mapM]; [reflexivity|]. rewrite split_no by (apply plain_no; [lia|apply itoa_plain]).
  change (py_index [itoa n] 0) with (Ok (itoa n)). cbn [bind]. rewrite float_itoa by exact N. cbn [bind]. rewrite IH. reflexivity.
Qed.
