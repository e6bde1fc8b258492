(** Proofs about the measurements of the deployment. *)
From Coq Require Import String ZArith QArith Qround List Bool Lia Lqa Permutation.
From Verif Require Import GoBase BaseFacts EncodingModel FrontendModel FrontendProofs LogModel LogSpec LogProofs ResultsModel ResultsSpec ResultsProofs TrialModel TrialSpec.
Import ListNotations.
Open Scope Z_scope.
Open Scope go_scope.

(** ** texts made of whole lines *)
Definition whole (s : list Z) : Prop := s = [] \/ exists x, s = x ++ [10].
Lemma whole_app a b : whole a -> whole b -> whole (a ++ b).
Proof. intros A [->|(x & ->)]; [rewrite app_nil_r; exact A|]. right. exists (a ++ x). apply app_assoc. Qed.
Lemma lines_newline x b : py_lines ((x ++ [10]) ++ b) = py_lines (x ++ [10]) ++ py_lines b.
Proof.
  induction x as [|c x IH]; [reflexivity|]. cbn [app py_lines]. destruct (c =? 10); [rewrite IH; reflexivity|]. rewrite IH.
  destruct (py_lines (x ++ [10])) as [|l ls] eqn:E; [|reflexivity]. exfalso. clear - E. destruct x as [|d x]; [discriminate|]. cbn [app py_lines] in E. destruct (d =? 10); [discriminate|].
  destruct (py_lines (x ++ [10])); discriminate.
Qed.
Lemma lines_app a b : whole a -> py_lines (a ++ b) = py_lines a ++ py_lines b.
Proof. intros [->|(x & ->)]; [reflexivity|apply lines_newline]. Qed.
Lemma universal_newline n : forall x b, (length x <= n)%nat -> universal ((x ++ [10]) ++ b) = universal (x ++ [10]) ++ universal b.
Proof.
  induction n as [|n IH]; intros x b L; (destruct x as [|c x]; [reflexivity|]); cbn [length] in L; [lia|]. cbn [app universal].
  destruct (c =? 13); [|cbn [app]; f_equal; apply IH; lia]. cbn [app]. f_equal. destruct x as [|d x]; [reflexivity|]. cbn [length app] in *.
  destruct (d =? 10); [apply IH; lia|]. apply (IH (d :: x)). cbn [length]. lia.
Qed.
Lemma universal_app a b : whole a -> universal (a ++ b) = universal a ++ universal b.
Proof. intros [->|(x & ->)]; [reflexivity|]. apply (universal_newline (length x)). lia. Qed.
Lemma universal_last n : forall x, (length x <= n)%nat -> exists y, universal (x ++ [10]) = y ++ [10].
Proof.
  induction n as [|n IH]; intros x L; (destruct x as [|c x]; [exists []; reflexivity|]); cbn [length] in L; [lia|]. cbn [app universal]. destruct (c =? 13).
  - destruct x as [|d x]; [exists []; reflexivity|]. cbn [length app] in *. destruct (d =? 10).
    + destruct (IH x ltac:(lia)) as (y & E). rewrite E. exists (10 :: y). reflexivity.
    + destruct (IH (d :: x) ltac:(cbn [length]; lia)) as (y & E). cbn [app] in E. rewrite E. exists (10 :: y). reflexivity.
  - destruct (IH x ltac:(lia)) as (y & E). rewrite E. exists (c :: y). reflexivity.
Qed.
Lemma universal_whole a : whole a -> whole (universal a).
Proof. intros [->|(x & ->)]; [left; reflexivity|]. destruct (universal_last (length x) x ltac:(lia)) as (y & ->). right. eauto. Qed.
Lemma stats_app a b : whole a -> stats_lines (a ++ b) = stats_lines a ++ stats_lines b.
Proof. intros W. unfold stats_lines. rewrite universal_app by exact W. rewrite lines_app by (apply universal_whole; exact W). apply filter_app. Qed.
Lemma line_whole prefix t m : whole (log_line prefix t m).
Proof.
  unfold log_line, ended. right. destruct (Z.eqb_spec (last m 0) 10) as [E|N]; [|exists (prefix ++ stamp_text t ++ m); rewrite <- !app_assoc; reflexivity].
  destruct m as [|c m] using rev_ind; [discriminate E|]. rewrite last_last in E. subst c. exists (prefix ++ stamp_text t ++ m). rewrite <- !app_assoc. reflexivity.
Qed.
Lemma line_in : forall s l, In l (py_lines s) -> exists before after, s = before ++ l ++ after.
Proof.
  induction s as [|c s IH]; intros l I; [destruct I|]. cbn [py_lines] in I. destruct (Z.eqb_spec c 10) as [->|N].
  - destruct I as [<-|I]; [exists [], s; reflexivity|]. destruct (IH l I) as (b & a & ->). exists (10 :: b), a. reflexivity.
  - destruct (py_lines s) as [|l0 ls] eqn:E.
    + destruct I as [<-|[]]. exists [], s. reflexivity.
    + destruct I as [<-|I].
      * assert (P : exists a, s = l0 ++ a).
        { clear - E. revert l0 ls E. induction s as [|d s IH]; intros l0 ls E; [discriminate|]. cbn [py_lines] in E. destruct (Z.eqb_spec d 10) as [->|]; [injection E as <- <-; exists s; reflexivity|].
          destruct (py_lines s) as [|l1 l1s] eqn:E1; injection E as <- <-; [exists s; reflexivity|]. destruct (IH _ _ eq_refl) as (a & ->). exists a. reflexivity. }
        destruct P as (a & ->). exists [], a. reflexivity.
      * destruct (IH l (or_intror I)) as (b & a & ->). exists (c :: b), a. reflexivity.
Qed.
Lemma silent_lines p : silent p -> stats_lines (p ++ [10]) = [].
Proof.
  intros (NO & NR). unfold stats_lines. rewrite universal_same.
  2:{ apply Forall_forall. intros c I ->. apply in_app_or in I as [I|[I|[]]]; [exact (NR I)|discriminate]. }
  assert (F : forall l, In l (py_lines (p ++ [10])) -> contains (lit "stats") l = false).
  { intros l I. apply contains_spec. intros (b & a & ->). destruct (line_in _ _ I) as (b' & a' & E).
    assert (O : occurs (lit "stats") (p ++ [10])) by (exists (b' ++ b), (a ++ a'); rewrite E, <- !app_assoc; reflexivity).
    apply occurs_sep in O as [O|(x & y & O)]; [exact (NO O)|destruct x; discriminate|discriminate|cbn; lia]. }
  induction (py_lines (p ++ [10])) as [|l ls IH]; [reflexivity|]. cbn [filter]. rewrite F by (left; reflexivity). apply IH. intros l' I. apply F. right. exact I.
Qed.

(** ** what is read from a text *)
Definition gives (s : list Z) (rs : list (list Z)) : Prop := whole s /\ map stats_of (stats_lines s) = map (split_on 44) rs.
Lemma gives_nil : gives [] [].
Proof. split; [left|]; reflexivity. Qed.
Lemma gives_app a ra b rb : gives a ra -> gives b rb -> gives (a ++ b) (ra ++ rb).
Proof. intros (WA & EA) (WB & EB). split; [apply whole_app; assumption|]. rewrite stats_app, !map_app, EA, EB by exact WA. reflexivity. Qed.
Lemma gives_reads prefix t m rs : prefix_ok prefix -> reads [m] rs -> gives (log_line prefix t m) rs.
Proof.
  intros P R. split; [apply line_whole|]. pose proof (reads_ok prefix P _ _ R (fun _ => t)) as E. cbn [log_file] in E. rewrite app_nil_r in E. exact E.
Qed.
Lemma gives_quiet prefix t m : prefix_ok prefix -> quiet m -> gives (log_line prefix t m) [].
Proof. intros P Q. apply gives_reads; [exact P|]. apply reads_quiet; [exact Q|constructor]. Qed.
Lemma gives_stats prefix t rest : prefix_ok prefix -> unbroken rest -> gives (log_line prefix t (lit "stats," ++ rest)) [rest].
Proof. intros P Q. apply gives_reads; [exact P|]. apply reads_stats; [exact Q|constructor]. Qed.
Lemma gives_silent p : silent p -> gives (p ++ [10]) [].
Proof. intros S0. split; [right; eauto|]. rewrite silent_lines by exact S0. reflexivity. Qed.
Lemma quiet_silent p : quiet p -> silent p.
Proof. intros (O & U). split; [exact O|]. intros I. rewrite Forall_forall in U. specialize (U _ I). cbv beta in U. lia. Qed.

(** Outputs and what they give *)
Inductive shows : list output -> list (list Z) -> Prop :=
| shows_nil : shows [] []
| shows_quiet m o rs : quiet m -> shows o rs -> shows (Logged m :: o) rs
| shows_stats rest o rs : unbroken rest -> shows o rs -> shows (Logged (lit "stats," ++ rest) :: o) (rest :: rs)
| shows_silent p o rs : silent p -> shows o rs -> shows (Printed (p ++ [10]) :: o) rs.
Lemma shows_app a ra b rb : shows a ra -> shows b rb -> shows (a ++ b) (ra ++ rb).
Proof. intros A B. induction A; cbn [app]; [exact B|apply shows_quiet|apply shows_stats|apply shows_silent]; auto. Qed.
Lemma shows_quiets ms : Forall quiet ms -> shows (map Logged ms) [].
Proof. induction 1; cbn [map]; [constructor|apply shows_quiet; assumption]. Qed.
Lemma shows_gives prefix : prefix_ok prefix -> forall o rs, shows o rs -> forall clock, gives (output_file prefix clock o) rs.
Proof.
  intros P o rs H. induction H as [|m o rs Q H IH|rest o rs U H IH|p o rs S0 H IH]; intros clock; cbn [output_file]; [apply gives_nil| | |].
  - change rs with ([] ++ rs). apply gives_app; [apply gives_quiet; assumption|apply IH].
  - change (rest :: rs) with ([rest] ++ rs). apply gives_app; [apply gives_stats; assumption|apply IH].
  - change rs with ([] ++ rs). apply gives_app; [apply gives_silent; assumption|apply IH].
Qed.

(** ** samples *)
Inductive sample := OfClient (c q us : Z) | OfServer (c a : Z).
Definition sample_core (s : sample) : Z := match s with OfClient c _ _ => c | OfServer c _ => c end.
Definition sample_text (s : sample) : list Z :=
  match s with
  | OfClient c q us => itoa c ++ lit "," ++ itoa q ++ lit "," ++ seconds us
  | OfServer c a => itoa c ++ lit "," ++ itoa a
  end.
Definition sample_ok (s : sample) : Prop :=
  match s with OfClient c q us => int_ok c /\ count_ok q /\ count_ok us | OfServer c a => int_ok c /\ count_ok a end.
Definition picked (c : Z) (f : sample -> list Z) (ss : list sample) : list Z := concat (map (fun s => if sample_core s =? c then f s else []) ss).
Definition opt (l : list Z) : option (list Z) := match l with [] => None | _ => Some l end.
Definition sq (s : sample) : list Z := match s with OfClient _ q _ => [q] | OfServer _ _ => [] end.
Definition sl (s : sample) : list Z := match s with OfClient _ _ l => [l] | OfServer _ _ => [] end.
Definition sa (s : sample) : list Z := match s with OfClient _ _ _ => [] | OfServer _ a => [a] end.
Definition collect (c : Z) (ss : list sample) : by_core := mkByCore (opt (picked c sq ss)) (opt (picked c sl ss)) (opt (picked c sa ss)).

Lemma picked_snoc c f ss s : picked c f (ss ++ [s]) = picked c f ss ++ (if sample_core s =? c then f s else []).
Proof. unfold picked. rewrite map_app, concat_app. cbn [map concat]. rewrite app_nil_r. reflexivity. Qed.
Lemma opt_snoc l x : opt (l ++ [x]) = append_to (opt l) x.
Proof. destruct l as [|y l]; reflexivity. Qed.
Lemma both_lengths c ss : length (picked c sq ss) = length (picked c sl ss).
Proof. unfold picked. induction ss as [|s ss IH]; cbn [map concat]; [reflexivity|]. rewrite !app_length, IH. destruct s as [c0 q l|c0 a]; cbn [sample_core sq sl]; destruct (c0 =? c); reflexivity. Qed.
Lemma sample_unbroken s : sample_ok s -> unbroken (sample_text s).
Proof.
  intros _. assert (S0 : forall us, unbroken (seconds us)).
  { intros us. apply Forall_forall. intros c I. split; intros ->; [pose proof (seconds_no 10 us ltac:(lia)) as F|pose proof (seconds_no 13 us ltac:(lia)) as F]; rewrite Forall_forall in F; exact (F _ I eq_refl). }
  destruct s as [c q us|c a]; cbn [sample_text]; change (lit ",") with [44]; cbn [app]; [do 2 (apply Forall_app; split; [apply plain_unbroken, itoa_plain|]; apply Forall_cons; [lia|]); apply S0|].
  apply Forall_app; split; [apply plain_unbroken, itoa_plain|]. apply Forall_cons; [lia|]. apply plain_unbroken, itoa_plain.
Qed.
Lemma sample_split s : split_on 44 (sample_text s) = match s with OfClient c q us => [itoa c; itoa q; seconds us] | OfServer c a => [itoa c; itoa a] end.
Proof.
  destruct s as [c q us|c a]; cbn [sample_text]; change (lit ",") with [44]; cbn [app].
  - rewrite !split_cons by (apply plain_no; [lia|apply itoa_plain]). rewrite split_no by (apply seconds_no; lia). reflexivity.
  - rewrite split_cons, split_no by (apply plain_no; [lia|apply itoa_plain]). reflexivity.
Qed.
Lemma int_itoa c : int_ok c -> py_int (itoa c) = Ok c.
Proof. intros I. unfold py_int. rewrite atoi_itoa by exact I. reflexivity. Qed.

Lemma get_collected f : forall cs c, In c cs -> dict_get Z.eqb (map (fun c => (c, f c)) cs) c = Ok (f c : by_core).
Proof.
  unfold dict_get. induction cs as [|x cs IH]; intros c I; [destruct I|]. cbn [map find fst]. destruct (Z.eqb_spec x c) as [->|N]; [reflexivity|]. destruct I as [I|I]; [congruence|]. apply IH. exact I.
Qed.
Lemma get_missing {V} (f : Z -> V) : forall cs c, ~ In c cs -> dict_get Z.eqb (map (fun c => (c, f c)) cs) c = Err "KeyError".
Proof.
  unfold dict_get. induction cs as [|x cs IH]; intros c I; [reflexivity|]. cbn [map find fst]. cbn [In] in I. destruct (Z.eqb_spec x c) as [->|N]; [tauto|]. apply IH. tauto.
Qed.
Lemma set_collected (f g : Z -> by_core) c : forall cs, NoDup cs -> In c cs -> (forall x, x <> c -> f x = g x) ->
  dict_set Z.eqb (map (fun c => (c, f c)) cs) c (g c) = map (fun c => (c, g c)) cs.
Proof.
  induction cs as [|x cs IH]; intros N I E; [destruct I|]. inversion N as [|? ? NI N']; subst. cbn [map dict_set fst]. destruct (Z.eqb_spec x c) as [->|NE].
  - f_equal. apply map_ext_in. intros y Y. rewrite E by congruence. reflexivity.
  - destruct I as [I|I]; [congruence|]. rewrite IH, E by assumption. reflexivity.
Qed.
Lemma parse_sample done s cs : NoDup cs -> In (sample_core s) cs -> sample_ok s ->
  parse_entry (map (fun c => (c, collect c done)) cs) (split_on 44 (sample_text s)) = Ok (map (fun c => (c, collect c (done ++ [s]))) cs).
Proof.
  intros N I O. assert (X : forall x, x <> sample_core s -> collect x done = collect x (done ++ [s])).
  { intros x NE. unfold collect. rewrite !picked_snoc. destruct (Z.eqb_spec (sample_core s) x); [congruence|]. rewrite !app_nil_r. reflexivity. }
  rewrite sample_split. destruct s as [c q us|c a]; cbn [sample_core sample_ok] in *; unfold parse_entry; cbn [py_index nth_error bind length].
  - destruct O as (OC & OQ & OU). rewrite int_itoa by exact OC. cbn [bind]. rewrite get_collected by exact I. cbn [bind]. change (3 =? 3)%nat with true. cbv iota.
    rewrite int_itoa by (unfold int_ok, count_ok in *; lia). cbn [bind]. rewrite float_seconds by exact OU. cbn [bind].
    assert (V : collect c (done ++ [OfClient c q us]) = mkByCore (append_to (bc_queries (collect c done)) q) (append_to (bc_latency (collect c done)) us) (bc_answer (collect c done))).
    { unfold collect. rewrite !picked_snoc. cbn [sample_core sq sl sa]. rewrite Z.eqb_refl, app_nil_r, !opt_snoc. reflexivity. }
    pose proof (both_lengths c done) as L. rewrite <- (set_collected (fun c => collect c done) (fun x => collect x (done ++ [OfClient c q us])) c cs N I X). rewrite V.
    unfold collect. cbn [bc_queries bc_latency bc_answer]. destruct (picked c sq done); destruct (picked c sl done); try discriminate L; reflexivity.
  - destruct O as (OC & OA). rewrite int_itoa by exact OC. cbn [bind]. rewrite get_collected by exact I. cbn [bind]. change (2 =? 3)%nat with false. cbv iota.
    rewrite int_itoa by (unfold int_ok, count_ok in *; lia). cbn [bind]. rewrite <- (set_collected (fun c => collect c done) (fun x => collect x (done ++ [OfServer c a])) c cs N I X).
    unfold collect. rewrite !picked_snoc. cbn [sample_core sq sl sa]. rewrite Z.eqb_refl, !app_nil_r, opt_snoc. reflexivity.
Qed.
Lemma parse_samples cs : NoDup cs -> forall todo done, Forall sample_ok todo -> Forall (fun s => In (sample_core s) cs) todo ->
  foldM parse_entry (map (fun c => (c, collect c done)) cs) (map (split_on 44) (map sample_text todo)) = Ok (map (fun c => (c, collect c (done ++ todo))) cs).
Proof.
  intros N. induction todo as [|s todo IH]; intros done FO FI; cbn [map foldM]; [rewrite app_nil_r; reflexivity|].
  inversion FO; subst. inversion FI; subst. rewrite parse_sample by assumption. cbn [bind]. rewrite IH by assumption. rewrite <- app_assoc. reflexivity.
Qed.
Lemma core_keys : forall l cs, NoDup cs -> exists cs', NoDup cs' /\ (forall c, In c cs' <-> In c cs \/ In c l) /\
  fold_left (fun d c => dict_set Z.eqb d c no_core) l (map (fun c => (c, no_core)) cs) = map (fun c => (c, no_core)) cs'.
Proof.
  induction l as [|x l IH]; intros cs N; cbn [fold_left].
  - exists cs. split; [exact N|]. split; [cbn [In]; tauto|reflexivity].
  - destruct (in_dec Z.eq_dec x cs) as [I|NI].
    + rewrite (set_collected (fun _ => no_core) (fun _ => no_core) x cs N I) by reflexivity. destruct (IH cs N) as (cs' & N' & I' & E). exists cs'. split; [exact N'|]. split; [|exact E].
      intros c. rewrite I'. cbn [In]. split; [tauto|]. intros [H|[<-|H]]; auto.
    + assert (E0 : dict_set Z.eqb (map (fun c => (c, no_core)) cs) x no_core = map (fun c => (c, no_core)) (cs ++ [x])).
      { rewrite map_app. apply dict_set_new. apply Forall_forall. intros e H. apply in_map_iff in H as (y & <- & Y). cbn [fst]. apply Z.eqb_neq. congruence. }
      rewrite E0. destruct (IH (cs ++ [x])) as (cs' & N' & I' & E).
      { apply NoDup_rev in N. rewrite <- (rev_involutive (cs ++ [x])). apply NoDup_rev. rewrite rev_app_distr. cbn [rev app]. constructor; [rewrite <- in_rev; exact NI|exact N]. }
      exists cs'. split; [exact N'|]. split; [|exact E]. intros c. rewrite I', in_app_iff. cbn [In]. tauto.
Qed.
Lemma parse_given file ss : gives file (map sample_text ss) -> Forall sample_ok ss ->
  exists cs, NoDup cs /\ (forall c, In c cs <-> In c (map sample_core ss)) /\ parse_log file = Ok (map (fun c => (c, collect c ss)) cs).
Proof.
  intros (_ & E) F. unfold parse_log. rewrite E.
  assert (M : mapM (fun s => c <- py_index s 0 ;; py_int c) (map (split_on 44) (map sample_text ss)) = Ok (map sample_core ss)).
  { clear E. induction F as [|s ss O F IH]; cbn [map mapM]; [reflexivity|]. rewrite sample_split. destruct s as [c q us|c a]; cbn [py_index nth_error bind sample_ok sample_core] in *;
      (rewrite int_itoa by tauto); cbn [bind]; rewrite IH; reflexivity. }
  rewrite M. cbn [bind]. destruct (core_keys (map sample_core ss) [] (NoDup_nil _)) as (cs & N & I & EF). cbn [map] in EF. rewrite EF. exists cs. split; [exact N|].
  assert (I' : forall c, In c cs <-> In c (map sample_core ss)) by (intros c; rewrite I; cbn [In]; tauto). split; [exact I'|].
  pose proof (parse_samples cs N ss [] F) as P. cbn [app] in P. change (fun c => (c, collect c [])) with (fun c : Z => (c, no_core)) in P. apply P.
  apply Forall_forall. intros s S0. apply I'. apply in_map. exact S0.
Qed.

(** ** what the client shows *)
Lemma query_bytes_sum queries : query_bytes queries = zsum (map zlen queries).
Proof.
  unfold query_bytes. assert (G : forall (l : list (list Z)) a, fold_left (fun bw q => bw + zlen q) l a = a + zsum (map zlen l)); [|apply (G queries 0)].
  induction l as [|q l IH]; intros a; cbn [fold_left map zsum]; [lia|]. rewrite IH. lia.
Qed.
Definition trial_sample (t : trial) : sample := OfClient (tr_cores t) (sent_bytes t) (tr_us t).
Lemma trial_shows t : trial_ok t -> shows (trial_output t) [sample_text (trial_sample t)].
Proof.
  intros (IC & IB & IU & QA & QI & QE & QS & QO).
  assert (ST : trial_stats t = lit "stats," ++ sample_text (trial_sample t)) by (unfold trial_stats, sent_bytes; rewrite query_bytes_sum; reflexivity).
  assert (UN : unbroken (sample_text (trial_sample t))) by (apply sample_unbroken; cbn; auto).
  assert (SM : Forall quiet (map sending_message (tr_sendings t))).
  { apply Forall_map. eapply Forall_impl; [|exact QS]. cbv beta. intros [a|n] H; cbn [sending_message].
    - change (lit "sent query to " ++ a) with (lit "sent query to" ++ 32 :: a). apply quiet_words; [quiet_lit|exact H].
    - change (lit "query size in bytes " ++ itoa n) with (lit "query size in bytes" ++ 32 :: itoa n). apply quiet_words; [quiet_lit|apply quiet_plain, itoa_plain]. }
  unfold trial_output. change [sample_text (trial_sample t)] with ([] ++ [] ++ [sample_text (trial_sample t)]). apply shows_app; [|apply shows_app].
  - rewrite <- (map_map (fun a => lit "sent databaseInfo request to " ++ a) Logged). apply shows_quiets. apply Forall_map. eapply Forall_impl; [|exact QA]. cbv beta. intros a H.
    change (lit "sent databaseInfo request to " ++ a) with (lit "sent databaseInfo request to" ++ 32 :: a). apply quiet_words; [quiet_lit|exact H].
  - apply shows_quiet; [|constructor]. change (lit "databaseInfo: " ++ tr_info t) with (lit "databaseInfo:" ++ 32 :: tr_info t). apply quiet_words; [quiet_lit|exact QI].
  - destruct (tr_outcome t) as [r|id k armored].
    + apply shows_quiet; [quiet_lit|]. change [sample_text (trial_sample t)] with ([] ++ [sample_text (trial_sample t)]). apply shows_app; [rewrite <- (map_map sending_message Logged); apply shows_quiets; exact SM|].
      apply shows_quiet; [quiet_lit|]. apply shows_silent; [apply quiet_silent, quiet_plain, itoa_plain|]. rewrite ST. apply shows_stats; [exact UN|].
      rewrite app_assoc. apply shows_silent; [|constructor]. change (lit "Wall-clock time to retrieve complex output: " ++ tr_elapsed t) with (lit "Wall-clock time to retrieve complex output:" ++ 32 :: tr_elapsed t).
      apply quiet_silent, quiet_words; [quiet_lit|exact QE].
    + destruct QO as (QI' & SA). apply shows_quiet.
      { replace (lit "id: " ++ id ++ lit ", hashKey: " ++ itoa k) with (lit "id:" ++ 32 :: (id ++ [44]) ++ 32 :: lit "hashKey:" ++ 32 :: itoa k) by (cbn [app]; rewrite <- app_assoc; reflexivity).
        apply quiet_words; [quiet_lit|]. apply quiet_words; [|apply quiet_words; [quiet_lit|apply quiet_plain, itoa_plain]].
        destruct QI' as (O & U). split; [|apply Forall_app; split; [exact U|apply Forall_cons; [lia|constructor]]].
        intros X. apply (occurs_sep (lit "stats") id 44 []) in X as [X|(x & y & X)]; [exact (O X)|destruct x; discriminate|discriminate|cbn; lia]. }
      apply shows_quiet; [quiet_lit|]. change [sample_text (trial_sample t)] with ([] ++ [sample_text (trial_sample t)]). apply shows_app; [rewrite <- (map_map sending_message Logged); apply shows_quiets; exact SM|].
      apply shows_quiet; [quiet_lit|]. apply shows_quiet; [quiet_lit|]. apply shows_silent; [exact SA|]. rewrite ST. apply shows_stats; [exact UN|].
      rewrite app_assoc. apply shows_silent; [|constructor]. change (lit "Wall-clock time to retrieve the key: " ++ tr_elapsed t) with (lit "Wall-clock time to retrieve the key:" ++ 32 :: tr_elapsed t).
      apply quiet_silent, quiet_words; [quiet_lit|exact QE].
Qed.
Definition run_samples (r : client_run) : list sample := match r with Finished t => [trial_sample t] | Died _ _ => [] end.
Lemma run_shows r : run_ok r -> shows (run_output r) (map sample_text (run_samples r)).
Proof.
  destruct r as [t|said why]; cbn [run_ok run_output run_samples map]; [apply trial_shows|]. intros (QS & QW). change [Logged why] with (map Logged [why]). rewrite <- map_app. apply shows_quiets.
  apply Forall_app. split; [exact QS|constructor; [exact QW|constructor]].
Qed.
Lemma client_gives : forall runs clock, Forall run_ok runs -> gives (client_file clock runs) (map sample_text (concat (map run_samples runs))).
Proof.
  induction runs as [|r runs IH]; intros clock F; cbn [client_file map concat]; [apply gives_nil|]. inversion F; subst. rewrite map_app. apply gives_app; [|apply IH; assumption].
  apply shows_gives; [exact client_prefix_ok|apply run_shows; assumption].
Qed.
Lemma run_samples_ok runs : Forall run_ok runs -> Forall sample_ok (concat (map run_samples runs)).
Proof.
  induction 1 as [|r runs O F IH]; cbn [map concat]; [constructor|]. apply Forall_app. split; [|exact IH]. destruct r as [t|said why]; cbn [run_samples]; [|constructor].
  destruct O as (A & B & C & _). constructor; [cbn; auto|constructor].
Qed.
Lemma picked_runs c runs : let ss := concat (map run_samples runs) in
  picked c sq ss = map sent_bytes (finished c runs) /\ picked c sl ss = map tr_us (finished c runs) /\ picked c sa ss = [].
Proof.
  cbv zeta. unfold picked, finished. induction runs as [|r runs (IQ & IL & IA)]; [auto|]. cbn [map concat]. rewrite !map_app, !concat_app, IQ, IL, IA.
  destruct r as [t|said why]; cbn [run_samples map concat sample_core trial_sample sq sl sa]; [|auto]. destruct (tr_cores t =? c); auto.
Qed.
Lemma runs_core c runs : In c (map sample_core (concat (map run_samples runs))) <-> finished c runs <> [].
Proof.
  unfold finished. induction runs as [|r runs IH]; cbn [map concat]; [split; [intros []|congruence]|]. rewrite map_app, in_app_iff, IH.
  destruct r as [t|said why]; cbn [run_samples map In app sample_core trial_sample]; [|tauto]. destruct (Z.eqb_spec (tr_cores t) c) as [E|N]; cbn [app]; [|tauto].
  split; [discriminate|]. left. left. exact E.
Qed.
Lemma client_parsed_cores clock runs : Forall run_ok runs ->
  exists cs, NoDup cs /\ (forall c, In c cs <-> finished c runs <> []) /\
    parse_log (client_file clock runs) = Ok (map (fun c => (c, mkByCore (Some (map sent_bytes (finished c runs))) (Some (map tr_us (finished c runs))) None)) cs).
Proof.
  intros F. destruct (parse_given _ _ (client_gives runs clock F) (run_samples_ok runs F)) as (cs & N & I & E). exists cs. split; [exact N|].
  assert (I' : forall c, In c cs <-> finished c runs <> []) by (intros c; rewrite I; apply runs_core). split; [exact I'|]. rewrite E. f_equal. apply map_ext_in. intros c C. apply I' in C.
  destruct (picked_runs c runs) as (EQ & EL & EA). unfold collect. rewrite EQ, EL, EA. destruct (finished c runs); [congruence|reflexivity].
Qed.

(** ** what the server shows *)
Definition request_samples (c : Z) (r : request) : list sample := match r with AskAnswer a => [OfServer c (zlen a)] | _ => [] end.
Definition process_samples (p : process) : list sample := concat (map (request_samples (pr_cores p)) (pr_requests p)).
Lemma request_shows c r : int_ok c -> request_ok r -> shows [Logged (request_messages c r)] (map sample_text (request_samples c r)).
Proof.
  intros C O. destruct r as [| |a|a|why|]; cbn [request_messages request_samples map request_ok] in *; try (apply shows_quiet; [quiet_lit|constructor]).
  - apply shows_quiet; [|constructor]. change (lit "answer size in bytes: " ++ itoa (zlen a)) with (lit "answer size in bytes:" ++ 32 :: itoa (zlen a)). apply quiet_words; [quiet_lit|apply quiet_plain, itoa_plain].
  - apply (shows_stats (sample_text (OfServer c (zlen a)))); [apply sample_unbroken; cbn; auto|constructor].
  - apply shows_quiet; [|constructor]. change (lit "ERROR while processing query: " ++ why) with (lit "ERROR while processing query:" ++ 32 :: why). apply quiet_words; [quiet_lit|exact O].
Qed.
Lemma process_shows p : process_ok p -> shows (process_output p) (map sample_text (process_samples p)).
Proof.
  intros (IC & QL & QZ & QA & RO). unfold process_output. cbn [map]. apply shows_quiet; [quiet_lit|]. rewrite map_app. change (map sample_text (process_samples p)) with ([] ++ map sample_text (process_samples p)).
  apply shows_app; [apply shows_quiets; exact QL|]. cbn [map]. apply shows_quiet.
  { change (lit "db size in GiB: " ++ pr_size p) with (lit "db size in GiB:" ++ 32 :: pr_size p). apply quiet_words; [quiet_lit|exact QZ]. }
  apply shows_quiet.
  { change (lit "gRPC server started at " ++ pr_addr p) with (lit "gRPC server started at" ++ 32 :: pr_addr p). apply quiet_words; [quiet_lit|exact QA]. }
  rewrite map_app. rewrite <- (app_nil_r (map sample_text (process_samples p))). apply shows_app; [|apply shows_quiet; [quiet_lit|constructor]].
  unfold process_samples. induction RO as [|r rs O RO IH]; cbn [map concat]; [constructor|]. rewrite map_app. apply (shows_app [_]); [apply request_shows; assumption|exact IH].
Qed.
Lemma process_gives : forall ps clock, Forall process_ok ps -> gives (process_file clock ps) (map sample_text (concat (map process_samples ps))).
Proof.
  induction ps as [|p ps IH]; intros clock F; cbn [process_file map concat]; [apply gives_nil|]. inversion F; subst. rewrite map_app. apply gives_app; [|apply IH; assumption].
  apply shows_gives; [apply server_prefix_ok|apply process_shows; assumption].
Qed.
Lemma process_samples_ok ps : Forall process_ok ps -> Forall sample_ok (concat (map process_samples ps)).
Proof.
  induction 1 as [|p ps O F IH]; cbn [map concat]; [constructor|]. apply Forall_app. split; [|exact IH]. destruct O as (IC & _ & _ & _ & RO). unfold process_samples.
  induction RO as [|r rs O RO IHr]; cbn [map concat]; [constructor|]. apply Forall_app. split; [|exact IHr]. destruct r; cbn [request_samples]; constructor; [cbn; auto|constructor].
Qed.
Lemma picked_process c p : picked c sa (process_samples p) = (if pr_cores p =? c then concat (map (fun r => match r with AskAnswer a => [zlen a] | _ => [] end) (pr_requests p)) else []) /\
  picked c sq (process_samples p) = [] /\ picked c sl (process_samples p) = [].
Proof.
  unfold picked, process_samples. induction (pr_requests p) as [|r rs (IA & IQ & IL)]; cbn [map concat]; [destruct (pr_cores p =? c); auto|]. rewrite !map_app, !concat_app, IA, IQ, IL.
  destruct r; cbn [request_samples map concat sample_core sa sq sl app]; destruct (pr_cores p =? c); auto.
Qed.
Lemma picked_app c f a b : picked c f (a ++ b) = picked c f a ++ picked c f b.
Proof. unfold picked. rewrite map_app. apply concat_app. Qed.
Lemma picked_processes c ps : let ss := concat (map process_samples ps) in
  picked c sa ss = answers_of c ps /\ picked c sq ss = [] /\ picked c sl ss = [].
Proof.
  cbv zeta. unfold answers_of. induction ps as [|p ps (IA & IQ & IL)]; cbn [map concat]; [auto|]. destruct (picked_process c p) as (PA & PQ & PL). rewrite !picked_app, IA, IQ, IL, PA, PQ, PL. auto.
Qed.
Lemma processes_core c ps : In c (map sample_core (concat (map process_samples ps))) <-> answers_of c ps <> [].
Proof.
  destruct (picked_processes c ps) as (PA & PQ & PL). rewrite <- PA. clear PA.
  assert (A : Forall (fun s => match s with OfServer _ _ => True | _ => False end) (concat (map process_samples ps))).
  { clear. induction ps as [|p ps IH]; cbn [map concat]; [constructor|]. apply Forall_app. split; [|exact IH]. unfold process_samples. induction (pr_requests p) as [|r rs IHr]; cbn [map concat]; [constructor|].
    apply Forall_app. split; [|exact IHr]. destruct r; cbn [request_samples]; repeat constructor. }
  clear PQ PL. unfold picked. induction A as [|s ss O A IH]; cbn [map concat In]; [split; [intros []|congruence]|]. rewrite IH. destruct s as [c0 q l|c0 a]; [destruct O|]. cbn [sample_core sa].
  destruct (Z.eqb_spec c0 c) as [E|N]; cbn [app]; [|tauto]. split; [discriminate|]. left. exact E.
Qed.
Lemma server_parsed_cores clock ps : Forall process_ok ps ->
  exists cs, NoDup cs /\ (forall c, In c cs <-> answers_of c ps <> []) /\ parse_log (process_file clock ps) = Ok (map (fun c => (c, mkByCore None None (Some (answers_of c ps)))) cs).
Proof.
  intros F. destruct (parse_given _ _ (process_gives ps clock F) (process_samples_ok ps F)) as (cs & N & I & E). exists cs. split; [exact N|].
  assert (I' : forall c, In c cs <-> answers_of c ps <> []) by (intros c; rewrite I; apply processes_core). split; [exact I'|]. rewrite E. f_equal. apply map_ext_in. intros c C. apply I' in C.
  destruct (picked_processes c ps) as (EA & EQ & EL). unfold collect. rewrite EQ, EL, EA. destruct (answers_of c ps); [congruence|reflexivity].
Qed.

(** ** the figures *)
Lemma answers_both c ps0 ps1 cs0 cs1 : In c cs0 -> In c cs1 ->
  both_answers (map (fun c => (c, mkByCore None None (Some (answers_of c ps0)))) cs0) (map (fun c => (c, mkByCore None None (Some (answers_of c ps1)))) cs1) c =
  Ok (zip_add (answers_of c ps0) (answers_of c ps1)).
Proof.
  intros I0 I1. unfold both_answers. rewrite (get_collected (fun c => mkByCore None None (Some (answers_of c ps0))) cs0 c I0). cbn [bind bc_answer key].
  rewrite (get_collected (fun c => mkByCore None None (Some (answers_of c ps1))) cs1 c I1). reflexivity.
Qed.
Lemma real_shown clock clock0 clock1 runs ps0 ps1 : Forall run_ok runs -> Forall process_ok ps0 -> Forall process_ok ps1 ->
  finished (-1) runs <> [] -> (forall c, answers_of c ps0 <> [] -> answers_of c ps1 <> []) ->
  exists m, middle (map in_seconds (map tr_us (finished (-1) runs))) m /\
    plot_real (process_file clock0 ps0) (process_file clock1 ps1) (client_file clock runs) = Ok (m + ping)%Q.
Proof.
  intros F F0 F1 NF NA. destruct (client_parsed_cores clock runs F) as (cs & N & I & E). destruct (server_parsed_cores clock0 ps0 F0) as (cs0 & N0 & I0 & E0).
  destruct (server_parsed_cores clock1 ps1 F1) as (cs1 & N1 & I1 & E1). unfold plot_real. rewrite E0, E1. cbn [bind].
  rewrite (mapM_all _ (fun e : Z * by_core => zip_add (answers_of (fst e) ps0) (answers_of (fst e) ps1))).
  2:{ apply Forall_forall. intros e X. apply in_map_iff in X as (c & <- & C). cbn [fst]. apply answers_both; [exact C|]. apply I1, NA, I0, C. }
  cbn [bind]. rewrite E. cbn [bind].
  rewrite (mapM_all _ (fun e : Z * by_core => (fst e, map tr_us (finished (fst e) runs)))).
  2:{ apply Forall_forall. intros e X. apply in_map_iff in X as (c & <- & C). reflexivity. }
  cbn [bind]. rewrite (map_map _ (fun e : Z * by_core => (fst e, map tr_us (finished (fst e) runs)))). cbn [fst].
  assert (G : dict_get Z.eqb (map (fun c => (c, map tr_us (finished c runs))) cs) (-1) = Ok (map tr_us (finished (-1) runs))).
  { assert (C : In (-1) cs) by (apply I; exact NF). clear - C. unfold dict_get. induction cs as [|x cs IH]; [destruct C|]. cbn [map find fst]. destruct (Z.eqb_spec x (-1)) as [->|NE]; [reflexivity|].
    destruct C as [C|C]; [congruence|]. apply IH. exact C. }
  rewrite G. cbn [bind]. destruct (median_some (map in_seconds (map tr_us (finished (-1) runs)))) as (m & M).
  { destruct (finished (-1) runs); [congruence|discriminate]. }
  exists m. split; [apply median_middle; exact M|]. rewrite M. reflexivity.
Qed.
Lemma zip_add_nth2 : forall a b j x y, nth_error a j = Some x -> nth_error b j = Some y -> nth_error (zip_add a b) j = Some (x + y).
Proof.
  unfold zip_add. induction a as [|u a IH]; intros [|v b] [|j] x y A B; try discriminate; cbn [combine map nth_error fst snd] in *; [congruence|]. apply IH; assumption.
Qed.
Lemma zip_add_length a b : length (zip_add a b) = Nat.min (length a) (length b).
Proof. unfold zip_add. rewrite map_length. apply combine_length. Qed.
Lemma complex_shown clock clock0 clock1 runs ps0 ps1 : Forall run_ok runs -> Forall process_ok ps0 -> Forall process_ok ps1 ->
  finished (-1) runs <> [] -> (length (finished (-1) runs) <= length (answers_of (-1) ps0))%nat -> (length (finished (-1) runs) <= length (answers_of (-1) ps1))%nat ->
  exists t b totals, plot_complex (process_file clock0 ps0) (process_file clock1 ps1) (client_file clock runs) = Ok (t, (b / 1000)%Q) /\
    middle (map in_seconds (map tr_us (finished (-1) runs))) t /\ middle (map inject_Z totals) b /\ length totals = length (finished (-1) runs) /\
    forall j tr, nth_error (finished (-1) runs) j = Some tr -> nth_error totals j = Some (sent_bytes tr + nth j (answers_of (-1) ps0) 0 + nth j (answers_of (-1) ps1) 0).
Proof.
  intros F F0 F1 NF L0 L1. destruct (client_parsed_cores clock runs F) as (cs & N & I & E). destruct (server_parsed_cores clock0 ps0 F0) as (cs0 & N0 & I0 & E0).
  destruct (server_parsed_cores clock1 ps1 F1) as (cs1 & N1 & I1 & E1). unfold plot_complex. rewrite E0, E1. cbn [bind].
  assert (P : (0 < length (finished (-1) runs))%nat) by (destruct (finished (-1) runs); [congruence|cbn; lia]).
  rewrite answers_both.
  2:{ apply I0. intros X. rewrite X in L0. cbn in L0. lia. } 2:{ apply I1. intros X. rewrite X in L1. cbn in L1. lia. }
  cbn [bind]. rewrite E. cbn [bind]. rewrite (get_collected (fun c => mkByCore (Some (map sent_bytes (finished c runs))) (Some (map tr_us (finished c runs))) None) cs (-1)) by (apply I; exact NF).
  cbn [bind bc_queries bc_latency key]. set (totals := zip_add (zip_add (answers_of (-1) ps0) (answers_of (-1) ps1)) (map sent_bytes (finished (-1) runs))).
  assert (LT : length totals = length (finished (-1) runs)). { unfold totals. rewrite !zip_add_length, map_length. lia. }
  destruct (median_some (map in_seconds (map tr_us (finished (-1) runs)))) as (t & T); [destruct (finished (-1) runs); [congruence|discriminate]|].
  destruct (median_some (map inject_Z totals)) as (b & B); [destruct totals; [cbn in LT; lia|discriminate]|].
  exists t, b, totals. rewrite T, B. split; [reflexivity|]. split; [apply median_middle; exact T|]. split; [apply median_middle; exact B|]. split; [exact LT|].
  intros j tr J. assert (JL : (j < length (finished (-1) runs))%nat) by (apply nth_error_Some; congruence).
  unfold totals. rewrite (zip_add_nth2 _ _ j (nth j (answers_of (-1) ps0) 0 + nth j (answers_of (-1) ps1) 0) (sent_bytes tr)); [f_equal; lia| |rewrite nth_error_map, J; reflexivity].
  apply zip_add_nth2; apply nth_error_nth'; lia.
Qed.

(** ** a text that mentions the word *)
Lemma occurs_line p : p <> [] -> Forall (fun c => c <> 10) p -> forall s, occurs p s -> exists l, In l (py_lines s) /\ occurs p l.
Proof.
  intros NP NL. induction s as [|c s IH]; intros (b & a & E).
  - destruct b; [|discriminate]. destruct p; [congruence|discriminate].
  - destruct b as [|d b]; cbn [app] in E.
    + clear IH. assert (G : forall q s, q <> [] -> Forall (fun c => c <> 10) q -> s = q ++ a -> exists x ls, py_lines s = (q ++ x) :: ls).
      { clear. induction q as [|y q IH]; intros s NQ FQ ->; [congruence|]. inversion FQ; subst. cbn [app py_lines]. destruct (Z.eqb_spec y 10); [congruence|]. destruct q as [|z q].
        - cbn [app]. destruct (py_lines a) as [|l ls]; [exists [], []|exists l, ls]; reflexivity.
        - destruct (IH _ ltac:(discriminate) ltac:(assumption) eq_refl) as (x & ls & E). rewrite E. exists x, ls. reflexivity. }
      destruct (G p (c :: s) NP NL E) as (x & ls & E'). exists (p ++ x). rewrite E'. split; [left; reflexivity|]. exists [], x. reflexivity.
    + injection E as -> E. destruct (IH ltac:(exists b, a; exact E)) as (l & I & O). cbn [py_lines]. destruct (Z.eqb_spec d 10) as [->|N]; [exists l; split; [right; exact I|exact O]|].
      destruct (py_lines s) as [|l0 ls] eqn:EL; [destruct I|]. destruct I as [<-|I]; [|exists l; split; [right; exact I|exact O]].
      exists (d :: l0). split; [left; reflexivity|]. destruct O as (x & y & ->). exists (d :: x), y. reflexivity.
Qed.
Lemma mapM_bad {A B} (f : A -> res B) l r : mapM f l = Ok r -> forall x, In x l -> exists y, f x = Ok y.
Proof.
  revert r. induction l as [|a l IH]; intros r E x I; [destruct I|]. cbn [mapM] in E. destruct (f a) as [y|m|m|m] eqn:EA; try discriminate E. cbn [bind] in E.
  destruct (mapM f l) as [ys|m|m|m] eqn:EL; try discriminate E. destruct I as [<-|I]; [eauto|]. eapply IH; [reflexivity|exact I].
Qed.
Lemma bad_text before text after d : whole before -> ~ In 44 text -> ~ In 13 text -> occurs (lit "stats") text -> parse_log (before ++ (text ++ [10]) ++ after) <> Ok d.
Proof.
  intros W NC NR O E. unfold parse_log in E.
  assert (B : exists l, In l (stats_lines (before ++ (text ++ [10]) ++ after)) /\ ~ In 44 l).
  { rewrite !stats_app by (first [exact W|right; eauto]). destruct (occurs_line (lit "stats") ltac:(discriminate) ltac:(cbn; repeat (apply Forall_cons; [lia|]); apply Forall_nil) (text ++ [10])) as (l & I & OL).
    { destruct O as (b & a & ->). exists b, (a ++ [10]). rewrite <- !app_assoc. reflexivity. }
    exists l. split.
    - apply in_or_app. right. apply in_or_app. left. unfold stats_lines. rewrite universal_same.
      + apply filter_In. split; [exact I|]. destruct (contains (lit "stats") l) eqn:C; [reflexivity|]. apply contains_spec in C. destruct (C OL).
      + apply Forall_forall. intros c J ->. apply in_app_or in J as [J|[J|[]]]; [exact (NR J)|discriminate].
    - intros J. destruct (line_in _ _ I) as (b & a & EQ). assert (K : In 44 (text ++ [10])) by (rewrite EQ; apply in_or_app; right; apply in_or_app; left; exact J).
      apply in_app_or in K as [K|[K|[]]]; [exact (NC K)|discriminate]. }
  destruct B as (l & I & NL). set (stats := map stats_of (stats_lines (before ++ (text ++ [10]) ++ after))) in *.
  destruct (mapM (fun s => c <- py_index s 0 ;; py_int c) stats) as [cores|m|m|m] eqn:EM; try discriminate E.
  destruct (mapM_bad _ _ _ EM (stats_of l) ltac:(apply in_map; exact I)) as (y & Y).
  assert (X : stats_of l = [[]]).
  { unfold stats_of, partition2. rewrite (proj2 (find_sub_none (lit "stats,") _)); [reflexivity|]. intros (b & a & EQ).
    assert (K : In 44 (filter (fun c => negb (c =? 10)) l)) by (rewrite EQ; apply in_or_app; right; apply in_or_app; left; cbn; tauto). apply filter_In in K as (K & _). exact (NL K). }
  rewrite X in Y. discriminate Y.
Qed.
Lemma output_whole prefix : forall o clock, Forall (fun x => match x with Logged _ => True | Printed p => whole p end) o -> whole (output_file prefix clock o).
Proof. induction o as [|[m|p] o IH]; intros clock F; cbn [output_file]; [left; reflexivity| |]; inversion F; subst; (apply whole_app; [|apply IH; assumption]); [apply line_whole|assumption]. Qed.
Lemma logged_whole {A} (f : A -> list Z) l : Forall (fun x => match x with Logged _ => True | Printed p => whole p end) (map (fun a => Logged (f a)) l).
Proof. induction l; cbn [map]; constructor; auto. Qed.
Lemma run_whole r : Forall (fun x => match x with Logged _ => True | Printed p => whole p end) (run_output r).
Proof.
  assert (W : forall p, whole (p ++ [10])) by (intros p; right; eauto).
  destruct r as [t|said why]; cbn [run_output].
  - unfold trial_output. apply Forall_app. split; [apply logged_whole|]. apply Forall_cons; [exact I|]. cbn [app]. destruct (tr_outcome t); cbn [app];
      repeat first [apply Forall_nil|apply Forall_cons; [first [exact I|apply W|rewrite app_assoc; apply W]|]|apply Forall_app; split; [apply logged_whole|]].
  - apply Forall_app. split; [apply (logged_whole (fun x => x))|]. apply Forall_cons; [exact I|apply Forall_nil].
Qed.
Lemma client_file_whole : forall runs clock, whole (client_file clock runs).
Proof. induction runs as [|r runs IH]; intros clock; cbn [client_file]; [left; reflexivity|]. apply whole_app; [apply output_whole, run_whole|apply IH]. Qed.
Lemma client_file_app : forall a b clock, client_file clock (a ++ b) = client_file clock a ++ client_file (fun i => clock (length a + i)%nat) b.
Proof. induction a as [|r a IH]; intros b clock; cbn [app client_file length]; [reflexivity|]. rewrite IH, <- app_assoc. reflexivity. Qed.
Lemma output_app prefix : forall a b clock, output_file prefix clock (a ++ b) = output_file prefix clock a ++ output_file prefix (fun i => clock (length a + i)%nat) b.
Proof. induction a as [|[m|p] a IH]; intros b clock; cbn [app output_file length]; [reflexivity| |]; rewrite IH, <- app_assoc; reflexivity. Qed.
Lemma key_text clock before t id k armored after d : tr_outcome t = KeyShown id k armored -> ~ In 44 armored -> ~ In 13 armored -> occurs (lit "stats") armored ->
  parse_log (client_file clock (before ++ Finished t :: after)) <> Ok d.
Proof.
  intros O NC NR OC. rewrite client_file_app. cbn [client_file run_output].
  assert (S0 : exists x y, trial_output t = x ++ Printed (armored ++ [10]) :: y /\ Forall (fun x => match x with Logged _ => True | Printed p => whole p end) x).
  { pose proof (run_whole (Finished t)) as F. cbn [run_output] in F. unfold trial_output in *. rewrite O in *. rewrite !app_assoc in *. 
    match type of F with Forall _ (?X ++ [?A; ?B; ?P; ?C; ?D]) => exists (X ++ [A; B]), [C; D]; split; [rewrite <- (app_assoc X); reflexivity|apply Forall_app in F as (F & _); apply Forall_app; split; [exact F|repeat constructor]] end. }
  destruct S0 as (x & y & -> & FX). rewrite output_app. cbn [output_file]. rewrite <- !app_assoc. rewrite (app_assoc (client_file clock before)). rewrite (app_assoc armored [10]).
  apply bad_text; [|assumption..]. apply whole_app; [apply client_file_whole|]. apply output_whole. exact FX.
Qed.

(** ** the last column *)
Lemma round_near x : (- (1 # 2) <= inject_Z (py_round x) - x <= 1 # 2)%Q.
Proof.
  unfold py_round. pose proof (Qfloor_le x) as L. pose proof (Qlt_floor x) as U. rewrite inject_Z_plus in U. change (inject_Z 1) with 1%Q in U.
  destruct (Qle_bool (1 # 2) (x - inject_Z (Qfloor x))) eqn:A; cbn [negb].
  - apply Qle_bool_iff in A. destruct (Qle_bool (x - inject_Z (Qfloor x)) (1 # 2)) eqn:B; cbn [negb].
    + apply Qle_bool_iff in B. destruct (Z.even (Qfloor x)); [|rewrite inject_Z_plus; change (inject_Z 1) with 1%Q]; lra.
    + rewrite inject_Z_plus. change (inject_Z 1) with 1%Q. lra.
  - assert (x - inject_Z (Qfloor x) < 1 # 2)%Q. { apply Qnot_le_lt. intros C. apply Qle_bool_iff in C. congruence. } lra.
Qed.
Lemma round_floor x : Qfloor x <= py_round x <= Qfloor x + 1.
Proof. unfold py_round. destruct (negb _); [lia|]. destruct (negb _); [lia|]. destruct (Z.even _); lia. Qed.
Lemma grouped_comma f n : 1000 <= n -> In 44 (grouped (S f) n).
Proof. intros L. cbn [grouped]. destruct (Z.ltb_spec n 1000); [lia|]. apply in_or_app. right. left. reflexivity. Qed.
Lemma digits_comma : forall s acc v, digits acc s = Some v -> ~ In 44 s.
Proof.
  induction s as [|c s IH]; intros acc v E I; [destruct I|]. cbn [digits] in E. destruct I as [->|I]; [discriminate E|]. destruct (digit c); [|discriminate]. exact (IH _ _ E I).
Qed.
Lemma split_parts : forall s c d, In d s -> d <> c -> exists p, In p (split_on c s) /\ In d p.
Proof.
  induction s as [|x s IH]; intros c d I N; [destruct I|]. cbn [split_on]. destruct (Z.eqb_spec x c) as [->|NE].
  - destruct I as [I|I]; [congruence|]. destruct (IH c d I N) as (p & P & D). exists p. split; [right; exact P|exact D].
  - destruct I as [->|I].
    + destruct (split_on c s) as [|p ps]; eexists; (split; [left; reflexivity|left; reflexivity]).
    + destruct (IH c d I N) as (p & P & D). destruct (split_on c s) as [|q ps]; [destruct P|]. destruct P as [->|P]; [exists (x :: p); split; [left; reflexivity|right; exact D]|exists p; split; [right; exact P|exact D]].
Qed.
Lemma float_comma s r : In 44 s -> py_float s <> Ok r.
Proof.
  intros I E. unfold py_float in E. destruct (split_parts s 46 44 I ltac:(lia)) as (p & P & D). destruct (split_on 46 s) as [|a [|b [|c l]]]; try discriminate E; [|destruct a as [|a0 a]; [|]|].
  - destruct P as [->|[]]. destruct p; [destruct D|]. destruct (digits 0 (z :: p)) eqn:G; [|discriminate]. exact (digits_comma _ _ _ G D).
  - discriminate E.
  - destruct (digits 0 (a0 :: a)) eqn:GA; [|discriminate]. destruct (digits 0 b) eqn:GB; [|discriminate]. destruct P as [<-|[<-|[]]]; [exact (digits_comma _ _ _ GA D)|exact (digits_comma _ _ _ GB D)].
  - destruct a; discriminate E.
Qed.
Lemma rounder2_large x : (1000 <= x)%Q -> In 44 (rounder2 x).
Proof.
  intros L. unfold rounder2. destruct (Qle_bool x 5) eqn:B; [apply Qle_bool_iff in B; lra|]. cbn [negb]. apply grouped_comma. pose proof (round_floor x) as R.
  assert (1000 <= Qfloor x); [|lia]. rewrite <- (Qfloor_Z 1000). apply Qfloor_resp_le. exact L.
Qed.
Lemma rounder2_small x : (5 < x)%Q -> (x <= 999)%Q -> py_float (rounder2 x) = Ok (in_millionths (py_round x)) /\ 5 <= py_round x.
Proof.
  intros A B. unfold rounder2. destruct (Qle_bool x 5) eqn:C; [apply Qle_bool_iff in C; lra|]. cbn [negb]. pose proof (round_near x) as (R1 & R2).
  assert (L : 5 <= py_round x). { assert (inject_Z 4 < inject_Z (py_round x))%Q as H by (change (inject_Z 4) with 4%Q; lra). rewrite <- Zlt_Qlt in H. lia. }
  assert (U : py_round x < 1000). { assert (inject_Z (py_round x) < inject_Z 1000)%Q as H by (change (inject_Z 1000) with 1000%Q; lra). rewrite <- Zlt_Qlt in H. lia. }
  split; [|exact L]. cbn [grouped]. destruct (Z.ltb_spec (py_round x) 1000); [|lia]. apply float_itoa. unfold count_ok. lia.
Qed.
Definition small_text (m : nat) : bool :=
  let s := itoa (Z.of_nat m) in
  Nat.leb 1 (length s) && Nat.leb (length s) 3 && forallb (fun c => (48 <=? c) && (c <=? 57)) s && match digits 0 s with Some v => v =? Z.of_nat m | None => false end.
Lemma small_texts : forallb small_text (seq 0 1000) = true.
Proof. vm_compute. reflexivity. Qed.
Lemma small_itoa m : 0 <= m < 1000 -> (1 <= length (itoa m) <= 3)%nat /\ Forall (fun c => 48 <= c <= 57) (itoa m) /\ digits 0 (itoa m) = Some m.
Proof.
  intros B. pose proof small_texts as T. rewrite forallb_forall in T. specialize (T (Z.to_nat m)). unfold small_text in T. rewrite Z2Nat.id in T by lia.
  assert (I : In (Z.to_nat m) (seq 0 1000)) by (apply in_seq; lia). specialize (T I). cbv zeta in T. apply andb_true_iff in T as (T & D). apply andb_true_iff in T as (T & F).
  apply andb_true_iff in T as (L1 & L2). apply Nat.leb_le in L1, L2. split; [lia|]. split.
  - apply Forall_forall. intros c C. rewrite forallb_forall in F. specialize (F c C). lia.
  - destruct (digits 0 (itoa m)); [|discriminate]. apply Z.eqb_eq in D. congruence.
Qed.
Lemma digits_shift s : Forall (fun c => 48 <= c <= 57) s -> forall acc v t, digits 0 s = Some v -> digits acc (s ++ t) = digits (10 ^ zlen s * acc + v) t.
Proof.
  intros F. assert (G : forall a acc v t, digits a s = Some v -> digits (acc + a) (s ++ t) = digits (10 ^ zlen s * acc + v) t).
  { induction F as [|c s B F IH]; intros a acc v t E; cbn [app digits] in *.
    - injection E as ->. unfold zlen. cbn [length]. rewrite Z.mul_1_l. reflexivity.
    - unfold digit in *. replace ((48 <=? c) && (c <=? 57)) with true in * by (symmetry; apply andb_true_iff; lia).
      replace (10 * (acc + a) + (c - 48)) with (10 * acc + (10 * a + (c - 48))) by lia. rewrite (IH _ _ _ _ E). f_equal.
      replace (zlen (c :: s)) with (1 + zlen s) by (unfold zlen; cbn [length]; lia). rewrite Z.pow_add_r by (unfold zlen; lia). lia. }
  intros acc v t E. rewrite <- (Z.add_0_r acc) at 1. exact (G 0 acc v t E).
Qed.
Lemma pad3 m : 0 <= m < 1000 -> length (pad 3 (itoa m)) = 3%nat /\ Forall (fun c => 48 <= c <= 57) (pad 3 (itoa m)) /\ digits 0 (pad 3 (itoa m)) = Some m.
Proof.
  intros B. destruct (small_itoa m B) as (L & F & D). unfold pad. split; [rewrite app_length, repeat_length; lia|]. split.
  - apply Forall_app. split; [|exact F]. apply Forall_forall. intros c C. apply repeat_spec in C. lia.
  - assert (Z0 : forall k, digits 0 (repeat 48 k ++ itoa m) = Some m) by (induction k; [exact D|exact IHk]). apply Z0.
Qed.
Lemma without_commas_digits s : Forall (fun c => 48 <= c <= 57) s -> without_commas s = s.
Proof. unfold without_commas. induction 1 as [|c s B F IH]; cbn [filter]; [reflexivity|]. destruct (Z.eqb_spec c 44); [lia|]. cbn [negb]. rewrite IH. reflexivity. Qed.
Lemma no_char c s : Forall (fun c => 48 <= c <= 57) s -> c < 48 -> Forall (fun z => z <> c) s.
Proof. intros F L. eapply Forall_impl; [|exact F]. cbv beta. intros; lia. Qed.
Lemma split_snd c : forall s t, Forall (fun z => z <> c) t -> split_on c (s ++ c :: t) = split_on c s ++ [t].
Proof.
  intros s t F. induction s as [|x s IH]; cbn [app split_on]; [rewrite Z.eqb_refl, split_no by exact F; reflexivity|]. destruct (Z.eqb_spec x c); rewrite IH; [reflexivity|].
  destruct (split_on c s) as [|p ps] eqn:E; [|reflexivity]. destruct s as [|y s]; cbn [split_on] in E; [discriminate|]. destruct (y =? c); [discriminate|]. destruct (split_on c s); discriminate.
Qed.
Lemma grouped_text : forall f n, 0 <= n < 1000 ^ Z.of_nat (S f) -> 
  Forall (fun c => 48 <= c <= 57) (without_commas (grouped f n)) /\ digits 0 (without_commas (grouped f n)) = Some n /\ without_commas (grouped f n) <> [] /\
  exists first rest, split_on 44 (grouped f n) = first :: rest /\ (1 <= length first <= 3)%nat /\ Forall (fun g => length g = 3%nat) rest.
Proof.
  assert (SM : forall n, 0 <= n < 1000 -> Forall (fun c => 48 <= c <= 57) (without_commas (itoa n)) /\ digits 0 (without_commas (itoa n)) = Some n /\ without_commas (itoa n) <> [] /\
    exists first rest, split_on 44 (itoa n) = first :: rest /\ (1 <= length first <= 3)%nat /\ Forall (fun g => length g = 3%nat) rest).
  { intros n B. destruct (small_itoa n B) as (L & F & D). rewrite (without_commas_digits _ F). split; [exact F|]. split; [exact D|]. split; [intros C; rewrite C in L; cbn [length] in L; lia|].
    rewrite split_no by (apply no_char; [exact F|lia]). exists (itoa n), []. split; [reflexivity|]. split; [exact L|constructor]. }
  induction f as [|f IH]; intros n B; cbn [grouped]; [apply SM; exact B|]. destruct (Z.ltb_spec n 1000); [apply SM; lia|].
  assert (P : 1000 ^ Z.of_nat (S (S f)) = 1000 * 1000 ^ Z.of_nat (S f)) by (rewrite (Nat2Z.inj_succ (S f)), Z.pow_succ_r by lia; reflexivity).
  destruct (IH (n / 1000)) as (F & D & N & first & rest & S0 & L & R).
  { split; [apply Z.div_pos; lia|]. apply Z.div_lt_upper_bound; lia. }
  pose proof (Z.mod_pos_bound n 1000 ltac:(lia)) as M. destruct (pad3 (n mod 1000) M) as (L3 & F3 & D3).
  assert (W : without_commas (grouped f (n / 1000) ++ lit "," ++ pad 3 (itoa (n mod 1000))) = without_commas (grouped f (n / 1000)) ++ pad 3 (itoa (n mod 1000))).
  { unfold without_commas at 1. rewrite !filter_app. fold (without_commas (grouped f (n / 1000))). fold (without_commas (pad 3 (itoa (n mod 1000)))).
    rewrite (without_commas_digits _ F3). reflexivity. }
  rewrite W. split; [apply Forall_app; auto|]. split.
  { rewrite (digits_shift _ F 0 _ _ D). rewrite Z.mul_0_r, Z.add_0_l. rewrite <- (app_nil_r (pad 3 _)). rewrite (digits_shift _ F3 _ _ _ D3). cbn [digits].
    unfold zlen. rewrite L3. change (10 ^ Z.of_nat 3) with 1000. rewrite <- Z.div_mod by lia. reflexivity. }
  split; [destruct (without_commas (grouped f (n / 1000))); [congruence|discriminate]|].
  change (lit "," ++ pad 3 (itoa (n mod 1000))) with (44 :: pad 3 (itoa (n mod 1000))). rewrite split_snd by (apply no_char; [exact F3|lia]). rewrite S0.
  exists first, (rest ++ [pad 3 (itoa (n mod 1000))]). split; [reflexivity|]. split; [exact L|]. apply Forall_app. split; [exact R|]. constructor; [exact L3|constructor].
Qed.
Lemma rounder2_text x : (0 <= x)%Q -> (x <= inject_Z (10 ^ 18))%Q -> exists v first rest, py_float (without_commas (rounder2 x)) = Ok v /\
  ((x <= 5)%Q -> (- (1 # 20) <= inject_Z v / 1000000 - x <= 1 # 20)%Q) /\ ((5 < x)%Q -> (- (1 # 2) <= inject_Z v / 1000000 - x <= 1 # 2)%Q) /\
  split_on 44 (rounder2 x) = first :: rest /\ (1 <= length first <= 3)%nat /\ Forall (fun g => length g = 3%nat) rest.
Proof.
  intros X1 X2. unfold rounder2. destruct (Qle_bool x 5) eqn:C; cbn [negb].
  - apply Qle_bool_iff in C. cbv zeta. set (n := py_round (x * 10)). pose proof (round_near (x * 10)) as (R1 & R2). fold n in R1, R2.
    assert (LO : 0 <= n). { assert (inject_Z (-1) < inject_Z n)%Q as H by (change (inject_Z (-1)) with (- (1))%Q; lra). rewrite <- Zlt_Qlt in H. lia. }
    assert (HI : n < 51). { assert (inject_Z n < inject_Z 51)%Q as H by (change (inject_Z 51) with 51%Q; lra). rewrite <- Zlt_Qlt in H. lia. }
    assert (T : py_float (without_commas (itoa (n / 10) ++ lit "." ++ itoa (n mod 10))) = Ok (100000 * n) /\
      split_on 44 (itoa (n / 10) ++ lit "." ++ itoa (n mod 10)) = [itoa (n / 10) ++ lit "." ++ itoa (n mod 10)] /\ length (itoa (n / 10) ++ lit "." ++ itoa (n mod 10)) = 3%nat).
    { clearbody n. clear - LO HI. assert (CK : forallb (fun m => let k := Z.of_nat m in let s := itoa (k / 10) ++ lit "." ++ itoa (k mod 10) in
        match py_float (without_commas s) with Ok v => v =? 100000 * k | _ => false end && forallb (fun c => negb (c =? 44)) s && Nat.eqb (length s) 3) (seq 0 51) = true) by (vm_compute; reflexivity).
      rewrite forallb_forall in CK. specialize (CK (Z.to_nat n)). cbv zeta in CK. rewrite Z2Nat.id in CK by lia. assert (I : In (Z.to_nat n) (seq 0 51)) by (apply in_seq; lia). specialize (CK I).
      apply andb_true_iff in CK as (CK & L). apply andb_true_iff in CK as (V & NC). split; [|split].
      - destruct (py_float _); try discriminate V. apply Z.eqb_eq in V. congruence.
      - apply split_no. apply Forall_forall. intros c IC E. rewrite forallb_forall in NC. specialize (NC c IC). subst c. discriminate NC.
      - apply Nat.eqb_eq. exact L. }
    destruct T as (T1 & T2 & T3). exists (100000 * n), (itoa (n / 10) ++ lit "." ++ itoa (n mod 10)), []. split; [exact T1|]. split.
    { intros _. rewrite inject_Z_mult. change (inject_Z 100000) with (100000 # 1)%Q. assert (E : ((100000 # 1) * inject_Z n / 1000000 == inject_Z n * (1 # 10))%Q) by field. rewrite E. lra. }
    split; [intros; lra|]. split; [exact T2|]. rewrite T3. split; [lia|constructor].
  - assert (LX : (5 < x)%Q). { apply Qnot_le_lt. intros D. apply Qle_bool_iff in D. congruence. } pose proof (round_near x) as (R1 & R2). set (n := py_round x) in *.
    assert (LO : 0 <= n). { assert (inject_Z (-1) < inject_Z n)%Q as H by (change (inject_Z (-1)) with (- (1))%Q; lra). rewrite <- Zlt_Qlt in H. lia. }
    assert (HI : n < 1000 ^ Z.of_nat 8). { assert (inject_Z n < inject_Z (1 + 10 ^ 18))%Q as H by (rewrite inject_Z_plus; change (inject_Z 1) with 1%Q; lra). rewrite <- Zlt_Qlt in H.
      eapply Z.lt_trans; [exact H|]. vm_compute. reflexivity. }
    destruct (grouped_text 7 n (conj LO HI)) as (F & D & N & first & rest & S0 & L & R). exists (1000000 * n), first, rest. split.
    { unfold py_float. rewrite split_no by (apply no_char; [exact F|lia]). rewrite D. destruct (without_commas (grouped 7 n)); [congruence|reflexivity]. }
    split; [intros; lra|]. split; [|auto]. intros _. rewrite inject_Z_mult. change (inject_Z 1000000) with (1000000 # 1)%Q.
    assert (E : ((1000000 # 1) * inject_Z n / 1000000 == inject_Z n)%Q) by field. rewrite E. lra.
Qed.
