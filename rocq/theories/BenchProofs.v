(** Proofs about the single-server benchmark. *)
From Coq Require Import String ZArith List Bool Lia Arith.
From Verif Require Import GoBase BaseFacts EncodingModel EncodingProofs MatrixModel LWEModel LWESpec MatrixProofs LWEProofs LWEProofs2 LWEProofs3 LWEProofs4
  MerkleModel DHModel DHSpec DHProofs DHProofs2 DHProofs3 MultiModel SimulModel AmplifyProofs BenchModel BenchSpec.
Import ListNotations.
Open Scope Z_scope.
Open Scope go_scope.

(** ** the map of results *)
Lemma set_keys m dl r len : (exists cs, In (len, cs) (results_set m dl r)) <-> len = dl \/ exists cs, In (len, cs) m.
Proof.
  unfold results_set. split.
  - intros (cs & I). apply in_app_or in I as [I|[E|[]]].
    + apply filter_In in I as (I & _). eauto.
    + injection E as <- <-. auto.
  - destruct (Z.eq_dec len dl) as [->|N].
    + intros _. exists r. apply in_or_app. right. left. reflexivity.
    + intros [E|(cs & I)]; [congruence|]. exists cs. apply in_or_app. left. apply filter_In. split; auto. cbn [fst].
      destruct (Z.eqb_spec len dl); [congruence|reflexivity].
Qed.
Lemma set_nodup m dl r : NoDup (map fst m) -> NoDup (map fst (results_set m dl r)).
Proof.
  intros N. unfold results_set. rewrite map_app. cbn [map fst].
  assert (F : NoDup (map fst (filter (fun e => negb (fst e =? dl)) m)) /\ ~ In dl (map fst (filter (fun e => negb (fst e =? dl)) m))).
  { induction m as [|[k c] m IH]; cbn [filter map fst] in *; [split; [constructor|auto]|]. inversion N as [|? ? NI N']; subst. specialize (IH N').
    destruct IH as (A & B). destruct (Z.eqb_spec k dl) as [->|NE]; cbn [negb]; [auto|]. cbn [map fst]. split.
    - constructor; auto. intros I. apply NI. apply in_map_iff in I as ([k' c'] & E & I). cbn [fst] in E. subst. apply filter_In in I as (I & _).
      apply in_map_iff. exists (k, c'). auto.
    - intros [E|I]; [congruence|auto]. }
  destruct F as (A & B). apply AmplifyProofs.NoDup_app'; auto.
  - constructor; [intros []|constructor].
  - intros x I [<-|[]]. auto.
Qed.

(** ** the loop over the lengths *)
Definition skipped (cfg : bench_config) (dl : Z) : Prop := bc_primitive cfg = "cmp-vpir-dh"%string /\ dl = 2 ^ 33.
Lemma length_skip env cfg inp dl r : bench_length env cfg inp dl = Some (Ok r) -> (r = None <-> skipped cfg dl).
Proof.
  unfold bench_length, skipped. destruct (String.eqb_spec (bc_primitive cfg) "cmp-vpir-dh") as [E|E]; cbn [andb].
  - destruct (Z.eqb_spec dl (2 ^ 33)) as [E2|E2]. { intros X. injection X as <-. tauto. }
    destruct (create_random_elliptic _ _ _ _ _ _ _) as [[db| | |]|]; cbn [bind]; try discriminate.
    destruct (pir_elliptic _ _ _ _ _); cbn [bind]; try discriminate. intros X. injection X as <-. split; [discriminate|tauto].
  - intros X. injection X as X. split; [|tauto]. intros ->. exfalso. revert X.
    destruct (String.eqb (bc_primitive cfg) "cmp-vpir-lwe").
    { destruct (create_lwe32 _ _ _ _); cbn [bind]; try discriminate. destruct (t_ecc dl); [|discriminate].
      destruct (pir_lwe _ _ _ _ _ _); cbn [bind]; discriminate. }
    destruct (String.eqb (bc_primitive cfg) "cmp-vpir-lwe-128").
    { destruct (create_lwe128 _ _ _); cbn [bind]; try discriminate. destruct (pir_lwe128 _ _ _ _ _); cbn [bind]; discriminate. }
    destruct (String.eqb (bc_primitive cfg) "preprocessing"); [|discriminate].
    destruct (pir_merkle _ _ _ _ _ _); cbn [bind]; discriminate.
Qed.

Lemma loop_keys env cfg inputs : forall lens k m m', bench_loop env cfg inputs k lens m = Some (Ok m') -> NoDup (map fst m) ->
  NoDup (map fst m') /\ forall len, (exists cs, In (len, cs) m') <-> (exists cs, In (len, cs) m) \/ (In len lens /\ ~ skipped cfg len).
Proof.
  induction lens as [|dl lens IH]; intros k m m' E N; cbn [bench_loop] in E.
  - injection E as <-. split; auto. intros len. cbn [In]. tauto.
  - destruct (bench_length env cfg (inputs k) dl) as [[[r|]| | |]|] eqn:B; try discriminate.
    + pose proof (length_skip _ _ _ _ _ B) as S. destruct (IH _ _ _ E (set_nodup m dl r N)) as (A & K). split; auto. intros len. rewrite K, set_keys. cbn [In].
      assert (NS : ~ skipped cfg dl) by (intros X; apply S in X; discriminate).
      split; [intros [[->|]|]; tauto|]. intros [|[[->|] ?]]; tauto.
    + pose proof (length_skip _ _ _ _ _ B) as S. destruct (IH _ _ _ E N) as (A & K). split; auto. intros len. rewrite K. cbn [In].
      assert (SK : skipped cfg dl) by (apply S; reflexivity). split; [tauto|]. intros [|[[->|] ?]]; tauto.
Qed.

Lemma loop_values env cfg inputs (P : Z -> list chunk -> Prop) : forall lens k m m', bench_loop env cfg inputs k lens m = Some (Ok m') ->
  (forall k dl r, In dl lens -> bench_length env cfg (inputs k) dl = Some (Ok (Some r)) -> P dl r) ->
  (forall len cs, In (len, cs) m -> P len cs) -> forall len cs, In (len, cs) m' -> P len cs.
Proof.
  induction lens as [|dl lens IH]; intros k m m' E HP HM len cs I; cbn [bench_loop] in E.
  - injection E as <-. auto.
  - destruct (bench_length env cfg (inputs k) dl) as [[[r|]| | |]|] eqn:B; try discriminate.
    + apply (IH _ _ _ E); auto. { intros k' d' r' I'. apply HP. right. auto. }
      intros len' cs' I'. unfold results_set in I'. apply in_app_or in I' as [I'|[X|[]]].
      * apply filter_In in I' as (I' & _). auto.
      * injection X as <- <-. apply (HP k); auto. left. auto.
    + apply (IH _ _ _ E); auto. intros k' d' r' I'. apply HP. right. auto.
Qed.

Lemma loop_needs env cfg inputs : forall lens k m m', bench_loop env cfg inputs k lens m = Some (Ok m') ->
  forall dl, In dl lens -> exists k r, bench_length env cfg (inputs k) dl = Some (Ok r).
Proof.
  induction lens as [|d lens IH]; intros k m m' E dl I; [destruct I|]. cbn [bench_loop] in E.
  destruct (bench_length env cfg (inputs k) d) as [[[r|]| | |]|] eqn:B; try discriminate; destruct I as [<-|I]; eauto.
Qed.

Lemma loop_completes env cfg inputs : forall lens k m, 
  (forall i dl, nth_error lens i = Some dl -> exists r, bench_length env cfg (inputs (k + i)%nat) dl = Some (Ok r)) ->
  exists m', bench_loop env cfg inputs k lens m = Some (Ok m').
Proof.
  induction lens as [|d lens IH]; intros k m HP; cbn [bench_loop]; [eauto|].
  destruct (HP 0%nat d eq_refl) as (r & E). rewrite Nat.add_0_r in E. rewrite E.
  assert (HP' : forall i dl, nth_error lens i = Some dl -> exists r, bench_length env cfg (inputs (S k + i)%nat) dl = Some (Ok r)).
  { intros i dl X. replace (S k + i)%nat with (k + S i)%nat by lia. apply HP. exact X. }
  destruct r; apply IH; auto.
Qed.

(** ** shapes *)
Lemma side_of len : 0 < len -> let s := fst (calculate_num_rows_and_columns len true) in
  calculate_num_rows_and_columns len true = (s, s) /\ side len s.
Proof.
  intros H. pose proof (square_layout len ltac:(lia)) as S. unfold calculate_num_rows_and_columns in *. cbn [fst].
  set (s := Z.sqrt (increase_to_next_square len)) in *. destruct S as (_ & A & B). split; auto. unfold side.
  assert (0 <= s) by apply Z.sqrt_nonneg. assert (0 < s) by nia. split; auto. split; auto.
  destruct (Z_lt_le_dec ((s - 1) * (s - 1)) len) as [|X]; auto. specialize (B (s - 1) ltac:(lia) X). lia.
Qed.

Lemma mul_gen_dims w op f h a b m : m_mul_gen w op f h a b = Ok m -> m_rows m = m_rows a /\ m_cols m = m_cols b.
Proof.
  unfold m_mul_gen, m_new. destruct (negb _); [discriminate|]. destruct (go_make _ _); cbn [bind]; try discriminate.
  destruct (f a); cbn [bind]; try discriminate. destruct (h b); cbn [bind]; try discriminate.
  destruct (_ =? 0); [discriminate|]. destruct (_ || _); [discriminate|]. intros E. injection E as <-. auto.
Qed.
Lemma zip_dims w op a b m : m_zip w op a b = Ok m -> m_rows m = m_rows a /\ m_cols m = m_cols a.
Proof. unfold m_zip. destruct (_ || _); [discriminate|]. destruct (zip_words _ _ _ _); cbn [bind]; try discriminate. intros E. injection E as <-. auto. Qed.
Lemma query_dims w p dg A rand secret e i j st q : lwe_query w p dg A rand secret e i j = Ok (st, q) -> m_rows q = m_rows secret /\ m_cols q = m_cols A.
Proof.
  unfold lwe_query. destruct (m_get _ _ _); cbn [bind]; try discriminate. destruct (m_mul w secret A) as [q1| | |] eqn:E1; cbn [bind]; try discriminate.
  destruct (m_new _ _); cbn [bind]; try discriminate. destruct (m_set _ _ _ _); cbn [bind]; try discriminate.
  destruct (m_add w q1 e) as [q2| | |] eqn:E2; cbn [bind]; try discriminate. destruct (m_add w q2 _) as [q3| | |] eqn:E3; cbn [bind]; try discriminate.
  intros X. injection X as <- <-. apply zip_dims in E2 as (A2 & B2). apply zip_dims in E3 as (A3 & B3). apply mul_gen_dims in E1 as (A1 & B1). split; congruence.
Qed.
Lemma create_binary_dims rnd r c m : create_random_binary rnd r c = Ok m -> m_rows m = r /\ m_cols m = c.
Proof.
  unfold create_random_binary. destruct (m_new _ _); cbn [bind]; try discriminate. destruct (go_make _ _); cbn [bind]; try discriminate.
  destruct (binary_fill _ _ _); cbn [bind]; try discriminate. intros E. injection E as <-. auto.
Qed.

Lemma lwe_chunk_value s abytes db dg tECC d ch : m_rows db = s -> m_cols db = s -> m_rows dg = 1100 -> m_cols dg = s ->
  lwe_chunk (params_32 s s) abytes db dg tECC d = Ok ch -> ch = lattice_sizes 4 1100 (Z.of_nat (2 * tECC + 1)) s.
Proof.
  intros R C Rg Cg. unfold lwe_chunk, lwe_once.
  destruct (go_intn _ _) as [ii| | |]; cbn [bind]; try discriminate. destruct (go_intn _ _) as [jj| | |]; cbn [bind]; try discriminate.
  destruct (amplify_query _ _ _ _ _ _) as [sqs| | |] eqn:EQ; cbn [bind]; try discriminate.
  destruct (amplify_answer db (map snd sqs)) as [ans| | |] eqn:EA; cbn [bind]; try discriminate.
  destruct (or_fatal _) as [v| | |]; cbn [bind]; try discriminate.
  unfold amplify_query in EQ. pose proof (mapM_len _ _ _ EQ) as LQ. unfold amplify_answer in EA. pose proof (mapM_len _ _ _ EA) as LA.
  rewrite map_length in LA. unfold range in LQ. rewrite map_length, seq_length in LQ. unfold repetitions in LQ.
  destruct sqs as [|[st q] sqs]; [cbn in LQ; lia|]. destruct ans as [|a ans]; [cbn in LA; lia|].
  cbn [map snd go_index Z.ltb Z.compare Z.to_nat nth_error bind]. intros E. injection E as <-.
  cbn [mapM map snd] in EA. destruct (m_binary_mul w32 q db) as [a'| | |] eqn:E1; cbn [bind] in EA; try discriminate.
  destruct (mapM _ (map snd sqs)) as [ans'| | |]; cbn [bind] in EA; try discriminate. injection EA as -> ->.
  unfold m_binary_mul in E1. apply mul_gen_dims in E1 as (A1 & B1).
  unfold range, repetitions in EQ. replace (tECC * 2 + 1)%nat with (S (tECC * 2)) in EQ by lia. cbn [seq map mapM] in EQ.
  destruct (lwe_query_coins32 _ _ _ _ _ _) as [[st' q']| | |] eqn:E2; cbn [bind] in EQ; try discriminate.
  destruct (mapM _ _) as [sqs'| | |]; cbn [bind] in EQ; try discriminate. injection EQ as -> -> ->.
  unfold lwe_query_coins32 in E2. apply query_dims in E2 as (A2 & B2). cbn [new_random_of_bytes m_rows m_cols params_32 lp_n lp_l] in A2, B2.
  unfold lattice_sizes, bytes_size32. rewrite A1, B1, A2, B2, Rg, Cg, C. f_equal; [ring|]. f_equal. unfold zlen. cbn [length] in *. rewrite map_length.
  f_equal; [|replace (length ans) with (length sqs) by lia]; replace (Z.of_nat (S (length sqs))) with (Z.of_nat (2 * tECC + 1)) by lia; ring.
Qed.

Lemma mapM_all {A B} (f : A -> res B) (P : B -> Prop) : (forall x y, f x = Ok y -> P y) -> forall l r, mapM f l = Ok r -> Forall P r.
Proof.
  intros HP. induction l as [|x l IH]; intros r E; cbn [mapM] in E; [injection E as <-; constructor|].
  destruct (f x) eqn:F; cbn [bind] in E; try discriminate. destruct (mapM f l) eqn:M; cbn [bind] in E; try discriminate. injection E as <-.
  constructor; eauto.
Qed.
Lemma make_len n z : go_make tt n = Ok z -> Z.of_nat (length z) = n.
Proof. unfold go_make. destruct (Z.ltb_spec n 0); [discriminate|]. intros E. injection E as <-. rewrite repeat_length. lia. Qed.

Lemma create_lwe32_dims rnd abytes dmem len m dg : 0 < len -> create_lwe32 rnd abytes dmem len = Ok (m, dg) ->
  exists s, side len s /\ m_rows m = s /\ m_cols m = s /\ m_rows dg = 1100 /\ m_cols dg = s.
Proof.
  intros H. unfold create_lwe32. pose proof (side_of len H) as (E & S). rewrite E. destruct (create_random_binary _ _ _) as [m'| | |] eqn:C; cbn [bind]; try discriminate.
  destruct (lwe_digest _ _ m') as [d| | |] eqn:D; cbn [bind]; try discriminate. intros X. injection X as <- <-.
  apply create_binary_dims in C as (R & C'). unfold lwe_digest, m_binary_mul in D. apply mul_gen_dims in D as (A & B). cbn [new_random_of_bytes m_rows] in A.
  eexists. split; [exact S|]. repeat split; auto. congruence.
Qed.
Lemma create_lwe128_dims rnd abytes len m dg : 0 < len -> create_lwe128 rnd abytes len = Ok (m, dg) ->
  exists s, side len s /\ m_rows m = s /\ m_cols m = s /\ m_rows dg = 4800 /\ m_cols dg = s.
Proof.
  intros H. unfold create_lwe128. pose proof (side_of len H) as (E & S). rewrite E. destruct (create_random_binary _ _ _) as [m'| | |] eqn:C; cbn [bind]; try discriminate.
  destruct (lwe_digest _ _ m') as [d| | |] eqn:D; cbn [bind]; try discriminate. intros X. injection X as <- <-.
  apply create_binary_dims in C as (R & C'). unfold lwe_digest, m_binary_mul in D. apply mul_gen_dims in D as (A & B). cbn [new_random128_of_bytes m_rows] in A.
  eexists. split; [exact S|]. repeat split; auto. congruence.
Qed.
Lemma lwe128_chunk_value s abytes db dg d ch : m_rows db = s -> m_cols db = s -> m_rows dg = 4800 -> m_cols dg = s ->
  lwe128_chunk (params_128 s s) abytes db dg d = Ok ch -> ch = lattice_sizes 16 4800 1 s.
Proof.
  intros R C Rg Cg. unfold lwe128_chunk, lwe128_once.
  destruct (go_intn _ _) as [ii| | |]; cbn [bind]; try discriminate. destruct (go_intn _ _) as [jj| | |]; cbn [bind]; try discriminate.
  destruct (lwe_query_coins128 _ _ _ _ _ _) as [[st q]| | |] eqn:EQ; cbn [bind]; try discriminate. cbn [fst snd].
  destruct (lwe_answer w128 db q) as [a| | |] eqn:EA; cbn [bind]; try discriminate.
  destruct (or_fatal _) as [v| | |]; cbn [bind]; try discriminate. intros X. injection X as <-.
  unfold lwe_answer, m_binary_mul in EA. apply mul_gen_dims in EA as (A1 & B1).
  unfold lwe_query_coins128 in EQ. apply query_dims in EQ as (A2 & B2). cbn [new_random128_of_bytes m_rows m_cols params_128 lp_n lp_l] in A2, B2.
  unfold lattice_sizes, bytes_size128. rewrite A1, B1, A2, B2, Rg, Cg, C. f_equal; [ring|]. f_equal. f_equal; ring.
Qed.

Lemma t_ecc_cases len t : t_ecc len = Some t -> In (len, t) [(2 ^ 13, 3%nat); (2 ^ 23, 4%nat); (2 ^ 33, 7%nat)].
Proof.
  unfold t_ecc. destruct (Z.eqb_spec len (2 ^ 13)) as [->|_]; [intros X; injection X as <-; left; auto|].
  destruct (Z.eqb_spec len (2 ^ 23)) as [->|_]; [intros X; injection X as <-; right; left; auto|].
  destruct (Z.eqb_spec len (2 ^ 33)) as [->|_]; [intros X; injection X as <-; right; right; left; auto|discriminate].
Qed.

Lemma length_lwe env cfg inp dl r : bc_primitive cfg = "cmp-vpir-lwe"%string -> 0 < dl -> bench_length env cfg inp dl = Some (Ok (Some r)) ->
  zlen r = bc_repetitions cfg /\ exists s t, side dl s /\ In (dl, t) [(2 ^ 13, 3%nat); (2 ^ 23, 4%nat); (2 ^ 33, 7%nat)] /\
    Forall (eq (lattice_sizes 4 1100 (Z.of_nat (2 * t + 1)) s)) r.
Proof.
  intros P H. unfold bench_length. rewrite P. cbn [String.eqb Ascii.eqb Bool.eqb andb]. intros X. injection X as X. revert X.
  set (ab := be_abytes env _).
  destruct (create_lwe32 _ _ _ _) as [[m dg]| | |] eqn:C; cbn [bind]; try discriminate. destruct (t_ecc dl) as [t|] eqn:T; [|discriminate]. cbn [fst snd].
  destruct (pir_lwe _ _ _ _ _ _) as [cs| | |] eqn:E; cbn [bind]; try discriminate. intros X. injection X as <-.
  apply create_lwe32_dims in C as (s & S & R1 & R2 & R3 & R4); auto. unfold pir_lwe in E. destruct (go_make _ _) as [z| | |] eqn:Z; cbn [bind] in E; try discriminate.
  apply make_len in Z. pose proof (mapM_len _ _ _ E) as L. unfold range in L. rewrite seq_length in L. split; [unfold zlen; lia|].
  exists s, t. split; auto. split; [apply t_ecc_cases; auto|]. rewrite R1, R2 in E.
  eapply mapM_all; [|exact E]. intros j ch X. symmetry. eapply lwe_chunk_value; [..|exact X]; auto.
Qed.
Lemma length_lwe128 env cfg inp dl r : bc_primitive cfg = "cmp-vpir-lwe-128"%string -> 0 < dl -> bench_length env cfg inp dl = Some (Ok (Some r)) ->
  zlen r = bc_repetitions cfg /\ exists s, side dl s /\ Forall (eq (lattice_sizes 16 4800 1 s)) r.
Proof.
  intros P H. unfold bench_length. rewrite P. cbn [String.eqb Ascii.eqb Bool.eqb andb]. intros X. injection X as X. revert X.
  set (ab := be_abytes env _).
  destruct (create_lwe128 _ _ _) as [[m dg]| | |] eqn:C; cbn [bind]; try discriminate. cbn [fst snd].
  destruct (pir_lwe128 _ _ _ _ _) as [cs| | |] eqn:E; cbn [bind]; try discriminate. intros X. injection X as <-.
  apply create_lwe128_dims in C as (s & S & R1 & R2 & R3 & R4); auto. unfold pir_lwe128 in E. destruct (go_make _ _) as [z| | |] eqn:Z; cbn [bind] in E; try discriminate.
  apply make_len in Z. pose proof (mapM_len _ _ _ E) as L. unfold range in L. rewrite seq_length in L. split; [unfold zlen; lia|].
  exists s. split; auto. rewrite R1, R2 in E.
  eapply mapM_all; [|exact E]. intros j ch X. symmetry. eapply lwe128_chunk_value; [..|exact X]; auto.
Qed.
Lemma prep_loop_len H blocks nb nr : forall todo bl ts, prep_loop H blocks nb nr bl todo = Ok ts -> length ts = todo.
Proof.
  induction todo as [|k IH]; intros bl ts; cbn [prep_loop]; [intros X; injection X as <-; reflexivity|].
  destruct (new_using H blocks); try discriminate. destruct (nr =? 0); [discriminate|]. cbv zeta. destruct (go_make _ _); cbn [bind]; try discriminate.
  destruct (prep_proofs _ _ _); cbn [bind]; try discriminate. destruct (prep_loop _ _ _ _ _ _) eqn:E; cbn [bind]; try discriminate.
  intros X. injection X as <-. cbn [length]. f_equal. eauto.
Qed.
Lemma length_reps env cfg inp dl r : 0 < dl -> bench_length env cfg inp dl = Some (Ok (Some r)) -> zlen r = bc_repetitions cfg.
Proof.
  intros H E. pose proof E as E'. unfold bench_length in E.
  destruct (String.eqb_spec (bc_primitive cfg) "cmp-vpir-dh") as [P|P]; cbn [andb] in E.
  { destruct (dl =? 2 ^ 33); [discriminate|]. destruct (create_random_elliptic _ _ _ _ _ _ _) as [[db| | |]|]; cbn [bind] in E; try discriminate.
    unfold pir_elliptic in E. destruct (go_make _ _) as [z| | |] eqn:Z; cbn [bind] in E; try discriminate. destruct (dh_new _ _); cbn [bind] in E; try discriminate.
    destruct (mapM _ _) as [cs| | |] eqn:M; cbn [bind] in E; try discriminate. injection E as <-. apply make_len in Z. apply mapM_len in M.
    unfold range in M. rewrite seq_length in M. unfold zlen. lia. }
  destruct (String.eqb_spec (bc_primitive cfg) "cmp-vpir-lwe") as [Q|Q]. { apply (length_lwe env cfg inp dl r Q H E'). }
  destruct (String.eqb_spec (bc_primitive cfg) "cmp-vpir-lwe-128") as [Q'|Q']. { apply (length_lwe128 env cfg inp dl r Q' H E'). }
  destruct (String.eqb (bc_primitive cfg) "preprocessing"); [|discriminate]. injection E as E. unfold pir_merkle in E.
  destruct (go_make _ _) as [z| | |] eqn:Z; cbn [bind] in E; try discriminate.
  destruct (random_merkle_db _ _ _ _ _ _) as [ts| | |] eqn:M; cbn [bind] in E; try discriminate. injection E as <-. apply make_len in Z.
  unfold zlen. rewrite map_length. rewrite <- Z. f_equal. unfold random_merkle_db in M. destruct (_ =? 0); [discriminate|].
  destruct (go_make 0 _); cbn [bind] in M; try discriminate. destruct (go_make tt _); cbn [bind] in M; try discriminate.
  destruct (mapM _ _); cbn [bind] in M; try discriminate. eapply prep_loop_len; eauto.
Qed.

Theorem report env cfg inputs results : Forall (fun l => 0 < l) (bc_lengths cfg) -> bench env cfg inputs = Some (Ok results) ->
  NoDup (map fst results) /\ (forall len, (exists cs, In (len, cs) results) <-> In len (bc_lengths cfg) /\ ~ skipped cfg len) /\
  forall len cs, In (len, cs) results -> zlen cs = bc_repetitions cfg.
Proof.
  intros F. unfold bench. destruct (negb _); [discriminate|]. intros E. destruct (loop_keys _ _ _ _ _ _ _ E) as (A & B); [constructor|].
  split; auto. split.
  - intros len. rewrite B. split; [intros [(cs & [])|]; auto|auto].
  - apply (loop_values _ _ _ _ _ _ _ _ E); [|intros ? ? []]. intros k dl r I X. eapply length_reps; [|exact X]. rewrite Forall_forall in F. auto.
Qed.
