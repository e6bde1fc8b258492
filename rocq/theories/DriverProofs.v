(** Proofs about the script that runs the multi-server benchmarks. *)
From Coq Require Import String ZArith List Bool Lia.
From Verif Require Import GoBase BaseFacts MerkleModel MerkleProofs FrontendModel FrontendProofs KeyPageProofs MultiModel LogModel LogProofs ResultsModel ResultsProofs DriverModel.
Import ListNotations.
Open Scope Z_scope.
Open Scope go_scope.

(** ** words *)
Definition num_char (c : Z) : Prop := c = 45 \/ 48 <= c <= 57.
Lemma itoa_chars v : Forall num_char (itoa v).
Proof.
  unfold itoa, num_char. destruct (Z.ltb_spec v 0).
  - constructor; [lia|]. eapply Forall_impl; [|apply decimal_digits; lia]. cbv beta. lia.
  - eapply Forall_impl; [|apply decimal_digits; lia]. cbv beta. lia.
Qed.
Lemma itoa_without c v : c <> 45 -> ~ 48 <= c <= 57 -> Forall (fun z => z <> c) (itoa v).
Proof. intros A B. eapply Forall_impl; [|apply itoa_chars]. unfold num_char. cbv beta. intros z Z -> . lia. Qed.
Fixpoint joined (ws : list (list Z)) : list Z := match ws with [] => [] | [w] => w | w :: t => w ++ 32 :: joined t end.
Definition word (w : list Z) : Prop := w <> [] /\ Forall (fun z => z <> 32) w.
Lemma words_joined : forall ws, ws <> [] -> Forall word ws -> words (joined ws) = ws.
Proof.
  unfold words. induction ws as [|w ws IH]; intros N F; [congruence|]. inversion F as [|? ? (W & NB) F']; subst. destruct ws as [|w' ws].
  - cbn [joined]. rewrite split_no by exact NB. cbn [filter]. destruct w; [congruence|reflexivity].
  - cbn [joined]. fold (joined (w' :: ws)). rewrite split_cons by exact NB. cbn [filter]. destruct w as [|x w]; [congruence|]. f_equal. apply IH; [discriminate|exact F'].
Qed.
Lemma word_lit (s : list Z) t : s <> [] -> forallb (fun z => negb (z =? 32)) s = true -> Forall (fun z => z <> 32) t -> word (s ++ t).
Proof.
  intros N F T. split; [destruct s; [congruence|discriminate]|]. apply Forall_app. split; [|exact T]. apply Forall_forall. intros z I E. rewrite forallb_forall in F. specialize (F z I). subst z. discriminate F.
Qed.
Lemma word_itoa s v : s <> [] -> forallb (fun z => negb (z =? 32)) s = true -> word (s ++ itoa v).
Proof. intros. apply word_lit; auto. apply itoa_without; lia. Qed.
Lemma word_const s : s <> [] -> forallb (fun z => negb (z =? 32)) s = true -> word s.
Proof. intros. rewrite <- (app_nil_r s). apply word_lit; auto. Qed.
Ltac a_word := first [apply word_itoa; [discriminate|reflexivity]|apply word_lit; [discriminate|reflexivity|assumption]|apply word_const; [discriminate|reflexivity]].

(** ** flags *)
Lemma flag_itoa v : - 2 ^ 63 <= v < 2 ^ 63 -> flag_int (itoa v) = Ok v.
Proof. intros B. unfold flag_int. rewrite atoi_itoa by exact B. reflexivity. Qed.
Lemma server_pir_flags log scheme len elem rows block servers : Forall (fun z => z <> 32) log -> Forall (fun z => z <> 32) scheme ->
  Forall (fun v => - 2 ^ 63 <= v < 2 ^ 63) [len; elem; rows; block; servers] ->
  server_flags (server_pir_command log scheme len elem rows block servers) = Ok (log, mkSF (text_of scheme) elem len rows block servers).
Proof.
  intros L S F. unfold server_flags.
  assert (E : server_pir_command log scheme len elem rows block servers = joined
    [lit "screen"; lit "-dm"; lit "./server"; lit "-logFile=" ++ log; lit "-scheme=" ++ scheme; lit "-dbLen=" ++ itoa len; lit "-elemBitSize=" ++ itoa elem;
     lit "-nRows=" ++ itoa rows; lit "-blockLen=" ++ itoa block; lit "-servers=" ++ itoa servers; lit "&&"; lit "sleep"; lit "15"]).
  { unfold server_pir_command. cbn [joined]. rewrite <- !app_assoc. reflexivity. }
  rewrite E, words_joined; [|discriminate|repeat (apply Forall_cons; [a_word|]); apply Forall_nil]. clear E.
  inversion F as [|? ? F1 G1]; subst. inversion G1 as [|? ? F2 G2]; subst. inversion G2 as [|? ? F3 G3]; subst. inversion G3 as [|? ? F4 G4]; subst. inversion G4 as [|? ? F5 _]; subst.
  change (args_of (lit "./server") _) with (Ok [lit "-logFile=" ++ log; lit "-scheme=" ++ scheme; lit "-dbLen=" ++ itoa len; lit "-elemBitSize=" ++ itoa elem;
     lit "-nRows=" ++ itoa rows; lit "-blockLen=" ++ itoa block; lit "-servers=" ++ itoa servers]). cbn [bind foldM].
  assert (SL : forall st v, set_server st (lit "-logFile=" ++ v) = Ok (v, snd st)) by (intros [? ?] ?; reflexivity). rewrite SL. cbn [bind snd].
  assert (SS : forall st v, set_server st (lit "-scheme=" ++ v) = Ok (fst st, mkSF (text_of v) (s_elem (snd st)) (s_len (snd st)) (s_rows (snd st)) (s_block (snd st)) (s_servers (snd st)))) by (intros [? ?] ?; reflexivity).
  rewrite SS. cbn [bind fst snd s_elem s_len s_rows s_block s_servers s_scheme].
  assert (S1 : forall st v, set_server st (lit "-dbLen=" ++ v) = bind (flag_int v) (fun i => Ok (fst st, mkSF (s_scheme (snd st)) (s_elem (snd st)) i (s_rows (snd st)) (s_block (snd st)) (s_servers (snd st))))) by (intros [? ?] ?; reflexivity).
  rewrite S1, flag_itoa by assumption. cbn [bind fst snd s_elem s_len s_rows s_block s_servers s_scheme].
  assert (S2 : forall st v, set_server st (lit "-elemBitSize=" ++ v) = bind (flag_int v) (fun i => Ok (fst st, mkSF (s_scheme (snd st)) i (s_len (snd st)) (s_rows (snd st)) (s_block (snd st)) (s_servers (snd st))))) by (intros [? ?] ?; reflexivity).
  rewrite S2, flag_itoa by assumption. cbn [bind fst snd s_elem s_len s_rows s_block s_servers s_scheme].
  assert (S3 : forall st v, set_server st (lit "-nRows=" ++ v) = bind (flag_int v) (fun i => Ok (fst st, mkSF (s_scheme (snd st)) (s_elem (snd st)) (s_len (snd st)) i (s_block (snd st)) (s_servers (snd st))))) by (intros [? ?] ?; reflexivity).
  rewrite S3, flag_itoa by assumption. cbn [bind fst snd s_elem s_len s_rows s_block s_servers s_scheme].
  assert (S4 : forall st v, set_server st (lit "-blockLen=" ++ v) = bind (flag_int v) (fun i => Ok (fst st, mkSF (s_scheme (snd st)) (s_elem (snd st)) (s_len (snd st)) (s_rows (snd st)) i (s_servers (snd st))))) by (intros [? ?] ?; reflexivity).
  rewrite S4, flag_itoa by assumption. cbn [bind fst snd s_elem s_len s_rows s_block s_servers s_scheme].
  assert (S5 : forall st v, set_server st (lit "-servers=" ++ v) = bind (flag_int v) (fun i => Ok (fst st, mkSF (s_scheme (snd st)) (s_elem (snd st)) (s_len (snd st)) (s_rows (snd st)) (s_block (snd st)) i))) by (intros [? ?] ?; reflexivity).
  rewrite S5, flag_itoa by assumption. reflexivity.
Qed.
Lemma server_fss_flags log scheme : Forall (fun z => z <> 32) log -> Forall (fun z => z <> 32) scheme ->
  server_flags (server_fss_command log scheme) = Ok (log, mkSF (text_of scheme) (-1) (-1) (-1) (-1) 2).
Proof.
  intros L S. unfold server_flags.
  assert (E : server_fss_command log scheme = joined [lit "screen"; lit "-dm"; lit "./server"; lit "-logFile=" ++ log; lit "-scheme=" ++ scheme; lit "&&"; lit "sleep"; lit "15"]).
  { unfold server_fss_command. cbn [joined]. rewrite <- !app_assoc. reflexivity. }
  rewrite E, words_joined; [|discriminate|repeat (apply Forall_cons; [a_word|]); apply Forall_nil]. reflexivity.
Qed.
Lemma set_client_log f v : set_client f (lit "-logFile=" ++ v) = Ok (mkMC v (mc_scheme f) (mc_reps f) (mc_servers f) (mc_elem f) (mc_bits f) (mc_input f)).
Proof. reflexivity. Qed.
Lemma set_client_scheme f v : set_client f (lit "-scheme=" ++ v) = Ok (mkMC (mc_log f) (text_of v) (mc_reps f) (mc_servers f) (mc_elem f) (mc_bits f) (mc_input f)).
Proof. reflexivity. Qed.
Lemma set_client_reps f v : set_client f (lit "-repetitions=" ++ v) = bind (flag_int v) (fun i => Ok (mkMC (mc_log f) (mc_scheme f) i (mc_servers f) (mc_elem f) (mc_bits f) (mc_input f))).
Proof. reflexivity. Qed.
Lemma set_client_servers f v : set_client f (lit "-numServers=" ++ v) = bind (flag_int v) (fun i => Ok (mkMC (mc_log f) (mc_scheme f) (mc_reps f) i (mc_elem f) (mc_bits f) (mc_input f))).
Proof. reflexivity. Qed.
Lemma set_client_elem f v : set_client f (lit "-elemBitSize=" ++ v) = bind (flag_int v) (fun i => Ok (mkMC (mc_log f) (mc_scheme f) (mc_reps f) (mc_servers f) i (mc_bits f) (mc_input f))).
Proof. reflexivity. Qed.
Lemma set_client_bits f v : set_client f (lit "-bitsToRetrieve=" ++ v) = bind (flag_int v) (fun i => Ok (mkMC (mc_log f) (mc_scheme f) (mc_reps f) (mc_servers f) (mc_elem f) i (mc_input f))).
Proof. reflexivity. Qed.
Lemma set_client_input f v : set_client f (lit "-inputSize=" ++ v) = bind (flag_int v) (fun i => Ok (mkMC (mc_log f) (mc_scheme f) (mc_reps f) (mc_servers f) (mc_elem f) (mc_bits f) i)).
Proof. reflexivity. Qed.
Lemma client_pir_flags log scheme reps elem bits : Forall (fun z => z <> 32) log -> Forall (fun z => z <> 32) scheme ->
  - 2 ^ 63 <= reps < 2 ^ 63 -> - 2 ^ 63 <= elem < 2 ^ 63 -> - 2 ^ 63 <= bits < 2 ^ 63 ->
  client_flags (client_pir_command log scheme reps elem bits) = Ok (mkMC log (text_of scheme) reps 2 elem bits (-1)).
Proof.
  intros L S B1 B2 B3. unfold client_flags.
  assert (E : client_pir_command log scheme reps elem bits = joined
    [lit "./client"; lit "-logFile=" ++ log; lit "-scheme=" ++ scheme; lit "-repetitions=" ++ itoa reps; lit "-elemBitSize=" ++ itoa elem; lit "-bitsToRetrieve=" ++ itoa bits]).
  { unfold client_pir_command. cbn [joined]. rewrite <- !app_assoc. reflexivity. }
  rewrite E, words_joined; [|discriminate|repeat (apply Forall_cons; [a_word|]); apply Forall_nil]. clear E.
  change (args_of (lit "./client") _) with (Ok [lit "-logFile=" ++ log; lit "-scheme=" ++ scheme; lit "-repetitions=" ++ itoa reps; lit "-elemBitSize=" ++ itoa elem; lit "-bitsToRetrieve=" ++ itoa bits]).
  cbn [bind foldM]. rewrite set_client_log. cbn [bind]. rewrite set_client_scheme. cbn [bind]. rewrite set_client_reps, flag_itoa by assumption. cbn [bind].
  rewrite set_client_elem, flag_itoa by assumption. cbn [bind]. rewrite set_client_bits, flag_itoa by assumption. reflexivity.
Qed.
Lemma client_multi_flags log scheme reps elem bits n : Forall (fun z => z <> 32) log -> Forall (fun z => z <> 32) scheme ->
  - 2 ^ 63 <= reps < 2 ^ 63 -> - 2 ^ 63 <= elem < 2 ^ 63 -> - 2 ^ 63 <= bits < 2 ^ 63 -> - 2 ^ 63 <= n < 2 ^ 63 ->
  client_flags (client_pir_multi_command log scheme reps elem bits n) = Ok (mkMC log (text_of scheme) reps n elem bits (-1)).
Proof.
  intros L S B1 B2 B3 B4. unfold client_flags.
  assert (E : client_pir_multi_command log scheme reps elem bits n = joined
    [lit "./client"; lit "-logFile=" ++ log; lit "-scheme=" ++ scheme; lit "-repetitions=" ++ itoa reps; lit "-elemBitSize=" ++ itoa elem; lit "-bitsToRetrieve=" ++ itoa bits; lit "-numServers=" ++ itoa n]).
  { unfold client_pir_multi_command. cbn [joined]. rewrite <- !app_assoc. reflexivity. }
  rewrite E, words_joined; [|discriminate|repeat (apply Forall_cons; [a_word|]); apply Forall_nil]. clear E.
  change (args_of (lit "./client") _) with (Ok [lit "-logFile=" ++ log; lit "-scheme=" ++ scheme; lit "-repetitions=" ++ itoa reps; lit "-elemBitSize=" ++ itoa elem; lit "-bitsToRetrieve=" ++ itoa bits; lit "-numServers=" ++ itoa n]).
  cbn [bind foldM]. rewrite set_client_log. cbn [bind]. rewrite set_client_scheme. cbn [bind]. rewrite set_client_reps, flag_itoa by assumption. cbn [bind].
  rewrite set_client_elem, flag_itoa by assumption. cbn [bind]. rewrite set_client_bits, flag_itoa by assumption. cbn [bind]. rewrite set_client_servers, flag_itoa by assumption. reflexivity.
Qed.
Lemma client_fss_flags log scheme reps n : Forall (fun z => z <> 32) log -> Forall (fun z => z <> 32) scheme -> - 2 ^ 63 <= reps < 2 ^ 63 -> - 2 ^ 63 <= n < 2 ^ 63 ->
  client_flags (client_fss_command log scheme reps n) = Ok (mkMC log (text_of scheme) reps 2 (-1) (-1) n).
Proof.
  intros L S B1 B4. unfold client_flags.
  assert (E : client_fss_command log scheme reps n = joined
    [lit "./client"; lit "-logFile=" ++ log; lit "-scheme=" ++ scheme; lit "-repetitions=" ++ itoa reps; lit "-inputSize=" ++ itoa n]).
  { unfold client_fss_command. cbn [joined]. rewrite <- !app_assoc. reflexivity. }
  rewrite E, words_joined; [|discriminate|repeat (apply Forall_cons; [a_word|]); apply Forall_nil]. clear E.
  change (args_of (lit "./client") _) with (Ok [lit "-logFile=" ++ log; lit "-scheme=" ++ scheme; lit "-repetitions=" ++ itoa reps; lit "-inputSize=" ++ itoa n]).
  cbn [bind foldM]. rewrite set_client_log. cbn [bind]. rewrite set_client_scheme. cbn [bind]. rewrite set_client_reps, flag_itoa by assumption. cbn [bind].
  rewrite set_client_input, flag_itoa by assumption. reflexivity.
Qed.
Lemma const_without c s : forallb (fun z => negb (z =? c)) s = true -> Forall (fun z => z <> c) s.
Proof. intros F. apply Forall_forall. intros z I E. rewrite forallb_forall in F. specialize (F z I). subst z. rewrite Z.eqb_refl in F. discriminate F. Qed.
Lemma log_name_word k auth key : Forall (fun z => z <> 32) (log_name k auth key).
Proof.
  destruct k, auth; unfold log_name, type_name; repeat (apply Forall_app; split); first [apply itoa_without; lia|apply const_without; reflexivity].
Qed.
Lemma scheme_name_word k auth : Forall (fun z => z <> 32) (scheme_name k auth).
Proof. destruct k, auth; apply const_without; reflexivity. Qed.

(** ** names of log files *)
Definition int (v : Z) : Prop := - 2 ^ 63 <= v < 2 ^ 63.
Definition log_parts (k : kind) (auth : bool) (key : Z) : list (list Z) :=
  match k with
  | Point => [lit "pir"; type_name k auth; itoa key ++ lit ".log"]
  | PointMulti => [lit "pir"; type_name k auth; lit "multi"; itoa key ++ lit ".log"]
  | Predicate => [lit "fss"; type_name k auth; itoa key ++ lit ".log"]
  end.
Lemma key_part key : Forall (fun z => z <> 95) (itoa key ++ lit ".log").
Proof. apply Forall_app. split; [apply itoa_without; lia|apply const_without; reflexivity]. Qed.
Lemma log_split k auth key : split_on 95 (log_name k auth key) = log_parts k auth key.
Proof.
  destruct k, auth; unfold log_name, type_name, log_parts.
  - change (lit "pir_" ++ lit "merkle" ++ lit "_" ++ itoa key ++ lit ".log") with (lit "pir" ++ 95 :: lit "merkle" ++ 95 :: itoa key ++ lit ".log").
    rewrite !split_cons by (apply const_without; reflexivity). rewrite split_no by apply key_part. reflexivity.
  - change (lit "pir_" ++ lit "classic" ++ lit "_" ++ itoa key ++ lit ".log") with (lit "pir" ++ 95 :: lit "classic" ++ 95 :: itoa key ++ lit ".log").
    rewrite !split_cons by (apply const_without; reflexivity). rewrite split_no by apply key_part. reflexivity.
  - change (lit "pir_" ++ lit "merkle" ++ lit "_multi_" ++ itoa key ++ lit ".log") with (lit "pir" ++ 95 :: lit "merkle" ++ 95 :: lit "multi" ++ 95 :: itoa key ++ lit ".log").
    rewrite !split_cons by (apply const_without; reflexivity). rewrite split_no by apply key_part. reflexivity.
  - change (lit "pir_" ++ lit "classic" ++ lit "_multi_" ++ itoa key ++ lit ".log") with (lit "pir" ++ 95 :: lit "classic" ++ 95 :: lit "multi" ++ 95 :: itoa key ++ lit ".log").
    rewrite !split_cons by (apply const_without; reflexivity). rewrite split_no by apply key_part. reflexivity.
  - change (lit "fss_" ++ lit "auth" ++ lit "_" ++ itoa key ++ lit ".log") with (lit "fss" ++ 95 :: lit "auth" ++ 95 :: itoa key ++ lit ".log").
    rewrite !split_cons by (apply const_without; reflexivity). rewrite split_no by apply key_part. reflexivity.
  - change (lit "fss_" ++ lit "classic" ++ lit "_" ++ itoa key ++ lit ".log") with (lit "fss" ++ 95 :: lit "classic" ++ 95 :: itoa key ++ lit ".log").
    rewrite !split_cons by (apply const_without; reflexivity). rewrite split_no by apply key_part. reflexivity.
Qed.
Lemma log_inj k auth key k' auth' key' : int key -> int key' -> log_name k auth key = log_name k' auth' key' -> k = k' /\ auth = auth' /\ key = key'.
Proof.
  intros I I' E. apply (f_equal (split_on 95)) in E. rewrite !log_split in E.
  destruct k, auth, k', auth'; cbn [log_parts type_name] in E; try discriminate E; injection E as E; apply app_inv_tail in E; apply itoa_inj in E; auto.
Qed.
Lemma saved_server_inj i log j log' : int (Z.of_nat i) -> int (Z.of_nat j) -> saved_server i log = saved_server j log' -> i = j /\ log = log'.
Proof.
  intros I J E. unfold saved_server in E.
  change (lit "server_" ++ itoa (Z.of_nat i) ++ lit "_" ++ log) with (lit "server_" ++ (itoa (Z.of_nat i) ++ 95 :: log)) in E.
  change (lit "server_" ++ itoa (Z.of_nat j) ++ lit "_" ++ log') with (lit "server_" ++ (itoa (Z.of_nat j) ++ 95 :: log')) in E. apply app_inv_head in E.
  assert (G : forall a b x y, Forall (fun z => z <> 95) a -> Forall (fun z => z <> 95) b -> a ++ 95 :: x = b ++ 95 :: y -> a = b /\ x = y).
  { induction a as [|c a IH]; intros [|d b] x y FA FB EQ; cbn [app] in EQ.
    - split; congruence.
    - inversion FB; congruence.
    - inversion FA; congruence.
    - inversion FA; inversion FB; subst. injection EQ as -> EQ. destruct (IH b x y) as (-> & ->); auto. }
  apply G in E as (E & ->); [|apply itoa_without; lia..]. apply itoa_inj in E; [|exact I|exact J]. split; [lia|reflexivity].
Qed.
Lemma saved_apart i log log' : saved_server i log <> saved_client log'.
Proof. discriminate. Qed.
Lemma plotted_names k auth key i : plot_server i (plot_scheme k auth) key = saved_server i (log_name k auth key) /\ plot_client (plot_scheme k auth) key = saved_client (log_name k auth key).
Proof. destruct k, auth; split; reflexivity. Qed.

(** ** the directory *)
Lemma text_eq_spec a b : text_eq a b = true <-> a = b.
Proof.
  revert b. induction a as [|x a IH]; intros [|y b]; cbn [text_eq]; split; intros E; try discriminate; try reflexivity.
  - apply andb_true_iff in E as (X & Y). apply Z.eqb_eq in X. apply IH in Y. congruence.
  - injection E as -> ->. rewrite Z.eqb_refl. apply IH. reflexivity.
Qed.
Definition dir := list (list Z * list Z).
Definition holds (d : dir) (name t : list Z) : Prop := dict_get text_eq d name = Ok t.
Lemma set_holds (d : dir) name t : holds (dict_set text_eq d name t) name t.
Proof.
  unfold holds, dict_get. induction d as [|e d IH]; cbn [dict_set find]; [cbn [fst]; rewrite (proj2 (text_eq_spec name name) eq_refl); reflexivity|].
  destruct (text_eq (fst e) name) eqn:B; cbn [find fst]; rewrite B; [reflexivity|exact IH].
Qed.
Lemma set_keeps (d : dir) name t name' t' : holds d name t -> (name' = name -> t' = t) -> holds (dict_set text_eq d name' t') name t.
Proof.
  intros HO S. destruct (list_eq_dec Z.eq_dec name' name) as [->|N]; [rewrite (S eq_refl); apply set_holds|].
  unfold holds, dict_get in *. induction d as [|e d IH]; cbn [dict_set find] in *; [discriminate HO|]. destruct (text_eq (fst e) name') eqn:B; cbn [find fst].
  - apply text_eq_spec in B. destruct (text_eq (fst e) name) eqn:C; [apply text_eq_spec in C; congruence|exact HO].
  - destruct (text_eq (fst e) name); [exact HO|apply IH; exact HO].
Qed.
Lemma clean_keeps (d : dir) name t : holds d name t -> contains (lit "stats") t = true -> holds (clean d) name t.
Proof.
  unfold holds, dict_get, clean. induction d as [|e d IH]; cbn [find filter]; intros HO S; [discriminate HO|]. destruct (text_eq (fst e) name) eqn:B.
  - assert (snd e = t) as <- by congruence. rewrite S. cbn [negb]. rewrite andb_false_r. cbn [negb find]. rewrite B. reflexivity.
  - destruct (negb _); [cbn [find]; rewrite B|]; apply IH; assumption.
Qed.

Section Collect.
Variables (text : machine -> list Z -> list Z) (n : nat) (k : kind).
Hypothesis N : Z.of_nat n <= 2 ^ 63.
Definition name_of (m : machine) (log : list Z) : list Z := match m with AtServer i => saved_server i log | AtClient => saved_client log end.
Definition in_pool (m : machine) : Prop := match m with AtServer i => (i < n)%nat | AtClient => True end.
Lemma pool_int i : (i < n)%nat -> int (Z.of_nat i).
Proof. unfold int. lia. Qed.
Lemma name_inj m log m' log' : in_pool m -> in_pool m' -> name_of m log = name_of m' log' -> m = m' /\ log = log'.
Proof.
  destruct m as [i|], m' as [j|]; cbn [name_of in_pool]; intros P P' E.
  - apply saved_server_inj in E as (-> & ->); auto using pool_int.
  - discriminate E.
  - discriminate E.
  - unfold saved_client in E. apply app_inv_head in E. auto.
Qed.
Lemma servers_hold auth key (m : machine) log t : in_pool m -> t = text m log -> forall is (d : dir), (forall i, In i is -> (i < n)%nat) -> holds d (name_of m log) t ->
  holds (fold_left (fun d i => dict_set text_eq d (saved_server i (log_name k auth key)) (text (AtServer i) (log_name k auth key))) is d) (name_of m log) t.
Proof.
  intros P ET. induction is as [|i is IH]; intros d B HO; cbn [fold_left]; [exact HO|]. apply IH; [intros; apply B; right; assumption|]. apply set_keeps; [exact HO|].
  intros E. change (saved_server i (log_name k auth key)) with (name_of (AtServer i) (log_name k auth key)) in E. apply name_inj in E as (<- & <-); [symmetry; exact ET|apply B; left; reflexivity|exact P].
Qed.
Lemma servers_set auth key i log t : (i < n)%nat -> log = log_name k auth key -> t = text (AtServer i) log -> forall is (d : dir), (forall i, In i is -> (i < n)%nat) -> In i is ->
  holds (fold_left (fun d i => dict_set text_eq d (saved_server i (log_name k auth key)) (text (AtServer i) (log_name k auth key))) is d) (saved_server i log) t.
Proof.
  intros L EL ET. induction is as [|j is IH]; intros d B I; [destruct I|]. cbn [fold_left]. destruct (in_dec Nat.eq_dec i is) as [J|J]; [apply IH; [intros; apply B; right; assumption|exact J]|].
  destruct I as [->|I]; [|contradiction]. apply (servers_hold auth key (AtServer i) log t); [exact L|exact ET|intros; apply B; right; assumption|]. cbn [name_of]. subst. apply set_holds.
Qed.
Lemma key_keeps auth key m log t (d : dir) : in_pool m -> t = text m log -> (k = PointMulti -> contains (lit "stats") t = true) -> holds d (name_of m log) t ->
  holds (collect_key text n k auth d key) (name_of m log) t.
Proof.
  intros P ET C HO. unfold collect_key. cbv zeta.
  assert (X : holds (dict_set text_eq (fold_left (fun d i => dict_set text_eq d (saved_server i (log_name k auth key)) (text (AtServer i) (log_name k auth key))) (seq 0 n) d)
    (saved_client (log_name k auth key)) (text AtClient (log_name k auth key))) (name_of m log) t).
  { apply set_keeps; [apply servers_hold; auto; intros i I; apply in_seq in I; lia|]. intros E. change (saved_client (log_name k auth key)) with (name_of AtClient (log_name k auth key)) in E.
    apply name_inj in E as (<- & <-); [symmetry; exact ET|exact I|exact P]. }
  destruct k; [exact X|apply clean_keeps; auto|exact X].
Qed.
Lemma key_sets auth key m (d : dir) : in_pool m -> (k = PointMulti -> contains (lit "stats") (text m (log_name k auth key)) = true) ->
  holds (collect_key text n k auth d key) (name_of m (log_name k auth key)) (text m (log_name k auth key)).
Proof.
  intros P C. unfold collect_key. cbv zeta.
  assert (X : holds (dict_set text_eq (fold_left (fun d i => dict_set text_eq d (saved_server i (log_name k auth key)) (text (AtServer i) (log_name k auth key))) (seq 0 n) d)
    (saved_client (log_name k auth key)) (text AtClient (log_name k auth key))) (name_of m (log_name k auth key)) (text m (log_name k auth key))).
  { destruct m as [i|]; cbn [name_of]; [|apply set_holds]. cbn [in_pool] in P. apply set_keeps; [|intros E; symmetry in E; destruct (saved_apart _ _ _ E)].
    apply servers_set; auto; [intros j I; apply in_seq in I; lia|apply in_seq; lia]. }
  destruct k; [exact X|apply clean_keeps; auto|exact X].
Qed.
Lemma all_keeps auth m log t : in_pool m -> t = text m log -> (k = PointMulti -> contains (lit "stats") t = true) -> forall keys (d : dir), holds d (name_of m log) t ->
  holds (collect_all text n k auth keys d) (name_of m log) t.
Proof. intros P ET C. unfold collect_all. induction keys as [|key keys IH]; intros d HO; cbn [fold_left]; [exact HO|]. apply IH. apply key_keeps; assumption. Qed.
Lemma all_sets auth key m : in_pool m -> (k = PointMulti -> contains (lit "stats") (text m (log_name k auth key)) = true) -> forall keys (d : dir), In key keys ->
  holds (collect_all text n k auth keys d) (name_of m (log_name k auth key)) (text m (log_name k auth key)).
Proof.
  intros P C. unfold collect_all. induction keys as [|key' keys IH]; intros d I; [destruct I|]. cbn [fold_left]. destruct (in_dec Z.eq_dec key keys) as [J|J]; [apply IH; exact J|].
  destruct I as [->|I]; [|contradiction]. apply (all_keeps auth m _ _ P eq_refl C keys). apply key_sets; assumption.
Qed.
Lemma driver_holds auth key m keys0 keys1 (d : dir) : in_pool m -> (k = PointMulti -> contains (lit "stats") (text m (log_name k auth key)) = true) ->
  In key (if auth then keys1 else keys0) -> holds (driver text n k keys0 keys1 d) (name_of m (log_name k auth key)) (text m (log_name k auth key)).
Proof.
  intros P C I. unfold driver. destruct auth; [apply all_sets; assumption|]. apply all_keeps; auto. apply all_sets; assumption.
Qed.
End Collect.
