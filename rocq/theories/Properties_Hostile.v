(** Further theorems for C27, C68 and C102: which messages a predicate server and a lattice server survive. *)
From Coq Require Import String ZArith List Bool Lia.
From Verif Require Import GoBase BaseFacts FieldModel FSSModel EncodingModel MerkleModel MerkleSpec PredicateModel PredicateSpec
  FSSProofs EncodingProofs PredicateProofs2 HostileSpec HostileProofs ToyInstances Properties_Predicate
  MatrixModel LWEModel LWESpec MatrixProofs Properties_LWE RobustModel RobustSpec RobustProofs RobustProofs2 RobustProofs3.
Import ListNotations.
Open Scope Z_scope.

(** C68, exactly: whatever was decoded, the server answers n (or twice n, for AVG) words if the query is of a known kind and, for every record it
    looks at, its lengths make sense and the key is large enough; in all other cases it crashes. It never reports an error. *)
Theorem C68_exact_partial : forall enc H n sn db now fresh q k,
  cipher_ok enc -> hash_ok H -> n = 1%nat \/ n = 5%nat -> Forall record_ok db -> key_bytes k ->
  let r := answer enc H n sn db (length db) now fresh (Some q) k in
  let fine := known_kind q /\ forall ki, In ki db ->
    (looks_at_email q = true -> sensible_lengths q) /\ forall m, compared_bytes q ki = Some m -> key_covers k m n in
  (fine -> exists a flag, r = Ok (a, flag) /\ length a = (if q_avg q then 2 * n else n)%nat) /\
  (~ fine -> is_panic r = true).
Proof.
  intros enc H n sn db now fresh q k He HH Hn HD Hk. cbv zeta.
  destruct (answer_any enc H n sn db now fresh q k He HH ltac:(lia) HD Hk) as [A P]. split.
  - intros [K F]. apply A. split; auto. apply Forall_forall. exact F.
  - intros N. apply P. intros [K F]. apply N. split; auto. apply Forall_forall. exact F.
Qed.
Print Assumptions C68_exact_partial.

Example C68_exact_example :
  let q := mkInfo 0 0 3 false false false in
  Forall record_ok toy_db /\ toy_db <> [] /\ key_bytes (mkKey [1; 2] 1 (repeat (repeat 9 18) 24) [1; 2; 3; 4; 5]) /\ known_kind q /\ sensible_lengths q /\
  map (compared_bytes q) toy_db = [Some 3; Some 3; None] /\ ~ known_kind (mkInfo 0 0 3 false true false) /\
  key_covers (mkKey [1; 2] 1 (repeat (repeat 9 18) 24) [1; 2; 3; 4; 5]) 3 5 /\
  is_panic (answer toy_cipher toy_hash 5 0 toy_db 3 (fun _ => 2021) (fun _ _ => 0) (Some q) (mkKey [1; 2] 1 (repeat (repeat 9 18) 24) [1; 2; 3; 4; 5])) = false.
Proof.
  cbv zeta. split; [exact toy_db_ok|]. split; [discriminate|].
  split; [split; [repeat constructor; unfold is_byte, w8; lia|cbn [k_cw]; apply Forall_forall; intros c I; apply repeat_spec in I; subst; repeat constructor; unfold is_byte, w8; lia]|].
  split; [split; [reflexivity|intros _; split; auto]|].
  split; [unfold sensible_lengths; cbn; lia|]. split; [vm_compute; reflexivity|].
  split; [intros [_ X]; destruct (X eq_refl); discriminate|]. split; [|vm_compute; reflexivity].
  split; [vm_compute; discriminate|]. split; [|cbn; lia]. cbn [k_cw]. apply Forall_forall. intros c I.
  assert (I' : In c (repeat (repeat 9 18) 24)) by (rewrite <- (firstn_skipn (Z.to_nat (8 * 3)) (repeat (repeat 9 18) 24)); apply in_or_app; auto).
  apply repeat_spec in I'. subst. vm_compute. discriminate.
Qed.

(** C27, what holds: a known name selects exactly the keys with its algorithm number. *)
Theorem C27_known_partial : forall name c b, algo_number name = Some c -> is_byte b ->
  (to_pka_client name = id_for_algo b <-> b = c).
Proof.
  intros name c b A B. destruct (pka_known name c A) as [E R]. unfold to_pka_client. rewrite E. unfold is_byte, w8 in B. split; [|intros ->; reflexivity].
  unfold id_for_algo. rewrite !Z.mod_small by lia. intros X.
  apply byte_to_bits_inj in X; [congruence| |]; (constructor; [unfold is_byte, w8; lia|constructor]).
Qed.
Print Assumptions C27_known_partial.
Example C27_known_example : algo_number "DSA" = Some 17 /\ is_byte 17 /\ to_pka_client "DSA" <> id_for_algo 1.
Proof. split; [reflexivity|]. split; [unfold is_byte, w8; lia|]. vm_compute. congruence. Qed.

(** C102, the end of the memory: a query that announces more words than it has and than the mapped memory behind it can supply ends the server. *)
Theorem C102_memory_end_partial : forall db L M mem rows body, exact_shape db L M -> Z.of_nat L < 2 ^ 32 -> 0 < rows < 2 ^ 32 -> 4 <= zlen body ->
  zlen body / 4 + zlen mem < rows * Z.of_nat L -> exists s, lwe_answer_mem mem db (announcing rows (Z.of_nat L) body) = Fatal s.
Proof.
  intros db L M mem rows body HD HL Hr HB HS. destruct (db_sizes db L M HD) as (Rd & Cd & PL & PM & Ld). exists "segmentation fault"%string.
  unfold lwe_answer_mem. rewrite parse32 by (unfold is_u32, w32 in *; lia). cbn [bind]. unfold binary_mul_mem. cbn [m_rows m_cols m_data].
  set (data := bytes_to_uint32_slice body).
  assert (LD : zlen data = zlen body / 4). { unfold zlen, data. rewrite words_count32. rewrite Nat2Z.inj_div. auto. }
  assert (W1 : 1 <= zlen body / 4) by (apply Z.div_le_lower_bound; lia).
  assert (NZ : zlen data =? 0 = false) by (apply Z.eqb_neq; lia). rewrite NZ. rewrite Rd, Z.eqb_refl. cbn [negb andb].
  assert (NM : rows * m_cols db =? 0 = false) by (apply Z.eqb_neq; rewrite Cd; nia). rewrite NM.
  destruct (Nat.ltb_spec (length mem) (Z.to_nat (rows * Z.of_nat L - zlen data))) as [|X]; [reflexivity|].
  exfalso. unfold zlen in *. lia.
Qed.
Print Assumptions C102_memory_end_partial.
Example C102_memory_end_example : exact_shape ex_db 2 3 /\ zlen [0; 0; 0; 0] / 4 + zlen [1; 2] < 2 * Z.of_nat 2 /\
  lwe_answer_mem [1; 2] ex_db (announcing 2 2 [0; 0; 0; 0]) = Fatal "segmentation fault" /\
  is_panic (lwe_answer_mem [1; 2; 3] ex_db (announcing 2 2 [0; 0; 0; 0])) = false.
Proof.
  split; [apply ex_deployment|]. split; [reflexivity|]. split; vm_compute; reflexivity. Qed.
