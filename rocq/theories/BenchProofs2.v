(** The single-server benchmark, continued: when it completes, and what it retrieved. *)
From Coq Require Import String ZArith List Bool Lia Arith.
From Verif Require Import GoBase BaseFacts EncodingModel EncodingProofs MatrixModel LWEModel LWESpec MatrixProofs LWEProofs LWEProofs2 LWEProofs3 LWEProofs4
  MerkleModel DHModel DHSpec DHProofs DHProofs2 DHProofs3 MultiModel SimulModel AmplifyProofs BenchModel BenchSpec BenchProofs.
Import ListNotations.
Open Scope Z_scope.
Open Scope go_scope.

Section Lattice.
Variables (s : nat) (db : matrix).
Hypotheses (HS : (0 < s)%nat) (HB : 84 * Z.of_nat s + 1 < 2 ^ 32) (HD : exact_shape db s s) (BD : binary db).
Local Notation p := (params_32 (Z.of_nat s) (Z.of_nat s)).
Local Notation p128 := (params_128 (Z.of_nat s) (Z.of_nat s)).

Lemma bound32 : lp_b p = 84 * Z.of_nat s.
Proof using HS HB HD BD. unfold params_32, compute_B, u32. cbn [lp_b]. rewrite Z.mod_small; unfold w32; lia. Qed.
Lemma bound128 : lp_b p128 = 84 * Z.of_nat s.
Proof using HS HB HD BD. unfold params_128, compute_B, u32. cbn [lp_b]. rewrite Z.mod_small; unfold w32; lia. Qed.
Lemma deployed32 : deployment p db s s (Z.to_nat 1100).
Proof using HS HB HD BD. unfold deployment, params_32. cbn [lp_l lp_m lp_n]. conj_split; auto; lia. Qed.
Lemma deployed128 : deployment p128 db s s (Z.to_nat 4800).
Proof using HS HB HD BD. unfold deployment, params_128. cbn [lp_l lp_m lp_n]. conj_split; auto; lia. Qed.

(** the bit read in one repetition *)
Definition out32 (i j : nat) (c : lwe_coins) : Z :=
  if elem db i j =? 0 then 0 else if in_range32 (84 * Z.of_nat s) ((noise (c_noise c) db s j + le_dec (c_t c)) mod w32) then 0 else 1.

Lemma small_noise c k : length (c_noise c) = s -> Forall (fun g => Z.abs g <= 83) (c_noise c) -> (k < s)%nat -> Z.abs (noise (c_noise c) db s k) <= 83 * Z.of_nat s.
Proof using HS HB HD BD. intros. apply (noise_default (c_noise c) db s s 83); auto. Qed.

Lemma intn_ok v : go_intn (Z.of_nat s) v = Ok (Z.of_nat (Z.to_nat (v mod Z.of_nat s))) /\ (Z.to_nat (v mod Z.of_nat s) < s)%nat.
Proof using HS HB HD BD.
  unfold go_intn. destruct (Z.leb_spec (Z.of_nat s) 0); [lia|]. pose proof (Z.mod_pos_bound v (Z.of_nat s) ltac:(lia)). rewrite Z2Nat.id by lia. split; [auto|lia].
Qed.

Lemma once32 abytes dmem dg tECC d : let i := Z.to_nat (rd_i d mod Z.of_nat s) in let j := Z.to_nat (rd_j d mod Z.of_nat s) in
  let cs := map (rd_coins d) (range (repetitions tECC)) in
  lwe_digest w32 (new_random_of_bytes 1100 (Z.of_nat s) abytes dmem) db = Ok dg -> Forall (good_coins 4 (Z.to_nat 1100) abytes s) cs ->
  exists qs ans, Forall (fun m => exact_shape m 1 s /\ words w32 m) qs /\ Forall (fun m => exact_shape m 1 s /\ words w32 m) ans /\
    length qs = (2 * tECC + 1)%nat /\ length ans = (2 * tECC + 1)%nat /\
    lwe_once p abytes db dg tECC d = (v <- or_fatal (ecc_decode (map (out32 i j) cs)) ;; Ok (qs, ans, v)).
Proof using HS HB HD BD.
  intros i j cs ED F. destruct (intn_ok (rd_i d)) as (EI & Hi). destruct (intn_ok (rd_j d)) as (EJ & Hj). fold i in EI, Hi. fold j in EJ, Hj.
  assert (LC : length cs = (2 * tECC + 1)%nat). { unfold cs, range, repetitions. rewrite map_length, seq_length. lia. }
  assert (NE : cs <> []) by (intros X; rewrite X in LC; cbn in LC; lia).
  assert (FD : Forall (fun c => drawn 4 abytes c s (Z.to_nat 1100)) cs) by (eapply Forall_impl; [|exact F]; intros c (D & _); exact D).
  destruct (amplify_run p abytes dmem db s s (Z.to_nat 1100) i j deployed32 Hi Hj cs NE FD) as (dg' & sqs & ans & ED' & EQ & EA & L1 & L2 & R).
  assert (dg' = dg). { change (lp_n p) with 1100 in ED'. change (lp_l p) with (Z.of_nat s) in ED'. rewrite ED in ED'. injection ED' as ->. reflexivity. }
  subst dg'. exists (map snd sqs), ans. split.
  { apply (Forall_nth' _ _ mat0). intros k Hk. rewrite map_length in Hk. destruct (R k ltac:(lia) coin0 (st0, mat0) mat0) as (S1 & W1 & _).
    rewrite (nth_indep _ mat0 (snd (st0, mat0))) by (rewrite map_length; auto). rewrite map_nth. auto. }
  split. { apply (Forall_nth' _ _ mat0). intros k Hk. destruct (R k ltac:(lia) coin0 (st0, mat0) mat0) as (_ & _ & _ & S1 & W1 & _). auto. }
  split; [rewrite map_length; lia|]. split; [lia|].
  unfold lwe_once. destruct HD as ((Rd & Cd & _) & _). rewrite Rd, Cd, EI, EJ. cbn [bind]. fold cs. rewrite EQ. cbn [bind]. rewrite EA. cbn [bind].
  f_equal. f_equal. unfold amplify_reconstruct.
  change (amplify_outputs p (map fst sqs) ans 0) with (amplify_outputs p (map fst sqs) ([] ++ ans) (length (@nil matrix))).
  rewrite (outputs_ok p (map fst sqs) ans (map (out32 i j) cs) []); auto; try (rewrite map_length; lia).
  apply (Forall2_nth' _ (st0, mat0) 0). { rewrite combine_length, !map_length. lia. }
  intros k Hk. rewrite combine_length, map_length in Hk. rewrite nth_combine by (rewrite map_length; lia). cbn [fst snd].
  destruct (R k ltac:(lia) coin0 (st0, mat0) mat0) as (_ & _ & _ & _ & _ & E & _).
  rewrite (nth_indep _ st0 (fst (st0, mat0))) by (rewrite map_length; lia). rewrite map_nth, E.
  rewrite (nth_indep _ 0 (out32 i j coin0)) by (rewrite map_length; lia). rewrite map_nth.
  assert (IC : In (nth k cs coin0) cs) by (apply nth_In; lia). set (c := nth k cs coin0) in *.
  destruct (proj1 (Forall_forall _ _) F c IC) as (D & N83). pose proof (t_bound32 _ _ _ _ D) as Hb. unfold out32. rewrite bound32.
  assert (LN : length (c_noise c) = s) by apply D.
  rewrite (value_honest w32 (in_range32 (84 * Z.of_nat s)) (84 * Z.of_nat s - 1) (84 * Z.of_nat s - 1) db s s i j (noise (c_noise c) db s)); auto; try (unfold w32 in *; lia).
  - apply range32. unfold w32. lia.
  - intros l Hl. pose proof (small_noise c l LN N83 Hl). lia.
Qed.

Lemma out_far abytes i j c : (i < s)%nat -> (j < s)%nat -> good_coins 4 (Z.to_nat 1100) abytes s c -> ordinary_guess s c -> out32 i j c = elem db i j.
Proof using HS HB HD BD.
  intros Hi Hj (D & N83) T. unfold out32. destruct (elem_in (fun x => x = 0 \/ x = 1) db s s i j (proj1 HD) BD Hi Hj) as [E|E]; rewrite E; cbn [Z.eqb]; auto.
  pose proof (small_noise c j ltac:(apply D) N83 Hj). unfold ordinary_guess in T. rewrite (inr_far w32 _ (84 * Z.of_nat s - 1) (84 * Z.of_nat s - 1)); auto; try (unfold w32; lia).
  apply range32. unfold w32. lia.
Qed.
Lemma out_near abytes i j c : (j < s)%nat -> good_coins 4 (Z.to_nat 1100) abytes s c -> le_dec (c_t c) < Z.of_nat s -> out32 i j c = 0.
Proof using HS HB HD BD.
  intros Hj (D & N83) T. unfold out32. destruct (elem db i j =? 0); auto.
  pose proof (small_noise c j ltac:(apply D) N83 Hj). pose proof (t_bound32 _ _ _ _ D).
  rewrite (inr_small w32 _ (84 * Z.of_nat s - 1) (84 * Z.of_nat s - 1)); auto; try (unfold w32; lia).
  apply range32. unfold w32. lia.
Qed.

Lemma once32_far abytes dmem dg tECC d : let i := Z.to_nat (rd_i d mod Z.of_nat s) in let j := Z.to_nat (rd_j d mod Z.of_nat s) in
  let cs := map (rd_coins d) (range (repetitions tECC)) in
  lwe_digest w32 (new_random_of_bytes 1100 (Z.of_nat s) abytes dmem) db = Ok dg -> Forall (good_coins 4 (Z.to_nat 1100) abytes s) cs -> Forall (ordinary_guess s) cs ->
  exists qs ans, Forall (fun m => exact_shape m 1 s /\ words w32 m) qs /\ Forall (fun m => exact_shape m 1 s /\ words w32 m) ans /\
    length qs = (2 * tECC + 1)%nat /\ length ans = (2 * tECC + 1)%nat /\ lwe_once p abytes db dg tECC d = Ok (qs, ans, elem db i j).
Proof using HS HB HD BD.
  intros i j cs ED F T. destruct (once32 abytes dmem dg tECC d ED F) as (qs & ans & A & B & C & D & E). exists qs, ans. conj_split; auto.
  rewrite E. fold i j cs. assert (X : map (out32 i j) cs = repeat (elem db i j) (length cs)).
  { destruct (intn_ok (rd_i d)) as (_ & Hi). destruct (intn_ok (rd_j d)) as (_ & Hj). fold i in Hi. fold j in Hj. clear - F T Hi Hj HS HB HD BD.
    induction cs as [|c cs IH]; auto. inversion F; inversion T; subst. cbn [map length repeat]. f_equal; [eapply out_far; eauto|auto]. }
  rewrite X. replace (length cs) with (S (2 * tECC)) by (unfold cs, range, repetitions; rewrite map_length, seq_length; lia).
  rewrite (proj2 (decode_iff (repeat (elem db i j) (S (2 * tECC))) (elem db i j))). { reflexivity. }
  exists (repeat (elem db i j) (2 * tECC)). split; auto. rewrite occ_repeat, repeat_length. lia.
Qed.

Lemma map_const_repeat {A} (l : list A) : map (fun _ => 1) l = repeat 1 (length l).
Proof using. induction l; cbn; congruence. Qed.

(** the first repetition misread, all others right: the decoder finds no word *)
Lemma once32_abort abytes dmem dg tECC d : let i := Z.to_nat (rd_i d mod Z.of_nat s) in let j := Z.to_nat (rd_j d mod Z.of_nat s) in
  let cs := map (rd_coins d) (range (repetitions tECC)) in (0 < tECC)%nat ->
  lwe_digest w32 (new_random_of_bytes 1100 (Z.of_nat s) abytes dmem) db = Ok dg -> Forall (good_coins 4 (Z.to_nat 1100) abytes s) cs -> Forall (ordinary_guess s) (tl cs) ->
  le_dec (c_t (rd_coins d 0%nat)) < Z.of_nat s -> elem db i j = 1 -> exists e, lwe_once p abytes db dg tECC d = Fatal e.
Proof using HS HB HD BD.
  intros i j cs HT ED F T B0 E1. destruct (once32 abytes dmem dg tECC d ED F) as (qs & ans & _ & _ & _ & _ & E). rewrite E. fold i j cs.
  destruct (intn_ok (rd_i d)) as (_ & Hi). destruct (intn_ok (rd_j d)) as (_ & Hj). fold i in Hi. fold j in Hj.
  assert (EC : cs = rd_coins d 0%nat :: map (rd_coins d) (seq 1 (2 * tECC))).
  { unfold cs, range, repetitions. replace (tECC * 2 + 1)%nat with (S (2 * tECC)) by lia. reflexivity. }
  rewrite EC in F, T. cbn [tl] in T. inversion F as [|? ? G0 F']; subst.
  assert (X : map (out32 i j) cs = 0 :: repeat 1 (2 * tECC)).
  { rewrite EC. cbn [map]. rewrite (out_near abytes) by auto. f_equal.
    replace (2 * tECC)%nat with (length (map (rd_coins d) (seq 1 (2 * tECC)))) at 2 by (rewrite map_length, seq_length; auto).
    rewrite <- map_const_repeat. apply map_ext_in. intros c Hc. rewrite (out_far abytes i j c), E1; auto.
    apply (proj1 (Forall_forall _ _) F' c Hc). apply (proj1 (Forall_forall _ _) T c Hc). }
  rewrite X. destruct (ecc_decode (0 :: repeat 1 (2 * tECC))) as [v|e|e|e] eqn:DE.
  - exfalso. apply decode_iff in DE as (rest & ER & O). injection ER as <- <-. revert O. unfold occurrences. cbn [count_occ length]. destruct (Z.eq_dec 0 0); [|congruence].
    assert (Z0 : forall n, count_occ Z.eq_dec (repeat 1 n) 0 = 0%nat). { induction n; cbn [repeat count_occ]; auto. }
    rewrite Z0, repeat_length. lia.
  - exists e. reflexivity.
  - rewrite decode_cases in DE by discriminate. cbn [hd] in DE. destruct (_ <? _)%nat; discriminate.
  - rewrite decode_cases in DE by discriminate. cbn [hd] in DE. destruct (_ <? _)%nat; discriminate.
Qed.

(** 128 bits *)
Lemma noise_upper l k : length l = s -> Forall (fun g => Z.abs g <= 83) l -> (k < s)%nat -> noise (map stored_sample l) db s k <= 83 * Z.of_nat s.
Proof using HS HB HD BD.
  intros LN N83 Hk. unfold noise.
  assert (G : forall n, (n <= s)%nat -> sum_to n (fun r => nth r (map stored_sample l) 0 * elem db r k) <= 83 * Z.of_nat n).
  { induction n; intros Hn. unfold sum_to. cbn. lia. rewrite sum_to_S. specialize (IHn ltac:(lia)).
    assert (HA : nth n (map stored_sample l) 0 <= 83).
    { rewrite (nth_indep _ 0 (stored_sample 0)) by (rewrite map_length; lia). rewrite map_nth.
      assert (HIn : In (nth n l 0) l) by (apply nth_In; lia). pose proof (proj1 (Forall_forall _ _) N83 _ HIn) as X. cbv beta in X.
      unfold stored_sample. destruct (_ <? 0); lia. }
    destruct (elem_in (fun x => x = 0 \/ x = 1) db s s n k (proj1 HD) BD ltac:(lia) Hk) as [E|E]; rewrite E; lia. }
  apply G. lia.
Qed.
Lemma once128 abytes dg d : let i := Z.to_nat (rd_i d mod Z.of_nat s) in let j := Z.to_nat (rd_j d mod Z.of_nat s) in let c := rd_coins d 0%nat in
  lwe_digest w128 (new_random128_of_bytes 4800 (Z.of_nat s) abytes) db = Ok dg -> good_coins 16 (Z.to_nat 4800) abytes s c ->
  exists q a, exact_shape q 1 s /\ words w128 q /\ exact_shape a 1 s /\ words w128 a /\
    lwe128_once p128 abytes db dg d = Ok (q, a, if elem db i j =? 0 then 0 else
      if in_range128 (84 * Z.of_nat s) ((noise (map stored_sample (c_noise c)) db s j + le_dec (c_t c)) mod w128) then 0 else 1).
Proof using HS HB HD BD.
  intros i j c ED (DR & N83). destruct (intn_ok (rd_i d)) as (EI & Hi). destruct (intn_ok (rd_j d)) as (EJ & Hj). fold i in EI, Hi. fold j in EJ, Hj.
  pose proof (t_bound128 _ _ _ _ DR) as Hb. destruct DR as (BA & LA & BT & LT & BS & LS & LN).
  destruct (random128_shape (Z.to_nat 4800) s abytes ltac:(lia) HS BA ltac:(lia)) as (SA & WA). rewrite Z2Nat.id in SA, WA by lia.
  destruct (random128_shape 1 1 (c_t c) ltac:(lia) ltac:(lia) BT ltac:(lia)) as ((ST & _) & _).
  destruct (random128_shape 1 (Z.to_nat 4800) (c_secret c) ltac:(lia) ltac:(lia) BS ltac:(lia)) as (SS & _). rewrite Z2Nat.id in SS by lia.
  destruct (gauss_shape gauss128_word s (c_noise c) HS LN) as (SE & NE).
  assert (NT : elem (new_random128_of_bytes 1 1 (c_t c)) 0 0 = le_dec (c_t c)).
  { unfold elem, new_random128_of_bytes. rewrite chunks_one by (auto; lia). reflexivity. }
  destruct (honest_run 128 p128 (new_random128_of_bytes 4800 (Z.of_nat s) abytes) (new_random128_of_bytes 4800 (Z.of_nat s) abytes)
    db (new_random128_of_bytes 1 1 (c_t c)) (new_random128_of_bytes 1 4800 (c_secret c)) (new_gauss128_of 1 (Z.of_nat s) (c_noise c))
    s (Z.to_nat 4800) s i j ltac:(lia) eq_refl eq_refl (exact_stored _ _ _ _ SA) (exact_stored _ _ _ _ SA) ltac:(auto) WA HD BD ST (exact_stored _ _ _ _ SS) SE Hi Hj)
    as (dg' & st & q & a & ED' & EQ & SQ & WQ & EAn & SAn & WAn & R1 & _).
  change (2 ^ 128) with w128 in *. assert (dg' = dg). { rewrite ED in ED'. injection ED' as ->. reflexivity. } subst dg'.
  exists q, a. conj_split; auto; try apply SQ; try apply SAn.
  unfold lwe128_once. destruct HD as ((Rd & Cd & _) & _). rewrite Rd, Cd, EI, EJ. cbn [bind]. unfold lwe_query_coins128. change (lp_n p128) with 4800. change (lp_l p128) with (Z.of_nat s).
  fold c. rewrite EQ. cbn [bind fst snd]. rewrite EAn. cbn [bind]. unfold lwe_reconstruct128. rewrite R1, NT, bound128.
  assert (FR : Forall (fun g => - 2 ^ 63 <= g < 2 ^ 63) (c_noise c)) by (eapply Forall_impl; [|exact N83]; cbv beta; intros; lia).
  assert (NM : forall k, noise_at s (new_gauss128_of 1 (Z.of_nat s) (c_noise c)) db k mod w128 = noise (map stored_sample (c_noise c)) db s k mod w128).
  { intros k. rewrite <- noise128 by auto. apply noise_mod; auto. reflexivity. intros r Hr; unfold new_gauss128_of; rewrite NE by auto; auto. }
  match goal with |- context [or_fatal (bind (mapM ?f _) _)] =>
    rewrite (mapM_ext f (fun k => decode_one w128 (in_range128 (84 * Z.of_nat s)) (le_dec (c_t c)) ((noise (map stored_sample (c_noise c)) db s k + le_dec (c_t c) * elem db i k) mod w128)))
  end.
  2:{ intros k _. f_equal. rewrite <- Z.add_mod_idemp_l by (unfold w128; lia). rewrite NM. apply Z.add_mod_idemp_l. unfold w128; lia. }
  assert (HBW : w32 < w128) by reflexivity.
  pose proof (value_honest w128 (in_range128 (84 * Z.of_nat s)) (84 * Z.of_nat s + 1) (84 * Z.of_nat s - 1) db s s i j (noise (map stored_sample (c_noise c)) db s) (le_dec (c_t c))) as V.
  unfold LWEProofs2.session_value in V. rewrite V; auto; try (unfold w32 in *; lia).
  - apply range128; unfold w32; lia.
  - intros k Hk.
    assert (L84 : Z.abs (noise (map stored_sample (c_noise c)) db s k) <= 84 * Z.of_nat s).
    { apply (noise_default (map stored_sample (c_noise c)) db s s 84); auto. rewrite map_length; auto.
      apply Forall_map. eapply Forall_impl; [|exact N83]. cbv beta. intros g Hg. unfold stored_sample. destruct (g <? 0); lia. }
    assert (U : noise (map stored_sample (c_noise c)) db s k <= 83 * Z.of_nat s).
    { apply noise_upper; auto. }
    lia.
Qed.
End Lattice.
