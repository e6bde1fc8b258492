(** Proofs about the glue code. *)
From Coq Require Import String ZArith List Bool Lia Permutation.
From Verif Require Import GoBase BaseFacts FieldModel FSSModel EncodingModel MerkleModel MerkleSpec MerkleProofs PredicateModel PredicateSpec
  EncodingProofs FSSProofs PredicateProofs PredicateProofs2 PredicateProofs3 PredicateProofs4 FrontendModel FrontendSpec.
Import ListNotations.
Open Scope Z_scope.
Open Scope go_scope.

(** ** decimal numbers *)
Lemma digit_of d : 0 <= d < 10 -> digit (48 + d) = Some d.
Proof.
  intros B. unfold digit. destruct (Z.leb_spec 48 (48 + d)); [|lia]. destruct (Z.leb_spec (48 + d) 57); [|lia]. cbn [andb]. f_equal. lia.
Qed.

Lemma digits_decimal : forall f v t, 0 <= v < 10 ^ Z.of_nat f -> digits 0 (decimal f v ++ t) = digits v t.
Proof.
  induction f as [|f IH]; intros v t B.
  - change (10 ^ Z.of_nat 0) with 1 in B. assert (v = 0) by lia. subst. reflexivity.
  - cbn [decimal]. destruct (Z.ltb_spec v 10) as [L|L].
    + cbn [app digits]. rewrite Z.mod_small by lia. rewrite digit_of by lia. rewrite Z.mul_0_r, Z.add_0_l. auto.
    + rewrite <- app_assoc. rewrite IH.
      * cbn [app digits]. rewrite digit_of by (apply Z.mod_pos_bound; lia). f_equal. rewrite <- Z.div_mod; lia.
      * rewrite Nat2Z.inj_succ, Z.pow_succ_r in B by lia. split; [apply Z.div_pos; lia|apply Z.div_lt_upper_bound; lia].
Qed.

Lemma decimal_head f v : 0 <= v -> exists d t, decimal (S f) v = d :: t /\ 48 <= d <= 57.
Proof.
  revert v. induction f as [|f IH]; intros v P.
  - cbn [decimal]. pose proof (Z.mod_pos_bound v 10 ltac:(lia)). destruct (v <? 10); cbn [app]; eexists _, _; split; eauto; lia.
  - remember (S f) as g. cbn [decimal]. pose proof (Z.mod_pos_bound v 10 ltac:(lia)). destruct (v <? 10).
    + cbn [app]; eexists _, _; split; eauto; lia.
    + destruct (IH (v / 10)) as (d & t & E & B); [apply Z.div_pos; lia|]. rewrite E. cbn [app]. eauto.
Qed.

Lemma atoi_itoa v : - 2 ^ 63 <= v < 2 ^ 63 -> atoi (itoa v) = Some v.
Proof.
  intros B. assert (P20 : 10 ^ Z.of_nat 20 = 100000000000000000000) by reflexivity.
  assert (P63 : 2 ^ 63 = 9223372036854775808) by reflexivity. rewrite P63 in B.
  assert (D : forall w, 0 <= w <= 9223372036854775808 -> digits 0 (decimal 20 w) = Some w).
  { intros w W. rewrite <- (app_nil_r (decimal 20 w)). rewrite digits_decimal by lia. reflexivity. }
  unfold itoa. destruct (Z.ltb_spec v 0) as [N|N].
  - unfold atoi. destruct (decimal_head 19 (- v)) as (d & t & E & _); [lia|]. cbv beta iota. rewrite E. rewrite <- E, D by lia.
    rewrite P63, Z.opp_involutive. destruct (Z.leb_spec (- (9223372036854775808)) v); [|lia]. destruct (Z.ltb_spec v 9223372036854775808); [|lia]. reflexivity.
  - destruct (decimal_head 19 v N) as (d & t & E & R). unfold atoi.
    assert (S : match decimal 20 v with 43 :: t => (false, t) | 45 :: t => (true, t) | _ => (false, decimal 20 v) end = (false, decimal 20 v)).
    { rewrite E. clear - R. assert (C : d = 48 \/ d = 49 \/ d = 50 \/ d = 51 \/ d = 52 \/ d = 53 \/ d = 54 \/ d = 55 \/ d = 56 \/ d = 57) by lia.
      intuition; subst; reflexivity. }
    rewrite S. rewrite D by lia. rewrite E, P63. destruct (Z.leb_spec (- (9223372036854775808)) v); [|lia].
    destruct (Z.ltb_spec v 9223372036854775808); [|lia]. reflexivity.
Qed.

Lemma itoa_inj v w : - 2 ^ 63 <= v < 2 ^ 63 -> - 2 ^ 63 <= w < 2 ^ 63 -> itoa v = itoa w -> v = w.
Proof. intros A B E. apply (f_equal atoi) in E. rewrite !atoi_itoa in E by auto. congruence. Qed.

Lemma digits_value d : Forall (fun c => 48 <= c <= 57) d ->
  forall acc, digits acc d = Some (fold_left (fun a c => 10 * a + (c - 48)) d acc).
Proof.
  induction 1 as [|c d B _ IH]; intros acc; [reflexivity|]. cbn [digits fold_left]. unfold digit.
  destruct (Z.leb_spec 48 c); [|lia]. destruct (Z.leb_spec c 57); [|lia]. cbn [andb]. apply IH.
Qed.

Lemma atoi_decimal d v : decimal_of d v -> 0 <= v < 2 ^ 63 -> atoi d = Some v.
Proof.
  intros (F & V & N & _) B. pose proof (digits_value d F 0) as D. rewrite V in D.
  destruct d as [|c d]; [congruence|]. inversion F as [|? ? R _]; subst x l. unfold atoi.
  assert (S : match c :: d with 43 :: t => (false, t) | 45 :: t => (true, t) | _ => (false, c :: d) end = (false, c :: d)).
  { assert (C : c = 48 \/ c = 49 \/ c = 50 \/ c = 51 \/ c = 52 \/ c = 53 \/ c = 54 \/ c = 55 \/ c = 56 \/ c = 57) by lia.
    clear - C. intuition; subst; reflexivity. }
  rewrite S, D. change (2 ^ 63) with 9223372036854775808 in *.
  destruct (Z.leb_spec (- (9223372036854775808)) v); [|lia]. destruct (Z.ltb_spec v 9223372036854775808); [|lia]. reflexivity.
Qed.

Lemma decimal_digits f : forall v, 0 <= v -> Forall (fun c => 48 <= c <= 57) (decimal f v).
Proof.
  induction f as [|f IH]; intros v P; cbn [decimal]; [constructor|]. pose proof (Z.mod_pos_bound v 10 ltac:(lia)).
  apply Forall_app. split; [|constructor; [lia|constructor]].
  destruct (v <? 10); [constructor|]. apply IH. apply Z.div_pos; lia.
Qed.

Lemma decimal_no_zero f : forall v, 0 < v < 10 ^ Z.of_nat f -> hd 0 (decimal f v) <> 48.
Proof.
  induction f as [|f IH]; intros v B; [change (10 ^ Z.of_nat 0) with 1 in B; lia|].
  cbn [decimal]. destruct (Z.ltb_spec v 10) as [L|L].
  - cbn [app hd]. rewrite Z.mod_small by lia. lia.
  - rewrite Nat2Z.inj_succ, Z.pow_succ_r in B by lia.
    assert (P : 0 < v / 10 < 10 ^ Z.of_nat f).
    { split; [apply Z.div_str_pos; lia|apply Z.div_lt_upper_bound; lia]. }
    specialize (IH _ P). destruct (decimal f (v / 10)) as [|c t] eqn:E; [|exact IH].
    destruct f as [|f]; [change (10 ^ Z.of_nat 0) with 1 in P; lia|].
    cbn [decimal] in E. destruct (v / 10 <? 10); [discriminate|]. destruct (decimal f (v / 10 / 10)); discriminate.
Qed.

Lemma itoa_decimal v : 0 <= v < 2 ^ 63 -> decimal_of (itoa v) v.
Proof.
  intros B. assert (P20 : 10 ^ Z.of_nat 20 = 100000000000000000000) by reflexivity.
  assert (P63 : 2 ^ 63 = 9223372036854775808) by reflexivity. rewrite P63 in B.
  unfold itoa. destruct (Z.ltb_spec v 0); [lia|].
  assert (F : Forall (fun c => 48 <= c <= 57) (decimal 20 v)) by (apply decimal_digits; lia).
  repeat split; auto.
  - pose proof (digits_value _ F 0) as D. rewrite <- (app_nil_r (decimal 20 v)) in D at 1.
    rewrite digits_decimal in D by lia. cbn [digits] in D. congruence.
  - destruct (decimal_head 19 v) as (d & t & E & _); [lia|]. rewrite E. discriminate.
  - intros Z0. destruct (Z.eq_dec v 0) as [->|NZ]; [reflexivity|]. exfalso. revert Z0. apply decimal_no_zero. lia.
Qed.

(** ** configuration *)
Lemma nth_error_ext {A} : forall l l' : list A, (forall i, nth_error l i = nth_error l' i) -> l = l'.
Proof.
  induction l as [|a l IH]; intros [|b l'] E; auto; try (specialize (E O); discriminate E).
  f_equal; [specialize (E O); cbn in E; congruence|apply IH; intros i; apply (E (S i))].
Qed.

Lemma fill_spec : forall es addrs n,
  length addrs = n -> NoDup (map (fun e => atoi (e_key e)) es) ->
  Forall (fun e => exists i, (i < n)%nat /\ atoi (e_key e) = Some (Z.of_nat i)) es ->
  exists out, fill es addrs = Ok out /\ length out = n /\
    (forall e i, In e es -> atoi (e_key e) = Some (Z.of_nat i) -> nth_error out i = Some (address e)) /\
    (forall i, ~ In (Some (Z.of_nat i)) (map (fun e => atoi (e_key e)) es) -> nth_error out i = nth_error addrs i).
Proof.
  induction es as [|e es IH]; intros addrs n L ND F.
  - exists addrs. cbn. repeat split; auto. intros e i [].
  - cbn [map] in ND. apply NoDup_cons_iff in ND as [NI ND]. pose proof (Forall_inv F) as (i & Li & Ei). apply Forall_inv_tail in F.
    cbn [fill]. rewrite Ei. unfold go_store.
    replace ((0 <=? Z.of_nat i) && (Z.of_nat i <? zlen addrs)) with true
      by (symmetry; apply andb_true_intro; split; [apply Z.leb_le; lia|apply Z.ltb_lt; unfold zlen; lia]).
    cbn [bind]. rewrite Nat2Z.id.
    destruct (IH (upd addrs i (address e)) n) as (out & O1 & O2 & O3 & O4); [rewrite upd_length; auto|auto|auto|].
    exists out. split; auto. split; auto. split.
    + intros x j [<-|I] Ej.
      * rewrite Ej in Ei. assert (j = i) by (injection Ei; lia). subst j. rewrite O4 by (rewrite <- Ej; auto).
        rewrite nth_error_upd_eq by lia. auto.
      * auto.
    + intros j NJ. cbn [map In] in NJ. rewrite O4 by (intros I; apply NJ; auto).
      rewrite nth_error_upd_neq; auto. intros ->. apply NJ. left. auto.
Qed.

Lemma numbered_ok es : Permutation (map (fun e => atoi (e_key e)) es) (map (fun i => Some (Z.of_nat i)) (seq 0 (length es))) ->
  NoDup (map (fun e => atoi (e_key e)) es) /\
  Forall (fun e => exists i, (i < length es)%nat /\ atoi (e_key e) = Some (Z.of_nat i)) es.
Proof.
  intros P. split.
  - apply (Permutation_NoDup (Permutation_sym P)). apply FinFun.Injective_map_NoDup; [|apply seq_NoDup]. intros a b E. injection E. lia.
  - apply Forall_forall. intros e I. assert (J : In (atoi (e_key e)) (map (fun i => Some (Z.of_nat i)) (seq 0 (length es)))).
    { apply (Permutation_in _ P). apply in_map_iff. eauto. }
    apply in_map_iff in J as (i & E & I'). apply in_seq in I'. exists i. split; [lia|auto].
Qed.

Lemma load_config_ok es : Permutation (map (fun e => atoi (e_key e)) es) (map (fun i => Some (Z.of_nat i)) (seq 0 (length es))) ->
  exists addrs, length addrs = length es /\
    (forall e i, In e es -> atoi (e_key e) = Some (Z.of_nat i) -> nth_error addrs i = Some (address e)) /\
    forall es', Permutation es es' -> load_config es' = Ok addrs.
Proof.
  intros P. destruct (numbered_ok es P) as [ND F].
  destruct (fill_spec es (repeat [] (length es)) (length es) (repeat_length _ _) ND F) as (out & O1 & O2 & O3 & O4).
  exists out. split; auto. split; auto. intros es' P'.
  assert (L : length es' = length es) by (symmetry; apply Permutation_length; auto).
  assert (P2 : Permutation (map (fun e => atoi (e_key e)) es') (map (fun i => Some (Z.of_nat i)) (seq 0 (length es')))).
  { rewrite L. eapply perm_trans; [|exact P]. apply Permutation_map. apply Permutation_sym. auto. }
  destruct (numbered_ok es' P2) as [ND' F'].
  destruct (fill_spec es' (repeat [] (length es')) (length es') (repeat_length _ _) ND' F') as (out' & Q1 & Q2 & Q3 & Q4).
  unfold load_config. rewrite Q1. f_equal. apply nth_error_ext. intros i.
  destruct (Nat.lt_ge_cases i (length es)) as [B|B].
  - assert (I : In (Some (Z.of_nat i)) (map (fun e => atoi (e_key e)) es)).
    { apply (Permutation_in _ (Permutation_sym P)). apply in_map_iff. exists i. split; auto. apply in_seq. lia. }
    apply in_map_iff in I as (e & Ee & Ie). rewrite (O3 e i Ie Ee), (Q3 e i (Permutation_in _ P' Ie) Ee). auto.
  - transitivity (@None (list Z)); [|symmetry]; apply nth_error_None; lia.
Qed.

Lemma fill_length : forall es addrs out, fill es addrs = Ok out -> length out = length addrs.
Proof.
  induction es as [|e es IH]; intros addrs out E; cbn [fill] in E; [congruence|].
  destruct (atoi (e_key e)) as [i|]; [|discriminate]. unfold go_store in E. destruct ((0 <=? i) && (i <? zlen addrs)); [|discriminate].
  cbn [bind] in E. rewrite (IH _ _ E), upd_length. auto.
Qed.

Lemma load_config_bad_index es e i : In e es -> atoi (e_key e) = Some i -> i < 0 \/ zlen es <= i ->
  forall es', Permutation es es' -> match load_config es' with Ok _ => False | _ => True end.
Proof.
  intros I E B es' P. assert (L : zlen es' = zlen es) by (unfold zlen; rewrite (Permutation_length P); auto).
  apply (Permutation_in _ P) in I. unfold load_config. rewrite <- L in B.
  assert (LR : zlen es' = zlen (repeat (@nil Z) (length es'))) by (unfold zlen; rewrite repeat_length; auto).
  rewrite LR in B. clear L LR P. revert B I. generalize (repeat (@nil Z) (length es')). induction es' as [|x t IH]; intros addrs B I; [destruct I|].
  cbn [fill]. destruct (atoi (e_key x)) as [j|] eqn:Ej; [|auto]. unfold go_store.
  destruct ((0 <=? j) && (j <? zlen addrs)) eqn:C; [|exact Logic.I]. cbn [bind]. destruct I as [<-|I].
  - rewrite E in Ej. injection Ej as <-. apply andb_true_iff in C as [C1 C2]. apply Z.leb_le in C1. apply Z.ltb_lt in C2. lia.
  - apply IH; auto. unfold zlen in *. rewrite upd_length. auto.
Qed.

(** ** database information *)
Lemma collect_some {A} (l : list A) : collect (map Some l) = Ok l.
Proof. induction l as [|a l IH]; cbn; auto. rewrite IH. auto. Qed.

Lemma same_shape_eq a b : same_shape a b = true <-> di_rows a = di_rows b /\ di_cols a = di_cols b /\ di_bs a = di_bs b.
Proof. unfold same_shape. rewrite !andb_true_iff, !Z.eqb_eq. tauto. Qed.

Lemma equal_db_info_spec l : equal_db_info l = true <-> forall a b, In a l -> In b l -> same_shape a b = true.
Proof.
  destruct l as [|x l]; cbn [equal_db_info]. { split; auto. }
  rewrite forallb_forall. split.
  - intros F a b Ia Ib. pose proof (F a Ia) as A. pose proof (F b Ib) as B. rewrite same_shape_eq in *. intuition congruence.
  - intros F b I. apply F; auto. left. auto.
Qed.

(** ** one exchange with two servers *)
Section Two.
Context {C : Type} (enc : cipher) (H : hash_fn) (e : nat) (alphas : list Z) (r : gen_rand)
        (serve : C -> qinfo * fss_key -> option (list Z)) (c0 c1 : C) (now0 now1 : nat -> Z) (fresh0 fresh1 : freshes)
        (db : list key_info) (arrive : list (list Z) -> list (list Z)).

Lemma perm_two {A} (x y : A) l : Permutation [x; y] l -> l = [x; y] \/ l = [y; x].
Proof.
  intros P. pose proof (Permutation_length P) as L. destruct l as [|a [|b [|? ?]]]; try discriminate.
  apply Permutation_length_2 in P. destruct P as [[-> ->]|[-> ->]]; auto.
Qed.

Lemma exchange_answers q inp k0 k1 fg a0 f0 a1 f1 sn0 sn1 :
  honest enc H e db serve c0 sn0 now0 fresh0 -> honest enc H e db serve c1 sn1 now1 fresh1 -> some_order arrive ->
  client_query enc e alphas r inp 2 = Ok (k0, k1, fg) ->
  answer enc H e sn0 db (length db) now0 fresh0 (Some q) k0 = Ok (a0, f0) ->
  answer enc H e sn1 db (length db) now1 fresh1 (Some q) k1 = Ok (a1, f1) ->
  length a0 = length a1 -> Forall reduced a0 -> Forall reduced a1 ->
  exchange enc e alphas r serve [c0; c1] arrive 2 q inp = reconstruct e alphas [a0; a1].
Proof.
  intros H0 H1 SO EQ A B L R0 R1. unfold exchange. rewrite EQ. cbn [bind].
  cbn [send_all]. change (go_index [(q, k0); (q, k1)] 0) with (@Ok (qinfo * fss_key) (q, k0)). cbn [bind].
  rewrite H0. unfold answer_bytes. rewrite A. cbn [bind fst].
  change (go_index [(q, k0); (q, k1)] (0 + 1)) with (@Ok (qinfo * fss_key) (q, k1)). cbn [bind].
  rewrite H1. unfold answer_bytes. rewrite B. cbn [bind fst].
  destruct (perm_two _ _ _ (SO [uint32_slice_to_bytes a0; uint32_slice_to_bytes a1])) as [->| ->].
  - apply rec_bytes; auto.
  - rewrite rec_bytes by auto. apply reconstruct_sym. auto.
Qed.

Lemma exchange_count rq inp :
  cipher_ok enc -> hash_ok H -> rand_ok r -> e = S (length alphas) -> (e < 20)%nat -> Forall reduced alphas ->
  request_ok rq -> Forall record_ok db -> readable rq db ->
  honest enc H e db serve c0 0 now0 fresh0 -> honest enc H e db serve c1 1 now1 fresh1 -> some_order arrive ->
  request_input H rq = Ok inp -> unresampled enc H e alphas r 0 1 now0 now1 fresh0 fresh1 db (request_info rq) inp ->
  exchange enc e alphas r serve [c0; c1] arrive 2 (request_info rq) inp = Ok (count_matching (selects H rq) db mod ModP).
Proof.
  intros He HH Hr HE H20 Ha HR HD HF S0 S1 SO EI (out & UR).
  destruct (honest_shares enc H e alphas r now0 now1 fresh0 fresh1 db rq He HH Hr HE H20 Ha HR HD HF)
    as (inp' & k0 & k1 & fg & a0 & f0 & a1 & f1 & EI' & EQ & A & B & S).
  assert (inp' = inp) by congruence. subst inp'. unfold run in UR. rewrite EQ in UR. cbn [bind] in UR. rewrite A in UR. cbn [bind] in UR.
  rewrite B in UR. cbn [bind fst snd] in UR. assert (F : fg || f0 || f1 = false) by congruence. specialize (S F).
  pose proof S as (L0 & L1 & R0 & R1 & _).
  rewrite (exchange_answers _ _ _ _ _ _ _ _ _ 0 1 S0 S1 SO EQ A B) by (auto; congruence). apply rec_count_shared; auto.
Qed.

Lemma exchange_swapped rq inp :
  cipher_ok enc -> hash_ok H -> rand_ok r -> e = S (length alphas) -> (e < 20)%nat -> Forall reduced alphas ->
  request_ok rq -> Forall record_ok db -> readable rq db ->
  honest enc H e db serve c0 1 now0 fresh0 -> honest enc H e db serve c1 0 now1 fresh1 -> some_order arrive ->
  request_input H rq = Ok inp -> unresampled enc H e alphas r 1 0 now0 now1 fresh0 fresh1 db (request_info rq) inp ->
  exchange enc e alphas r serve [c0; c1] arrive 2 (request_info rq) inp = Ok ((- count_matching (selects H rq) db) mod ModP).
Proof.
  intros He HH Hr HE H20 Ha HR HD HF S0 S1 SO EI (out & UR).
  destruct (request_ids H rq db HH HR HD HF) as (inp' & EI' & HT & HM). assert (inp' = inp) by congruence. subst inp'.
  destruct (generate_ok enc e inp alphas r He Hr HE H20 Ha) as (k0 & k1 & fg & G).
  pose proof (swapped_pair enc e inp (payload alphas) r k0 k1 fg He Hr ltac:(cbn [payload length]; lia) H20
                (payload_reduced _ Ha) G) as HK.
  destruct (honest_pair enc H e inp _ rq 1 0 k0 k1 fg now0 now1 fresh0 fresh1 db HR HT HM HK)
    as (a0 & f0 & a1 & f1 & A & B & _ & _ & S).
  assert (EQ : client_query enc e alphas r inp 2 = Ok (k0, k1, fg)) by (unfold client_query; cbn [Z.eqb negb Pos.eqb]; exact G).
  unfold run in UR. rewrite EQ in UR. cbn [bind] in UR. rewrite A in UR. cbn [bind] in UR.
  rewrite B in UR. cbn [bind fst snd] in UR. assert (F : fg || f0 || f1 = false) by congruence.
  apply orb_false_iff in F as [F F1]. apply orb_false_iff in F as [F F0].
  specialize (S F F0 F1). apply shared_opp in S; auto. pose proof S as (L0 & L1 & R0 & R1 & _).
  rewrite (exchange_answers _ _ _ _ _ _ _ _ _ 1 0 S0 S1 SO EQ A B) by (auto; congruence). apply rec_count_shared; auto.
Qed.

Lemma exchange_avg q text inp year :
  cipher_ok enc -> hash_ok H -> rand_ok r -> e = S (length alphas) -> (e < 20)%nat -> Forall reduced alphas ->
  avg_query q -> text_long_enough q text -> bytes text -> Forall record_ok db ->
  email_id_bytes q <= 32 \/ Forall (fun ki => ascii (ki_email ki)) db ->
  (forall i, now0 i = year) -> (forall i, now1 i = year) -> year < 2 ^ 33 ->
  honest enc H e db serve c0 0 now0 fresh0 -> honest enc H e db serve c1 1 now1 fresh1 -> some_order arrive ->
  to_email_client H q text = Ok inp -> unresampled enc H e alphas r 0 1 now0 now1 fresh0 fresh1 db q inp ->
  let c := count_matching (avg_selects H q text year) db in
  let s := zsum (ages year (filter (avg_selects H q text year) db)) in
  exchange enc e alphas r serve [c0; c1] arrive 2 q inp =
    if c mod ModP =? 0 then Panic "integer divide by zero" else Ok ((s mod ModP) / (c mod ModP)).
Proof.
  intros He HH Hr HE H20 Ha HQ HT HB HD HF N0 N1 HY S0 S1 SO EI (out & UR) c s.
  destruct (honest_avg enc H e alphas r now0 now1 year fresh0 fresh1 db q text He HH Hr HE H20 Ha HQ HT HB HD HF N0 N1 HY)
    as (inp' & k0 & k1 & fg & x0 & s0 & f0 & x1 & s1 & f1 & EI' & EQ & A & B & S).
  assert (inp' = inp) by congruence. subst inp'. unfold run in UR. rewrite EQ in UR. cbn [bind] in UR. rewrite A in UR. cbn [bind] in UR.
  rewrite B in UR. cbn [bind fst snd] in UR. assert (F : fg || f0 || f1 = false) by congruence.
  destruct (S F) as [T1 T2]. pose proof T1 as (L0 & L1 & R0 & R1 & _). pose proof T2 as (M0 & M1 & Q0 & Q1 & _).
  rewrite (exchange_answers _ _ _ _ _ _ _ _ _ 0 1 S0 S1 SO EQ A B).
  - apply rec_avg_shared; auto.
  - rewrite !app_length. congruence.
  - apply Forall_app; auto.
  - apply Forall_app; auto.
Qed.
End Two.

(** ** web pages *)
Lemma is_prefix_all text email : is_prefix (first_bytes (zlen text) text) email = is_prefix text email.
Proof. unfold first_bytes, zlen. rewrite Nat2Z.id, firstn_all. auto. Qed.
Lemma is_suffix_all text email : is_suffix (last_bytes (zlen text) text) email = is_suffix text email.
Proof. unfold last_bytes, zlen. rewrite Nat2Z.id, Nat.sub_diag. auto. Qed.

Lemma count_bound f db : 0 <= count_matching f db <= zlen db.
Proof. unfold count_matching, zlen. split; [lia|]. induction db as [|x t IH]; cbn [filter length]; [lia|]. destruct (f x); cbn [length] in *; lia. Qed.

Lemma count_ext f g db : (forall ki, f ki = g ki) -> count_matching f db = count_matching g db.
Proof. intros E. unfold count_matching. erewrite filter_ext; eauto. Qed.
