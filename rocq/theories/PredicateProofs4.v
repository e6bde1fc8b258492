(** Cheating servers, answer order, malformed queries and answers. *)
From Coq Require Import String ZArith List Bool Lia Znumtheory.
From Verif Require Import GoBase BaseFacts FieldModel FSSModel EncodingModel MerkleModel MerkleSpec PredicateModel PredicateSpec
  FieldProofs XorFacts FSSProofs EncodingProofs MerkleProofs CalendarProofs PredicateProofs PredicateProofs2 PredicateProofs3.
Import ListNotations.
Open Scope Z_scope.

(** ** linear equations have at most one solution *)
Lemma one_solution A B : exists z, forall al, 0 <= al < ModP -> ~ cong A 0 -> cong (al * A) B -> al = z.
Proof.
  destruct (Z.eq_dec (A mod ModP) 0) as [E|E].
  - exists 0. intros al _ N. exfalso. apply N. unfold cong. rewrite E. reflexivity.
  - assert (R : rel_prime A ModP).
    { apply rel_prime_sym, prime_rel_prime; [apply ModP_prime|]. intros D. apply E, Z.mod_divide; [discriminate|auto]. }
    destruct (rel_prime_bezout _ _ R) as [u v BZ].
    exists ((B * u) mod ModP). intros al Ha _ HC.
    apply cong_reduced; auto using mod_range.
    eapply cong_trans; [|apply cong_sym, cong_mod].
    eapply cong_trans with (al * A * u); [|apply cong_mul; [auto|apply cong_refl]].
    apply modP_intro with (al * v). nia.
Qed.

Lemma w32_cong : cong w32 2. Proof. reflexivity. Qed.

(** the client's sum of a reduced and an arbitrary word *)
Lemma u32_sum_wrap a b : 0 <= a < ModP -> is_u32 b ->
  exists w, (w = 0 \/ w = 1) /\ cong (u32 (a + b)) (a + b - 2 * w) /\ (a + b < w32 -> w = 0).
Proof.
  intros Ha Hb. unfold is_u32 in Hb. unfold u32. rewrite ModP_val in Ha.
  destruct (Z_lt_le_dec (a + b) w32) as [L|L].
  - exists 0. split; auto. split; [|auto]. rewrite Z.mod_small by lia. apply cong_eq. lia.
  - exists 1. split; auto. split; [|lia].
    assert (E : (a + b) mod w32 = a + b - w32).
    { symmetry. apply Z.mod_unique with 1; unfold w32 in *; lia. }
    rewrite E. apply cong_sub. apply cong_refl. apply w32_cong.
Qed.

(** acceptance of a COUNT with a modified answer gives one linear equation per tag *)
Lemma accept_equations e alphas c a0 a1 a1' v d0 :
  e = S (length alphas) -> Forall reduced alphas ->
  shared e (payload alphas) c a0 a1 -> (e <= length a1')%nat -> Forall is_u32 a1' ->
  cong (nth 0 a1' 0 - nth 0 a1 0) d0 ->
  u32 (nth 0 a0 0 + nth 0 a1' 0) mod ModP = v ->
  forall i, (i < length alphas)%nat -> tag_ok alphas a0 a1' v i = true ->
  forall di, cong (nth (S i) a1' 0 - nth (S i) a1 0) di ->
  exists w0 wi, (w0 = 0 \/ w0 = 1) /\ (wi = 0 \/ wi = 1) /\
    cong v (c + (d0 - 2 * w0)) /\
    cong (nth i alphas 0 * (d0 - 2 * w0)) (di - 2 * wi) /\
    (nth 0 a0 0 + nth 0 a1' 0 < w32 -> w0 = 0) /\ (nth (S i) a0 0 + nth (S i) a1' 0 < w32 -> wi = 0).
Proof.
  intros He Ha (L0 & L1 & R0 & R1 & C) L1' U1' D0 HV i Hi HT di Di.
  assert (B0 : forall j, (j < e)%nat -> 0 <= nth j a0 0 < ModP) by (intros j Hj; apply (Forall_nth0 _ a0 j 0 R0); lia).
  assert (B1 : forall j, (j < e)%nat -> is_u32 (nth j a1' 0)) by (intros j Hj; apply (Forall_nth0 _ a1' j 0 U1'); lia).
  assert (BA : 0 <= nth i alphas 0 < ModP) by (apply (Forall_nth0 _ alphas i 0 Ha); lia).
  destruct (u32_sum_wrap _ _ (B0 0%nat ltac:(lia)) (B1 0%nat ltac:(lia))) as (w0 & W0 & E0 & N0).
  destruct (u32_sum_wrap _ _ (B0 (S i) ltac:(lia)) (B1 (S i) ltac:(lia))) as (wi & Wi & Ei & Ni).
  exists w0, wi. split; [auto|]. split; [auto|].
  pose proof (C 0%nat ltac:(lia)) as C0. cbn [payload nth] in C0. rewrite Z.mul_1_r in C0.
  pose proof (C (S i) ltac:(lia)) as Ci. cbn [payload nth] in Ci.
  assert (V : cong v (c + (d0 - 2 * w0))).
  { rewrite <- HV. eapply cong_trans. apply cong_mod. eapply cong_trans. apply E0.
    eapply cong_trans with ((nth 0 a0 0 + nth 0 a1 0) + ((nth 0 a1' 0 - nth 0 a1 0) - 2 * w0)).
    - apply cong_eq; ring.
    - apply cong_add; auto. apply cong_sub; auto. apply cong_refl. }
  split; [exact V|]. split; [|split; auto].
  unfold tag_ok in HT. apply Z.eqb_eq in HT.
  rewrite tag_lhs in HT; auto. 2: { rewrite <- HV. apply mod_range. }
  assert (T : cong (v * nth i alphas 0) (c * nth i alphas 0 + (di - 2 * wi))).
  { eapply cong_trans; [apply cong_sym, cong_mod|]. rewrite HT.
    eapply cong_trans. apply cong_mod. eapply cong_trans. apply Ei.
    eapply cong_trans with ((nth (S i) a0 0 + nth (S i) a1 0) + ((nth (S i) a1' 0 - nth (S i) a1 0) - 2 * wi)).
    - apply cong_eq; ring.
    - apply cong_add; auto. apply cong_sub; auto. apply cong_refl. }
  eapply cong_trans with ((c + (d0 - 2 * w0)) * nth i alphas 0 - c * nth i alphas 0).
  { apply cong_eq; ring. }
  eapply cong_trans with (v * nth i alphas 0 - c * nth i alphas 0).
  { apply cong_sub; [|apply cong_refl]. apply cong_mul; [apply cong_sym; exact V|apply cong_refl]. }
  eapply cong_trans. { apply cong_sub. exact T. apply cong_refl. }
  apply cong_eq; ring.
Qed.

Lemma accepted_tags e alphas a0 a1' v :
  e = S (length alphas) -> length a0 = e -> (e <= length a1')%nat ->
  reconstruct e alphas [a0; a1'] = Ok v ->
  u32 (nth 0 a0 0 + nth 0 a1' 0) mod ModP = v /\ forall i, (i < length alphas)%nat -> tag_ok alphas a0 a1' v i = true.
Proof.
  intros He L0 L1' HR. rewrite rec_count_eq in HR by lia. cbv zeta in HR.
  destruct (forallb _ _) eqn:T in HR; try discriminate. injection HR as HV. rewrite HV in T. split; auto.
  intros i Hi. rewrite forallb_forall in T. apply T. apply in_seq. lia.
Qed.

Lemma not_cong_diff c d v : cong v (c + d) -> 0 <= v < ModP -> v <> c mod ModP -> ~ cong d 0.
Proof.
  intros V B N D. apply N. apply cong_reduced; auto using mod_range.
  eapply cong_trans; [exact V|]. eapply cong_trans with (c + 0). apply cong_add; [apply cong_refl|exact D].
  rewrite Z.add_0_r. apply cong_sym, cong_mod.
Qed.

(** answers whose elements are at most the modulus: at most one value per MAC key *)
Lemma forge_count_small d0 di : exists z, forall e alphas c a0 a1 a1' v i,
  e = S (length alphas) -> Forall reduced alphas -> shared e (payload alphas) c a0 a1 ->
  (e <= length a1')%nat -> upto a1' ->
  cong (nth 0 a1' 0 - nth 0 a1 0) d0 -> (i < length alphas)%nat -> cong (nth (S i) a1' 0 - nth (S i) a1 0) di ->
  reconstruct e alphas [a0; a1'] = Ok v -> v <> c mod ModP -> nth i alphas 0 = z.
Proof.
  destruct (one_solution d0 di) as [z HZ]. exists z.
  intros e alphas c a0 a1 a1' v i He Ha HS L1' U D0 Hi Di HR HN.
  pose proof HS as (L0 & L1 & R0 & R1 & _).
  destruct (accepted_tags e alphas a0 a1' v He L0 L1' HR) as [HV HT].
  assert (U' : Forall is_u32 a1').
  { eapply Forall_impl; [|exact U]. cbv beta. unfold is_u32. intros x Hx. rewrite ModP_val in Hx. unfold w32. lia. }
  destruct (accept_equations e alphas c a0 a1 a1' v d0 He Ha HS L1' U' D0 HV i Hi (HT i Hi) di Di)
    as (w0 & wi & _ & _ & V & EQ & N0 & Ni).
  assert (NW : forall j, (j < e)%nat -> nth j a0 0 + nth j a1' 0 < w32).
  { intros j Hj. pose proof (Forall_nth0 _ a0 j 0 R0 ltac:(lia)) as X. unfold reduced in X.
    pose proof (Forall_nth0 _ a1' j 0 U ltac:(lia)) as Y. cbv beta in Y. rewrite ModP_val in *. unfold w32. lia. }
  rewrite N0, Ni in * by (apply NW; lia). rewrite !Z.mul_0_r, !Z.sub_0_r in *.
  apply HZ; auto.
  - apply (Forall_nth0 _ alphas i 0 Ha); lia.
  - apply not_cong_diff with c v; auto. rewrite <- HV. apply mod_range.
Qed.

(** arbitrary 32-bit words: at most four values per MAC key *)
Lemma forge_count_any d0 di : exists zs, (length zs <= 4)%nat /\ forall e alphas c a0 a1 a1' v i,
  e = S (length alphas) -> Forall reduced alphas -> shared e (payload alphas) c a0 a1 ->
  (e <= length a1')%nat -> Forall is_u32 a1' ->
  cong (nth 0 a1' 0 - nth 0 a1 0) d0 -> (i < length alphas)%nat -> cong (nth (S i) a1' 0 - nth (S i) a1 0) di ->
  reconstruct e alphas [a0; a1'] = Ok v -> v <> c mod ModP -> In (nth i alphas 0) zs.
Proof.
  destruct (one_solution (d0 - 2 * 0) (di - 2 * 0)) as [z0 H0].
  destruct (one_solution (d0 - 2 * 0) (di - 2 * 1)) as [z1 H1].
  destruct (one_solution (d0 - 2 * 1) (di - 2 * 0)) as [z2 H2].
  destruct (one_solution (d0 - 2 * 1) (di - 2 * 1)) as [z3 H3].
  exists [z0; z1; z2; z3]. split; [cbn; lia|].
  intros e alphas c a0 a1 a1' v i He Ha HS L1' U D0 Hi Di HR HN.
  pose proof HS as (L0 & L1 & R0 & R1 & _).
  destruct (accepted_tags e alphas a0 a1' v He L0 L1' HR) as [HV HT].
  destruct (accept_equations e alphas c a0 a1 a1' v d0 He Ha HS L1' U D0 HV i Hi (HT i Hi) di Di)
    as (w0 & wi & W0 & Wi & V & EQ & _).
  assert (BA : 0 <= nth i alphas 0 < ModP) by (apply (Forall_nth0 _ alphas i 0 Ha); lia).
  assert (ND : ~ cong (d0 - 2 * w0) 0).
  { apply not_cong_diff with c v; auto. rewrite <- HV. apply mod_range. }
  destruct W0 as [->| ->], Wi as [->| ->]; cbn [In]; [left|right; left|do 2 right; left|do 3 right; left]; symmetry; auto.
Qed.

(** changing only tags *)
Lemma tag_change_rejected e alphas c a0 a1 a1' i :
  e = S (length alphas) -> Forall reduced alphas -> shared e (payload alphas) c a0 a1 ->
  (e <= length a1')%nat -> upto a1' ->
  cong (nth 0 a1' 0) (nth 0 a1 0) -> (i < length alphas)%nat -> ~ cong (nth (S i) a1' 0) (nth (S i) a1 0) ->
  reconstruct e alphas [a0; a1'] = Err "REJECT".
Proof.
  intros He Ha HS L1' U D0 Hi Di. pose proof HS as (L0 & L1 & R0 & R1 & _).
  assert (U' : Forall is_u32 a1').
  { eapply Forall_impl; [|exact U]. cbv beta. unfold is_u32. intros x Hx. rewrite ModP_val in Hx. unfold w32. lia. }
  rewrite rec_count_eq by lia. cbv zeta.
  destruct (forallb _ _) eqn:T; auto. exfalso.
  rewrite forallb_forall in T. specialize (T i ltac:(apply in_seq; lia)).
  assert (D0' : cong (nth 0 a1' 0 - nth 0 a1 0) 0).
  { eapply cong_trans. apply cong_sub. exact D0. apply cong_refl. apply cong_eq; ring. }
  destruct (accept_equations e alphas c a0 a1 a1' _ 0 He Ha HS L1' U' D0' eq_refl i Hi T _ (cong_refl _))
    as (w0 & wi & _ & _ & V & EQ & N0 & Ni).
  assert (NW : forall j, (j < e)%nat -> nth j a0 0 + nth j a1' 0 < w32).
  { intros j Hj. pose proof (Forall_nth0 _ a0 j 0 R0 ltac:(lia)) as X. unfold reduced in X.
    pose proof (Forall_nth0 _ a1' j 0 U ltac:(lia)) as Y. cbv beta in Y. rewrite ModP_val in *. unfold w32. lia. }
  rewrite N0, Ni in EQ by (apply NW; lia).
  replace (nth i alphas 0 * (0 - 2 * 0)) with 0 in EQ by ring. rewrite Z.mul_0_r, Z.sub_0_r in EQ.
  apply Di. eapply cong_trans with ((nth (S i) a1' 0 - nth (S i) a1 0) + nth (S i) a1 0). apply cong_eq; ring.
  eapply cong_trans with (0 + nth (S i) a1 0). apply cong_add. apply cong_sym; exact EQ. apply cong_refl. apply cong_eq; ring.
Qed.

(** ** AVG *)
Lemma forge_avg_small dc ds di_c di_s : exists zc zs, forall e alphas c s c0 s0 c1 s1 c1' s1' v i,
  e = S (length alphas) -> Forall reduced alphas ->
  shared e (payload alphas) c c0 c1 -> shared e (payload alphas) s s0 s1 ->
  length c1' = e -> (e <= length s1')%nat -> upto c1' -> upto s1' ->
  cong (nth 0 c1' 0 - nth 0 c1 0) dc -> cong (nth 0 s1' 0 - nth 0 s1 0) ds ->
  (i < length alphas)%nat ->
  cong (nth (S i) c1' 0 - nth (S i) c1 0) di_c -> cong (nth (S i) s1' 0 - nth (S i) s1 0) di_s ->
  reconstruct e alphas [c0 ++ s0; c1' ++ s1'] = Ok v ->
  v = (s mod ModP) / (c mod ModP) \/ nth i alphas 0 = zc \/ nth i alphas 0 = zs.
Proof.
  destruct (one_solution dc di_c) as [zc HZC]. destruct (one_solution ds di_s) as [zs HZS]. exists zc, zs.
  intros e alphas c s c0 s0 c1 s1 c1' s1' v i He Ha HC HS LC LS UC US DC DS Hi Dic Dis HR.
  pose proof HC as (L0 & L1 & R0 & R1 & _). pose proof HS as (M0 & M1 & Q0 & Q1 & _).
  destruct (rec_avg_eq e alphas c0 s0 c1' s1' ltac:(lia) ltac:(lia) L0 M0 LC LS) as [m E].
  rewrite E in HR. cbv zeta in HR.
  set (vc := u32 (nth 0 c0 0 + nth 0 c1' 0) mod ModP) in *. set (vs := u32 (nth 0 s0 0 + nth 0 s1' 0) mod ModP) in *.
  destruct (forallb _ _) eqn:T in HR; try discriminate.
  destruct (Z.eqb_spec vc 0) as [|NZ] in HR; try discriminate. injection HR as HR.
  rewrite forallb_forall in T. specialize (T i ltac:(apply in_seq; lia)). apply andb_true_iff in T as [TC TS].
  assert (X : forall l, upto l -> Forall is_u32 l).
  { intros l U. eapply Forall_impl; [|exact U]. cbv beta. unfold is_u32. intros x Hx. rewrite ModP_val in Hx. unfold w32. lia. }
  destruct (accept_equations e alphas c c0 c1 c1' vc dc He Ha HC ltac:(lia) (X _ UC) DC eq_refl i Hi TC di_c Dic)
    as (w0 & wi & _ & _ & V & EQ & N0 & Ni).
  destruct (accept_equations e alphas s s0 s1 s1' vs ds He Ha HS ltac:(lia) (X _ US) DS eq_refl i Hi TS di_s Dis)
    as (x0 & xi & _ & _ & V' & EQ' & N0' & Ni').
  assert (NW : forall a b j, (j < e)%nat -> length a = e -> (e <= length b)%nat -> Forall reduced a -> upto b -> nth j a 0 + nth j b 0 < w32).
  { intros a b j Hj La Lb Ra Ub. pose proof (Forall_nth0 _ a j 0 Ra ltac:(lia)) as Xa. unfold reduced in Xa.
    pose proof (Forall_nth0 _ b j 0 Ub ltac:(lia)) as Y. cbv beta in Y. rewrite ModP_val in *. unfold w32. lia. }
  rewrite N0, Ni in * by (apply NW; auto; lia). rewrite N0', Ni' in * by (apply NW; auto; lia).
  rewrite !Z.mul_0_r, !Z.sub_0_r in *.
  assert (BA : 0 <= nth i alphas 0 < ModP) by (apply (Forall_nth0 _ alphas i 0 Ha); lia).
  destruct (Z.eq_dec vc (c mod ModP)) as [EC|NC].
  - destruct (Z.eq_dec vs (s mod ModP)) as [ES|NS].
    + left. rewrite <- HR, EC, ES. auto.
    + right; right. apply HZS; auto. apply not_cong_diff with s vs; auto. apply mod_range.
  - right; left. apply HZC; auto. apply not_cong_diff with c vc; auto. apply mod_range.
Qed.

(** truncating the first AVG answer turns the result into the count *)
Lemma rec_downgrade e alphas c c0 c1 s1 : e = S (length alphas) -> Forall reduced alphas ->
  shared e (payload alphas) c c0 c1 -> reconstruct e alphas [c0; c1 ++ s1] = Ok (c mod ModP).
Proof.
  intros He Ha HC. pose proof HC as (L0 & L1 & _).
  rewrite rec_count_eq by (rewrite ?app_length; lia). cbv zeta.
  rewrite app_nth1 by lia. rewrite (shared_data e alphas c) by (auto; lia).
  assert (T : forallb (tag_ok alphas c0 (c1 ++ s1) (c mod ModP)) (seq 0 (e - 1)) = true).
  { apply forallb_forall. intros j Hj. pose proof (shared_tags e alphas c c0 c1 He Ha HC) as T. rewrite forallb_forall in T.
    specialize (T j Hj). apply in_seq in Hj. unfold tag_ok in *. rewrite app_nth1 by lia. auto. }
  rewrite T. auto.
Qed.

(** ** order of the answers *)
Lemma same_index {A} (a b : list A) i : length a = length b ->
  (exists x y, go_index a i = Ok x /\ go_index b i = Ok y) \/ (exists m, go_index a i = Panic m /\ go_index b i = Panic m).
Proof.
  intros HL. unfold go_index. destruct (i <? 0). { right; eauto. }
  destruct (nth_error a (Z.to_nat i)) eqn:E, (nth_error b (Z.to_nat i)) eqn:F.
  - left; eauto.
  - exfalso. apply nth_error_None in F. assert (Z.to_nat i < length a)%nat by (apply nth_error_Some; congruence). lia.
  - exfalso. apply nth_error_None in E. assert (Z.to_nat i < length b)%nat by (apply nth_error_Some; congruence). lia.
  - right; eauto.
Qed.

Lemma count_checks_sym alphas a b d : length a = length b -> forall n i,
  count_checks alphas a b d i n = count_checks alphas b a d i n.
Proof.
  intros HL. induction n as [|n IH]; intros i; cbn [count_checks]; auto.
  destruct (go_index alphas i); cbn [bind]; auto.
  destruct (same_index a b (i + 1) HL) as [(x & y & -> & ->)|(m & -> & ->)]; cbn [bind]; auto.
  rewrite (Z.add_comm x y), IH. auto.
Qed.

Lemma avg_checks_sym alphas a b x y c s : length a = length b -> length x = length y -> forall n i,
  avg_checks alphas a b x y c s i n = avg_checks alphas b a y x c s i n.
Proof.
  intros HL HM. induction n as [|n IH]; intros i; cbn [avg_checks]; auto.
  destruct (go_index alphas i); cbn [bind]; auto.
  destruct (same_index a b (i + 1) HL) as [(u & v & -> & ->)|(m & -> & ->)]; cbn [bind]; auto.
  rewrite (Z.add_comm u v). destruct (negb _); auto.
  destruct (same_index x y (i + 1) HM) as [(u' & v' & -> & ->)|(m & -> & ->)]; cbn [bind]; auto.
  rewrite (Z.add_comm u' v'), IH. auto.
Qed.

Lemma same_slice {A} (a b : list A) i j : length a = length b ->
  (exists x y, go_slice a i j = Ok x /\ go_slice b i j = Ok y /\ length x = length y) \/
  (exists m, go_slice a i j = Panic m /\ go_slice b i j = Panic m).
Proof.
  intros HL. unfold go_slice. replace (zlen b) with (zlen a) by (unfold zlen; lia).
  destruct (_ && _).
  - left. eexists _, _. split; [reflexivity|]. split; [reflexivity|]. rewrite !firstn_length, !skipn_length. lia.
  - right; eauto.
Qed.

Lemma reconstruct_sym e alphas a b : length a = length b ->
  reconstruct e alphas [a; b] = reconstruct e alphas [b; a].
Proof.
  intros HL. unfold reconstruct.
  change (go_index [a; b] 0) with (@Ok (list Z) a). change (go_index [a; b] 1) with (@Ok (list Z) b).
  change (go_index [b; a] 0) with (@Ok (list Z) b). change (go_index [b; a] 1) with (@Ok (list Z) a). cbn [bind].
  replace (zlen b) with (zlen a) by (unfold zlen; lia).
  destruct (_ =? _).
  - destruct (same_slice a b 0 (Z.of_nat e) HL) as [(x & y & -> & -> & L1)|(m & -> & ->)]; cbn [bind]; auto.
    destruct (same_slice a b (Z.of_nat e) (zlen a) HL) as [(u & v & -> & -> & L2)|(m & -> & ->)]; cbn [bind]; auto.
    destruct (same_index x y 0 L1) as [(p & q & -> & ->)|(m & -> & ->)]; cbn [bind]; auto.
    destruct (same_index u v 0 L2) as [(p' & q' & -> & ->)|(m & -> & ->)]; cbn [bind]; auto.
    cbv zeta. rewrite (Z.add_comm p q), (Z.add_comm p' q'), (avg_checks_sym alphas x y u v) by auto. auto.
  - destruct (same_index a b 0 HL) as [(p & q & -> & ->)|(m & -> & ->)]; cbn [bind]; auto.
    cbv zeta. rewrite (Z.add_comm p q), (count_checks_sym alphas a b) by auto. auto.
Qed.

(** ** malformed answers *)
Lemma doubled_answer_panics e alphas a0 a1 :
  (1 <= e)%nat -> length a0 = (2 * e)%nat -> length a1 = e ->
  reconstruct e alphas [a0; a1] = Panic "index out of range".
Proof.
  intros He L0 L1. unfold reconstruct.
  change (go_index [a0; a1] 0) with (@Ok (list Z) a0). change (go_index [a0; a1] 1) with (@Ok (list Z) a1). cbn [bind].
  destruct (Z.eqb_spec (zlen a0) (2 * Z.of_nat e)) as [_|E]; [|unfold zlen in E; lia].
  rewrite !go_slice_ok by (unfold zlen; lia). cbn [bind].
  set (cf := firstn (Z.to_nat (Z.of_nat e - 0)) (skipn (Z.to_nat 0) a0)).
  set (cs := firstn (Z.to_nat (Z.of_nat e - 0)) (skipn (Z.to_nat 0) a1)).
  set (sf := firstn (Z.to_nat (zlen a0 - Z.of_nat e)) (skipn (Z.to_nat (Z.of_nat e)) a0)).
  set (ss := firstn (Z.to_nat (zlen a1 - Z.of_nat e)) (skipn (Z.to_nat (Z.of_nat e)) a1)).
  assert (length cf = e) by (unfold cf; rewrite firstn_length, skipn_length; lia).
  assert (length cs = e) by (unfold cs; rewrite firstn_length, skipn_length; lia).
  assert (length sf = e) by (unfold sf, zlen; rewrite firstn_length, skipn_length; lia).
  assert (length ss = 0%nat) by (unfold ss; rewrite firstn_length, skipn_length; lia).
  change 0 with (Z.of_nat 0). rewrite (idx cf 0 0), (idx cs 0 0), (idx sf 0 0) by lia. cbn [bind].
  rewrite (go_index_panic ss) by (unfold zlen; lia). auto.
Qed.

Lemma empty_answer_panics e alphas a0 a1 : (1 <= e)%nat -> a0 = [] \/ a1 = [] ->
  exists m, reconstruct e alphas [a0; a1] = Panic m.
Proof.
  intros He HE. unfold reconstruct.
  change (go_index [a0; a1] 0) with (@Ok (list Z) a0). change (go_index [a0; a1] 1) with (@Ok (list Z) a1). cbn [bind].
  destruct HE as [->| ->].
  - change (zlen []) with 0. destruct (Z.eqb_spec 0 (2 * Z.of_nat e)); try lia. cbn. eexists; reflexivity.
  - destruct (Z.eqb_spec (zlen a0) (2 * Z.of_nat e)) as [E|E].
    + rewrite go_slice_ok by (unfold zlen in *; lia). cbn [bind].
      unfold go_slice at 1. change (zlen []) with 0. destruct (Z.leb_spec (Z.of_nat e) 0); try lia.
      rewrite andb_false_r. eexists; reflexivity.
    + destruct (go_index a0 0) as [x|m|m|m] eqn:E0; cbn [bind]; try (cbn; eexists; reflexivity).
      all: unfold go_index in E0; destruct (0 <? 0); try discriminate; destruct (nth_error a0 _); discriminate.
Qed.

(** ** malformed queries *)
Lemma records_loop_panic {S} db (body : nat -> key_info -> S -> res S) :
  (exists n, (n < length db)%nat /\ (forall i st, (i < n)%nat -> exists ki, nth_error db i = Some ki /\
       ((exists st', body i ki st = Ok st') \/ is_panic (body i ki st) = true)) /\
     (forall st ki, nth_error db n = Some ki -> is_panic (body n ki st) = true)) ->
  forall st, is_panic (records_loop db body 0 (length db) st) = true.
Proof.
  intros (n & Hn & Hpre & Hbad).
  assert (G : forall k i st, (i <= n)%nat -> (i + k = length db)%nat -> is_panic (records_loop db body i k st) = true).
  { induction k as [|k IH]; intros i st Hi Hk; try lia. cbn [records_loop].
    destruct (nth_error db i) as [ki|] eqn:E. 2: { apply nth_error_None in E. lia. }
    unfold go_index. destruct (Z.ltb_spec (Z.of_nat i) 0); try lia. rewrite Nat2Z.id, E. cbn [bind].
    destruct (Nat.eq_dec i n) as [->|Hne].
    - specialize (Hbad st ki E). destruct (body n ki st); cbn [is_panic bind] in *; congruence.
    - destruct (Hpre i st ltac:(lia)) as (ki' & E' & [[st' B]|B]); assert (ki' = ki) by congruence; subst.
      + rewrite B. cbn [bind]. apply IH; lia.
      + destruct (body i ki st); cbn [is_panic bind] in *; congruence. }
  intros st. apply G; lia.
Qed.

Lemma id_email_total H q e : hash_ok H -> 0 <= q_from_start q -> 0 <= q_from_end q -> bytes e ->
  id_for_email H q e = Ok None \/
  exists x, id_for_email H q e = Ok (Some x) /\ length x = (8 * Z.to_nat (email_id_bytes q))%nat.
Proof.
  intros HH Hs He Be. rewrite id_picked by auto. destruct (picked H q e) as [s|] eqn:E; cbn [option_map]; auto.
  right. eexists. split. reflexivity. rewrite byte_to_bits_length.
  destruct (picked_ok H q e s HH Be E) as (_ & L & _). lia.
Qed.

(** text too short for the requested prefix or suffix *)
Definition text_too_short (q : qinfo) (text : list Z) : Prop :=
  0 <= q_from_start q /\ 0 <= q_from_end q /\
  (if 0 <? q_from_start q then zlen text < q_from_start q else zlen text < q_from_end q).
Definition email_too_short (q : qinfo) (email : list Z) : Prop :=
  if 0 <? q_from_start q then zlen email < q_from_start q else zlen email < q_from_end q.

Lemma short_text_input H q text : hash_ok H -> text_too_short q text -> to_email_client H q text = Ok [].
Proof.
  intros HH (Hs & He & HL). unfold to_email_client. rewrite id_picked by auto. unfold picked.
  pose proof (zlen_nonneg text).
  destruct (Z.ltb_spec 0 (q_from_start q)).
  - destruct (Z.ltb_spec (zlen text) (q_from_start q)); try lia. auto.
  - destruct (Z.ltb_spec 0 (q_from_end q)); try lia.
    destruct (Z.ltb_spec (zlen text) (q_from_end q)); try lia. auto.
Qed.

Lemma short_text_crash enc H e sn alphas r now fresh q text db k0 k1 fg k :
  cipher_ok enc -> hash_ok H -> rand_ok r -> plain q -> text_too_short q text -> Forall record_ok db ->
  (exists ki, In ki db /\ ~ email_too_short q (ki_email ki)) ->
  client_query enc e alphas r [] 2 = Ok (k0, k1, fg) -> k = k0 \/ k = k1 ->
  to_email_client H q text = Ok [] /\
  is_panic (answer enc H e sn db (length db) now fresh (Some q) k) = true.
Proof.
  intros He HH Hr HP HT HD (ki & Hin & HL) HQ HK. split. apply short_text_input; auto.
  destruct HT as (Hs & Hn & HT).
  unfold client_query in HQ. cbn [Z.eqb negb Pos.eqb] in HQ.
  destruct (generate_cw_length enc e [] (1 :: alphas) r k0 k1 fg He Hr HQ) as (C0 & C1 & _).
  assert (CW : length (k_cw k) = 0%nat).
  { destruct HK as [->| ->]; rewrite ?C1; exact C0. }
  destruct HP as (T & A & V & S). unfold answer. rewrite T, A, V, S. cbn [negb andb Z.eqb target_userid].
  apply In_nth_error in Hin as [n En].
  assert (Hpos : (0 < 8 * Z.to_nat (email_id_bytes q))%nat) by (pose proof (email_id_bytes_pos q); lia).
  apply records_loop_panic. exists n. split; [|split].
  - apply nth_error_Some. congruence.
  - intros i st Hi. destruct (nth_error db i) as [kj|] eqn:Ej.
    2: { apply nth_error_None in Ej. assert (n < length db)%nat by (apply nth_error_Some; congruence). lia. }
    exists kj. split; auto.
    assert (RK : record_ok kj) by (apply (proj1 (Forall_forall _ _) HD); eapply nth_error_In; eauto).
    destruct RK as (Be & _). unfold count_body.
    destruct (id_email_total H q (ki_email kj) HH Hs Hn Be) as [->|(x & -> & Lx)]; cbn [bind].
    + left; eauto.
    + right. pose proof (evaluate_long_panics enc e (fresh i) sn k x e ltac:(lia)) as P.
      destruct (evaluate_pf _ _ _ _ _ _ _); cbn [is_panic bind] in *; congruence.
  - intros st kj Ej. rewrite En in Ej. injection Ej as <-.
    assert (RK : record_ok ki) by (apply (proj1 (Forall_forall _ _) HD); eapply nth_error_In; eauto).
    destruct RK as (Be & _). unfold count_body.
    rewrite id_picked by auto. unfold picked. unfold email_too_short in HL.
    assert (X : exists s, (if 0 <? q_from_start q
        then if zlen (ki_email ki) <? q_from_start q then None else Some (first_bytes (q_from_start q) (ki_email ki))
        else if 0 <? q_from_end q
        then if zlen (ki_email ki) <? q_from_end q then None else Some (last_bytes (q_from_end q) (ki_email ki))
        else Some (firstn 16 (H (ki_email ki)))) = Some s).
    { destruct (0 <? q_from_start q).
      - destruct (Z.ltb_spec (zlen (ki_email ki)) (q_from_start q)); try lia. eauto.
      - destruct (0 <? q_from_end q); eauto.
        destruct (Z.ltb_spec (zlen (ki_email ki)) (q_from_end q)); try lia. eauto. }
    destruct X as [s X]. rewrite X. cbn [option_map bind].
    destruct (picked_ok H q (ki_email ki) s HH Be X) as (_ & Ls & _).
    pose proof (evaluate_long_panics enc e (fresh n) sn k (byte_to_bits s) e ltac:(rewrite byte_to_bits_length; lia)) as P.
    destruct (evaluate_pf _ _ _ _ _ _ _); cbn [is_panic bind] in *; congruence.
Qed.

(** queries that crash a server *)
Definition hostile (q : option qinfo) (db : list key_info) : Prop :=
  match q with
  | None => True
  | Some q =>
    q_sum q = true \/ (q_avg q = true /\ q_and q = false) \/
    (q_and q = false /\ 2 < q_target q) \/
    (db <> [] /\ q_target q = target_userid /\ q_from_start q < 0) \/
    (db <> [] /\ q_target q = target_userid /\ q_from_start q = 0 /\ q_from_end q < 0)
  end.

Lemma hostile_crash enc H e sn db now fresh q k :
  hostile q db -> is_panic (answer enc H e sn db (length db) now fresh q k) = true.
Proof.
  unfold answer. destruct q as [q|]; [|reflexivity]. cbn [hostile].
  assert (NEG : db <> [] -> (q_from_start q < 0 \/ (q_from_start q = 0 /\ q_from_end q < 0)) ->
     forall ki, is_panic (id_for_email H q (ki_email ki)) = true).
  { intros _ HN ki. unfold id_for_email. pose proof (zlen_nonneg (ki_email ki)) as LN. destruct HN as [N|[N M]].
    - destruct (Z.eqb_spec (q_from_start q) 0); try lia. cbn [negb].
      destruct (Z.ltb_spec (zlen (ki_email ki)) (q_from_start q)); try lia.
      unfold go_slice. destruct (Z.leb_spec 0 (q_from_start q)); try lia. reflexivity.
    - rewrite N. cbn [Z.eqb negb]. destruct (Z.eqb_spec (q_from_end q) 0); try lia. cbn [negb].
      destruct (Z.ltb_spec (zlen (ki_email ki)) (q_from_end q)); try lia.
      unfold go_slice. destruct (Z.leb_spec (zlen (ki_email ki) - q_from_end q) (zlen (ki_email ki))); try lia.
      rewrite andb_false_r. reflexivity. }
  assert (HB : forall {S} (body : nat -> key_info -> S -> res S), db <> [] ->
     (forall i ki st, is_panic (body i ki st) = true) -> forall st, is_panic (records_loop db body 0 (length db) st) = true).
  { intros S body ND HP st. apply records_loop_panic. exists 0%nat. split. destruct db; [congruence|cbn; lia].
    split. intros; lia. intros; apply HP. }
  intros HH.
  destruct (q_and q) eqn:EA, (q_avg q) eqn:EV, (q_sum q) eqn:ES; cbn [negb andb]; try reflexivity.
  - (* avg *)
    destruct HH as [?|[[_ ?]|[[? _]|HH]]]; try congruence.
    assert (X : db <> [] /\ (q_from_start q < 0 \/ (q_from_start q = 0 /\ q_from_end q < 0))) by intuition.
    destruct X as [ND X]. specialize (NEG ND X).
    assert (P : is_panic (records_loop db (avg_body enc H q now sn k fresh e) 0 (length db) (repeat 0 e, repeat 0 e, false)) = true).
    { apply HB; auto. intros i ki st. unfold avg_body. specialize (NEG ki).
      destruct (id_for_email H q (ki_email ki)); cbn [is_panic bind] in *; congruence. }
    destruct (records_loop _ _ _ _ _); cbn [is_panic bind] in *; congruence.
  - (* conjunction *)
    destruct HH as [?|[[? _]|[[? _]|HH]]]; try congruence.
    assert (X : db <> [] /\ (q_from_start q < 0 \/ (q_from_start q = 0 /\ q_from_end q < 0))) by intuition.
    destruct X as [ND X]. specialize (NEG ND X).
    apply HB; auto. intros i ki st. unfold count_body, id_conj. specialize (NEG ki).
    destruct (id_for_email H q (ki_email ki)); cbn [is_panic bind] in *; congruence.
  - (* plain *)
    destruct HH as [?|[[? _]|[[_ HT]|HH]]]; try congruence.
    + unfold target_userid, target_algo, target_creation.
      destruct (Z.eqb_spec (q_target q) 0), (Z.eqb_spec (q_target q) 2), (Z.eqb_spec (q_target q) 1); try lia. reflexivity.
    + assert (X : db <> [] /\ q_target q = target_userid /\ (q_from_start q < 0 \/ (q_from_start q = 0 /\ q_from_end q < 0))) by intuition.
      destruct X as (ND & HT & X). specialize (NEG ND X). rewrite HT. cbn [Z.eqb target_userid].
      apply HB; auto. intros i ki st. unfold count_body. specialize (NEG ki).
      destruct (id_for_email H q (ki_email ki)); cbn [is_panic bind] in *; congruence.
Qed.

(** ** consequences for years *)
Lemma count_none f db : Forall (fun ki => f ki = false) db -> count_matching f db = 0.
Proof. unfold count_matching. induction 1 as [|ki db E _ IH]; cbn [filter]; auto. rewrite E. auto. Qed.

Lemma creation_year H y ki : selects H (ByCreation y) ki = true -> time_year (ki_time ki) = y - 1.
Proof.
  cbn [selects]. rewrite !andb_true_iff, !Z.eqb_eq. intros [[E1 E2] E3].
  assert (E : ki_time ki = date_utc y 0 0).
  { rewrite date_00. destruct (ki_time ki) as [s n [z|]]; cbn in *; try discriminate. subst; auto. }
  rewrite E. apply date_00_year.
Qed.

Lemma creation_query_counts_nothing H y db :
  Forall (fun ki => time_year (ki_time ki) = y) db -> count_matching (selects H (ByCreation y)) db = 0.
Proof.
  intros HF. apply count_none. eapply Forall_impl; [|exact HF]. cbv beta. intros ki E.
  destruct (selects H (ByCreation y) ki) eqn:S; auto. apply creation_year in S. lia.
Qed.

Lemma local_zone_never_counted H y db :
  Forall (fun ki => t_zone (ki_time ki) <> None) db -> count_matching (selects H (ByCreation y)) db = 0.
Proof.
  intros HF. apply count_none. eapply Forall_impl; [|exact HF]. cbv beta. intros ki E. cbn [selects].
  destruct (t_zone (ki_time ki)); try congruence. apply andb_false_r.
Qed.

Lemma conj_query_ignores_2019 H q text db :
  Forall (fun ki => time_year (ki_time ki) <> 2018) db -> count_matching (selects H (ByYearAndEmail q text)) db = 0.
Proof.
  intros HF. apply count_none. eapply Forall_impl; [|exact HF]. cbv beta. intros ki E. cbn [selects].
  destruct (Z.eqb_spec (time_year (ki_time ki)) 2018); try congruence. auto.
Qed.

Lemma shared_sym e b c a0 a1 : shared e b c a0 a1 -> shared e b c a1 a0.
Proof.
  intros (L0 & L1 & R0 & R1 & C). unfold shared. conj_split; auto. intros j Hj. rewrite Z.add_comm. auto.
Qed.

(** the honest shares of a run, from its equations *)
Lemma honest_shared enc H e alphas r now0 now1 fresh0 fresh1 db rq inp k0 k1 fg a0 f0 a1 f1 :
  cipher_ok enc -> hash_ok H -> rand_ok r -> e = S (length alphas) -> (e < 20)%nat -> Forall reduced alphas ->
  request_ok rq -> Forall record_ok db -> readable rq db ->
  request_input H rq = Ok inp -> client_query enc e alphas r inp 2 = Ok (k0, k1, fg) ->
  answer enc H e 0 db (length db) now0 fresh0 (Some (request_info rq)) k0 = Ok (a0, f0) ->
  answer enc H e 1 db (length db) now1 fresh1 (Some (request_info rq)) k1 = Ok (a1, f1) ->
  fg || f0 || f1 = false ->
  shared e (payload alphas) (count_matching (selects H rq) db) a0 a1.
Proof.
  intros He HH Hr HE H20 Ha HR HD HF EI EQ A B F.
  destruct (honest_shares enc H e alphas r now0 now1 fresh0 fresh1 db rq He HH Hr HE H20 Ha HR HD HF)
    as (inp' & k0' & k1' & fg' & a0' & f0' & a1' & f1' & EI' & EQ' & A' & B' & S).
  rewrite EI in EI'. injection EI' as <-. rewrite EQ in EQ'. injection EQ' as <- <- <-.
  rewrite A in A'. injection A' as <- <-. rewrite B in B'. injection B' as <- <-. auto.
Qed.

Lemma honest_avg_shared enc H e alphas r now0 now1 year fresh0 fresh1 db q text inp k0 k1 fg a0 f0 a1 f1 :
  cipher_ok enc -> hash_ok H -> rand_ok r -> e = S (length alphas) -> (e < 20)%nat -> Forall reduced alphas ->
  avg_query q -> text_long_enough q text -> bytes text -> Forall record_ok db ->
  email_id_bytes q <= 32 \/ Forall (fun ki => ascii (ki_email ki)) db ->
  (forall i, now0 i = year) -> (forall i, now1 i = year) -> year < 2 ^ 33 ->
  to_email_client H q text = Ok inp -> client_query enc e alphas r inp 2 = Ok (k0, k1, fg) ->
  answer enc H e 0 db (length db) now0 fresh0 (Some q) k0 = Ok (a0, f0) ->
  answer enc H e 1 db (length db) now1 fresh1 (Some q) k1 = Ok (a1, f1) ->
  fg || f0 || f1 = false ->
  exists c0 s0 c1 s1, a0 = c0 ++ s0 /\ a1 = c1 ++ s1 /\
    shared e (payload alphas) (count_matching (avg_selects H q text year) db) c0 c1 /\
    shared e (payload alphas) (zsum (ages year (filter (avg_selects H q text year) db))) s0 s1.
Proof.
  intros He HH Hr HE H20 Ha HQ HT HB HD HF N0 N1 HY EI EQ A B F.
  destruct (honest_avg enc H e alphas r now0 now1 year fresh0 fresh1 db q text He HH Hr HE H20 Ha HQ HT HB HD HF N0 N1 HY)
    as (inp' & k0' & k1' & fg' & c0 & s0 & f0' & c1 & s1 & f1' & EI' & EQ' & A' & B' & S).
  rewrite EI in EI'. injection EI' as <-. rewrite EQ in EQ'. injection EQ' as <- <- <-.
  rewrite A in A'. injection A' as -> <-. rewrite B in B'. injection B' as -> <-.
  exists c0, s0, c1, s1. destruct (S F). auto.
Qed.

Lemma whole_address H q text db :
  q_from_start q = 0 -> q_from_end q = 0 ->
  Forall (fun ki => firstn 16 (H (ki_email ki)) = firstn 16 (H text) -> ki_email ki = text) db ->
  count_matching (fun ki => email_matches H q text (ki_email ki)) db
  = count_matching (fun ki => list_eqb (ki_email ki) text) db.
Proof.
  intros Hs He HF. unfold count_matching. f_equal. apply filter_ext_Forall.
  eapply Forall_impl; [|exact HF]. cbv beta. intros ki E. unfold email_matches. rewrite Hs, He. cbn [Z.ltb Z.compare].
  apply bool_iff. rewrite !list_eqb_spec. split; intros Q; [auto|rewrite Q; auto].
Qed.

Lemma forge_avg_halves dc ds dic dis : exists zc zs, forall e alphas c s c0 s0 c1 s1 a1' v i,
  e = S (length alphas) -> Forall reduced alphas ->
  shared e (payload alphas) c c0 c1 -> shared e (payload alphas) s s0 s1 ->
  length a1' = (2 * e)%nat -> upto a1' ->
  cong (nth 0 a1' 0 - nth 0 (c1 ++ s1) 0) dc -> cong (nth e a1' 0 - nth e (c1 ++ s1) 0) ds ->
  (i < length alphas)%nat ->
  cong (nth (S i) a1' 0 - nth (S i) (c1 ++ s1) 0) dic -> cong (nth (e + S i) a1' 0 - nth (e + S i) (c1 ++ s1) 0) dis ->
  reconstruct e alphas [c0 ++ s0; a1'] = Ok v ->
  v = (s mod ModP) / (c mod ModP) \/ nth i alphas 0 = zc \/ nth i alphas 0 = zs.
Proof.
  destruct (forge_avg_small dc ds dic dis) as (zc & zs & HZ). exists zc, zs.
  intros e alphas c s c0 s0 c1 s1 a1' v i HE Ha SC SS L U Dc Ds Hi Dic Dis HV.
  assert (L1 : length c1 = e) by apply SC.
  assert (LF : length (firstn e a1') = e) by (rewrite firstn_length; lia).
  assert (LS : (e <= length (skipn e a1'))%nat) by (rewrite skipn_length; lia).
  assert (NF : forall j, (j < e)%nat -> nth j (firstn e a1') 0 = nth j a1' 0).
  { intros j Hj. rewrite <- (firstn_skipn e a1') at 2. rewrite app_nth1 by lia. reflexivity. }
  assert (NS : forall j, nth j (skipn e a1') 0 = nth (e + j) a1' 0).
  { intros j. rewrite <- (firstn_skipn e a1') at 2. rewrite app_nth2 by lia. f_equal. lia. }
  assert (NA : forall j, (j < e)%nat -> nth j (c1 ++ s1) 0 = nth j c1 0) by (intros j Hj; apply app_nth1; lia).
  assert (NB : forall j, nth (e + j) (c1 ++ s1) 0 = nth j s1 0) by (intros j; rewrite app_nth2 by lia; f_equal; lia).
  rewrite NA in Dc by lia. rewrite <- NF in Dc by lia. rewrite NA in Dic by lia. rewrite <- NF in Dic by lia.
  rewrite NB, <- NS in Dis. pose proof (NB 0%nat) as B0. pose proof (NS 0%nat) as S0. rewrite Nat.add_0_r in B0, S0.
  rewrite B0, <- S0 in Ds. rewrite <- (firstn_skipn e a1') in HV.
  exact (HZ e alphas c s c0 s0 c1 s1 (firstn e a1') (skipn e a1') v i HE Ha SC SS LF LS
           (Forall_firstn' _ e _ U) (Forall_skipn' _ e _ U) Dc Ds Hi Dic Dis HV).
Qed.
