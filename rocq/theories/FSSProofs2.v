(** Evaluation of generated keys on inputs shorter than the point. *)
From Coq Require Import String ZArith List Bool Lia Arith.
From Verif Require Import GoBase BaseFacts FieldModel FSSModel FSSProofs.
Import ListNotations.
Open Scope Z_scope.
Open Scope go_scope.

Lemma gen_loop_app enc : forall a a' s0 s1 t0 t1 cws st cws' st',
  gen_loop enc a s0 s1 t0 t1 = Ok (cws, st) -> gen_loop enc (a ++ a') s0 s1 t0 t1 = Ok (cws', st') -> exists more, cws' = cws ++ more.
Proof.
  induction a as [|x a IH]; intros a' s0 s1 t0 t1 cws st cws' st' E E'; cbn [gen_loop app] in *.
  - injection E as <- _. exists cws'. reflexivity.
  - destruct (gen_step enc x s0 s1 t0 t1) as [[cw [[[u0 u1] v0] v1]]| | |]; try discriminate. cbn [bind] in *.
    destruct (gen_loop enc a u0 u1 v0 v1) as [[c q]| | |] eqn:G; try discriminate. cbn [bind fst snd] in E.
    destruct (gen_loop enc (a ++ a') u0 u1 v0 v1) as [[c' q']| | |] eqn:G'; try discriminate. cbn [bind fst snd] in E'.
    injection E as <- _. injection E' as <- _. destruct (IH _ _ _ _ _ _ _ _ _ G G') as (m & ->). exists m. reflexivity.
Qed.
Lemma eval_loop_app enc : forall x cws more i s t r, eval_loop enc i x cws s t = Ok r -> eval_loop enc i x (cws ++ more) s t = Ok r.
Proof.
  induction x as [|b x IH]; intros [|cw cws] more i s t r E; cbn [eval_loop app] in *; auto; try discriminate.
  destruct (eval_step enc _ cw s t) as [[u v]| | |]; try discriminate. cbn [bind fst snd] in *. apply IH. exact E.
Qed.

Lemma fss_short enc bl a b r x fresh0 fresh1 :
  cipher_ok enc -> rand_ok r -> (length x < length a)%nat -> (length b <= bl)%nat -> (length b < 20)%nat -> Forall reduced b ->
  exists k0 k1 fg o0 f0 o1 f1,
    generate_tree_pf enc bl a b r = Ok (k0, k1, fg) /\
    evaluate_pf enc bl fresh0 0 k0 x (length b) = Ok (o0, f0) /\
    evaluate_pf enc bl fresh1 1 k1 x (length b) = Ok (o1, f1) /\
    length o0 = length b /\ length o1 = length b /\
    (fg = false -> f0 = false -> f1 = false -> bits_read 0 x <> firstn (length x) a ->
     forall j, (j < length b)%nat -> (nth j o0 0 + nth j o1 0) mod ModP = 0).
Proof.
  intros He (L0 & Y0 & L1 & Y1) HX Hbl H20 Hb.
  set (s0 := firstn 16 (r_seed0 r)). set (t0 := nth 16 (r_seed0 r) 0 mod 2).
  assert (S0 : seed_ok s0). { split. unfold s0. rewrite firstn_length, L0. auto. apply Forall_firstn'; auto. }
  assert (S1 : seed_ok (r_seed1 r)) by (split; auto).
  assert (B0 : is_bit t0). { unfold t0, is_bit. lia. }
  assert (B1 : is_bit (Z.lxor t0 1)) by (apply xor_bits; auto; right; auto).
  assert (BX : Z.lxor t0 (Z.lxor t0 1) = 1) by (destruct B0 as [-> | ->]; reflexivity).
  destruct (joint_loop enc He a a 0 s0 (r_seed1 r) t0 (Z.lxor t0 1) eq_refl S0 S1 B0 B1 BX)
    as (cws & s0' & s1' & t0' & t1' & s0z & s1z & t0z & t1z & G & GL & _ & _ & K0 & K1 & C0 & C1 & CX & _).
  assert (HX' : length x = length (firstn (length x) a)) by (rewrite firstn_length; lia).
  destruct (joint_loop enc He (firstn (length x) a) x 0 s0 (r_seed1 r) t0 (Z.lxor t0 1) HX' S0 S1 B0 B1 BX)
    as (cwp & u0 & u1 & v0 & v1 & s0x & s1x & t0x & t1x & G' & GL' & V0 & V1 & _ & _ & _ & _ & _ & Q0 & Q1 & D0 & D1 & _ & OFF).
  assert (G2 := G). rewrite <- (firstn_skipn (length x) a) in G2.
  destruct (gen_loop_app _ _ _ _ _ _ _ _ _ _ _ G' G2) as (more & E). clear G2.
  apply (eval_loop_app _ _ _ more) in V0. apply (eval_loop_app _ _ _ more) in V1. rewrite <- E in V0, V1.
  unfold generate_tree_pf. fold s0 t0. rewrite G. cbn [bind].
  destruct (convert_block_spec enc bl (r_fresh0 r) s0' (length b) He K0 Hbl H20) as [E0 _].
  destruct (convert_block_spec enc bl (r_fresh1 r) s1' (length b) He K1 Hbl H20) as [E1 _].
  destruct (convert_block_spec enc bl fresh0 s0x (length b) He Q0 Hbl H20) as [F0 _].
  destruct (convert_block_spec enc bl fresh1 s1x (length b) He Q1 Hbl H20) as [F1 _].
  set (c0 := map (fun i => to_element (r_fresh0 r i) _) _) in E0.
  set (c1 := map (fun i => to_element (r_fresh1 r i) _) _) in E1.
  set (d0 := map (fun i => to_element (fresh0 i) _) _) in F0.
  set (d1 := map (fun i => to_element (fresh1 i) _) _) in F1.
  rewrite E0. cbn [bind]. rewrite E1. cbn [bind].
  set (f := final_cws t1' b (map fst c0) (map fst c1)).
  assert (LC : forall (g : nat -> Z * bool), length (map fst (map g (range (length b)))) = length b).
  { intros. rewrite !map_length. unfold range. rewrite seq_length. auto. }
  destruct (final_cws_spec t1' b (map fst c0) (map fst c1) (LC _) (LC _)) as [LF NF]. fold f in LF, NF.
  destruct (eval_outs_spec 0 t0x (map fst d0) f) as (o0 & O0 & LO0 & NO0). { unfold d0. rewrite LC. lia. }
  destruct (eval_outs_spec 1 t1x (map fst d1) f) as (o1 & O1 & LO1 & NO1). { unfold d1. rewrite LC. lia. }
  assert (LD0 : length (map fst d0) = length b) by apply LC.
  assert (LD1 : length (map fst d1) = length b) by apply LC.
  assert (CP : forall s, seed_ok s -> go_copy (repeat 0 16) s = s).
  { intros s [Ls _]. unfold go_copy. rewrite repeat_length, firstn_all2 by lia. rewrite skipn_all2 by (rewrite repeat_length; lia).
    apply app_nil_r. }
  exists (mkKey s0 t0 cws f), (mkKey (r_seed1 r) (Z.lxor t0 1) cws f), (existsb snd c0 || existsb snd c1),
    o0, (existsb snd d0), o1, (existsb snd d1).
  unfold evaluate_pf. cbn [k_sinit k_tinit k_cw k_finalcw].
  rewrite !CP by auto. rewrite V0, V1. cbn [bind]. rewrite F0, F1. cbn [bind]. rewrite O0, O1. cbn [bind].
  split; [reflexivity|]. split; [reflexivity|]. split; [reflexivity|]. split; [lia|]. split; [lia|].
  intros HG HF0 HF1 NP j Hj. apply orb_false_iff in HG as [HG0 HG1].
  destruct (convert_block_clean enc bl _ _ _ _ He K0 Hbl H20 E0 HG0) as [W0 R0].
  destruct (convert_block_clean enc bl _ _ _ _ He K1 Hbl H20 E1 HG1) as [W1 R1].
  destruct (convert_block_clean enc bl _ _ _ _ He Q0 Hbl H20 F0 HF0) as [X0 T0].
  destruct (convert_block_clean enc bl _ _ _ _ He Q1 Hbl H20 F1 HF1) as [X1 T1].
  assert (LV : forall s, length (conv_vals enc bl (length b) s) = length b).
  { intros. unfold conv_vals. rewrite map_length. unfold range. apply seq_length. }
  assert (AT : forall s, Forall reduced (conv_vals enc bl (length b) s) -> reduced (nth j (conv_vals enc bl (length b) s) 0)).
  { intros s HF. apply (proj1 (Forall_forall _ _) HF), nth_In. rewrite LV; auto. }
  assert (FB : 0 <= nth j f 0 <= ModP).
  { rewrite NF by auto. rewrite W0, W1. apply final_cw_spec; auto. apply (proj1 (Forall_forall _ _) Hb), nth_In; auto. }
  destruct (OFF NP) as (-> & ->).
  rewrite NO0, NO1 by lia. rewrite X0, X1.
  destruct (eval_out_spec 0 t1x (nth j (conv_vals enc bl (length b) s1x) 0) (nth j f 0) D1 (AT _ T1) FB) as (_ & _ & M0).
  destruct (eval_out_spec 1 t1x (nth j (conv_vals enc bl (length b) s1x) 0) (nth j f 0) D1 (AT _ T1) FB) as (_ & _ & M1).
  change (0 =? 0) with true in M0. change (1 =? 0) with false in M1. cbv iota in M0, M1.
  apply off_path_sum with (w := nth j (conv_vals enc bl (length b) s1x) 0 + t1x * nth j f 0).
  - rewrite M0. f_equal; lia.
  - rewrite M1. f_equal; lia.
Qed.
