(** Correctness of the two-party FSS scheme. *)
From Coq Require Import String ZArith List Bool Lia.
From Verif Require Import GoBase BaseFacts FieldModel FSSModel FieldProofs XorFacts.
Import ListNotations.
Open Scope Z_scope.

Lemma Forall_firstn' {A} (P : A -> Prop) n l : Forall P l -> Forall P (firstn n l).
Proof. intros H. rewrite <- (firstn_skipn n l) in H. apply Forall_app in H. tauto. Qed.
Lemma Forall_skipn' {A} (P : A -> Prop) n l : Forall P l -> Forall P (skipn n l).
Proof. intros H. rewrite <- (firstn_skipn n l) in H. apply Forall_app in H. tauto. Qed.

Definition is_bit (t : Z) : Prop := t = 0 \/ t = 1.
Definition seed_ok (s : list Z) : Prop := length s = 16%nat /\ bytes s.

(** ** prf *)
Lemma prf_spec enc s n : cipher_ok enc -> seed_ok s -> (n <= 4)%nat ->
  exists o, prf enc s n = Ok o /\ length o = (16 * n)%nat /\ bytes o.
Proof.
  intros He [HL HB] Hn. unfold prf. destruct (Nat.ltb_spec 4 n); try lia.
  eexists; split; [reflexivity|]. unfold range. clear H Hn.
  assert (G : forall k, length (flat_map (fun i => xor_list (enc i s) s) (seq k n)) = (16 * n)%nat /\
                        bytes (flat_map (fun i => xor_list (enc i s) s) (seq k n))); [|apply G].
  induction n; intros k; cbn [seq flat_map]. split; [reflexivity|constructor].
  destruct (IHn (S k)) as [H1 H2]. destruct (He k s) as [E1 E2].
  rewrite app_length, xor_list_length, E1, HL, H1. split. lia.
  apply bytes_app; auto. apply xor_list_bytes; auto.
Qed.

Definition half (xb : bool) (o : list Z) : list Z :=
  if xb then firstn 16 (skipn 17 o) else firstn 16 o.
Definition tbit (xb : bool) (o : list Z) : Z :=
  nth (if xb then 33 else 16)%nat o 0 mod 2.

Lemma half_seed xb o : length o = 48%nat -> bytes o -> seed_ok (half xb o).
Proof.
  intros HL HB. unfold half, seed_ok. destruct xb.
  - rewrite firstn_length, skipn_length, HL. split; auto. apply Forall_firstn', Forall_skipn'; auto.
  - rewrite firstn_length, HL. split; auto. apply Forall_firstn'; auto.
Qed.

Lemma tbit_bit xb o : is_bit (tbit xb o).
Proof. unfold is_bit, tbit. pose proof (Z.mod_pos_bound (nth (if xb then 33 else 16)%nat o 0) 2). lia. Qed.

Lemma mul8_bit_bytes t l : is_bit t -> bytes l -> map (mul8 t) l = if t =? 0 then repeat 0 (length l) else l.
Proof.
  intros [->| ->] HB.
  - change (0 =? 0) with true. clear HB. induction l; auto. cbn [map length repeat]. rewrite IHl. auto.
  - change (1 =? 0) with false. induction HB; auto. cbn [map]. rewrite IHHB.
    unfold mul8. rewrite Z.mul_1_l, Z.mod_small; auto.
Qed.

Lemma mul8_bits a b : is_bit a -> is_bit b -> mul8 a b = a * b /\ is_bit (a * b).
Proof. intros [->| ->] [->| ->]; unfold mul8, is_bit; cbn; auto. Qed.

Lemma xor_bits a b : is_bit a -> is_bit b -> is_bit (Z.lxor a b).
Proof. intros [->| ->] [->| ->]; unfold is_bit; cbn; auto. Qed.

(** ** one evaluation step *)
Lemma eval_step_spec enc xb scw tl tr s t o :
  prf enc s 3 = Ok o -> length o = 48%nat -> bytes o ->
  length scw = 16%nat -> bytes scw -> is_bit tl -> is_bit tr -> is_bit t ->
  eval_step enc xb (scw ++ [tl; tr]) s t =
    Ok (xor_list (half xb o) (map (mul8 t) scw),
        Z.lxor (tbit xb o) (mul8 (if xb then tr else tl) t)).
Proof.
  intros HP HL HB HS HSB Htl Htr Ht. unfold eval_step. rewrite HP. cbn [bind].
  rewrite app_length, HS. cbn [length]. change (16 + 2 <? 18)%nat with false. cbn [bind].
  assert (M : firstn 17 (scw ++ [tl; tr]) = scw ++ [tl]).
  { change [tl; tr] with ([tl] ++ [tr]). rewrite app_assoc. apply firstn_app_exact.
    rewrite app_length, HS. reflexivity. }
  assert (M2 : firstn 16 (scw ++ [tl; tr]) = scw) by (apply firstn_app_exact; auto).
  assert (M3 : nth 17 (scw ++ [tl; tr]) 0 = tr).
  { rewrite app_nth2 by lia. rewrite HS. reflexivity. }
  rewrite M, M2, M3.
  assert (Hmask : length (map (mul8 t) ((scw ++ [tl]) ++ scw ++ [tr])) = 34%nat).
  { rewrite map_length, !app_length, HS. reflexivity. }
  assert (Hm2 : forall u, is_bit u -> mul8 t u mod 2 = mul8 u t).
  { intros u Hu. destruct (mul8_bits t u Ht Hu) as [E _]. destruct (mul8_bits u t Hu Ht) as [E2 B2].
    rewrite E, E2, Z.mul_comm. destruct B2 as [-> | ->]; reflexivity. }
  destruct xb.
  - f_equal. f_equal.
    + rewrite xor_list_skipn, xor_list_firstn. f_equal.
      * unfold half. rewrite skipn_firstn_comm. rewrite firstn_firstn. reflexivity.
      * rewrite map_app. rewrite skipn_app_exact by (rewrite map_length, app_length, HS; reflexivity).
        rewrite map_app. apply firstn_app_exact. rewrite map_length. auto.
    + rewrite xor_list_nth by (rewrite ?firstn_length, ?HL, ?Hmask; lia).
      rewrite lxor_mod2. f_equal.
      * unfold tbit. rewrite <- (firstn_skipn 34 o) at 2. rewrite app_nth1; auto.
        rewrite firstn_length; lia.
      * rewrite map_app. rewrite app_nth2 by (rewrite map_length, app_length, HS; cbn; lia).
        rewrite map_length, !app_length, HS. cbn [length].
        rewrite map_app, app_nth2 by (rewrite map_length, HS; lia). rewrite map_length, HS.
        cbn. apply Hm2; auto.
  - f_equal. f_equal.
    + rewrite xor_list_firstn. f_equal.
      * unfold half. rewrite firstn_firstn. reflexivity.
      * rewrite <- app_assoc, map_app. apply firstn_app_exact. rewrite map_length. auto.
    + rewrite xor_list_nth by (rewrite ?firstn_length, ?HL, ?Hmask; lia).
      rewrite lxor_mod2. f_equal.
      * unfold tbit. rewrite <- (firstn_skipn 34 o) at 2. rewrite app_nth1; auto.
        rewrite firstn_length; lia.
      * rewrite <- app_assoc, map_app, app_nth2 by (rewrite map_length, HS; lia).
        rewrite map_length, HS. cbn. apply Hm2; auto.
Qed.

Lemma gen_step_spec enc ab s0 s1 t0 t1 :
  cipher_ok enc -> seed_ok s0 -> seed_ok s1 ->
  exists o0 o1 scw tl tr,
    prf enc s0 3 = Ok o0 /\ prf enc s1 3 = Ok o1 /\
    length o0 = 48%nat /\ bytes o0 /\ length o1 = 48%nat /\ bytes o1 /\
    scw = xor_list (half (negb ab) o0) (half (negb ab) o1) /\ length scw = 16%nat /\ bytes scw /\
    tl = Z.lxor (Z.lxor (Z.lxor (tbit false o0) (tbit false o1)) (if ab then 1 else 0)) 1 /\
    tr = Z.lxor (Z.lxor (tbit true o0) (tbit true o1)) (if ab then 1 else 0) /\
    is_bit tl /\ is_bit tr /\
    gen_step enc ab s0 s1 t0 t1 =
      Ok (scw ++ [tl; tr],
          (xor_list (half ab o0) (map (mul8 t0) scw), xor_list (half ab o1) (map (mul8 t1) scw),
           Z.lxor (tbit ab o0) (mul8 (if ab then tr else tl) t0),
           Z.lxor (tbit ab o1) (mul8 (if ab then tr else tl) t1))).
Proof.
  intros He H0 H1.
  destruct (prf_spec enc s0 3 He H0 ltac:(lia)) as (o0 & P0 & L0 & B0).
  destruct (prf_spec enc s1 3 He H1 ltac:(lia)) as (o1 & P1 & L1 & B1).
  destruct (half_seed (negb ab) o0 L0 B0) as [X0 Y0]. destruct (half_seed (negb ab) o1 L1 B1) as [X1 Y1].
  exists o0, o1, (xor_list (half (negb ab) o0) (half (negb ab) o1)),
    (Z.lxor (Z.lxor (Z.lxor (tbit false o0) (tbit false o1)) (if ab then 1 else 0)) 1),
    (Z.lxor (Z.lxor (tbit true o0) (tbit true o1)) (if ab then 1 else 0)).
  assert (Bab : is_bit (if ab then 1 else 0)) by (destruct ab; unfold is_bit; auto).
  conj_split; auto.
  - rewrite xor_list_length, X0, X1. reflexivity.
  - apply xor_list_bytes; auto.
  - repeat apply xor_bits; auto using tbit_bit. right; auto.
  - repeat apply xor_bits; auto using tbit_bit.
  - unfold gen_step. rewrite P0, P1. cbn [bind]. unfold tbit, half. destruct ab; reflexivity.
Qed.

(** ** one joint step of the two servers against the generator *)
Lemma joint_step enc ab xb s0 s1 t0 t1 :
  cipher_ok enc -> seed_ok s0 -> seed_ok s1 -> is_bit t0 -> is_bit t1 -> Z.lxor t0 t1 = 1 ->
  exists cw s0' s1' t0' t1' s0x s1x t0x t1x,
    gen_step enc ab s0 s1 t0 t1 = Ok (cw, (s0', s1', t0', t1')) /\
    eval_step enc xb cw s0 t0 = Ok (s0x, t0x) /\ eval_step enc xb cw s1 t1 = Ok (s1x, t1x) /\
    seed_ok s0' /\ seed_ok s1' /\ is_bit t0' /\ is_bit t1' /\ Z.lxor t0' t1' = 1 /\
    seed_ok s0x /\ is_bit t0x /\
    (if Bool.eqb xb ab then s0x = s0' /\ s1x = s1' /\ t0x = t0' /\ t1x = t1'
     else s0x = s1x /\ t0x = t1x).
Proof.
  intros He H0 H1 B0 B1 HX.
  destruct (gen_step_spec enc ab s0 s1 t0 t1 He H0 H1)
    as (o0 & o1 & scw & tl & tr & P0 & P1 & L0 & Y0 & L1 & Y1 & Escw & LS & BS & Etl & Etr & Btl & Btr & EG).
  pose proof (eval_step_spec enc xb scw tl tr s0 t0 o0 P0 L0 Y0 LS BS Btl Btr B0) as E0.
  pose proof (eval_step_spec enc xb scw tl tr s1 t1 o1 P1 L1 Y1 LS BS Btl Btr B1) as E1.
  assert (SK : forall b o t, length o = 48%nat -> bytes o -> is_bit t ->
              seed_ok (xor_list (half b o) (map (mul8 t) scw))).
  { intros b o t L Y T. destruct (half_seed b o L Y) as [Q1 Q2].
    split. rewrite xor_list_length, map_length, Q1, LS. reflexivity.
    apply xor_list_bytes; auto. rewrite mul8_bit_bytes by auto.
    destruct (t =? 0); auto. rewrite LS. apply Forall_forall. intros z Hz. apply repeat_spec in Hz. subst.
    unfold is_byte, w8; lia. }
  assert (TK : forall b o u t, is_bit u -> is_bit t -> is_bit (Z.lxor (tbit b o) (mul8 u t))).
  { intros b o u t U T. apply xor_bits. apply tbit_bit. destruct (mul8_bits u t U T) as [-> ?]. auto. }
  assert (TX : Z.lxor (Z.lxor (tbit ab o0) (mul8 (if ab then tr else tl) t0))
                      (Z.lxor (tbit ab o1) (mul8 (if ab then tr else tl) t1)) = 1).
  { subst tl tr.
    destruct (tbit_bit ab o0) as [Q|Q]; destruct (tbit_bit ab o1) as [R|R];
      destruct ab; rewrite ?Q, ?R in *;
      destruct B0 as [-> | ->]; destruct B1 as [-> | ->]; cbn in HX; try discriminate HX;
      vm_compute; reflexivity. }
  do 9 eexists. split; [exact EG|]. split; [exact E0|]. split; [exact E1|].
  split; [apply SK; auto|]. split; [apply SK; auto|].
  split; [apply TK; auto; destruct ab; auto|]. split; [apply TK; auto; destruct ab; auto|].
  split; [exact TX|]. split; [apply SK; auto|]. split; [apply TK; auto; destruct xb; auto|].
  destruct (Bool.eqb xb ab) eqn:Eq.
  - apply eqb_prop in Eq. subst xb. auto.
  - apply eqb_false_iff in Eq. assert (xb = negb ab) by (destruct xb, ab; cbn in *; congruence). subst xb.
    split.
    + rewrite !mul8_bit_bytes by auto.
      destruct (half_seed (negb ab) o0 L0 Y0) as [X0 _]. destruct (half_seed (negb ab) o1 L1 Y1) as [X1 _].
      destruct B0 as [-> | ->]; destruct B1 as [-> | ->]; cbn in HX; try discriminate HX; cbn [Z.eqb].
      * rewrite xor_list_zero by lia. rewrite Escw.
        rewrite (xor_list_comm (half (negb ab) o0) (half (negb ab) o1)).
        rewrite <- xor_list_assoc, xor_list_self, X1, xor_list_comm, xor_list_zero by lia. auto.
      * rewrite xor_list_zero by lia. rewrite Escw.
        rewrite <- xor_list_assoc, xor_list_self, X0, xor_list_comm, xor_list_zero by lia. auto.
    + subst tl tr. 
      destruct (tbit_bit (negb ab) o0) as [Q|Q]; destruct (tbit_bit (negb ab) o1) as [R|R];
      destruct ab; cbn [negb] in *; rewrite ?Q, ?R in *;
      destruct B0 as [-> | ->]; destruct B1 as [-> | ->]; cbn in HX; try discriminate HX;
      vm_compute; reflexivity.
Qed.

(** the bits a server actually reads: position 256 is taken as zero *)
Fixpoint bits_read (i : nat) (x : list bool) : list bool :=
  match x with
  | [] => []
  | b :: t => (if (i =? 256)%nat then false else b) :: bits_read (S i) t
  end.

Lemma bits_read_length x : forall i, length (bits_read i x) = length x.
Proof. induction x; intros; simpl; auto. Qed.

Lemma bits_read_short x : forall i, (i + length x <= 256)%nat -> bits_read i x = x.
Proof.
  induction x; intros i Hi; cbn [bits_read length] in *; auto.
  destruct (Nat.eqb_spec i 256); try lia. rewrite IHx; auto. lia.
Qed.

Lemma joint_loop enc : cipher_ok enc -> forall a x i s0 s1 t0 t1,
  length x = length a ->
  seed_ok s0 -> seed_ok s1 -> is_bit t0 -> is_bit t1 -> Z.lxor t0 t1 = 1 ->
  exists cws s0' s1' t0' t1' s0x s1x t0x t1x,
    gen_loop enc a s0 s1 t0 t1 = Ok (cws, (s0', s1', t0', t1')) /\ length cws = length a /\
    eval_loop enc i x cws s0 t0 = Ok (s0x, t0x) /\ eval_loop enc i x cws s1 t1 = Ok (s1x, t1x) /\
    seed_ok s0' /\ seed_ok s1' /\ is_bit t0' /\ is_bit t1' /\ Z.lxor t0' t1' = 1 /\
    seed_ok s0x /\ seed_ok s1x /\ is_bit t0x /\ is_bit t1x /\
    (bits_read i x = a -> s0x = s0' /\ s1x = s1' /\ t0x = t0' /\ t1x = t1') /\
    (bits_read i x <> a -> s0x = s1x /\ t0x = t1x).
Proof.
  intros He.
  (* off the path the two servers run the same computation *)
  assert (OFF : forall x i cws s t, exists r, eval_loop enc i x cws s t = r) by (intros; eexists; eauto).
  induction a as [|ab a IH]; intros x i s0 s1 t0 t1 HL H0 H1 B0 B1 HX.
  - destruct x; try discriminate. do 9 eexists. cbn [gen_loop eval_loop].
    split; [reflexivity|]. split; [reflexivity|]. split; [reflexivity|]. split; [reflexivity|].
    conj_split; auto. cbn [bits_read]. intros; congruence.
  - destruct x as [|xb x]; try discriminate. cbn [length] in *.
    destruct (joint_step enc ab (if (i =? 256)%nat then false else xb) s0 s1 t0 t1 He H0 H1 B0 B1 HX)
      as (cw & s0' & s1' & t0' & t1' & s0x & s1x & t0x & t1x & EG & E0 & E1 & K0 & K1 & C0 & C1 & CX & KX & CB & HC).
    destruct (IH x (S i) s0' s1' t0' t1' ltac:(lia) K0 K1 C0 C1 CX)
      as (cws & S0' & S1' & T0' & T1' & S0x & S1x & T0x & T1x & G & GL & V0 & V1 & R).
    cbn [gen_loop eval_loop]. rewrite EG. cbn [bind]. rewrite G. cbn [bind fst snd].
    cbn [bits_read].
    set (rb := if (i =? 256)%nat then false else xb) in *. clearbody rb.
    destruct (Bool.eqb rb ab) eqn:Eq.
    + apply eqb_prop in Eq. subst rb. destruct HC as (-> & -> & -> & ->).
      do 9 eexists. split; [reflexivity|]. split; [cbn; lia|].
      rewrite E0, E1. cbn [bind fst snd]. split; [exact V0|]. split; [exact V1|].
      destruct R as (R1 & R2 & R3 & R4 & R5 & R6 & R7 & R8 & R9 & RA & RB).
      conj_split; auto; intros Q.
      * apply RA. congruence.
      * apply RB. congruence.
    + apply eqb_false_iff in Eq. destruct HC as (EqS & EqT). subst s1x t1x.
      (* both servers are in the same state; continue with the generator's words *)
      assert (SAME : exists sx tx, eval_loop enc (S i) x cws s0x t0x = Ok (sx, tx) /\ seed_ok sx /\ is_bit tx).
      { assert (NOPANIC : forall x cws i s t, length x = length cws ->
                  Forall (fun cw => exists scw tl tr, cw = scw ++ [tl; tr] /\ length scw = 16%nat /\ bytes scw /\ is_bit tl /\ is_bit tr) cws ->
                  seed_ok s -> is_bit t -> exists sx tx, eval_loop enc i x cws s t = Ok (sx, tx) /\ seed_ok sx /\ is_bit tx).
        { clear - He. induction x as [|b x IHx]; intros [|c cws] i s t HL HF Hs Ht; try discriminate; cbn [eval_loop].
          - eauto.
          - inversion HF as [|? ? (scw & tl & tr & -> & LS & BS & Btl & Btr) HF']; subst.
            destruct (prf_spec enc s 3 He Hs ltac:(lia)) as (o & P & L & B).
            rewrite (eval_step_spec enc _ scw tl tr s t o) by auto. cbn [bind fst snd].
            apply IHx; auto.
            + destruct (half_seed (if (i =? 256)%nat then false else b) o L B) as [Q1 Q2].
              split. rewrite xor_list_length, map_length, Q1, LS. reflexivity.
              apply xor_list_bytes; auto. rewrite mul8_bit_bytes by auto.
              destruct (t =? 0); auto. rewrite LS. apply Forall_forall. intros z Hz. apply repeat_spec in Hz. subst.
              unfold is_byte, w8; lia.
            + apply xor_bits. apply tbit_bit. 
              destruct (mul8_bits (if if (i =? 256)%nat then false else b then tr else tl) t) as [-> ?]; auto.
              destruct (if (i =? 256)%nat then false else b); auto. }
        apply NOPANIC; auto; try lia.
        clear - He G K0 K1.
        revert s0' s1' t0' t1' cws S0' S1' T0' T1' G K0 K1.
        induction a as [|ab a IHa]; intros s0 s1 t0 t1 cws S0' S1' T0' T1' G K0 K1; cbn [gen_loop] in G.
        - injection G as <- <- <- <- <-. constructor.
        - destruct (gen_step_spec enc ab s0 s1 t0 t1 He K0 K1)
            as (o0 & o1 & scw & tl & tr & P0 & P1 & L0 & Y0 & L1 & Y1 & Escw & LS & BS & Etl & Etr & Btl & Btr & EG).
          rewrite EG in G. cbn [bind] in G.
          destruct (gen_loop enc a _ _ _ _) as [[cws' st]| | |] eqn:GL; try discriminate.
          cbn [bind fst snd] in G. injection G as <- E. subst st.
          constructor.
          + exists scw, tl, tr. auto.
          + eapply IHa; [exact GL| |].
            * split. rewrite xor_list_length, map_length, LS. destruct (half_seed ab o0 L0 Y0) as [-> _]. reflexivity.
              apply xor_list_bytes. apply (half_seed ab o0); auto.
              apply Forall_map, Forall_forall. intros z _. unfold mul8, is_byte, w8. apply Z.mod_pos_bound. lia.
            * split. rewrite xor_list_length, map_length, LS. destruct (half_seed ab o1 L1 Y1) as [-> _]. reflexivity.
              apply xor_list_bytes. apply (half_seed ab o1); auto.
              apply Forall_map, Forall_forall. intros z _. unfold mul8, is_byte, w8. apply Z.mod_pos_bound. lia. }
      destruct SAME as (sx & tx & ES & HSx & HTx).
      do 9 eexists. split; [reflexivity|]. split; [cbn; lia|].
      rewrite E0, E1. cbn [bind fst snd]. split; [exact ES|]. split; [exact ES|].
      destruct R as (R1 & R2 & R3 & R4 & R5 & _).
      conj_split; auto. intros Q; congruence.
Qed.

(** ** conversion *)
Lemma go_copy_length {A} (d s : list A) : length (go_copy d s) = length d.
Proof. unfold go_copy. rewrite app_length, firstn_length, skipn_length. lia. Qed.

Lemma bytes_repeat0 n : bytes (repeat 0 n).
Proof. apply Forall_forall. intros z Hz. apply repeat_spec in Hz. subst. unfold is_byte, w8; lia. Qed.

Lemma go_copy_bytes d s : bytes d -> bytes s -> bytes (go_copy d s).
Proof. intros. apply bytes_app. apply Forall_firstn'; auto. apply Forall_skipn'; auto. Qed.

Definition group (i : nat) (l : list Z) : list Z := firstn 4 (skipn (4 * i) l).

Lemma bytes_to_elements_spec fresh n l :
  (4 * n <= length l)%nat ->
  bytes_to_elements fresh n l = Ok (map (fun i => to_element (fresh i) (group i l)) (range n)).
Proof.
  intros H. unfold bytes_to_elements. apply mapM_ok. intros i Hi. unfold range in Hi. apply in_seq in Hi.
  rewrite go_slice_ok by (unfold zlen; lia). cbn [bind]. unfold group.
  replace (Z.to_nat (4 * Z.of_nat i + 4 - 4 * Z.of_nat i)) with 4%nat by lia.
  replace (Z.to_nat (4 * Z.of_nat i)) with (4 * i)%nat by lia. auto.
Qed.

Definition conv_buffer (enc : cipher) (blockLength n : nat) (s : list Z) : list Z :=
  go_copy (repeat 0 (4 * blockLength)) (flat_map (fun i => xor_list (enc i s) s) (range (n / 4))).

Lemma convert_block_spec enc bl fresh s n :
  cipher_ok enc -> seed_ok s -> (n <= bl)%nat -> (n < 20)%nat ->
  convert_block enc bl fresh s n =
    Ok (map (fun i => to_element (fresh i) (group i (conv_buffer enc bl n s))) (range n)) /\
  forall i, (i < n)%nat -> length (group i (conv_buffer enc bl n s)) = 4%nat /\ bytes (group i (conv_buffer enc bl n s)).
Proof.
  intros He Hs Hn H20. unfold convert_block.
  assert (H4 : (n / 4 <= 4)%nat) by (assert (n / 4 < 5)%nat by (apply Nat.div_lt_upper_bound; lia); lia).
  destruct (prf_spec enc s (n / 4) He Hs H4) as (o & P & L & B).
  assert (EO : o = flat_map (fun i => xor_list (enc i s) s) (range (n / 4))).
  { unfold prf in P. destruct (4 <? n / 4)%nat; congruence. }
  rewrite P. cbn [bind]. rewrite EO. fold (conv_buffer enc bl n s).
  assert (HB : bytes (conv_buffer enc bl n s)).
  { unfold conv_buffer. apply go_copy_bytes. apply bytes_repeat0. rewrite <- EO. auto. }
  assert (HL : length (conv_buffer enc bl n s) = (4 * bl)%nat).
  { unfold conv_buffer. rewrite go_copy_length, repeat_length. auto. }
  split.
  - apply bytes_to_elements_spec. lia.
  - intros i Hi. unfold group. rewrite firstn_length, skipn_length, HL. split. lia.
    apply Forall_firstn', Forall_skipn'; auto.
Qed.

Definition clean (enc : cipher) (bl n : nat) (s : list Z) : Prop :=
  forall i, (i < n)%nat -> masked_be (group i (conv_buffer enc bl n s)) <> ModP.
Definition conv_vals (enc : cipher) (bl n : nat) (s : list Z) : list Z :=
  map (fun i => masked_be (group i (conv_buffer enc bl n s))) (range n).

Lemma convert_block_clean enc bl fresh s n c :
  cipher_ok enc -> seed_ok s -> (n <= bl)%nat -> (n < 20)%nat ->
  convert_block enc bl fresh s n = Ok c -> existsb snd c = false ->
  map fst c = conv_vals enc bl n s /\ Forall (fun v => 0 <= v < ModP) (conv_vals enc bl n s).
Proof.
  intros He Hs Hn H20 E HC.
  destruct (convert_block_spec enc bl fresh s n He Hs Hn H20) as [ES HG]. rewrite ES in E.
  injection E as <-.
  assert (HF : forall i, In i (range n) -> masked_be (group i (conv_buffer enc bl n s)) <> ModP).
  { intros i Hi EM.
    assert (existsb snd (map (fun i => to_element (fresh i) (group i (conv_buffer enc bl n s))) (range n)) = true); [|congruence].
    apply existsb_exists. eexists. split. apply in_map. exact Hi.
    unfold to_element. rewrite EM. reflexivity. }
  unfold conv_vals. split.
  - rewrite map_map. apply map_ext_in. intros i Hi. unfold to_element.
    destruct (Z.eqb_spec (masked_be (group i (conv_buffer enc bl n s))) ModP); auto.
    exfalso. eapply HF; eauto.
  - apply Forall_forall. intros v Hv. apply in_map_iff in Hv as (i & <- & Hi).
    pose proof (HF i Hi). unfold range in Hi. apply in_seq in Hi.
    destruct (HG i) as [A B]; try lia. pose proof (masked_be_bound _ A B). lia.
Qed.

(** ** outputs *)
Lemma eval_outs_spec sn t : forall tmp cws, (length tmp <= length cws)%nat ->
  exists o, eval_outs sn t tmp cws = Ok o /\ length o = length tmp /\
   forall j, (j < length tmp)%nat -> nth j o 0 = eval_out sn t (nth j tmp 0) (nth j cws 0).
Proof.
  induction tmp as [|x tmp IH]; intros [|c cws] H; cbn [length] in *; cbn [eval_outs].
  - eexists; split; [reflexivity|]. split; auto. intros; lia.
  - eexists; split; [reflexivity|]. split; auto. intros; lia.
  - lia.
  - destruct (IH cws) as (o & E & L & N); try lia. rewrite E. cbn [bind].
    eexists; split; [reflexivity|]. split. cbn; lia.
    intros [|j] Hj; cbn [nth]; auto. apply N. lia.
Qed.

Lemma final_cws_spec t1 : forall b x y, length x = length b -> length y = length b ->
  length (final_cws t1 b x y) = length b /\
  forall j, (j < length b)%nat -> nth j (final_cws t1 b x y) 0 = final_cw t1 (nth j b 0) (nth j x 0) (nth j y 0).
Proof.
  induction b as [|u b IH]; intros [|v x] [|w y] Hx Hy; try discriminate; cbn [final_cws length].
  - split; auto. intros; lia.
  - destruct (IH x y) as [L N]; auto. split. lia. intros [|j] Hj; cbn [nth]; auto. apply N. lia.
Qed.

Definition reduced (v : Z) : Prop := 0 <= v < ModP.

Lemma final_cw_spec t1 b x y : reduced b -> reduced x -> reduced y ->
  0 <= final_cw t1 b x y <= ModP /\
  final_cw t1 b x y mod ModP = ((if t1 =? 1 then -1 else 1) * (b - x + y)) mod ModP.
Proof.
  unfold reduced, final_cw, u32, w32. intros Hb Hx Hy.
  assert (HP : ModP = 2147483647) by reflexivity.
  rewrite (Z.mod_small (ModP - x)) by lia.
  rewrite (Z.mod_small (b + (ModP - x))) by lia.
  pose proof (Z.mod_pos_bound (b + (ModP - x)) ModP ltac:(lia)).
  rewrite (Z.mod_small ((b + (ModP - x)) mod ModP + y)) by lia.
  set (v := ((b + (ModP - x)) mod ModP + y) mod ModP).
  assert (Hv : 0 <= v < ModP) by (apply Z.mod_pos_bound; lia).
  assert (EV : v mod ModP = (b - x + y) mod ModP).
  { unfold v. rewrite Z.mod_mod by lia. rewrite Zplus_mod_idemp_l.
    replace (b + (ModP - x) + y) with (b - x + y + 1 * ModP) by lia. rewrite Z.mod_add by lia. auto. }
  destruct (Z.eqb_spec t1 1).
  - rewrite (Z.mod_small (ModP - v)) by lia. split. lia.
    apply modP_elim in EV as [k Hk]. apply modP_intro with (1 - k). rewrite Hk. lia.
  - split. lia. rewrite EV. f_equal. lia.
Qed.

Lemma eval_out_spec sn t x c : is_bit t -> reduced x -> 0 <= c <= ModP ->
  (sn = 0 -> 0 <= eval_out sn t x c < ModP) /\ 0 <= eval_out sn t x c <= ModP /\
  eval_out sn t x c mod ModP = ((if sn =? 0 then 1 else -1) * (x + t * c)) mod ModP.
Proof.
  unfold reduced, eval_out, u32, w32. intros Ht Hx Hc.
  assert (HP : ModP = 2147483647) by reflexivity.
  assert (Htc : 0 <= t * c <= ModP) by (destruct Ht as [-> | ->]; lia).
  rewrite (Z.mod_small (t * c)) by lia. rewrite (Z.mod_small (x + t * c)) by lia.
  pose proof (Z.mod_pos_bound (x + t * c) ModP ltac:(lia)).
  destruct (Z.eqb_spec sn 0).
  - split; [lia|]. split; [lia|]. rewrite Z.mod_mod by lia. f_equal. lia.
  - rewrite (Z.mod_small (ModP - _)) by lia. split; [lia|]. split; [lia|].
    destruct (modP_self (x + t * c)) as [k Hk]. apply modP_intro with (1 - k). rewrite Hk. lia.
Qed.

Lemma modP_add a b a' b' : a mod ModP = a' mod ModP -> b mod ModP = b' mod ModP ->
  (a + b) mod ModP = (a' + b') mod ModP.
Proof. intros Ha Hb. rewrite (Z.add_mod a b), Ha, Hb, <- Z.add_mod by discriminate. reflexivity. Qed.

Lemma on_path_sum b u v t0 t1 f o0 o1 :
  reduced b -> is_bit t0 -> is_bit t1 -> Z.lxor t0 t1 = 1 ->
  f mod ModP = ((if t1 =? 1 then -1 else 1) * (b - u + v)) mod ModP ->
  o0 mod ModP = (u + t0 * f) mod ModP -> o1 mod ModP = (- (v + t1 * f)) mod ModP ->
  (o0 + o1) mod ModP = b.
Proof.
  intros Rb C0 C1 CX MF M0 M1. rewrite (modP_add _ _ _ _ M0 M1). clear M0 M1.
  rewrite <- (Z.mod_small b ModP) by exact Rb.
  apply modP_elim in MF as [k Hk].
  destruct C0 as [-> | ->]; destruct C1 as [-> | ->]; cbn in CX; try discriminate CX.
  - change (1 =? 1) with true in Hk. cbv iota in Hk. apply modP_intro with (- k). rewrite Hk. lia.
  - change (0 =? 1) with false in Hk. cbv iota in Hk. apply modP_intro with k. rewrite Hk. lia.
Qed.

Lemma off_path_sum o0 o1 w :
  o0 mod ModP = w mod ModP -> o1 mod ModP = (- w) mod ModP -> (o0 + o1) mod ModP = 0.
Proof. intros M0 M1. rewrite (modP_add _ _ _ _ M0 M1), Z.add_opp_diag_r. reflexivity. Qed.

(** ** main theorem *)
Definition rand_ok (r : gen_rand) : Prop :=
  length (r_seed0 r) = 17%nat /\ bytes (r_seed0 r) /\ length (r_seed1 r) = 16%nat /\ bytes (r_seed1 r).

Lemma fss_correct enc bl a b r x fresh0 fresh1 :
  cipher_ok enc -> rand_ok r ->
  length x = length a ->
  (length b <= bl)%nat -> (length b < 20)%nat -> Forall reduced b ->
  exists k0 k1 fg o0 f0 o1 f1,
    generate_tree_pf enc bl a b r = Ok (k0, k1, fg) /\
    evaluate_pf enc bl fresh0 0 k0 x (length b) = Ok (o0, f0) /\
    evaluate_pf enc bl fresh1 1 k1 x (length b) = Ok (o1, f1) /\
    length o0 = length b /\ length o1 = length b /\
    (fg = false -> f0 = false -> f1 = false ->
     Forall (fun v => 0 <= v < ModP) o0 /\ Forall (fun v => 0 <= v <= ModP) o1 /\
     forall j, (j < length b)%nat ->
       (bits_read 0 x = a -> (nth j o0 0 + nth j o1 0) mod ModP = nth j b 0) /\
       (bits_read 0 x <> a -> (nth j o0 0 + nth j o1 0) mod ModP = 0)).
Proof.
  intros He (L0 & Y0 & L1 & Y1) HX Hbl H20 Hb.
  assert (HP : ModP = 2147483647) by reflexivity.
  set (s0 := firstn 16 (r_seed0 r)). set (t0 := nth 16 (r_seed0 r) 0 mod 2).
  assert (S0 : seed_ok s0). { split. unfold s0. rewrite firstn_length, L0. auto. apply Forall_firstn'; auto. }
  assert (S1 : seed_ok (r_seed1 r)) by (split; auto).
  assert (B0 : is_bit t0). { unfold t0, is_bit. lia. }
  assert (B1 : is_bit (Z.lxor t0 1)) by (apply xor_bits; auto; right; auto).
  assert (BX : Z.lxor t0 (Z.lxor t0 1) = 1) by (destruct B0 as [-> | ->]; reflexivity).
  destruct (joint_loop enc He a x 0 s0 (r_seed1 r) t0 (Z.lxor t0 1) HX S0 S1 B0 B1 BX)
    as (cws & s0' & s1' & t0' & t1' & s0x & s1x & t0x & t1x & G & GL & V0 & V1 & K0 & K1 & C0 & C1 & CX & Q0 & Q1 & D0 & D1 & ON & OFF).
  unfold generate_tree_pf. fold s0 t0. rewrite G. cbn [bind].
  destruct (convert_block_spec enc bl (r_fresh0 r) s0' (length b) He K0 Hbl H20) as [E0 _].
  destruct (convert_block_spec enc bl (r_fresh1 r) s1' (length b) He K1 Hbl H20) as [E1 _].
  destruct (convert_block_spec enc bl fresh0 s0x (length b) He Q0 Hbl H20) as [F0 _].
  destruct (convert_block_spec enc bl fresh1 s1x (length b) He Q1 Hbl H20) as [F1 _].
  set (c0 := map (fun i => to_element (r_fresh0 r i) _) _) in E0.
  set (c1 := map (fun i => to_element (r_fresh1 r i) _) _) in E1.
  set (d0 := map (fun i => to_element (fresh0 i) _) _) in F0.
  set (d1 := map (fun i => to_element (fresh1 i) _) _) in F1.
  rewrite E0. cbn [bind]. rewrite E1. cbn [bind].
  set (f := final_cws t1' b (map fst c0) (map fst c1)).
  assert (LC : forall (g : nat -> Z * bool), length (map fst (map g (range (length b)))) = length b).
  { intros. rewrite !map_length. unfold range. rewrite seq_length. auto. }
  destruct (final_cws_spec t1' b (map fst c0) (map fst c1) (LC _) (LC _)) as [LF NF]. fold f in LF, NF.
  destruct (eval_outs_spec 0 t0x (map fst d0) f) as (o0 & O0 & LO0 & NO0). { unfold d0. rewrite LC. lia. }
  destruct (eval_outs_spec 1 t1x (map fst d1) f) as (o1 & O1 & LO1 & NO1). { unfold d1. rewrite LC. lia. }
  assert (LD0 : length (map fst d0) = length b) by apply LC.
  assert (LD1 : length (map fst d1) = length b) by apply LC.
  assert (CP : forall s, seed_ok s -> go_copy (repeat 0 16) s = s).
  { intros s [Ls _]. unfold go_copy. rewrite repeat_length, firstn_all2 by lia. rewrite skipn_all2 by (rewrite repeat_length; lia).
    apply app_nil_r. }
  exists (mkKey s0 t0 cws f), (mkKey (r_seed1 r) (Z.lxor t0 1) cws f), (existsb snd c0 || existsb snd c1),
    o0, (existsb snd d0), o1, (existsb snd d1).
  unfold evaluate_pf. cbn [k_sinit k_tinit k_cw k_finalcw].
  rewrite !CP by auto. rewrite V0, V1. cbn [bind]. rewrite F0, F1. cbn [bind]. rewrite O0, O1. cbn [bind].
  split; [reflexivity|]. split; [reflexivity|]. split; [reflexivity|]. split; [lia|]. split; [lia|].
  intros HG HF0 HF1. apply orb_false_iff in HG as [HG0 HG1].
  destruct (convert_block_clean enc bl _ _ _ _ He K0 Hbl H20 E0 HG0) as [W0 R0].
  destruct (convert_block_clean enc bl _ _ _ _ He K1 Hbl H20 E1 HG1) as [W1 R1].
  destruct (convert_block_clean enc bl _ _ _ _ He Q0 Hbl H20 F0 HF0) as [X0 T0].
  destruct (convert_block_clean enc bl _ _ _ _ He Q1 Hbl H20 F1 HF1) as [X1 T1].
  rewrite W0, W1 in NF. rewrite X0 in NO0, LD0, LO0. rewrite X1 in NO1, LD1, LO1.
  assert (LV : forall s, length (conv_vals enc bl (length b) s) = length b).
  { intros. unfold conv_vals. rewrite map_length. unfold range. apply seq_length. }
  assert (AT : forall s j, (j < length b)%nat -> Forall reduced (conv_vals enc bl (length b) s) ->
               reduced (nth j (conv_vals enc bl (length b) s) 0)).
  { intros s j Hj HF. apply (proj1 (Forall_forall _ _) HF), nth_In. rewrite LV; auto. }
  assert (FB : forall j, (j < length b)%nat -> 0 <= nth j f 0 <= ModP /\
            nth j f 0 mod ModP = ((if t1' =? 1 then -1 else 1) *
               (nth j b 0 - nth j (conv_vals enc bl (length b) s0') 0 + nth j (conv_vals enc bl (length b) s1') 0)) mod ModP).
  { intros j Hj. rewrite NF by auto. apply final_cw_spec; auto.
    apply (proj1 (Forall_forall _ _) Hb), nth_In; auto. }
  assert (OUT0 : forall j, (j < length b)%nat -> 0 <= nth j o0 0 < ModP /\
            nth j o0 0 mod ModP = (nth j (conv_vals enc bl (length b) s0x) 0 + t0x * nth j f 0) mod ModP).
  { intros j Hj. rewrite NO0 by lia. destruct (FB j Hj) as [FB1 _].
    destruct (eval_out_spec 0 t0x (nth j (conv_vals enc bl (length b) s0x) 0) (nth j f 0) D0 (AT _ _ Hj T0) FB1) as (A & _ & C).
    split; [auto|]. rewrite C. change (0 =? 0) with true. cbv iota. apply modP_intro with 0. lia. }
  assert (OUT1 : forall j, (j < length b)%nat -> 0 <= nth j o1 0 <= ModP /\
            nth j o1 0 mod ModP = (- (nth j (conv_vals enc bl (length b) s1x) 0 + t1x * nth j f 0)) mod ModP).
  { intros j Hj. rewrite NO1 by lia. destruct (FB j Hj) as [FB1 _].
    destruct (eval_out_spec 1 t1x (nth j (conv_vals enc bl (length b) s1x) 0) (nth j f 0) D1 (AT _ _ Hj T1) FB1) as (_ & B & C).
    split; [exact B|]. rewrite C. change (1 =? 0) with false. cbv iota. apply modP_intro with 0. lia. }
  split; [|split].
  - apply Forall_forall. intros v Hv. apply In_nth with (d := 0) in Hv as (j & Hj & <-). apply OUT0. rewrite <- LD0, <- LO0. exact Hj.
  - apply Forall_forall. intros v Hv. apply In_nth with (d := 0) in Hv as (j & Hj & <-). apply OUT1. rewrite <- LD1, <- LO1. exact Hj.
  - intros j Hj. destruct (OUT0 j Hj) as [_ M0]. destruct (OUT1 j Hj) as [_ M1]. destruct (FB j Hj) as [_ MF].
    assert (Rb : reduced (nth j b 0)) by (apply (proj1 (Forall_forall _ _) Hb), nth_In; auto).
    split; intros Q.
    + destruct (ON Q) as (-> & -> & -> & ->).
      exact (on_path_sum _ _ _ _ _ _ _ _ Rb C0 C1 CX MF M0 M1).
    + destruct (OFF Q) as (-> & ->). exact (off_path_sum _ _ _ M0 M1).
Qed.

(** ** range of every evaluation, honest key or not *)
Lemma eval_outs_range sn t : forall tmp cws o, eval_outs sn t tmp cws = Ok o ->
  (sn = 0 -> Forall (fun v => 0 <= v < ModP) o) /\ (sn <> 0 -> Forall (fun v => 1 <= v <= ModP) o) /\
  length o = length tmp.
Proof.
  induction tmp as [|x tmp IH]; intros [|c cws] o E; cbn [eval_outs] in E; try discriminate.
  - injection E as <-. auto.
  - injection E as <-. auto.
  - destruct (eval_outs sn t tmp cws) as [r| | |] eqn:ER; try discriminate. cbn [bind] in E. injection E as <-.
    destruct (IH _ _ ER) as (A & B & C).
    assert (HP : ModP = 2147483647) by reflexivity.
    pose proof (Z.mod_pos_bound (u32 (x + u32 (t * c))) ModP ltac:(lia)) as HM.
    unfold eval_out. cbv zeta. set (v := u32 (x + u32 (t * c)) mod ModP) in *.
    split; [|split]; [intros H|intros H|cbn [length]; rewrite C; reflexivity].
    + constructor; auto. apply Z.eqb_eq in H. rewrite H. auto.
    + constructor; auto. apply Z.eqb_neq in H. rewrite H. unfold u32, w32. rewrite (Z.mod_small (ModP - v)); lia.
Qed.

Lemma evaluate_range enc bl fresh sn k x n o f :
  evaluate_pf enc bl fresh sn k x n = Ok (o, f) ->
  (sn = 0 -> Forall (fun v => 0 <= v < ModP) o) /\ (sn <> 0 -> Forall (fun v => 1 <= v <= ModP) o).
Proof.
  unfold evaluate_pf. destruct (eval_loop _ _ _ _ _ _) as [[s t]| | |]; try discriminate. cbn [bind].
  destruct (convert_block _ _ _ _ _) as [c| | |]; try discriminate. cbn [bind].
  destruct (eval_outs _ _ _ _) as [r| | |] eqn:E; try discriminate. cbn [bind]. intros H. injection H as <- <-.
  apply eval_outs_range in E. tauto.
Qed.

(** ** payload elements beyond the last full AES block are not masked *)
Lemma group_tail_zero enc bl n s j :
  cipher_ok enc -> seed_ok s -> (n <= bl)%nat -> (n < 20)%nat -> (4 * (n / 4) <= j < n)%nat ->
  masked_be (group j (conv_buffer enc bl n s)) = 0.
Proof.
  intros He Hs Hn H20 Hj.
  assert (H4 : (n / 4 <= 4)%nat) by (assert (n / 4 < 5)%nat by (apply Nat.div_lt_upper_bound; lia); lia).
  destruct (prf_spec enc s (n / 4) He Hs H4) as (o & P & L & B).
  assert (EO : o = flat_map (fun i => xor_list (enc i s) s) (range (n / 4))).
  { unfold prf in P. destruct (4 <? n / 4)%nat; congruence. }
  unfold group, conv_buffer. rewrite <- EO. unfold go_copy.
  rewrite repeat_length. rewrite (firstn_all2 (n := 4 * bl) o) by (rewrite L; pose proof (Nat.mul_div_le n 4 ltac:(lia)); lia).
  rewrite skipn_app. rewrite (skipn_all2 (n := 4 * j) o) by lia. cbn [app].
  assert (SR : forall m (z : Z) k, skipn k (repeat z m) = repeat z (m - k)).
  { induction m; intros z [|k]; cbn; auto. }
  rewrite !SR. 
  assert (FR : forall m (z : Z) k, firstn k (repeat z m) = repeat z (Nat.min k m)).
  { induction m; intros z [|k]; cbn; auto. f_equal. auto. }
  rewrite FR. rewrite Nat.min_l.
  - reflexivity.
  - rewrite L. lia.
Qed.

Lemma fss_payload_leak enc bl a b r k0 k1 fg j :
  cipher_ok enc -> rand_ok r ->
  (length b <= bl)%nat -> (length b < 20)%nat -> Forall reduced b ->
  generate_tree_pf enc bl a b r = Ok (k0, k1, fg) ->
  (4 * (length b / 4) <= j < length b)%nat ->
  k_finalcw k0 = k_finalcw k1 /\
  (nth j (k_finalcw k0) 0 = nth j b 0 \/ nth j (k_finalcw k0) 0 = ModP - nth j b 0).
Proof.
  intros He (L0 & Y0 & L1 & Y1) Hbl H20 Hb HG Hj.
  assert (HP : ModP = 2147483647) by reflexivity.
  unfold generate_tree_pf in HG.
  set (s0 := firstn 16 (r_seed0 r)) in *. set (t0 := nth 16 (r_seed0 r) 0 mod 2) in *.
  assert (S0 : seed_ok s0). { split. unfold s0. rewrite firstn_length, L0. auto. apply Forall_firstn'; auto. }
  assert (S1 : seed_ok (r_seed1 r)) by (split; auto).
  assert (B0 : is_bit t0). { unfold t0, is_bit. lia. }
  assert (B1 : is_bit (Z.lxor t0 1)) by (apply xor_bits; auto; right; auto).
  assert (BX : Z.lxor t0 (Z.lxor t0 1) = 1) by (destruct B0 as [-> | ->]; reflexivity).
  destruct (joint_loop enc He a a 0 s0 (r_seed1 r) t0 (Z.lxor t0 1) eq_refl S0 S1 B0 B1 BX)
    as (cws & s0' & s1' & t0' & t1' & s0x & s1x & t0x & t1x & G & GL & V0 & V1 & K0 & K1 & C0 & C1 & CX & _).
  rewrite G in HG. cbn [bind] in HG.
  destruct (convert_block_spec enc bl (r_fresh0 r) s0' (length b) He K0 Hbl H20) as [E0 _].
  destruct (convert_block_spec enc bl (r_fresh1 r) s1' (length b) He K1 Hbl H20) as [E1 _].
  rewrite E0 in HG. cbn [bind] in HG. rewrite E1 in HG. cbn [bind] in HG. injection HG as <- <- _.
  cbn [k_finalcw]. split; auto.
  assert (LC : forall (g : nat -> Z * bool), length (map fst (map g (range (length b)))) = length b).
  { intros. rewrite !map_length. unfold range. rewrite seq_length. auto. }
  match goal with |- context [final_cws t1' b ?x ?y] =>
    destruct (final_cws_spec t1' b x y (LC _) (LC _)) as [LF NF] end.
  rewrite NF by lia.
  assert (NZ : forall (fr : nat -> Z) s, seed_ok s ->
            nth j (map fst (map (fun i => to_element (fr i) (group i (conv_buffer enc bl (length b) s))) (range (length b)))) 0 = 0).
  { intros fr s Hs. rewrite map_map. unfold range.
    rewrite (nth_indep _ 0 (fst (to_element (fr 0%nat) (group 0 (conv_buffer enc bl (length b) s)))))
      by (rewrite map_length, seq_length; lia).
    rewrite (map_nth (fun i => fst (to_element (fr i) (group i (conv_buffer enc bl (length b) s))))).
    rewrite seq_nth by lia. cbn [Nat.add]. unfold to_element.
    rewrite (group_tail_zero enc bl (length b) s j He Hs Hbl H20 Hj). reflexivity. }
  rewrite !NZ by auto.
  assert (Rb : reduced (nth j b 0)) by (apply (proj1 (Forall_forall _ _) Hb), nth_In; lia).
  unfold reduced in Rb. clear - Rb HP C1. unfold final_cw, u32, w32.
  rewrite (Z.mod_small (ModP - 0)) by lia. rewrite (Z.mod_small (nth j b 0 + (ModP - 0))) by lia.
  replace (nth j b 0 + (ModP - 0)) with (nth j b 0 + 1 * ModP) by lia. rewrite Z.mod_add by lia.
  rewrite Z.add_0_r. rewrite !(Z.mod_small (nth j b 0)) by lia.
  destruct (t1' =? 1); auto. right. rewrite Z.mod_small; lia.
Qed.

(** ** lengths: evaluation on a longer input panics, on a shorter one it does not *)
Lemma eval_loop_long enc : forall x cws i s t,
  (length cws < length x)%nat -> is_panic (eval_loop enc i x cws s t) = true \/
  (exists m, eval_loop enc i x cws s t = Err m) \/ exists m, eval_loop enc i x cws s t = Fatal m.
Proof.
  induction x as [|xb x IH]; intros [|cw cws] i s t H; cbn [length] in *; try lia; cbn [eval_loop].
  - left; reflexivity.
  - destruct (eval_step enc _ cw s t) as [[s' t']| | |]; cbn [bind fst snd].
    + apply IH. lia.
    + right; left; eauto.
    + left; reflexivity.
    + right; right; eauto.
Qed.

Lemma eval_step_not_err enc xb cw s t : (forall m, eval_step enc xb cw s t <> Err m) /\ (forall m, eval_step enc xb cw s t <> Fatal m).
Proof.
  unfold eval_step, prf. change (4 <? 3)%nat with false. cbv iota. cbn [bind].
  destruct (length cw <? 18)%nat; destruct xb; split; discriminate.
Qed.

Lemma eval_loop_not_err enc : forall x cws i s t,
  (forall m, eval_loop enc i x cws s t <> Err m) /\ (forall m, eval_loop enc i x cws s t <> Fatal m).
Proof.
  induction x as [|xb x IH]; intros [|cw cws] i s t; cbn [eval_loop]; try (split; discriminate).
  destruct (eval_step_not_err enc (if (i =? 256)%nat then false else xb) cw s t) as [A B].
  destruct (eval_step enc _ cw s t) as [[s' t']| | |]; cbn [bind fst snd]; try (split; discriminate).
  - apply IH.
  - split; intros m' E; [eapply A; reflexivity|eapply A; reflexivity].
  - split; intros m' E; [eapply B; reflexivity|eapply B; reflexivity].
Qed.

Lemma evaluate_long_panics enc bl fresh sn k x n :
  (length (k_cw k) < length x)%nat -> is_panic (evaluate_pf enc bl fresh sn k x n) = true.
Proof.
  intros H. unfold evaluate_pf.
  destruct (eval_loop_long enc x (k_cw k) 0 (go_copy (repeat 0 16) (k_sinit k)) (k_tinit k) H) as [E|[[m E]|[m E]]].
  - destruct (eval_loop _ _ _ _ _ _); cbn in E; try discriminate E. reflexivity.
  - exfalso. exact (proj1 (eval_loop_not_err _ _ _ _ _ _) _ E).
  - exfalso. exact (proj2 (eval_loop_not_err _ _ _ _ _ _) _ E).
Qed.

Lemma generate_cw_length enc bl a b r k0 k1 fg :
  cipher_ok enc -> rand_ok r ->
  generate_tree_pf enc bl a b r = Ok (k0, k1, fg) ->
  length (k_cw k0) = length a /\ k_cw k1 = k_cw k0 /\ k_finalcw k1 = k_finalcw k0.
Proof.
  intros He (L0 & Y0 & L1 & Y1) HG.
  unfold generate_tree_pf in HG.
  set (s0 := firstn 16 (r_seed0 r)) in *. set (t0 := nth 16 (r_seed0 r) 0 mod 2) in *.
  assert (S0 : seed_ok s0). { split. unfold s0. rewrite firstn_length, L0. auto. apply Forall_firstn'; auto. }
  assert (S1 : seed_ok (r_seed1 r)) by (split; auto).
  assert (B0 : is_bit t0). { unfold t0, is_bit. lia. }
  assert (B1 : is_bit (Z.lxor t0 1)) by (apply xor_bits; auto; right; auto).
  assert (BX : Z.lxor t0 (Z.lxor t0 1) = 1) by (destruct B0 as [-> | ->]; reflexivity).
  destruct (joint_loop enc He a a 0 s0 (r_seed1 r) t0 (Z.lxor t0 1) eq_refl S0 S1 B0 B1 BX)
    as (cws & s0' & s1' & t0' & t1' & s0x & s1x & t0x & t1x & G & GL & _).
  rewrite G in HG. cbn [bind] in HG.
  destruct (convert_block enc bl (r_fresh0 r) s0' (length b)) as [c0| | |]; try discriminate. cbn [bind] in HG.
  destruct (convert_block enc bl (r_fresh1 r) s1' (length b)) as [c1| | |]; try discriminate. cbn [bind] in HG.
  injection HG as <- <- _. cbn. auto.
Qed.

(** ** positions beyond 256 *)
Lemma bits_read_late x : forall i, (256 < i)%nat -> bits_read i x = x.
Proof.
  induction x; intros i Hi; cbn [bits_read]; auto.
  destruct (Nat.eqb_spec i 256); try lia. rewrite IHx; auto.
Qed.

Lemma bits_read_upd_gen x : forall i, (i <= 256)%nat -> bits_read i x = upd x (256 - i) false.
Proof.
  induction x as [|b x IH]; intros i Hi; cbn [bits_read].
  - destruct (256 - i)%nat; reflexivity.
  - destruct (Nat.eqb_spec i 256) as [->|Hne].
    + rewrite bits_read_late by lia. rewrite Nat.sub_diag. reflexivity.
    + rewrite IH by lia. replace (256 - i)%nat with (S (256 - S i)) by lia. reflexivity.
Qed.

Lemma bits_read_upd x : bits_read 0 x = upd x 256 false.
Proof. rewrite bits_read_upd_gen by lia. reflexivity. Qed.

Lemma fss_long_missed enc bl a b r fresh0 fresh1 :
  cipher_ok enc -> rand_ok r -> nth 256 a false = true ->
  (length b <= bl)%nat -> (length b < 20)%nat -> Forall reduced b ->
  exists k0 k1 fg o0 f0 o1 f1,
    generate_tree_pf enc bl a b r = Ok (k0, k1, fg) /\
    evaluate_pf enc bl fresh0 0 k0 a (length b) = Ok (o0, f0) /\
    evaluate_pf enc bl fresh1 1 k1 a (length b) = Ok (o1, f1) /\
    (fg = false -> f0 = false -> f1 = false ->
     forall j, (j < length b)%nat -> (nth j o0 0 + nth j o1 0) mod ModP = 0).
Proof.
  intros He Hr Ha Hbl H20 Hb.
  destruct (fss_correct enc bl a b r a fresh0 fresh1 He Hr eq_refl Hbl H20 Hb)
    as (k0 & k1 & fg & o0 & f0 & o1 & f1 & A & B & C & _ & _ & D).
  exists k0, k1, fg, o0, f0, o1, f1. split; [exact A|]. split; [exact B|]. split; [exact C|].
  intros G F0 F1 j Hj. destruct (D G F0 F1) as (_ & _ & E). destruct (E j Hj) as [_ O]. apply O.
  rewrite bits_read_upd. intros Q.
  destruct (Nat.lt_ge_cases 256 (length a)) as [HL|HL].
  - pose proof (nth_upd_eq a 256 false false HL) as U. rewrite Q in U. congruence.
  - rewrite nth_overflow in Ha by lia. discriminate.
Qed.
