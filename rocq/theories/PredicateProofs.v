(** Joint evaluation of the two servers' answer loops and the client's reconstruction. *)
From Coq Require Import String ZArith List Bool Lia Znumtheory.
From Verif Require Import GoBase BaseFacts FieldModel FSSModel EncodingModel MerkleModel PredicateModel PredicateSpec
  FieldProofs XorFacts FSSProofs EncodingProofs MerkleProofs.
Import ListNotations.
Open Scope Z_scope.

(** ** congruence modulo the field size *)
Definition cong (a b : Z) : Prop := a mod ModP = b mod ModP.

Lemma ModP_pos : 0 < ModP. Proof. reflexivity. Qed.
Lemma ModP_val : ModP = 2147483647. Proof. reflexivity. Qed.
Lemma cong_refl a : cong a a. Proof. reflexivity. Qed.
Lemma cong_sym a b : cong a b -> cong b a. Proof. intros H; symmetry; exact H. Qed.
Lemma cong_trans a b c : cong a b -> cong b c -> cong a c. Proof. unfold cong; congruence. Qed.
Lemma cong_add a b c d : cong a b -> cong c d -> cong (a + c) (b + d).
Proof. apply modP_add. Qed.
Lemma cong_mul a b c d : cong a b -> cong c d -> cong (a * c) (b * d).
Proof. unfold cong. intros H K. rewrite Z.mul_mod, H, K, <- Z.mul_mod by discriminate. reflexivity. Qed.
Lemma cong_mod a : cong (a mod ModP) a.
Proof. unfold cong. apply Z.mod_mod. discriminate. Qed.
Lemma cong_opp a b : cong a b -> cong (- a) (- b).
Proof. intros H. replace (-a) with (-1 * a) by ring. replace (-b) with (-1 * b) by ring. apply cong_mul; auto. apply cong_refl. Qed.
Lemma cong_sub a b c d : cong a b -> cong c d -> cong (a - c) (b - d).
Proof. intros. unfold Z.sub. apply cong_add; auto. apply cong_opp; auto. Qed.
Lemma cong_P : cong ModP 0. Proof. reflexivity. Qed.
Lemma cong_eq a b : a = b -> cong a b. Proof. intros ->; apply cong_refl. Qed.
Lemma cong_reduced a b : cong a b -> 0 <= a < ModP -> 0 <= b < ModP -> a = b.
Proof. unfold cong. intros H Ha Hb. rewrite (Z.mod_small a), (Z.mod_small b) in H; auto. Qed.
Lemma mod_range a : 0 <= a mod ModP < ModP.
Proof. apply Z.mod_pos_bound, ModP_pos. Qed.

Lemma u32_sum_small a b : 0 <= a <= ModP -> 0 <= b <= ModP -> u32 (a + b) = a + b.
Proof. intros Ha Hb. unfold u32. apply Z.mod_small. rewrite ModP_val in *. unfold w32. lia. Qed.

Lemma u32_mod_small a : u32 (a mod ModP) = a mod ModP.
Proof. pose proof (mod_range a). unfold u32. apply Z.mod_small. rewrite ModP_val in *. unfold w32. lia. Qed.

Lemma u64_mul_small a b : 0 <= a <= ModP -> 0 <= b < 2 ^ 33 -> u64 (a * b) = a * b.
Proof. intros Ha Hb. unfold u64. apply Z.mod_small. rewrite ModP_val in *. unfold w64. nia. Qed.

(** ** element-wise updates *)
Lemma combine_nth0 (a b : list Z) j : (j < length a)%nat -> length a = length b ->
  nth j (combine a b) (0, 0) = (nth j a 0, nth j b 0).
Proof. intros. apply combine_nth; auto. Qed.

Lemma map2_nth (F : Z * Z -> Z) a b j : (j < length a)%nat -> length a = length b ->
  nth j (map F (combine a b)) 0 = F (nth j a 0, nth j b 0).
Proof.
  intros Hj HL. rewrite (nth_indep _ 0 (F (0, 0))) by (rewrite map_length, combine_length; lia).
  rewrite (map_nth F). rewrite combine_nth0; auto.
Qed.

Lemma add_into_length a b : length a = length b -> length (add_into a b) = length a.
Proof. intros. unfold add_into. rewrite map_length, combine_length. lia. Qed.

Lemma sum_into_length a b d : length a = length b -> length (sum_into a b d) = length a.
Proof. intros. unfold sum_into. rewrite map_length, combine_length. lia. Qed.

Definition upto (l : list Z) : Prop := Forall (fun v => 0 <= v <= ModP) l.

Lemma reduced_upto l : Forall reduced l -> upto l.
Proof. intros H. eapply Forall_impl; [|exact H]. unfold reduced. intros; lia. Qed.

Lemma Forall_nth0 {A} (P : A -> Prop) l j d : Forall P l -> (j < length l)%nat -> P (nth j l d).
Proof. intros H Hj. apply (proj1 (Forall_forall _ _) H), nth_In; auto. Qed.

Lemma add_into_reduced a b : Forall reduced (add_into a b).
Proof. unfold add_into. apply Forall_map, Forall_forall. intros p _. unfold reduced. apply mod_range. Qed.
Lemma sum_into_reduced a b d : Forall reduced (sum_into a b d).
Proof. unfold sum_into. apply Forall_map, Forall_forall. intros p _. unfold reduced. apply mod_range. Qed.

Lemma add_into_nth a b j : (j < length a)%nat -> length a = length b -> upto a -> upto b ->
  cong (nth j (add_into a b) 0) (nth j a 0 + nth j b 0).
Proof.
  intros Hj HL Ha Hb. unfold add_into. rewrite map2_nth by auto. cbn [fst snd].
  rewrite u32_sum_small. apply cong_mod. apply Forall_nth0; auto. apply Forall_nth0; auto. lia.
Qed.

Lemma sum_into_nth a b d j : (j < length a)%nat -> length a = length b -> upto a -> upto b -> 0 <= d < 2 ^ 33 ->
  cong (nth j (sum_into a b d) 0) (nth j a 0 + nth j b 0 * d).
Proof.
  intros Hj HL Ha Hb Hd. unfold sum_into. rewrite map2_nth by auto. cbn [fst snd].
  assert (A : 0 <= nth j a 0 <= ModP) by (apply (Forall_nth0 _ a j 0 Ha); auto).
  assert (B : 0 <= nth j b 0 <= ModP) by (apply (Forall_nth0 _ b j 0 Hb); lia).
  rewrite u64_mul_small by auto. rewrite u32_mod_small.
  pose proof (mod_range (nth j b 0 * d)).
  rewrite u32_sum_small by lia.
  eapply cong_trans. apply cong_mod. apply cong_add. apply cong_refl. apply cong_mod.
Qed.

(** ** the loop over the records *)
Lemma records_loop_cons {S} db pre ki rest (body : nat -> key_info -> S -> res S) st :
  db = pre ++ ki :: rest ->
  records_loop db body (length pre) (length (ki :: rest)) st =
  bind (body (length pre) ki st) (fun st' => records_loop db body (length (pre ++ [ki])) (length rest) st').
Proof.
  intros ->. cbn [length records_loop].
  unfold go_index. destruct (Z.ltb_spec (Z.of_nat (length pre)) 0); try lia.
  rewrite Nat2Z.id, nth_error_app2, Nat.sub_diag by lia. cbn [nth_error bind].
  rewrite app_length. cbn [length]. rewrite Nat.add_1_r. reflexivity.
Qed.

(** What is needed of a pair of keys: evaluated by server identities [sn0] and [sn1] at identifiers of length [la], the
    shares add up to the vector [b] when the bits read are [a], and to zero otherwise. *)
Definition key_pair (enc : cipher) (e la : nat) (sn0 sn1 : Z) (k0 k1 : fss_key) (fg : bool) (a : list bool) (b : list Z) : Prop :=
  forall x fresh0 fresh1, length x = la ->
  exists o0 f0 o1 f1,
    evaluate_pf enc e fresh0 sn0 k0 x e = Ok (o0, f0) /\
    evaluate_pf enc e fresh1 sn1 k1 x e = Ok (o1, f1) /\
    length o0 = e /\ length o1 = e /\
    (fg = false -> f0 = false -> f1 = false ->
     upto o0 /\ upto o1 /\
     forall j, (j < e)%nat ->
       (bits_read 0 x = a -> cong (nth j o0 0 + nth j o1 0) (nth j b 0)) /\
       (bits_read 0 x <> a -> cong (nth j o0 0 + nth j o1 0) 0)).

Definition bits_eqb (x a : list bool) : bool := if list_eq_dec Bool.bool_dec x a then true else false.

Lemma bits_eqb_spec x a : bits_eqb x a = true <-> x = a.
Proof. unfold bits_eqb. destruct (list_eq_dec _ x a); split; intros; congruence. Qed.

(** a record hits the point when it has an identifier and the bits read are the point *)
Definition hits (id : key_info -> res (option (list bool))) (a : list bool) (ki : key_info) : bool :=
  match id ki with Ok (Some x) => bits_eqb (bits_read 0 x) a | _ => false end.

Definition id_total (id : key_info -> res (option (list bool))) (la : nat) (db : list key_info) : Prop :=
  Forall (fun ki => id ki = Ok None \/ exists x, id ki = Ok (Some x) /\ length x = la) db.

(** the joint state of the two servers: [c] times the payload is shared *)
Definition shared (e : nat) (b : list Z) (c : Z) (o0 o1 : list Z) : Prop :=
  length o0 = e /\ length o1 = e /\ Forall reduced o0 /\ Forall reduced o1 /\
  forall j, (j < e)%nat -> cong (nth j o0 0 + nth j o1 0) (c * nth j b 0).

Lemma shared_zero e b : shared e b 0 (repeat 0 e) (repeat 0 e).
Proof.
  assert (R : Forall reduced (repeat 0 e)).
  { apply Forall_forall. intros x Hx. apply repeat_spec in Hx. subst. split; [lia|reflexivity]. }
  unfold shared. rewrite !repeat_length. conj_split; auto.
  intros j Hj. rewrite nth_repeat. apply cong_eq. ring.
Qed.

Lemma shared_step e b c o0 o1 p0 p1 (m : bool) :
  shared e b c o0 o1 -> length p0 = e -> length p1 = e -> upto p0 -> upto p1 ->
  (forall j, (j < e)%nat -> cong (nth j p0 0 + nth j p1 0) (if m then nth j b 0 else 0)) ->
  shared e b (if m then c + 1 else c) (add_into o0 p0) (add_into o1 p1).
Proof.
  intros (L0 & L1 & R0 & R1 & C) K0 K1 U0 U1 HP.
  unfold shared. rewrite !add_into_length by lia. conj_split; auto using add_into_reduced.
  intros j Hj.
  eapply cong_trans.
  { apply cong_add; apply add_into_nth; auto using reduced_upto; lia. }
  eapply cong_trans with ((nth j o0 0 + nth j o1 0) + (nth j p0 0 + nth j p1 0)).
  { apply cong_eq. ring. }
  eapply cong_trans. { apply cong_add. apply C; auto. apply HP; auto. }
  apply cong_eq. destruct m; ring.
Qed.

Lemma shared_sum_step e b c o0 o1 p0 p1 d (m : bool) :
  shared e b c o0 o1 -> length p0 = e -> length p1 = e -> upto p0 -> upto p1 -> 0 <= d < 2 ^ 33 ->
  (forall j, (j < e)%nat -> cong (nth j p0 0 + nth j p1 0) (if m then nth j b 0 else 0)) ->
  shared e b (if m then c + d else c) (sum_into o0 p0 d) (sum_into o1 p1 d).
Proof.
  intros (L0 & L1 & R0 & R1 & C) K0 K1 U0 U1 Hd HP.
  unfold shared. rewrite !sum_into_length by lia. conj_split; auto using sum_into_reduced.
  intros j Hj.
  eapply cong_trans.
  { apply cong_add; apply sum_into_nth; auto using reduced_upto; lia. }
  eapply cong_trans with ((nth j o0 0 + nth j o1 0) + (nth j p0 0 + nth j p1 0) * d).
  { apply cong_eq. ring. }
  eapply cong_trans. { apply cong_add. apply C; auto. apply cong_mul. apply HP; auto. apply cong_refl. }
  apply cong_eq. destruct m; ring.
Qed.

Section Joint.
  Variables (enc : cipher) (e la : nat) (sn0 sn1 : Z) (k0 k1 : fss_key) (fg : bool) (a : list bool) (b : list Z).
  Variables (fresh0 fresh1 : freshes).
  Hypothesis HK : key_pair enc e la sn0 sn1 k0 k1 fg a b.

  Lemma count_joint db (id : key_info -> res (option (list bool))) : id_total id la db ->
    forall rest pre c o0 o1 f0 f1, db = pre ++ rest ->
    length o0 = e -> length o1 = e ->
    (fg = false -> f0 = false -> f1 = false -> shared e b c o0 o1) ->
    exists o0' f0' o1' f1',
      records_loop db (count_body enc sn0 k0 fresh0 e id) (length pre) (length rest) (o0, f0) = Ok (o0', f0') /\
      records_loop db (count_body enc sn1 k1 fresh1 e id) (length pre) (length rest) (o1, f1) = Ok (o1', f1') /\
      length o0' = e /\ length o1' = e /\
      (fg = false -> f0' = false -> f1' = false ->
       shared e b (c + zlen (filter (hits id a) rest)) o0' o1' /\ f0 = false /\ f1 = false).
  Proof.
    intros HT. induction rest as [|ki rest IH]; intros pre c o0 o1 f0 f1 HD L0 L1 HS.
    - exists o0, f0, o1, f1. cbn [length records_loop filter]. conj_split; auto.
      change (zlen (@nil key_info)) with 0. rewrite Z.add_0_r. auto.
    - rewrite !(records_loop_cons db pre ki rest) by auto.
      assert (HI : id ki = Ok None \/ exists x, id ki = Ok (Some x) /\ length x = la).
      { rewrite HD in HT. apply Forall_app in HT as [_ HT]. inversion HT; subst; auto. }
      assert (HD' : db = (pre ++ [ki]) ++ rest) by (rewrite <- app_assoc; auto).
      destruct HI as [HI|(x & HI & HL)].
      + unfold count_body at 1 3. rewrite HI. cbn [bind].
        destruct (IH (pre ++ [ki]) c o0 o1 f0 f1 HD' L0 L1 HS) as (o0' & f0' & o1' & f1' & A & B & C & D & F).
        exists o0', f0', o1', f1'. conj_split; auto.
        cbn [filter]. unfold hits at 1. rewrite HI. auto.
      + destruct (HK x (fresh0 (length pre)) (fresh1 (length pre)) HL)
          as (p0 & g0 & p1 & g1 & E0 & E1 & P0 & P1 & HP).
        unfold count_body at 1 3. rewrite HI. cbn [bind]. rewrite E0, E1. cbn [bind fst snd].
        set (m := bits_eqb (bits_read 0 x) a).
        destruct (IH (pre ++ [ki]) (if m then c + 1 else c) (add_into o0 p0) (add_into o1 p1) (f0 || g0) (f1 || g1) HD')
          as (o0' & f0' & o1' & f1' & A & B & C & D & F).
        * rewrite add_into_length; lia.
        * rewrite add_into_length; lia.
        * intros G F0 F1. apply orb_false_iff in F0 as [F0 G0]. apply orb_false_iff in F1 as [F1 G1].
          destruct (HP G G0 G1) as (U0 & U1 & HJ).
          apply shared_step; auto. intros j Hj. destruct (HJ j Hj) as [Q1 Q2].
          unfold m. destruct (bits_eqb (bits_read 0 x) a) eqn:E.
          -- apply Q1, bits_eqb_spec; auto.
          -- apply Q2. intros Q. apply bits_eqb_spec in Q. congruence.
        * exists o0', f0', o1', f1'. conj_split; auto.
          intros G F0 F1. destruct (F G F0 F1) as (S & N0 & N1).
          apply orb_false_iff in N0 as [N0 _]. apply orb_false_iff in N1 as [N1 _]. conj_split; auto.
          cbn [filter]. unfold hits at 1. rewrite HI. fold m.
          destruct m; [|exact S].
          unfold zlen in *. cbn [length]. rewrite Nat2Z.inj_succ.
          replace (c + Z.succ (Z.of_nat (length (filter (hits id a) rest))))
            with (c + 1 + Z.of_nat (length (filter (hits id a) rest))) by lia. exact S.
  Qed.

  (** AVG *)
  Variables (H : hash_fn) (q : qinfo) (now0 now1 : nat -> Z) (year : Z).
  Hypothesis Hnow0 : forall i, now0 i = year.
  Hypothesis Hnow1 : forall i, now1 i = year.

  Definition avg_hits (ki : key_info) : bool :=
    hits (fun ki => id_for_email H q (ki_email ki)) a ki && (time_year (ki_time ki) <=? year).

  Lemma avg_joint db :
    id_total (fun ki => id_for_email H q (ki_email ki)) la db ->
    Forall (fun ki => year - time_year (ki_time ki) < 2 ^ 33) db ->
    forall rest pre c s o0 o1 s0 s1 f0 f1, db = pre ++ rest ->
    length o0 = e -> length o1 = e -> length s0 = e -> length s1 = e ->
    (fg = false -> f0 = false -> f1 = false -> shared e b c o0 o1 /\ shared e b s s0 s1) ->
    exists o0' s0' f0' o1' s1' f1',
      records_loop db (avg_body enc H q now0 sn0 k0 fresh0 e) (length pre) (length rest) (o0, s0, f0) = Ok (o0', s0', f0') /\
      records_loop db (avg_body enc H q now1 sn1 k1 fresh1 e) (length pre) (length rest) (o1, s1, f1) = Ok (o1', s1', f1') /\
      length o0' = e /\ length o1' = e /\ length s0' = e /\ length s1' = e /\
      (fg = false -> f0' = false -> f1' = false ->
       shared e b (c + zlen (filter avg_hits rest)) o0' o1' /\
       shared e b (s + zsum (ages year (filter avg_hits rest))) s0' s1' /\ f0 = false /\ f1 = false).
  Proof.
    intros HT HY. induction rest as [|ki rest IH]; intros pre c s o0 o1 s0 s1 f0 f1 HD L0 L1 M0 M1 HS.
    - exists o0, s0, f0, o1, s1, f1. cbn [length records_loop filter ages map zsum]. conj_split; auto.
      change (zlen (@nil key_info)) with 0. rewrite !Z.add_0_r. intros G F0 F1. destruct (HS G F0 F1). auto.
    - rewrite !(records_loop_cons db pre ki rest) by auto.
      assert (HI : id_for_email H q (ki_email ki) = Ok None \/ exists x, id_for_email H q (ki_email ki) = Ok (Some x) /\ length x = la).
      { rewrite HD in HT. apply Forall_app in HT as [_ HT]. inversion HT; subst; auto. }
      assert (HA : year - time_year (ki_time ki) < 2 ^ 33).
      { rewrite HD in HY. apply Forall_app in HY as [_ HY]. inversion HY; subst; auto. }
      assert (HD' : db = (pre ++ [ki]) ++ rest) by (rewrite <- app_assoc; auto).
      destruct HI as [HI|(x & HI & HL)].
      + unfold avg_body at 1 3. rewrite HI. cbn [bind].
        destruct (IH (pre ++ [ki]) c s o0 o1 s0 s1 f0 f1 HD' L0 L1 M0 M1 HS)
          as (o0' & s0' & f0' & o1' & s1' & f1' & A & B & C & D & E & F & K).
        exists o0', s0', f0', o1', s1', f1'. conj_split; auto.
        assert (HF : avg_hits ki = false) by (unfold avg_hits, hits; rewrite HI; reflexivity).
        cbn [filter]. rewrite HF. exact K.
      + destruct (HK x (fresh0 (length pre)) (fresh1 (length pre)) HL)
          as (p0 & g0 & p1 & g1 & E0 & E1 & P0 & P1 & HP).
        unfold avg_body at 1 3. rewrite HI. cbn [bind]. rewrite E0, E1. cbn [bind fst snd].
        rewrite Hnow0, Hnow1.
        set (m := bits_eqb (bits_read 0 x) a).
        assert (HF : avg_hits ki = m && (time_year (ki_time ki) <=? year)).
        { unfold avg_hits, hits. rewrite HI. reflexivity. }
        destruct (Z.ltb_spec (year - time_year (ki_time ki)) 0) as [Hd|Hd]; cbn [bind].
        * destruct (IH (pre ++ [ki]) c s o0 o1 s0 s1 (f0 || g0) (f1 || g1) HD' L0 L1 M0 M1)
            as (o0' & s0' & f0' & o1' & s1' & f1' & A & B & C & D & E & F & K).
          { intros G F0 F1. apply orb_false_iff in F0 as [F0 G0]. apply orb_false_iff in F1 as [F1 G1]. auto. }
          exists o0', s0', f0', o1', s1', f1'. conj_split; auto.
          intros G F0 F1. destruct (K G F0 F1) as (S1 & S2 & N0 & N1).
          apply orb_false_iff in N0 as [N0 _]. apply orb_false_iff in N1 as [N1 _].
          cbn [filter]. rewrite HF. destruct (Z.leb_spec (time_year (ki_time ki)) year); try lia.
          rewrite andb_false_r. auto.
        * set (d := year - time_year (ki_time ki)) in *.
          destruct (IH (pre ++ [ki]) (if m then c + 1 else c) (if m then s + d else s)
                      (add_into o0 p0) (add_into o1 p1) (sum_into s0 p0 d) (sum_into s1 p1 d) (f0 || g0) (f1 || g1) HD')
            as (o0' & s0' & f0' & o1' & s1' & f1' & A & B & C & D & E & F & K);
            try (rewrite ?add_into_length, ?sum_into_length; lia).
          { intros G F0 F1. apply orb_false_iff in F0 as [F0 G0]. apply orb_false_iff in F1 as [F1 G1].
            destruct (HP G G0 G1) as (U0 & U1 & HJ). destruct (HS G F0 F1) as [SC SS].
            assert (HM : forall j, (j < e)%nat -> cong (nth j p0 0 + nth j p1 0) (if m then nth j b 0 else 0)).
            { intros j Hj. destruct (HJ j Hj) as [Q1 Q2].
              unfold m. destruct (bits_eqb (bits_read 0 x) a) eqn:Q.
              - apply Q1, bits_eqb_spec; auto.
              - apply Q2. intros Q'. apply bits_eqb_spec in Q'. congruence. }
            split. apply shared_step; auto. apply shared_sum_step; auto; lia. }
          exists o0', s0', f0', o1', s1', f1'. conj_split; auto.
          intros G F0 F1. destruct (K G F0 F1) as (S1 & S2 & N0 & N1).
          apply orb_false_iff in N0 as [N0 _]. apply orb_false_iff in N1 as [N1 _].
          cbn [filter]. rewrite HF. destruct (Z.leb_spec (time_year (ki_time ki)) year); try lia.
          rewrite andb_true_r. destruct m; [|auto].
          cbn [ages map zsum]. fold d. fold (ages year (filter avg_hits rest)).
          unfold zlen in *. cbn [length]. rewrite Nat2Z.inj_succ. conj_split; auto.
          -- replace (c + Z.succ (Z.of_nat (length (filter avg_hits rest))))
               with (c + 1 + Z.of_nat (length (filter avg_hits rest))) by lia. exact S1.
          -- rewrite Z.add_assoc. exact S2.
  Qed.
End Joint.

(** ** key pairs made by the client *)
Lemma evaluate_other_server enc bl fresh k x n o f :
  evaluate_pf enc bl fresh 0 k x n = Ok (o, f) ->
  evaluate_pf enc bl fresh 1 k x n = Ok (map (fun v => u32 (ModP - v)) o, f).
Proof.
  unfold evaluate_pf. intros E.
  destruct (eval_loop enc 0 x (k_cw k) (go_copy (repeat 0 16) (k_sinit k)) (k_tinit k)) as [[s' t']| | |];
    cbn [bind] in *; try discriminate.
  destruct (convert_block enc bl fresh s' n) as [c| | |]; cbn [bind] in *; try discriminate.
  assert (HE : forall tmp cws o, eval_outs 0 t' tmp cws = Ok o ->
     eval_outs 1 t' tmp cws = Ok (map (fun v => u32 (ModP - v)) o)).
  { induction tmp as [|y tmp IH]; intros cws o' Ho; destruct cws as [|w cws]; cbn [eval_outs] in *;
      try discriminate; try (injection Ho as <-; reflexivity).
    destruct (eval_outs 0 t' tmp cws) as [r| | |] eqn:Er; cbn [bind] in Ho; try discriminate.
    injection Ho as <-. rewrite (IH _ _ Er). reflexivity. }
  destruct (eval_outs 0 t' (map fst c) (k_finalcw k)) as [o'| | |] eqn:Eo; cbn [bind] in E; try discriminate.
  injection E as <- <-. rewrite (HE _ _ _ Eo). reflexivity.
Qed.

Lemma evaluate_server_sign enc bl fresh k x n o f :
  evaluate_pf enc bl fresh 1 k x n = Ok (o, f) ->
  exists o', evaluate_pf enc bl fresh 0 k x n = Ok (o', f) /\ o = map (fun v => u32 (ModP - v)) o'.
Proof.
  intros E. pose proof E as E'. unfold evaluate_pf in E.
  destruct (eval_loop enc 0 x (k_cw k) (go_copy (repeat 0 16) (k_sinit k)) (k_tinit k)) as [[s' t']| | |] eqn:E1;
    cbn [bind] in *; try discriminate.
  destruct (convert_block enc bl fresh s' n) as [c| | |] eqn:E2; cbn [bind] in *; try discriminate.
  destruct (eval_outs 1 t' (map fst c) (k_finalcw k)) as [o1| | |] eqn:E3; cbn [bind] in *; try discriminate.
  assert (HE : forall tmp cws o, eval_outs 1 t' tmp cws = Ok o -> exists o', eval_outs 0 t' tmp cws = Ok o').
  { induction tmp as [|y tmp IH]; intros cws o2 Ho; destruct cws as [|w cws]; cbn [eval_outs] in *;
      try discriminate; try (eexists; reflexivity).
    destruct (eval_outs 1 t' tmp cws) as [r| | |] eqn:Er; cbn [bind] in Ho; try discriminate.
    destruct (IH _ _ Er) as [o' ->]. eexists. reflexivity. }
  destruct (HE _ _ _ E3) as [o' E4].
  assert (E5 : evaluate_pf enc bl fresh 0 k x n = Ok (o', existsb snd c)).
  { unfold evaluate_pf. rewrite E1. cbn [bind]. rewrite E2. cbn [bind]. rewrite E4. reflexivity. }
  injection E as E6 E7. exists o'. rewrite <- E7. split. auto.
  pose proof (evaluate_other_server _ _ _ _ _ _ _ _ E5) as E8. rewrite E8 in E'. injection E' as E9 _. auto.
Qed.

Lemma generated_pair enc e a b r k0 k1 fg :
  cipher_ok enc -> rand_ok r -> length b = e -> (e < 20)%nat -> Forall reduced b ->
  generate_tree_pf enc e a b r = Ok (k0, k1, fg) ->
  key_pair enc e (length a) 0 1 k0 k1 fg a b.
Proof.
  intros He Hr HE H20 Hb HG x fresh0 fresh1 HL.
  destruct (fss_correct enc e a b r x fresh0 fresh1 He Hr HL ltac:(lia) ltac:(lia) Hb)
    as (k0' & k1' & fg' & o0 & f0 & o1 & f1 & G & E0 & E1 & L0 & L1 & C).
  rewrite HG in G. injection G as <- <- <-. rewrite HE in *.
  exists o0, f0, o1, f1. conj_split; auto.
  intros G0 F0 F1. destruct (C G0 F0 F1) as (R0 & R1 & HJ). conj_split; auto using reduced_upto.
  intros j Hj. destruct (HJ j Hj) as [Q1 Q2].
  assert (Hbj : reduced (nth j b 0)) by (apply Forall_nth0; auto; lia).
  split; intros Q; unfold cong.
  - rewrite (Q1 Q). symmetry. apply Z.mod_small. exact Hbj.
  - rewrite (Q2 Q). reflexivity.
Qed.

Lemma u32_neg_upto o : upto o -> upto (map (fun v => u32 (ModP - v)) o) /\
  forall j, (j < length o)%nat -> cong (nth j (map (fun v => u32 (ModP - v)) o) 0) (- nth j o 0).
Proof.
  intros U. split.
  - apply Forall_map. eapply Forall_impl; [|exact U]. cbv beta. intros v Hv.
    unfold u32. rewrite ModP_val in *. rewrite Z.mod_small by (unfold w32; lia). lia.
  - intros j Hj. set (F := fun v => u32 (ModP - v)).
    rewrite (nth_indep _ 0 (F 0)) by (rewrite map_length; auto). rewrite (map_nth F). unfold F.
    pose proof (Forall_nth0 _ o j 0 U Hj) as Hv. cbv beta in Hv.
    assert (E : u32 (ModP - nth j o 0) = ModP - nth j o 0).
    { unfold u32. apply Z.mod_small. rewrite ModP_val in *. unfold w32. lia. }
    rewrite E. eapply cong_trans. apply cong_sub. apply cong_P. apply cong_refl. apply cong_eq; ring.
Qed.

(** keys delivered to the wrong servers: the payload is negated *)
Lemma swapped_pair enc e a b r k0 k1 fg :
  cipher_ok enc -> rand_ok r -> length b = e -> (e < 20)%nat -> Forall reduced b ->
  generate_tree_pf enc e a b r = Ok (k0, k1, fg) ->
  key_pair enc e (length a) 1 0 k0 k1 fg a (map Z.opp b).
Proof.
  intros He Hr HE H20 Hb HG x fresh0 fresh1 HL.
  destruct (generated_pair enc e a b r k0 k1 fg He Hr HE H20 Hb HG x fresh0 fresh1 HL)
    as (o0 & f0 & o1 & f1 & E0 & E1 & L0 & L1 & C).
  destruct (evaluate_server_sign _ _ _ _ _ _ _ _ E1) as (o1' & E1' & EQ).
  pose proof (evaluate_other_server _ _ _ _ _ _ _ _ E0) as E0'.
  assert (L1' : length o1' = e) by (rewrite EQ, map_length in L1; auto).
  eexists _, f0, o1', f1. split; [exact E0'|]. split; [exact E1'|].
  rewrite map_length. conj_split; auto.
  intros G F0 F1. destruct (C G F0 F1) as (U0 & U1 & HJ).
  destruct (u32_neg_upto o0 U0) as [V0 N0].
  destruct (evaluate_range enc e fresh1 0 k1 x e o1' f1 E1') as [R1 _].
  assert (V1 : upto o1').
  { eapply Forall_impl; [|exact (R1 eq_refl)]. cbv beta. intros v Hv. lia. }
  destruct (u32_neg_upto o1' V1) as [_ N1]. rewrite <- EQ in N1.
  conj_split; auto. intros j Hj. destruct (HJ j Hj) as [Q1 Q2].
  specialize (N0 j ltac:(lia)). specialize (N1 j ltac:(lia)).
  assert (X : forall w, cong (nth j o0 0 + nth j o1 0) w ->
     cong (nth j (map (fun v => u32 (ModP - v)) o0) 0 + nth j o1' 0) (- w)).
  { intros w Hw. eapply cong_trans. apply cong_add. apply N0. apply cong_refl.
    eapply cong_trans with (- (nth j o0 0 + nth j o1 0)).
    - eapply cong_trans with (- nth j o0 0 + - nth j o1 0).
      + apply cong_add. apply cong_refl.
        apply cong_opp in N1. rewrite Z.opp_involutive in N1. apply cong_sym. exact N1.
      + apply cong_eq; ring.
    - apply cong_opp; auto. }
  split; intros Q.
  - rewrite (nth_indep (map Z.opp b) 0 (- 0)) by (rewrite map_length; lia). rewrite (map_nth Z.opp). apply X; auto.
  - change 0 with (- 0) at 3. apply X; auto.
Qed.
