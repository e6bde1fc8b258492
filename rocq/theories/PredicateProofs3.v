(** Reconstruction by the client, complete honest runs, and cheating servers. *)
From Coq Require Import String ZArith List Bool Lia Znumtheory.
From Verif Require Import GoBase BaseFacts FieldModel FSSModel EncodingModel MerkleModel MerkleSpec PredicateModel PredicateSpec
  FieldProofs XorFacts FSSProofs EncodingProofs MerkleProofs CalendarProofs PredicateProofs PredicateProofs2.
Import ListNotations.
Open Scope Z_scope.

Definition tag_ok (alphas a0 a1 : list Z) (d : Z) (j : nat) : bool :=
  u32 (u64 (d * nth j alphas 0) mod ModP) =? u32 (nth (S j) a0 0 + nth (S j) a1 0) mod ModP.

Lemma idx {A} (l : list A) (i : nat) d : (i < length l)%nat -> go_index l (Z.of_nat i) = Ok (nth i l d).
Proof. intros. rewrite (go_index_ok l _ d) by (unfold zlen; lia). rewrite Nat2Z.id. reflexivity. Qed.

Lemma count_checks_eq alphas a0 a1 d : forall n i,
  (i + n <= length alphas)%nat -> (i + n < length a0)%nat -> (i + n < length a1)%nat ->
  count_checks alphas a0 a1 d (Z.of_nat i) n =
  if forallb (tag_ok alphas a0 a1 d) (seq i n) then Ok tt else Err "REJECT".
Proof.
  induction n as [|n IH]; intros i H1 H2 H3; cbn [count_checks seq forallb]; auto.
  replace (Z.of_nat i + 1) with (Z.of_nat (S i)) by lia.
  rewrite (idx alphas i 0), (idx a0 (S i) 0), (idx a1 (S i) 0) by lia. cbn [bind].
  unfold tag_ok at 1. destruct (_ =? _); cbn [negb andb]; auto. rewrite IH by lia. auto.
Qed.

Lemma avg_checks_eq alphas cf cs sf ss c s : forall n i,
  (i + n <= length alphas)%nat -> (i + n < length cf)%nat -> (i + n < length cs)%nat ->
  (i + n < length sf)%nat -> (i + n < length ss)%nat ->
  exists m, avg_checks alphas cf cs sf ss c s (Z.of_nat i) n =
  if forallb (fun j => tag_ok alphas cf cs c j && tag_ok alphas sf ss s j) (seq i n) then Ok tt else Err m.
Proof.
  induction n as [|n IH]; intros i H1 H2 H3 H4 H5; cbn [avg_checks seq forallb].
  - exists ""%string. auto.
  - replace (Z.of_nat i + 1) with (Z.of_nat (S i)) by lia.
    rewrite (idx alphas i 0), (idx cf (S i) 0), (idx cs (S i) 0), (idx sf (S i) 0), (idx ss (S i) 0) by lia. cbn [bind].
    unfold tag_ok at 1 2.
    destruct (_ =? _); cbn [negb andb]; [|eexists; reflexivity].
    destruct (_ =? _); cbn [negb andb]; [|eexists; reflexivity].
    destruct (IH (S i) ltac:(lia) ltac:(lia) ltac:(lia) ltac:(lia) ltac:(lia)) as [m E]. exists m. exact E.
Qed.

(** the client on a COUNT-shaped pair of answers *)
Lemma rec_count_eq e alphas a0 a1 :
  length alphas = (e - 1)%nat -> (1 <= e)%nat -> (e <= length a0)%nat -> length a0 <> (2 * e)%nat -> (e <= length a1)%nat ->
  reconstruct e alphas [a0; a1] =
  let d := u32 (nth 0 a0 0 + nth 0 a1 0) mod ModP in
  if forallb (tag_ok alphas a0 a1 d) (seq 0 (e - 1)) then Ok d else Err "REJECT".
Proof.
  intros HA He L0 N0 L1. unfold reconstruct. change (go_index [a0; a1] 0) with (@Ok (list Z) a0).
  change (go_index [a0; a1] 1) with (@Ok (list Z) a1). cbn [bind].
  destruct (Z.eqb_spec (zlen a0) (2 * Z.of_nat e)) as [E|_]. { unfold zlen in E. lia. }
  change 0 with (Z.of_nat 0). rewrite (idx a0 0 0), (idx a1 0 0) by lia. cbn [bind].
  rewrite count_checks_eq by lia. change (Z.of_nat 0) with 0. cbv zeta.
  destruct (forallb _ _); auto.
Qed.

(** the client on an AVG-shaped pair of answers *)
Lemma rec_avg_eq e alphas c0 s0 c1 s1 :
  length alphas = (e - 1)%nat -> (1 <= e)%nat -> length c0 = e -> length s0 = e -> length c1 = e -> (e <= length s1)%nat ->
  exists m, reconstruct e alphas [c0 ++ s0; c1 ++ s1] =
  let c := u32 (nth 0 c0 0 + nth 0 c1 0) mod ModP in
  let s := u32 (nth 0 s0 0 + nth 0 s1 0) mod ModP in
  if forallb (fun j => tag_ok alphas c0 c1 c j && tag_ok alphas s0 s1 s j) (seq 0 (e - 1))
  then (if c =? 0 then Panic "integer divide by zero" else Ok (s / c)) else Err m.
Proof.
  intros HA He L0 M0 L1 M1. unfold reconstruct.
  change (go_index [c0 ++ s0; c1 ++ s1] 0) with (@Ok (list Z) (c0 ++ s0)).
  change (go_index [c0 ++ s0; c1 ++ s1] 1) with (@Ok (list Z) (c1 ++ s1)). cbn [bind].
  destruct (Z.eqb_spec (zlen (c0 ++ s0)) (2 * Z.of_nat e)) as [_|E]. 2: { unfold zlen in E. rewrite app_length in E. lia. }
  rewrite (go_slice_prefix c0) by (unfold zlen; lia).
  rewrite (go_slice_prefix c1) by (unfold zlen; lia).
  rewrite (go_slice_suffix c0 s0) by (rewrite ?zlen_app; unfold zlen; lia).
  rewrite (go_slice_suffix c1 s1) by (rewrite ?zlen_app; unfold zlen; lia). cbn [bind].
  change 0 with (Z.of_nat 0). rewrite (idx c0 0 0), (idx c1 0 0), (idx s0 0 0), (idx s1 0 0) by lia. cbn [bind].
  change (Z.of_nat 0) with 0. cbv zeta.
  set (c := u32 (nth 0 c0 0 + nth 0 c1 0) mod ModP). set (s := u32 (nth 0 s0 0 + nth 0 s1 0) mod ModP).
  destruct (avg_checks_eq alphas c0 c1 s0 s1 c s (e - 1) 0 ltac:(lia) ltac:(lia) ltac:(lia) ltac:(lia) ltac:(lia)) as [m E].
  change (Z.of_nat 0) with 0 in E. exists m. rewrite E. destruct (forallb _ _); auto.
Qed.

Definition payload (alphas : list Z) : list Z := 1 :: alphas.

Lemma shared_data e alphas c a0 a1 : (1 <= e)%nat -> shared e (payload alphas) c a0 a1 ->
  u32 (nth 0 a0 0 + nth 0 a1 0) mod ModP = c mod ModP.
Proof.
  intros He (L0 & L1 & R0 & R1 & C).
  rewrite u32_sum_small.
  - specialize (C 0%nat ltac:(lia)). cbn [payload nth] in C. rewrite Z.mul_1_r in C. exact C.
  - apply reduced_upto in R0. apply (Forall_nth0 _ a0 0 0 R0). lia.
  - apply reduced_upto in R1. apply (Forall_nth0 _ a1 0 0 R1). lia.
Qed.

Lemma tag_lhs d al : 0 <= d < ModP -> 0 <= al < ModP -> u32 (u64 (d * al) mod ModP) = (d * al) mod ModP.
Proof.
  intros Hd Ha. rewrite u64_mul_small. apply u32_mod_small. lia. rewrite ModP_val in *. lia.
Qed.

Lemma shared_tags e alphas c a0 a1 : e = S (length alphas) -> Forall reduced alphas ->
  shared e (payload alphas) c a0 a1 ->
  forallb (tag_ok alphas a0 a1 (c mod ModP)) (seq 0 (e - 1)) = true.
Proof.
  intros He Ha (L0 & L1 & R0 & R1 & C). apply forallb_forall. intros j Hj. apply in_seq in Hj.
  unfold tag_ok. apply Z.eqb_eq.
  rewrite tag_lhs; [|apply mod_range|apply (Forall_nth0 _ alphas j 0 Ha); lia].
  rewrite u32_sum_small; [|apply (Forall_nth0 _ a0 (S j) 0 (reduced_upto _ R0)); lia
                          |apply (Forall_nth0 _ a1 (S j) 0 (reduced_upto _ R1)); lia].
  specialize (C (S j) ltac:(lia)). cbn [payload nth] in C. unfold cong in C. rewrite C.
  apply cong_mul. apply cong_mod. apply cong_refl.
Qed.

Lemma rec_count_shared e alphas c a0 a1 : e = S (length alphas) -> Forall reduced alphas ->
  shared e (payload alphas) c a0 a1 -> reconstruct e alphas [a0; a1] = Ok (c mod ModP).
Proof.
  intros He Ha HS. pose proof HS as (L0 & L1 & _). rewrite rec_count_eq by lia. cbv zeta.
  rewrite (shared_data e alphas c) by (auto; lia). rewrite shared_tags; auto.
Qed.

Lemma rec_avg_shared e alphas c s c0 s0 c1 s1 : e = S (length alphas) -> Forall reduced alphas ->
  shared e (payload alphas) c c0 c1 -> shared e (payload alphas) s s0 s1 ->
  reconstruct e alphas [c0 ++ s0; c1 ++ s1] =
  if c mod ModP =? 0 then Panic "integer divide by zero" else Ok ((s mod ModP) / (c mod ModP)).
Proof.
  intros He Ha HC HS. pose proof HC as (L0 & L1 & _). pose proof HS as (M0 & M1 & _).
  destruct (rec_avg_eq e alphas c0 s0 c1 s1 ltac:(lia) ltac:(lia) L0 M0 L1 ltac:(lia)) as [m E].
  rewrite E. cbv zeta. rewrite (shared_data e alphas c), (shared_data e alphas s) by (auto; lia).
  assert (T : forallb (fun j => tag_ok alphas c0 c1 (c mod ModP) j && tag_ok alphas s0 s1 (s mod ModP) j) (seq 0 (e - 1)) = true).
  { apply forallb_forall. intros j Hj.
    pose proof (shared_tags e alphas c c0 c1 He Ha HC) as T1. pose proof (shared_tags e alphas s s0 s1 He Ha HS) as T2.
    rewrite forallb_forall in T1, T2. rewrite T1, T2; auto. }
  rewrite T. auto.
Qed.

Lemma reduced_u32 l : Forall reduced l -> Forall is_u32 l.
Proof.
  intros H. eapply Forall_impl; [|exact H]. unfold reduced, is_u32. intros v Hv. rewrite ModP_val in Hv. unfold w32. lia.
Qed.

Lemma rec_bytes e alphas a0 a1 : Forall reduced a0 -> Forall reduced a1 ->
  reconstruct_bytes e alphas [uint32_slice_to_bytes a0; uint32_slice_to_bytes a1] = reconstruct e alphas [a0; a1].
Proof. intros R0 R1. unfold reconstruct_bytes. cbn [map]. rewrite !uint32_slice_roundtrip; auto using reduced_u32. Qed.

(** ** honest runs *)
Lemma generate_ok enc e inp alphas r :
  cipher_ok enc -> rand_ok r -> e = S (length alphas) -> (e < 20)%nat -> Forall reduced alphas ->
  exists k0 k1 fg, generate_tree_pf enc e inp (payload alphas) r = Ok (k0, k1, fg).
Proof.
  intros He Hr HE H20 Ha.
  destruct (fss_correct enc e inp (payload alphas) r inp (fun _ => 0) (fun _ => 0) He Hr eq_refl)
    as (k0 & k1 & fg & o0 & f0 & o1 & f1 & G & _).
  - cbn [payload length]. lia.
  - cbn [payload length]. lia.
  - constructor; auto. unfold reduced. rewrite ModP_val. lia.
  - eauto.
Qed.

Lemma payload_reduced alphas : Forall reduced alphas -> Forall reduced (payload alphas).
Proof. intros. constructor; auto. unfold reduced. rewrite ModP_val. lia. Qed.

Lemma answer_request enc H e sn db n now fresh rq k : request_ok rq ->
  answer enc H e sn db n now fresh (Some (request_info rq)) k =
  records_loop db (count_body enc sn k fresh e (request_id H rq)) 0 n (repeat 0 e, false).
Proof.
  intros HR. unfold answer. destruct rq as [q text|name|y|q text]; cbn [request_info request_ok] in *.
  - destruct HR as ((T & A & V & S) & _). rewrite T, A, V, S. reflexivity.
  - reflexivity.
  - reflexivity.
  - destruct HR as ((A & V & S) & _). rewrite A, V, S. reflexivity.
Qed.

Lemma count_matching_ext f g db : Forall (fun ki => f ki = g ki) db -> zlen (filter f db) = count_matching g db.
Proof.
  unfold count_matching. intros HF. f_equal. induction HF as [|ki db E _ IH]; cbn [filter]; auto. rewrite E, IH. auto.
Qed.

(** two honest servers that received a matching pair of keys share [c] times the payload, whatever their identities *)
Lemma honest_pair enc H e inp b rq sn0 sn1 k0 k1 fg now0 now1 fresh0 fresh1 db :
  request_ok rq -> id_total (request_id H rq) (length inp) db ->
  Forall (fun ki => hits (request_id H rq) inp ki = selects H rq ki) db ->
  key_pair enc e (length inp) sn0 sn1 k0 k1 fg inp b ->
  exists a0 f0 a1 f1,
    answer enc H e sn0 db (length db) now0 fresh0 (Some (request_info rq)) k0 = Ok (a0, f0) /\
    answer enc H e sn1 db (length db) now1 fresh1 (Some (request_info rq)) k1 = Ok (a1, f1) /\
    length a0 = e /\ length a1 = e /\
    (fg = false -> f0 = false -> f1 = false -> shared e b (count_matching (selects H rq) db) a0 a1).
Proof.
  intros HR HT HM HK. rewrite !answer_request by auto.
  destruct (count_joint enc e (length inp) sn0 sn1 k0 k1 fg inp b fresh0 fresh1 HK db (request_id H rq) HT
              db [] 0 (repeat 0 e) (repeat 0 e) false false eq_refl)
    as (a0 & f0 & a1 & f1 & A & B & C & D & F).
  - apply repeat_length.
  - apply repeat_length.
  - intros. apply shared_zero.
  - exists a0, f0, a1, f1. conj_split; auto. intros G F0 F1. destruct (F G F0 F1) as (S & _).
    rewrite Z.add_0_l, (count_matching_ext _ (selects H rq)) in S by auto. exact S.
Qed.

(** the honest run: [inp], the two keys and the two answers *)
Lemma honest_shares enc H e alphas r now0 now1 fresh0 fresh1 db rq :
  cipher_ok enc -> hash_ok H -> rand_ok r -> e = S (length alphas) -> (e < 20)%nat -> Forall reduced alphas ->
  request_ok rq -> Forall record_ok db -> readable rq db ->
  exists inp k0 k1 fg a0 f0 a1 f1,
    request_input H rq = Ok inp /\
    client_query enc e alphas r inp 2 = Ok (k0, k1, fg) /\
    answer enc H e 0 db (length db) now0 fresh0 (Some (request_info rq)) k0 = Ok (a0, f0) /\
    answer enc H e 1 db (length db) now1 fresh1 (Some (request_info rq)) k1 = Ok (a1, f1) /\
    (fg || f0 || f1 = false -> shared e (payload alphas) (count_matching (selects H rq) db) a0 a1).
Proof.
  intros He HH Hr HE H20 Ha HR HD HF.
  destruct (request_ids H rq db HH HR HD HF) as (inp & EI & HT & HM).
  destruct (generate_ok enc e inp alphas r He Hr HE H20 Ha) as (k0 & k1 & fg & G).
  pose proof (generated_pair enc e inp (payload alphas) r k0 k1 fg He Hr ltac:(cbn [payload length]; lia) H20
                (payload_reduced _ Ha) G) as HK.
  destruct (honest_pair enc H e inp (payload alphas) rq 0 1 k0 k1 fg now0 now1 fresh0 fresh1 db HR HT HM HK)
    as (a0 & f0 & a1 & f1 & A & B & _ & _ & S).
  exists inp, k0, k1, fg, a0, f0, a1, f1. conj_split; auto.
  intros F. apply orb_false_iff in F as [F F1]. apply orb_false_iff in F as [F F0]. auto.
Qed.

Lemma run_count enc H e alphas r now0 now1 fresh0 fresh1 db rq :
  cipher_ok enc -> hash_ok H -> rand_ok r -> e = S (length alphas) -> (e < 20)%nat -> Forall reduced alphas ->
  request_ok rq -> Forall record_ok db -> readable rq db ->
  exists inp out flag,
    request_input H rq = Ok inp /\
    run enc H e alphas r 0 1 now0 now1 fresh0 fresh1 db (request_info rq) inp = Ok (out, flag) /\
    (flag = false -> out = Ok (count_matching (selects H rq) db mod ModP)).
Proof.
  intros He HH Hr HE H20 Ha HR HD HF.
  destruct (honest_shares enc H e alphas r now0 now1 fresh0 fresh1 db rq He HH Hr HE H20 Ha HR HD HF)
    as (inp & k0 & k1 & fg & a0 & f0 & a1 & f1 & EI & EQ & A & B & S).
  eexists inp, _, (fg || f0 || f1). split; [exact EI|]. split.
  - unfold run. rewrite EQ. cbn [bind]. rewrite A. cbn [bind]. rewrite B. cbn [bind fst snd]. reflexivity.
  - intros F. specialize (S F). pose proof S as (_ & _ & R0 & R1 & _).
    rewrite rec_bytes by auto. apply rec_count_shared; auto.
Qed.

(** swapped delivery *)
Lemma shared_opp e alphas c a0 a1 : e = S (length alphas) ->
  shared e (map Z.opp (payload alphas)) c a0 a1 -> shared e (payload alphas) (- c) a0 a1.
Proof.
  intros He (L0 & L1 & R0 & R1 & C). unfold shared. conj_split; auto. intros j Hj.
  eapply cong_trans. apply C; auto.
  rewrite (nth_indep _ 0 (- 0)) by (rewrite map_length; cbn [payload length]; lia). rewrite (map_nth Z.opp).
  apply cong_eq. ring.
Qed.

Lemma run_swapped enc H e alphas r now0 now1 fresh0 fresh1 db rq :
  cipher_ok enc -> hash_ok H -> rand_ok r -> e = S (length alphas) -> (e < 20)%nat -> Forall reduced alphas ->
  request_ok rq -> Forall record_ok db -> readable rq db ->
  exists inp out flag,
    request_input H rq = Ok inp /\
    run enc H e alphas r 1 0 now0 now1 fresh0 fresh1 db (request_info rq) inp = Ok (out, flag) /\
    (flag = false -> out = Ok ((- count_matching (selects H rq) db) mod ModP)).
Proof.
  intros He HH Hr HE H20 Ha HR HD HF.
  destruct (request_ids H rq db HH HR HD HF) as (inp & EI & HT & HM).
  destruct (generate_ok enc e inp alphas r He Hr HE H20 Ha) as (k0 & k1 & fg & G).
  pose proof (swapped_pair enc e inp (payload alphas) r k0 k1 fg He Hr ltac:(cbn [payload length]; lia) H20
                (payload_reduced _ Ha) G) as HK.
  destruct (honest_pair enc H e inp _ rq 1 0 k0 k1 fg now0 now1 fresh0 fresh1 db HR HT HM HK)
    as (a0 & f0 & a1 & f1 & A & B & _ & _ & S).
  eexists inp, _, (fg || f0 || f1). split; [exact EI|]. split.
  - unfold run, client_query. cbn [Z.eqb negb Pos.eqb]. fold (payload alphas). rewrite G. cbn [bind]. rewrite A. cbn [bind]. rewrite B.
    cbn [bind fst snd]. reflexivity.
  - intros F. apply orb_false_iff in F as [F F1]. apply orb_false_iff in F as [F F0].
    specialize (S F F0 F1). apply shared_opp in S; auto. pose proof S as (_ & _ & R0 & R1 & _).
    rewrite rec_bytes by auto. apply rec_count_shared; auto.
Qed.

(** ** AVG *)
Lemma answer_avg enc H e sn db n now fresh q k : avg_query q ->
  answer enc H e sn db n now fresh (Some q) k =
  bind (records_loop db (avg_body enc H q now sn k fresh e) 0 n (repeat 0 e, repeat 0 e, false))
    (fun r => let '(out, sum, fl) := r in Ok (out ++ sum, fl)).
Proof. intros (A & V & S). unfold answer. rewrite A, V, S. reflexivity. Qed.

Lemma email_request q text db :
  0 <= q_from_start q ->
  email_id_bytes q <= 32 \/ Forall (fun ki => ascii (ki_email ki)) db ->
  readable (ByEmail (mkInfo target_userid (q_from_start q) (q_from_end q) false false false) text) db.
Proof. intros _ HF. exact HF. Qed.

Lemma avg_ids H q text db :
  hash_ok H -> text_long_enough q text -> bytes text -> Forall record_ok db ->
  email_id_bytes q <= 32 \/ Forall (fun ki => ascii (ki_email ki)) db ->
  exists inp, to_email_client H q text = Ok inp /\
    id_total (fun ki => id_for_email H q (ki_email ki)) (length inp) db /\
    Forall (fun ki => hits (fun ki => id_for_email H q (ki_email ki)) inp ki = email_matches H q text (ki_email ki)) db.
Proof.
  intros HH HT HB HD HF.
  set (q' := mkInfo target_userid (q_from_start q) (q_from_end q) false false false).
  exact (request_ids H (ByEmail q' text) db HH (conj (conj eq_refl (conj eq_refl (conj eq_refl eq_refl))) (conj HT HB)) HD HF).
Qed.

Lemma filter_ext_Forall {A} (f g : A -> bool) l : Forall (fun x => f x = g x) l -> filter f l = filter g l.
Proof. induction 1 as [|x l E _ IH]; cbn [filter]; auto. rewrite E, IH; auto. Qed.

Lemma honest_avg enc H e alphas r now0 now1 year fresh0 fresh1 db q text :
  cipher_ok enc -> hash_ok H -> rand_ok r -> e = S (length alphas) -> (e < 20)%nat -> Forall reduced alphas ->
  avg_query q -> text_long_enough q text -> bytes text -> Forall record_ok db ->
  email_id_bytes q <= 32 \/ Forall (fun ki => ascii (ki_email ki)) db ->
  (forall i, now0 i = year) -> (forall i, now1 i = year) -> year < 2 ^ 33 ->
  exists inp k0 k1 fg c0 s0 f0 c1 s1 f1,
    to_email_client H q text = Ok inp /\
    client_query enc e alphas r inp 2 = Ok (k0, k1, fg) /\
    answer enc H e 0 db (length db) now0 fresh0 (Some q) k0 = Ok (c0 ++ s0, f0) /\
    answer enc H e 1 db (length db) now1 fresh1 (Some q) k1 = Ok (c1 ++ s1, f1) /\
    (fg || f0 || f1 = false ->
     shared e (payload alphas) (count_matching (avg_selects H q text year) db) c0 c1 /\
     shared e (payload alphas) (zsum (ages year (filter (avg_selects H q text year) db))) s0 s1).
Proof.
  intros He HH Hr HE H20 Ha HQ HT HB HD HF N0 N1 HY.
  destruct (avg_ids H q text db HH HT HB HD HF) as (inp & EI & IT & IM).
  destruct (generate_ok enc e inp alphas r He Hr HE H20 Ha) as (k0 & k1 & fg & G).
  pose proof (generated_pair enc e inp (payload alphas) r k0 k1 fg He Hr ltac:(cbn [payload length]; lia) H20
                (payload_reduced _ Ha) G) as HK.
  destruct (avg_joint enc e (length inp) 0 1 k0 k1 fg inp (payload alphas) fresh0 fresh1 HK H q now0 now1 year N0 N1 db IT)
    with (rest := db) (pre := @nil key_info) (c := 0) (s := 0) (o0 := repeat 0 e) (o1 := repeat 0 e)
         (s0 := repeat 0 e) (s1 := repeat 0 e) (f0 := false) (f1 := false)
    as (c0 & s0 & f0 & c1 & s1 & f1 & A & B & C & D & E & F & K); auto using repeat_length.
  - eapply Forall_impl; [|exact HD]. cbv beta. intros ki (_ & _ & _ & _ & _ & Y). lia.
  - intros. split; apply shared_zero.
  - exists inp, k0, k1, fg, c0, s0, f0, c1, s1, f1. rewrite !answer_avg by auto.
    cbn [length] in A, B. rewrite A, B. cbn [bind]. conj_split; auto.
    intros FL. apply orb_false_iff in FL as [FL F1]. apply orb_false_iff in FL as [FL F0].
    destruct (K FL F0 F1) as (S1 & S2 & _).
    assert (EF : filter (avg_hits inp H q year) db = filter (avg_selects H q text year) db).
    { apply filter_ext_Forall. eapply Forall_impl; [|exact IM]. cbv beta. intros ki E1.
      unfold avg_hits, avg_selects. rewrite E1. auto. }
    rewrite EF, Z.add_0_l in S1, S2. auto.
Qed.

Lemma run_avg enc H e alphas r now0 now1 year fresh0 fresh1 db q text :
  cipher_ok enc -> hash_ok H -> rand_ok r -> e = S (length alphas) -> (e < 20)%nat -> Forall reduced alphas ->
  avg_query q -> text_long_enough q text -> bytes text -> Forall record_ok db ->
  email_id_bytes q <= 32 \/ Forall (fun ki => ascii (ki_email ki)) db ->
  (forall i, now0 i = year) -> (forall i, now1 i = year) -> year < 2 ^ 33 ->
  exists inp out flag,
    to_email_client H q text = Ok inp /\
    run enc H e alphas r 0 1 now0 now1 fresh0 fresh1 db q inp = Ok (out, flag) /\
    (flag = false ->
     let c := count_matching (avg_selects H q text year) db in
     let s := zsum (ages year (filter (avg_selects H q text year) db)) in
     out = if c mod ModP =? 0 then Panic "integer divide by zero" else Ok ((s mod ModP) / (c mod ModP))).
Proof.
  intros He HH Hr HE H20 Ha HQ HT HB HD HF N0 N1 HY.
  destruct (honest_avg enc H e alphas r now0 now1 year fresh0 fresh1 db q text He HH Hr HE H20 Ha HQ HT HB HD HF N0 N1 HY)
    as (inp & k0 & k1 & fg & c0 & s0 & f0 & c1 & s1 & f1 & EI & EQ & A & B & S).
  eexists inp, _, (fg || f0 || f1). split; [exact EI|]. split.
  - unfold run. rewrite EQ. cbn [bind]. rewrite A. cbn [bind]. rewrite B. cbn [bind fst snd]. reflexivity.
  - intros F. destruct (S F) as [S1 S2]. pose proof S1 as (_ & _ & R0 & R1 & _). pose proof S2 as (_ & _ & Q0 & Q1 & _).
    rewrite rec_bytes by (apply Forall_app; auto). apply rec_avg_shared; auto.
Qed.
