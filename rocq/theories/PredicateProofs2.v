(** Identifiers select the right records; reconstruction; complete runs. *)
From Coq Require Import String ZArith List Bool Lia Znumtheory.
From Verif Require Import GoBase BaseFacts FieldModel FSSModel EncodingModel MerkleModel MerkleSpec PredicateModel PredicateSpec
  FieldProofs XorFacts FSSProofs EncodingProofs MerkleProofs CalendarProofs PredicateProofs.
Import ListNotations.
Open Scope Z_scope.

(** ** identifiers *)
Definition picked (H : hash_fn) (q : qinfo) (e : list Z) : option (list Z) :=
  if 0 <? q_from_start q then
    if zlen e <? q_from_start q then None else Some (first_bytes (q_from_start q) e)
  else if 0 <? q_from_end q then
    if zlen e <? q_from_end q then None else Some (last_bytes (q_from_end q) e)
  else Some (firstn 16 (H e)).

Lemma id_picked H q e : hash_ok H -> 0 <= q_from_start q -> 0 <= q_from_end q ->
  id_for_email H q e = Ok (option_map byte_to_bits (picked H q e)).
Proof.
  intros HH Hs He. unfold id_for_email, picked.
  destruct (Z.ltb_spec 0 (q_from_start q)).
  - destruct (Z.eqb_spec (q_from_start q) 0); try lia. cbn [negb].
    destruct (Z.ltb_spec (zlen e) (q_from_start q)); auto.
    rewrite go_slice_ok by lia. rewrite Z.sub_0_r. reflexivity.
  - destruct (Z.eqb_spec (q_from_start q) 0); try lia. cbn [negb].
    destruct (Z.ltb_spec 0 (q_from_end q)).
    + destruct (Z.eqb_spec (q_from_end q) 0); try lia. cbn [negb].
      destruct (Z.ltb_spec (zlen e) (q_from_end q)); auto.
      rewrite go_slice_ok by lia. cbn [bind option_map]. unfold last_bytes. do 3 f_equal.
      rewrite firstn_all2 by (rewrite skipn_length; unfold zlen; lia).
      f_equal. unfold zlen. lia.
    + destruct (Z.eqb_spec (q_from_end q) 0); try lia. cbn [negb].
      destruct (HH e) as [HL _]. rewrite go_slice_ok; [reflexivity|lia|unfold zlen; rewrite HL; lia].
Qed.

Lemma picked_ok H q e s : hash_ok H -> bytes e -> picked H q e = Some s ->
  bytes s /\ length s = Z.to_nat (email_id_bytes q) /\
  (ascii e -> (0 < q_from_start q \/ 0 < q_from_end q) -> ascii s).
Proof.
  intros HH He. unfold picked, email_id_bytes.
  destruct (Z.ltb_spec 0 (q_from_start q)); [|destruct (Z.ltb_spec 0 (q_from_end q))].
  - destruct (Z.ltb_spec (zlen e) (q_from_start q)); intros E; inversion E; subst. unfold first_bytes.
    split; [apply Forall_firstn'; auto|split].
    + rewrite firstn_length. unfold zlen in *. lia.
    + intros A _. apply Forall_firstn'; auto.
  - destruct (Z.ltb_spec (zlen e) (q_from_end q)); intros E; inversion E; subst. unfold last_bytes.
    split; [apply Forall_skipn'; auto|split].
    + rewrite skipn_length. unfold zlen in *. lia.
    + intros A _. apply Forall_skipn'; auto.
  - intros E. assert (E' : s = firstn 16 (H e)) by congruence. rewrite E'. clear E E'.
    destruct (HH e) as [HL HB].
    split; [apply Forall_firstn'; auto|split]. rewrite firstn_length, HL. reflexivity. lia.
Qed.

Lemma list_eqb_spec a : forall b, list_eqb a b = true <-> a = b.
Proof.
  induction a as [|x a IH]; intros [|y b]; cbn [list_eqb]; split; intros E; try congruence; auto.
  - apply andb_true_iff in E as [E1 E2]. apply Z.eqb_eq in E1. apply IH in E2. congruence.
  - injection E as -> ->. rewrite Z.eqb_refl. apply IH. auto.
Qed.

Lemma is_prefix_spec p : forall e, is_prefix p e = true <-> exists r, e = p ++ r.
Proof.
  induction p as [|x p IH]; intros e; cbn [is_prefix].
  - split; auto. intros _. exists e. auto.
  - destruct e as [|y e]. { split; [discriminate|]. intros [r E]. discriminate. }
    rewrite andb_true_iff, IH, Z.eqb_eq. split.
    + intros [-> [r ->]]. exists r. auto.
    + intros [r E]. injection E as -> ->. split; auto. exists r. auto.
Qed.

Lemma is_suffix_spec s e : is_suffix s e = true <-> exists r, e = r ++ s.
Proof.
  unfold is_suffix. rewrite is_prefix_spec. split; intros [r E].
  - exists (rev r). rewrite <- (rev_involutive e), E, rev_app_distr, rev_involutive. auto.
  - exists (rev r). rewrite E, rev_app_distr. auto.
Qed.

Lemma picked_match H q text e : text_long_enough q text ->
  exists t, picked H q text = Some t /\ (picked H q e = Some t <-> email_matches H q text e = true).
Proof.
  intros (Hs & He & HL). unfold picked, email_matches.
  destruct (Z.ltb_spec 0 (q_from_start q)) as [S|S]; [|destruct (Z.ltb_spec 0 (q_from_end q)) as [E|E]].
  - set (n := q_from_start q) in *.
    destruct (Z.ltb_spec (zlen text) n); try lia.
    eexists. split. reflexivity. rewrite is_prefix_spec.
    assert (L : length (first_bytes n text) = Z.to_nat n).
    { unfold first_bytes. rewrite firstn_length. unfold zlen in *. lia. }
    split.
    + intros Q. destruct (Z.ltb_spec (zlen e) n); try discriminate. injection Q as Q.
      exists (skipn (Z.to_nat n) e). rewrite <- Q. unfold first_bytes. symmetry. apply firstn_skipn.
    + intros [r Q]. assert (zlen e = n + zlen r).
      { rewrite Q, zlen_app. f_equal. unfold zlen. rewrite L. lia. }
      pose proof (zlen_nonneg r). destruct (Z.ltb_spec (zlen e) n); try lia.
      f_equal. rewrite Q. unfold first_bytes at 1. rewrite firstn_app_exact; auto.
  - set (n := q_from_end q) in *.
    destruct (Z.ltb_spec (zlen text) n); try lia.
    eexists. split. reflexivity. rewrite is_suffix_spec.
    assert (L : length (last_bytes n text) = Z.to_nat n).
    { unfold last_bytes. rewrite skipn_length. unfold zlen in *. lia. }
    split.
    + intros Q. destruct (Z.ltb_spec (zlen e) n); try discriminate. injection Q as Q.
      exists (firstn (length e - Z.to_nat n) e). rewrite <- Q. unfold last_bytes. symmetry. apply firstn_skipn.
    + intros [r Q]. assert (zlen e = zlen r + n).
      { rewrite Q, zlen_app. f_equal. unfold zlen. rewrite L. lia. }
      pose proof (zlen_nonneg r). destruct (Z.ltb_spec (zlen e) n); try lia.
      f_equal. rewrite Q. unfold last_bytes at 1. rewrite skipn_app_exact; auto.
      rewrite app_length, L. lia.
  - eexists. split. reflexivity. rewrite list_eqb_spec. split; congruence.
Qed.

(** reading the identifier: position 256 is the top bit of byte 32 *)
Lemma bits_read_bytes s : bytes s -> ((length s <= 32)%nat \/ nth 32 s 0 < 128) ->
  bits_read 0 (byte_to_bits s) = byte_to_bits s.
Proof.
  intros Hs HC. destruct (Nat.le_gt_cases (length s) 32) as [HL|HL].
  - apply bits_read_short. rewrite byte_to_bits_length. lia.
  - destruct HC as [HC|HC]; try lia.
    rewrite bits_read_upd. 
    assert (HB : nth 256 (byte_to_bits s) false = false).
    { change 256%nat with (8 * 32 + 0)%nat. rewrite byte_to_bits_nth by (auto; lia). cbn [Z.of_nat].
      change (7 - 0) with 7.
      assert (Hb : is_byte (nth 32 s 0)) by (apply (Forall_nth0 _ s 32 0 Hs); lia).
      unfold is_byte in Hb. destruct (Z.eq_dec (nth 32 s 0) 0) as [->|]. reflexivity.
      apply Z.bits_above_log2; try lia. apply Z.log2_lt_pow2; try lia. }
    assert (UN : forall (l : list bool) i, nth i l false = false -> upd l i false = l).
    { induction l as [|y l IH]; intros i Hi; destruct i; cbn [upd nth] in *; congruence || (f_equal; auto). }
    apply UN; auto.
Qed.

Lemma byte_to_bits_app a b : byte_to_bits (a ++ b) = byte_to_bits a ++ byte_to_bits b.
Proof. unfold byte_to_bits. apply flat_map_app. Qed.

Lemma nth_ascii s i : ascii s -> nth i s 0 < 128.
Proof.
  intros A. destruct (Nat.lt_ge_cases i (length s)).
  - apply (Forall_nth0 _ s i 0 A); auto.
  - rewrite nth_overflow by lia. lia.
Qed.

Definition readable (rq : request) (db : list key_info) : Prop :=
  request_bytes rq <= 32 \/ Forall (fun ki => ascii (ki_email ki)) db.

(** the identifier function the server uses for a request *)
Definition request_id (H : hash_fn) (rq : request) (ki : key_info) : res (option (list bool)) :=
  match rq with
  | ByEmail q _ => id_for_email H q (ki_email ki)
  | ByAlgo _ => Ok (Some (id_for_algo (ki_algo ki)))
  | ByCreation _ => id_creation ki
  | ByYearAndEmail q _ => id_conj H q ki
  end.

Lemma email_id_bytes_pos q : 0 < email_id_bytes q.
Proof. unfold email_id_bytes. destruct (Z.ltb_spec 0 (q_from_start q)), (Z.ltb_spec 0 (q_from_end q)); lia. Qed.

Lemma bits_eqb_bytes a b : bytes a -> bytes b -> bits_eqb (byte_to_bits a) (byte_to_bits b) = list_eqb a b.
Proof.
  intros Ha Hb. destruct (list_eqb a b) eqn:E.
  - apply list_eqb_spec in E. subst. apply bits_eqb_spec. auto.
  - destruct (bits_eqb _ _) eqn:F; auto. apply bits_eqb_spec in F. apply byte_to_bits_inj in F; auto.
    subst. assert (list_eqb b b = true) by (apply list_eqb_spec; auto). congruence.
Qed.

Lemma bool_iff (x y : bool) : (x = true <-> y = true) -> x = y.
Proof. destruct x, y; intuition congruence. Qed.

Lemma be_enc_inj k a b : 0 <= a < 256 ^ Z.of_nat k -> 0 <= b < 256 ^ Z.of_nat k -> be_enc k a = be_enc k b -> a = b.
Proof. intros Ha Hb E. rewrite <- (be_dec_enc k a), <- (be_dec_enc k b), E; auto. Qed.

Lemma app_inj {A} (a b c d : list A) : length a = length c -> a ++ b = c ++ d -> a = c /\ b = d.
Proof.
  revert c. induction a as [|x a IH]; intros [|y c] HL E; cbn [length app] in *; try discriminate; auto.
  injection E as -> E. injection HL as HL. destruct (IH _ HL E). subst. auto.
Qed.

Definition zone_bytes (z : option Z) : list Z :=
  match z with None => [255; 255] | Some m => be_enc 2 (m mod 65536) end.
Definition marshalled (t : gtime) : list Z :=
  [1] ++ be_enc 8 (u64 (t_sec t)) ++ be_enc 4 (u32 (t_nsec t)) ++ zone_bytes (t_zone t).

Lemma marshal_time_ok t :
  (forall m, t_zone t = Some m -> -32768 <= m <= 32767 /\ m <> -1) -> marshal_time t = Ok (marshalled t).
Proof.
  intros HZ. unfold marshal_time, marshalled, zone_bytes. destruct (t_zone t) as [m|]; auto.
  destruct (HZ m eq_refl). destruct (Z.ltb_spec m (-32768)), (Z.eqb_spec m (-1)), (Z.ltb_spec 32767 m); try lia. auto.
Qed.

Lemma zone_bytes_ok z : bytes (zone_bytes z) /\ length (zone_bytes z) = 2%nat.
Proof. destruct z; cbn [zone_bytes]; split; auto using be_enc_bytes, be_enc_length; bounds. Qed.

Lemma marshalled_ok t : bytes (marshalled t) /\ length (marshalled t) = 15%nat.
Proof.
  destruct (zone_bytes_ok (t_zone t)) as [HB HL]. unfold marshalled. split.
  - assert (B1 : bytes [1]) by (constructor; [unfold is_byte, w8; lia|constructor]).
    apply bytes_app; [exact B1|]. apply bytes_app; [apply be_enc_bytes|].
    apply bytes_app; [apply be_enc_bytes|exact HB].
  - rewrite !app_length, !be_enc_length, HL. reflexivity.
Qed.

Lemma marshalled_inj t u :
  - 2 ^ 63 <= t_sec t < 2 ^ 63 -> - 2 ^ 63 <= t_sec u < 2 ^ 63 ->
  0 <= t_nsec t < 10 ^ 9 -> 0 <= t_nsec u < 10 ^ 9 ->
  (forall m, t_zone t = Some m -> -32768 <= m <= 32767 /\ m <> -1) ->
  (forall m, t_zone u = Some m -> -32768 <= m <= 32767 /\ m <> -1) ->
  marshalled t = marshalled u -> t = u.
Proof.
  intros S1 S2 N1 N2 Z1 Z2 E. unfold marshalled in E.
  apply app_inj in E as [_ E]; [|reflexivity]. apply app_inj in E as [ES E]; [|rewrite !be_enc_length; auto].
  apply app_inj in E as [EN EZ]; [|rewrite !be_enc_length; auto].
  assert (HS : t_sec t = t_sec u).
  { apply be_enc_inj in ES; unfold u64, w64 in *; try (apply Z.mod_pos_bound; lia).
    Z.to_euclidean_division_equations. lia. }
  assert (HN : t_nsec t = t_nsec u).
  { apply be_enc_inj in EN; unfold u32, w32 in *; try (apply Z.mod_pos_bound; lia).
    rewrite (Z.mod_small (t_nsec t)), (Z.mod_small (t_nsec u)) in EN; lia. }
  assert (HZ : t_zone t = t_zone u).
  { assert (X : [255; 255] = be_enc 2 65535) by reflexivity.
    unfold zone_bytes in EZ. destruct (t_zone t) as [m|], (t_zone u) as [m'|]; auto; rewrite ?X in EZ;
      try (destruct (Z1 _ eq_refl)); try (destruct (Z2 _ eq_refl));
      apply be_enc_inj in EZ; change (256 ^ Z.of_nat 2) with 65536; try (apply Z.mod_pos_bound; lia); try lia;
      Z.to_euclidean_division_equations; try lia.
    f_equal. lia. }
  destruct t, u; cbn in *; congruence.
Qed.

Lemma pka_known name c : algo_number name = Some c -> pka_of_name name = c /\ 0 < c < 20.
Proof.
  unfold pka_of_name.
  destruct (String.eqb_spec name "RSA") as [->|N1]. { intros E; injection E as <-. lia. }
  destruct (String.eqb_spec name "ElGamal") as [->|N2]. { intros E; injection E as <-. lia. }
  destruct (String.eqb_spec name "DSA") as [->|N3]. { intros E; injection E as <-. lia. }
  destruct (String.eqb_spec name "ECDH") as [->|N4]. { intros E; injection E as <-. lia. }
  destruct (String.eqb_spec name "ECDSA") as [->|N5]. { intros E; injection E as <-. lia. }
  intros E. exfalso. unfold algo_number in E.
  repeat match type of E with
  | (match ?x with _ => _ end = _) => destruct x; try discriminate
  end; congruence.
Qed.

Lemma pka_unknown name : algo_number name = None -> pka_of_name name = 0.
Proof.
  unfold pka_of_name. intros E.
  destruct (String.eqb_spec name "RSA") as [->|]; [discriminate|].
  destruct (String.eqb_spec name "ElGamal") as [->|]; [discriminate|].
  destruct (String.eqb_spec name "DSA") as [->|]; [discriminate|].
  destruct (String.eqb_spec name "ECDH") as [->|]; [discriminate|].
  destruct (String.eqb_spec name "ECDSA") as [->|]; [discriminate|]. auto.
Qed.

(** the identifiers of one record against the input of the request *)
Lemma request_ids H rq db :
  hash_ok H -> request_ok rq -> Forall record_ok db -> readable rq db ->
  exists inp, request_input H rq = Ok inp /\
    id_total (request_id H rq) (length inp) db /\
    Forall (fun ki => hits (request_id H rq) inp ki = selects H rq ki) db.
Proof.
  intros HH HR HD HF. destruct rq as [q text|name|y|q text].
  - (* e-mail *)
    destruct HR as (HP & HT & HB). pose proof HT as (Ps & Pe & _).
    destruct (picked_match H q text [] HT) as (t & Pt & _).
    destruct (picked_ok H q text t HH HB Pt) as (Bt & Lt & _).
    exists (byte_to_bits t). cbn [request_input request_id]. unfold to_email_client.
    rewrite id_picked, Pt by auto. cbn [bind opt_bits option_map]. split; [reflexivity|].
    assert (HX : Forall (fun ki =>
      (request_id H (ByEmail q text) ki = Ok None \/
       exists x, request_id H (ByEmail q text) ki = Ok (Some x) /\ length x = length (byte_to_bits t)) /\
      hits (request_id H (ByEmail q text)) (byte_to_bits t) ki = selects H (ByEmail q text) ki) db).
    { apply Forall_forall. intros ki Hin.
      assert (RK : record_ok ki) by (apply (proj1 (Forall_forall _ _) HD); auto).
      destruct RK as (Be & _).
      assert (AS : request_bytes (ByEmail q text) <= 32 \/ ascii (ki_email ki)).
      { destruct HF as [F|F]; auto. right. apply (proj1 (Forall_forall _ _) F); auto. }
      unfold hits. cbn [request_id selects request_bytes] in *.
      rewrite id_picked by auto.
      destruct (picked_match H q text (ki_email ki) HT) as (t' & Pt' & PM). rewrite Pt in Pt'. injection Pt' as <-.
      destruct (picked H q (ki_email ki)) as [s|] eqn:Ps'; cbn [option_map].
      - destruct (picked_ok H q (ki_email ki) s HH Be Ps') as (Bs & Ls & As).
        split. { right. eexists. split. reflexivity. rewrite !byte_to_bits_length. lia. }
        rewrite bits_read_bytes, bits_eqb_bytes; auto.
        + apply bool_iff. rewrite list_eqb_spec, <- PM. split; congruence.
        + destruct AS as [AS|AS]. left; lia.
          unfold email_id_bytes in Ls.
          destruct (Z.ltb_spec 0 (q_from_start q)); [|destruct (Z.ltb_spec 0 (q_from_end q))].
          * right. apply nth_ascii; auto.
          * right. apply nth_ascii; auto.
          * left. rewrite Ls. unfold Z.to_nat, Pos.to_nat. cbn. lia.
      - split; auto. apply bool_iff. split; [discriminate|]. intros M. apply PM in M. discriminate. }
    split; (eapply Forall_impl; [|exact HX]); cbv beta; tauto.
  - (* algorithm *)
    cbn [request_ok] in HR. destruct (algo_number name) as [c|] eqn:EA; try congruence.
    destruct (pka_known name c EA) as [EP HC].
    exists (to_pka_client name). cbn [request_input request_id]. split; [reflexivity|]. split.
    + apply Forall_forall. intros ki _. right. eexists. split. reflexivity.
      unfold to_pka_client, id_for_algo. rewrite !byte_to_bits_length. reflexivity.
    + apply Forall_forall. intros ki Hin.
      assert (RK : record_ok ki) by (apply (proj1 (Forall_forall _ _) HD); auto).
      destruct RK as (_ & Ba & _). unfold hits. cbn [request_id selects]. rewrite EA.
      unfold to_pka_client, id_for_algo. rewrite EP.
      unfold is_byte, w8 in Ba. rewrite !Z.mod_small by lia.
      assert (B1 : bytes [ki_algo ki]) by (constructor; auto).
      assert (B2 : bytes [c]) by (constructor; auto; unfold is_byte, w8; lia).
      rewrite bits_read_bytes, bits_eqb_bytes; auto.
      * cbn [list_eqb]. apply andb_true_r.
      * left. cbn [length]. lia.
  - (* creation time *)
    cbn [request_ok] in HR. 
    set (t0 := date_utc y 0 0). assert (ET0 : t0 = mkTime (86400 * (days_before_year y - 32)) 0 None) by apply date_00.
    assert (Z0 : forall m, t_zone t0 = Some m -> -32768 <= m <= 32767 /\ m <> -1) by (rewrite ET0; discriminate).
    exists (byte_to_bits (marshalled t0)). cbn [request_input]. unfold to_creation_client, id_for_creation_time. fold t0.
    rewrite (marshal_time_ok t0) by auto. cbn [bind]. split; [reflexivity|].
    destruct (marshalled_ok t0) as [B0 L0].
    assert (HX : Forall (fun ki =>
      (request_id H (ByCreation y) ki = Ok None \/
       exists x, request_id H (ByCreation y) ki = Ok (Some x) /\ length x = length (byte_to_bits (marshalled t0))) /\
      hits (request_id H (ByCreation y)) (byte_to_bits (marshalled t0)) ki = selects H (ByCreation y) ki) db).
    { apply Forall_forall. intros ki Hin.
      assert (RK : record_ok ki) by (apply (proj1 (Forall_forall _ _) HD); auto).
      destruct RK as (_ & _ & Sk & Nk & Zk & _).
      unfold hits. cbn [request_id selects]. unfold id_creation, id_for_creation_time.
      rewrite (marshal_time_ok (ki_time ki)) by auto. cbn [bind].
      destruct (marshalled_ok (ki_time ki)) as [Bk Lk].
      split. { right. eexists. split. reflexivity. rewrite !byte_to_bits_length. lia. }
      rewrite bits_read_bytes, bits_eqb_bytes; auto; [|left; lia].
      apply bool_iff. rewrite list_eqb_spec, !andb_true_iff, !Z.eqb_eq. split.
      - intros E. apply marshalled_inj in E; auto; rewrite ?ET0; cbn [t_sec t_nsec]; try lia.
        rewrite E, ET0. auto.
      - intros [[E1 E2] E3]. f_equal. rewrite ET0. destruct (ki_time ki) as [ts tn [z|]]; cbn in *; try discriminate.
        subst. auto. }
    split; (eapply Forall_impl; [|exact HX]); cbv beta; tauto.
  - (* conjunction *)
    destruct HR as (HP & HT & HB). pose proof HT as (Ps & Pe & _).
    destruct (picked_match H q text [] HT) as (t & Pt & _).
    destruct (picked_ok H q text t HH HB Pt) as (Bt & Lt & _).
    set (yb := be_enc 4 (u32 (time_year (date_utc 2019 0 0)))).
    assert (Eyb : yb = be_enc 4 2018). { unfold yb. rewrite date_00_year. reflexivity. }
    assert (Byb : bytes yb) by apply be_enc_bytes.
    exists (byte_to_bits (yb ++ t)). cbn [request_input request_id]. unfold to_and_client.
    rewrite id_picked, Pt by auto. cbn [bind opt_bits option_map].
    split. { rewrite byte_to_bits_app. reflexivity. }
    assert (HX : Forall (fun ki =>
      (request_id H (ByYearAndEmail q text) ki = Ok None \/
       exists x, request_id H (ByYearAndEmail q text) ki = Ok (Some x) /\ length x = length (byte_to_bits (yb ++ t))) /\
      hits (request_id H (ByYearAndEmail q text)) (byte_to_bits (yb ++ t)) ki = selects H (ByYearAndEmail q text) ki) db).
    { apply Forall_forall. intros ki Hin.
      assert (RK : record_ok ki) by (apply (proj1 (Forall_forall _ _) HD); auto).
      destruct RK as (Be & _ & _ & _ & _ & Yk).
      assert (AS : request_bytes (ByYearAndEmail q text) <= 32 \/ ascii (ki_email ki)).
      { destruct HF as [F|F]; auto. right. apply (proj1 (Forall_forall _ _) F); auto. }
      unfold hits. cbn [request_id selects request_bytes] in *. unfold id_conj.
      rewrite id_picked by auto. cbn [bind].
      destruct (picked_match H q text (ki_email ki) HT) as (t' & Pt' & PM). rewrite Pt in Pt'. injection Pt' as <-.
      destruct (picked H q (ki_email ki)) as [s|] eqn:Ps'; cbn [option_map].
      - destruct (picked_ok H q (ki_email ki) s HH Be Ps') as (Bs & Ls & As).
        set (yk := be_enc 4 (u32 (time_year (ki_time ki)))).
        assert (Byk : bytes yk) by apply be_enc_bytes.
        assert (Lyk : length yk = 4%nat) by apply be_enc_length.
        assert (Lyb : length yb = 4%nat) by apply be_enc_length.
        unfold id_for_year. fold yk. rewrite <- byte_to_bits_app.
        split. { right. eexists. split. reflexivity. rewrite !byte_to_bits_length, !app_length. lia. }
        rewrite bits_read_bytes, bits_eqb_bytes; auto using bytes_app.
        + apply bool_iff. rewrite list_eqb_spec, andb_true_iff, <- PM, Z.eqb_eq. split.
          * intros E. apply app_inj in E as [E1 E2]; [|lia]. subst s. split; auto.
            unfold yk in E1. rewrite Eyb in E1.
            apply be_enc_inj in E1; change (256 ^ Z.of_nat 4) with 4294967296 in *; unfold u32, w32 in *; try lia.
          * intros [E1 E2]. injection E2 as ->. unfold yk. rewrite E1, Eyb. reflexivity.
        + assert (AP : length (yk ++ s) = (4 + Z.to_nat (email_id_bytes q))%nat) by (rewrite app_length; lia).
          destruct AS as [AS|AS]. left; pose proof (email_id_bytes_pos q); lia.
          unfold email_id_bytes in AP, Ls.
          destruct (Z.ltb_spec 0 (q_from_start q)); [|destruct (Z.ltb_spec 0 (q_from_end q))].
          * right. rewrite app_nth2 by lia. apply nth_ascii; auto.
          * right. rewrite app_nth2 by lia. apply nth_ascii; auto.
          * left. rewrite AP. change (Z.to_nat 16) with 16%nat. lia.
      - split; auto. apply bool_iff. split; [discriminate|].
        intros M. apply andb_true_iff in M as [_ M]. apply PM in M. discriminate. }
    split; (eapply Forall_impl; [|exact HX]); cbv beta; tauto.
Qed.
