(** The predicate queries of the benchmark. *)
From Coq Require Import String ZArith List Bool Lia Arith Permutation.
From Verif Require Import GoBase BaseFacts EncodingModel EncodingProofs MerkleModel MerkleSpec FieldModel FSSModel PredicateModel PredicateSpec PredicateProofs2
  FSSProofs PointProofs2 PrgModel PointModel LWEModel DirectoryModel FrontendModel FrontendSpec FrontendProofs MultiModel MultiSpec MultiProofs.
Import ListNotations.
Open Scope Z_scope.
Open Scope go_scope.

Lemma year_bounds d : 0 <= d < 800000 -> 0 <= year_of_days d < 4000.
Proof. intros B. unfold year_of_days. Z.div_mod_to_equations. lia. Qed.

Lemma letters_ok i : 0 <= i < 36 -> exists b, go_index letters i = Ok b /\ alphanumeric b.
Proof.
  intros B. unfold go_index. destruct (Z.ltb_spec i 0); [lia|].
  assert (L : length letters = 36%nat) by reflexivity.
  destruct (nth_error letters (Z.to_nat i)) as [b|] eqn:E.
  - exists b. split; auto. apply nth_error_In in E.
    assert (F : Forall alphanumeric letters) by (unfold alphanumeric; vm_compute; repeat constructor; intuition congruence).
    rewrite Forall_forall in F. auto.
  - apply nth_error_None in E. lia.
Qed.

Lemma mapM_letters (draw : nat -> Z) : (forall i, 0 <= draw i < 36) -> forall l, exists t, mapM (fun i => go_index letters (draw i)) l = Ok t /\
  length t = length l /\ Forall alphanumeric t.
Proof.
  intros D. induction l as [|i l (t & E & L & F)].
  - exists []. repeat split; auto.
  - destruct (letters_ok (draw i) (D i)) as (b & EB & AB). exists (b :: t). cbn [mapM]. rewrite EB. cbn [bind]. rewrite E. cbn [bind length]. repeat split; auto.
Qed.

Lemma ranstring_ok draw n : (forall i, 0 <= draw i < 36) -> 0 <= n -> exists t, ranstring draw n = Ok t /\ zlen t = n /\ Forall alphanumeric t.
Proof.
  intros D N. unfold ranstring, go_make. destruct (Z.ltb_spec n 0); [lia|]. cbn [bind]. rewrite repeat_length.
  destruct (mapM_letters draw D (range (Z.to_nat n))) as (t & E & L & F). exists t. split; auto. split; auto.
  unfold zlen. rewrite L. unfold range. rewrite seq_length. lia.
Qed.

Lemma alnum_bytes t : Forall alphanumeric t -> bytes t.
Proof. apply Forall_impl. unfold alphanumeric, is_byte. intros. unfold w8. lia. Qed.
Lemma alnum_ascii t : Forall alphanumeric t -> ascii t.
Proof. apply Forall_impl. unfold alphanumeric. intros. lia. Qed.

Lemma random_key_ok zone d : zone_ok zone -> drawn d ->
  exists ki, random_key zone d = Ok ki /\ record_ok ki /\ zlen (ki_email ki) = 32 /\ Forall alphanumeric (ki_email ki) /\
    (ki_algo ki = 1 \/ 16 <= ki_algo ki <= 19) /\ 1999 <= time_year (ki_time ki) <= 2021.
Proof.
  intros ZO (DS & DA & DT). unfold random_key. cbv zeta.
  assert (EM : t_sec (date_utc 2000 1 0) = 86400 * 730118) by reflexivity. rewrite EM.
  assert (EA : exists a, go_index [1; 16; 17; 18; 19] (d_algo d) = Ok a /\ (a = 1 \/ 16 <= a <= 19)).
  { assert (C : d_algo d = 0 \/ d_algo d = 1 \/ d_algo d = 2 \/ d_algo d = 3 \/ d_algo d = 4) by lia.
    destruct C as [C|[C|[C|[C|C]]]]; rewrite C; eexists; (split; [reflexivity|lia]). }
  destruct EA as (a & EA & HA). rewrite EA. cbn [bind].
  destruct (ranstring_ok (d_text d) 32 DT ltac:(lia)) as (t & ET & LT & FT). rewrite ET. cbn [bind].
  eexists. split; [reflexivity|]. unfold record_ok. cbn [ki_email ki_algo ki_time t_sec t_nsec t_zone].
  assert (Y : 1999 <= time_year (mkTime (d_sec d + 86400 * 730118) 0 zone) <= 2021).
  { unfold time_year, zone_seconds. cbn [t_sec t_zone].
    set (z := match zone with None => 0 | Some m => 60 * m end).
    assert (ZB : -1966080 <= z <= 1966020). { unfold z. destruct zone as [m|]; [|lia]. destruct (ZO m eq_refl). lia. }
    assert (DB : 730095 <= (d_sec d + 86400 * 730118 + z) / 86400 < 738146).
    { split; [apply Z.div_le_lower_bound; lia|apply Z.div_lt_upper_bound; lia]. }
    revert DB. generalize ((d_sec d + 86400 * 730118 + z) / 86400). clear. intros q B.
    unfold year_of_days. Z.div_mod_to_equations. lia. }
  split; [|split; [exact LT|]; split; [exact FT|]; split; [exact HA|exact Y]].
  split; [apply alnum_bytes; auto|]. split; [unfold is_byte, w8; lia|]. split; [change (2 ^ 63) with 9223372036854775808; lia|].
  split; [change (10 ^ 9) with 1000000000; lia|]. split; [exact ZO|]. unfold w32. lia.
Qed.

Lemma random_keys_ok zone dr n : zone_ok zone -> (forall i, drawn (dr i)) -> 0 <= n ->
  exists db, create_random_keys_db zone dr n = Ok db /\ zlen db = n /\ Forall (fun ki => record_ok ki /\ random_record ki) db.
Proof.
  intros ZO D N. unfold create_random_keys_db, go_make. destruct (Z.ltb_spec n 0); [lia|]. cbn [bind]. rewrite repeat_length.
  assert (M : forall l, exists db, mapM (fun i => random_key zone (dr i)) l = Ok db /\ length db = length l /\ Forall (fun ki => record_ok ki /\ random_record ki) db).
  { induction l as [|i l (t & E & L & F)]; [exists []; repeat split; auto|].
    destruct (random_key_ok zone (dr i) ZO (D i)) as (ki & EK & RK). exists (ki :: t). cbn [mapM]. rewrite EK. cbn [bind]. rewrite E. cbn [bind length].
    repeat split; auto. }
  destruct (M (range (Z.to_nat n))) as (db & E & L & F). exists db. split; [exact E|]. split; [|exact F].
  unfold zlen. rewrite L. unfold range. rewrite seq_length. lia.
Qed.

Lemma multi_complex_ok {C} enc H e alphas r (serve : C -> qinfo * fss_key -> option (list Z)) (c0 c1 : C) now0 now1 fresh0 fresh1 order arrive n draw db :
  cipher_ok enc -> hash_ok H -> rand_ok r -> e = S (length alphas) -> (e < 20)%nat -> Forall reduced alphas ->
  Forall (fun ki => record_ok ki /\ random_record ki) db -> 0 < n -> (forall i, 0 <= draw i < 36) ->
  honest enc H e db serve c0 0 now0 fresh0 -> honest enc H e db serve c1 1 now1 fresh1 -> some_order arrive ->
  let q := mkInfo target_userid n 0 false false false in
  exists text, ranstring draw n = Ok text /\ zlen text = n /\
   let count := count_matching (fun ki => is_prefix text (ki_email ki)) db in
   (order = [c0; c1] -> unresampled enc H e alphas r 0 1 now0 now1 fresh0 fresh1 db q (byte_to_bits text) ->
      multi_complex enc e alphas r serve order arrive n draw = Ok (count mod ModP)) /\
   (order = [c1; c0] -> unresampled enc H e alphas r 1 0 now1 now0 fresh1 fresh0 db q (byte_to_bits text) ->
      multi_complex enc e alphas r serve order arrive n draw = Ok ((- count) mod ModP)).
Proof.
  intros He HH Hr HE H20 Ha HD HN DR S0 S1 SO q. destruct (ranstring_ok draw n DR ltac:(lia)) as (text & ET & LT & FT).
  exists text. split; [exact ET|]. split; [exact LT|]. cbv zeta.
  set (rq := ByEmail q text).
  assert (RI : request_input H rq = Ok (byte_to_bits text)).
  { cbn [rq request_input]. unfold to_email_client, id_for_email, q. cbn [q_from_start]. destruct (Z.eqb_spec n 0); [lia|]. cbn [negb].
    rewrite LT, Z.ltb_irrefl. rewrite go_slice_ok by lia. cbn [bind opt_bits]. do 2 f_equal. rewrite Z.sub_0_r. cbn [Z.to_nat skipn].
    apply firstn_all2. unfold zlen in LT. lia. }
  assert (RO : request_ok rq).
  { cbn [rq request_ok]. split; [repeat split|]. split; [|apply alnum_bytes; auto]. unfold text_long_enough, q. cbn [q_from_start q_from_end].
    split; [lia|]. split; [lia|]. destruct (Z.ltb_spec 0 n); lia. }
  assert (RD : Forall record_ok db) by (eapply Forall_impl; [|exact HD]; cbv beta; tauto).
  assert (RR : readable rq db). { right. eapply Forall_impl; [|exact HD]. cbv beta. intros ki (_ & _ & F & _). apply alnum_ascii; auto. }
  assert (CM : count_matching (selects H rq) db = count_matching (fun ki => is_prefix text (ki_email ki)) db).
  { unfold count_matching. f_equal. apply filter_ext. intros ki. cbn [rq selects]. unfold email_matches, q. cbn [q_from_start].
    destruct (Z.ltb_spec 0 n); [|lia]. unfold first_bytes. rewrite firstn_all2 by (unfold zlen in LT; lia). reflexivity. }
  split; intros -> UR; unfold multi_complex; rewrite ET; cbn [bind]; change (zlen [c0; c1]) with 2; change (zlen [c1; c0]) with 2; fold q; change q with (request_info rq) in UR |- *.
  - rewrite (exchange_count enc H e alphas r serve c0 c1 now0 now1 fresh0 fresh1 db arrive rq (byte_to_bits text)) by assumption. rewrite CM. reflexivity.
  - rewrite (exchange_swapped enc H e alphas r serve c1 c0 now1 now0 fresh1 fresh0 db arrive rq (byte_to_bits text)) by assumption. rewrite CM. reflexivity.
Qed.

Lemma multi_complex_servers {C} enc e alphas r (serve : C -> qinfo * fss_key -> option (list Z)) order arrive n draw text :
  zlen order <> 2 -> ranstring draw n = Ok text -> exists m, multi_complex enc e alphas r serve order arrive n draw = Fatal m.
Proof.
  intros N E. unfold multi_complex. rewrite E. cbn [bind]. unfold exchange, client_query.
  destruct (Z.eqb_spec (zlen order) 2); [contradiction|]. cbn [negb orb bind]. eexists. reflexivity.
Qed.
