(** Predicate servers on arbitrary decoded queries. *)
From Coq Require Import String ZArith List Bool Lia.
From Verif Require Import GoBase BaseFacts FieldModel FSSModel EncodingModel MerkleModel MerkleSpec PredicateModel PredicateSpec
  FieldProofs XorFacts FSSProofs EncodingProofs MerkleProofs PredicateProofs PredicateProofs2 HostileSpec.
Import ListNotations.
Open Scope Z_scope.

Definition covers (cws : list (list Z)) (n : nat) : Prop := (n <= length cws)%nat /\ Forall (fun c => (18 <= length c)%nat) (firstn n cws).
Lemma covers_dec cws n : covers cws n \/ ~ covers cws n.
Proof.
  unfold covers. destruct (le_lt_dec n (length cws)) as [H|H]; [|right; lia].
  destruct (Forall_dec (fun c : list Z => (18 <= length c)%nat) (fun c => Compare_dec.le_dec 18 (length c)) (firstn n cws)) as [F|F]; [left; auto|right; tauto].
Qed.

Lemma eval_step_any enc xb cw s t : cipher_ok enc -> seed_ok s -> bytes cw ->
  (18 <= length cw)%nat -> exists s' t', eval_step enc xb cw s t = Ok (s', t') /\ seed_ok s'.
Proof.
  intros He Hs Bc L. unfold eval_step. destruct (prf_spec enc s 3 He Hs ltac:(lia)) as (o & E & LO & BO). rewrite E. cbn [bind].
  destruct (Nat.ltb_spec (length cw) 18); [lia|].
  set (mask := firstn 17 cw ++ firstn 16 cw ++ [nth 17 cw 0]).
  assert (LM : length mask = 34%nat). { unfold mask. rewrite !app_length, !firstn_length. cbn [length]. lia. }
  set (o' := xor_list (firstn 34 o) (map (mul8 t) mask)).
  assert (LO' : length o' = 34%nat). { unfold o', xor_list. rewrite map_length, combine_length, firstn_length, map_length, LM, LO. reflexivity. }
  assert (BO' : bytes o').
  { unfold o', xor_list. apply Forall_map, Forall_forall. intros [x y] I. cbn [fst snd].
    pose proof (in_combine_l _ _ _ _ I) as Ix. pose proof (in_combine_r _ _ _ _ I) as Iy.
    assert (X : is_byte x). { apply (proj1 (Forall_forall _ _) BO). rewrite <- (firstn_skipn 34 o). apply in_or_app. auto. }
    apply in_map_iff in Iy as (z & <- & _). apply lxor_byte; auto. unfold mul8. apply Z.mod_pos_bound. reflexivity. }
  destruct xb; do 2 eexists; (split; [reflexivity|]).
  - split; [rewrite firstn_length, skipn_length, LO'; reflexivity|apply Forall_firstn', Forall_skipn'; auto].
  - split; [rewrite firstn_length, LO'; reflexivity|apply Forall_firstn'; auto].
Qed.

Lemma eval_loop_any enc : cipher_ok enc -> forall x cws i s t, seed_ok s -> Forall bytes cws ->
  (covers cws (length x) -> exists s' t', eval_loop enc i x cws s t = Ok (s', t') /\ seed_ok s') /\
  (~ covers cws (length x) -> is_panic (eval_loop enc i x cws s t) = true).
Proof.
  intros He. induction x as [|b x IH]; intros cws i s t Hs Bc; cbn [eval_loop length].
  - split; [intros _; eauto|]. intros N. exfalso. apply N. split; [lia|constructor].
  - destruct cws as [|cw cws].
    + split; [intros [L _]; cbn in L; lia|reflexivity].
    + inversion Bc as [|? ? Bcw Bcws]; subst. destruct (le_lt_dec 18 (length cw)) as [L|L].
      * destruct (eval_step_any enc (if (i =? 256)%nat then false else b) cw s t He Hs Bcw L) as (s' & t' & E & Hs'). rewrite E. cbn [bind fst snd].
        destruct (IH cws (S i) s' t' Hs' Bcws) as [A P]. split; intros C.
        -- apply A. destruct C as [C1 C2]. cbn in C1, C2. inversion C2; subst. split; [lia|auto].
        -- apply P. intros [C1 C2]. apply C. split; [cbn; lia|cbn; constructor; auto].
      * split; [intros [_ C]; cbn in C; inversion C; lia|].
        intros _. unfold eval_step, prf. change (4 <? 3)%nat with false. cbv iota. cbn [bind]. destruct (Nat.ltb_spec (length cw) 18); [reflexivity|lia].
Qed.

Lemma eval_outs_panic sn t : forall tmp cws, (length cws < length tmp)%nat -> is_panic (eval_outs sn t tmp cws) = true.
Proof.
  induction tmp as [|x tmp IH]; intros [|c cws] H; cbn in *; try lia; auto.
  specialize (IH cws ltac:(lia)). destruct (eval_outs sn t tmp cws); cbn in *; congruence.
Qed.

Lemma evaluate_any enc n fresh sn k x : cipher_ok enc -> key_bytes k -> (n < 20)%nat ->
  (covers (k_cw k) (length x) /\ (n <= length (k_finalcw k))%nat -> exists o f, evaluate_pf enc n fresh sn k x n = Ok (o, f) /\ length o = n) /\
  (~ (covers (k_cw k) (length x) /\ (n <= length (k_finalcw k))%nat) -> is_panic (evaluate_pf enc n fresh sn k x n) = true).
Proof.
  intros He [Bs Bc] Hn. unfold evaluate_pf.
  assert (Hs : seed_ok (go_copy (repeat 0 16) (k_sinit k))).
  { unfold go_copy. rewrite repeat_length. split.
    - rewrite app_length, firstn_length, skipn_length, repeat_length. lia.
    - apply Forall_app. split; [apply Forall_firstn'; auto|]. apply Forall_skipn'. apply Forall_forall. intros y Hy. apply repeat_spec in Hy. subst. unfold is_byte, w8. lia. }
  destruct (eval_loop_any enc He x (k_cw k) 0 _ (k_tinit k) Hs Bc) as [A P].
  destruct (covers_dec (k_cw k) (length x)) as [C|C].
  - destruct (A C) as (s' & t' & E & Hs'). rewrite E. cbn [bind].
    destruct (convert_block_spec enc n fresh s' n He Hs' ltac:(lia) Hn) as [F _]. rewrite F. cbn [bind].
    set (c := map (fun i => to_element _ _) _). assert (Lc : length (map fst c) = n). { unfold c. rewrite !map_length. unfold range. apply seq_length. }
    split.
    + intros [_ L]. destruct (eval_outs_spec sn t' (map fst c) (k_finalcw k) ltac:(lia)) as (o & O & LO & _). rewrite O. cbn [bind]. do 2 eexists. split; [reflexivity|lia].
    + intros N. pose proof (eval_outs_panic sn t' (map fst c) (k_finalcw k)) as Q. destruct (eval_outs _ _ _ _); cbn [bind is_panic] in *; auto; exfalso; assert (false = true) by (apply Q; assert (~ (n <= length (k_finalcw k))%nat) by tauto; lia); discriminate.
  - split; [tauto|]. intros _. specialize (P C). destruct (eval_loop _ _ _ _ _ _); cbn [is_panic bind] in *; congruence.
Qed.

(** ** the loop over the records *)
Lemma records_loop_any {S} (Inv : S -> Prop) (good : key_info -> Prop) (body : nat -> key_info -> S -> res S) db :
  (forall i ki st, In ki db -> Inv st -> good ki -> exists st', body i ki st = Ok st' /\ Inv st') ->
  (forall i ki st, In ki db -> ~ good ki -> is_panic (body i ki st) = true) ->
  (forall ki, good ki \/ ~ good ki) ->
  forall st, Inv st ->
  (Forall good db -> exists st', records_loop db body 0 (length db) st = Ok st' /\ Inv st') /\
  (~ Forall good db -> is_panic (records_loop db body 0 (length db) st) = true).
Proof.
  intros HG HB HD.
  assert (X : forall rest pre st, db = pre ++ rest -> Inv st ->
    (Forall good rest -> exists st', records_loop db body (length pre) (length rest) st = Ok st' /\ Inv st') /\
    (~ Forall good rest -> is_panic (records_loop db body (length pre) (length rest) st) = true)).
  { induction rest as [|ki rest IH]; intros pre st E I.
    - cbn. split; [eauto|]. intros N. exfalso. apply N. constructor.
    - rewrite (records_loop_cons db pre ki rest body st E).
      assert (Ik : In ki db) by (rewrite E; apply in_or_app; right; left; reflexivity).
      destruct (HD ki) as [G|G].
      + destruct (HG (length pre) ki st Ik I G) as (st' & B & I'). rewrite B. cbn [bind].
        destruct (IH (pre ++ [ki]) st' ltac:(rewrite <- app_assoc; exact E) I') as [A P].
        split; intros F; [inversion F; auto|]. apply P. intros F'. apply F. constructor; auto.
      + split; [intros F; inversion F; contradiction|]. intros _. specialize (HB (length pre) ki st Ik G).
        destruct (body (length pre) ki st); cbn [is_panic bind] in *; congruence. }
  intros st I. exact (X db [] st eq_refl I).
Qed.

Lemma sensible_dec q : sensible_lengths q \/ ~ sensible_lengths q.
Proof. unfold sensible_lengths. lia. Qed.

Lemma email_any H q e : hash_ok H ->
  (sensible_lengths q ->
     (zlen e < (if q_from_start q =? 0 then q_from_end q else q_from_start q) -> id_for_email H q e = Ok None) /\
     (~ zlen e < (if q_from_start q =? 0 then q_from_end q else q_from_start q) -> exists x, id_for_email H q e = Ok (Some x) /\
        Z.of_nat (length x) = 8 * (if q_from_start q =? 0 then if q_from_end q =? 0 then 16 else q_from_end q else q_from_start q))) /\
  (~ sensible_lengths q -> is_panic (id_for_email H q e) = true).
Proof.
  intros HH. unfold id_for_email, sensible_lengths. pose proof (zlen_nonneg e) as LN. pose proof (zlen_nonneg (H e)) as LH.
  destruct (Z.eqb_spec (q_from_start q) 0) as [E0|E0]; cbn [negb].
  - destruct (Z.eqb_spec (q_from_end q) 0) as [F0|F0]; cbn [negb].
    + split; [|lia]. intros _. split; [lia|]. intros _. destruct (HH e) as [HL _].
      rewrite go_slice_ok by (unfold zlen; rewrite ?HL; lia). cbn [bind]. eexists. split; [reflexivity|]. rewrite byte_to_bits_length, firstn_length, skipn_length, HL. reflexivity.
    + destruct (Z.ltb_spec (zlen e) (q_from_end q)); (split; [|intros N]).
      * intros _. split; [reflexivity|lia].
      * lia.
      * intros HS. split; [lia|]. intros HS2. rewrite go_slice_ok by lia. cbn [bind]. eexists. split; [reflexivity|].
        rewrite byte_to_bits_length, firstn_length, skipn_length. unfold zlen in *. lia.
      * unfold go_slice. destruct (Z.leb_spec (zlen e - q_from_end q) (zlen e)); try lia. rewrite andb_false_r. reflexivity.
  - destruct (Z.ltb_spec (zlen e) (q_from_start q)); (split; [|intros N]).
    + intros _. split; [reflexivity|lia].
    + lia.
    + intros HS. split; [lia|]. intros HS2. rewrite go_slice_ok by lia. cbn [bind]. eexists. split; [reflexivity|].
      rewrite byte_to_bits_length, firstn_length, skipn_length. unfold zlen in *. lia.
    + unfold go_slice. destruct (Z.leb_spec 0 (q_from_start q)); try lia. reflexivity.
Qed.

(** ** answers *)
Definition key_fits (k : fss_key) (n : nat) (q : qinfo) (ki : key_info) : Prop :=
  (looks_at_email q = true -> sensible_lengths q) /\ forall m, compared_bytes q ki = Some m -> key_covers k m n.
Lemma key_covers_iff k m n x : Z.of_nat (length x) = 8 * m -> key_covers k m n <-> covers (k_cw k) (@length bool x) /\ (n <= length (k_finalcw k))%nat.
Proof.
  intros E. unfold key_covers, covers. rewrite <- E, Nat2Z.id. unfold zlen.
  assert (F : Forall (fun c : list Z => 18 <= Z.of_nat (length c)) (firstn (length x) (k_cw k)) <-> Forall (fun c => (18 <= length c)%nat) (firstn (length x) (k_cw k))).
  { split; apply Forall_impl; intros; lia. }
  rewrite F. split; intros; repeat split; try tauto; lia.
Qed.
Lemma key_covers_dec k m n : key_covers k m n \/ ~ key_covers k m n.
Proof.
  unfold key_covers. destruct (Forall_dec (fun c : list Z => 18 <= zlen c) (fun c => Z_le_dec 18 (zlen c)) (firstn (Z.to_nat (8 * m)) (k_cw k))) as [F|F].
  - destruct (Z_le_dec (8 * m) (zlen (k_cw k))); [|tauto]. destruct (Compare_dec.le_dec n (length (k_finalcw k))); tauto.
  - tauto.
Qed.
Lemma key_fits_dec k n q ki : key_fits k n q ki \/ ~ key_fits k n q ki.
Proof.
  unfold key_fits. assert (A : (looks_at_email q = true -> sensible_lengths q) \/ ~ (looks_at_email q = true -> sensible_lengths q)).
  { destruct (sensible_dec q), (looks_at_email q); try (left; congruence); tauto. }
  destruct A as [A|A]; [|tauto]. destruct (compared_bytes q ki) as [m|]; [|left; split; [auto|congruence]].
  destruct (key_covers_dec k m n) as [K|K]; [left; split; auto; intros m' E; injection E as <-; auto|]. right. intros [_ X]. apply K, X. reflexivity.
Qed.

(** What an identifier function has to do for a query. *)
Definition id_fits (q : qinfo) (id : key_info -> res (option (list bool))) (ki : key_info) : Prop :=
  ((looks_at_email q = true -> sensible_lengths q) ->
     match compared_bytes q ki with
     | None => id ki = Ok None
     | Some m => exists x, id ki = Ok (Some x) /\ Z.of_nat (length x) = 8 * m
     end) /\
  (~ (looks_at_email q = true -> sensible_lengths q) -> is_panic (id ki) = true).

Section Answer.
Variables (enc : cipher) (n : nat) (sn : Z) (k : fss_key) (fresh : freshes).
Hypotheses (He : cipher_ok enc) (Hk : key_bytes k) (Hn : (n < 20)%nat).

Lemma count_any q id db : (forall ki, In ki db -> id_fits q id ki) ->
  let r := records_loop db (count_body enc sn k fresh n id) 0 (length db) (repeat 0 n, false) in
  (Forall (key_fits k n q) db -> exists a fl, r = Ok (a, fl) /\ length a = n) /\
  (~ Forall (key_fits k n q) db -> is_panic r = true).
Proof.
  intros HI. cbv zeta.
  destruct (records_loop_any (fun st : list Z * bool => length (fst st) = n) (key_fits k n q) (count_body enc sn k fresh n id) db) with (st := (repeat 0 n, false)) as [A P].
  - intros i ki [out fl] Ik I [S C]. cbn [fst] in I. destruct (HI ki Ik) as [F _]. specialize (F S). unfold count_body.
    destruct (compared_bytes q ki) as [m|].
    + destruct F as (x & -> & Lx). cbn [bind]. destruct (evaluate_any enc n (fresh i) sn k x He Hk Hn) as [EA _].
      destruct (EA (proj1 (key_covers_iff k m n x Lx) (C m eq_refl))) as (o & f & -> & Lo). cbn [bind fst snd]. eexists. split; [reflexivity|].
      cbn [fst]. rewrite add_into_length; congruence.
    + rewrite F. cbn [bind]. eauto.
  - intros i ki st Ik N. destruct (HI ki Ik) as [F G]. unfold count_body.
    assert (D : (looks_at_email q = true -> sensible_lengths q) \/ ~ (looks_at_email q = true -> sensible_lengths q)).
    { destruct (sensible_dec q), (looks_at_email q); try (left; congruence); tauto. }
    destruct D as [S|S].
    + specialize (F S). unfold key_fits in N. destruct (compared_bytes q ki) as [m|].
      * destruct F as (x & -> & Lx). cbn [bind]. destruct (evaluate_any enc n (fresh i) sn k x He Hk Hn) as [_ EP].
        assert (X : is_panic (evaluate_pf enc n (fresh i) sn k x n) = true).
        { apply EP. rewrite <- (key_covers_iff k m n x Lx). intros K. apply N. split; auto. intros m' E. injection E as <-. exact K. }
        destruct (evaluate_pf _ _ _ _ _ _ _); cbn [is_panic bind] in *; congruence.
      * exfalso. apply N. split; auto. congruence.
    + specialize (G S). destruct (id ki); cbn [is_panic bind] in *; congruence.
  - apply key_fits_dec.
  - cbn. apply repeat_length.
  - split; [|exact P]. intros F. destruct (A F) as ([a fl] & E & L). eauto.
Qed.

Lemma avg_any H now q db : q_and q = true -> q_avg q = true -> (forall ki, In ki db -> id_fits q (fun ki => id_for_email H q (ki_email ki)) ki) ->
  let r := records_loop db (avg_body enc H q now sn k fresh n) 0 (length db) (repeat 0 n, repeat 0 n, false) in
  (Forall (key_fits k n q) db -> exists a b fl, r = Ok (a, b, fl) /\ length a = n /\ length b = n) /\
  (~ Forall (key_fits k n q) db -> is_panic r = true).
Proof.
  intros EA EV HI. cbv zeta.
  destruct (records_loop_any (fun st : list Z * list Z * bool => length (fst (fst st)) = n /\ length (snd (fst st)) = n) (key_fits k n q) (avg_body enc H q now sn k fresh n) db)
    with (st := (repeat 0 n, repeat 0 n, false)) as [A P].
  - intros i ki [[out sm] fl] Ik [I1 I2] [S C]. cbn [fst snd] in I1, I2. destruct (HI ki Ik) as [F _]. specialize (F S). unfold avg_body.
    destruct (compared_bytes q ki) as [m|].
    + destruct F as (x & -> & Lx). cbn [bind]. destruct (evaluate_any enc n (fresh i) sn k x He Hk Hn) as [EO _].
      destruct (EO (proj1 (key_covers_iff k m n x Lx) (C m eq_refl))) as (o & f & -> & Lo). cbn [bind fst snd].
      destruct (_ <? 0); eexists; (split; [reflexivity|]); cbn [fst snd]; auto. rewrite add_into_length, sum_into_length by congruence. auto.
    + rewrite F. cbn [bind]. eexists. split; [reflexivity|]. auto.
  - intros i ki st Ik N. destruct (HI ki Ik) as [F G]. unfold avg_body.
    assert (D : (looks_at_email q = true -> sensible_lengths q) \/ ~ (looks_at_email q = true -> sensible_lengths q)).
    { destruct (sensible_dec q), (looks_at_email q); try (left; congruence); tauto. }
    destruct D as [S|S].
    + specialize (F S). unfold key_fits in N. destruct (compared_bytes q ki) as [m|].
      * destruct F as (x & -> & Lx). cbn [bind]. destruct (evaluate_any enc n (fresh i) sn k x He Hk Hn) as [_ EP].
        assert (X : is_panic (evaluate_pf enc n (fresh i) sn k x n) = true).
        { apply EP. rewrite <- (key_covers_iff k m n x Lx). intros K. apply N. split; auto. intros m' E. injection E as <-. exact K. }
        destruct (evaluate_pf _ _ _ _ _ _ _); cbn [is_panic bind] in *; congruence.
      * exfalso. apply N. split; auto. congruence.
    + specialize (G S). destruct (id_for_email H q (ki_email ki)); cbn [is_panic bind] in *; congruence.
  - apply key_fits_dec.
  - cbn. rewrite repeat_length. auto.
  - split; [|exact P]. intros F. destruct (A F) as ([[a b] fl] & E & L1 & L2). exists a, b, fl. auto.
Qed.
End Answer.

Lemma answer_any enc H n sn db now fresh q k : cipher_ok enc -> hash_ok H -> (n < 20)%nat -> Forall record_ok db -> key_bytes k ->
  let r := answer enc H n sn db (length db) now fresh (Some q) k in
  (known_kind q /\ Forall (key_fits k n q) db -> exists a fl, r = Ok (a, fl) /\ length a = (if q_avg q then 2 * n else n)%nat) /\
  (~ (known_kind q /\ Forall (key_fits k n q) db) -> is_panic r = true).
Proof.
  intros He HH Hn HD Hk. cbv zeta. unfold answer.
  assert (EM : forall ki, looks_at_email q = true -> q_and q && negb (q_avg q) = false -> id_fits q (fun ki => id_for_email H q (ki_email ki)) ki).
  { intros ki L A. destruct (email_any H q (ki_email ki) HH) as [S N]. unfold id_fits, compared_bytes. rewrite L, A. split; intros X.
    - destruct (S (X eq_refl)) as [S1 S2]. destruct (Z.ltb_spec (zlen (ki_email ki)) (if q_from_start q =? 0 then q_from_end q else q_from_start q)).
      + apply S1. exact H0.
      + rewrite Z.add_0_r. apply S2. lia.
    - apply N. intros Y. apply X. auto. }
  assert (P : forall {A} (r : res A) (c : Prop), (c -> False) -> (c -> is_panic r = true)) by (intros; tauto).
  unfold known_kind. destruct (q_sum q) eqn:ES; [destruct (q_and q), (q_avg q); cbn [negb andb]; (split; [intros [[X _] _]; discriminate|reflexivity])|].
  destruct (q_and q) eqn:EA; destruct (q_avg q) eqn:EV; cbn [negb andb].
  - (* average *)
    assert (L : looks_at_email q = true) by (unfold looks_at_email; rewrite EA; reflexivity).
    destruct (avg_any enc n sn k fresh He Hk Hn H now q db EA EV) as [A Q].
    { intros ki _. apply EM; auto. }
    split.
    + intros [_ F]. destruct (A F) as (a & b & fl & -> & La & Lb). cbn [bind]. do 2 eexists. split; [reflexivity|]. rewrite app_length. lia.
    + intros N. assert (X : is_panic (records_loop db (avg_body enc H q now sn k fresh n) 0 (length db) (repeat 0 n, repeat 0 n, false)) = true).
      { apply Q. intros F. apply N. split; auto. split; auto. discriminate. }
      destruct (records_loop _ _ _ _ _); cbn [is_panic bind] in *; congruence.
  - (* conjunction *)
    assert (L : looks_at_email q = true) by (unfold looks_at_email; rewrite EA; reflexivity).
    destruct (count_any enc n sn k fresh He Hk Hn q (id_conj H q) db) as [A Q].
    { intros ki _. unfold id_fits, compared_bytes, id_conj. rewrite L, EA, EV. cbn [negb andb]. destruct (email_any H q (ki_email ki) HH) as [S N]. split; intros X.
      - destruct (S (X eq_refl)) as [S1 S2]. destruct (Z.ltb_spec (zlen (ki_email ki)) (if q_from_start q =? 0 then q_from_end q else q_from_start q)).
        + rewrite S1 by auto. reflexivity.
        + destruct S2 as (x & -> & Lx); [lia|]. cbn [bind]. eexists. split; [reflexivity|]. rewrite app_length. unfold id_for_year. rewrite byte_to_bits_length, be_enc_length. lia.
      - assert (Y : is_panic (id_for_email H q (ki_email ki)) = true) by (apply N; intros Y; apply X; auto).
        destruct (id_for_email H q (ki_email ki)); cbn [is_panic bind] in *; congruence. }
    split; [intros [_ F]; apply A; auto|]. intros N. apply Q. intros F. apply N. split; auto. split; auto. discriminate.
  - (* AVG alone *) split; [|reflexivity]. intros [[_ X] _]. destruct (X eq_refl). discriminate.
  - (* one target *)
    change target_userid with 0. change target_algo with 2. change target_creation with 1.
    destruct (Z.eqb_spec (q_target q) 0) as [T0|T0]; [|destruct (Z.eqb_spec (q_target q) 2) as [T2|T2]; [|destruct (Z.eqb_spec (q_target q) 1) as [T1|T1]]].
    + assert (L : looks_at_email q = true) by (unfold looks_at_email; rewrite T0; apply orb_true_r).
      destruct (count_any enc n sn k fresh He Hk Hn q (fun ki => id_for_email H q (ki_email ki)) db) as [A Q].
      { intros ki _. apply EM; auto. }
      split; [intros [_ F]; apply A; auto|]. intros N. apply Q. intros F. apply N. split; auto.
    + assert (L : looks_at_email q = false) by (unfold looks_at_email; rewrite EA, T2; reflexivity).
      destruct (count_any enc n sn k fresh He Hk Hn q (fun ki => Ok (Some (id_for_algo (ki_algo ki)))) db) as [A Q].
      { intros ki _. unfold id_fits, compared_bytes. rewrite L, T2. cbn [Z.eqb]. change (2 =? 1) with false. cbv iota. split; [|intros X; exfalso; apply X; discriminate].
        intros _. eexists. split; [reflexivity|]. unfold id_for_algo. rewrite byte_to_bits_length. reflexivity. }
      split; [intros [_ F]; apply A; auto|]. intros N. apply Q. intros F. apply N. split; auto.
    + assert (L : looks_at_email q = false) by (unfold looks_at_email; rewrite EA, T1; reflexivity).
      destruct (count_any enc n sn k fresh He Hk Hn q id_creation db) as [A Q].
      { intros ki Ik. unfold id_fits, compared_bytes. rewrite L, T1. change (1 =? 1) with true. cbv iota. split; [|intros X; exfalso; apply X; discriminate].
        intros _. unfold id_creation, id_for_creation_time. pose proof (proj1 (Forall_forall _ _) HD ki Ik) as (_ & _ & _ & _ & Z & _).
        destruct (t_zone (ki_time ki)) as [m|] eqn:EZ; unfold marshal_time; rewrite EZ.
        - destruct (Z m eq_refl) as [Z1 Z2]. destruct (Z.ltb_spec m (-32768)); [lia|]. destruct (Z.eqb_spec m (-1)); [lia|]. destruct (Z.ltb_spec 32767 m); [lia|]. cbn [orb bind].
          eexists. split; [reflexivity|]. rewrite byte_to_bits_length, !app_length, !be_enc_length. reflexivity.
        - cbn [bind]. eexists. split; [reflexivity|]. rewrite byte_to_bits_length, !app_length, !be_enc_length. reflexivity. }
      split; [intros [_ F]; apply A; auto|]. intros N. apply Q. intros F. apply N. split; auto.
    + split; [|reflexivity]. intros [[_ X] _]. destruct (X eq_refl) as [_ Y]. lia.
Qed.
