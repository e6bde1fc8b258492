(** Proofs about point queries: the server computes selected exclusive ors, the client adds them up. *)
From Coq Require Import String ZArith List Bool Lia Permutation Arith.
From Verif Require Import GoBase BaseFacts EncodingModel MerkleModel FSSModel XorFacts FSSProofs PointModel PointSpec.
Import ListNotations.
Open Scope Z_scope.
Open Scope go_scope.

Lemma xors_app a b : xors (a ++ b) = Z.lxor (xors a) (xors b).
Proof. unfold xors. induction a; cbn; [reflexivity|]. rewrite IHa, Z.lxor_assoc. reflexivity. Qed.
Lemma xors_perm a b : Permutation a b -> xors a = xors b.
Proof.
  unfold xors. induction 1; cbn; auto; try congruence.
  rewrite <- !Z.lxor_assoc, (Z.lxor_comm y x). auto.
Qed.
Lemma xors_map_lxor {A} (f g : A -> Z) l :
  xors (map (fun j => Z.lxor (f j) (g j)) l) = Z.lxor (xors (map f l)) (xors (map g l)).
Proof.
  unfold xors. induction l as [|a l IH]; cbn; auto. rewrite IH.
  rewrite !Z.lxor_assoc. f_equal. rewrite <- !Z.lxor_assoc. f_equal. apply Z.lxor_comm.
Qed.
Lemma xors_zero {A} (f : A -> Z) l : (forall j, In j l -> f j = 0) -> xors (map f l) = 0.
Proof. unfold xors. induction l; cbn; intros Hl; auto. rewrite Hl, IHl by auto. reflexivity. Qed.
Lemma xors_single (f : nat -> Z) k : forall n s, (s <= k < s + n)%nat ->
  (forall j, j <> k -> f j = 0) -> xors (map f (seq s n)) = f k.
Proof.
  induction n as [|n IH]; intros s Hk Hf; [lia|]. cbn [seq map xors fold_right]. fold (xors (map f (seq (S s) n))).
  destruct (Nat.eq_dec s k) as [->|N].
  - rewrite xors_zero. apply Z.lxor_0_r. intros j Hj. apply in_seq in Hj. apply Hf. lia.
  - rewrite Hf, IH by (auto; lia). apply Z.lxor_0_l.
Qed.
Lemma xors_swap {A B} (f : A -> B -> Z) la lb :
  xors (map (fun a => xors (map (f a) lb)) la) = xors (map (fun b => xors (map (fun a => f a b) la)) lb).
Proof.
  induction la as [|a la IH]; cbn [map xors fold_right].
  - symmetry. apply xors_zero. reflexivity.
  - fold (xors (map (fun a => xors (map (f a) lb)) la)). rewrite IH.
    rewrite <- xors_map_lxor. reflexivity.
Qed.

Lemma xor_into_nth : forall d s p, (p < length d)%nat ->
  nth p (xor_into d d s) 0 = Z.lxor (nth p d 0) (nth p s 0).
Proof.
  assert (G : forall d s p, nth p (xor_into d d s) 0 = if (p <? length d)%nat then Z.lxor (nth p d 0) (nth p s 0) else 0).
  { induction d as [|x d IH]; intros [|y s] [|p]; cbn [xor_into nth length]; auto; try (rewrite Z.lxor_0_r); auto.
    - destruct (Nat.ltb_spec (S p) (S (length d))); auto. apply nth_overflow. lia.
    - rewrite IH. destruct (Nat.ltb_spec p (length d)), (Nat.ltb_spec (S p) (S (length d))); try lia; auto. }
  intros d s p Hp. rewrite G. destruct (Nat.ltb_spec p (length d)); [auto|lia].
Qed.

Lemma nth_firstn_lt {A} : forall n p (l : list A) d, (p < n)%nat -> nth p (firstn n l) d = nth p l d.
Proof. induction n; intros p [|x l] d Hp; try lia; destruct p; cbn; auto. apply IHn. lia. Qed.
Lemma nth_skipn {A} : forall n p (l : list A) d, nth p (skipn n l) d = nth (n + p) l d.
Proof. induction n; intros p [|x l] d; cbn; auto. destruct p; auto. Qed.
Lemma skipn_S_nth {A} : forall n (l : list A) d, (n < length l)%nat -> skipn n l = nth n l d :: skipn (S n) l.
Proof. induction n; intros [|x l] d Hn; cbn [length] in Hn; try lia; cbn; auto. apply IHn. lia. Qed.

(** the client's sum *)
Lemma sum_answers_ok bs ix : 0 <= bs -> 0 <= ix -> forall answers sum,
  length sum = Z.to_nat bs -> Forall (fun a => (ix + 1) * bs <= zlen a) answers ->
  exists r, sum_answers bs ix answers sum = Ok r /\ length r = Z.to_nat bs /\
    forall p, (p < Z.to_nat bs)%nat ->
      nth p r 0 = Z.lxor (nth p sum 0) (xors (map (fun a => nth (Z.to_nat (ix * bs) + p) a 0) answers)).
Proof.
  intros Hbs Hix. induction answers as [|a t IH]; intros sum HL HF; cbn [sum_answers].
  - exists sum. conj_split; auto. intros. cbn. rewrite Z.lxor_0_r. auto.
  - inversion HF as [|? ? Ha Ht]; subst.
    rewrite go_slice_ok by nia. cbn [bind].
    set (s := firstn _ _). destruct (IH (xor_into sum sum s)) as (r & E & L & N); auto.
    { rewrite xor_into_length. auto. }
    exists r. conj_split; auto. intros p Hp. rewrite N by auto. rewrite xor_into_nth by lia.
    cbn [map xors fold_right]. rewrite Z.lxor_assoc. f_equal. f_equal.
    unfold s. rewrite nth_firstn_lt by nia. rewrite nth_skipn. f_equal.
Qed.

(** one row of the server *)
Lemma xor_values_ok entries q : forall lens j pos out,
  0 <= j -> 0 <= pos -> Forall (fun l => 0 <= l) lens -> pos + zsum lens <= zlen entries ->
  (j + zlen lens <= 8 * zlen q) ->
  exists r, xor_values entries lens q j pos out = Ok r /\ length r = length out /\
    forall p, (p < length out)%nat ->
      nth p r 0 = Z.lxor (nth p out 0) (xors (map (fun c =>
         if query_bit q (Z.to_nat j + c)
         then nth p (firstn (Z.to_nat (nth c lens 0)) (skipn (Z.to_nat (pos + zsum (firstn c lens))) entries)) 0
         else 0) (seq 0 (length lens)))).
Proof.
  induction lens as [|l t IH]; intros j pos out Hj Hp HF HS HQ; cbn [xor_values].
  - exists out. conj_split; auto. intros. cbn. rewrite Z.lxor_0_r. auto.
  - inversion HF as [|? ? Hl Ht]; subst. cbn [zsum] in HS.
    assert (ZT : 0 <= zsum t). { clear -Ht. induction Ht; cbn [zsum]; lia. }
    unfold zlen in HQ. cbn [length] in HQ.
    rewrite (go_index_ok q (j / 8) 0) by (unfold zlen; lia). cbn [bind].
    assert (QB : Z.testbit (nth (Z.to_nat (j / 8)) q 0) (j mod 8) = query_bit q (Z.to_nat j + 0)).
    { unfold query_bit. rewrite Nat.add_0_r. f_equal.
      - f_equal. rewrite Z2Nat.inj_div by lia. reflexivity.
      - rewrite Nat2Z.inj_mod, Z2Nat.id by lia. reflexivity. }
    rewrite QB.
    set (e1 := if query_bit q (Z.to_nat j + 0) then _ else Ok out).
    assert (E1 : exists o, e1 = Ok o /\ length o = length out /\ forall p, (p < length out)%nat ->
      nth p o 0 = Z.lxor (nth p out 0) (if query_bit q (Z.to_nat j + 0)
         then nth p (firstn (Z.to_nat l) (skipn (Z.to_nat pos) entries)) 0 else 0)).
    { unfold e1. destruct (query_bit q (Z.to_nat j + 0)).
      - rewrite go_slice_ok by lia. cbn [bind]. eexists. split; [reflexivity|]. rewrite xor_into_length.
        split; auto. intros p Hpp. rewrite xor_into_nth by auto. replace (pos + l - pos) with l by lia. auto.
      - exists out. conj_split; auto. intros. rewrite Z.lxor_0_r. auto. }
    destruct E1 as (o & -> & LO & NO). cbn [bind].
    destruct (IH (j + 1) (pos + l) o) as (r & E & L & N); auto; try lia; [unfold zlen; lia|].
    exists r. conj_split; auto; [congruence|]. intros p Hpp. rewrite N by lia. rewrite NO by lia.
    cbn [length seq map xors fold_right]. rewrite Z.lxor_assoc. f_equal. f_equal.
    + cbn [nth firstn zsum]. rewrite Z.add_0_r. reflexivity.
    + rewrite <- seq_shift, map_map. unfold xors. f_equal. apply map_ext. intros c. cbn [nth firstn zsum].
      replace (Z.to_nat (j + 1) + c)%nat with (Z.to_nat j + S c)%nat by lia.
      replace (pos + l + zsum (firstn c t)) with (pos + (l + zsum (firstn c t))) by lia. reflexivity.
Qed.

Lemma zsum_firstn_S l k : (k < length l)%nat -> zsum (firstn (S k) l) = zsum (firstn k l) + nth k l 0.
Proof.
  revert k. induction l as [|x l IH]; intros k Hk; cbn [length] in Hk; [lia|].
  destruct k as [|k]; cbn [firstn zsum nth]; [lia|]. cbn [firstn zsum] in IH. rewrite <- (Z.add_assoc x).
  rewrite <- IH by lia. reflexivity.
Qed.

Lemma add_lens_ok lens : forall n first acc, (first + n <= length lens)%nat ->
  add_lens lens (Z.of_nat first) n acc = Ok (acc + zsum (firstn n (skipn first lens))).
Proof.
  induction n as [|n IH]; intros first acc HL; cbn [add_lens].
  - cbn. f_equal. lia.
  - rewrite (go_index_ok lens _ 0) by (unfold zlen; lia). cbn [bind]. rewrite Nat2Z.id.
    replace (Z.of_nat first + 1) with (Z.of_nat (S first)) by lia. rewrite IH by lia. f_equal.
    rewrite (skipn_S_nth first lens 0) by lia. cbn [firstn zsum]. lia.
Qed.

Lemma skipn_skipn' {A} : forall a b (l : list A), skipn a (skipn b l) = skipn (b + a) l.
Proof. intros a b. revert a. induction b; intros a [|x l]; cbn; auto. apply skipn_nil. Qed.

(** value of byte p of row i of the answer: exclusive or of the selected records *)
Definition row_value (db : bytes_db) (q : list Z) (i p : nat) : Z :=
  xors (map (fun c => if query_bit q c then nth p (stored db (i * Z.to_nat (i_cols (b_info db)) + c)) 0 else 0)
         (seq 0 (Z.to_nat (i_cols (b_info db))))).

Lemma zsum_nonneg l : Forall (fun x => 0 <= x) l -> 0 <= zsum l.
Proof. induction 1; cbn [zsum]; lia. Qed.

Lemma zsum_firstn_add l n m : zsum (firstn (n + m) l) = zsum (firstn n l) + zsum (firstn m (skipn n l)).
Proof.
  revert l. induction n as [|n IH]; intros l; [reflexivity|]. destruct l as [|x l]; cbn [firstn skipn zsum Nat.add].
  - rewrite firstn_nil. reflexivity.
  - rewrite IH. lia.
Qed.

Lemma zsum_firstn_le l n : Forall (fun x => 0 <= x) l -> zsum (firstn n l) <= zsum l.
Proof.
  intros HF. rewrite <- (firstn_skipn n l) at 2. rewrite zsum_app.
  pose proof (zsum_nonneg (skipn n l) (Forall_skipn' _ n _ HF)). lia.
Qed.

Lemma answer_rows_ok db q : db_ok db -> i_cols (b_info db) <= 8 * zlen q ->
  let cols := Z.to_nat (i_cols (b_info db)) in
  let bs := Z.to_nat (i_bs (b_info db)) in
  let lens := i_lens (b_info db) in
  forall todo i out,
  (i + todo = Z.to_nat (i_rows (b_info db)))%nat -> length out = (Z.to_nat (i_rows (b_info db)) * bs)%nat ->
  exists r, answer_rows db q (Z.of_nat i) todo (zsum (firstn (i * cols) lens)) out = Ok r /\ length r = length out /\
    forall row p, (row < Z.to_nat (i_rows (b_info db)))%nat -> (p < bs)%nat ->
      nth (row * bs + p) r 0 = if (row <? i)%nat then nth (row * bs + p) out 0
                               else Z.lxor (nth (row * bs + p) out 0) (row_value db q row p).
Proof.
  intros (Hr & Hc & Hc62 & Hb & HL & HF & HS) HQ cols bs lens.
  assert (HF0 : Forall (fun l => 0 <= l) lens). { eapply Forall_impl; [|exact HF]. cbv beta. lia. }
  assert (Ec : i_cols (b_info db) = Z.of_nat cols) by (unfold cols; lia).
  assert (Eb : i_bs (b_info db) = Z.of_nat bs) by (unfold bs; lia).
  assert (EL : length lens = (Z.to_nat (i_rows (b_info db)) * cols)%nat).
  { unfold zlen in HL. fold lens in HL. nia. }
  induction todo as [|t IH]; intros i out Hi HO; cbn [answer_rows].
  - exists out. conj_split; auto. intros row p Hrow Hp. destruct (Nat.ltb_spec row i); [auto|lia].
  - rewrite Ec, Eb. fold lens. rewrite Nat2Z.id. rewrite <- Nat2Z.inj_mul.
    assert (I1 : (i * cols + cols <= length lens)%nat) by nia.
    rewrite add_lens_ok by lia. cbn [bind]. rewrite <- zsum_firstn_add.
    replace (i * cols + cols)%nat with (S i * cols)%nat by lia.
    set (a := zsum (firstn (i * cols) lens)).
    assert (A0 : 0 <= a) by (apply zsum_nonneg, Forall_firstn'; auto).
    assert (AN : zsum (firstn (S i * cols) lens) = a + zsum (firstn cols (skipn (i * cols) lens))).
    { unfold a. rewrite <- zsum_firstn_add. f_equal. f_equal. lia. }
    assert (S0 : 0 <= zsum (firstn cols (skipn (i * cols) lens))) by (apply zsum_nonneg, Forall_firstn', Forall_skipn'; auto).
    assert (AL : zsum (firstn (S i * cols) lens) <= zlen (b_entries db)).
    { pose proof (zsum_firstn_le lens (S i * cols) HF0). fold lens in HS. lia. }
    rewrite go_slice_ok by lia. cbn [bind].
    replace (Z.to_nat (zsum (firstn (S i * cols) lens) - a)) with (Z.to_nat (zsum (firstn cols (skipn (i * cols) lens)))) by lia.
    set (seg := firstn _ _).
    replace ((Z.of_nat i + 1) * Z.of_nat cols) with (Z.of_nat (i * cols + cols)) by lia.
    rewrite go_slice_ok by (unfold zlen; lia). cbn [bind].
    replace (Z.to_nat (Z.of_nat (i * cols + cols) - Z.of_nat (i * cols))) with cols by lia. rewrite Nat2Z.id.
    set (rl := firstn cols (skipn (i * cols) lens)) in *.
    assert (LR : length rl = cols). { unfold rl. rewrite firstn_length, skipn_length. lia. }
    rewrite <- Nat2Z.inj_mul.
    replace ((Z.of_nat i + 1) * Z.of_nat bs) with (Z.of_nat (i * bs + bs)) by lia.
    assert (I2 : (i * bs + bs <= length out)%nat) by nia.
    rewrite go_slice_ok by (unfold zlen; lia). cbn [bind].
    replace (Z.to_nat (Z.of_nat (i * bs + bs) - Z.of_nat (i * bs))) with bs by lia. rewrite !Nat2Z.id.
    set (o := firstn bs (skipn (i * bs) out)).
    assert (LO : length o = bs). { unfold o. rewrite firstn_length, skipn_length. lia. }
    assert (LS : zlen seg = zsum rl). { unfold seg, zlen. rewrite firstn_length, skipn_length. unfold zlen in AL. lia. }
    destruct (xor_values_ok seg q rl 0 0 o) as (o' & EO & LO' & NO); try lia.
    { unfold rl. apply Forall_firstn', Forall_skipn'; auto. }
    { unfold zlen in HQ |- *. rewrite LR. lia. }
    rewrite EO. cbn [bind].
    set (out' := firstn (i * bs) out ++ o' ++ skipn (i * bs + bs) out).
    assert (LOut : length out' = length out).
    { unfold out'. rewrite !app_length, firstn_length, skipn_length. lia. }
    replace (Z.of_nat i + 1) with (Z.of_nat (S i)) by lia.
    destruct (IH (S i) out') as (r & E & L & N); [lia|lia|].
    exists r. split; [exact E|]. split; [lia|]. intros row p Hrow Hp. rewrite N by auto.
    assert (N' : nth (row * bs + p) out' 0 = if (row =? i)%nat then nth p o' 0 else nth (row * bs + p) out 0).
    { unfold out'. destruct (Nat.eqb_spec row i) as [->|NE].
      - rewrite app_nth2 by (rewrite firstn_length; lia). rewrite firstn_length.
        rewrite app_nth1 by lia. f_equal. lia.
      - destruct (Nat.lt_ge_cases row i).
        + rewrite app_nth1 by (rewrite firstn_length; nia). apply nth_firstn_lt. nia.
        + assert (S i * bs <= row * bs)%nat by (apply Nat.mul_le_mono_r; lia).
          rewrite app_nth2 by (rewrite firstn_length; nia). rewrite firstn_length.
          rewrite app_nth2 by nia. rewrite nth_skipn. f_equal. nia. }
    destruct (Nat.ltb_spec row (S i)), (Nat.ltb_spec row i); try lia; rewrite N'; destruct (Nat.eqb_spec row i); try lia; auto.
    subst row. rewrite NO by (rewrite LO; exact Hp). unfold o at 1. rewrite nth_firstn_lt by exact Hp. rewrite nth_skipn. f_equal.
    unfold row_value. rewrite LR. fold cols. f_equal. apply map_ext_in. intros c Hc'. apply in_seq in Hc'.
    change (Z.to_nat 0 + c)%nat with c. destruct (query_bit q c); auto.
    unfold stored. fold lens.
    assert (R1 : nth c rl 0 = nth (i * cols + c) lens 0).
    { unfold rl. rewrite nth_firstn_lt by lia. apply nth_skipn. }
    assert (R2 : zsum (firstn (i * cols + c) lens) = a + zsum (firstn c rl)).
    { rewrite zsum_firstn_add. fold a. f_equal. unfold rl. rewrite firstn_firstn. f_equal. f_equal. lia. }
    rewrite R1, R2. f_equal. unfold seg. rewrite Z.add_0_l.
    assert (C0 : 0 <= zsum (firstn c rl)) by (apply zsum_nonneg, Forall_firstn'; unfold rl; apply Forall_firstn', Forall_skipn'; auto).
    assert (C1 : zsum (firstn c rl) + nth c rl 0 <= zsum rl).
    { rewrite <- zsum_firstn_S by lia. apply zsum_firstn_le. unfold rl. apply Forall_firstn', Forall_skipn'; auto. }
    assert (C2 : 0 <= nth c rl 0).
    { assert (In (nth c rl 0) rl) by (apply nth_In; lia). unfold rl in H1. eapply (proj1 (Forall_forall _ _)); [|exact H1].
      apply Forall_firstn', Forall_skipn'; auto. }
    rewrite skipn_firstn_comm, firstn_firstn, skipn_skipn'. f_equal; [lia|]. f_equal. lia.
Qed.
