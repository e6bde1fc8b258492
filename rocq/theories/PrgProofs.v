(** Proofs about the pseudo-random readers. *)
From Coq Require Import String ZArith List Bool Lia Arith.
From Verif Require Import GoBase BaseFacts PrgModel PrgSpec.
Import ListNotations.
Open Scope Z_scope.
Open Scope go_scope.

Lemma ks_bytes_length ks pos n : length (ks_bytes ks pos n) = n.
Proof. unfold ks_bytes. rewrite map_length, seq_length. auto. Qed.

Lemma xor_zero : forall n b, length b = n -> xor_into (repeat 0 n) (repeat 0 n) b = b.
Proof. induction n; intros [|x b] L; cbn [length] in L; try lia; cbn [repeat xor_into]; auto. rewrite Z.lxor_0_l, IHn by lia. auto. Qed.

Lemma firstn_ks ks pos n m : (n <= m)%nat -> firstn n (ks_bytes ks pos m) = ks_bytes ks pos n.
Proof.
  intros H. unfold ks_bytes. rewrite firstn_map. f_equal. revert pos m H. induction n; intros pos [|m] H; cbn [seq firstn]; auto; try lia. f_equal. apply IHn. lia.
Qed.

Lemma read_zeroed ks pos n : prg_read ks pos (repeat 0 n) = (ks_bytes ks pos n, (pos + consumed n)%nat).
Proof.
  unfold prg_read, consumed, zlen. rewrite repeat_length. destruct (Z.ltb_spec (Z.of_nat n) 16), (Nat.ltb_spec n 16); try lia.
  - unfold go_copy. rewrite repeat_length, ks_bytes_length. rewrite firstn_ks by lia.
    rewrite skipn_all2 by (rewrite repeat_length; lia). rewrite app_nil_r. auto.
  - rewrite xor_zero by apply ks_bytes_length. auto.
Qed.

Theorem reads_zeroed ks lens : forall pos,
  prg_reads ks pos (map (repeat 0) lens) = map (fun ol => ks_bytes ks (fst ol) (snd ol)) (combine (offsets pos lens) lens).
Proof.
  induction lens as [|n t IH]; intros pos; cbn [map prg_reads offsets combine]; auto.
  rewrite read_zeroed. cbn [fst snd]. f_equal. apply IH.
Qed.

Theorem read_dirty ks pos p : (16 <= length p)%nat -> prg_read ks pos p = (xor_into p p (ks_bytes ks pos (length p)), (pos + length p)%nat).
Proof. intros H. unfold prg_read, zlen. destruct (Z.ltb_spec (Z.of_nat (length p)) 16); auto. lia. Qed.

(** ** the buffered reader *)
Lemma buf_size_pos : (0 < buf_size)%nat. Proof. unfold buf_size. lia. Qed.
Lemma buf_size_16 : (16 <= buf_size)%nat. Proof. unfold buf_size. lia. Qed.
Opaque buf_size.

(** state after k bytes were delivered *)
Definition buf_inv (ks : nat -> Z) (s : bufprg) (k : nat) : Prop :=
  (s = new_bufprg /\ k = 0%nat) \/
  exists m, bp_pos s = (buf_size * S m)%nat /\ bp_w s = buf_size /\ (bp_r s <= buf_size)%nat /\ k = (buf_size * m + bp_r s)%nat /\
    bp_buf s = map (xor_blocks ks m) (seq 0 buf_size).

Lemma xor_map f g : forall n a, xor_into (map f (seq a n)) (map f (seq a n)) (map g (seq a n)) = map (fun k => Z.lxor (f k) (g k)) (seq a n).
Proof. induction n; intros a; cbn [seq map xor_into]; auto. f_equal. apply IHn. Qed.

Lemma ks_shift ks pos n : ks_bytes ks pos n = map (fun k => ks (pos + k)%nat) (seq 0 n).
Proof.
  unfold ks_bytes. rewrite <- (map_map (fun k => (pos + k)%nat) ks). f_equal.
  clear. revert pos. assert (G : forall n a pos, seq (pos + a) n = map (fun k => (pos + k)%nat) (seq a n)).
  { clear. induction n; intros; cbn [seq map]; auto. f_equal. rewrite <- IHn. f_equal. lia. }
  intros. rewrite <- G. f_equal. lia.
Qed.

Lemma refill_inv ks s k : buf_inv ks s k -> bp_r s = bp_w s ->
  let (b, pos') := prg_read ks (bp_pos s) (bp_buf s) in
  length b = buf_size /\ pos' = (buf_size * S (k / buf_size))%nat /\ (k mod buf_size = 0)%nat /\ b = map (xor_blocks ks (k / buf_size)) (seq 0 buf_size).
Proof.
  pose proof buf_size_pos as BP. pose proof buf_size_16 as B16.
  intros [[-> ->]|(m & EP & EW & HR & EK & EB)] E.
  - unfold new_bufprg in *. cbn [bp_buf bp_r bp_w bp_pos] in *. rewrite read_zeroed. unfold consumed.
    destruct (Nat.ltb_spec buf_size 16); [lia|]. rewrite Nat.div_0_l, Nat.mod_0_l by lia. rewrite ks_bytes_length.
    conj_split; try lia. rewrite ks_shift. apply map_ext. intros a. cbn [xor_blocks]. auto.
  - rewrite EB, EP. rewrite read_dirty by (rewrite map_length, seq_length; lia). rewrite map_length, seq_length.
    assert (EK' : k = (buf_size * S m)%nat) by lia. rewrite EK'. rewrite (Nat.mul_comm buf_size), Nat.div_mul, Nat.mod_mul by lia.
    rewrite ks_shift, xor_map. rewrite map_length, seq_length. conj_split; auto. lia.
    apply map_ext. intros a. cbn [xor_blocks]. f_equal. f_equal. lia.
Qed.

Lemma block_stream ks m r k : (r + k <= buf_size)%nat ->
  firstn k (skipn r (map (xor_blocks ks m) (seq 0 buf_size))) = map (buf_stream ks) (seq (buf_size * m + r) k).
Proof.
  intros H. pose proof buf_size_pos as BP.
  assert (G : forall n a r k, (r + k <= n)%nat -> firstn k (skipn r (seq a n)) = seq (a + r) k).
  { clear. induction n; intros a [|r] k Hk; cbn [seq skipn].
    - destruct k; [auto|lia].
    - lia.
    - destruct k; cbn [firstn seq]; auto. f_equal. lia. rewrite <- (skipn_O (seq (S a) n)). rewrite IHn by lia. f_equal; lia.
    - rewrite IHn by lia. f_equal. lia. }
  rewrite skipn_map, firstn_map, G by lia. cbn [Nat.add].
  assert (HH : forall k r, (r + k <= buf_size)%nat -> map (xor_blocks ks m) (seq r k) = map (buf_stream ks) (seq (buf_size * m + r) k)).
  { clear - BP. induction k; intros r H; cbn [seq map]; auto. f_equal.
    - unfold buf_stream. rewrite (Nat.mul_comm buf_size m). rewrite Nat.div_add_l, (Nat.div_small r) by lia.
      rewrite (Nat.add_comm (m * buf_size) r), Nat.mod_add, Nat.mod_small by lia. f_equal. lia.
    - rewrite IHk by lia. f_equal. f_equal. lia. }
  apply HH. auto.
Qed.

Lemma bufio_read_ok ks s k n : buf_inv ks s k -> (0 < n)%nat -> exists c, (0 < c <= n)%nat /\
  fst (bufio_read ks s n) = map (buf_stream ks) (seq k c) /\ buf_inv ks (snd (bufio_read ks s n)) (k + c).
Proof.
  pose proof buf_size_pos as BP. intros I Hn. unfold bufio_read.
  destruct (Nat.eqb_spec (bp_r s) (bp_w s)) as [E|E].
  - pose proof (refill_inv ks s k I E) as R. destruct (prg_read ks (bp_pos s) (bp_buf s)) as [b pos'] eqn:EP.
    destruct R as (LB & EPos & EM & EB). cbn [bp_r bp_w bp_buf bp_pos fst snd]. rewrite LB.
    exists (Nat.min n (buf_size - 0)). split; [lia|].
    assert (EK : k = (buf_size * (k / buf_size))%nat) by (pose proof (Nat.div_mod k buf_size ltac:(lia)); lia).
    split.
    + rewrite EB. rewrite block_stream by lia. f_equal. f_equal. lia.
    + right. exists (k / buf_size)%nat. cbn [bp_r bp_w bp_buf bp_pos]. conj_split; auto; lia.
  - destruct I as [[-> ->]|(m & EP & EW & HR & EK & EB)].
    + unfold new_bufprg in E. cbn [bp_r bp_w] in E. lia.
    + cbn [fst snd]. exists (Nat.min n (bp_w s - bp_r s)). split; [lia|]. split.
      * rewrite EB, block_stream by lia. f_equal. f_equal. lia.
      * right. exists m. cbn [bp_r bp_w bp_buf bp_pos]. conj_split; auto; lia.
Qed.

Lemma read_full_ok ks : forall fuel n s k, buf_inv ks s k -> (n <= fuel)%nat ->
  fst (read_full ks fuel s n) = map (buf_stream ks) (seq k n) /\ buf_inv ks (snd (read_full ks fuel s n)) (k + n).
Proof.
  induction fuel; intros n s k I H.
  - assert (n = 0%nat) by lia. subst. cbn [read_full fst snd seq map]. rewrite Nat.add_0_r. auto.
  - destruct n as [|n]. cbn [read_full fst snd seq map]. rewrite Nat.add_0_r. auto.
    cbn [read_full]. destruct (bufio_read_ok ks s k (S n) I ltac:(lia)) as (c & Hc & E & I').
    destruct (bufio_read ks s (S n)) as [o s'] eqn:EB. cbn [fst snd] in E, I'.
    assert (LO : length o = c) by (rewrite E, map_length, seq_length; auto). rewrite LO.
    destruct (IHfuel (S n - c)%nat s' (k + c)%nat I' ltac:(lia)) as (E2 & I2).
    destruct (read_full ks fuel s' (S n - c)) as [r s'']. cbn [fst snd] in *. rewrite E, E2. split.
    + rewrite <- map_app. f_equal. rewrite <- seq_app. f_equal. lia.
    + replace (k + S n)%nat with (k + c + (S n - c))%nat by lia. auto.
Qed.

Lemma seq_add n : forall k, seq k n = map (fun q => (k + q)%nat) (seq 0 n).
Proof.
  intros k. assert (G : forall n a k, seq (k + a) n = map (fun q => (k + q)%nat) (seq a n)).
  { clear. induction n; intros; cbn [seq map]; auto. f_equal. rewrite <- IHn. f_equal. lia. }
  rewrite <- G. f_equal. lia.
Qed.

Theorem uint64s_ok ks n : buf_uint64s ks new_bufprg n = map (fun i => le_dec (map (fun b => buf_stream ks (8 * i + b)%nat) (seq 0 8))) (seq 0 n).
Proof.
  assert (G : forall n s i, buf_inv ks s (8 * i)%nat ->
    buf_uint64s ks s n = map (fun i => le_dec (map (fun b => buf_stream ks (8 * i + b)%nat) (seq 0 8))) (seq i n)).
  { clear n. induction n; intros s i I; cbn [buf_uint64s seq map]; auto. unfold buf_uint64.
    destruct (read_full_ok ks 8 8 s (8 * i)%nat I ltac:(lia)) as (E & I').
    destruct (read_full ks 8 s 8) as [b s']. cbn [fst snd] in E, I'. f_equal.
    - rewrite E, (seq_add 8), map_map. auto.
    - apply IHn. replace (8 * S i)%nat with (8 * i + 8)%nat by lia. auto. }
  apply G. left. auto.
Qed.

Theorem gauss_bounded {Y} (below : Z -> Y -> bool) draws u r : Forall (fun d => 0 <= fst d < 129) draws -> gauss_sample below draws u = Some r ->
  exists g, r = Ok g /\ - 128 <= g <= 128.
Proof.
  intros F. unfold gauss_sample.
  assert (G : gauss_loop below draws = None \/ exists x, gauss_loop below draws = Some (Ok x) /\ 0 <= x < 129).
  { induction draws as [|[x y] t IH]; cbn [gauss_loop]; auto. inversion F as [|? ? H F']; subst. cbn [fst] in H.
    destruct (Z.ltb_spec x 0); [lia|]. destruct (Z.leb_spec 129 x); [lia|]. cbn [orb]. destruct (below x y); eauto. }
  destruct G as [->|(x & -> & H)]; [discriminate|]. intros E. inversion E; subst. eexists. split; [reflexivity|].
  destruct (u mod 2 =? 0); lia.
Qed.
Transparent buf_size.
