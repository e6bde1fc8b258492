(** The calls on shared scratch memory compute what the models without it compute, whatever the memory holds. *)
From Coq Require Import String ZArith List Bool Lia.
From Verif Require Import GoBase BaseFacts FieldModel FSSModel EncodingModel MerkleModel PredicateModel FieldProofs XorFacts
  FSSProofs BufferModel.
Import ListNotations.
Open Scope Z_scope.
Open Scope go_scope.

(** What is invariant of the memory: sizes, and the bytes of OutConvertBlock that no conversion to [n] elements writes. *)
Definition buf_ok (n : nat) (b : buffers) : Prop :=
  length (b_temp b) = 16%nat /\ length (b_out b) = 64%nat /\ length (b_ocb b) = (4 * n)%nat /\
  skipn (16 * (n / 4)) (b_ocb b) = repeat 0 (4 * n - 16 * (n / 4)).

Lemma new_buffers_ok n : buf_ok n (new_buffers n).
Proof.
  unfold buf_ok, new_buffers; cbn [b_temp b_out b_ocb]. rewrite !repeat_length. repeat split.
  generalize (4 * n)%nat, (16 * (n / 4))%nat. intros a b. revert a. induction b; intros a; destruct a; cbn; auto.
Qed.

Definition refines {A} (n : nat) (m : sm A) (r : res A) : Prop :=
  forall b, buf_ok n b -> fst (m b) = r /\ buf_ok n (snd (m b)).

Lemma refines_lift {A} n (r : res A) : refines n (lift r) r.
Proof. intros b H. split; auto. Qed.

Lemma refines_bind {A B} n (m : sm A) (r : res A) (f : A -> sm B) (g : A -> res B) :
  refines n m r -> (forall a, r = Ok a -> refines n (f a) (g a)) -> refines n (sbind m f) (bind r g).
Proof.
  intros H1 H2 b Hb. destruct (H1 b Hb) as [E Hb']. unfold sbind, bind.
  destruct (m b) as [x b'] eqn:Em. cbn [fst snd] in *. subst x.
  destruct r; try (split; [reflexivity|exact Hb']). apply H2; auto.
Qed.

(** ** prf *)

Lemma skipn_skipn' {A} : forall a b (l : list A), skipn a (skipn b l) = skipn (b + a) l.
Proof. intros a b. revert a. induction b as [|b IH]; intros a l; [reflexivity|]. destruct l; [destruct a; reflexivity|]. apply IH. Qed.

Lemma xor_into_exact d a x : length a = 16%nat -> length x = 16%nat -> (16 <= length d)%nat ->
  xor_into d a x = xor_list a x ++ skipn 16 d.
Proof.
  revert d a x. generalize 16%nat. induction n as [|n IH]; intros d a x Ha Hx Hd.
  - destruct a; [|discriminate]. destruct d; reflexivity.
  - destruct a; [discriminate|]. destruct x; [discriminate|]. destruct d; [cbn in Hd; lia|].
    cbn in *. rewrite IH by lia. reflexivity.
Qed.

Lemma go_copy_same {A} (d s : list A) : length d = length s -> go_copy d s = s.
Proof. intros E. unfold go_copy. rewrite E, firstn_all, <- E, skipn_all, app_nil_r. reflexivity. Qed.

Lemma prf_loop_ok enc x : cipher_ok enc -> length x = 16%nat -> forall n i temp out,
  length temp = 16%nat -> (i + n <= 4)%nat -> (16 * (i + n) <= length out)%nat ->
  exists temp', length temp' = 16%nat /\
  prf_loop enc x i n temp out =
  (Ok tt, (temp', firstn (16 * i) out ++ flat_map (fun i => xor_list (enc i x) x) (seq i n) ++ skipn (16 * (i + n)) out)).
Proof.
  intros He Hx. induction n as [|n IH]; intros i temp out Ht Hi Ho.
  - exists temp. split; auto. cbn [prf_loop seq flat_map]. rewrite Nat.add_0_r. cbn [app].
    rewrite firstn_skipn. reflexivity.
  - cbn [prf_loop]. destruct (Nat.leb_spec 4 i); [lia|].
    destruct (He i x) as [L _]. rewrite go_copy_same by congruence.
    destruct (Nat.ltb_spec (length out) (16 * i)); [lia|].
    rewrite xor_into_exact by (rewrite ?skipn_length; auto; lia).
    set (out' := firstn (16 * i) out ++ _).
    assert (L1 : length (xor_list (enc i x) x) = 16%nat) by (rewrite xor_list_length; lia).
    assert (Lo : length out' = length out).
    { unfold out'. rewrite !app_length, firstn_length, !skipn_length. lia. }
    destruct (IH (S i) (enc i x) out' L ltac:(lia) ltac:(lia)) as [t' [Lt E]].
    exists t'. split; auto. rewrite E. f_equal. f_equal.
    assert (F : firstn (16 * S i) out' = firstn (16 * i) out ++ xor_list (enc i x) x).
    { unfold out'. rewrite app_assoc. apply firstn_app_exact. rewrite app_length, firstn_length. lia. }
    rewrite F. cbn [seq flat_map]. rewrite <- !app_assoc. f_equal. f_equal. f_equal.
    unfold out'. rewrite app_assoc. rewrite skipn_app.
    rewrite skipn_all2 by (rewrite app_length, firstn_length; lia). cbn [app].
    rewrite app_length, firstn_length, L1, !skipn_skipn'. f_equal. lia.
Qed.

Lemma prf_loop_panics enc x : forall n i temp out, (i <= 4)%nat -> (4 < i + n)%nat -> (64 <= length out)%nat ->
  fst (prf_loop enc x i n temp out) = Panic "index out of range".
Proof.
  induction n as [|n IH]; intros i temp out Hi Hn Ho; [lia|].
  cbn [prf_loop]. destruct (Nat.leb_spec 4 i); [reflexivity|].
  destruct (Nat.ltb_spec (length out) (16 * i)); [lia|].
  apply IH; [lia|lia|]. rewrite app_length, firstn_length, xor_into_length, skipn_length. lia.
Qed.

Lemma xor_into_tail d a x k : (length a <= k)%nat -> skipn k (xor_into d a x) = skipn k d.
Proof.
  revert a x k. induction d as [|d0 d IH]; intros a x k H; destruct a, x; cbn [xor_into]; auto.
  destruct k; [cbn in H; lia|]. cbn. apply IH. cbn in H. lia.
Qed.

Lemma skipn_write k p (out w : list Z) : (p <= length out)%nat -> (p <= k)%nat ->
  skipn (k - p) w = skipn (k - p) (skipn p out) -> skipn k (firstn p out ++ w) = skipn k out.
Proof.
  intros H H1 H2. rewrite skipn_app, skipn_all2 by (rewrite firstn_length; lia). cbn [app].
  rewrite firstn_length, Nat.min_l by lia. rewrite H2, skipn_skipn'. f_equal. lia.
Qed.

Lemma prf_loop_frame enc x : cipher_ok enc -> forall n i temp out N, length temp = 16%nat -> (i + n <= N)%nat ->
  let '(_, (t, o)) := prf_loop enc x i n temp out in
  length t = 16%nat /\ length o = length out /\ skipn (16 * N) o = skipn (16 * N) out.
Proof.
  intros He. induction n as [|n IH]; intros i temp out N Ht HN; cbn [prf_loop]; auto.
  destruct (Nat.leb_spec 4 i); auto.
  destruct (He i x) as [L _]. rewrite go_copy_same by congruence.
  destruct (Nat.ltb_spec (length out) (16 * i)); auto.
  specialize (IH (S i) (enc i x) (firstn (16 * i) out ++ xor_into (skipn (16 * i) out) (enc i x) x) N L ltac:(lia)).
  destruct (prf_loop _ _ _ _ _ _) as [r [t o]]. destruct IH as [A [B C]]. split; auto. split.
  - rewrite B, app_length, firstn_length, xor_into_length, skipn_length. lia.
  - rewrite C. apply skipn_write; try lia. apply xor_into_tail. lia.
Qed.

(** after prf(x, ..., 3, Temp, Out): [out_holds] *)
Definition expansion (enc : cipher) (x : list Z) : list Z := flat_map (fun i => xor_list (enc i x) x) (range 3).

Lemma expansion_length enc x : cipher_ok enc -> length x = 16%nat -> length (expansion enc x) = 48%nat.
Proof.
  intros He Hx. unfold expansion, range. cbn [seq flat_map]. rewrite !app_length, !xor_list_length.
  rewrite !(proj1 (He _ x)), Hx. reflexivity.
Qed.

Lemma prf_out_spec enc x n b : cipher_ok enc -> length x = 16%nat -> buf_ok n b ->
  fst (prf_out enc x b) = Ok tt /\ buf_ok n (snd (prf_out enc x b)) /\
  firstn 48 (b_out (snd (prf_out enc x b))) = expansion enc x /\
  b_ocb (snd (prf_out enc x b)) = b_ocb b.
Proof.
  intros He Hx [Ht [Ho [Hc Hz]]]. unfold prf_out.
  destruct (prf_loop_ok enc x He Hx 3 0 (b_temp b) (b_out b) Ht ltac:(lia) ltac:(lia)) as [t' [Lt E]].
  rewrite E. cbn [fst snd b_out b_ocb].
  change (flat_map (fun i : nat => xor_list (enc i x) x) (seq 0 3)) with (expansion enc x).
  change (firstn (16 * 0) (b_out b)) with (@nil Z). cbn [app]. change (16 * (0 + 3))%nat with 48%nat.
  split; auto. split.
  - unfold buf_ok. cbn [b_temp b_out b_ocb]. split; auto. split; auto.
    rewrite app_length, skipn_length.
    rewrite expansion_length by auto. lia.
  - split; auto. apply firstn_app_exact. symmetry. apply expansion_length; auto.
Qed.

Lemma prf_out_ocb_temp enc x n b : cipher_ok enc -> buf_ok n b -> buf_ok n (snd (prf_out enc x b)).
Proof.
  intros He [Ht [Ho [Hc Hz]]]. unfold prf_out.
  pose proof (prf_loop_frame enc x He 3 0 (b_temp b) (b_out b) 3 Ht ltac:(lia)) as F.
  destruct (prf_loop enc x 0 3 (b_temp b) (b_out b)) as [r [t o]]. destruct F as [A [B _]].
  unfold buf_ok. cbn [snd b_temp b_out b_ocb]. repeat split; auto. congruence.
Qed.

Lemma prf_stateless enc x : prf enc x 3 = Ok (expansion enc x).
Proof. reflexivity. Qed.

(** ** the correction of a level *)

Lemma correct_loop_length cw t : forall n j count out, length (snd (correct_loop cw t j count n out)) = length out.
Proof.
  induction n as [|n IH]; intros j count out; cbn [correct_loop]; auto.
  destruct (nth_error out j); [|reflexivity]. destruct (nth_error cw _); [|reflexivity].
  rewrite IH, upd_length. reflexivity.
Qed.

Lemma correct_loop_short cw t out : (34 <= length out)%nat -> (length cw < 18)%nat ->
  fst (correct_loop cw t 0 0 34 out) = Panic "index out of range".
Proof.
  intros Ho Hc. do 34 (destruct out as [|? out]; [cbn in Ho; lia|]). clear Ho.
  do 18 (destruct cw as [|? cw]; [reflexivity|]). cbn in Hc. lia.
Qed.

Lemma correct_loop_long cw t out : (34 <= length out)%nat -> (18 <= length cw)%nat ->
  correct_loop cw t 0 0 34 out =
  (Ok tt, xor_list (firstn 34 out) (map (mul8 t) (firstn 17 cw ++ firstn 16 cw ++ [nth 17 cw 0])) ++ skipn 34 out).
Proof.
  intros Ho Hc. do 34 (destruct out as [|? out]; [cbn in Ho; lia|]). clear Ho.
  do 18 (destruct cw as [|? cw]; [cbn in Hc; lia|]). clear Hc. reflexivity.
Qed.

Lemma correct_out_ok n cw t b : buf_ok n b -> buf_ok n (snd (correct_out cw t b)).
Proof.
  intros [Ht [Ho [Hc Hz]]]. unfold correct_out.
  pose proof (correct_loop_length cw t 34 0 0 (b_out b)) as L.
  destruct (correct_loop cw t 0 0 34 (b_out b)) as [r o]. cbn [snd] in *.
  unfold buf_ok. cbn [b_temp b_out b_ocb]. repeat split; auto. congruence.
Qed.

(** correction and choice, once f.Out holds the expansion of [s] *)
Definition correct_pick (xb : bool) (cw : list Z) (t : Z) : sm (list Z * Z) :=
  _ <~ correct_out cw t ;; pick_out xb.

Lemma correct_pick_spec enc n xb cw s t b : cipher_ok enc -> length s = 16%nat -> buf_ok n b ->
  firstn 48 (b_out b) = expansion enc s ->
  fst (correct_pick xb cw t b) = eval_step enc xb cw s t /\ buf_ok n (snd (correct_pick xb cw t b)) /\
  b_ocb (snd (correct_pick xb cw t b)) = b_ocb b.
Proof.
  intros He Hs Hb HE. pose proof (correct_out_ok n cw t b Hb) as Hb'.
  assert (Lo : length (b_out b) = 64%nat) by apply Hb.
  unfold correct_pick, sbind, eval_step. rewrite prf_stateless. cbn [bind].
  assert (O : b_ocb (snd (correct_out cw t b)) = b_ocb b).
  { unfold correct_out. destruct (correct_loop _ _ _ _ _ _). reflexivity. }
  destruct (Nat.ltb_spec (length cw) 18) as [H|H].
  - pose proof (correct_loop_short cw t (b_out b) ltac:(lia) H) as P.
    unfold correct_out in *. destruct (correct_loop cw t 0 0 34 (b_out b)) as [r o]. cbn [fst] in P. subst r.
    cbn [fst snd] in *. auto.
  - unfold correct_out in *. rewrite (correct_loop_long cw t (b_out b)) in * by lia. cbn [fst snd] in Hb', O.
    set (mask := firstn 17 cw ++ firstn 16 cw ++ [nth 17 cw 0]) in *.
    assert (E34 : firstn 34 (b_out b) = firstn 34 (expansion enc s)).
    { rewrite <- HE, firstn_firstn. reflexivity. }
    rewrite E34 in *. set (o' := xor_list (firstn 34 (expansion enc s)) (map (mul8 t) mask)) in *.
    assert (L : length o' = 34%nat).
    { unfold o'. rewrite xor_list_length, firstn_length, map_length, expansion_length by auto. unfold mask.
      rewrite !app_length, !firstn_length. cbn [length]. lia. }
    unfold pick_out. cbn [b_out]. cbn [fst snd]. split; [|split; auto].
    destruct xb.
    + rewrite skipn_app, firstn_app, app_nth1 by lia.
      rewrite skipn_length. replace (16 - (length o' - 17))%nat with 0%nat by lia.
      cbn [firstn]. rewrite app_nil_r. reflexivity.
    + rewrite firstn_app, app_nth1 by lia. replace (16 - length o')%nat with 0%nat by lia. cbn [firstn].
      rewrite app_nil_r. reflexivity.
Qed.

Lemma eval_step_seed enc xb cw s t s' t' : cipher_ok enc -> length s = 16%nat ->
  eval_step enc xb cw s t = Ok (s', t') -> length s' = 16%nat.
Proof.
  intros He Hs. unfold eval_step. rewrite prf_stateless. cbn [bind].
  destruct (Nat.ltb_spec (length cw) 18) as [H|H]; [discriminate|].
  set (o' := xor_list _ _). assert (L : length o' = 34%nat).
  { unfold o'. rewrite xor_list_length, firstn_length, map_length, expansion_length by auto.
    rewrite !app_length, !firstn_length. cbn [length]. lia. }
  destruct xb; intros E.
  - assert (s' = firstn 16 (skipn 17 o')) as -> by congruence. rewrite firstn_length, skipn_length. lia.
  - assert (s' = firstn 16 o') as -> by congruence. rewrite firstn_length. lia.
Qed.

Lemma eval_step_refines enc n xb cw s t : cipher_ok enc -> length s = 16%nat ->
  refines n (eval_step_b enc xb cw s t) (eval_step enc xb cw s t).
Proof.
  intros He Hs b Hb. destruct (prf_out_spec enc s n b He Hs Hb) as [E [Hb' [F _]]].
  unfold eval_step_b. fold (correct_pick xb cw t). unfold sbind. destruct (prf_out enc s b) as [r b']. cbn [fst snd] in *. subst r.
  destruct (correct_pick_spec enc n xb cw s t b' He Hs Hb' F) as [A [B _]]. exact (conj A B).
Qed.

Lemma eval_loop_refines enc n : cipher_ok enc -> forall x i cws s t, length s = 16%nat ->
  refines n (eval_loop_b enc i x cws s t) (eval_loop enc i x cws s t).
Proof.
  intros He. induction x as [|xb x IH]; intros i cws s t Hs; cbn [eval_loop_b eval_loop].
  - apply refines_lift.
  - destruct cws as [|cw cws].
    + intros b Hb. destruct (prf_out_spec enc s n b He Hs Hb) as [E [Hb' _]].
      unfold sbind. destruct (prf_out enc s b) as [r b']. cbn [fst snd] in *. subst r. split; auto.
    + apply refines_bind; [apply eval_step_refines; auto|].
      intros [s' t'] E. apply IH. cbn [fst]. eapply eval_step_seed; eauto.
Qed.

Lemma eval_loop_seed enc : cipher_ok enc -> forall x i cws s t s' t', length s = 16%nat ->
  eval_loop enc i x cws s t = Ok (s', t') -> length s' = 16%nat.
Proof.
  intros He. induction x as [|xb x IH]; intros i cws s t s' t' Hs E; cbn [eval_loop] in E.
  - inversion E; subst; auto.
  - destruct cws as [|cw cws]; [discriminate|].
    destruct (eval_step enc _ cw s t) as [[s1 t1]| | |] eqn:E1; try discriminate. cbn [bind fst snd] in E.
    eapply IH; [|exact E]. eapply eval_step_seed; eauto.
Qed.

(** ** conversion *)

Lemma skipn_upd {A} (l : list A) p v k : (p < k)%nat -> skipn k (upd l p v) = skipn k l.
Proof.
  revert p k. induction l as [|a l IH]; intros p k H; destruct k; try lia; destruct p; cbn; auto. apply IH. lia.
Qed.

Lemma go_slice_upd (l : list Z) p v i j : (Z.of_nat p < i) -> go_slice (upd l p v) i j = go_slice l i j.
Proof.
  intros H. unfold go_slice, zlen. rewrite upd_length, skipn_upd by lia. reflexivity.
Qed.

Lemma elements_loop_value fresh : forall n i buf,
  fst (elements_loop fresh i n buf) =
  mapM (fun j => b4 <- go_slice buf (4 * Z.of_nat j) (4 * Z.of_nat j + 4) ;; Ok (to_element (fresh j) b4)) (seq i n).
Proof.
  induction n as [|n IH]; intros i buf; [reflexivity|].
  cbn [elements_loop seq mapM].
  destruct (go_slice buf (4 * Z.of_nat i) (4 * Z.of_nat i + 4)) as [b4| | |] eqn:E; try reflexivity.
  cbn [bind].
  specialize (IH (S i) (upd buf (4 * i) (nth 0 (mask_first b4) 0))).
  destruct (elements_loop fresh (S i) n _) as [r buf']. cbn [fst] in *. rewrite IH. clear IH.
  assert (X : forall l, Forall (fun j => (i < j)%nat) l ->
    mapM (fun j => b4 <- go_slice (upd buf (4 * i) (nth 0 (mask_first b4) 0)) (4 * Z.of_nat j) (4 * Z.of_nat j + 4) ;;
                   Ok (to_element (fresh j) b4)) l =
    mapM (fun j => b4 <- go_slice buf (4 * Z.of_nat j) (4 * Z.of_nat j + 4) ;; Ok (to_element (fresh j) b4)) l).
  { induction l as [|j l IHl]; intros F; [reflexivity|]. inversion F; subst. cbn [mapM].
    rewrite go_slice_upd by lia. rewrite IHl by auto. reflexivity. }
  rewrite X; [reflexivity|]. apply Forall_forall. intros j Hj. apply in_seq in Hj. lia.
Qed.

Lemma elements_loop_length fresh : forall n i buf, length (snd (elements_loop fresh i n buf)) = length buf.
Proof.
  induction n as [|n IH]; intros i buf; cbn [elements_loop]; auto.
  destruct (go_slice _ _ _); cbn [snd]; auto.
  specialize (IH (S i) (upd buf (4 * i) (nth 0 (mask_first a) 0))).
  destruct (elements_loop fresh (S i) n _) as [r buf']. cbn [snd] in *. rewrite IH, upd_length. reflexivity.
Qed.

Lemma nth_skipn_head (l : list Z) : forall p, hd 0 (skipn p l) = nth p l 0.
Proof. induction l as [|a l IH]; intros [|p]; cbn; auto. Qed.

(** clearing top bits leaves zeros zero *)
Lemma elements_loop_zero fresh p : forall n i buf, (nth p buf 0 = 0) -> nth p (snd (elements_loop fresh i n buf)) 0 = 0.
Proof.
  induction n as [|n IH]; intros i buf H; cbn [elements_loop]; auto.
  destruct (go_slice buf (4 * Z.of_nat i) (4 * Z.of_nat i + 4)) as [b4| | |] eqn:E; cbn [snd]; auto.
  specialize (IH (S i) (upd buf (4 * i) (nth 0 (mask_first b4) 0))).
  destruct (elements_loop fresh (S i) n _) as [r buf']. cbn [snd] in *. apply IH.
  destruct (Nat.eq_dec (4 * i) p) as [Ep|N]; [subst p|rewrite nth_upd_neq; auto].
  unfold go_slice in E. destruct ((0 <=? _) && _ && _) eqn:C; [|discriminate].
  apply andb_prop in C. destruct C as [_ C]. apply Z.leb_le in C. unfold zlen in C.
  rewrite nth_upd_eq by lia. inversion E as [E1].
  replace (Z.to_nat (4 * Z.of_nat i)) with (4 * i)%nat by lia.
  replace (Z.to_nat (4 * Z.of_nat i + 4 - 4 * Z.of_nat i)) with 4%nat by lia.
  pose proof (nth_skipn_head buf (4 * i)) as N. rewrite H in N.
  destruct (skipn (4 * i) buf) as [|z l]; [reflexivity|]. cbn in N. subst z. reflexivity.
Qed.

Lemma zero_tail_nth k m (l : list Z) : length l = (k + m)%nat ->
  (skipn k l = repeat 0 m <-> forall p, (k <= p)%nat -> nth p l 0 = 0).
Proof.
  intros L. split.
  - intros E p Hp. rewrite <- (firstn_skipn k l), app_nth2 by (rewrite firstn_length; lia).
    rewrite E. apply nth_repeat.
  - intros F. apply (nth_ext _ _ 0 0).
    + rewrite skipn_length, repeat_length. lia.
    + intros i Hi. rewrite nth_repeat. rewrite skipn_length in Hi.
      specialize (F (k + i)%nat ltac:(lia)). rewrite <- (firstn_skipn k l), app_nth2 in F by (rewrite firstn_length; lia).
      rewrite firstn_length, Nat.min_l in F by lia. replace (k + i - k)%nat with i in F by lia. exact F.
Qed.

Lemma div4 n : (16 * (n / 4) <= 4 * n)%nat.
Proof. pose proof (Nat.mul_div_le n 4 ltac:(lia)). lia. Qed.

Lemma elements_ocb_spec n fresh b : buf_ok n b ->
  fst (elements_ocb fresh n b) = bytes_to_elements fresh n (b_ocb b) /\ buf_ok n (snd (elements_ocb fresh n b)).
Proof.
  intros [Ht [Ho [Hc Hz]]]. unfold elements_ocb.
  pose proof (elements_loop_value fresh n 0 (b_ocb b)) as V.
  pose proof (elements_loop_length fresh n 0 (b_ocb b)) as L.
  assert (Z0 : forall p, (16 * (n / 4) <= p)%nat -> nth p (snd (elements_loop fresh 0 n (b_ocb b))) 0 = 0).
  { intros p Hp. apply elements_loop_zero. pose proof (div4 n).
    apply (zero_tail_nth (16 * (n / 4)) (4 * n - 16 * (n / 4)) (b_ocb b)); auto. lia. }
  destruct (elements_loop fresh 0 n (b_ocb b)) as [r o]. cbn [fst snd] in *. split; [exact V|].
  unfold buf_ok. cbn [b_temp b_out b_ocb]. repeat split; auto; [congruence|].
  pose proof (div4 n). apply zero_tail_nth; auto. lia.
Qed.

Lemma prf_ocb_frame enc n x b : cipher_ok enc -> buf_ok n b -> buf_ok n (snd (prf_ocb enc x (n / 4) b)).
Proof.
  intros He [Ht [Ho [Hc Hz]]]. unfold prf_ocb.
  pose proof (prf_loop_frame enc x He (n / 4) 0 (b_temp b) (b_ocb b) (n / 4) Ht ltac:(lia)) as F.
  destruct (prf_loop enc x 0 (n / 4) (b_temp b) (b_ocb b)) as [r [t o]]. destruct F as [A [B C]].
  unfold buf_ok. cbn [snd b_temp b_out b_ocb]. repeat split; auto; congruence.
Qed.

Lemma prf_ocb_spec enc n x b : cipher_ok enc -> length x = 16%nat -> buf_ok n b ->
  match prf enc x (n / 4) with
  | Ok p => fst (prf_ocb enc x (n / 4) b) = Ok tt /\ b_ocb (snd (prf_ocb enc x (n / 4) b)) = go_copy (repeat 0 (4 * n)) p
  | r => fst (prf_ocb enc x (n / 4) b) = (_ <- r ;; Ok tt)
  end.
Proof.
  intros He Hx [Ht [Ho [Hc Hz]]]. pose proof (div4 n). unfold prf, prf_ocb.
  destruct (Nat.ltb_spec 4 (n / 4)) as [H4|H4].
  - pose proof (prf_loop_panics enc x (n / 4) 0 (b_temp b) (b_ocb b) ltac:(lia) ltac:(lia) ltac:(lia)) as P.
    destruct (prf_loop _ _ _ _ _ _) as [r [t o]]. exact P.
  - destruct (prf_loop_ok enc x He Hx (n / 4) 0 (b_temp b) (b_ocb b) Ht ltac:(lia) ltac:(lia)) as [t' [Lt E]].
    rewrite E. cbn [fst snd b_ocb]. split; auto. rewrite Nat.mul_0_r. cbn [firstn app Nat.add]. rewrite Hz.
    unfold range. set (p := flat_map _ _).
    assert (L : length p = (16 * (n / 4))%nat).
    { assert (G : forall m i, length (flat_map (fun i => xor_list (enc i x) x) (seq i m)) = (16 * m)%nat).
      { induction m as [|m IH]; intros i; auto.
        cbn [seq flat_map]. rewrite app_length, IH, xor_list_length, (proj1 (He i x)), Hx. lia. }
      apply G. }
    unfold go_copy. rewrite repeat_length, firstn_all2 by lia. f_equal. rewrite L.
    generalize (4 * n)%nat, (16 * (n / 4))%nat. clear. intros a c. revert a.
    induction c as [|c IH]; intros [|a]; cbn; auto.
Qed.

Lemma convert_refines enc n fresh x : cipher_ok enc -> length x = 16%nat ->
  refines n (convert_block_b enc fresh x n) (convert_block enc n fresh x n).
Proof.
  intros He Hx b Hb. pose proof (prf_ocb_spec enc n x b He Hx Hb) as S.
  pose proof (prf_ocb_frame enc n x b He Hb) as Hb'.
  unfold convert_block_b, convert_block, sbind.
  destruct (prf enc x (n / 4)) as [p| | |] eqn:EP; cbn [bind].
  - destruct S as [S1 S2]. destruct (prf_ocb enc x (n / 4) b) as [r b']. cbn [fst snd] in *. subst r.
    destruct (elements_ocb_spec n fresh b' Hb') as [A B]. rewrite A, S2. auto.
  - destruct (prf_ocb enc x (n / 4) b) as [r b']. cbn [fst snd bind] in *. subst r. auto.
  - destruct (prf_ocb enc x (n / 4) b) as [r b']. cbn [fst snd bind] in *. subst r. auto.
  - destruct (prf_ocb enc x (n / 4) b) as [r b']. cbn [fst snd bind] in *. subst r. auto.
Qed.

(** ** EvaluatePF and the answers *)

Lemma evaluate_refines enc n fresh sn k x : cipher_ok enc ->
  refines n (evaluate_pf_b enc fresh sn k x n) (evaluate_pf enc n fresh sn k x n).
Proof.
  intros He. unfold evaluate_pf_b, evaluate_pf.
  assert (L : length (go_copy (repeat 0 16) (k_sinit k)) = 16%nat) by (rewrite go_copy_length, repeat_length; auto).
  apply refines_bind; [apply eval_loop_refines; auto|].
  intros [s' t'] E. cbn [fst snd]. apply refines_bind.
  - apply convert_refines; auto. eapply eval_loop_seed; eauto.
  - intros c _. apply refines_bind; [apply refines_lift|]. intros o _. apply refines_lift.
Qed.

Lemma records_refines {S} n db (body : nat -> key_info -> S -> sm S) body' :
  (forall i ki st, refines n (body i ki st) (body' i ki st)) ->
  forall m i st, refines n (records_loop_b db body i m st) (records_loop db body' i m st).
Proof.
  intros Hb. induction m as [|m IH]; intros i st; cbn [records_loop_b records_loop]; [apply refines_lift|].
  apply refines_bind; [apply refines_lift|]. intros ki _. apply refines_bind; [apply Hb|]. intros st' _. apply IH.
Qed.

Lemma count_body_refines enc n sn k fresh id i ki st : cipher_ok enc ->
  refines n (count_body_b enc sn k fresh n id i ki st) (count_body enc sn k fresh n id i ki st).
Proof.
  intros He. unfold count_body_b, count_body. apply refines_bind; [apply refines_lift|].
  intros [x|] _; [|apply refines_lift].
  apply refines_bind; [apply evaluate_refines; auto|]. intros e _. apply refines_lift.
Qed.

Lemma avg_body_refines enc H q now n sn k fresh i ki st : cipher_ok enc ->
  refines n (avg_body_b enc H q now sn k fresh n i ki st) (avg_body enc H q now sn k fresh n i ki st).
Proof.
  intros He. unfold avg_body_b, avg_body. apply refines_bind; [apply refines_lift|].
  intros [x|] _; [|apply refines_lift].
  apply refines_bind; [apply evaluate_refines; auto|]. intros e _. apply refines_lift.
Qed.

Lemma answer_refines enc H n sn db m now fresh q k : cipher_ok enc ->
  refines n (answer_b enc H n sn db m now fresh q k) (answer enc H n sn db m now fresh q k).
Proof.
  intros He. unfold answer_b, answer. destruct q as [q|]; [|apply refines_lift].
  assert (C : forall id, refines n (records_loop_b db (count_body_b enc sn k fresh n id) 0 m (repeat 0 n, false))
                                   (records_loop db (count_body enc sn k fresh n id) 0 m (repeat 0 n, false))).
  { intros id. apply records_refines. intros. apply count_body_refines; auto. }
  destruct (negb (q_and q) && negb (q_avg q) && negb (q_sum q)).
  { destruct (q_target q =? target_userid); [apply C|]. destruct (q_target q =? target_algo); [apply C|].
    destruct (q_target q =? target_creation); [apply C|apply refines_lift]. }
  destruct (q_and q && negb (q_avg q) && negb (q_sum q)); [apply C|].
  destruct (q_and q && q_sum q && negb (q_avg q)); [apply refines_lift|].
  destruct (q_and q && q_avg q && negb (q_sum q)); [|apply refines_lift].
  apply refines_bind.
  - apply records_refines. intros. apply avg_body_refines; auto.
  - intros r _. apply refines_lift.
Qed.

Lemma serve_all_spec enc H n sn db m : cipher_ok enc -> forall rs b, buf_ok n b ->
  fst (serve_all enc H n sn db m rs b)
  = map (fun r => answer enc H n sn db m (rq_now r) (rq_fresh r) (rq_info r) (rq_key r)) rs.
Proof.
  intros He. induction rs as [|r rs IH]; intros b Hb; [reflexivity|]. cbn [serve_all map].
  destruct (answer_refines enc H n sn db m (rq_now r) (rq_fresh r) (rq_info r) (rq_key r) He b Hb) as [E Hb'].
  destruct (answer_b _ _ _ _ _ _ _ _ _ _ b) as [a b']. cbn [fst snd] in *. subst a.
  specialize (IH b' Hb'). destruct (serve_all enc H n sn db m rs b') as [l b'']. cbn [fst] in *. subst l. reflexivity.
Qed.

(** ** GenerateTreePF *)

Lemma gen_step_refines enc n ab s0 s1 t0 t1 : cipher_ok enc -> length s0 = 16%nat -> length s1 = 16%nat ->
  refines n (gen_step_b enc ab s0 s1 t0 t1) (gen_step enc ab s0 s1 t0 t1).
Proof.
  intros He H0 H1 b Hb. unfold gen_step_b, gen_step. rewrite !prf_stateless. cbn [bind].
  destruct (prf_out_spec enc s0 n b He H0 Hb) as [E [Hb' [F _]]].
  unfold sbind. destruct (prf_out enc s0 b) as [r b']. cbn [fst snd] in *. subst r.
  destruct (prf_out_spec enc s1 n b' He H1 Hb') as [E' [Hb'' [F' _]]].
  destruct (prf_out enc s1 b') as [r' b'']. cbn [fst snd] in *. subst r'.
  rewrite F, F'. split; auto.
Qed.

Lemma gen_step_seeds enc ab s0 s1 t0 t1 cw s0' s1' t0' t1' : cipher_ok enc ->
  length s0 = 16%nat -> length s1 = 16%nat ->
  gen_step enc ab s0 s1 t0 t1 = Ok (cw, (s0', s1', t0', t1')) -> length s0' = 16%nat /\ length s1' = 16%nat.
Proof.
  intros He H0 H1. unfold gen_step. rewrite !prf_stateless. cbn [bind]. intros E.
  pose proof (f_equal (fun r => match r with Ok (_, (a, _, _, _)) => length a | _ => O end) E) as E0.
  pose proof (f_equal (fun r => match r with Ok (_, (_, a, _, _)) => length a | _ => O end) E) as E1. clear E.
  cbv beta iota in E0, E1. rewrite <- E0, <- E1.
  rewrite !xor_list_length, !map_length, !xor_list_length, !firstn_length, !skipn_length, !expansion_length by auto.
  destruct ab; cbn; auto.
Qed.

Lemma gen_loop_refines enc n : cipher_ok enc -> forall a s0 s1 t0 t1, length s0 = 16%nat -> length s1 = 16%nat ->
  refines n (gen_loop_b enc a s0 s1 t0 t1) (gen_loop enc a s0 s1 t0 t1).
Proof.
  intros He. induction a as [|ab a IH]; intros s0 s1 t0 t1 H0 H1; cbn [gen_loop_b gen_loop]; [apply refines_lift|].
  apply refines_bind; [apply gen_step_refines; auto|].
  intros [cw [[[s0' s1'] t0'] t1']] E. destruct (gen_step_seeds _ _ _ _ _ _ _ _ _ _ _ He H0 H1 E).
  apply refines_bind; [apply IH; auto|]. intros rest _. apply refines_lift.
Qed.

Lemma gen_loop_seeds enc : cipher_ok enc -> forall a s0 s1 t0 t1 cws s0' s1' t0' t1',
  length s0 = 16%nat -> length s1 = 16%nat ->
  gen_loop enc a s0 s1 t0 t1 = Ok (cws, (s0', s1', t0', t1')) -> length s0' = 16%nat /\ length s1' = 16%nat.
Proof.
  intros He. induction a as [|ab a IH]; intros s0 s1 t0 t1 cws s0' s1' t0' t1' H0 H1 E; cbn [gen_loop] in E.
  - inversion E; subst; auto.
  - destruct (gen_step enc ab s0 s1 t0 t1) as [[cw [[[u0 u1] v0] v1]]| | |] eqn:ES; try discriminate. cbn [bind] in E.
    destruct (gen_step_seeds _ _ _ _ _ _ _ _ _ _ _ He H0 H1 ES) as [A B].
    destruct (gen_loop enc a u0 u1 v0 v1) as [[c [[[w0 w1] x0] x1]]| | |] eqn:EL; try discriminate. cbn [bind fst snd] in E.
    inversion E; subst. eapply IH; [exact A|exact B|exact EL].
Qed.

Lemma generate_refines enc a bt r : cipher_ok enc -> rand_ok r ->
  refines (length bt) (generate_tree_pf_b enc a bt r) (generate_tree_pf enc (length bt) a bt r).
Proof.
  intros He [R0 [_ [R1 _]]]. unfold generate_tree_pf_b, generate_tree_pf.
  assert (L : length (firstn 16 (r_seed0 r)) = 16%nat) by (rewrite firstn_length; lia).
  apply refines_bind; [apply gen_loop_refines; auto|].
  intros [cws [[[s0' s1'] t0'] t1']] E. destruct (gen_loop_seeds enc He _ _ _ _ _ _ _ _ _ _ L R1 E).
  apply refines_bind; [apply convert_refines; auto|]. intros c0 _.
  apply refines_bind; [apply convert_refines; auto|]. intros c1 _. apply refines_lift.
Qed.

Lemma query_all_spec enc n : cipher_ok enc -> forall qs b, buf_ok (S n) b ->
  Forall (fun q => length (snd (fst q)) = n /\ rand_ok (snd q)) qs ->
  fst (query_all enc qs b)
  = map (fun q => client_query enc (S n) (snd (fst q)) (snd q) (fst (fst q)) 2) qs.
Proof.
  intros He. induction qs as [|[[inp al] r] qs IH]; intros b Hb HF; [reflexivity|]. cbn [query_all map fst snd].
  inversion HF as [|? ? [L R] HF']; subst. cbn [fst snd] in *.
  destruct (generate_refines enc inp (1 :: al) r He R b Hb) as [E Hb'].
  destruct (generate_tree_pf_b enc inp (1 :: al) r b) as [k b']. cbn [fst snd] in *. subst k.
  specialize (IH b' Hb' HF'). destruct (query_all enc qs b') as [l b'']. cbn [fst] in *. subst l. reflexivity.
Qed.
