(** Lemmas about FieldModel and arithmetic modulo 2^31-1. *)
From Coq Require Import String ZArith List Bool Lia Znumtheory.
From Verif Require Import GoBase BaseFacts FieldModel.
Import ListNotations.
Open Scope Z_scope.

(** ** Primality of the modulus by trial division *)
Fixpoint no_divisor_from (fuel : nat) (p d : Z) : bool :=
  match fuel with
  | O => true
  | S f => negb (p mod d =? 0) && no_divisor_from f p (d + 1)
  end.

Lemma no_divisor_from_spec fuel p d :
  no_divisor_from fuel p d = true -> forall n, d <= n < d + Z.of_nat fuel -> p mod n <> 0.
Proof.
  revert d. induction fuel; intros d H n Hn. lia.
  cbn [no_divisor_from] in H. apply andb_true_iff in H as [H1 H2].
  destruct (Z.eq_dec n d) as [->|]. 
  - apply negb_true_iff in H1. apply Z.eqb_neq in H1. auto.
  - apply (IHfuel (d + 1)); auto. lia.
Qed.

Lemma ModP_no_divisor : no_divisor_from (Z.to_nat 46340) ModP 2 = true.
Proof. vm_compute. reflexivity. Qed.

Lemma ModP_prime : prime ModP.
Proof.
  apply prime_alt. split. unfold ModP; lia.
  intros n Hn [m Hm].
  assert (H : forall k, 2 <= k <= 46341 -> ModP mod k <> 0).
  { intros k Hk. apply (no_divisor_from_spec _ _ _ ModP_no_divisor). 
    rewrite Z2Nat.id by lia. lia. }
  assert (HP : ModP = 2147483647) by reflexivity.
  destruct (Z_le_gt_dec n 46341).
  - apply (H n). lia. rewrite Hm. apply Z.mod_mul. lia.
  - apply (H m).
    + nia.
    + rewrite Hm, Z.mul_comm. apply Z.mod_mul. nia.
Qed.

Lemma ModP_cancel a b : (a * b) mod ModP = 0 -> a mod ModP <> 0 -> b mod ModP = 0.
Proof.
  intros H Ha. assert (HP : 0 < ModP) by (unfold ModP; lia).
  apply Z.mod_divide in H; try lia.
  apply prime_mult in H; try apply ModP_prime.
  destruct H as [H|H]; apply Z.mod_divide in H; try lia. 
Qed.

Lemma mod_sub_0 a b m : m <> 0 -> (a - b) mod m = 0 <-> a mod m = b mod m.
Proof.
  intros Hm. split; intros H.
  - rewrite <- (Z.sub_add b a), Z.add_mod, H by auto. rewrite Z.add_0_l, Z.mod_mod; auto.
  - rewrite Zminus_mod, H, Z.sub_diag. apply Z.mod_0_l; auto.
Qed.

(** ** Negation *)
Lemma negate_vector_spec l :
  Forall (fun x => 0 <= x < ModP) l ->
  length (negate_vector l) = length l /\
  Forall (fun x => 0 <= x <= ModP) (negate_vector l) /\
  forall i, (i < length l)%nat -> (nth i l 0 + nth i (negate_vector l) 0) mod ModP = 0.
Proof.
  intros H. unfold negate_vector. split; [apply map_length|split].
  - apply Forall_map. eapply Forall_impl; [|exact H]. cbv beta. intros x Hx.
    unfold u32, w32. unfold ModP in *. rewrite Z.mod_small; lia.
  - intros i Hi. rewrite (nth_indep (map (fun x => u32 (ModP - x)) l) 0 (u32 (ModP - 0))) by (rewrite map_length; auto).
    rewrite (map_nth (fun x => u32 (ModP - x))).
    assert (Hx : 0 <= nth i l 0 < ModP). { apply (proj1 (Forall_forall _ _) H), nth_In; auto. }
    unfold u32, w32. rewrite (Z.mod_small (ModP - _)) by (unfold ModP in *; lia).
    replace (nth i l 0 + (ModP - nth i l 0)) with ModP by lia. reflexivity.
Qed.

(** ** Masking *)
Lemma land127 b : is_byte b -> 0 <= Z.land b 127 < 128.
Proof.
  intros H. change 127 with (Z.ones 7). rewrite Z.land_ones by lia.
  change (2 ^ 7) with 128. lia.
Qed.

Lemma masked_be_bound b4 : length b4 = 4%nat -> bytes b4 -> 0 <= masked_be b4 <= ModP.
Proof.
  intros HL HB. destruct b4 as [|a [|b [|c [|d [|]]]]]; try discriminate.
  unfold bytes in HB. rewrite !Forall_cons_iff in HB. destruct HB as (Ha & Hb & Hc & Hd & _).
  pose proof (land127 a Ha). unfold masked_be, mask_first, be_dec, ModP, is_byte, w8 in *.
  cbn [rev app le_dec]. lia.
Qed.

Lemma masked_be_mod b4 : length b4 = 4%nat -> bytes b4 -> masked_be b4 = be_dec b4 mod 2 ^ 31.
Proof.
  intros HL HB. destruct b4 as [|a [|b [|c [|d [|]]]]]; try discriminate.
  unfold bytes in HB. rewrite !Forall_cons_iff in HB. destruct HB as (Ha & Hb & Hc & Hd & _).
  unfold masked_be, mask_first, be_dec, is_byte, w8 in *. cbn [rev app le_dec].
  change 127 with (Z.ones 7). rewrite Z.land_ones by lia. change (2 ^ 7) with 128. change (2^31) with 2147483648.
  lia.
Qed.

(** ** Readers *)
Definition reader_ok {S} (rd : reader S) : Prop :=
  forall s n, length (fst (rd s n)) = n /\ bytes (fst (rd s n)).

Lemma rand_element_bound {S} (rd : reader S) fuel : reader_ok rd -> forall s v s',
  rand_element rd fuel s = Some (v, s') -> 0 <= v < ModP.
Proof.
  intros Hrd. induction fuel; intros s v s' H; cbn [rand_element] in H. discriminate.
  destruct (rd s 4%nat) as [buf s1] eqn:E.
  pose proof (Hrd s 4%nat) as [HL HB]. rewrite E in HL, HB. cbn [fst] in *.
  destruct (Z.eqb_spec (masked_be buf) ModP).
  - eapply IHfuel; eauto.
  - injection H as <- <-. pose proof (masked_be_bound buf HL HB). lia.
Qed.

Lemma rand_vector_loop_bound {S} (rd : reader S) fuel : reader_ok rd -> forall bufs s vs s',
  Forall (fun b => length b = 4%nat) bufs -> Forall bytes bufs ->
  rand_vector_loop rd fuel bufs s = Some (vs, s') ->
  length vs = length bufs /\ Forall (fun v => 0 <= v < ModP) vs.
Proof.
  intros Hrd. induction bufs as [|b t IH]; intros s vs s' HL HB H; cbn [rand_vector_loop] in H.
  - injection H as <- <-. split; auto.
  - inversion HL; subst. inversion HB; subst.
    destruct (if masked_be b =? ModP then rand_element rd fuel s else Some (masked_be b, s)) as [[v s1]|] eqn:E1; try discriminate.
    destruct (rand_vector_loop rd fuel t s1) as [[vs1 s2]|] eqn:E2; try discriminate.
    injection H as <- <-. destruct (IH _ _ _ H3 H5 E2) as [HL1 HF1].
    split. cbn; lia. constructor; auto.
    destruct (Z.eqb_spec (masked_be b) ModP).
    + eapply rand_element_bound; eauto.
    + injection E1 as <- <-. pose proof (masked_be_bound b H2 H4). lia.
Qed.

Lemma rand_vector_bound {S} (rd : reader S) fuel n s vs s' :
  reader_ok rd -> rand_vector rd fuel n s = Some (vs, s') ->
  length vs = n /\ Forall (fun v => 0 <= v < ModP) vs.
Proof.
  intros Hrd. unfold rand_vector. destruct (rd s (4 * n)%nat) as [buf s1] eqn:E.
  pose proof (Hrd s (4 * n)%nat) as [HL HB]. rewrite E in HL, HB. cbn [fst] in *. intros H.
  destruct (rand_vector_loop_bound rd fuel Hrd _ _ _ _ (chunks_all_len 4 buf ltac:(lia)) (chunks_forall _ 4 buf ltac:(lia) HB) H) as [H1 H2].
  split; auto. rewrite H1, chunks_length, HL by lia. rewrite Nat.mul_comm. apply Nat.div_mul; lia.
Qed.

(** ** toElement / BytesToElements *)
Lemma to_element_deterministic f1 f2 b4 :
  masked_be b4 <> ModP -> to_element f1 b4 = to_element f2 b4 /\ snd (to_element f1 b4) = false.
Proof. intros H. unfold to_element. destruct (Z.eqb_spec (masked_be b4) ModP); try tauto. Qed.

Lemma to_element_clean f b4 v :
  length b4 = 4%nat -> bytes b4 -> to_element f b4 = (v, false) ->
  v = masked_be b4 /\ 0 <= v < ModP.
Proof.
  intros HL HB. unfold to_element. pose proof (masked_be_bound b4 HL HB).
  destruct (Z.eqb_spec (masked_be b4) ModP); intros E; injection E as <-. discriminate. split; auto; lia.
Qed.

Lemma vector_to_bytes_roundtrip l :
  Forall (fun e => 0 <= e < 2 ^ 24) l ->
  map be_dec (chunks 3 (vector_to_bytes l)) = l /\ length (vector_to_bytes l) = (3 * length l)%nat.
Proof.
  intros H.
  assert (HE : forall e, length (skipn 1 (be_enc 4 e)) = 3%nat).
  { intros. rewrite skipn_length, be_enc_length. auto. }
  assert (HD : forall e, 0 <= e < 2 ^ 24 -> be_dec (skipn 1 (be_enc 4 e)) = e).
  { intros e He. unfold be_enc. change (2 ^ 24) with 16777216 in He. cbn [le_enc rev app skipn]. unfold be_dec. cbn [rev app le_dec].
    lia. }
  split.
  - unfold vector_to_bytes.
    induction H as [|e t He Ht IH]; auto. cbn [flat_map].
    rewrite chunks_app by (auto; lia). cbn [map]. rewrite IH, HD; auto.
  - clear -HE. unfold vector_to_bytes. induction l; auto. cbn [flat_map length]. rewrite app_length, IHl, HE. lia.
Qed.

(** congruence modulo ModP as an explicit multiple, convenient for lia *)
Lemma modP_intro a b k : a = b + k * ModP -> a mod ModP = b mod ModP.
Proof. intros ->. apply Z.mod_add. discriminate. Qed.

Lemma modP_elim a b : a mod ModP = b mod ModP -> exists k, a = b + k * ModP.
Proof.
  intros H. exists (a / ModP - b / ModP).
  pose proof (Z.div_mod a ModP ltac:(discriminate)). pose proof (Z.div_mod b ModP ltac:(discriminate)).
  lia.
Qed.

Lemma modP_self a : exists k, a mod ModP = a + k * ModP.
Proof.
  exists (- (a / ModP)). pose proof (Z.div_mod a ModP ltac:(discriminate)). lia.
Qed.
