(** Proofs about the clients of the single-server schemes on arbitrary answers, and the Diffie-Hellman server on arbitrary queries. *)
From Coq Require Import String ZArith List Bool Lia Arith.
From Verif Require Import GoBase BaseFacts EncodingModel EncodingProofs MatrixModel LWEModel LWESpec MatrixProofs LWEProofs LWEProofs4 MerkleModel DHModel DHSpec DHProofs DHProofs2 DHProofs3
  RobustModel RobustSpec RobustProofs RobustProofs2 RobustProofs3.
Import ListNotations.
Open Scope Z_scope.
Open Scope go_scope.

(** ** the lattice clients *)
Lemma zip_len w op : forall a b, (length a <= length b)%nat -> exists v, zip_words w op a b = Ok v /\ length v = length a.
Proof.
  induction a as [|x a IH]; intros b H; cbn [zip_words]. { exists []. auto. }
  destruct b as [|y b]; cbn [length] in H; [lia|]. destruct (IH b) as (v & E & L); [lia|]. rewrite E. cbn [bind]. eexists. split; eauto. cbn. lia.
Qed.
Lemma zip_panic w op : forall a b, (length b < length a)%nat -> zip_words w op a b = Panic "index out of range".
Proof.
  induction a as [|x a IH]; intros b H; cbn [length] in H; [lia|]. destruct b as [|y b]; cbn [zip_words]; auto. cbn [length] in H.
  rewrite IH by lia. auto.
Qed.

Lemma get_row0 rows cols d i : m_get (mkM rows cols d) 0 (Z.of_nat i) = if (i <? length d)%nat then Ok (nth i d 0) else Panic "index out of range".
Proof.
  unfold m_get. cbn [m_data m_cols]. rewrite Z.mul_0_r, Z.add_0_l. unfold go_index. destruct (Z.ltb_spec (Z.of_nat i) 0); [lia|]. rewrite Nat2Z.id.
  destruct (Nat.ltb_spec i (length d)).
  - rewrite (nth_error_nth' d 0) by lia. auto.
  - rewrite (proj2 (nth_error_None d i)) by lia. auto.
Qed.

Lemma outs_enough w f t rows cols d : forall n i, (i + n <= length d)%nat ->
  (exists outs, lwe_outs w f t (mkM rows cols d) i n = Ok outs /\ length outs = n /\ Forall (fun o => o = 0 \/ o = 1) outs) \/
  lwe_outs w f t (mkM rows cols d) i n = Err "REJECT".
Proof.
  induction n as [|n IH]; intros i H; cbn [lwe_outs]. { left. exists []. auto. }
  rewrite get_row0. destruct (Nat.ltb_spec i (length d)); [|lia]. cbn [bind].
  destruct (f (nth i d 0)); [|destruct (f _)]; cbn [bind]; auto;
  (destruct (IH (S i)) as [(outs & E & L & B)|E]; [lia| |]; rewrite E; cbn [bind]; [left; eexists; split; [reflexivity|]; split; [cbn; lia|constructor; auto]|right; auto]).
Qed.
Lemma outs_short w f t rows cols d : forall n i, (length d < i + n)%nat -> (i <= length d)%nat ->
  lwe_outs w f t (mkM rows cols d) i n = Panic "index out of range" \/ lwe_outs w f t (mkM rows cols d) i n = Err "REJECT".
Proof.
  induction n as [|n IH]; intros i H H0; [lia|]. cbn [lwe_outs].
  rewrite get_row0. destruct (Nat.ltb_spec i (length d)); [|auto]. cbn [bind].
  destruct (f (nth i d 0)); [|destruct (f _)]; cbn [bind]; auto;
  (destruct (IH (S i)) as [E|E]; [lia|lia| |]; rewrite E; cbn [bind]; auto).
Qed.

Theorem client_any w f p st n cols rows cs data : 0 < w -> client_state w p st n cols ->
  (rows <> 1 \/ cs <> Z.of_nat cols -> lwe_reconstruct w f p st (mkM rows cs data) = Panic "Dimension mismatch") /\
  (rows = 1 -> cs = Z.of_nat cols ->
    ((cols < length data)%nat -> lwe_reconstruct w f p st (mkM rows cs data) = Panic "index out of range") /\
    ((length data < cols)%nat -> lwe_reconstruct w f p st (mkM rows cs data) = Panic "index out of range" \/
                                 lwe_reconstruct w f p st (mkM rows cs data) = Err "REJECT") /\
    (length data = cols -> (exists b, (b = 0 \/ b = 1) /\ lwe_reconstruct w f p st (mkM rows cs data) = Ok b) \/
                           lwe_reconstruct w f p st (mkM rows cs data) = Err "REJECT")).
Proof.
  intros Hw (HS & HG & HM & HJ). destruct (mul_ok w (s_secret st) (s_digest st) 1 n cols Hw HS HG) as (sd & E & S & W & _).
  unfold lwe_reconstruct. rewrite E. cbn [bind]. destruct S as ((Rs & Cs & _) & Ls). unfold m_sub, m_zip. cbn [m_rows m_cols m_data]. rewrite Rs, Cs.
  change (Z.of_nat 1) with 1. split.
  - intros H. destruct (Z.eqb_spec cs (Z.of_nat cols)), (Z.eqb_spec rows 1); cbn [negb orb]; auto. lia.
  - intros -> ->. rewrite !Z.eqb_refl. cbn [negb orb]. replace (1 * cols)%nat with cols in Ls by lia. conj_split; intros H.
    + rewrite zip_panic by lia. auto.
    + destruct (zip_len w Z.sub data (m_data sd)) as (v & Ev & Lv); [lia|]. rewrite Ev. cbn [bind]. unfold go_make. rewrite HM.
      destruct (Z.ltb_spec (Z.of_nat cols) 0); [lia|]. cbn [bind]. rewrite Nat2Z.id.
      destruct (outs_short w f (s_t st) 1 (Z.of_nat cols) v cols 0) as [X|X]; try lia; rewrite X; auto.
    + destruct (zip_len w Z.sub data (m_data sd)) as (v & Ev & Lv); [lia|]. rewrite Ev. cbn [bind]. unfold go_make. rewrite HM.
      destruct (Z.ltb_spec (Z.of_nat cols) 0); [lia|]. cbn [bind]. rewrite Nat2Z.id.
      destruct (outs_enough w f (s_t st) 1 (Z.of_nat cols) v cols 0) as [(outs & X & Lo & B)|X]; try lia; rewrite X; auto.
      left. cbn [bind]. exists (nth (Z.to_nat (s_j st)) outs 0). split.
      * rewrite Forall_forall in B. apply B. apply nth_In. lia.
      * unfold go_index. destruct (Z.ltb_spec (s_j st) 0); [lia|].
        rewrite (nth_error_nth' outs 0) by lia. auto.
Qed.

Theorem client32_any p st n cols a : client_state (2 ^ 32) p st n cols -> bytes a -> Z.of_nat cols < 2 ^ 32 ->
  (zlen a < 8 -> is_panic (lwe_reconstruct_bytes32 p st a) = true) /\
  forall rows cs body, is_u32 rows -> is_u32 cs -> a = announcing rows cs body ->
  (rows <> 1 \/ cs <> Z.of_nat cols \/ Z.of_nat cols < zlen body / 4 -> is_panic (lwe_reconstruct_bytes32 p st a) = true) /\
  (rows = 1 -> cs = Z.of_nat cols -> zlen body / 4 < Z.of_nat cols -> 
     is_panic (lwe_reconstruct_bytes32 p st a) = true \/ lwe_reconstruct_bytes32 p st a = Err "REJECT") /\
  (rows = 1 -> cs = Z.of_nat cols -> zlen body / 4 = Z.of_nat cols -> 
     (exists b, (b = 0 \/ b = 1) /\ lwe_reconstruct_bytes32 p st a = Ok b) \/ lwe_reconstruct_bytes32 p st a = Err "REJECT").
Proof.
  intros HC B HM. split.
  { intros H. unfold lwe_reconstruct_bytes32. assert (X := short32 a ltac:(unfold zlen in H; lia)). destruct (bytes_to_matrix a); try discriminate X; auto. }
  intros rows cs body Hr Hc ->. unfold lwe_reconstruct_bytes32. rewrite parse32 by auto. cbn [bind]. unfold lwe_reconstruct32.
  assert (LD : zlen body / 4 = Z.of_nat (length (bytes_to_uint32_slice body))). { unfold zlen. rewrite words_count32, Nat2Z.inj_div. auto. }
  rewrite LD. destruct (client_any w32 (in_range32 (lp_b p)) p st n cols rows cs (bytes_to_uint32_slice body) ltac:(reflexivity) HC) as (D & X). conj_split.
  - intros H. destruct (Z.eq_dec rows 1), (Z.eq_dec cs (Z.of_nat cols)); try (rewrite D by lia; auto; fail).
    destruct X as (X & _); auto. rewrite X by lia. auto.
  - intros -> -> H. destruct X as (_ & X & _); auto. destruct X as [X|X]; try lia; rewrite X; auto.
  - intros -> -> H. destruct X as (_ & _ & X); auto. apply X. lia.
Qed.

Theorem client128_any p st n cols a : client_state (2 ^ 128) p st n cols -> bytes a -> Z.of_nat cols < 2 ^ 32 ->
  (zlen a < 8 -> is_panic (lwe_reconstruct_bytes128 p st a) = true) /\
  forall rows cs body, is_u32 rows -> is_u32 cs -> a = announcing rows cs body ->
  (rows <> 1 \/ cs <> Z.of_nat cols \/ Z.of_nat cols < zlen body / 16 -> is_panic (lwe_reconstruct_bytes128 p st a) = true) /\
  (rows = 1 -> cs = Z.of_nat cols -> zlen body / 16 < Z.of_nat cols -> 
     is_panic (lwe_reconstruct_bytes128 p st a) = true \/ lwe_reconstruct_bytes128 p st a = Err "REJECT") /\
  (rows = 1 -> cs = Z.of_nat cols -> zlen body / 16 = Z.of_nat cols -> 
     (exists b, (b = 0 \/ b = 1) /\ lwe_reconstruct_bytes128 p st a = Ok b) \/ lwe_reconstruct_bytes128 p st a = Err "REJECT").
Proof.
  intros HC B HM. split.
  { intros H. unfold lwe_reconstruct_bytes128. destruct (short128 a) as (s & E & _); [unfold zlen in H; lia|]. rewrite E. auto. }
  intros rows cs body Hr Hc ->. unfold lwe_reconstruct_bytes128. rewrite parse128 by auto. cbn [bind]. unfold lwe_reconstruct128.
  assert (LD : zlen body / 16 = Z.of_nat (length (map le_dec (chunks 16 body)))).
  { unfold zlen. rewrite map_length, chunks_length by lia. rewrite Nat2Z.inj_div. auto. }
  rewrite LD. destruct (client_any w128 (in_range128 (lp_b p)) p st n cols rows cs ((map le_dec (chunks 16 body))) ltac:(reflexivity) HC) as (D & X). conj_split.
  - intros H. destruct (Z.eq_dec rows 1), (Z.eq_dec cs (Z.of_nat cols)); try (rewrite D by lia; auto; fail).
    destruct X as (X & _); auto. rewrite X by lia. auto.
  - intros -> -> H. destruct X as (_ & X & _); auto. destruct X as [X|X]; try lia; rewrite X; auto.
  - intros -> -> H. destruct X as (_ & _ & X); auto. apply X. lia.
Qed.

(** ** the amplified client *)
Lemma outputs_iff p : forall sts answers i outs, (i <= length answers)%nat ->
  amplify_outputs p sts answers i = Ok outs <->
  (length sts <= length answers - i)%nat /\ 
  Forall2 (fun sa o => lwe_reconstruct32 p (fst sa) (snd sa) = Ok o) (combine sts (skipn i answers)) outs.
Proof.
  induction sts as [|st sts IH]; intros answers i outs HI; cbn [amplify_outputs combine length].
  - split; intros H. { injection H as <-. split; [lia|constructor]. } destruct H as [_ H]. inversion H. auto.
  - unfold go_index. destruct (Z.ltb_spec (Z.of_nat i) 0); [lia|]. rewrite Nat2Z.id. destruct (nth_error answers i) as [a|] eqn:EN.
    2:{ apply nth_error_None in EN. cbn [bind]. split; [discriminate|]. intros (X & _). lia. }
    assert (HH : (i < length answers)%nat) by (apply nth_error_Some; congruence). cbn [bind].
    assert (SK : skipn i answers = a :: skipn (S i) answers).
    { clear - EN. revert i EN. induction answers as [|x l IH]; intros [|i] EN; cbn in *; try discriminate; try congruence. apply IH. auto. }
    rewrite SK. cbn [combine]. split.
    + destruct (lwe_reconstruct32 p st a) as [o| | |] eqn:E; try discriminate. intros X. apply bind_ok in X as (r & X & Y). injection Y as <-.
      apply IH in X as (L & F); [|lia]. split; [lia|]. constructor; auto.
    + intros (L & F). inversion F as [|? o ? os X F']; subst. cbn [fst snd] in X. rewrite X. apply bind_ok. exists os. split; auto. apply IH; [lia|]. split; auto. lia.
Qed.

Theorem amplified_client_iff p sts a b : bytes a -> zlen a < 2 ^ 32 ->
  amplify_reconstruct_bytes p sts a = Ok b <->
  exists pieces outs, in_pieces a pieces /\ (forall x, In x pieces -> 8 <= zlen x) /\ (length sts <= length pieces)%nat /\
    Forall2 (fun sx o => lwe_reconstruct_bytes32 p (fst sx) (snd sx) = Ok o) (combine sts pieces) outs /\
    (exists rest, outs = b :: rest) /\ (length outs < 2 * occurrences b outs)%nat.
Proof.
  intros B LA. unfold amplify_reconstruct_bytes. rewrite bind_ok. split.
  - intros (ms & E & H). apply (matrices_iff a ms B LA) in E as (pieces & P & F). unfold amplify_reconstruct in H. apply bind_ok in H as (outs & E2 & H).
    apply outputs_iff in E2 as (L & F2); [|lia]. apply decode_iff in H as (rest & H1 & H2). cbn [skipn] in F2. exists pieces, outs. 
    assert (LF : length pieces = length ms) by (clear - F; induction F; cbn; lia). conj_split; auto; try lia; eauto.
    + clear - F. intros x I. induction F; [destruct I|]. destruct I as [->|I]; auto. destruct (le_lt_dec 8 (length x)); [unfold zlen; lia|].
      assert (X := short32 x ltac:(lia)). rewrite H in X. discriminate.
    + clear - F F2. revert sts outs F2. induction F as [|x m ps ms Hx F IH]; intros [|st sts] outs F2; cbn [combine] in *; inversion F2; subst; constructor; auto.
      cbn [fst snd] in *. unfold lwe_reconstruct_bytes32. rewrite Hx. auto.
  - intros (pieces & outs & P & H8 & L & F & (rest & ->) & Hb).
    assert (exists ms, Forall2 (fun x m => bytes_to_matrix x = Ok m) pieces ms) as (ms & FM).
    { assert (BP : forall x, In x pieces -> bytes x).
      { intros x I. destruct P as (len & r & _ & _ & _ & ->). apply Forall_forall. intros z Iz. apply (proj1 (Forall_forall _ _) B).
        rewrite !in_app_iff. right. left. apply in_concat. eauto. }
      clear - H8 BP. induction pieces as [|x ps IH]. { exists []. constructor. } destruct IH as (ms & IH); try (intros; (apply H8 || apply BP); right; auto).
      destruct (announces x) as (rows & cs & body & E & Hr & Hc & _). { apply BP. left. auto. } { specialize (H8 x (or_introl eq_refl)). unfold zlen in H8. lia. }
      exists (mkM rows cs (bytes_to_uint32_slice body) :: ms). constructor; auto. rewrite E. apply parse32; auto. }
    exists ms. split; [apply (matrices_iff a ms B LA); eauto|]. unfold amplify_reconstruct. rewrite bind_ok. exists (b :: rest). split; [|apply decode_iff; eauto].
    assert (LF : length pieces = length ms) by (clear - FM; induction FM; cbn; lia). apply outputs_iff; [lia|]. split; [lia|]. cbn [skipn].
    clear - F FM. revert sts F. generalize (b :: rest). intros outs sts F. revert sts outs F.
    induction FM as [|x m ps ms Hx FM IH]; intros [|st sts] outs F; cbn [combine] in *; inversion F; subst; constructor; auto.
    cbn [fst snd] in *. unfold lwe_reconstruct_bytes32 in *. rewrite Hx in *. auto.
Qed.
