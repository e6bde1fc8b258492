(** Proofs about the Diffie-Hellman server and client on arbitrary messages. *)
From Coq Require Import String ZArith List Bool Lia Arith.
From Verif Require Import GoBase BaseFacts MerkleModel MerkleProofs2 DHModel DHSpec DHProofs DHProofs2 DHProofs3 RobustModel RobustSpec RobustProofs2 RobustProofs3.
Import ListNotations.
Open Scope Z_scope.
Open Scope go_scope.

Section Decode.
Variables (g : group).
Hypothesis (SP : 0 < g_size g).
Let size := Z.to_nat (g_size g).

Lemma size_nat : (0 < size)%nat /\ Z.of_nat size = g_size g.
Proof using SP. unfold size. lia. Qed.

Lemma slice_head (q : list Z) : go_slice q 0 (g_size g) = if (length q <? size)%nat then Panic "slice bounds out of range" else Ok (firstn size q).
Proof using SP.
  pose proof size_nat as [S0 S1]. unfold go_slice, zlen. change (0 <=? 0) with true. destruct (Z.leb_spec 0 (g_size g)); [|lia]. cbn [andb].
  destruct (Z.leb_spec (g_size g) (Z.of_nat (length q))), (Nat.ltb_spec (length q) size); try lia; auto.
  rewrite Z.sub_0_r. reflexivity.
Qed.

(** The three ways decoding ends. *)
Lemma loop_cases : forall f q, Z.of_nat (length q) <= Z.of_nat f * g_size g ->
  (exists es, decodes g q es /\ unmarshal_loop g f q = Ok es) \/
  (undecodable g q /\ unmarshal_loop g f q = Err "unmarshal") \/
  (exists good es rest, q = good ++ rest /\ decodes g good es /\ 0 < zlen rest < g_size g /\ unmarshal_loop g f q = Panic "slice bounds out of range").
Proof using SP.
  pose proof size_nat as [S0 S1].
  induction f as [|f IH]; intros q H.
  { destruct q as [|x q]; cbn [length] in H; [|lia]. left. exists []. split; auto. exists []. split; auto. }
  destruct q as [|x q'] eqn:EQ. { left. exists []. split; auto. exists []. split; auto. }
  assert (U : unmarshal_loop g (S f) q = (s <- go_slice q 0 (g_size g) ;; match g_dec g s with None => Err "unmarshal" | Some e => r <- unmarshal_loop g f (skipn size q) ;; Ok (e :: r) end))
    by (rewrite EQ; reflexivity).
  assert (LQ : (0 < length q)%nat) by (rewrite EQ; cbn; lia). rewrite <- EQ in *. clear EQ x q'. rewrite U, slice_head.
  destruct (Nat.ltb_spec (length q) size).
  { right. right. exists [], [], q. split; auto. split; [exists []; split; auto|]. split; [unfold zlen; lia|auto]. }
  cbn [bind]. assert (LF : zlen (firstn size q) = g_size g) by (unfold zlen; rewrite firstn_length; lia).
  destruct (g_dec g (firstn size q)) as [e|] eqn:ED.
  2:{ right. left. split; auto. exists [], [], (firstn size q), (skipn size q). rewrite firstn_skipn. conj_split; auto. exists []. split; auto. }
  destruct (IH (skipn size q)) as [(es & (ps & E1 & E2) & E3)|[((good & es & bad & rest & E1 & (ps & E2 & E2') & E3 & E4) & E5)|(good & es & rest & E1 & (ps & E2 & E2') & E3 & E4)]].
  { rewrite skipn_length. nia. }
  - left. exists (e :: es). rewrite E3. split; auto. exists (firstn size q :: ps). split; auto. cbn [concat]. rewrite <- E1. symmetry. apply firstn_skipn.
  - right. left. rewrite E5. split; auto. exists (firstn size q ++ good), (e :: es), bad, rest. conj_split; auto.
    + rewrite <- app_assoc, <- E1. symmetry. apply firstn_skipn.
    + exists (firstn size q :: ps). cbn [concat]. rewrite E2. split; auto.
  - right. right. exists (firstn size q ++ good), (e :: es), rest. rewrite E4. conj_split; auto; try lia.
    + rewrite <- app_assoc, <- E1. symmetry. apply firstn_skipn.
    + exists (firstn size q :: ps). cbn [concat]. rewrite E2. split; auto.
Qed.

Lemma decodes_prefix s q es : zlen s = g_size g -> decodes g (s ++ q) es -> exists e es', es = e :: es' /\ g_dec g s = Some e /\ decodes g q es'.
Proof using SP.
  intros L (ps & E & F). destruct F as [|p e ps es (Lp & Dp) F].
  { cbn in E. apply (f_equal (@length Z)) in E. rewrite app_length in E. cbn in E. unfold zlen in L. lia. }
  cbn [concat] in E. assert (X : s = p /\ q = concat ps).
  { apply app_inj_len; auto. unfold zlen in *. lia. }
  destruct X as [-> ->]. exists e, es. split; auto. split; auto. exists ps. auto.
Qed.

(** The three ways exclude each other. *)
Lemma decodes_fun : forall ps q es es', q = concat ps -> Forall2 (fun s e => zlen s = g_size g /\ g_dec g s = Some e) ps es -> decodes g q es' -> es' = es.
Proof using SP.
  intros ps q es es' -> F. revert es'. induction F as [|p e ps es (Lp & Dp) F IH]; intros es' D.
  - destruct D as (ps & E & F). destruct F as [|p e ps es (Lp & Dp) F]; auto. cbn [concat] in E. destruct p; [unfold zlen in Lp; cbn in Lp; lia|discriminate].
  - cbn [concat] in D. apply decodes_prefix in D as (e' & es'' & -> & D1 & D2); auto. rewrite Dp in D1. injection D1 as <-. f_equal. auto.
Qed.
Lemma decodes_not_bad q es : decodes g q es -> ~ undecodable g q.
Proof using SP.
  intros D (good & es' & bad & rest & -> & (ps & -> & F) & L & N). revert es D. induction F as [|p e ps es' (Lp & Dp) F IH]; intros es D.
  - cbn [concat app] in D. apply decodes_prefix in D as (? & ? & ? & X & ?); auto. congruence.
  - cbn [concat] in D. rewrite <- app_assoc in D. apply decodes_prefix in D as (e' & es'' & -> & D1 & D2); auto. eauto.
Qed.

Lemma unmarshal_value q : unmarshal_group_elements g q = unmarshal_loop g (length q) q.
Proof using SP. unfold unmarshal_group_elements. destruct (Z.eqb_spec (g_size g) 0); auto. lia. Qed.

Theorem unmarshal_iff q : 
  (forall es, unmarshal_group_elements g q = Ok es <-> decodes g q es) /\
  (forall e, unmarshal_group_elements g q = Err e <-> e = "unmarshal"%string /\ undecodable g q) /\
  ((forall es, ~ decodes g q es) -> ~ undecodable g q -> is_panic (unmarshal_group_elements g q) = true).
Proof using SP.
  rewrite unmarshal_value. destruct (loop_cases (length q) q) as [(es & D & E)|[(U & E)|(good & es & rest & Q & D & L & E)]]; [nia|..]; rewrite E.
  - conj_split.
    + intros es'. split; intros X. { injection X as <-. auto. } f_equal. destruct D as (ps & Q & F). symmetry. eapply decodes_fun; eauto.
    + intros e. split; [discriminate|]. intros (_ & X). exfalso. eapply decodes_not_bad; eauto.
    + intros X. exfalso. eapply X; eauto.
  - conj_split; try discriminate.
    + intros es. split; [discriminate|]. intros X. exfalso. eapply decodes_not_bad; eauto.
    + intros e. split. { intros X. injection X as <-. auto. } intros (-> & _). auto.
    + intros _ X. contradiction.
  - conj_split; auto.
    + intros es'. split; [discriminate|]. intros X. exfalso. subst q. destruct D as (ps & -> & F). revert es' X. clear E.
      induction F as [|p e ps es (Lp & Dp) F IH]; intros es' D.
      * cbn [concat app] in D. destruct D as (ps & -> & F). destruct F as [|p e ps es (Lp & Dp) F]; [unfold zlen in L; cbn in L; lia|].
        cbn [concat] in L. rewrite zlen_app in L. pose proof (zlen_nonneg (concat ps)). lia.
      * cbn [concat] in D. rewrite <- app_assoc in D. apply decodes_prefix in D as (e' & es'' & -> & D1 & D2); auto. apply (IH es''). auto.
    + intros e. split; [discriminate|]. intros (_ & good' & es' & bad & rest' & Q' & D' & Lb & Nb). exfalso. subst q. destruct D as (ps & -> & F). clear E.
      revert good' es' Q' D'. induction F as [|p e0 ps es (Lp & Dp) F IH]; intros good' es' Q' D'.
      * cbn [concat app] in Q'. apply (f_equal zlen) in Q'. rewrite !zlen_app in Q'. pose proof (zlen_nonneg good'). pose proof (zlen_nonneg rest'). lia.
      * cbn [concat] in Q'. destruct D' as (ps' & -> & F'). destruct F' as [|p' e' ps' es' (Lp' & Dp') F'].
        { cbn [concat app] in Q'. rewrite <- app_assoc in Q'. apply app_inj_len in Q' as [-> _]; [congruence|]. unfold zlen in *. lia. }
        cbn [concat] in Q'. rewrite <- !app_assoc in Q'. apply app_inj_len in Q' as [-> Q']; [|unfold zlen in *; lia]. apply (IH (concat ps') es'); auto. exists ps'. auto.
Qed.

(** ** capacity *)
Lemma loop_fuel f f' q : Z.of_nat (length q) <= Z.of_nat f * g_size g -> Z.of_nat (length q) <= Z.of_nat f' * g_size g -> unmarshal_loop g f q = unmarshal_loop g f' q.
Proof using SP.
  pose proof size_nat as [S0 S1]. revert f' q. induction f as [|f IH]; intros f' q H H'.
  { destruct q; cbn [length] in H; [|lia]. destruct f'; reflexivity. }
  destruct q as [|x q]; [destruct f'; reflexivity|]. destruct f' as [|f']; [cbn [length] in H'; lia|]. cbn [unmarshal_loop].
  destruct (go_slice (x :: q) 0 (g_size g)) eqn:ES; cbn [bind]; auto. destruct (g_dec g a); auto.
  rewrite (IH f'); auto; rewrite skipn_length; fold size; nia.
Qed.

Definition completed (q spare : list Z) : list Z :=
  if missing_bytes g q <=? zlen spare then q ++ firstn (Z.to_nat (missing_bytes g q)) spare else q.

Lemma cap_loop q spare : forall f k, Z.of_nat k * g_size g <= zlen (completed q spare) + g_size g -> zlen q - Z.of_nat k * g_size g < Z.of_nat f ->
  (zlen (completed q spare) <= Z.of_nat k * g_size g \/ Z.of_nat k * g_size g < zlen q) ->
  unmarshal_cap g f (q ++ spare) (zlen q) (Z.of_nat k * g_size g) = unmarshal_loop g f (skipn (k * size) (completed q spare)).
Proof using SP.
  pose proof size_nat as [S0 S1]. pose proof (Z.mod_pos_bound (- zlen q) (g_size g) SP) as MB. fold (missing_bytes g q) in MB.
  assert (MM : exists c, zlen q + missing_bytes g q = c * g_size g).
  { pose proof (Z.div_mod (- zlen q) (g_size g) ltac:(lia)) as DM. fold (missing_bytes g q) in DM. exists (- (- zlen q / g_size g)). lia. }
  destruct MM as (c & MM).
  assert (LC : zlen (completed q spare) = if missing_bytes g q <=? zlen spare then zlen q + missing_bytes g q else zlen q).
  { unfold completed. destruct (Z.leb_spec (missing_bytes g q) (zlen spare)); auto. rewrite zlen_app. f_equal. unfold zlen in *. rewrite firstn_length. lia. }
  induction f as [|f IH]; intros k HK HF HD.
  { cbn [unmarshal_cap]. assert (E : skipn (k * size) (completed q spare) = []); [|rewrite E; reflexivity]. apply skipn_all2.
    destruct HD as [HD|HD]; [|lia]. unfold zlen in HD. nia. }
  cbn [unmarshal_cap]. destruct (Z.ltb_spec (Z.of_nat k * g_size g) (zlen q)) as [HL|HL].
  2:{ assert (E : skipn (k * size) (completed q spare) = []); [|rewrite E; reflexivity]. apply skipn_all2. destruct HD as [HD|HD]; [|lia]. unfold zlen in HD. nia. }
  assert (KC : Z.of_nat k < c) by nia. assert (KC' : (Z.of_nat k + 1) * g_size g <= c * g_size g) by nia.
  assert (NE : (0 < length (skipn (k * size) (completed q spare)))%nat).
  { rewrite skipn_length. assert (Z.of_nat (k * size) < zlen (completed q spare)). { rewrite LC. destruct (_ <=? _); nia. } unfold zlen in *. lia. }
  assert (U : unmarshal_loop g (S f) (skipn (k * size) (completed q spare)) =
     (s <- go_slice (skipn (k * size) (completed q spare)) 0 (g_size g) ;; match g_dec g s with None => Err "unmarshal" | Some e => r <- unmarshal_loop g f (skipn size (skipn (k * size) (completed q spare))) ;; Ok (e :: r) end)).
  { destruct (skipn (k * size) (completed q spare)); [cbn in NE; lia|]. reflexivity. }
  rewrite U, slice_head, skipn_skipn, skipn_length. clear U NE.
  assert (GS : go_slice (q ++ spare) (Z.of_nat k * g_size g) (Z.of_nat k * g_size g + g_size g) =
    if (length (completed q spare) - k * size <? size)%nat then Panic "slice bounds out of range" else Ok (firstn size (skipn (k * size) (completed q spare)))).
  { unfold go_slice. destruct (Z.leb_spec 0 (Z.of_nat k * g_size g)); [|nia]. destruct (Z.leb_spec (Z.of_nat k * g_size g) (Z.of_nat k * g_size g + g_size g)); [|lia]. cbn [andb].
    rewrite zlen_app. replace (Z.of_nat k * g_size g + g_size g - Z.of_nat k * g_size g) with (g_size g) by lia. fold size.
    replace (Z.to_nat (Z.of_nat k * g_size g)) with (k * size)%nat by nia.
    destruct (Nat.ltb_spec (length (completed q spare) - k * size) size) as [HS|HS].
    - destruct (Z.leb_spec (Z.of_nat k * g_size g + g_size g) (zlen q + zlen spare)) as [X|X]; auto. exfalso.
      assert (HS' : zlen (completed q spare) < Z.of_nat k * g_size g + g_size g) by (unfold zlen; nia). rewrite LC in HS'.
      destruct (Z.leb_spec (missing_bytes g q) (zlen spare)); [lia|].
      assert (c <= Z.of_nat k + 1). { assert (c * g_size g < (Z.of_nat k + 2) * g_size g) as Y by lia. apply Z.mul_lt_mono_pos_r in Y; lia. }
      assert (c * g_size g <= (Z.of_nat k + 1) * g_size g) by (apply Z.mul_le_mono_nonneg_r; lia). lia.
    - assert (HS' : Z.of_nat k * g_size g + g_size g <= zlen (completed q spare)) by (unfold zlen; nia). rewrite LC in HS'.
      destruct (Z.leb_spec (Z.of_nat k * g_size g + g_size g) (zlen q + zlen spare)) as [X|X].
      2:{ exfalso. pose proof (zlen_nonneg spare). destruct (Z.leb_spec (missing_bytes g q) (zlen spare)); lia. }
      f_equal. unfold completed. destruct (Z.leb_spec (missing_bytes g q) (zlen spare)) as [Y|Y].
      + rewrite <- (firstn_skipn (Z.to_nat (missing_bytes g q)) spare) at 1. rewrite app_assoc. rewrite skipn_app.
        rewrite firstn_app. replace (size - length (skipn (k * size) (q ++ firstn (Z.to_nat (missing_bytes g q)) spare)))%nat with 0%nat.
        { rewrite firstn_O, app_nil_r. auto. }
        rewrite skipn_length, app_length, firstn_length. unfold zlen in *. nia.
      + rewrite skipn_app, firstn_app. replace (size - length (skipn (k * size) q))%nat with 0%nat; [rewrite firstn_O, app_nil_r; auto|].
        rewrite skipn_length. unfold zlen in *. nia. }
  rewrite GS. destruct (Nat.ltb_spec (length (completed q spare) - k * size) size) as [HS|HS]; auto. cbn [bind]. destruct (g_dec g _); auto.
  assert (HS' : Z.of_nat k * g_size g + g_size g <= zlen (completed q spare)) by (unfold zlen; nia).
  replace (Z.of_nat k * g_size g + g_size g) with (Z.of_nat (S k) * g_size g) by lia. replace (size + k * size)%nat with (S k * size)%nat by lia.
  rewrite IH; [f_equal; f_equal; f_equal; lia|lia|lia|].
  destruct (Z_lt_le_dec (Z.of_nat (S k) * g_size g) (zlen q)) as [X|X]; [right; auto|left]. rewrite LC.
  destruct (Z.leb_spec (missing_bytes g q) (zlen spare)); [|lia]. assert (c <= Z.of_nat (S k)) by nia. nia.
Qed.

Theorem cap_completes q spare : unmarshal_group_elements_cap g q spare = unmarshal_group_elements g (completed q spare).
Proof using SP.
  pose proof size_nat as [S0 S1]. pose proof (Z.mod_pos_bound (- zlen q) (g_size g) SP) as MB. fold (missing_bytes g q) in MB.
  rewrite unmarshal_value. unfold unmarshal_group_elements_cap. destruct (Z.eqb_spec (g_size g) 0); [lia|].
  pose proof (cap_loop q spare (S (length q)) 0) as X. cbn [Nat.mul skipn] in X. rewrite Z.mul_0_l in X.
  rewrite X; auto.
  - apply loop_fuel; [|nia]. unfold completed. destruct (Z.leb_spec (missing_bytes g q) (zlen spare)); [rewrite app_length, firstn_length|]; nia.
  - pose proof (zlen_nonneg (completed q spare)). lia.
  - unfold zlen. lia.
  - destruct (Z_lt_le_dec 0 (zlen q)); auto. left. unfold completed, missing_bytes. assert (zlen q = 0) as -> by (pose proof (zlen_nonneg q); lia).
    change (- 0) with 0. rewrite Z.mod_0_l by lia. cbn [Z.to_nat firstn]. rewrite app_nil_r. destruct (_ <=? _); lia.
Qed.
End Decode.

(** ** the server *)
Lemma row_product_ones g data pos cols elt pts :
  (forall j, (j < cols)%nat -> nth_error data (Z.to_nat pos + j) = Some (nth (Z.to_nat pos + j) data 0)) ->
  0 <= pos ->
  (forall j, (j < cols)%nat -> nth (Z.to_nat pos + j) data 0 = 1 -> elt (Z.of_nat j) = Ok (pts j)) ->
  forall n k d, (k + n = cols)%nat ->
  row_product g data pos elt (Z.of_nat k) n d =
  Ok (fold_left (g_add g) (map pts (filter (fun j => nth (Z.to_nat pos + j) data 0 =? 1) (seq k n))) d).
Proof.
  intros Hd Hp He. induction n; intros k d Hk.
  - reflexivity.
  - cbn [row_product seq filter]. unfold go_index.
    replace (pos + Z.of_nat k <? 0) with false by (symmetry; apply Z.ltb_ge; lia).
    replace (Z.to_nat (pos + Z.of_nat k)) with (Z.to_nat pos + k)%nat by lia.
    rewrite Hd by lia. cbn [bind].
    destruct (Z.eqb_spec (nth (Z.to_nat pos + k) data 0) 1).
    + rewrite He by (auto; lia). cbn [bind]. replace (Z.of_nat k + 1) with (Z.of_nat (S k)) by lia.
      rewrite IHn by lia. reflexivity.
    + cbn [bind]. replace (Z.of_nat k + 1) with (Z.of_nat (S k)) by lia. rewrite IHn by lia. reflexivity.
Qed.

Lemma row_product_missing g data pos cols (input : list (g_elt g)) :
  (forall j, (j < cols)%nat -> nth_error data (Z.to_nat pos + j) = Some (nth (Z.to_nat pos + j) data 0)) ->
  0 <= pos ->
  forall n k d, (k + n = cols)%nat -> (exists j, (k <= j < cols)%nat /\ nth (Z.to_nat pos + j) data 0 = 1 /\ (length input <= j)%nat) ->
  is_panic (row_product g data pos (fun j => go_index input j) (Z.of_nat k) n d) = true.
Proof.
  intros Hd Hp. induction n; intros k d Hk (j & Hj & B & L); [lia|].
  cbn [row_product]. unfold go_index at 1.
  replace (pos + Z.of_nat k <? 0) with false by (symmetry; apply Z.ltb_ge; lia).
  replace (Z.to_nat (pos + Z.of_nat k)) with (Z.to_nat pos + k)%nat by lia.
  rewrite Hd by lia. cbn [bind]. replace (Z.of_nat k + 1) with (Z.of_nat (S k)) by lia.
  destruct (Z.eqb_spec (nth (Z.to_nat pos + k) data 0) 1).
  - unfold go_index at 1. destruct (Z.ltb_spec (Z.of_nat k) 0); [lia|]. rewrite Nat2Z.id.
    destruct (nth_error input k) eqn:E; cbn [bind]; auto. apply IHn; [lia|]. assert (k < length input)%nat by (apply nth_error_Some; congruence).
    exists j. repeat split; auto; lia.
  - cbn [bind]. apply IHn; [lia|]. assert (j <> k) by congruence. exists j. repeat split; auto; lia.
Qed.

Section Server.
Variables (g : group) (db : elliptic) (rows cols : nat).
Hypotheses (G : group_ok g) (T : bit_table db rows cols).

Lemma process_ok es : ones_below db rows cols (length es) ->
  process_rows g db es (0, Z.of_nat rows) = Ok (map (row_sum g (e_entries db) cols (fun j => nth j es (g_id g))) (seq 0 rows)).
Proof using G T.
  destruct T as (R0 & C0 & Er & Ec & L). intros O. unfold process_rows, go_make. destruct (Z.ltb_spec (Z.of_nat rows - 0) 0); [lia|]. cbn [bind].
  rewrite between_nat. rewrite (mapM_ok _ (fun i => row_sum g (e_entries db) cols (fun j => nth j es (g_id g)) (Z.to_nat i))).
  { rewrite map_map. f_equal. apply map_ext. intros. rewrite Nat2Z.id. auto. }
  intros i Hi. apply in_map_iff in Hi as (k & <- & Hk). apply in_seq in Hk. rewrite Nat2Z.id, Ec, Nat2Z.id. change 0 with (Z.of_nat 0) at 1.
  rewrite row_product_ones with (cols := cols) (pts := fun j => nth j es (g_id g)); auto; try lia.
  - rewrite (fold_sum g G), (add_id g G). unfold row_sum, DHSpec.bit_at. do 3 f_equal. apply filter_ext. intros j. rewrite bit_pos. reflexivity.
  - intros j Hj. rewrite <- bit_pos. apply nth_error_nth'. nia.
  - intros j Hj B. rewrite <- bit_pos in B. assert (j < length es)%nat by (apply (O k j); auto; lia). rewrite (go_index_ok _ _ (g_id g)) by (unfold zlen; lia). rewrite Nat2Z.id. auto.
Qed.

Lemma process_missing es : ~ ones_below db rows cols (length es) -> is_panic (process_rows g db es (0, Z.of_nat rows)) = true.
Proof using T.
  destruct T as (R0 & C0 & Er & Ec & L). intros O. unfold process_rows, go_make. destruct (Z.ltb_spec (Z.of_nat rows - 0) 0); [lia|]. cbn [bind].
  rewrite between_nat.
  assert (exists i, (i < rows)%nat /\ exists j, (j < cols)%nat /\ DHSpec.bit_at (e_entries db) cols i j = 1 /\ (length es <= j)%nat) as (i & Hi & j & Hj & B & LJ).
  { destruct (existsb (fun i => existsb (fun j => (DHSpec.bit_at (e_entries db) cols i j =? 1) && (length es <=? j)%nat) (seq 0 cols)) (seq 0 rows)) eqn:E.
    - apply existsb_exists in E as (i & I & E). apply existsb_exists in E as (j & J & E). apply andb_prop in E as [E1 E2]. apply in_seq in I. apply in_seq in J.
      apply Z.eqb_eq in E1. apply Nat.leb_le in E2. exists i. split; [lia|]. exists j. repeat split; auto; lia.
    - exfalso. apply O. intros i j Hi Hj B. destruct (le_lt_dec (length es) j) as [X|X]; auto. exfalso.
      assert (existsb (fun i => existsb (fun j => (DHSpec.bit_at (e_entries db) cols i j =? 1) && (length es <=? j)%nat) (seq 0 cols)) (seq 0 rows) = true); [|congruence].
      apply existsb_exists. exists i. split; [apply in_seq; lia|]. apply existsb_exists. exists j. split; [apply in_seq; lia|].
      rewrite B. apply Nat.leb_le in X. rewrite X. auto. }
  assert (I : In i (seq 0 rows)) by (apply in_seq; lia). 
  assert (A : forall k, In k (seq 0 rows) -> (k < rows)%nat) by (intros k; rewrite in_seq; lia).
  revert I A. generalize (seq 0 rows). intros l. induction l as [|k l IH]; intros I A; [destruct I|]. cbn [map mapM].
  assert (HK : (k < rows)%nat) by (apply A; left; auto).
  assert (ND : forall j, (j < cols)%nat -> nth_error (e_entries db) (Z.to_nat (Z.of_nat k * Z.of_nat cols) + j) = Some (nth (Z.to_nat (Z.of_nat k * Z.of_nat cols) + j) (e_entries db) 0)).
  { intros j' Hj'. rewrite <- bit_pos. apply nth_error_nth'. nia. }
  set (bad := fun r : res (g_elt g) => is_panic r = true \/ is_ok r = true).
  assert (SE : forall data pos n k d, bad (row_product g data pos (fun j => go_index es j) k n d)).
  { intros data pos n. induction n as [|n IHn]; intros k' d; cbn [row_product]; [right; auto|]. unfold go_index at 1.
    destruct (_ <? _); [left; auto|]. destruct (nth_error data _); cbn [bind]; [|left; auto]. destruct (_ =? 1); [|cbn [bind]; apply IHn].
    unfold go_index at 1. destruct (k' <? 0); [left; auto|]. destruct (nth_error es _); cbn [bind]; [|left; auto]. apply IHn. }
  destruct (Nat.eq_dec k i) as [->|NE].
  - assert (P := row_product_missing g (e_entries db) (Z.of_nat i * e_cols db) cols es ltac:(rewrite Ec; exact ND) ltac:(nia) cols 0 (g_id g) ltac:(lia)).
    rewrite Ec in *. rewrite Nat2Z.id in *. change (Z.of_nat 0) with 0 in P.
    destruct (row_product _ _ _ _ _ _ _); cbn [bind]; auto; try (apply P; exists j; rewrite <- bit_pos; repeat split; auto; lia).
    exfalso. assert (X : false = true); [apply P|discriminate]. exists j. rewrite <- bit_pos. repeat split; auto; lia.
  - destruct I as [I|I]; [congruence|]. specialize (SE (e_entries db) (Z.of_nat k * e_cols db) (Z.to_nat (e_cols db)) 0 (g_id g)).
    destruct (row_product _ _ _ _ _ _ _); cbn [bind]; auto; try (destruct SE; discriminate).
    specialize (IH I ltac:(intros; apply A; right; auto)). destruct (mapM _ _); auto.
Qed.

Lemma answer_process es q : unmarshal_group_elements g q = Ok es ->
  dh_answer g db q = (es' <- process_rows g db es (0, Z.of_nat rows) ;; Ok (marshal_group_elements g es')).
Proof using T.
  destruct T as (R0 & C0 & Er & Ec & L). intros E. unfold dh_answer. rewrite E. cbn [bind]. rewrite Er. destruct (Z.ltb_spec (Z.of_nat rows) 1); [lia|].
  change (range (Z.to_nat 1)) with [0%nat]. cbn [mapM]. unfold worker_rows.
  assert (ceil_div (Z.of_nat rows) 1 = Z.of_nat rows) as ->. { unfold ceil_div. rewrite Z.div_1_r. lia. }
  replace (Z.min ((Z.of_nat 0 + 1) * Z.of_nat rows) (Z.of_nat rows)) with (Z.of_nat rows) by lia.
  replace (Z.of_nat 0 * Z.of_nat rows) with 0 by lia. destruct (process_rows _ _ _ _); cbn [bind]; auto. cbn [concat]. rewrite app_nil_r. auto.
Qed.

Theorem dh_answer_iff q :
  (forall a, dh_answer g db q = Ok a <-> exists es, decodes g q es /\ ones_below db rows cols (length es) /\
     a = concat (map (fun i => g_enc g (row_sum g (e_entries db) cols (fun j => nth j es (g_id g)) i)) (seq 0 rows))) /\
  (forall e, dh_answer g db q = Err e <-> e = "unmarshal"%string /\ undecodable g q) /\
  (~ undecodable g q -> (forall es, decodes g q es -> ~ ones_below db rows cols (length es)) -> is_panic (dh_answer g db q) = true).
Proof using G T.
  destruct (unmarshal_iff g (size_pos g G) q) as (U1 & U2 & U3).
  destruct (unmarshal_group_elements g q) as [es|e|s|s] eqn:E.
  - assert (D : decodes g q es) by (apply U1; auto). rewrite (answer_process es q E). 
    assert (UN : forall es', decodes g q es' -> es' = es) by (intros es' X; apply U1 in X; congruence).
    assert (NU : ~ undecodable g q) by (intros X; assert (Y : Ok es = Err (A:=list (g_elt g)) "unmarshal") by (apply U2; auto); discriminate).
    assert (DEC : ones_below db rows cols (length es) \/ ~ ones_below db rows cols (length es)).
    { destruct (process_rows g db es (0, Z.of_nat rows)) as [x| | |] eqn:P.
      - left. intros i j Hi Hj B. destruct (le_lt_dec (length es) j) as [X|X]; auto. exfalso.
        assert (Y := process_missing es ltac:(intros O; specialize (O i j Hi Hj B); lia)). rewrite P in Y. discriminate.
      - right. intros O. rewrite (process_ok es O) in P. discriminate.
      - right. intros O. rewrite (process_ok es O) in P. discriminate.
      - right. intros O. rewrite (process_ok es O) in P. discriminate. }
    destruct DEC as [O|O].
    + rewrite (process_ok es O). cbn [bind]. unfold marshal_group_elements. rewrite map_map. conj_split.
      * intros a. split. { intros X. injection X as <-. eauto. } intros (es' & D' & _ & ->). rewrite (UN es' D'). auto.
      * intros e. split; [discriminate|]. intros (_ & X). contradiction.
      * intros _ X. exfalso. eapply X; eauto.
    + pose proof (process_missing es O) as P. destruct (process_rows _ _ _ _); try discriminate P. cbn [bind]. conj_split; auto.
      * intros a. split; [discriminate|]. intros (es' & D' & O' & _). rewrite (UN es' D') in O'. contradiction.
      * intros e. split; [discriminate|]. intros (_ & X). contradiction.
  - unfold dh_answer. rewrite E. cbn [bind]. destruct (proj1 (U2 e) eq_refl) as [-> U]. conj_split.
    + intros a. split; [discriminate|]. intros (es' & D' & _). apply U1 in D'. discriminate.
    + intros e'. split. { intros X. injection X as <-. auto. } intros (-> & _). auto.
    + intros X. contradiction.
  - unfold dh_answer. rewrite E. cbn [bind]. conj_split; auto.
    + intros a. split; [discriminate|]. intros (es' & D' & _). apply U1 in D'. discriminate.
    + intros e'. split; [discriminate|]. intros X. apply U2 in X. discriminate.
  - exfalso. assert (X : false = true); [|discriminate]. apply U3; [intros es D; apply U1 in D; discriminate|]. intros U.
    assert (Y : Fatal s = Err (A:=list (g_elt g)) "unmarshal") by (apply U2; auto). discriminate.
Qed.

Theorem dh_answer_cap_value q spare : dh_answer_cap g db q spare = dh_answer g db (completed g q spare).
Proof using G. unfold dh_answer_cap, dh_answer. rewrite (cap_completes g (size_pos g G)). auto. Qed.
End Server.

(** ** the client *)
Lemma rows_need g info st rneg ans : forall n i out b, dh_rows g info st rneg ans (Z.of_nat i) n out = Ok b ->
  (i + n <= length ans \/ n = 0)%nat /\ (out = 0 \/ out = 1 -> b = 0 \/ b = 1) /\
  forall k, (k < n)%nat -> exists s d, go_slice (e_sub info) (Z.of_nat (i + k) * g_size g) ((Z.of_nat (i + k) + 1) * g_size g) = Ok s /\ g_dec g s = Some d.
Proof.
  induction n as [|n IH]; intros i out b E; cbn [dh_rows] in E. { injection E as <-. split; auto. split; auto. intros; lia. }
  apply bind_ok in E as (s & Es & E). destruct (g_dec g s) as [d|] eqn:Ed; [|discriminate]. apply bind_ok in E as (x & Ex & E).
  destruct (_ && _) in E; [discriminate|]. replace (Z.of_nat i + 1) with (Z.of_nat (S i)) in E by lia. apply IH in E as (L & B & SL).
  assert (LI : (i < length ans)%nat).
  { unfold go_index in Ex. destruct (Z.ltb_spec (Z.of_nat i) 0); [discriminate|]. rewrite Nat2Z.id in Ex. apply nth_error_Some. destruct (nth_error ans i); congruence. }
  split; [lia|]. split.
  - intros O. apply B. destruct (_ =? _); auto. destruct (g_eqb _ _ _); auto. destruct (g_eqb _ _ _); auto.
  - intros k Hk. destruct k as [|k]. { rewrite Nat.add_0_r. eauto. } replace (i + S k)%nat with (S i + k)%nat by lia. apply SL. lia.
Qed.

Lemma rows_ext g info st rneg ans ans' : forall n i out, (i + n <= length ans)%nat -> 
  dh_rows g info st rneg (ans ++ ans') (Z.of_nat i) n out = dh_rows g info st rneg ans (Z.of_nat i) n out.
Proof.
  induction n as [|n IH]; intros i out H; cbn [dh_rows]; auto. destruct (go_slice _ _ _); cbn [bind]; auto. destruct (g_dec _ _); auto.
  assert (go_index (ans ++ ans') (Z.of_nat i) = go_index ans (Z.of_nat i)) as ->.
  { unfold go_index. destruct (_ <? _); auto. rewrite Nat2Z.id, nth_error_app1 by lia. auto. }
  destruct (go_index _ _); cbn [bind]; auto. destruct (_ && _); auto. replace (Z.of_nat i + 1) with (Z.of_nat (S i)) by lia. apply IH. lia.
Qed.

Theorem dh_client_needs g info st a b : group_ok g -> 0 <= e_rows info -> dh_reconstruct g info st a = Ok b ->
  (b = 0 \/ b = 1) /\ exists es, decodes g a es /\ e_rows info <= zlen es.
Proof.
  intros G R E. unfold dh_reconstruct in E. apply bind_ok in E as (es & Eu & E). apply (unmarshal_iff g (size_pos g G) a) in Eu.
  apply (rows_need g info st _ es (Z.to_nat (e_rows info)) 0) in E as (L & B & _). split; auto. exists es. split; auto. unfold zlen. lia.
Qed.

Theorem dh_client_extra g info st a es extra es' : group_ok g -> decodes g a es -> e_rows info <= zlen es -> decodes g extra es' ->
  dh_reconstruct g info st (a ++ extra) = dh_reconstruct g info st a.
Proof.
  intros G D L D'. unfold dh_reconstruct. pose proof (proj1 (unmarshal_iff g (size_pos g G) a) es) as U. rewrite (proj2 U D).
  assert (DD : decodes g (a ++ extra) (es ++ es')).
  { destruct D as (ps & -> & F). destruct D' as (ps' & -> & F'). exists (ps ++ ps'). split; [rewrite concat_app; auto|]. apply Forall2_app; auto. }
  pose proof (proj1 (unmarshal_iff g (size_pos g G) (a ++ extra)) (es ++ es')) as U'. rewrite (proj2 U' DD). cbn [bind].
  apply (rows_ext g info st _ es es' (Z.to_nat (e_rows info)) 0). unfold zlen in L. lia.
Qed.

(** ** rows of zeros and spare capacity *)
Theorem zero_row_spare g H db spare r t index server b : group_ok g -> short_identity g -> table_ok g H db ->
  (forall s, s <> [] -> g_dec g (g_enc g (g_id g) ++ s) = None) ->
  (exists i, (i < Z.to_nat (e_rows db))%nat /\ forall j, (j < Z.to_nat (e_cols db))%nat -> DHSpec.bit_at (e_entries db) (Z.to_nat (e_cols db)) i j = 0) ->
  dh_session_spare g H db spare server r t index <> Ok b.
Proof.
  intros G SI T PF (i & Hi & Zi) E. unfold dh_session_spare in E. apply bind_ok in E as (u & _ & E). apply bind_ok in E as ((st & q) & _ & E).
  apply bind_ok in E as (a & _ & E). unfold dh_reconstruct in E. apply bind_ok in E as (es & _ & E). cbn [with_spare e_rows] in E.
  set (rows := Z.to_nat (e_rows db)) in *. set (cols := Z.to_nat (e_cols db)) in *.
  apply (rows_need g (with_spare db spare) st _ es rows 0) in E as (_ & _ & S). cbn [with_spare e_sub] in S.
  assert (DI : row_digest g (e_entries db) cols i = g_id g).
  { unfold row_digest, row_sum. assert (filter (fun j => DHSpec.bit_at (e_entries db) cols i j =? 1) (seq 0 cols) = []) as ->; auto.
    assert (A : forall j, In j (seq 0 cols) -> DHSpec.bit_at (e_entries db) cols i j = 0) by (intros j I; apply in_seq in I; apply Zi; lia).
    clear - A. induction (seq 0 cols) as [|j l IH]; auto. cbn [filter]. rewrite A by (left; auto). apply IH. intros; apply A; right; auto. }
  assert (exists i0, (i0 < rows)%nat /\ row_digest g (e_entries db) cols i0 = g_id g /\ forall k, (k < i0)%nat -> row_digest g (e_entries db) cols k <> g_id g) as (i0 & H0 & D0 & M0).
  { clear - G Hi DI. revert Hi DI. induction i as [i IH] using lt_wf_ind. intros Hi DI.
    destruct (existsb (fun k => g_eqb g (row_digest g (e_entries db) cols k) (g_id g)) (seq 0 i)) eqn:E.
    - apply existsb_exists in E as (k & I & E). apply in_seq in I. apply (eqb_spec g G) in E. apply (IH k); auto; lia.
    - exists i. split; auto. split; auto. intros k Hk X. assert (existsb (fun k => g_eqb g (row_digest g (e_entries db) cols k) (g_id g)) (seq 0 i) = true); [|congruence].
      apply existsb_exists. exists k. split; [apply in_seq; lia|]. apply (eqb_spec g G). auto. }
  destruct (S i0 H0) as (s & d & Es & Ed). cbn [Nat.add] in Es.
  pose proof (sub_digests g H db T) as SD. fold rows cols in SD.
  replace rows with (i0 + (1 + (rows - i0 - 1)))%nat in SD by lia. rewrite !seq_app, !map_app, !concat_app in SD. cbn [seq map concat] in SD. rewrite app_nil_r in SD.
  rewrite Nat.add_0_l, D0 in SD.
  set (pre := concat (map (fun i => g_enc g (row_digest g (e_entries db) cols i)) (seq 0 i0))) in SD.
  assert (LP : zlen pre = Z.of_nat i0 * g_size g).
  { unfold pre. rewrite <- map_map. rewrite (enc_len g G).
    - unfold zlen. rewrite map_length, seq_length. lia.
    - apply Forall_map, Forall_forall. intros k I. apply in_seq in I. unfold full. apply (enc_size g G). apply M0. lia. }
  rewrite SD in Es. unfold go_slice in Es. destruct (_ && _) eqn:C in Es; [|discriminate]. injection Es as <-.
  rewrite <- !app_assoc in Ed. rewrite skipn_app in Ed. rewrite skipn_all2 in Ed by (unfold zlen in LP; lia).
  replace (Z.to_nat (Z.of_nat i0 * g_size g) - length pre)%nat with 0%nat in Ed by (unfold zlen in LP; lia). cbn [skipn app] in Ed.
  replace (Z.to_nat ((Z.of_nat i0 + 1) * g_size g - Z.of_nat i0 * g_size g)) with (Z.to_nat (g_size g)) in Ed by lia.
  unfold short_identity, zlen in SI. rewrite firstn_app in Ed. rewrite firstn_all2 in Ed by lia. rewrite PF in Ed; [discriminate|].
  intros X. apply (f_equal (@length Z)) in X. rewrite firstn_length in X. cbn [length] in X.
  apply andb_prop in C as [_ C]. apply Z.leb_le in C. rewrite !zlen_app in C. unfold zlen in *. rewrite !app_length in X. lia.
Qed.
