(** Lemmas about parsing a key dump, writing it out and splitting it. *)
From Coq Require Import String ZArith List Bool Arith Lia Permutation Sorted.
From Verif Require Import GoBase BaseFacts EncodingModel EncodingProofs MerkleModel MerkleProofs PointModel PointSpec
  DirectoryModel DirectorySpec DirectoryProofs.
Import ListNotations.
Open Scope Z_scope.
Open Scope go_scope.

Lemma bytes_equal_refl a : bytes_equal a a = true.
Proof. apply bytes_equal_spec. reflexivity. Qed.
Lemma bytes_equal_neq a b : a <> b -> bytes_equal a b = false.
Proof. intros N. destruct (bytes_equal a b) eqn:E; auto. apply bytes_equal_spec in E. contradiction. Qed.

(** ** the map of keys *)
Lemma key_get_set k e m k' : key_get k' (key_set k e m) = if bytes_equal k' k then Some e else key_get k' m.
Proof.
  induction m as [|(k0, e0) m IH]; cbn [key_set key_get].
  - destruct (bytes_equal k' k); reflexivity.
  - destruct (bytes_equal k k0) eqn:E.
    + apply bytes_equal_spec in E. subst k0. cbn [key_get]. destruct (bytes_equal k' k); reflexivity.
    + cbn [key_get]. destruct (bytes_equal k' k0) eqn:E'.
      * apply bytes_equal_spec in E'. subst k0. rewrite bytes_equal_neq; auto. intros ->. rewrite bytes_equal_refl in E. discriminate.
      * exact IH.
Qed.

Lemma key_set_fst k e m x : In x (map fst (key_set k e m)) -> x = k \/ In x (map fst m).
Proof.
  induction m as [|(k0, e0) m IH]; cbn [key_set map fst In].
  - intuition auto.
  - destruct (bytes_equal k k0) eqn:E; cbn [map fst In].
    + apply bytes_equal_spec in E. subst k0. intuition auto.
    + intuition auto.
Qed.

Lemma key_set_nodup k e m : NoDup (map fst m) -> NoDup (map fst (key_set k e m)).
Proof.
  induction m as [|(k0, e0) m IH]; cbn [key_set map fst]; intros ND.
  - constructor; [tauto|constructor].
  - inversion ND as [|? ? NI ND']; subst. destruct (bytes_equal k k0) eqn:E; cbn [map fst].
    + apply bytes_equal_spec in E. subst k0. constructor; auto.
    + constructor; auto. intros I. apply key_set_fst in I as [->|I]; [|contradiction]. rewrite bytes_equal_refl in E. discriminate.
Qed.

Lemma key_get_In k e m : key_get k m = Some e -> In (k, e) m.
Proof.
  induction m as [|(k0, e0) m IH]; cbn [key_get]; [discriminate|]. destruct (bytes_equal k k0) eqn:E.
  - apply bytes_equal_spec in E. intros X. injection X as <-. subst. left. auto.
  - right. auto.
Qed.

Lemma In_key_get k e m : NoDup (map fst m) -> In (k, e) m -> key_get k m = Some e.
Proof.
  induction m as [|(k0, e0) m IH]; cbn [map fst]; intros ND I; [destruct I|]. inversion ND as [|? ? NI ND']; subst.
  cbn [key_get]. destruct I as [I|I].
  - injection I as -> ->. rewrite bytes_equal_refl. reflexivity.
  - rewrite bytes_equal_neq; auto. intros ->. apply NI. apply in_map_iff. exists (k0, e). auto.
Qed.

(** ** the freshest key *)
Definition better (b : option entity) (e : entity) : option entity :=
  match b with
  | None => Some e
  | Some p => if e_created p <? e_created e then Some e else Some p
  end.
Definition best (l : list entity) : option entity := fold_left better l None.

Lemma best_snoc l e : best (l ++ [e]) = better (best l) e.
Proof. unfold best. rewrite fold_left_app. reflexivity. Qed.

Lemma best_none l : best l = None <-> l = [].
Proof.
  induction l as [|e l _] using rev_ind; [cbn; tauto|]. rewrite best_snoc. split; intros H.
  - destruct (best l) as [p|]; cbn in H; [destruct (_ <? _) in H|]; discriminate.
  - destruct l; discriminate.
Qed.

Lemma best_freshest l e : best l = Some e -> freshest l e.
Proof.
  revert e. induction l as [|x l IH] using rev_ind; intros e H; [discriminate|]. rewrite best_snoc in H.
  destruct (best l) as [p|] eqn:E; cbn [better] in H.
  - destruct (IH p eq_refl) as (b & a & -> & Fb & Fa). destruct (Z.ltb_spec (e_created p) (e_created x)) as [L|L]; injection H as <-.
    + exists (b ++ p :: a), []. split; [reflexivity|]. split; [|constructor].
      apply Forall_app. split; [eapply Forall_impl; [|exact Fb]; cbv beta; intros; lia|].
      constructor; [lia|]. eapply Forall_impl; [|exact Fa]; cbv beta; intros; lia.
    + exists b, (a ++ [x]). split; [rewrite <- app_assoc; reflexivity|]. split; auto.
      apply Forall_app. split; auto.
  - injection H as <-. apply best_none in E. subst l. exists [], []. repeat split; constructor.
Qed.

Lemma freshest_unique l e e' : freshest l e -> freshest l e' -> e = e'.
Proof.
  intros (b & a & E & Fb & Fa) (b' & a' & E' & Fb' & Fa'). subst l. revert b' E' Fb'.
  induction b as [|x b IH]; intros b' E' Fb'; destruct b' as [|x' b']; cbn [app] in E'; injection E' as E1 E2.
  - auto.
  - subst x'. apply Forall_inv in Fb'. rewrite Forall_forall in Fa.
    specialize (Fa e'). rewrite E2 in Fa. specialize (Fa ltac:(apply in_or_app; right; left; auto)). lia.
  - subst x. apply Forall_inv in Fb. rewrite Forall_forall in Fa'.
    specialize (Fa' e). rewrite <- E2 in Fa'. specialize (Fa' ltac:(apply in_or_app; right; left; auto)). lia.
  - apply Forall_inv_tail in Fb. apply Forall_inv_tail in Fb'. apply (IH Fb b'); auto.
Qed.

Lemma best_iff l e : best l = Some e <-> freshest l e.
Proof.
  split; [apply best_freshest|]. intros F. destruct (best l) as [p|] eqn:E.
  - f_equal. apply (freshest_unique l); auto. apply best_freshest. auto.
  - apply best_none in E. subst l. destruct F as ([|] & a & E & _); discriminate.
Qed.

(** ** analysing the dump *)
Lemma candidates_snoc lower es e email : candidates lower (es ++ [e]) email =
  candidates lower es email ++ (if Nat.eqb (e_revocations e) 0 && bytes_equal (primary_email lower e) email then [e] else []).
Proof. unfold candidates. rewrite filter_app. cbn [filter]. reflexivity. Qed.

Lemma analyze_inv lower es : let m := fold_left (save_key_if_valid lower) es [] in
  NoDup (map fst m) /\ key_get [] m = None /\
  forall email, email <> [] -> key_get email m = option_map primary_only (best (candidates lower es email)).
Proof.
  cbv zeta. induction es as [|e es (ND & N0 & IH)] using rev_ind.
  - split; [constructor|]. split; [reflexivity|]. intros; reflexivity.
  - rewrite fold_left_app. cbn [fold_left]. set (m := fold_left (save_key_if_valid lower) es []) in *.
    unfold save_key_if_valid. set (p := primary_email lower e).
    assert (SKIP : e_revocations e <> O \/ p = [] ->
      NoDup (map fst m) /\ key_get [] m = None /\
      forall email, email <> [] -> key_get email m = option_map primary_only (best (candidates lower (es ++ [e]) email))).
    { intros C. conj_split; auto. intros email HE. rewrite candidates_snoc, IH by auto. fold p.
      destruct C as [C|C].
      - apply Nat.eqb_neq in C. rewrite C. cbn [andb]. rewrite app_nil_r. reflexivity.
      - rewrite (bytes_equal_neq p email) by congruence. rewrite andb_false_r, app_nil_r. reflexivity. }
    destruct (Nat.ltb_spec 0 (e_revocations e)) as [R|R]; [apply SKIP; lia|].
    assert (R0 : e_revocations e = O) by lia.
    destruct (bytes_equal p []) eqn:EP; [apply bytes_equal_spec in EP; auto|]. 
    assert (NP : p <> []) by (intros X; rewrite X in EP; discriminate).
    change (mkEntity _ _ _ _ _ _) with (primary_only e).
    assert (G : key_get p m = option_map primary_only (best (candidates lower es p))) by auto.
    assert (OTHER : forall email, email <> [] -> email <> p ->
      option_map primary_only (best (candidates lower (es ++ [e]) email)) = key_get email m).
    { intros email HE HN. rewrite candidates_snoc. fold p. rewrite (bytes_equal_neq p email) by auto. rewrite andb_false_r, app_nil_r. symmetry. auto. }
    assert (SELF : best (candidates lower (es ++ [e]) p) = better (best (candidates lower es p)) e).
    { rewrite candidates_snoc. fold p. rewrite bytes_equal_refl, R0. cbn [Nat.eqb andb]. apply best_snoc. }
    assert (SET : best (candidates lower (es ++ [e]) p) = Some e -> 
      NoDup (map fst (key_set p (primary_only e) m)) /\ key_get [] (key_set p (primary_only e) m) = None /\
      forall email, email <> [] -> key_get email (key_set p (primary_only e) m) = option_map primary_only (best (candidates lower (es ++ [e]) email))).
    { intros BE. split; [apply key_set_nodup; auto|]. split; [rewrite key_get_set, bytes_equal_neq by congruence; auto|].
      intros email HE. rewrite key_get_set. destruct (bytes_equal email p) eqn:EE.
      - apply bytes_equal_spec in EE. subst email. rewrite BE. reflexivity.
      - rewrite OTHER; auto. intros ->. rewrite bytes_equal_refl in EE. discriminate. }
    rewrite G. destruct (best (candidates lower es p)) as [q|] eqn:EB; cbn [option_map].
    + change (e_created (primary_only q)) with (e_created q). change (e_created (primary_only e)) with (e_created e). cbn [better] in SELF.
      destruct (e_created q <? e_created e); auto.
      conj_split; auto. intros email HE. destruct (bytes_equal email p) eqn:EE.
      * apply bytes_equal_spec in EE. subst email. rewrite SELF, G. reflexivity.
      * rewrite OTHER; auto. intros ->. rewrite bytes_equal_refl in EE. discriminate.
    + cbn [better] in SELF. auto.
Qed.

Lemma mapM_id_ok {A} (l : list A) : mapM (fun f : res A => f) (map Ok l) = Ok l.
Proof. induction l as [|x l IH]; cbn [map mapM bind]; [reflexivity|]. rewrite IH. reflexivity. Qed.

Lemma analyze_ok lower contents : exists m, analyze_key_dump lower (map Ok contents) = Ok m /\ NoDup (map fst m) /\
  key_get [] m = None /\
  forall email, email <> [] ->
    (key_get email m = None <-> candidates lower (concat contents) email = []) /\
    forall e', key_get email m = Some e' <-> exists e, freshest (candidates lower (concat contents) email) e /\ e' = primary_only e.
Proof.
  unfold analyze_key_dump. rewrite mapM_id_ok. cbn [bind]. eexists. split; [reflexivity|].
  destruct (analyze_inv lower (concat contents)) as (ND & N0 & G). conj_split; auto.
  intros email HE. rewrite (G email HE). split.
  - rewrite <- best_none. destruct (best _); cbn [option_map]; split; congruence.
  - intros e'. split.
    + destruct (best _) as [e|] eqn:EB; cbn [option_map]; [|discriminate]. intros X. injection X as <-.
      exists e. split; auto. apply best_freshest. auto.
    + intros (e & F & ->). apply best_iff in F. rewrite F. reflexivity.
Qed.

(** ** PrimaryEmail *)
Lemma string_lt_trans a : forall b c, string_lt a b = true -> string_lt b c = true -> string_lt a c = true.
Proof.
  induction a as [|x a IH]; intros [|y b] [|z c] H1 H2; cbn [string_lt] in *; try discriminate; auto.
  apply orb_true_iff in H1. apply orb_true_iff in H2. apply orb_true_iff.
  destruct H1 as [H1|H1]; destruct H2 as [H2|H2].
  - left. apply Z.ltb_lt in H1, H2. apply Z.ltb_lt. lia.
  - apply andb_true_iff in H2 as [E2 H2]. apply Z.eqb_eq in E2. subst z. auto.
  - apply andb_true_iff in H1 as [E1 H1]. apply Z.eqb_eq in E1. subst y. auto.
  - apply andb_true_iff in H1 as [E1 H1]. apply andb_true_iff in H2 as [E2 H2]. right. apply andb_true_iff.
    apply Z.eqb_eq in E1, E2. subst. rewrite Z.eqb_refl. split; auto. eapply IH; eauto.
Qed.

(** the smallest of the non-empty strings seen so far *)
Lemma pick_fold l : forall cur, exists r, fold_left pick_email l cur = r /\
  (r = cur \/ In r l /\ r <> []) /\ (cur <> [] -> string_lt cur r = false /\ r <> []) /\
  (forall x, In x l -> x <> [] -> string_lt x r = false /\ r <> []).
Proof.
  induction l as [|a l IH]; intros cur; cbn [fold_left].
  - exists cur. conj_split; auto. intros H. split; auto. apply string_lt_irrefl. intros x [].
  - destruct (IH (pick_email cur a)) as (r & E & S & C & M). exists r. split; [exact E|].
    assert (P : pick_email cur a = cur /\ (a = [] \/ cur <> [] /\ string_lt a cur = false) \/
                pick_email cur a = a /\ a <> [] /\ (cur = [] \/ string_lt a cur = true)).
    { unfold pick_email. destruct (bytes_equal a []) eqn:Ea.
      - apply bytes_equal_spec in Ea. left. cbn. auto.
      - assert (a <> []) by (intros ->; discriminate). cbn [negb andb]. destruct (bytes_equal cur []) eqn:Ec.
        + apply bytes_equal_spec in Ec. right. cbn. auto.
        + assert (cur <> []) by (intros ->; discriminate). cbn [orb]. destruct (string_lt a cur) eqn:L; [right|left]; auto. }
    assert (TOT : forall x y z, string_lt x y = true -> string_lt y z = false -> string_lt x z = false -> string_lt z y = true).
    { intros x y z XY YZ XZ. destruct (string_lt z y) eqn:ZY; auto. pose proof (string_lt_antisym _ _ YZ ZY). subst z. congruence. }
    destruct P as [(EP & PA)|(EP & NA & PA)]; rewrite EP in *.
    + conj_split; auto.
      * destruct S as [->|[I N]]; auto. right. split; auto. right. auto.
      * intros x [->|I] N; auto. destruct PA as [PA|[NC PA]]; [contradiction|]. destruct (C NC) as [C1 C2]. split; auto.
        destruct (string_lt x r) eqn:XR; auto.
        assert (string_lt r cur = true -> False) by (intros RC; rewrite (string_lt_trans x r cur) in PA; congruence).
        destruct (string_lt r cur) eqn:RC; [tauto|]. pose proof (string_lt_antisym _ _ C1 RC). subst r. congruence.
    + destruct (C NA) as [C1 C2]. conj_split.
      * right. destruct S as [->|[I N]]; split; auto. left; auto. right; auto.
      * intros NC. split; auto. destruct PA as [PA|PA]; [contradiction|].
        destruct (string_lt cur r) eqn:CR; auto. rewrite (string_lt_trans a cur r) in C1; congruence.
      * intros x [<-|I] N; auto.
Qed.

Lemma primary_email_spec lower e :
  (e_primary e <> [] -> primary_email lower e = lower (e_primary e)) /\
  (e_primary e = [] -> (forall x, In x (e_emails e) -> x = []) -> primary_email lower e = lower []) /\
  (e_primary e = [] -> forall x, In x (e_emails e) -> x <> [] ->
     exists y, primary_email lower e = lower y /\ In y (e_emails e) /\ y <> [] /\
       forall z, In z (e_emails e) -> z <> [] -> string_lt z y = false).
Proof.
  unfold primary_email. destruct (pick_fold (e_emails e) (e_primary e)) as (r & E & S & C & M).
  conj_split.
  - intros N. rewrite bytes_equal_neq by auto. reflexivity.
  - intros EP A. rewrite EP in *. rewrite bytes_equal_refl, E. destruct S as [->|[I N]]; auto. rewrite (A r I). reflexivity.
  - intros EP x Hx Nx. rewrite EP in *. rewrite bytes_equal_refl, E. destruct (M x Hx Nx) as [_ NR]. exists r.
    conj_split; auto.
    + destruct S as [->|[I N]]; auto. contradiction.
    + intros z Hz Nz. apply M; auto.
Qed.

Lemma primary_email_order lower e e' : e_primary e = e_primary e' -> Permutation (e_emails e) (e_emails e') ->
  primary_email lower e = primary_email lower e'.
Proof.
  intros EP P. destruct (primary_email_spec lower e) as (A & B & C). destruct (primary_email_spec lower e') as (A' & B' & C').
  destruct (bytes_equal (e_primary e) []) eqn:E.
  - apply bytes_equal_spec in E. assert (E' : e_primary e' = []) by congruence.
    destruct (find (fun x => negb (bytes_equal x [])) (e_emails e)) as [x|] eqn:F.
    + apply find_some in F as [I N]. assert (Nx : x <> []) by (intros ->; discriminate).
      destruct (C E x I Nx) as (y & Ey & Iy & Ny & My).
      destruct (C' E' x (Permutation_in _ P I) Nx) as (y' & Ey' & Iy' & Ny' & My').
      rewrite Ey, Ey'. f_equal. apply string_lt_antisym.
      * apply My'; auto. eapply Permutation_in; eauto.
      * apply My; auto. eapply Permutation_in; [apply Permutation_sym; exact P|auto].
    + assert (AE : forall x, In x (e_emails e) -> x = []).
      { intros x I. pose proof (find_none _ _ F x I) as N. cbv beta in N. apply negb_false_iff in N. apply bytes_equal_spec in N. auto. }
      rewrite B, B'; auto. intros x I. apply AE. eapply Permutation_in; [apply Permutation_sym; exact P|auto].
  - assert (N : e_primary e <> []) by (intros X; rewrite X in E; discriminate). rewrite A, A' by congruence. congruence.
Qed.

(** ** writing *)
Lemma write_ok serialize : forall entries ks, write_keys_on_disk serialize entries = Ok ks ->
  (forall k, In k ks <-> exists e, In (k_id k, e) entries /\ serialize e = Ok (k_packet k) /\ zlen (k_packet k) <= key_size_limit) /\
  (NoDup (map fst entries) -> NoDup (map k_id ks)) /\
  (forall x, In x (map k_id ks) -> In x (map fst entries)).
Proof.
  induction entries as [|(email, e) t IH]; intros ks E; cbn [write_keys_on_disk] in E.
  - injection E as <-. conj_split; auto. intros k. split; [intros []|intros (e & [] & _)].
  - destruct (serialize e) as [buf| | |] eqn:ES; cbn [bind] in E; try discriminate.
    destruct (Z.ltb_spec key_size_limit (zlen buf)) as [L|L].
    + destruct (IH ks E) as (A & N & S). conj_split.
      * intros k. rewrite A. split; intros (e' & I & S' & Z'); exists e'; conj_split; auto.
        { right; auto. } destruct I as [I|I]; auto. injection I as -> ->. assert (buf = k_packet k) by congruence. subst buf. lia.
      * intros ND. inversion ND. auto.
      * intros x Hx. right. auto.
    + destruct (write_keys_on_disk serialize t) as [ks'| | |]; cbn [bind] in E; try discriminate. injection E as <-.
      destruct (IH ks' eq_refl) as (A & N & S). conj_split.
      * intros k. cbn [In]. rewrite A. split.
        -- intros [<-|(e' & I & S' & Z')]; [exists e|exists e']; cbn [k_id k_packet]; auto.
        -- intros (e' & [I|I] & S' & Z'); [left|right; exists e'; auto]. injection I as -> ->. 
           assert (buf = k_packet k) by congruence. subst buf. destruct k; reflexivity.
      * intros ND. cbn [map fst k_id] in ND |- *. inversion ND as [|? ? NI ND']; subst. constructor; auto.
      * intros x [<-|Hx]; [left; auto|right; auto].
Qed.

(** ** splitting *)
Lemma split_concat : forall keys cur w, concat (split_loop keys cur w) = cur ++ keys.
Proof.
  induction keys as [|k keys IH]; intros cur w; cbn [split_loop].
  - destruct (hundred_mb <? w); cbn [concat]; rewrite ?app_nil_r; reflexivity.
  - destruct (hundred_mb <? w); cbn [concat]; rewrite IH; [reflexivity|]. rewrite <- app_assoc. reflexivity.
Qed.

(** the number of bytes counted for a chunk *)
Definition chunk_bytes (c : list pkey) : Z := zsum (map (fun k => zlen (k_packet k) + zlen (k_id k)) c).

Lemma chunk_bytes_snoc c k : chunk_bytes (c ++ [k]) = chunk_bytes c + (zlen (k_packet k) + zlen (k_id k)).
Proof. unfold chunk_bytes. rewrite map_app, zsum_app. cbn [map zsum fold_right]. lia. Qed.

Lemma split_sizes : forall keys cur w, w = chunk_bytes cur -> chunk_bytes (removelast cur) <= hundred_mb ->
  Forall (fun c => chunk_bytes (removelast c) <= hundred_mb) (split_loop keys cur w) /\
  Forall (fun c => hundred_mb < chunk_bytes c) (removelast (split_loop keys cur w)) /\
  split_loop keys cur w <> [].
Proof.
  induction keys as [|k keys IH]; intros cur w EW SM; cbn [split_loop].
  - destruct (Z.ltb_spec hundred_mb w); cbn [removelast]; conj_split; repeat constructor; auto; try discriminate; try lia.
  - destruct (Z.ltb_spec hundred_mb w) as [L|L].
    + destruct (IH [k] (zlen (k_packet k) + zlen (k_id k))) as (A & B & C).
      { unfold chunk_bytes. cbn [map]. unfold zsum. cbn [fold_right]. lia. }
      { cbn [removelast]. change (chunk_bytes []) with 0. unfold hundred_mb. lia. }
      destruct (split_loop keys [k] _) as [|c cs]; [congruence|]. conj_split; [constructor; auto|constructor; auto; lia|discriminate].
    + apply IH; [rewrite chunk_bytes_snoc; lia|]. rewrite removelast_last. lia.
Qed.
