(** Proofs about connections. *)
From Coq Require Import String ZArith List Bool Lia Arith ZifyNat ZifyBool.
From Verif Require Import GoBase BaseFacts EncodingModel MerkleModel MerkleSpec PointModel PointSpec PointProofs PointProofs2 DirectoryModel DirectorySpec
  DirectoryProofs DirectoryProofs4 FrontendModel KeyPageModel KeyPageProofs SessionModel SessionSpec SessionProofs2 ChannelModel ChannelSpec.
Import ListNotations.
Open Scope Z_scope.
Open Scope go_scope.

(** ** handshakes *)
Lemma bytes_equal_true a b : bytes_equal a b = true -> a = b.
Proof. intros E. destruct (list_eq_dec Z.eq_dec a b) as [|N]; auto. rewrite bytes_equal_neq in E by auto. discriminate. Qed.
Lemma same_names_eq : forall a b, same_names a b = true -> a = b.
Proof.
  induction a as [|x a IH]; intros [|y b] E; cbn [same_names] in E; try discriminate; auto.
  apply andb_true_iff in E as [E1 E2]. apply bytes_equal_true in E1 as ->. f_equal. auto.
Qed.
Lemma same_names_refl a : same_names a a = true.
Proof. induction a as [|x a IH]; cbn [same_names]; auto. rewrite bytes_equal_refl. auto. Qed.
Lemma same_certificate_eq a b : same_certificate a b = true -> a = b.
Proof.
  unfold same_certificate. intros E. rewrite !andb_true_iff in E. destruct E as [[[E1 E2] E3] E4]. apply same_names_eq in E4.
  destruct a, b. cbn in *. f_equal; auto; lia.
Qed.
Lemma same_certificate_refl a : same_certificate a a = true.
Proof. unfold same_certificate. rewrite !Z.eqb_refl, same_names_refl. reflexivity. Qed.

Lemma accepts_inv pool name now p : accepts (pool, name) now p = true ->
  In (p_cert p) pool /\ c_from (p_cert p) <= now <= c_until (p_cert p) /\ In name (c_names (p_cert p)) /\ p_holds p (c_key (p_cert p)) = true.
Proof.
  unfold accepts. cbn [fst snd]. intros E. rewrite !andb_true_iff in E. destruct E as [[[[E1 E2] E3] E4] E5].
  apply existsb_exists in E3 as (c & I & E3). apply same_certificate_eq in E3 as <-.
  apply existsb_exists in E4 as (n & J & E4). apply bytes_equal_true in E4 as <-. repeat split; auto; lia.
Qed.
Lemma accepts_ok pool name now p : In (p_cert p) pool -> c_from (p_cert p) <= now <= c_until (p_cert p) ->
  In name (c_names (p_cert p)) -> p_holds p (c_key (p_cert p)) = true -> accepts (pool, name) now p = true.
Proof.
  intros I T N K. unfold accepts. cbn [fst snd]. rewrite K, andb_true_r.
  rewrite !andb_true_iff. repeat split; try lia.
  - apply existsb_exists. exists (p_cert p). split; auto. apply same_certificate_refl.
  - apply existsb_exists. exists name. split; auto. apply bytes_equal_refl.
Qed.

Lemma server_peer_ok sid : 0 <= sid < 5 -> exists p, server_peer sid = Ok p /\ In (p_cert p) server_public_keys /\
  c_key (p_cert p) = sid /\ p_holds p sid = true /\ (forall t, all_valid t -> c_from (p_cert p) <= t <= c_until (p_cert p)) /\
  c_names (p_cert p) = local_names.
Proof.
  intros R. assert (sid = 0 \/ sid = 1 \/ sid = 2 \/ sid = 3 \/ sid = 4) as C by lia.
  destruct C as [C|[C|[C|[C|C]]]]; subst sid; (eexists; split; [reflexivity|]; cbn [p_cert p_holds c_key c_from c_until c_names fst snd];
    split; [cbn; tauto|]; split; [reflexivity|]; split; [reflexivity|]; split; [unfold all_valid; lia|reflexivity]).
Qed.
Lemma server_peer_range sid p : server_peer sid = Ok p -> 0 <= sid < 5.
Proof.
  unfold server_peer. replace server_certificates with (Ok (combine server_public_keys server_secret_keys)) by reflexivity. cbn [bind].
  unfold go_index. destruct (Z.ltb_spec sid 0); cbn [bind]; [discriminate|].
  destruct (nth_error _ _) eqn:E; cbn [bind]; [|discriminate]. intros _.
  apply (f_equal (fun o => match o with Some _ => true | None => false end)) in E.
  assert (nth_error (combine server_public_keys server_secret_keys) (Z.to_nat sid) <> None) as NN by (intros X; rewrite X in E; discriminate).
  apply nth_error_Some in NN. cbn in NN. lia.
Qed.
Lemma server_accepted sid p t : server_peer sid = Ok p -> all_valid t -> accepts (server_public_keys, lit "127.0.0.1") t p = true.
Proof.
  intros E V. destruct (server_peer_ok sid (server_peer_range _ _ E)) as (p' & E' & I & K & Hh & T & N). rewrite E in E'. injection E' as <-.
  apply accepts_ok; auto. rewrite N. cbn. tauto. rewrite K. auto.
Qed.
Lemma certificate_facts c : In c server_public_keys -> 0 <= c_key c < 5 /\ 1728729074 <= c_from c /\ c_until c <= last_valid /\
  In (lit "127.0.0.1") (c_names c) /\ nth_error server_public_keys (Z.to_nat (c_key c)) = Some c.
Proof.
  unfold last_valid. cbn [server_public_keys In].
  intros [<-|[<-|[<-|[<-|[<-|[]]]]]]; cbn [c_key c_from c_until c_names local_names In];
    (split; [lia|]; split; [lia|]; split; [lia|]; split; [tauto|reflexivity]).
Qed.

(** ** dialing *)
Definition creds : list certificate * list Z := (server_public_keys, lit "127.0.0.1").

Lemma dial_ok net a : answers_at net a (fun t p => accepts creds t p = true) -> dial creds net a = Ok tt.
Proof.
  intros (t & p & I & E). unfold dial. rewrite (proj2 (existsb_exists _ _)); auto. exists (t, Some p). split; auto.
Qed.
Lemma dial_inv net a : dial creds net a = Ok tt -> answers_at net a (fun t p => accepts creds t p = true).
Proof.
  unfold dial. destruct (existsb _ _) eqn:E; [|discriminate]. intros _. apply existsb_exists in E as ([t [p|]] & I & E); [|discriminate].
  exists t, p. auto.
Qed.
Lemma dial_cases net a : dial creds net a = Ok tt \/ dial creds net a = Err "context deadline exceeded".
Proof. unfold dial. destruct (existsb _ _); auto. Qed.
Lemma dial_fails net a : only_at net a (fun t p => accepts creds t p = false) -> dial creds net a = Err "context deadline exceeded".
Proof.
  intros O. destruct (dial_cases net a) as [E|E]; auto. apply dial_inv in E as (t & p & I & E). rewrite (O t p I) in E. discriminate.
Qed.
Lemma runs_dial net sid a : runs_at net sid a -> dial creds net a = Ok tt.
Proof. intros (t & p & I & V & E). apply dial_ok. exists t, p. split; auto. eapply server_accepted; eauto. Qed.

(** ** clients *)
Lemma mem_bytes a l : existsb (bytes_equal a) l = true <-> In a l.
Proof.
  rewrite existsb_exists. split.
  - intros (x & I & E). apply bytes_equal_true in E as <-. auto.
  - intros I. exists a. split; auto. apply bytes_equal_refl.
Qed.
Lemma connect_each_ok dl : forall addrs conns, Forall (fun a => dl a = Ok tt) addrs -> NoDup (conns ++ addrs) ->
  connect_each dl addrs conns = Ok (conns ++ addrs).
Proof.
  induction addrs as [|a t IH]; intros conns F ND; cbn [connect_each]. { rewrite app_nil_r. reflexivity. }
  inversion F as [|x l E F']; subst. rewrite E. cbn [wrap bind]. unfold connection_set.
  assert (NI : existsb (bytes_equal a) conns = false).
  { destruct (existsb _ _) eqn:X; auto. apply mem_bytes in X. apply NoDup_remove in ND as [_ ND]. exfalso. apply ND. apply in_or_app. auto. }
  rewrite NI, IH; auto. rewrite <- app_assoc. reflexivity. rewrite <- app_assoc. exact ND.
Qed.
Lemma NoDup_snoc {A} (l : list A) a : NoDup l -> ~ In a l -> NoDup (l ++ [a]).
Proof.
  intros ND NI. induction l as [|c l IH]; cbn [app]. { constructor; [intros []|constructor]. }
  inversion ND; subst. cbn [In] in NI. constructor. { rewrite in_app_iff. cbn [In]. intuition. } apply IH; auto.
Qed.
Lemma connect_each_inv dl : forall addrs conns l, connect_each dl addrs conns = Ok l ->
  Forall (fun a => dl a = Ok tt) addrs /\ (forall a, In a l <-> In a conns \/ In a addrs) /\ (NoDup conns -> NoDup l).
Proof.
  induction addrs as [|a t IH]; intros conns l E; cbn [connect_each] in E.
  { injection E as <-. split; auto. split; auto. intros x. cbn [In]. tauto. }
  destruct (dl a) as [[]| | |] eqn:ED; cbn [wrap bind] in E; try discriminate. apply IH in E as (F & M & ND).
  unfold connection_set in M, ND. split; auto. destruct (existsb (bytes_equal a) conns) eqn:X.
  - apply mem_bytes in X. split; auto. intros x. rewrite M. cbn [In]. split; intuition subst; auto.
  - assert (~ In a conns) by (intros I; apply mem_bytes in I; congruence).
    split.
    + intros x. rewrite M. rewrite in_app_iff. cbn [In]. tauto.
    + intros ND'. apply ND. apply NoDup_snoc; auto.
Qed.
Lemma connect_each_fails dl : forall addrs conns, (forall a, dl a = Ok tt \/ dl a = Err "context deadline exceeded"%string) ->
  Exists (fun a => dl a <> Ok tt) addrs -> exists m, connect_each dl addrs conns = Err m.
Proof.
  induction addrs as [|a t IH]; intros conns C X; [inversion X|]. cbn [connect_each].
  destruct (C a) as [E|E]; rewrite E; cbn [wrap bind]; [|eexists; reflexivity].
  apply IH; auto. inversion X; subst; [congruence|auto].
Qed.

Lemma front_dial net point complex file : st_dial (startup_on net point complex file) = (fun a => dial creds net a) /\
  st_certs (startup_on net point complex file) = Ok tt.
Proof. split; reflexivity. Qed.

Lemma static_manager variable builtin path file : load_manager static_config variable builtin path file = Ok builtin.
Proof. unfold load_manager, static_config. cbn [negb]. rewrite andb_false_r. reflexivity. Qed.

(** a front end whose connections cannot all be made ends *)
Lemma connect_fails net addrs : Exists (fun a => dial creds net a <> Ok tt) addrs -> exists m, connect (Ok tt) (fun a => dial creds net a) addrs = Err m.
Proof.
  intros X. unfold connect. cbn [wrap bind]. induction addrs as [|a t IH]; [inversion X|]. cbn [dial_all].
  destruct (dial_cases net a) as [E|E]; rewrite E; cbn [wrap bind]; [|eexists; reflexivity].
  assert (Exists (fun a => dial creds net a <> Ok tt) t) as Y by (inversion X; subst; [congruence|auto]).
  destruct (IH Y) as (m & ->). cbn [bind]. eexists. reflexivity.
Qed.
Lemma connect_cases net addrs : connect (Ok tt) (fun a => dial creds net a) addrs = Ok addrs \/
  exists m, connect (Ok tt) (fun a => dial creds net a) addrs = Err m.
Proof.
  assert (C : Exists (fun a => dial creds net a <> Ok tt) addrs \/ Forall (fun a => dial creds net a = Ok tt) addrs).
  { induction addrs as [|a t IH]; [right; constructor|]. destruct (dial_cases net a) as [E|E].
    - destruct IH; [left; apply Exists_cons_tl; auto|right; constructor; auto].
    - left. constructor. rewrite E. discriminate. }
  destruct C as [X|X]; [right; apply connect_fails; auto|left; apply connect_ok; auto].
Qed.

(** ** what the queries tell *)
Lemma NoDup_filter_one {A} (f : A -> bool) l x : NoDup l -> In x l -> (forall y, In y l -> (f y = true <-> y = x)) -> filter f l = [x].
Proof.
  induction l as [|a l IH]; intros ND I S; [destruct I|]. inversion ND; subst. cbn [filter].
  destruct (f a) eqn:E.
  - assert (a = x) as -> by (apply S; cbn; auto). f_equal.
    assert (N : forall y, In y l -> f y = false).
    { intros y Iy. destruct (f y) eqn:Ey; auto. assert (y = x) as -> by (apply S; cbn; auto). contradiction. }
    clear - N. induction l as [|b l IH]; cbn [filter]; auto. rewrite (N b) by (cbn; auto). apply IH. intros y Iy. apply N. cbn. auto.
  - destruct I as [<-|I]. { assert (f a = true) by (apply S; cbn; auto). congruence. } apply IH; auto. intros y Iy. apply S. cbn. auto.
Qed.

Lemma query_bit_parity D inf rnd index n ix qs : dpf_ok D -> 0 < i_cols inf < 2 ^ 62 -> 0 <= index -> 1 <= n ->
  enough_random (i_cols inf) n rnd -> pir_query D inf rnd index n = Ok (ix, qs) ->
  forall j, 0 <= j < i_cols inf ->
  fold_right xorb false (map (fun q => query_bit q (Z.to_nat j)) (opened D (i_cols inf) qs)) = (j =? index mod i_cols inf).
Proof.
  intros HD Hc Hi Hn HR E j Hj. pose proof (Z.mod_pos_bound index (i_cols inf) ltac:(lia)) as B.
  destruct (Z.eq_dec n 2) as [->|N2].
  - unfold pir_query, invalid_query_inputs_it in E. destruct (Z.ltb_spec index 0); [lia|]. cbn [andb] in E. unfold vector_to_matrix_indices in E.
    destruct (Z.eqb_spec (i_cols inf) 0); [lia|]. cbn [bind] in E. rewrite Z.quot_div_nonneg, Z.rem_mod_nonneg in E by lia. cbn [Z.eqb Pos.eqb] in E.
    destruct (bits_len_spec (i_cols inf) ltac:(lia)) as [L1 L2]. unfold u64, w64 in E. rewrite (Z.mod_small (index mod i_cols inf)) in E by lia.
    destruct (HD (index mod i_cols inf) (bits_len (i_cols inf)) L1 ltac:(lia)) as (k0 & k1 & EG & EV). rewrite EG in E. cbn [bind fst snd] in E.
    injection E as <- <-. cbn [opened map fold_right]. rewrite xorb_false_r. destruct (EV (Z.to_nat j) ltac:(lia)) as (_ & _ & X).
    rewrite X, Z2Nat.id by lia. reflexivity.
  - destruct HR as [HR|HR]; [lia|]. rewrite query_ok in E by (auto; lia). injection E as <- <-.
    set (l := shares _ _ _ _).
    assert (LL : length l = S (Z.to_nat (n - 1))) by apply shares_length.
    assert (O : opened D (i_cols inf) l = l).
    { destruct l as [|a [|b [|c l]]]; cbn [opened]; auto. cbn [length] in LL. lia. }
    rewrite O. change (parity (map (fun q => query_bit q (Z.to_nat j)) l) = (j =? index mod i_cols inf)). unfold l.
    rewrite shares_parity.
    + destruct (Nat.eqb_spec (Z.to_nat j) (Z.to_nat (index mod i_cols inf))), (Z.eqb_spec j (index mod i_cols inf)); auto; lia.
    + apply iy_in_vector; lia.
    + unfold zlen, query_bytes in *. nia.
Qed.

Lemma selected_one D inf rnd index n ix qs : dpf_ok D -> 0 < i_cols inf < 2 ^ 62 -> 0 <= index -> 1 <= n ->
  enough_random (i_cols inf) n rnd -> pir_query D inf rnd index n = Ok (ix, qs) ->
  selected (i_cols inf) (opened D (i_cols inf) qs) = [index mod i_cols inf].
Proof.
  intros HD Hc Hi Hn HR E. pose proof (Z.mod_pos_bound index (i_cols inf) ltac:(lia)) as B. unfold selected.
  assert (IN : forall j, In j (map Z.of_nat (seq 0 (Z.to_nat (i_cols inf)))) <-> 0 <= j < i_cols inf).
  { intros j. rewrite in_map_iff. split. { intros (k & <- & I). apply in_seq in I. lia. }
    intros R. exists (Z.to_nat j). rewrite in_seq. lia. }
  apply NoDup_filter_one.
  - apply FinFun.Injective_map_NoDup; [intros a b X; lia|apply seq_NoDup].
  - apply IN. auto.
  - intros j I. rewrite (query_bit_parity D inf rnd index n ix qs) by (auto; apply IN; auto). lia.
Qed.

(** ** lookups *)
Lemma actor_same G H B D inf rnd servers1 servers2 arrive id h ix qs : length servers1 = length servers2 ->
  hash_to_index B id (i_rows inf * i_cols inf) = Ok h ->
  pir_query_bytes D inf rnd (be_enc 4 (u32 h)) (zlen servers1) = Ok (ix, qs) -> ask servers1 qs = ask servers2 qs ->
  actor_get_key G H B D inf rnd servers1 arrive id = actor_get_key G H B D inf rnd servers2 arrive id.
Proof.
  intros L EH EQ A. unfold actor_get_key. rewrite EH. cbn [bind]. replace (zlen servers2) with (zlen servers1) by (unfold zlen; lia).
  rewrite EQ. cbn [wrap bind]. rewrite A. reflexivity.
Qed.
Lemma sends_inv B D infos rnd n id qs : lookup_sends B D infos rnd n id = Ok qs ->
  exists is d h ix, get_db_infos infos = Ok is /\ go_index is 0 = Ok d /\ hash_to_index B id (i_rows (info_of d) * i_cols (info_of d)) = Ok h /\
    pir_query_bytes D (info_of d) rnd (be_enc 4 (u32 h)) n = Ok (ix, qs).
Proof.
  unfold lookup_sends. destruct (get_db_infos infos) as [is| | |] eqn:EI; cbn [bind]; try discriminate.
  destruct (go_index is 0) as [d| | |] eqn:ED; cbn [bind]; try discriminate. cbv zeta.
  destruct (hash_to_index _ _ _) as [h| | |] eqn:EH; cbn [bind]; try discriminate.
  destruct (pir_query_bytes _ _ _ _ _) as [[ix l]| | |] eqn:EQ; cbn [wrap bind snd]; try discriminate. intros E. injection E as ->.
  exists is, d, h, ix. auto.
Qed.
Lemma ask_agree : forall servers1 servers2 qs, length servers1 = length servers2 ->
  (forall m, (m < length servers1)%nat -> nth m servers1 (fun _ => Err "") (nth m qs []) = nth m servers2 (fun _ => Err "") (nth m qs [])) ->
  ask servers1 qs = ask servers2 qs.
Proof.
  induction servers1 as [|s1 t1 IH]; intros [|s2 t2] qs L A; cbn [length] in L; try discriminate; auto. destruct qs as [|q qs]; auto.
  cbn [ask]. pose proof (A 0%nat ltac:(cbn; lia)) as A0. cbn [nth] in A0. rewrite A0. destruct (s2 q); auto.
  rewrite (IH t2 qs) by (auto; intros m Hm; exact (A (S m) ltac:(cbn; lia))). reflexivity.
Qed.
Lemma ask_refused : forall servers qs m x, (m < length servers)%nat -> length qs = length servers ->
  nth m servers (fun _ => Err "") (nth m qs []) = Err x -> ask servers qs = Fatal "could not query".
Proof.
  induction servers as [|s t IH]; intros [|q qs] m x Hm L E; cbn [length] in *; try lia. cbn [ask]. destruct m as [|m]; cbn [nth] in E.
  - rewrite E. reflexivity.
  - destruct (s q); auto. rewrite (IH qs m x) by (auto; lia). reflexivity.
Qed.
