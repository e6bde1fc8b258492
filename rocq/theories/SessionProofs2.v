(** Facts about started predicate servers and about the start of the front ends. *)
From Coq Require Import String ZArith List Bool Lia Permutation.
From Verif Require Import GoBase BaseFacts FieldModel FSSModel EncodingModel MerkleModel MerkleSpec MerkleProofs PredicateModel PredicateSpec
  PointModel DirectoryModel DirectorySpec DirectoryProofs2 DirectoryProofs4 DirectoryProofs5
  FrontendModel FrontendSpec FrontendProofs FrontendProofs2 FilesModel KeyPageModel KeyPageSpec KeyPageProofs KeyPageProofs3 SessionModel SessionSpec SessionProofs.
Import ListNotations.
Open Scope Z_scope.

Lemma load_service_predicate G H B R auth sid files svc : load_service G H B R (predicate_scheme_name auth) sid files = Ok svc ->
  exists n rows, generate_real_key_db (g_read G) R files = Ok (n, rows) /\ svc = PredicateService (answer_values auth) (sid mod 256) n rows.
Proof.
  unfold load_service. destruct auth; cbn [predicate_scheme_name answer_values].
  - change (bytes_equal (lit "complexVPIR") (lit "pointPIR")) with false. change (bytes_equal (lit "complexVPIR") (lit "pointVPIR")) with false.
    change (bytes_equal (lit "complexVPIR") (lit "complexPIR")) with false. change (bytes_equal (lit "complexVPIR") (lit "complexVPIR")) with true. cbv iota.
    destruct (generate_real_key_db _ _ _) as [[n rows]| | |]; cbn [bind]; intros E; try discriminate. injection E as <-. cbn [fst snd]. eauto.
  - change (bytes_equal (lit "complexPIR") (lit "pointPIR")) with false. change (bytes_equal (lit "complexPIR") (lit "pointVPIR")) with false.
    change (bytes_equal (lit "complexPIR") (lit "complexPIR")) with true. cbv iota.
    destruct (generate_real_key_db _ _ _) as [[n rows]| | |]; cbn [bind]; intros E; try discriminate. injection E as <-. cbn [fst snd]. eauto.
Qed.

Lemma keys_read_same G keys rows rows' : keyring_ok (g_serialize G) (g_read G) -> keys_read G keys rows -> keys_read G keys rows' -> rows = rows'.
Proof. intros K [_ A] [_ B]. pose proof (K _ _ A) as RA. pose proof (K _ _ B) as RB. congruence. Qed.

Lemma started_predicate G H B es auth keys sid m a s : keyring_ok (g_serialize G) (g_read G) -> listed keys -> Forall (filed G) keys ->
  stores keys m -> started_as G H B es (predicate_scheme_name auth) sid m = Ok (a, s) ->
  exists rows, s = PredicateService (answer_values auth) (Z.of_nat sid) (zlen keys) rows /\ keys_read G keys rows.
Proof.
  intros K HL HF (HR & ks & EK & P) E. unfold started_as in E.
  destruct (start_inv _ _ _ _ _ _ _ _ _ _ _ _ _ E) as (addrs & names & _ & _ & EN & EL & (ce & EC) & _).
  pose proof (certificate_range _ _ EC) as R5.
  apply load_service_predicate in EL as (n & rows & EG & ->). unfold server_keys in EK. rewrite EN in EK. cbn [bind] in EK.
  unfold load_files in EK. apply load_inv in EK as (contents & EF & ->). rewrite EF in EG.
  destruct (db_rows (g_lower G) (g_serialize G) (g_read G) keys (mc_runtime m, contents) K HL (conj HR P) HF) as (es' & EG' & M & S).
  cbn [fst snd] in EG'. rewrite EG in EG'. injection EG' as -> ->. exists es'. split; [|split; assumption].
  f_equal. rewrite Z.mod_small; [reflexivity|]. lia.
Qed.

Lemma rows_length G keys rows : keys_read G keys rows -> length rows = length keys.
Proof. intros [M _]. rewrite <- (map_length (primary_email (g_lower G)) rows), M, map_length. reflexivity. Qed.

Lemma started_honest enc H row now fresh other serve (c : list Z) auth sn (keys : list pkey) rows : length rows = length keys ->
  serve c = answer_predicate enc H row now fresh other (PredicateService (answer_values auth) sn (zlen keys) rows) ->
  honest enc H (answer_values auth) (map row rows) serve c sn now fresh.
Proof.
  intros LR E q k. rewrite E. cbn [answer_predicate fst snd]. unfold zlen. rewrite Nat2Z.id, map_length, LR. reflexivity.
Qed.

(** ** the start of a front end *)
Lemma dial_all_inv dial : forall addrs l, dial_all dial addrs = Ok l -> l = addrs /\ Forall (fun a => dial a = Ok tt) addrs.
Proof.
  induction addrs as [|a t IH]; intros l E; cbn [dial_all] in E; [injection E as <-; auto|].
  destruct (dial a) as [u| | |] eqn:ED; cbn [wrap bind] in E; try discriminate. destruct (dial_all dial t) as [l'| | |]; cbn [bind] in E; try discriminate.
  injection E as <-. destruct (IH l' eq_refl) as [-> F]. destruct u. auto.
Qed.
Lemma dial_all_ok dial addrs : Forall (fun a => dial a = Ok tt) addrs -> dial_all dial addrs = Ok addrs.
Proof. induction 1 as [|a t E F IH]; cbn [dial_all]; [reflexivity|]. rewrite E. cbn [wrap bind]. rewrite IH. reflexivity. Qed.
(** the first address that cannot be reached is the one reported *)
Lemma dial_all_fails dial before a after m : Forall (fun a => dial a = Ok tt) before -> dial a = Err m ->
  dial_all dial (before ++ a :: after) = Err ("failed to connect to " ++ (text_of a ++ ": ") ++ m)%string.
Proof.
  intros F E. induction F as [|x t Ex F IH]; cbn [app dial_all].
  - rewrite E. reflexivity.
  - rewrite Ex. cbn [wrap bind]. rewrite IH. reflexivity.
Qed.

Lemma connect_ok certs dial addrs : certs = Ok tt -> Forall (fun a => dial a = Ok tt) addrs -> connect certs dial addrs = Ok addrs.
Proof. intros -> F. unfold connect. cbn [wrap bind]. apply dial_all_ok. exact F. Qed.
Lemma connect_inv certs dial addrs l : connect certs dial addrs = Ok l -> certs = Ok tt /\ l = addrs /\ Forall (fun a => dial a = Ok tt) addrs.
Proof.
  unfold connect. destruct certs as [[]| | |]; cbn [wrap bind]; try discriminate. intros E. split; auto. apply dial_all_inv in E. exact E.
Qed.

Lemma or_die_ok {A} p (r : res A) x : or_die p r = Ok x -> r = Ok x.
Proof. destruct r; cbn; congruence. Qed.

Lemma front_inv static s ps cs : front_start static s = Ok (ps, cs) ->
  load_manager static "VPIR_CONFIG_POINT" builtin_point (st_point s) (st_file s) = Ok ps /\
  load_manager static "VPIR_CONFIG_COMPLEX" builtin_complex (st_complex s) (st_file s) = Ok cs /\
  st_certs s = Ok tt /\ reachable s ps /\ reachable s cs.
Proof.
  unfold front_start. destruct (or_die _ (load_manager static "VPIR_CONFIG_POINT" _ _ _)) as [p| | |] eqn:EP; cbn [bind]; try discriminate.
  destruct (or_die _ (load_manager static "VPIR_CONFIG_COMPLEX" _ _ _)) as [c| | |] eqn:EC; cbn [bind]; try discriminate.
  destruct (or_die _ (connect (st_certs s) (st_dial s) p)) as [ps'| | |] eqn:E1; cbn [bind]; try discriminate.
  destruct (or_die _ (connect (st_certs s) (st_dial s) c)) as [cs'| | |] eqn:E2; cbn [bind]; try discriminate.
  intros E. injection E as <- <-. apply or_die_ok in EP, EC, E1, E2. apply connect_inv in E1 as (H1 & -> & F1). apply connect_inv in E2 as (_ & -> & F2).
  unfold reachable. conj_split; auto.
Qed.

Lemma front_ok static s ps cs :
  load_manager static "VPIR_CONFIG_POINT" builtin_point (st_point s) (st_file s) = Ok ps ->
  load_manager static "VPIR_CONFIG_COMPLEX" builtin_complex (st_complex s) (st_file s) = Ok cs ->
  st_certs s = Ok tt -> reachable s ps -> reachable s cs -> front_start static s = Ok (ps, cs).
Proof.
  intros EP EC E F1 F2. unfold front_start. rewrite EP, EC. cbn [or_die bind]. rewrite !connect_ok by auto. reflexivity.
Qed.
