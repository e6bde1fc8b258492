(** Property C126: predicate queries as bytes. Vocabulary in GobSpec.v. *)
From Coq Require Import String ZArith List Bool Lia Permutation.
From Verif Require Import GoBase BaseFacts FieldModel FSSModel FSSProofs EncodingModel EncodingProofs MerkleModel MerkleSpec PredicateModel PredicateSpec
  PointModel DirectoryModel DirectorySpec FrontendModel FrontendSpec FilesModel FilesSpec KeyPageModel KeyPageSpec
  SessionModel SessionSpec SessionProofs SessionProofs2 WireModel WireSpec EndToEndSpec EndToEndProofs CountSpec CountProofs GobModel GobSpec GobProofs GobProofs2
  ToyInstances ToyPoint ToyDirectory Properties_Predicate Properties_KeyPage Properties_Session Properties_Wire Properties_EndToEnd Properties_Count.
Import ListNotations.
Open Scope Z_scope.
Open Scope go_scope.

(** What is encoded in one process and decoded in another is the same question, and the same query, whatever follows. *)
Theorem C126_requests_arrive : forall g g', speaks g g' ->
  (forall q more, client_fits q -> exists b, encode_client g q = Ok b /\ decode_client g' (b ++ more) = Ok q) /\
  (forall q more, server_fits q -> exists b, encode_server g q = Ok b /\ decode_server g' (b ++ more) = Ok q).
Proof.
  intros g g' (UC & US). split; intros q more F.
  - destruct (client_arrives g g' q more UC F) as (b & E & _ & D). exists b. auto.
  - destruct (server_arrives g g' q more US F) as (b & E & _ & D). exists b. auto.
Qed.
Print Assumptions C126_requests_arrive.

(** A query that is cut off anywhere is refused with an error: it is not taken for another query. *)
Theorem C126_truncated_requests_refused : forall g g' q b part rest, speaks g g' -> server_fits q ->
  encode_server g q = Ok b -> b = part ++ rest -> rest <> [] -> fails (decode_server g' part).
Proof. intros g g' q b part rest (_ & U) F E EP N. destruct (truncated_refused g (is_server g') g' q b part rest U F E EP N) as (e & X). exists e. exact X. Qed.
Print Assumptions C126_truncated_requests_refused.

(** Servers that decode the queries themselves, reached through the network: the front ends and the command line client give the same
    results as if questions, queries and keys were handed over as they are. *)
Theorem C126_results_unchanged :
  forall C E g g' (h : C -> server_fss -> res (list Z)) enc alphas r conns arrive q inp,
  gzip_ok E -> speaks g g -> (forall c, In c conns -> speaks g (g' c)) -> (forall c x a, h c x = Ok a -> small a) ->
  cipher_ok enc -> rand_ok r -> zlen alphas <= 1000 -> client_fits (Some (q, []), inp) ->
  let serve c := over_network E (fun b => x <- decode_server (g' c) b ;; h c x) in
  let direct c (qk : qinfo * fss_key) := to_option (h c (Some (fst qk, []), snd qk)) in
  (forall infos, execute_stats_bytes g enc alphas r infos serve conns arrive q inp = execute_stats enc alphas r infos direct conns arrive q inp) /\
  (forall H e f, cli_query H f = Ok (q, inp) -> cli_complex_bytes g enc H e alphas r serve conns arrive f = cli_complex enc H e alphas r direct conns arrive f).
Proof.
  intros C E g g' h enc alphas r conns arrive q inp GZ (UC & US) SP SM HC HR LA F. cbv zeta.
  destruct (client_arrives g g (Some (q, []), inp) [] UC F) as (b & EB & _ & DB). rewrite app_nil_r in DB.
  assert (FI : info_fits (q, [])) by (apply (proj1 F); reflexivity).
  assert (A : forall e n, ask_bytes g enc e alphas r (fun c => over_network E (fun b => x <- decode_server (g' c) b ;; h c x)) conns arrive n b =
    exchange enc e alphas r (fun c (qk : qinfo * fss_key) => to_option (h c (Some (fst qk, []), snd qk))) conns arrive n q inp).
  { intros e n. apply ask_same; auto. intros c k b' IC FK _ EB'. exact (network_same E g (g' c) (h c) q k b' GZ (proj2 (SP c IC)) FI FK (SM c) EB'). }
  split.
  - intros infos. unfold execute_stats_bytes, execute_stats. unfold full_info, client_fss in *. rewrite EB. cbn [bind]. destruct (get_db_infos infos); cbn [bind]; auto.
  - intros H e f EF. unfold cli_complex_bytes, cli_complex. rewrite EF. cbn [bind fst snd]. unfold full_info, client_fss in *. rewrite EB. cbn [bind]. apply A.
Qed.
Print Assumptions C126_results_unchanged.

(** Two servers started for counting, each answering the bytes it receives: the same for the questions of a user. *)
Lemma started_exec :
  forall E D g g0 g1 enc H row now0 now1 fresh0 fresh1 o0 o1 (s0 s1 : list Z * service) serve serve' e alphas r arrive n q inp b values col0 col1 rows0 rows1,
  gzip_ok E -> speaks g g -> speaks g g0 -> speaks g g1 -> cipher_ok enc -> rand_ok r -> zlen alphas <= 1000 -> client_fits (Some (q, []), inp) ->
  serve (fst s0) = over_network E (service_bytes g0 D enc H row now0 fresh0 (snd s0)) -> serve (fst s1) = over_network E (service_bytes g1 D enc H row now1 fresh1 (snd s1)) ->
  serve' (fst s0) = answer_predicate enc H row now0 fresh0 o0 (snd s0) -> serve' (fst s1) = answer_predicate enc H row now1 fresh1 o1 (snd s1) ->
  snd s0 = PredicateService values 0 col0 rows0 -> snd s1 = PredicateService values 1 col1 rows1 -> (values <= 5)%nat -> decode_client g b = Ok (Some (q, []), inp) ->
  ask_bytes g enc e alphas r serve [fst s0; fst s1] arrive n b = exchange enc e alphas r serve' [fst s0; fst s1] arrive n q inp.
Proof.
  intros E D g g0 g1 enc H row now0 now1 fresh0 fresh1 o0 o1 s0 s1 serve serve' e alphas r arrive n q inp b values col0 col1 rows0 rows1
    GZ (UC & US) (UC0 & US0) (UC1 & US1) HC HR LA F E0 E1 E0' E1' S0 S1 V DB.
  assert (FI : info_fits (q, [])) by (apply (proj1 F); reflexivity).
  apply ask_same; auto. intros c k b' [<-|[<-|[]]] FK _ EB.
  - rewrite E0, E0', S0. eapply service_same; eauto.
  - rewrite E1, E1', S1. eapply service_same; eauto.
Qed.

Lemma email_fits H at_end text inp : zlen text <= 1000000 -> to_email_client H (email_query at_end false text) text = Ok inp -> text <> [] ->
  client_fits (Some (email_query at_end false text, []), inp).
Proof.
  intros L E N. pose proof (zlen_nn text) as ZN. assert (Z0 : zlen text <> 0) by (destruct text; [congruence|unfold zlen; cbn [length]; lia]).
  split; cbn [fst snd].
  - intros i EI. injection EI as <-. unfold info_fits, email_query. destruct at_end; cbn [fst snd q_target q_from_start q_from_end]; change (zlen (@nil Z)) with 0; unfold target_userid; lia.
  - unfold to_email_client, id_for_email, email_query in E. destruct at_end; cbn [q_from_start q_from_end] in E.
    + change (negb (0 =? 0)) with false in E. cbv iota in E. replace (zlen text =? 0) with false in E by (symmetry; apply Z.eqb_neq; lia). cbn [negb] in E.
      replace (zlen text <? zlen text) with false in E by (symmetry; apply Z.ltb_ge; lia).
      destruct (go_slice text _ _) as [s| | |] eqn:G; try discriminate. cbn [bind opt_bits] in E. injection E as <-.
      assert (LS : (length s <= length text)%nat). { unfold go_slice in G. destruct (_ && _)%bool; [|discriminate]. injection G as <-. rewrite firstn_length, ?skipn_length. lia. }
      unfold zlen in *. rewrite byte_to_bits_length. lia.
    + replace (zlen text =? 0) with false in E by (symmetry; apply Z.eqb_neq; lia). cbn [negb] in E.
      replace (zlen text <? zlen text) with false in E by (symmetry; apply Z.ltb_ge; lia).
      destruct (go_slice text _ _) as [s| | |] eqn:G; try discriminate. cbn [bind opt_bits] in E. injection E as <-.
      assert (LS : (length s <= length text)%nat). { unfold go_slice in G. destruct (_ && _)%bool; [|discriminate]. injection G as <-. rewrite firstn_length, ?skipn_length. lia. }
      unfold zlen in *. rewrite byte_to_bits_length. lia.
Qed.

Lemma counting_described E values sn n rows : gzip_ok E -> utf8_ok E ->
  remote_description E (database_info (PredicateService values sn n rows)) = Some (database_info (PredicateService values sn n rows)).
Proof.
  intros GZ U. apply WireProofs.description_ok; auto. unfold sendable, database_info. cbn [di_rows di_cols di_bs di_plen di_type di_root].
  assert (0 <= u32 n < 2 ^ 32) by (unfold u32, w32; apply Z.mod_pos_bound; lia). conj_split; try lia.
  - apply U. constructor.
  - unfold zlen. cbn [length]. lia.
Qed.

(** From the published dumps to the number shown, with every description, question, query and answer travelling as bytes: the web page ... *)
Theorem C126_page_counts_published_keys :
  forall E D g g0 g1 enc H G B config d es keys people m0 m1 s0 s1 row rows now0 now1 fresh0 fresh1 alphas r serve described arrive (at_end : bool) text,
  gzip_ok E -> utf8_ok E -> speaks g g -> speaks g g0 -> speaks g g1 ->
  cipher_ok enc -> hash_ok H -> keyring_ok (g_serialize G) (g_read G) ->
  is_directory d -> published d es -> directory_of_dump G es keys -> current G es people -> small_dump keys -> zlen keys < ModP ->
  prepared G d m0 -> prepared G d m1 ->
  started_as G H B config (lit "complexVPIR") 0 m0 = Ok s0 -> started_as G H B config (lit "complexVPIR") 1 m1 = Ok s1 -> fst s0 <> fst s1 ->
  keys_read G keys rows -> (forall e, ki_email (row e) = e_primary e) -> Forall record_ok (map row rows) ->
  serve (fst s0) = over_network E (service_bytes g0 D enc H row now0 fresh0 (snd s0)) ->
  serve (fst s1) = over_network E (service_bytes g1 D enc H row now1 fresh1 (snd s1)) ->
  (forall l, Permutation l (described l)) -> some_order arrive ->
  rand_ok r -> length alphas = 4%nat -> Forall (fun v => 0 <= v < ModP) alphas ->
  text <> [] -> zlen text <= 1000000 -> bytes text -> legible text (map row rows) ->
  (forall inp, to_email_client H (email_query at_end false text) text = Ok inp ->
     unresampled enc H 5 alphas r 0 1 now0 now1 fresh0 fresh1 (map row rows) (email_query at_end false text) inp) ->
  let infos := described (map (fun s => remote_description E (database_info (snd s))) [s0; s1]) in
  exists p, number_page (zlen (filter (fun e => (if at_end then is_suffix else is_prefix) text (e_primary e)) people)) p /\
    web_email H (execute_stats_bytes g enc alphas r infos serve [fst s0; fst s1] arrive) (lit (if at_end then "end" else "begin")) text = Ok p.
Proof.
  intros E D g g0 g1 enc H G B config d es keys people m0 m1 s0 s1 row rows now0 now1 fresh0 fresh1 alphas r serve described arrive at_end text
    GZ U SP SP0 SP1 HC HH KR DD PU DK CU SD ZK P0 P1 S0 S1 NA RD RE RO E0 E1 PI SO RK LA FA NT LT BT LE UN. cbv zeta.
  set (L := mkLib G H B D enc). set (X := mkHttp [] (fun _ => no_page) (fun p => p) (fun _ => no_page)).
  set (w := mkWorld (fun _ => None) (fun a => if addr_eq_dec a (fst s0) then Some (database_info (snd s0)) else Some (database_info (snd s1))) (fun _ _ => Err "")
    (fun a => if addr_eq_dec a (fst s0) then answer_predicate enc H row now0 fresh0 (fun _ => None) (snd s0) else answer_predicate enc H row now1 fresh1 (fun _ => None) (snd s1))
    described arrive [] alphas r 0).
  assert (NW : network enc H row now0 now1 fresh0 fresh1 s0 s1 w).
  { unfold network, w. cbn [w_pred w_cinfo w_described w_arrive w_gr w_alphas].
    destruct (addr_eq_dec (fst s0) (fst s0)) as [_|N]; [|congruence]. destruct (addr_eq_dec (fst s1) (fst s0)) as [N|_]; [congruence|]. conj_split; auto; eexists; reflexivity. }
  set (form := [(lit "position", lit (if at_end then "end" else "begin")); (lit "text", text)]).
  assert (FP : SessionSpec.field "position" form (lit (if at_end then "end" else "begin"))) by (exists [], [(lit "text", text)]; split; [reflexivity|constructor]).
  assert (FT : SessionSpec.field "text" form text).
  { exists [(lit "position", lit (if at_end then "end" else "begin"))], []. split; [reflexivity|]. constructor; [|constructor]. cbn [fst]. discriminate. }
  assert (CX : clean_ok X) by (repeat constructor).
  destruct (C125_page_counts_published_keys X L G B config d es keys people m0 m1 s0 s1 row rows now0 now1 fresh0 fresh1 w at_end text form [] CX HC HH KR DD PU DK CU SD ZK P0 P1 S0 S1 RD RE RO
    NW NT BT LE FP FT UN) as (id & p & NP & SW).
  destruct (C112_same_rows G H B config true keys m0 m1 s0 s1 KR) as (rows' & _ & Es0 & Es1); auto.
  { apply DK. } { eapply dump_filed; eauto. } { eapply prepared_stores; eauto. } { eapply prepared_stores; eauto. }
  exists p. split; [exact NP|]. rewrite serve_one, (route_email L [] [fst s0; fst s1] X CX) in SW. cbn [with_form] in SW. rewrite (field_get _ _ _ FP), (field_get _ _ _ FT) in SW.
  assert (WE : web_email H (stats_query L [fst s0; fst s1] w) (lit (if at_end then "end" else "begin")) text = Ok p).
  { change (l_hash L) with H in SW. destruct (web_email H (stats_query L [fst s0; fst s1] w) (lit (if at_end then "end" else "begin")) text); congruence. }
  rewrite <- WE. assert (EX : forall inp, to_email_client H (email_query at_end false text) text = Ok inp ->
    execute_stats_bytes g enc alphas r (described (map (fun s => remote_description E (database_info (snd s))) [s0; s1])) serve [fst s0; fst s1] arrive (email_query at_end false text) inp =
    stats_query L [fst s0; fst s1] w (email_query at_end false text) inp).
  { intros inp EI. pose proof (email_fits H at_end text inp LT EI NT) as F.
    destruct (client_arrives g g (Some (email_query at_end false text, []), inp) [] (proj1 SP) F) as (b & EB & _ & DB). rewrite app_nil_r in DB.
    unfold execute_stats_bytes. unfold full_info, client_fss in *. rewrite EB. cbn [bind]. unfold stats_query, execute_stats, w. cbn [w_pred w_cinfo w_described w_arrive w_gr w_alphas map].
    destruct (addr_eq_dec (fst s0) (fst s0)) as [_|N]; [|congruence]. destruct (addr_eq_dec (fst s1) (fst s0)) as [N|_]; [congruence|].
    rewrite Es0, Es1, !counting_described by auto. rewrite <- Es0, <- Es1. change (l_cipher L) with enc.
    destruct (get_db_infos _); cbn [bind]; auto.
    eapply (started_exec E D g g0 g1 enc H row now0 now1 fresh0 fresh1 (fun _ => None) (fun _ => None) s0 s1); eauto.
    - unfold zlen. rewrite LA. lia.
    - destruct (addr_eq_dec (fst s0) (fst s0)) as [_|N]; [reflexivity|congruence].
    - destruct (addr_eq_dec (fst s1) (fst s0)) as [N|_]; [congruence|reflexivity]. }
  unfold web_email. rewrite (DirectoryProofs4.bytes_equal_neq text []) by assumption.
  destruct at_end; cbv zeta; unfold email_query in EX.
  - change (bytes_equal (lit "end") []) with false. change (bytes_equal (lit "end") (lit "begin")) with false. change (bytes_equal (lit "end") (lit "end")) with true. cbv iota.
    destruct (to_email_client H (mkInfo target_userid 0 (zlen text) false false false) text) as [inp| | |] eqn:EI; cbn [bind]; auto. rewrite (EX inp eq_refl). reflexivity.
  - change (bytes_equal (lit "begin") []) with false. change (bytes_equal (lit "begin") (lit "begin")) with true. cbv iota.
    destruct (to_email_client H (mkInfo target_userid (zlen text) 0 false false false) text) as [inp| | |] eqn:EI; cbn [bind]; auto. rewrite (EX inp eq_refl). reflexivity.
Qed.
Print Assumptions C126_page_counts_published_keys.

(** ... and the command line client. *)
Theorem C126_command_line_counts_published_keys_partial :
  forall E D g g0 g1 enc H G B config d es keys people m0 m1 s0 s1 row rows now0 now1 fresh0 fresh1 r serve arrive (at_end : bool) text f,
  gzip_ok E -> speaks g g -> speaks g g0 -> speaks g g1 ->
  cipher_ok enc -> hash_ok H -> rand_ok r -> keyring_ok (g_serialize G) (g_read G) ->
  is_directory d -> published d es -> directory_of_dump G es keys -> current G es people -> small_dump keys -> zlen keys < ModP ->
  prepared G d m0 -> prepared G d m1 ->
  started_as G H B config (lit "complexPIR") 0 m0 = Ok s0 -> started_as G H B config (lit "complexPIR") 1 m1 = Ok s1 -> fst s0 <> fst s1 ->
  keys_read G keys rows -> (forall e, ki_email (row e) = e_primary e) -> Forall record_ok (map row rows) ->
  serve (fst s0) = over_network E (service_bytes g0 D enc H row now0 fresh0 (snd s0)) ->
  serve (fst s1) = over_network E (service_bytes g1 D enc H row now1 fresh1 (snd s1)) ->
  some_order arrive -> text <> [] -> zlen text <= 1000000 -> bytes text -> legible text (map row rows) ->
  f = mkF false false (lit "email") (if at_end then 0 else zlen text) (if at_end then zlen text else 0) text ->
  (forall inp, to_email_client H (email_query at_end false text) text = Ok inp ->
     unresampled enc H 1 [] r 0 1 now0 now1 fresh0 fresh1 (map row rows) (email_query at_end false text) inp) ->
  cli_complex_bytes g enc H 1 [] r serve [fst s0; fst s1] arrive f =
    Ok (zlen (filter (fun e => (if at_end then is_suffix else is_prefix) text (e_primary e)) people)).
Proof.
  intros E D g g0 g1 enc H G B config d es keys people m0 m1 s0 s1 row rows now0 now1 fresh0 fresh1 r serve arrive at_end text f
    GZ SP SP0 SP1 HC HH HR KR DD PU DK CU SD ZK P0 P1 S0 S1 NA RD RE RO E0 E1 SO NT LT BT LE EF UN.
  set (serve' := fun a => if addr_eq_dec a (fst s0) then answer_predicate enc H row now0 fresh0 (fun _ => None) (snd s0) else answer_predicate enc H row now1 fresh1 (fun _ => None) (snd s1)).
  assert (X0 : serve' (fst s0) = answer_predicate enc H row now0 fresh0 (fun _ => None) (snd s0)) by (unfold serve'; destruct (addr_eq_dec (fst s0) (fst s0)) as [_|N]; [reflexivity|congruence]).
  assert (X1 : serve' (fst s1) = answer_predicate enc H row now1 fresh1 (fun _ => None) (snd s1)) by (unfold serve'; destruct (addr_eq_dec (fst s1) (fst s0)) as [N|_]; [congruence|reflexivity]).
  rewrite <- (C125_command_line_counts_published_keys_partial enc H G B config d es keys people m0 m1 s0 s1 row rows now0 now1 fresh0 fresh1 r serve' arrive at_end text f (fun _ => None) (fun _ => None)); auto.
  destruct (C112_same_rows G H B config false keys m0 m1 s0 s1 KR) as (rows' & _ & Es0 & Es1); auto.
  { apply DK. } { eapply dump_filed; eauto. } { eapply prepared_stores; eauto. } { eapply prepared_stores; eauto. }
  assert (EQ : cli_query H f = (b <- to_email_client H (email_query at_end false text) text ;; Ok (email_query at_end false text, b))).
  { rewrite EF. unfold email_query. destruct at_end; reflexivity. }
  unfold cli_complex_bytes, cli_complex. rewrite EQ.
  destruct (to_email_client H (email_query at_end false text) text) as [inp| | |] eqn:EI; cbn [bind]; auto. cbn [fst snd].
  pose proof (email_fits H at_end text inp LT EI NT) as F.
  destruct (client_arrives g g (Some (email_query at_end false text, []), inp) [] (proj1 SP) F) as (b & EB & _ & DB). rewrite app_nil_r in DB.
  unfold full_info, client_fss in *. rewrite EB. cbn [bind].
  eapply (started_exec E D g g0 g1 enc H row now0 now1 fresh0 fresh1 (fun _ => None) (fun _ => None) s0 s1); eauto.
  all: try (cbn [answer_values]; lia). all: unfold zlen; cbn [length]; lia.
Qed.
Print Assumptions C126_command_line_counts_published_keys_partial.

(** The size of a query does not depend on what is asked about: with the same random bytes, the same number of bits and the same final
    words (which are random, and written in as few bytes as they need), two queries to a server have the same number of bytes. *)
Theorem C126_request_size :
  forall g g' enc e alphas alphas' r i inp inp' k0 k1 x k0' k1' x' b0 b1 b0' b1', speaks g g' ->
  cipher_ok enc -> rand_ok r -> zlen alphas <= 1000 -> zlen alphas' <= 1000 -> client_fits (i, inp) -> length inp = length inp' ->
  client_query enc e alphas r inp 2 = Ok (k0, k1, x) -> client_query enc e alphas' r inp' 2 = Ok (k0', k1', x') -> k_finalcw k0 = k_finalcw k0' ->
  encode_server g (i, k0) = Ok b0 -> encode_server g (i, k1) = Ok b1 -> encode_server g (i, k0') = Ok b0' -> encode_server g (i, k1') = Ok b1' ->
  zlen b0 = zlen b0' /\ zlen b1 = zlen b1'.
Proof.
  intros g g' enc e alphas alphas' r i inp inp' k0 k1 x k0' k1' x' b0 b1 b0' b1' (_ & US) HC HR LA LA' (FI & FB) LI Q Q' FW EB0 EB1 EB0' EB1'. cbn [fst snd] in *.
  unfold client_query in Q, Q'. cbn [Z.eqb negb Pos.eqb] in Q, Q'.
  destruct (keys_fit enc e inp (1 :: alphas) r k0 k1 x) as (K0 & K1 & C0 & C1); auto. { rewrite zlen_cons'. lia. }
  destruct (keys_fit enc e inp' (1 :: alphas') r k0' k1' x') as (K0' & K1' & C0' & C1'); auto. { unfold zlen in *. lia. } { rewrite zlen_cons'. lia. }
  assert (SH : forall a b k0 k1 x, generate_tree_pf enc e a b r = Ok (k0, k1, x) ->
    k_sinit k0 = firstn 16 (r_seed0 r) /\ k_sinit k1 = r_seed1 r /\ k_tinit k0 = nth 16 (r_seed0 r) 0 mod 2 /\ k_tinit k1 = Z.lxor (nth 16 (r_seed0 r) 0 mod 2) 1 /\ k_finalcw k0 = k_finalcw k1).
  { clear. intros a b k0 k1 x E. unfold generate_tree_pf in E. cbv zeta in E.
    destruct (gen_loop _ _ _ _ _ _) as [[cws [[[s0' s1'] t0'] t1']]| | |]; try discriminate. cbn [bind] in E.
    destruct (convert_block enc e (r_fresh0 r) s0' _) as [c0| | |]; try discriminate. cbn [bind] in E.
    destruct (convert_block enc e (r_fresh1 r) s1' _) as [c1| | |]; try discriminate. cbn [bind] in E.
    remember (firstn 16 (r_seed0 r)) as sd. remember (nth 16 (r_seed0 r) 0 mod 2) as t0. remember (Z.lxor t0 1) as t1. remember (final_cws _ _ _ _) as fw.
    assert (k0 = FSSModel.mkKey sd t0 cws fw /\ k1 = FSSModel.mkKey (r_seed1 r) t1 cws fw) as (-> & ->) by (split; congruence). cbn. auto. }
  destruct (SH _ _ _ _ _ Q) as (A1 & A2 & A3 & A4 & A5). destruct (SH _ _ _ _ _ Q') as (B1 & B2 & B3 & B4 & B5).
  unfold zlen in C0, C1, C0', C1'. split.
  - eapply (request_size g _ i k0 k0'); eauto; try (split; assumption); try congruence. lia.
  - eapply (request_size g _ i k1 k1'); eauto; try (split; assumption); try congruence. lia.
Qed.
Print Assumptions C126_request_size.

(** C68, refuted, from the bytes that arrive: whoever can send bytes to a predicate server can stop it, with no key that means anything. *)
Theorem C68_request_bytes_crash_server_refuted :
  forall g g' enc H e sn db now fresh i k, speaks g g' -> server_fits (i, k) ->
  match i with
  | None => True
  | Some (q, _) => q_sum q = true \/ (q_avg q = true /\ q_and q = false) \/ (q_and q = false /\ 2 < q_target q) \/
    (db <> [] /\ q_target q = target_userid /\ q_from_start q < 0) \/
    (db <> [] /\ q_target q = target_userid /\ q_from_start q = 0 /\ q_from_end q < 0)
  end ->
  exists b, encode_server g (i, k) = Ok b /\ is_panic (answer_query_bytes g' enc H e sn db (length db) now fresh b) = true.
Proof.
  intros g g' enc H e sn db now fresh i k (_ & US) F C. destruct (server_arrives g g' (i, k) [] US F) as (b & EB & _ & DB). rewrite app_nil_r in DB.
  exists b. split; [exact EB|]. unfold answer_query_bytes. unfold full_info, server_fss in *. rewrite DB. cbn [bind fst snd].
  assert (P : is_panic (answer enc H e sn db (length db) now fresh (option_map fst i) k) = true).
  { apply C68_malformed_query_crashes_server_refuted. destruct i as [[q t]|]; cbn [option_map fst]; auto. }
  unfold answer_bytes. destruct (answer enc H e sn db (length db) now fresh (option_map fst i) k); cbn [bind is_panic] in *; congruence.
Qed.
Print Assumptions C68_request_bytes_crash_server_refuted.

(** Processes that number the types from different numbers on, and know each other's definitions by what they say. *)
Definition demo_type (first : Z) (words : list (list Z)) : gob_type := mkType (combine [first; first + 1; first + 2] words) first.
Definition demo_known (words : list (list Z)) (defs : list (Z * list Z)) (id : Z) : bool :=
  match defs with
  | d :: _ => (fst d =? id) && (if list_eq_dec addr_eq_dec (map snd defs) words then true else false)
  | [] => false
  end.
Definition demo_words (c : string) : list (list Z) := [lit c; lit "Info"; lit "slice"].
Definition demo_gobs (first : Z) : gobs :=
  mkGobs (demo_type first (demo_words "ClientFSS")) (demo_type (first + 7) (demo_words "FSS")) (demo_known (demo_words "ClientFSS")) (demo_known (demo_words "FSS")).
Definition demo_serve (auth : bool) (a : list Z) : list Z -> res (list Z) :=
  let sid := if bytes_equal a (lit "10.0.0.1:50") then 0 else 1 in
  over_network plain_codec (service_bytes (demo_gobs (if sid =? 0 then 66 else 90)) toy_dpf toy_cipher toy_hash desk_row (fun _ => 2021) (fun _ _ => 0)
    (snd (desk_service (answer_values auth) sid))).
Definition demo_stats (text : list Z) : res page :=
  web_email toy_hash (execute_stats_bytes (demo_gobs 65) toy_cipher toy_alphas toy_rand
    (rev (map (fun s => remote_description plain_codec (database_info (snd s))) [desk_service 5 0; desk_service 5 1]))
    (demo_serve true) [lit "10.0.0.1:50"; lit "10.0.0.2:50"] (@rev _)) (lit "begin") text.
Example C126_example :
  (forall a b, In a [65; 66; 90] -> In b [65; 66; 90] -> speaks (demo_gobs a) (demo_gobs b)) /\ gzip_ok plain_codec /\ utf8_ok plain_codec /\
  (** The web page, over the published keys of C125 *)
  demo_stats [65] = Ok (mkPage (Some 200) (lit "count: 1")) /\ demo_stats [68] = Ok (mkPage (Some 200) (lit "count: 0")) /\
  (** The command line client *)
  cli_complex_bytes (demo_gobs 65) toy_cipher toy_hash 1 [] toy_rand (demo_serve false) [lit "10.0.0.1:50"; lit "10.0.0.2:50"] (@rev _)
    (mkF false false (lit "email") 1 0 [65]) = Ok 1 /\
  (** A question, and a query for it *)
  (let i := Some (mkInfo target_creation 300 (-2) true false true, [1; 2; 255]) in
   let q : server_fss := (i, FSSModel.mkKey (repeat 200 16) 1 [repeat 130 18; repeat 0 18] [0; 127; 128; 4294967295]) in
   client_fits (i, [true; false; true]) /\ server_fits q /\
   (b <- encode_client (demo_gobs 65) (i, [true; false; true]) ;; decode_client (demo_gobs 90) (b ++ [9])) = Ok (i, [true; false; true]) /\
   (b <- encode_server (demo_gobs 65) q ;; decode_server (demo_gobs 90) b) = Ok q /\
   (b <- encode_server (demo_gobs 65) q ;; Ok (skipn 21 b)) =
     Ok ([95; 255; 144] ++ [1; 1; 1; 1; 254; 2; 88; 1; 3; 1; 1; 1; 3; 1; 2; 255; 2; 1; 0]
           ++ [1; 1; 16] ++ repeat 200 16 ++ [1; 1; 1; 2; 18] ++ repeat 130 18 ++ [18] ++ repeat 0 18 ++ [1; 4; 0; 127; 255; 128; 252; 255; 255; 255; 255; 0; 0])) /\
  (** The first bytes of a query, and a query without Info *)
  (b <- encode_server (demo_gobs 65) (None, FSSModel.mkKey [] 0 [] []) ;; decode_server (demo_gobs 66) (firstn 20 b)) = bad_gob /\
  is_panic (b <- encode_server (demo_gobs 65) (None, FSSModel.mkKey [] 0 [] []) ;;
            answer_query_bytes (demo_gobs 66) toy_cipher toy_hash 5 0 toy_db 3 (fun _ => 2021) (fun _ _ => 0) b) = true.
Proof.
  split. { intros a b IA IB. cbn [In] in IA, IB.
    repeat match goal with H : _ \/ _ |- _ => destruct H as [<-|H] | H : False |- _ => destruct H end;
    (split; (split; [vm_compute; reflexivity|split; [cbn [demo_gobs client_type server_type demo_type ty_id]; lia|split; [vm_compute; discriminate|
      cbn [demo_gobs client_type server_type demo_type ty_defs combine demo_words]; repeat (apply Forall_cons; [split; [cbn [fst]; lia|vm_compute; discriminate]|]); apply Forall_nil]]])). }
  split; [exact plain_gzip_ok|]. split; [exact plain_utf8_ok|].
  split; [vm_compute; reflexivity|]. split; [vm_compute; reflexivity|]. split; [vm_compute; reflexivity|].
  assert (FI : info_fits (mkInfo target_creation 300 (-2) true false true, [1; 2; 255])).
  { unfold info_fits. cbn [fst snd q_target q_from_start q_from_end]. unfold target_creation, zlen. cbn [length]. lia. }
  split.
  { cbv zeta. split. { split; [intros i E; assert (i = (mkInfo target_creation 300 (-2) true false true, [1; 2; 255])) as -> by (cbn [fst] in E; congruence); exact FI|vm_compute; discriminate]. }
    split. { split; [intros i E; assert (i = (mkInfo target_creation 300 (-2) true false true, [1; 2; 255])) as -> by (cbn [fst] in E; congruence); exact FI|].
      unfold key_fits. cbn [snd k_sinit k_tinit k_cw k_finalcw]. split; [vm_compute; discriminate|]. split; [lia|]. split; [vm_compute; discriminate|].
      split; [apply Forall_cons; [reflexivity|apply Forall_cons; [reflexivity|apply Forall_nil]]|]. split; [vm_compute; discriminate|].
      repeat (apply Forall_cons; [lia|]). apply Forall_nil. }
    split; [vm_compute; reflexivity|]. split; [vm_compute; reflexivity|]. vm_compute; reflexivity. }
  split; vm_compute; reflexivity.
Qed.
