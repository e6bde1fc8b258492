(** Properties C109-C112: sessions with the interactive client, the web server, their start, and counting through a deployment.
    Vocabulary in SessionSpec.v. *)
From Coq Require Import String ZArith List Bool Lia Permutation.
From Verif Require Import GoBase BaseFacts FieldModel FSSModel EncodingModel MerkleModel MerkleSpec MerkleProofs PredicateModel PredicateSpec
  FSSProofs PredicateProofs2 PointModel DirectoryModel DirectorySpec DirectoryProofs4 FrontendModel FrontendSpec FrontendProofs FilesModel KeyPageModel KeyPageSpec
  KeyPageProofs KeyPageProofs2 KeyPageProofs3 SessionModel SessionSpec SessionProofs SessionProofs2
  ToyInstances ToyPoint ToyDirectory Properties_Predicate Properties_Directory Properties_Frontend Properties_KeyPage.
Import ListNotations.
Open Scope Z_scope.

(** ** C109: a session with the interactive client *)

(** With honest servers a session of any number of questions shows exactly the right answers, in order, and goes on. *)
Theorem C109_right_answers :
  forall L auth keys srvs dbs db ps cs turns answers, deployment L auth keys srvs dbs db ->
  Forall2 (rightly_answered L ps cs keys dbs db) turns answers ->
  session L ps cs turns = (concat answers, Waiting).
Proof.
  intros L auth keys srvs dbs db ps cs turns answers DP F. induction F as [|[w t] lines turns answers R F IH]; [reflexivity|].
  rewrite session_cons, (turn_right L auth keys srvs dbs db ps cs DP w t lines R). cbn [fst snd]. rewrite IH. reflexivity.
Qed.
Print Assumptions C109_right_answers.

(** Every question is answered as if it were the first one, until the session ends. *)
Theorem C109_no_memory :
  forall L ps cs past w t more,
  (snd (session L ps cs past) = Waiting ->
   session L ps cs (past ++ [(w, t)]) = (fst (session L ps cs past) ++ fst (session L ps cs [(w, t)]), snd (session L ps cs [(w, t)]))) /\
  (snd (session L ps cs past) <> Waiting -> session L ps cs (past ++ more) = session L ps cs past).
Proof.
  intros L ps cs past w t more. split; intros E; rewrite session_app.
  - rewrite E. reflexivity.
  - destruct (session L ps cs past) as [s e]. cbn [fst snd] in *. destruct e; congruence.
Qed.
Print Assumptions C109_no_memory.

(** What a lookup shows is a key of the address typed, or that there is none, whatever the servers answer; and the session goes on. *)
Theorem C109_never_another_key :
  forall L ps cs past w email shown, snd (session L ps cs past) = Waiting ->
  session L ps cs (past ++ [(w, Download (Some email))]) = (shown, Waiting) ->
  exists lines, shown = fst (session L ps cs past) ++ lines /\
    (lines = not_found_lines email \/ exists text, key_of (l_pgp L) email text /\ lines = found_lines email text).
Proof.
  intros L ps cs past w email shown EP E. destruct (C109_no_memory L ps cs past w (Download (Some email)) []) as [X _]. rewrite (X EP) in E.
  assert (E1 : snd (session L ps cs [(w, Download (Some email))]) = Waiting) by congruence.
  assert (E2 : shown = fst (session L ps cs past) ++ fst (session L ps cs [(w, Download (Some email))])) by congruence. clear E X.
  exists (fst (session L ps cs [(w, Download (Some email))])). split; [exact E2|]. clear E2. rewrite session_cons in E1 |- *. cbn [answer_turn] in E1 |- *.
  destruct (download_key _ _ _ _ _ _ _ _ _) as [lines r] eqn:ED. destruct r as [[]| | |]; cbn [fst snd] in E1 |- *; try discriminate E1.
  cbn [fst snd session]. rewrite app_nil_r. eapply C106_interactive_shows_key_of_address. exact ED.
Qed.
Print Assumptions C109_never_another_key.

(** Leaving ends the program with a goodbye, whatever follows. *)
Theorem C109_leaving :
  forall L ps cs past w more, snd (session L ps cs past) = Waiting ->
  session L ps cs (past ++ (w, Leave) :: more) = (fst (session L ps cs past) ++ [lit "bye 👋"], Exited).
Proof. intros L ps cs past w more E. rewrite session_app, E, session_cons. reflexivity. Qed.
Print Assumptions C109_leaving.

(** Refuted: a question that fails ends the whole program, and no reason is shown: the session's output stops after the
    address typed, if any. *)
Theorem C109_failures_are_silent_refuted :
  forall L ps cs past w t m, snd (session L ps cs past) = Waiting -> snd (session L ps cs (past ++ [(w, t)])) = Died m ->
  fst (session L ps cs (past ++ [(w, t)])) =
    fst (session L ps cs past) ++ match t with Download (Some email) => [lit "email is " ++ email] | _ => [] end.
Proof.
  intros L ps cs past w t m EP E. destruct (C109_no_memory L ps cs past w t []) as [X _]. rewrite (X EP) in *. cbn [fst snd] in *. f_equal.
  rewrite session_cons in *. cbn [session fst snd] in *. destruct t as [i|typed|s|]; cbn [answer_turn] in *.
  - discriminate E.
  - destruct typed as [email|]; cbn [download_key] in *; [|reflexivity].
    destruct (get_db_infos _) as [is| | |]; cbn [fst snd] in *; try discriminate; try reflexivity.
    destruct (bind (go_index is 0) _) as [r|m'| |]; cbn [fst snd] in *; try discriminate; try reflexivity.
    destruct (is_not_found m'); cbn [fst snd] in *; [discriminate|reflexivity].
  - destruct (get_stats _ _ _ _); cbn [fst snd] in *; try discriminate; reflexivity.
  - discriminate E.
Qed.
Print Assumptions C109_failures_are_silent_refuted.

(** Refuted: one server that does not describe itself, or two that describe different tables, end the program. *)
Theorem C109_one_failing_server_refuted :
  forall L ps cs past w email, snd (session L ps cs past) = Waiting -> (forall l, Permutation l (w_described w l)) ->
  (exists a, In a ps /\ w_pinfo w a = None) \/
  (exists a b x y, In a ps /\ In b ps /\ w_pinfo w a = Some x /\ w_pinfo w b = Some y /\ ~ agree x y) ->
  exists m, snd (session L ps cs (past ++ [(w, Download (Some email))])) = Died m.
Proof.
  intros L ps cs past w email EP PE BAD. destruct (C109_no_memory L ps cs past w (Download (Some email)) []) as [X _]. rewrite (X EP). cbn [snd].
  rewrite session_cons. cbn [answer_turn download_key].
  assert (F : exists m, get_db_infos (w_described w (map (w_pinfo w) ps)) = Err m \/ get_db_infos (w_described w (map (w_pinfo w) ps)) = Fatal m).
  { specialize (PE (map (w_pinfo w) ps)). set (l := w_described w (map (w_pinfo w) ps)) in *.
    unfold get_db_infos. destruct (collect l) as [is| | |] eqn:EC; cbn [bind]; try (eexists; tauto).
    - assert (EM : l = map Some is).
      { clear - EC. revert is EC. induction l as [|[d|] l IH]; intros is EC; cbn [collect] in EC; [injection EC as <-; reflexivity| |discriminate].
        destruct (collect l) as [t| | |]; cbn [bind] in EC; try discriminate. injection EC as <-. cbn [map]. rewrite (IH t); auto. }
      destruct BAD as [(a & Ia & Na)|(a & b & x & y & Ia & Ib & Ea & Eb & N)].
      + exfalso. assert (I : In None l) by (apply (Permutation_in _ PE); rewrite <- Na; apply in_map; exact Ia).
        rewrite EM in I. apply in_map_iff in I as (d & Ed & _). discriminate.
      + destruct (equal_db_info is) eqn:EQ; [|eexists; tauto]. exfalso. apply N.
        assert (Ix : In (Some x) l) by (apply (Permutation_in _ PE); rewrite <- Ea; apply in_map; exact Ia).
        assert (Iy : In (Some y) l) by (apply (Permutation_in _ PE); rewrite <- Eb; apply in_map; exact Ib).
        rewrite EM in Ix, Iy. apply in_map_iff in Ix as (x' & Ex & Ix). apply in_map_iff in Iy as (y' & Ey & Iy). injection Ex as ->. injection Ey as ->.
        rewrite equal_db_info_spec in EQ. specialize (EQ x y Ix Iy). apply same_shape_eq in EQ. exact EQ.
    - exfalso. clear - EC. induction l as [|[d|] l IH]; cbn [collect] in EC; try discriminate. destruct (collect l); cbn [bind] in EC; try discriminate. apply IH. exact EC. }
  destruct F as (m & [F|F]); rewrite F; cbn [fst snd]; eexists; reflexivity.
Qed.
Print Assumptions C109_one_failing_server_refuted.

(** ** C110: a session with the web server *)

(** With honest servers every one of any number of requests gets the right page, whatever the others ask. *)
Theorem C110_right_pages :
  forall X L auth keys srvs dbs db ps cs reqs pages, clean_ok X -> deployment L auth keys srvs dbs db ->
  Forall2 (rightly_served L ps cs keys dbs db) reqs pages ->
  exists ids, serve_web X L ps cs reqs = (map Some (combine ids pages), None) /\ length ids = length pages.
Proof.
  intros X L auth keys srvs dbs db ps cs reqs pages CX DP F. induction F as [|[w rq] p reqs pages R F IH]; [exists []; split; reflexivity|].
  destruct IH as (ids & E & LE). exists (request_id w rq :: ids). cbn [serve_web].
  rewrite (page_right L auth keys srvs dbs db ps cs DP X CX w rq p R), E. cbn [map combine length]. rewrite LE. split; reflexivity.
Qed.
Print Assumptions C110_right_pages.

(** Every response depends on its own request alone, and carries the number the client gave or, without one, the clock. *)
Theorem C110_no_memory :
  forall X L ps cs reqs i r, nth_error (fst (serve_web X L ps cs reqs)) i = Some r ->
  exists w rq, nth_error reqs i = Some (w, rq) /\ serve_web X L ps cs [(w, rq)] = ([r], None) /\
    forall id p, r = Some (id, p) -> 0 <= w_now w < 2 ^ 63 -> header_ok w rq id.
Proof.
  intros X L ps cs reqs i r E. destruct (serve_nth X L ps cs reqs i r E) as (w & rq & EN & ES). exists w, rq. split; [exact EN|]. split; [exact ES|].
  intros id p -> HB. rewrite serve_one in ES. destruct (route X L ps cs w rq); try discriminate ES. injection ES as <- _.
  unfold header_ok, request_id. split; intros N.
  - rewrite bytes_equal_neq by exact N. reflexivity.
  - rewrite N. change (bytes_equal [] []) with true. cbv iota. apply itoa_decimal. exact HB.
Qed.
Print Assumptions C110_no_memory.

(** As long as the process runs, the server answers all requests so far, or drops their connections. *)
Theorem C110_all_answered :
  forall X L ps cs reqs, snd (serve_web X L ps cs reqs) = None -> length (fst (serve_web X L ps cs reqs)) = length reqs.
Proof.
  intros X L ps cs reqs. induction reqs as [|[w rq] t IH]; intros E; [reflexivity|]. cbn [serve_web] in *.
  destruct (route X L ps cs w rq); try discriminate E; destruct (serve_web X L ps cs t); cbn [fst snd length] in *; rewrite IH; auto.
Qed.
Print Assumptions C110_all_answered.

(** The start page, unknown pages and bad forms are answered without asking any server: whatever the servers do. *)
Theorem C110_other_pages :
  forall X L ps cs w h form, clean_ok X ->
  serve_web X L ps cs [(w, mkReq (lit "/") h form)] = ([Some (request_id w (mkReq (lit "/") h form), mkPage (Some 200) (h_index X))], None) /\
  (forall path, h_clean X path = path ->
     Forall (fun p => path <> lit p) ["/"; "/retrieve"; "/count/email"; "/count/algo"; "/count/timestamp"; "/static"]%string ->
     (forall rest, path <> lit "/static/" ++ rest) ->
     serve_web X L ps cs [(w, mkReq path h form)] =
       ([Some (request_id w (mkReq path h form), mkPage (Some 404) (lit "404 not found" ++ [10]))], None)) /\
  (forall m p, form = Err m -> In p ["/retrieve"; "/count/email"; "/count/algo"; "/count/timestamp"]%string ->
     serve_web X L ps cs [(w, mkReq (lit p) h form)] =
       ([Some (request_id w (mkReq (lit p) h form), mkPage (Some 500) (lit "failed to parse form: " ++ lit m ++ [10]))], None)).
Proof.
  intros X L ps cs w h form CX. conj_split.
  - rewrite serve_one. unfold route. cbn [rq_path rq_form]. rewrite (clean_here X CX) by (cbn; tauto). reflexivity.
  - intros path EP FN NS. rewrite serve_one. unfold route. cbn [rq_path rq_form]. rewrite EP, bytes_equal_refl. cbn [negb].
    rewrite Forall_forall in FN.
    rewrite !(bytes_equal_neq path) by (apply FN; cbn; tauto).
    assert (SW : starts_with (lit "/static/") path = false).
    { destruct (starts_with (lit "/static/") path) eqn:ES; auto. exfalso.
      assert (G : forall a s, starts_with a s = true -> exists r, s = a ++ r).
      { induction a as [|x a IH]; intros s Es; [exists s; reflexivity|]. destruct s as [|y s]; [discriminate|]. cbn [starts_with] in Es.
        apply andb_true_iff in Es as [E1 E2]. apply Z.eqb_eq in E1. destruct (IH s E2) as (r & ->). exists r. subst. reflexivity. }
      destruct (G _ _ ES) as (r & Er). exact (NS r Er). }
    rewrite SW. unfold handle_index. rewrite (bytes_equal_neq path) by (apply FN; cbn; tauto). reflexivity.
  - intros m p -> I. rewrite serve_one.
    assert (R : route X L ps cs w (mkReq (lit p) h (Err m)) = Ok (http_error no_page (lit "failed to parse form: " ++ lit m) 500)).
    { cbn [In] in I. destruct I as [<-|[<-|[<-|[<-|[]]]]].
      - rewrite (route_retrieve L ps cs X CX). reflexivity.
      - rewrite (route_email L ps cs X CX). reflexivity.
      - rewrite (route_algo L ps cs X CX). reflexivity.
      - rewrite (route_year L ps cs X CX). reflexivity. }
    rewrite R. unfold http_error. cbn [p_body no_page app status_or p_status]. rewrite app_assoc_reverse. reflexivity.
Qed.
Print Assumptions C110_other_pages.

(** Refuted: after any requests, one request whose year is not a number ends the server; the requests after it get no answer. *)
Theorem C110_one_request_ends_the_server_refuted :
  forall X L ps cs past w h form year later, clean_ok X -> snd (serve_web X L ps cs past) = None ->
  field "year" form year -> year <> [] -> atoi year = None ->
  serve_web X L ps cs (past ++ (w, mkReq (lit "/count/timestamp") h (Ok form)) :: later) =
    (fst (serve_web X L ps cs past), Some "strconv.Atoi"%string).
Proof.
  intros X L ps cs past w h form year later CX EP FY NY NA. rewrite serve_app, EP. cbn [serve_web].
  rewrite (route_year L ps cs X CX). cbn [with_form]. rewrite (field_get _ _ _ FY). unfold web_year. rewrite bytes_equal_neq, NA by exact NY.
  cbn [to_creation_client bind fst snd]. rewrite app_nil_r. reflexivity.
Qed.
Print Assumptions C110_one_request_ends_the_server_refuted.

(** ** C111: the start of the front ends *)

(** A front end runs only with a connection to each server of its configuration, in the order of their numbers. *)
Theorem C111_connected_to_all :
  forall s ps cs, front_start false s = Ok (ps, cs) ->
  st_certs s = Ok tt /\ reachable s ps /\ reachable s cs /\
  (exists es, st_file s (st_point s) = Ok es /\ load_config es = Ok ps) /\
  (exists es, st_file s (st_complex s) = Ok es /\ load_config es = Ok cs).
Proof.
  intros s ps cs E. apply front_inv in E as (EP & EC & Ce & R1 & R2).
  assert (LM : forall v b path addrs, load_manager false v b path (st_file s) = Ok addrs -> exists es, st_file s path = Ok es /\ load_config es = Ok addrs).
  { clear. intros v b path addrs E. unfold load_manager in E. destruct (bytes_equal path [] && negb false); [discriminate|].
    destruct (st_file s path) as [es| | |]; cbn [bind wrap] in E; try discriminate. exists es. split; [reflexivity|].
    destruct (load_config es); cbn [wrap] in E; try discriminate. injection E as ->. reflexivity. }
  conj_split; auto; eapply LM; eauto.
Qed.
Print Assumptions C111_connected_to_all.

Theorem C111_configured :
  forall s es1 es2 ps cs, st_certs s = Ok tt -> st_point s <> [] -> st_complex s <> [] ->
  st_file s (st_point s) = Ok es1 -> load_config es1 = Ok ps -> st_file s (st_complex s) = Ok es2 -> load_config es2 = Ok cs ->
  reachable s ps -> reachable s cs -> front_start false s = Ok (ps, cs).
Proof.
  intros s es1 es2 ps cs Ce N1 N2 F1 L1 F2 L2 R1 R2. apply front_ok; auto; unfold load_manager.
  - rewrite bytes_equal_neq by auto. cbn [andb negb]. rewrite F1. cbn [bind]. rewrite L1. reflexivity.
  - rewrite bytes_equal_neq by auto. cbn [andb negb]. rewrite F2. cbn [bind]. rewrite L2. reflexivity.
Qed.
Print Assumptions C111_configured.

(** One unreachable server ends the start; the first one is named. *)
Theorem C111_first_unreachable_named :
  forall certs dial before a after m, certs = Ok tt -> Forall (fun a => dial a = Ok tt) before -> dial a = Err m ->
  connect certs dial (before ++ a :: after) = Err ("failed to connect to " ++ text_of a ++ ": " ++ m)%string.
Proof.
  intros certs dial before a after m -> F E. unfold connect. cbn [wrap bind]. rewrite (dial_all_fails dial before a after m F E).
  assert (A : forall x y z, ((x ++ y) ++ z)%string = (x ++ (y ++ z))%string) by (intros x y z; induction x as [|c x IH]; cbn; congruence).
  rewrite A. reflexivity.
Qed.
Print Assumptions C111_first_unreachable_named.

(** The web server serves requests only when it could listen on the address it was given, or on port 9990 of all its
    addresses when it was given none. *)
Theorem C111_listens :
  forall X L s can flag reqs served, web_main X L s can flag reqs = Ok served ->
  (flag <> [] -> can flag = true) /\ (flag = [] -> can (lit ":9990") = true) /\
  exists ps cs, front_start static_config s = Ok (ps, cs) /\ served = serve_web X L ps cs reqs.
Proof.
  intros X L s can flag reqs served E. unfold web_main in E. destruct (front_start static_config s) as [[ps cs]| | |]; cbn [bind] in E; try discriminate.
  destruct (can (listen_address flag)) eqn:EC; [|discriminate]. injection E as <-. unfold listen_address in EC. split; [|split].
  - intros NE. destruct flag as [|b t]; [contradiction|]. exact EC.
  - intros ->. exact EC.
  - exists ps, cs. split; reflexivity.
Qed.
Print Assumptions C111_listens.

(** Refuted: the released front ends ignore the configuration. Whatever the environment variables and files say, they connect to
    the two built-in servers for lookups and the two for counting, or do not run. *)
Theorem C111_configuration_ignored_refuted :
  forall s, 
  (forall ps cs, front_start static_config s = Ok (ps, cs) ->
     ps = [lit "128.179.33.63:50050"; lit "128.179.33.75:50051"] /\ cs = [lit "128.179.33.63:50040"; lit "128.179.33.75:50041"]) /\
  (forall point complex file, front_start static_config (mkStartup point complex file (st_certs s) (st_dial s)) = front_start static_config s).
Proof.
  intros s. split.
  - intros ps cs E. apply front_inv in E as (EP & EC & _). unfold load_manager, static_config in EP, EC. rewrite andb_false_r in EP, EC.
    split; [injection EP as <-|injection EC as <-]; reflexivity.
  - intros point complex file. unfold front_start, load_manager, static_config. cbn [st_point st_complex st_file st_certs st_dial negb].
    rewrite !andb_false_r. reflexivity.
Qed.
Print Assumptions C111_configuration_ignored_refuted.

(** Refuted: an unreachable built-in server ends the interactive client without a word. *)
Theorem C111_silent_start_refuted :
  forall L s turns a m, In a (builtin_point ++ builtin_complex) -> st_dial s a = Err m -> (forall a x, st_dial s a <> Panic x) ->
  (forall x, st_certs s <> Panic x) ->
  exists m', interactive_main L s turns = ([], Died m').
Proof.
  intros L s turns a m I E NP NC. unfold interactive_main.
  destruct (front_start static_config s) as [[ps cs]|x|x|x] eqn:EF; try (eexists; reflexivity).
  - exfalso. destruct (C111_configuration_ignored_refuted s) as [C _]. destruct (C _ _ EF) as [-> ->]. apply front_inv in EF as (_ & _ & _ & R1 & R2).
    apply in_app_or in I. unfold reachable in R1, R2. rewrite Forall_forall in R1, R2. destruct I as [I|I]; [rewrite (R1 a I) in E|rewrite (R2 a I) in E]; discriminate.
  - exfalso. unfold front_start, load_manager, static_config in EF. cbn [negb] in EF. rewrite !andb_false_r in EF. cbn [or_die bind] in EF.
    assert (DA : forall l x, dial_all (st_dial s) l <> Panic x).
    { clear - NP. induction l as [|b t IH]; intros x Ex; cbn [dial_all] in Ex; [discriminate|].
      destruct (st_dial s b) as [u| | |] eqn:ED; cbn [wrap bind] in Ex; try discriminate.
      - destruct (dial_all (st_dial s) t) eqn:ET; cbn [bind] in Ex; try discriminate. injection Ex as ->. apply (IH x). reflexivity.
      - injection Ex as ->. exact (NP b x ED). }
    assert (CN : forall l x p, or_die p (connect (st_certs s) (st_dial s) l) <> Panic x).
    { clear - DA NC. intros l x p. unfold connect. destruct (st_certs s) as [u| | |] eqn:EC; cbn [wrap bind or_die]; try discriminate.
      - destruct (dial_all (st_dial s) l) eqn:ED; cbn [or_die]; try discriminate. intros X. injection X as ->. exact (DA l x ED).
      - intros X. injection X as ->. exact (NC x eq_refl). }
    destruct (or_die _ (connect (st_certs s) (st_dial s) builtin_point)) eqn:E1; cbn [bind] in EF; try discriminate.
    + destruct (or_die _ (connect (st_certs s) (st_dial s) builtin_complex)) eqn:E2; cbn [bind] in EF; try discriminate. exact (CN _ _ _ E2).
    + exact (CN _ _ _ E1).
Qed.
Print Assumptions C111_silent_start_refuted.

(** ** C112: counting through a deployment *)

(** Two servers started with a scheme for predicate queries on machines that store the same keys, each in its own files, have the
    same rows: the keys of the directory, in its order. *)
Theorem C112_same_rows :
  forall G H B es auth keys m0 m1 s0 s1, keyring_ok (g_serialize G) (g_read G) -> listed keys -> Forall (filed G) keys ->
  stores keys m0 -> stores keys m1 ->
  started_as G H B es (predicate_scheme_name auth) 0 m0 = Ok s0 -> started_as G H B es (predicate_scheme_name auth) 1 m1 = Ok s1 ->
  exists rows, keys_read G keys rows /\
    snd s0 = PredicateService (answer_values auth) 0 (zlen keys) rows /\ snd s1 = PredicateService (answer_values auth) 1 (zlen keys) rows.
Proof.
  intros G H B es auth keys m0 m1 [a0 s0] [a1 s1] K HL HF S0 S1 E0 E1.
  destruct (started_predicate _ _ _ _ _ _ _ _ _ _ K HL HF S0 E0) as (r0 & -> & K0).
  destruct (started_predicate _ _ _ _ _ _ _ _ _ _ K HL HF S1 E1) as (r1 & -> & K1).
  pose proof (keys_read_same _ _ _ _ K K0 K1) as ->. exists r1. split; [exact K1|]. split; reflexivity.
Qed.
Print Assumptions C112_same_rows.

(** From the files to the page: with two such servers the web page shows how many stored keys have a primary identity whose address
    begins (ends) with the text. *)
Theorem C112_page_counts_stored_keys :
  forall X L G B es keys m0 m1 s0 s1 row rows now0 now1 fresh0 fresh1 w (at_end : bool) text form h,
  clean_ok X -> cipher_ok (l_cipher L) -> hash_ok (l_hash L) -> keyring_ok (g_serialize G) (g_read G) -> listed keys -> Forall (filed G) keys ->
  zlen keys < ModP -> stores keys m0 -> stores keys m1 ->
  started_as G (l_hash L) B es (lit "complexVPIR") 0 m0 = Ok s0 -> started_as G (l_hash L) B es (lit "complexVPIR") 1 m1 = Ok s1 ->
  keys_read G keys rows -> (forall e, ki_email (row e) = e_primary e) -> Forall record_ok (map row rows) ->
  network (l_cipher L) (l_hash L) row now0 now1 fresh0 fresh1 s0 s1 w ->
  text <> [] -> bytes text -> legible text (map row rows) ->
  field "position" form (lit (if at_end then "end" else "begin")) -> field "text" form text ->
  (forall inp, to_email_client (l_hash L) (email_query at_end false text) text = Ok inp ->
     unresampled (l_cipher L) (l_hash L) 5 (w_alphas w) (w_gr w) 0 1 now0 now1 fresh0 fresh1 (map row rows) (email_query at_end false text) inp) ->
  exists id p, number_page (zlen (filter (fun e => (if at_end then is_suffix else is_prefix) text (e_primary e)) rows)) p /\
    serve_web X L [] [fst s0; fst s1] [(w, mkReq (lit "/count/email") h (Ok form))] = ([Some (id, p)], None).
Proof.
  intros X L G B es keys m0 m1 s0 s1 row rows now0 now1 fresh0 fresh1 w at_end text form h CX HC HH K HL HF HN S0 S1 E0 E1 KR RE RO NW NT BT LE FP FT UR.
  destruct (C112_same_rows G (l_hash L) B es true keys m0 m1 s0 s1 K HL HF S0 S1 E0 E1) as (rows' & KR' & Es0 & Es1).
  pose proof (keys_read_same _ _ _ _ K KR KR') as <-. pose proof (rows_length _ _ _ KR) as LR.
  destruct NW as ((o0 & P0) & (o1 & P1) & I0 & I1 & PD & SO & RK & LA & FA). rewrite Es0 in *. rewrite Es1 in *.
  set (n := zlen (filter (fun e => (if at_end then is_suffix else is_prefix) text (e_primary e)) rows)).
  assert (CN : count_matching (addresses_with at_end text) (map row rows) = n).
  { unfold count_matching, n, zlen. f_equal. clear - RE. induction rows as [|e t IH]; cbn [map filter]; [reflexivity|].
    unfold addresses_with at 1. rewrite RE. destruct ((if at_end then is_suffix else is_prefix) text (e_primary e)); cbn [length]; rewrite IH; reflexivity. }
  assert (HN' : zlen (map row rows) < ModP) by (unfold zlen in *; rewrite map_length, LR; exact HN).
  assert (NB : 0 <= n < ModP) by (rewrite <- CN; pose proof (count_bound (addresses_with at_end text) (map row rows)); lia).
  destruct (email_stats L [fst s0; fst s1] (map row rows) now0 now1 at_end text w HC HH RO HN' NT BT LE) as (inp & EI & ES).
  { intros inp EI. exists (fst s0), (fst s1). eexists _, _, fresh0, fresh1. split; [reflexivity|]. split; [|split; [exact I0|split; [exact I1|]]].
    - repeat split.
    - conj_split; auto.
      + exact (started_honest (l_cipher L) (l_hash L) row now0 fresh0 o0 (w_pred w) (fst s0) true 0 keys rows LR P0).
      + exact (started_honest (l_cipher L) (l_hash L) row now1 fresh1 o1 (w_pred w) (fst s1) true 1 keys rows LR P1). }
  rewrite CN in ES. exists (request_id w (mkReq (lit "/count/email") h (Ok form))), (mkPage (Some 200) (lit "count: " ++ itoa n)).
  split. { exists (itoa n). split; [|reflexivity]. apply itoa_decimal. pose proof ModP_small. lia. }
  rewrite serve_one, (route_email L [] [fst s0; fst s1] X CX). cbn [with_form]. rewrite (field_get _ _ _ FP), (field_get _ _ _ FT).
  unfold web_email. rewrite (bytes_equal_neq text []) by assumption.
  destruct at_end; cbv zeta; unfold email_query in EI, ES.
  - change (bytes_equal (lit "end") []) with false. change (bytes_equal (lit "end") (lit "begin")) with false.
    change (bytes_equal (lit "end") (lit "end")) with true. cbv iota. rewrite EI. cbn [bind]. rewrite ES. reflexivity.
  - change (bytes_equal (lit "begin") []) with false. change (bytes_equal (lit "begin") (lit "begin")) with true.
    cbv iota. rewrite EI. cbn [bind]. rewrite ES. reflexivity.
Qed.
Print Assumptions C112_page_counts_stored_keys.

(** The same for the command line client without authentication, if it visits the servers in their order (C82). *)
Theorem C112_command_line_counts_stored_keys_partial :
  forall enc H G B es keys m0 m1 s0 s1 row rows now0 now1 fresh0 fresh1 r serve arrive (at_end : bool) text f o0 o1,
  cipher_ok enc -> hash_ok H -> rand_ok r -> keyring_ok (g_serialize G) (g_read G) -> listed keys -> Forall (filed G) keys ->
  zlen keys < ModP -> stores keys m0 -> stores keys m1 ->
  started_as G H B es (lit "complexPIR") 0 m0 = Ok s0 -> started_as G H B es (lit "complexPIR") 1 m1 = Ok s1 ->
  keys_read G keys rows -> (forall e, ki_email (row e) = e_primary e) -> Forall record_ok (map row rows) ->
  serve (fst s0) = answer_predicate enc H row now0 fresh0 o0 (snd s0) -> serve (fst s1) = answer_predicate enc H row now1 fresh1 o1 (snd s1) ->
  some_order arrive -> text <> [] -> bytes text -> legible text (map row rows) ->
  f = mkF false false (lit "email") (if at_end then 0 else zlen text) (if at_end then zlen text else 0) text ->
  (forall inp, to_email_client H (email_query at_end false text) text = Ok inp ->
     unresampled enc H 1 [] r 0 1 now0 now1 fresh0 fresh1 (map row rows) (email_query at_end false text) inp) ->
  cli_complex enc H 1 [] r serve [fst s0; fst s1] arrive f =
    Ok (zlen (filter (fun e => (if at_end then is_suffix else is_prefix) text (e_primary e)) rows)).
Proof.
  intros enc H G B es keys m0 m1 s0 s1 row rows now0 now1 fresh0 fresh1 r serve arrive at_end text f o0 o1
    HC HH HR K HL HF HN S0 S1 E0 E1 KR RE RO P0 P1 SO NT BT LE -> UR.
  destruct (C112_same_rows G H B es false keys m0 m1 s0 s1 K HL HF S0 S1 E0 E1) as (rows' & KR' & Es0 & Es1).
  pose proof (keys_read_same _ _ _ _ K KR KR') as <-. pose proof (rows_length _ _ _ KR) as LR. rewrite Es0 in P0. rewrite Es1 in P1.
  destruct (email_request H at_end text NT BT) as (RQ & RB & SE).
  rewrite (C82_command_line_count_partial (list Z) enc H 1 [] r serve (fst s0) (fst s1) now0 now1 fresh0 fresh1 (map row rows) arrive _
    (ByEmail (email_query at_end false text) text)); auto.
  - f_equal. rewrite (count_ext _ _ (map row rows) SE).
    assert (CN : count_matching (addresses_with at_end text) (map row rows) = zlen (filter (fun e => (if at_end then is_suffix else is_prefix) text (e_primary e)) rows)).
    { unfold count_matching, zlen. f_equal. clear - RE. induction rows as [|e t IH]; cbn [map filter]; [reflexivity|].
      unfold addresses_with at 1. rewrite RE. destruct ((if at_end then is_suffix else is_prefix) text (e_primary e)); cbn [length]; rewrite IH; reflexivity. }
    rewrite CN. apply Z.mod_small. rewrite <- CN. pose proof (count_bound (addresses_with at_end text) (map row rows)) as CB.
    unfold zlen in HN, CB |- *. rewrite map_length, LR in CB. lia.
  - lia.
  - destruct at_end; reflexivity.
  - rewrite RB. exact LE.
  - exact (started_honest enc H row now0 fresh0 o0 serve (fst s0) false 0 keys rows LR P0).
  - exact (started_honest enc H row now1 fresh1 o1 serve (fst s1) false 1 keys rows LR P1).
Qed.
Print Assumptions C112_command_line_counts_stored_keys_partial.

(** Refuted: lookups go by the lower-case address of any identity, counting by the address of the primary identity as it is written. A
    key that can be looked up under [text] is not counted under [text] if its primary identity has no address, or one in capitals. *)
Theorem C112_other_address_refuted :
  exists G keys rows text, keyring_ok (g_serialize G) (g_read G) /\ listed keys /\ Forall (filed G) keys /\ keys_read G keys rows /\
    text <> [] /\ zlen (filter (fun k => is_prefix text (k_id k)) keys) = 1 /\ zlen (filter (fun e => is_prefix text (e_primary e)) rows) = 0.
Proof.
  destruct page_keys_ok as (HL & HF & _ & _).
  exists page_pgp, page_keys, (map (fun k => match toy_read (k_packet k) with Ok [e] => e | _ => mkEntity 0 [] [] 0 [] [] end) page_keys), [100].
  split; [exact toy_keyring|]. split; [exact HL|]. split; [exact HF|]. split; [split; vm_compute; reflexivity|]. split; [discriminate|]. split; vm_compute; reflexivity.
Qed.
Print Assumptions C112_other_address_refuted.

(** Refuted: "created before year y" never counts a key read by an OpenPGP library that gives creation times in a zone of its own
    (such as the local one), whatever the year. *)
Theorem C112_no_key_created_before_refuted :
  forall H zone algo rows y, count_matching (selects H (ByCreation y)) (map (row_info (Some zone) algo) rows) = 0.
Proof.
  intros H zone algo rows y. unfold count_matching. replace (filter _ _) with (@nil key_info); [reflexivity|]. symmetry.
  induction rows as [|e t IH]; cbn [map filter]; [reflexivity|]. rewrite IH. cbn [selects row_info ki_time t_zone]. rewrite andb_false_r. reflexivity.
Qed.
Print Assumptions C112_no_key_created_before_refuted.

(** ** Concrete cases *)

Local Opaque page_db page_keys.
Definition desk_lib : libraries := mkLib page_pgp toy_hash toy_hash toy_dpf toy_cipher.
Definition desk_points : list (list Z) := [lit "p0"; lit "p1"; lit "p2"].
Definition desk_counters : list (list Z) := [lit "c0"; lit "c1"].
Definition desk_world_with (rnd : list Z) (auth : bool) : world :=
  mkWorld (fun _ => Some (database_info (PointService (page_db auth)))) (fun _ => Some merkle_info)
    (fun _ => pir_answer toy_dpf false (page_db auth)) (fun a => toy_serve 5 (if bytes_equal a (lit "c0") then 0 else 1))
    (@rev _) (@rev _) rnd toy_alphas toy_rand 1600000000.
Definition desk_world : bool -> world := desk_world_with [9; 200].
Definition desk_http : http_library :=
  mkHttp (lit "<html>") (fun _ => mkPage (Some 200) (lit "h1 {}")) (fun p => if bytes_equal p (lit "//") then lit "/" else p) (fun p => mkPage (Some 301) p).

Lemma desk_deployment auth : deployment desk_lib auth page_keys (repeat page_srv 3) (repeat (page_db auth) 3) toy_db.
Proof.
  split; [apply page_directory|]. split; [apply (page_setting auth)|]. split; [apply toy_cipher_ok|]. split; [exact toy_db_ok|vm_compute; reflexivity].
Qed.
Lemma desk_lookup auth : lookup_world desk_lib desk_points (repeat (page_db auth) 3) (desk_world auth).
Proof.
  destruct (page_setting auth) as (_ & _ & R & A & _).
  split; [|split; [intros l; apply Permutation_rev|split; [exact A|exact R]]].
  unfold desk_points. cbn [repeat]. repeat (constructor; [split; reflexivity|]). constructor.
Qed.
Lemma desk_stats auth q inp :
  match run toy_cipher toy_hash 5 toy_alphas toy_rand 0 1 (fun _ => 2021) (fun _ => 2021) (fun _ _ => 0) (fun _ _ => 0) toy_db q inp with
  | Ok (_, b) => b | _ => true end = false ->
  stats_world desk_lib desk_counters toy_db (fun _ => 2021) (fun _ => 2021) q inp (desk_world auth).
Proof.
  intros U. exists (lit "c0"), (lit "c1"), merkle_info, merkle_info, (fun _ _ => 0), (fun _ _ => 0). conj_split.
  - reflexivity.
  - repeat split.
  - reflexivity.
  - reflexivity.
  - intros l. apply Permutation_rev.
  - intros l. apply Permutation_rev.
  - apply toy_rand_ok.
  - reflexivity.
  - repeat (constructor; [unfold ModP; lia|]). constructor.
  - intros qq k. reflexivity.
  - intros qq k. reflexivity.
  - unfold unresampled. cbn [desk_lib l_cipher l_hash desk_world desk_world_with w_alphas w_gr].
    destruct (run toy_cipher toy_hash 5 toy_alphas toy_rand 0 1 _ _ _ _ toy_db q inp) as [[o b]| | |]; try discriminate U. subst b. exists o. reflexivity.
Qed.

(** Refuted: the released web server has two servers for lookups, whatever the user configures, so it finds no key even if both are
    honest and store it (C106). *)
Theorem C111_released_finds_no_key_refuted :
  forall X s, clean_ok X -> st_certs s = Ok tt -> reachable s builtin_point -> reachable s builtin_complex ->
  exists L auth keys srvs dbs w form key, directory (l_pgp L) (l_hash L) (l_bucket L) auth keys srvs dbs /\ lookup_world L builtin_point dbs w /\
    In key keys /\ field "email" form (k_id key) /\
    exists id, web_main X L s (fun _ => true) [] [(w, mkReq (lit "/retrieve") [] (Ok form))] =
      Ok ([Some (id, mkPage (Some 200) (lit "key not found in block"))], None).
Proof.
  intros X s CX Ce R1 R2.
  exists desk_lib, true, page_keys, (repeat page_srv 2), (repeat (page_db true) 2), (desk_world_with [9] true), (page_form [97]), (mkKey [97] [0; 5; 1; 65; 0; 0; 1; 0]).
  split; [apply page_directory|]. split; [|split; [vm_compute; tauto|split; [|exists (lit "1600000000")]]].
  - split; [|split; [intros l; apply Permutation_rev|split; [intros l; apply Permutation_rev|]]].
    + unfold builtin_point. cbn [repeat]. repeat (constructor; [split; reflexivity|]). constructor.
    + unfold randomness_for. apply Forall_forall. intros d Hd. apply repeat_spec in Hd. subst d. vm_compute. reflexivity.
  - exists [(lit "other", [1])], [(lit "email", [9])]. split; [reflexivity|]. constructor; [discriminate|constructor].
  - unfold web_main. rewrite (front_ok static_config s builtin_point builtin_complex); auto;
      try (unfold load_manager, static_config; rewrite andb_false_r; reflexivity). cbn [bind fst snd]. f_equal.
    rewrite serve_one, (route_retrieve desk_lib _ _ X CX).
    match goal with |- context [web_retrieve ?a ?b ?c ?d ?e ?f ?g ?h ?i] =>
      replace (web_retrieve a b c d e f g h i) with (Ok (mkPage (Some 200) (lit "key not found in block"))) by (vm_compute; reflexivity) end.
    f_equal.
Qed.
Print Assumptions C111_released_finds_no_key_refuted.

(** Every kind of question: a stored key, an unknown address, addresses counted at both ends, an algorithm, a year after a refused one, and
    an average. *)
Definition desk_turns : list turn :=
  [ Download (Some [97]); Download (Some [33]); Stats (Some (Count (Some (CountEmail (Some 1%nat) (Some (lit "@x"))))));
    Stats (Some (Count (Some (CountEmail (Some 0%nat) (Some (lit "a"))))));
    Stats (Some (Count (Some (CountAlgo (Some 0%nat))))); Stats (Some (Count (Some (CountYear [lit "-3"; lit "2020"]))));
    Stats (Some (Average (Some 1%nat) (Some (lit "@x")))) ].
Definition desk_answers : list (list (list Z)) :=
  [ found_lines [97] (lit "PGP:" ++ [0; 5; 1; 65; 0; 0; 1; 0]); not_found_lines [33];
    [result_line (lit "all emails that end with '@x'") 2]; [result_line (lit "all emails that begin with 'a'") 2];
    [result_line (lit "all emails that uses the 'RSA' algorithm") 1]; [result_line (lit "all emails created before year '2020'") 0];
    [result_line (lit "average lifetime of all emails that end with '@x'") 2] ].

Lemma desk_shows d n : 0 <= n < 2 ^ 63 -> shows d n (result_line d n).
Proof. intros B. exists (itoa n). split; [apply itoa_decimal; exact B|reflexivity]. Qed.

Example C109_example : forall auth,
  deployment desk_lib auth page_keys (repeat page_srv 3) (repeat (page_db auth) 3) toy_db /\
  Forall2 (rightly_answered desk_lib desk_points desk_counters page_keys (repeat (page_db auth) 3) toy_db)
    (map (pair (desk_world auth)) desk_turns) desk_answers /\
  session desk_lib desk_points desk_counters (map (pair (desk_world auth)) (desk_turns ++ [Leave; Download (Some [97])])) =
    (concat desk_answers ++ [lit "bye 👋"], Exited) /\
  session desk_lib desk_points desk_counters (map (pair (desk_world auth)) [Download (Some [97]); Stats (Some (Count (Some (CountAlgo None)))); Leave]) =
    (found_lines [97] (lit "PGP:" ++ [0; 5; 1; 65; 0; 0; 1; 0]), Died "failed to get stats: failed to perform count stats: failed to get stats: failed to ask").
Proof.
  intros auth. split; [apply desk_deployment|]. split.
  - unfold desk_turns, desk_answers. cbn [map]. repeat apply Forall2_cons; [| | | | | | |apply Forall2_nil].
    + apply (key_shown desk_lib _ _ _ _ _ (mkKey [97] [0; 5; 1; 65; 0; 0; 1; 0])); [apply desk_lookup|]. vm_compute. tauto.
    + apply no_key_shown; [apply desk_lookup| |].
      * apply (C106_example auth).
      * apply (C106_example auth).
    + apply (addresses_counted desk_lib _ _ _ _ _ true _ _ _ (fun _ => 2021) (fun _ => 2021)).
      * discriminate.
      * vm_compute. repeat (constructor; [split; [discriminate|reflexivity]|]). constructor.
      * left. vm_compute. discriminate.
      * intros inp E. vm_compute in E. injection E as <-. apply desk_stats. vm_compute. reflexivity.
      * change (count_matching (addresses_with true (lit "@x")) toy_db) with 2. apply desk_shows. lia.
    + apply (addresses_counted desk_lib _ _ _ _ _ false _ _ _ (fun _ => 2021) (fun _ => 2021)).
      * discriminate.
      * vm_compute. repeat (constructor; [split; [discriminate|reflexivity]|]). constructor.
      * left. vm_compute. discriminate.
      * intros inp E. vm_compute in E. injection E as <-. apply desk_stats. vm_compute. reflexivity.
      * change (count_matching (addresses_with false (lit "a")) toy_db) with 2. apply desk_shows. lia.
    + apply (algorithms_counted desk_lib _ _ _ _ _ 0 "RSA" 1 _ _ (fun _ => 2021) (fun _ => 2021)).
      * reflexivity.
      * reflexivity.
      * apply desk_stats. vm_compute. reflexivity.
      * change (count_matching (fun ki => ki_algo ki =? 1) toy_db) with 1. apply desk_shows. lia.
    + apply (dates_counted desk_lib _ _ _ _ _ [lit "-3"] (lit "2020") 2020 [] _ _ (fun _ => 2021) (fun _ => 2021)).
      * constructor; [|constructor]. intros n N E. vm_compute in E. injection E as <-. lia.
      * apply C86_year_example.
      * lia.
      * vm_compute. intuition congruence.
      * intros inp E. vm_compute in E. injection E as <-. apply desk_stats. vm_compute. reflexivity.
      * replace (count_matching (selects (l_hash desk_lib) (ByCreation 2020)) toy_db) with 0 by (vm_compute; reflexivity). apply desk_shows. lia.
    + apply (ages_averaged desk_lib _ _ _ _ _ true _ _ _ 2021).
      * discriminate.
      * vm_compute. repeat (constructor; [split; [discriminate|reflexivity]|]). constructor.
      * left. vm_compute. discriminate.
      * lia.
      * intros inp E. vm_compute in E. injection E as <-. apply desk_stats. vm_compute. reflexivity.
      * vm_compute. reflexivity.
      * vm_compute. reflexivity.
      * match goal with |- shows _ ?n _ => replace n with 2 by (vm_compute; reflexivity) end. apply desk_shows. lia.
  - split; destruct auth; vm_compute; reflexivity.
Qed.

(** Lookups and counts in one session of the web server, then pages that need no server, then the request that ends it. *)
Definition desk_requests : list http_request :=
  [ mkReq (lit "/retrieve") (lit "77") (Ok (page_form [97])); mkReq (lit "/retrieve") [] (Ok (page_form [33]));
    mkReq (lit "/count/email") [] (Ok [(lit "text", lit "@x"); (lit "position", lit "end")]);
    mkReq (lit "/count/algo") [] (Ok [(lit "algo", lit "RSA")]); mkReq (lit "/count/timestamp") [] (Ok [(lit "year", lit "2020")]) ].
Definition desk_pages : list page :=
  [ mkPage (Some 200) (lit "PGP:" ++ [0; 5; 1; 65; 0; 0; 1; 0]); mkPage (Some 200) (lit "key not found in block");
    mkPage (Some 200) (lit "count: 2"); mkPage (Some 200) (lit "count: 1"); mkPage (Some 200) (lit "count: 0") ].
Definition desk_stamp : list Z := lit "1600000000".

Lemma desk_number n : 0 <= n < 2 ^ 63 -> number_page n (mkPage (Some 200) (lit "count: " ++ itoa n)).
Proof. intros B. exists (itoa n). split; [apply itoa_decimal; exact B|reflexivity]. Qed.
Lemma desk_field email : field "email" (page_form email) email.
Proof. exists [(lit "other", [1])], [(lit "email", [9])]. split; [reflexivity|]. constructor; [discriminate|constructor]. Qed.

Example C110_example : forall auth, clean_ok desk_http /\
  Forall2 (rightly_served desk_lib desk_points desk_counters page_keys (repeat (page_db auth) 3) toy_db)
    (map (pair (desk_world auth)) desk_requests) desk_pages /\
  serve_web desk_http desk_lib desk_points desk_counters
    (map (pair (desk_world auth)) (desk_requests ++
      [ mkReq (lit "/") [] (Ok []); mkReq (lit "/keys") [] (Ok []); mkReq (lit "//") [] (Ok []); mkReq (lit "/static/a.css") [] (Ok []);
        mkReq (lit "/count/algo") [] (Err "cut off"); mkReq (lit "/count/timestamp") [] (Ok [(lit "year", lit "MMXX")]); mkReq (lit "/") [] (Ok []) ])) =
    (map Some (combine [lit "77"; desk_stamp; desk_stamp; desk_stamp; desk_stamp] desk_pages ++
       [ (desk_stamp, mkPage (Some 200) (lit "<html>")); (desk_stamp, mkPage (Some 404) (lit "404 not found" ++ [10]));
         (desk_stamp, mkPage (Some 301) (lit "/")); (desk_stamp, mkPage (Some 200) (lit "h1 {}"));
         (desk_stamp, mkPage (Some 500) (lit "failed to parse form: cut off" ++ [10])) ]), Some "strconv.Atoi"%string).
Proof.
  intros auth. split; [repeat (constructor; [reflexivity|]); constructor|]. split.
  - unfold desk_requests, desk_pages. cbn [map]. repeat apply Forall2_cons; [| | | | |apply Forall2_nil].
    + apply (key_page desk_lib _ _ _ _ _ (mkKey [97] [0; 5; 1; 65; 0; 0; 1; 0])); [apply desk_lookup| |discriminate|apply desk_field]. vm_compute. tauto.
    + apply (no_key_page desk_lib _ _ _ _ _ [33]); [apply desk_lookup|apply (C106_example auth)|apply (C106_example auth)|discriminate|apply desk_field].
    + apply (addresses_page desk_lib _ _ _ _ _ true (lit "@x") _ _ (fun _ => 2021) (fun _ => 2021)).
      * discriminate.
      * vm_compute. repeat (constructor; [split; [discriminate|reflexivity]|]). constructor.
      * left. vm_compute. discriminate.
      * exists [(lit "text", lit "@x")], []. split; [reflexivity|]. constructor; [discriminate|constructor].
      * exists [], [(lit "position", lit "end")]. split; [reflexivity|constructor].
      * intros inp E. vm_compute in E. injection E as <-. apply desk_stats. vm_compute. reflexivity.
      * apply (desk_number 2). lia.
    + apply (algorithms_page desk_lib _ _ _ _ _ "RSA" 1 _ _ (fun _ => 2021) (fun _ => 2021)).
      * exists [], []. split; [reflexivity|constructor].
      * reflexivity.
      * apply desk_stats. vm_compute. reflexivity.
      * apply (desk_number 1). lia.
    + apply (dates_page desk_lib _ _ _ _ _ (lit "2020") 2020 _ _ (fun _ => 2021) (fun _ => 2021)).
      * exists [], []. split; [reflexivity|constructor].
      * apply C86_year_example.
      * lia.
      * vm_compute. intuition congruence.
      * intros inp E. vm_compute in E. injection E as <-. apply desk_stats. vm_compute. reflexivity.
      * replace (count_matching (selects (l_hash desk_lib) (ByCreation 2020)) toy_db) with 0 by (vm_compute; reflexivity). apply (desk_number 0). lia.
  - destruct auth; vm_compute; reflexivity.
Qed.

(** A start from two configuration files, the same start as released, and one with an unreachable built-in server. *)
Definition desk_start (dial : list Z -> res unit) : startup :=
  mkStartup (lit "point.toml") (lit "complex.toml")
    (fun p => if bytes_equal p (lit "point.toml") then Ok page_config
              else if bytes_equal p (lit "complex.toml") then Ok [mkEntry (lit "0") (lit "k") 7; mkEntry (lit "1") (lit "h") 8] else Err "no such file")
    (Ok tt) dial.
Example C111_example :
  front_start false (desk_start (fun _ => Ok tt)) = Ok ([lit "10.0.0.1:50"; lit "10.0.0.2:50"; lit "10.0.0.3:51"], [lit "k:7"; lit "h:8"]) /\
  front_start false (desk_start (fun a => if bytes_equal a (lit "10.0.0.2:50") then Err "bad target" else Ok tt)) =
    Fatal "failed to connect point manager: failed to connect to 10.0.0.2:50: bad target" /\
  front_start false (mkStartup [] [] (fun _ => Err "") (Ok tt) (fun _ => Ok tt)) =
    Fatal "failed to load point manager: Please provide VPIR_CONFIG_POINT as env variable" /\
  front_start static_config (desk_start (fun _ => Ok tt)) = Ok (builtin_point, builtin_complex) /\
  interactive_main desk_lib (desk_start (fun a => if bytes_equal a (lit "128.179.33.75:50041") then Err "bad target" else Ok tt)) [] =
    ([], Died "failed to connect complex manager: failed to connect to 128.179.33.75:50041: bad target").
Proof. split; [reflexivity|]. split; [reflexivity|]. split; [reflexivity|]. split; reflexivity. Qed.

(** Two machines that keep the keys of C106 in different files, and the counting servers started on them. *)
Definition desk_machine (i : nat) : machine := nth i page_machines (mkMachine toy_runtime 0 [] 0 (fun _ => true)).
Definition desk_rows : list entity := map (fun k => match toy_read (k_packet k) with Ok [e] => e | _ => mkEntity 0 [] [] 0 [] [] end) page_keys.
Definition desk_row : entity -> key_info := row_info (Some 60) (fun e => if e_created e =? 0 then 1 else 17).
Definition desk_service (values : nat) (sid : Z) : list Z * service :=
  (lit (if sid =? 0 then "10.0.0.1:50" else "10.0.0.2:50"), PredicateService values sid 20 desk_rows).
Definition desk_network : world :=
  mkWorld (fun _ => None) (fun a => Some (database_info (snd (desk_service 5 (if bytes_equal a (lit "10.0.0.1:50") then 0 else 1)))))
    (fun _ _ => Panic "") (fun a => answer_predicate toy_cipher toy_hash desk_row (fun _ => 2021) (fun _ _ => 0) (fun _ => None)
                             (snd (desk_service 5 (if bytes_equal a (lit "10.0.0.1:50") then 0 else 1))))
    (@rev _) (@rev _) [] toy_alphas toy_rand 3.
Example C112_example :
  Forall (stores page_keys) (map desk_machine [0; 1]%nat) /\
  (forall auth i, In i [0; 1]%nat ->
     started_as page_pgp toy_hash toy_hash page_config (predicate_scheme_name auth) i (desk_machine i) = Ok (desk_service (answer_values auth) (Z.of_nat i))) /\
  keys_read page_pgp page_keys desk_rows /\ Forall record_ok (map desk_row desk_rows) /\
  network toy_cipher toy_hash desk_row (fun _ => 2021) (fun _ => 2021) (fun _ _ => 0) (fun _ _ => 0) (desk_service 5 0) (desk_service 5 1) desk_network /\
  (exists out, run toy_cipher toy_hash 5 toy_alphas toy_rand 0 1 (fun _ => 2021) (fun _ => 2021) (fun _ _ => 0) (fun _ _ => 0)
     (map desk_row desk_rows) (email_query false false [65]) (byte_to_bits [65]) = Ok (out, false)) /\
  serve_web desk_http desk_lib [] [lit "10.0.0.1:50"; lit "10.0.0.2:50"]
    (map (fun t => (desk_network, mkReq (lit "/count/email") [] (Ok [(lit "position", lit "begin"); (lit "text", t)]))) [[65]; [97]]) =
    ([Some (lit "3", mkPage (Some 200) (lit "count: 1")); Some (lit "3", mkPage (Some 200) (lit "count: 0"))], None) /\
  cli_complex toy_cipher toy_hash 1 [] toy_rand
    (fun a => answer_predicate toy_cipher toy_hash desk_row (fun _ => 2021) (fun _ _ => 0) (fun _ => None)
                (snd (desk_service 1 (if bytes_equal a (lit "10.0.0.1:50") then 0 else 1))))
    [lit "10.0.0.1:50"; lit "10.0.0.2:50"] (fun l => l) (mkF false false (lit "email") 1 0 [65]) = Ok 1.
Proof.
  split; [|split; [|split; [|split; [|split; [|split; [|split]]]]]].
  - destruct (C108_example true) as (F & _). rewrite Forall_forall in F. apply Forall_forall. intros m I. apply F.
    cbn [map In] in I. destruct I as [<-|[<-|[]]]; cbn; tauto.
  - intros auth i I. cbn [In] in I. destruct I as [<-|[<-|[]]]; destruct auth; vm_compute; reflexivity.
  - split; vm_compute; reflexivity.
  - assert (F : forallb (fun e => forallb (fun b => (0 <=? b) && (b <? 256)) (e_primary e) && (0 <=? e_created e) && (e_created e <? 2 ^ 32)
        && (0 <=? time_year (ki_time (desk_row e))) && (time_year (ki_time (desk_row e)) <? w32)) desk_rows = true) by (vm_compute; reflexivity).
    revert F. generalize desk_rows. intros l F. apply Forall_forall. intros ki I. apply in_map_iff in I as (e & <- & I).
    rewrite forallb_forall in F. specialize (F e I).
    repeat (apply andb_true_iff in F as [F ?]). unfold record_ok. rewrite ?Z.leb_le, ?Z.ltb_lt in *. conj_split; try assumption.
    + unfold bytes. apply Forall_forall. intros b Ib. rewrite forallb_forall in F. specialize (F b Ib). apply andb_true_iff in F as [F1 F2]. split; [apply Z.leb_le|apply Z.ltb_lt]; assumption.
    + cbn [desk_row row_info ki_algo]. unfold is_byte, w8. destruct (e_created e =? 0); lia.
    + cbn [desk_row row_info ki_time t_sec]. lia.
    + cbn [desk_row row_info ki_time t_nsec]. lia.
    + cbn [desk_row row_info ki_time t_zone]. intros m E. injection E as <-. lia.
  - unfold network. conj_split.
    + exists (fun _ => None). reflexivity.
    + exists (fun _ => None). reflexivity.
    + reflexivity.
    + reflexivity.
    + intros l. apply Permutation_rev.
    + intros l. apply Permutation_rev.
    + apply toy_rand_ok.
    + reflexivity.
    + repeat (constructor; [unfold ModP; lia|]). constructor.
  - vm_compute. eexists. reflexivity.
  - vm_compute. reflexivity.
  - vm_compute. reflexivity.
Qed.
