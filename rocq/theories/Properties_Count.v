(** Property C125: from the published dumps to the number a client shows. *)
From Coq Require Import String ZArith List Bool Lia Permutation.
From Verif Require Import GoBase BaseFacts FieldModel FSSModel FSSProofs EncodingModel MerkleModel MerkleSpec PredicateModel PredicateSpec
  PointModel DirectoryModel DirectorySpec DirectoryProofs4 FrontendModel FrontendSpec FilesModel FilesSpec KeyPageModel KeyPageSpec
  SessionModel SessionSpec EndToEndSpec EndToEndProofs CountSpec CountProofs
  ToyInstances ToyPoint ToyDirectory Properties_Predicate Properties_Directory Properties_Frontend Properties_KeyPage Properties_Session Properties_EndToEnd.
Import ListNotations.
Open Scope Z_scope.

(** Two machines prepared with the data tool from the same dumps and started for authenticated predicate queries: the number the web page
    shows is the number of current keys whose address begins or ends with the text. *)
Theorem C125_page_counts_published_keys :
  forall X L G B config d es keys people m0 m1 s0 s1 row rows now0 now1 fresh0 fresh1 w (at_end : bool) text form h,
  clean_ok X -> cipher_ok (l_cipher L) -> hash_ok (l_hash L) -> keyring_ok (g_serialize G) (g_read G) ->
  is_directory d -> published d es -> directory_of_dump G es keys -> current G es people -> small_dump keys -> zlen keys < ModP ->
  prepared G d m0 -> prepared G d m1 ->
  started_as G (l_hash L) B config (lit "complexVPIR") 0 m0 = Ok s0 -> started_as G (l_hash L) B config (lit "complexVPIR") 1 m1 = Ok s1 ->
  keys_read G keys rows -> (forall e, ki_email (row e) = e_primary e) -> Forall record_ok (map row rows) ->
  network (l_cipher L) (l_hash L) row now0 now1 fresh0 fresh1 s0 s1 w ->
  text <> [] -> bytes text -> legible text (map row rows) ->
  field "position" form (lit (if at_end then "end" else "begin")) -> field "text" form text ->
  (forall inp, to_email_client (l_hash L) (email_query at_end false text) text = Ok inp ->
     unresampled (l_cipher L) (l_hash L) 5 (w_alphas w) (w_gr w) 0 1 now0 now1 fresh0 fresh1 (map row rows) (email_query at_end false text) inp) ->
  exists id p, number_page (zlen (filter (fun e => (if at_end then is_suffix else is_prefix) text (e_primary e)) people)) p /\
    serve_web X L [] [fst s0; fst s1] [(w, mkReq (lit "/count/email") h (Ok form))] = ([Some (id, p)], None).
Proof.
  intros X L G B config d es keys people m0 m1 s0 s1 row rows now0 now1 fresh0 fresh1 w at_end text form h
    CX HC HH KR DD PU DK CU SD ZK P0 P1 S0 S1 RD RE RO NW NT BT LE FP FT UN.
  destruct (C112_page_counts_stored_keys X L G B config keys m0 m1 s0 s1 row rows now0 now1 fresh0 fresh1 w at_end text form h) as (id & p & NP & SW); auto.
  - apply DK.
  - eapply dump_filed; eauto.
  - eapply prepared_stores; eauto.
  - eapply prepared_stores; eauto.
  - exists id, p. split; [|exact SW]. rewrite (count_current (fun a => (if at_end then is_suffix else is_prefix) text a) people rows) in NP; auto.
    eapply rows_current; eauto.
Qed.
Print Assumptions C125_page_counts_published_keys.

(** The command line client without authentication, with the right two servers listed (the others: C87). *)
Theorem C125_command_line_counts_published_keys_partial :
  forall enc H G B config d es keys people m0 m1 s0 s1 row rows now0 now1 fresh0 fresh1 r serve arrive (at_end : bool) text f o0 o1,
  cipher_ok enc -> hash_ok H -> rand_ok r -> keyring_ok (g_serialize G) (g_read G) ->
  is_directory d -> published d es -> directory_of_dump G es keys -> current G es people -> small_dump keys -> zlen keys < ModP ->
  prepared G d m0 -> prepared G d m1 ->
  started_as G H B config (lit "complexPIR") 0 m0 = Ok s0 -> started_as G H B config (lit "complexPIR") 1 m1 = Ok s1 ->
  keys_read G keys rows -> (forall e, ki_email (row e) = e_primary e) -> Forall record_ok (map row rows) ->
  serve (fst s0) = answer_predicate enc H row now0 fresh0 o0 (snd s0) -> serve (fst s1) = answer_predicate enc H row now1 fresh1 o1 (snd s1) ->
  some_order arrive -> text <> [] -> bytes text -> legible text (map row rows) ->
  f = mkF false false (lit "email") (if at_end then 0 else zlen text) (if at_end then zlen text else 0) text ->
  (forall inp, to_email_client H (email_query at_end false text) text = Ok inp ->
     unresampled enc H 1 [] r 0 1 now0 now1 fresh0 fresh1 (map row rows) (email_query at_end false text) inp) ->
  cli_complex enc H 1 [] r serve [fst s0; fst s1] arrive f =
    Ok (zlen (filter (fun e => (if at_end then is_suffix else is_prefix) text (e_primary e)) people)).
Proof.
  intros enc H G B config d es keys people m0 m1 s0 s1 row rows now0 now1 fresh0 fresh1 r serve arrive at_end text f o0 o1
    HC HH HR KR DD PU DK CU SD ZK P0 P1 S0 S1 RD RE RO E0 E1 SO NT BT LE EF UN.
  rewrite (C112_command_line_counts_stored_keys_partial enc H G B config keys m0 m1 s0 s1 row rows now0 now1 fresh0 fresh1 r serve arrive at_end text f o0 o1); auto.
  - rewrite (count_current (fun a => (if at_end then is_suffix else is_prefix) text a) people rows); auto. eapply rows_current; eauto.
  - apply DK.
  - eapply dump_filed; eauto.
  - eapply prepared_stores; eauto.
  - eapply prepared_stores; eauto.
Qed.
Print Assumptions C125_command_line_counts_published_keys_partial.

(** The dumps and machines of C124, started for counting: twenty current keys, the replaced one is not counted. *)
Definition path_people : list entity := firstn 3 (concat demo_dump) ++ skipn 4 (concat demo_dump).
Lemma path_fresh : Forall (fun e => primary_email ascii_lower e <> [] /\ freshest (candidates ascii_lower (concat demo_dump) (primary_email ascii_lower e)) e /\
    exists packet, toy_serialize (primary_only e) = Ok packet /\ zlen packet <= 8192) path_people.
Proof.
  let l := eval vm_compute in path_people in replace path_people with l by (vm_compute; reflexivity).
  repeat (apply Forall_cons; [split; [vm_compute; discriminate|split; [|eexists; split; [vm_compute; reflexivity|vm_compute; discriminate]]]|]); [..|apply Forall_nil].
  all: match goal with |- freshest ?c _ => let c' := eval vm_compute in c in replace c with c' by (vm_compute; reflexivity) end.
  all: first [exists [], []; split; [reflexivity|split; constructor]
             |eexists [_], []; split; [reflexivity|split; repeat constructor]].
Qed.
Lemma path_nodup : NoDup (map (primary_email ascii_lower) path_people).
Proof.
  assert (E : map (primary_email ascii_lower) path_people = map (fun i => [97 + i]) ([0; 1; 2] ++ [4; 5; 6; 7; 8; 9; 10; 11; 12; 13; 14; 15; 16; 17; 18; 19; 3])) by (vm_compute; reflexivity).
  rewrite E. clear E. cbn [map app]. repeat (constructor; [cbn [In]; intuition discriminate|]). constructor.
Qed.
Lemma replaced lower es pre old post new : es = pre ++ old :: post -> freshest (candidates lower es (primary_email lower old)) new -> old <> new ->
  forall e, freshest (candidates lower es (primary_email lower e)) e -> In e (pre ++ post).
Proof.
  intros S N D e Fr. assert (I : In e (candidates lower es (primary_email lower e))).
  { destruct Fr as (b & a & EC & _). rewrite EC. apply in_or_app. right. left. reflexivity. }
  apply filter_In in I as [I _]. rewrite S in I. apply in_app_or in I as [I|[I|I]]; [apply in_or_app; left; exact I| |apply in_or_app; right; exact I].
  subst e. exfalso. apply D. exact (freshest_unique _ _ _ Fr N).
Qed.
Lemma path_split : concat demo_dump = firstn 3 (concat demo_dump) ++ mkEntity 0 [68] [] 5 [[1]] [3] :: skipn 4 (concat demo_dump).
Proof. vm_compute. reflexivity. Qed.
Lemma path_new : freshest (candidates ascii_lower (concat demo_dump) (primary_email ascii_lower (mkEntity 0 [68] [] 5 [[1]] [3]))) (mkEntity 0 [] [[]; [100]] 6 [] [77]).
Proof. exists [mkEntity 0 [68] [] 5 [[1]] [3]], []. split; [vm_compute; reflexivity|]. split; repeat constructor. Qed.
Lemma path_only e : freshest (candidates ascii_lower (concat demo_dump) (primary_email ascii_lower e)) e -> In e path_people.
Proof. exact (replaced ascii_lower (concat demo_dump) (firstn 3 (concat demo_dump)) _ (skipn 4 (concat demo_dump)) _ path_split path_new ltac:(discriminate) e). Qed.
Local Opaque path_people demo_dump.
Lemma path_current : current page_pgp (concat demo_dump) path_people.
Proof.
  split; [exact path_nodup|]. intros e. split; [intros I; exact (proj1 (Forall_forall _ _) path_fresh e I)|]. intros (_ & Fr & _). exact (path_only e Fr).
Qed.
Local Transparent path_people demo_dump.
Example C125_example :
  (forall auth i m, nth_error [path_machine toy_runtime 2 (fun m => m); path_machine toy_runtime' 4 (@rev _)] i = Some m ->
     prepared page_pgp path_dumps m /\
     started_as page_pgp toy_hash toy_hash page_config (predicate_scheme_name auth) i m = Ok (desk_service (answer_values auth) (Z.of_nat i))) /\
  zlen path_people = 20 /\ zlen (filter (fun e => is_prefix [68] (e_primary e)) path_people) = 0 /\
  zlen (filter (fun e => is_prefix [68] (e_primary e)) (concat demo_dump)) = 1 /\
  serve_web desk_http desk_lib [] [lit "10.0.0.1:50"; lit "10.0.0.2:50"]
    (map (fun t => (desk_network, mkReq (lit "/count/email") [] (Ok [(lit "position", lit "begin"); (lit "text", t)]))) [[65]; [68]]) =
    ([Some (lit "3", mkPage (Some 200) (lit "count: 1")); Some (lit "3", mkPage (Some 200) (lit "count: 0"))], None).
Proof.
  Local Transparent page_db page_keys demo_map demo_written path_full. split; [|conj_split; vm_compute; reflexivity].
  intros auth i m M. destruct i as [|[|i]]; cbn [nth_error] in M.
  - assert (m = path_machine toy_runtime 2 (fun m => m)) as -> by congruence. split; [apply path_prepared; auto; apply toy_runtime_ok|destruct auth; vm_compute; reflexivity].
  - assert (m = path_machine toy_runtime' 4 (@rev _)) as -> by congruence. split; [apply path_prepared; auto; apply toy_runtime'_ok|destruct auth; vm_compute; reflexivity].
  - destruct i; discriminate.
Qed.
