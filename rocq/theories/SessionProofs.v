(** Facts about sessions with the front ends. *)
From Coq Require Import String ZArith List Bool Lia Permutation.
From Verif Require Import GoBase BaseFacts FieldModel FSSModel EncodingModel MerkleModel MerkleSpec MerkleProofs PredicateModel PredicateSpec
  EncodingProofs FSSProofs PredicateProofs PredicateProofs2 PredicateProofs3 PredicateProofs4 PointModel DirectoryModel DirectorySpec DirectoryProofs4
  FrontendModel FrontendSpec FrontendProofs FrontendProofs2 FilesModel KeyPageModel KeyPageSpec KeyPageProofs SessionModel SessionSpec
  Properties_Frontend Properties_KeyPage.
Import ListNotations.
Open Scope Z_scope.

(** ** lookups *)
Lemma lookup_answers L ps dbs w : lookup_world L ps dbs w -> map (w_point w) ps = map (pir_answer (l_dpf L) false) dbs.
Proof.
  intros (F & _). induction F as [|a b ps' dbs' [_ E] F IH]; cbn [map]; [reflexivity|]. rewrite E, IH. reflexivity.
Qed.

Lemma lookup_described L ps dbs w : lookup_world L ps dbs w -> described dbs (w_described w (map (w_pinfo w) ps)).
Proof.
  intros (F & P & _). unfold described. replace (map (fun db => Some (database_info (PointService db))) dbs) with (map (w_pinfo w) ps).
  - apply P.
  - clear P. induction F as [|a b ps' dbs' [E _] F IH]; cbn [map]; [reflexivity|]. rewrite E, IH. reflexivity.
Qed.

(** ** statistics *)
Lemma agree_sym a b : agree a b -> agree b a.
Proof. unfold agree. intuition congruence. Qed.

Lemma stats_infos L cs db now0 now1 q inp w : stats_world L cs db now0 now1 q inp w ->
  exists a b, w_described w (map (w_cinfo w) cs) = [Some a; Some b] /\ agree a b.
Proof.
  intros (c0 & c1 & i0 & i1 & f0 & f1 & -> & AG & E0 & E1 & P & _). cbn [map]. rewrite E0, E1.
  destruct (perm_two _ _ _ (P [Some i0; Some i1])) as [->| ->]; [exists i0, i1|exists i1, i0]; split; auto using agree_sym.
Qed.

Lemma stats_count L cs db now0 now1 rq inp w : cipher_ok (l_cipher L) -> hash_ok (l_hash L) -> Forall record_ok db -> zlen db < ModP ->
  request_ok rq -> readable rq db -> request_input (l_hash L) rq = Ok inp ->
  stats_world L cs db now0 now1 (request_info rq) inp w ->
  stats_query L cs w (request_info rq) inp = Ok (count_matching (selects (l_hash L) rq) db).
Proof.
  intros HC HH HD HN RQ RD EI W. destruct (stats_infos _ _ _ _ _ _ _ _ W) as (a & b & EO & AG).
  destruct W as (c0 & c1 & i0 & i1 & f0 & f1 & -> & _ & _ & _ & _ & SO & HR & HL & HA & S0 & S1 & UR).
  unfold stats_query. rewrite EO.
  rewrite (C82_manager_count (list Z) (l_cipher L) (l_hash L) (w_alphas w) (w_gr w) a b (w_pred w) c0 c1 now0 now1 f0 f1 db (w_arrive w) rq inp); auto.
  f_equal. apply Z.mod_small. pose proof (count_bound (selects (l_hash L) rq) db). lia.
Qed.

Lemma zlen_pos (text : list Z) : text <> [] -> 0 < zlen text.
Proof. destruct text; [congruence|]. intros _. unfold zlen. cbn [length]. lia. Qed.

Lemma email_request H at_end text : text <> [] -> bytes text ->
  let rq := ByEmail (email_query at_end false text) text in
  request_ok rq /\ request_bytes rq = zlen text /\ forall ki, selects H rq ki = addresses_with at_end text ki.
Proof.
  intros NT BT rq. pose proof (zlen_pos text NT) as TP. unfold rq, email_query. split; [|split].
  - split; [destruct at_end; repeat split|]. split; [|exact BT]. unfold text_long_enough. destruct at_end; cbn [q_from_start q_from_end].
    + rewrite Z.ltb_irrefl. lia.
    + destruct (Z.ltb_spec 0 (zlen text)); lia.
  - cbn [request_bytes]. unfold email_id_bytes. destruct at_end; cbn [q_from_start q_from_end].
    + rewrite Z.ltb_irrefl. destruct (Z.ltb_spec 0 (zlen text)); lia.
    + destruct (Z.ltb_spec 0 (zlen text)); lia.
  - intros ki. cbn [selects]. unfold email_matches, addresses_with. destruct at_end; cbn [q_from_start q_from_end].
    + rewrite Z.ltb_irrefl. destruct (Z.ltb_spec 0 (zlen text)); [|lia]. apply is_suffix_all.
    + destruct (Z.ltb_spec 0 (zlen text)); [|lia]. apply is_prefix_all.
Qed.

Lemma email_stats L cs db now0 now1 at_end text w : cipher_ok (l_cipher L) -> hash_ok (l_hash L) -> Forall record_ok db -> zlen db < ModP ->
  text <> [] -> bytes text -> legible text db ->
  (forall inp, to_email_client (l_hash L) (email_query at_end false text) text = Ok inp ->
     stats_world L cs db now0 now1 (email_query at_end false text) inp w) ->
  exists inp, to_email_client (l_hash L) (email_query at_end false text) text = Ok inp /\
    stats_query L cs w (email_query at_end false text) inp = Ok (count_matching (addresses_with at_end text) db).
Proof.
  intros HC HH HD HN NT BT LE W. destruct (email_request (l_hash L) at_end text NT BT) as (RQ & RB & SE).
  assert (RD : readable (ByEmail (email_query at_end false text) text) db) by (unfold readable; rewrite RB; exact LE).
  destruct (request_ids (l_hash L) _ db HH RQ HD RD) as (inp & EI & _). cbn [request_input] in EI.
  exists inp. split; [exact EI|]. rewrite <- (count_ext _ _ db SE).
  apply (stats_count L cs db now0 now1 (ByEmail (email_query at_end false text) text) inp w); auto.
Qed.

Lemma algo_stats L cs db now0 now1 name number w : cipher_ok (l_cipher L) -> hash_ok (l_hash L) -> Forall record_ok db -> zlen db < ModP ->
  algo_number name = Some number ->
  stats_world L cs db now0 now1 (mkInfo target_algo 0 0 false false false) (to_pka_client name) w ->
  stats_query L cs w (mkInfo target_algo 0 0 false false false) (to_pka_client name) =
    Ok (count_matching (fun ki => ki_algo ki =? number) db).
Proof.
  intros HC HH HD HN EN W. change (mkInfo target_algo 0 0 false false false) with (request_info (ByAlgo name)).
  rewrite (stats_count L cs db now0 now1 (ByAlgo name) (to_pka_client name) w); auto.
  - f_equal. apply count_ext. intros ki. cbn [selects]. rewrite EN. reflexivity.
  - cbn [request_ok]. rewrite EN. discriminate.
  - left. cbn [request_bytes]. lia.
Qed.

Lemma year_stats L cs db now0 now1 v w : cipher_ok (l_cipher L) -> hash_ok (l_hash L) -> Forall record_ok db -> zlen db < ModP ->
  request_ok (ByCreation v) ->
  (forall inp, to_creation_client (Some v) = Ok inp -> stats_world L cs db now0 now1 (mkInfo target_creation 0 0 false false false) inp w) ->
  exists inp, to_creation_client (Some v) = Ok inp /\
    stats_query L cs w (mkInfo target_creation 0 0 false false false) inp = Ok (count_matching (selects (l_hash L) (ByCreation v)) db).
Proof.
  intros HC HH HD HN RQ W.
  assert (RD : readable (ByCreation v) db) by (left; cbn [request_bytes]; lia).
  destruct (request_ids (l_hash L) _ db HH RQ HD RD) as (inp & EI & _). cbn [request_input] in EI.
  exists inp. split; [exact EI|]. apply (stats_count L cs db now0 now1 (ByCreation v) inp w); auto.
Qed.

Lemma to_email_same H q q' text : q_from_start q = q_from_start q' -> q_from_end q = q_from_end q' -> to_email_client H q text = to_email_client H q' text.
Proof. intros E1 E2. unfold to_email_client, id_for_email. rewrite ?E1, ?E2. reflexivity. Qed.

Lemma avg_stats L cs db at_end text w year : cipher_ok (l_cipher L) -> hash_ok (l_hash L) -> Forall record_ok db -> zlen db < ModP ->
  text <> [] -> bytes text -> legible text db -> year < 2 ^ 33 ->
  (forall inp, to_email_client (l_hash L) (email_query at_end true text) text = Ok inp ->
     stats_world L cs db (fun _ => year) (fun _ => year) (email_query at_end true text) inp w) ->
  let chosen := filter (fun ki => addresses_with at_end text ki && (time_year (ki_time ki) <=? year)) db in
  0 < zlen chosen -> zsum (ages year chosen) < ModP ->
  exists inp, interactive_avg (l_hash L) at_end text = Ok (email_query at_end true text, inp) /\
    stats_query L cs w (email_query at_end true text) inp = Ok (zsum (ages year chosen) / zlen chosen).
Proof.
  intros HC HH HD HN NT BT LE HY W chosen CP HS. destruct (email_request (l_hash L) at_end text NT BT) as (RQ & RB & _).
  assert (RD : readable (ByEmail (email_query at_end false text) text) db) by (unfold readable; rewrite RB; exact LE).
  destruct (request_ids (l_hash L) _ db HH RQ HD RD) as (inp & EI & _). cbn [request_input] in EI.
  assert (EA : to_email_client (l_hash L) (email_query at_end true text) text = Ok inp).
  { rewrite <- EI. apply to_email_same; destruct at_end; reflexivity. }
  exists inp.
  assert (IA : interactive_avg (l_hash L) at_end text = Ok (email_query at_end true text, inp)).
  { unfold interactive_avg. fold (email_query at_end true text). rewrite EA. reflexivity. }
  split; [exact IA|]. specialize (W inp EA). destruct (stats_infos _ _ _ _ _ _ _ _ W) as (a & b & EO & AG).
  destruct W as (c0 & c1 & i0 & i1 & f0 & f1 & -> & _ & _ & _ & _ & SO & HR & HL & HA & S0 & S1 & UR).
  unfold stats_query. rewrite EO.
  assert (CB : zlen chosen < ModP).
  { pose proof (count_bound (fun ki => addresses_with at_end text ki && (time_year (ki_time ki) <=? year)) db) as X. unfold count_matching in X.
    fold chosen in X. lia. }
  exact (C86_interactive_average (list Z) (l_cipher L) (l_hash L) (w_alphas w) (w_gr w) (w_pred w) c0 c1 year f0 f1 db (w_arrive w) at_end text
    (email_query at_end true text) inp a b HC HH HR HL HA IA NT BT HD LE HY AG S0 S1 SO UR (conj CP CB) HS).
Qed.

(** ** single answers *)
Definition value (l : list Z) : Z := fold_left (fun a c => 10 * a + (c - 48)) l 0.
Lemma value_snoc l c : value (l ++ [c]) = 10 * value l + (c - 48).
Proof. unfold value. rewrite fold_left_app. reflexivity. Qed.
Lemma value_lower l : Forall (fun c => 48 <= c <= 57) l -> 0 <= value l /\ (l <> [] -> hd 0 l <> 48 -> 1 <= value l).
Proof.
  induction l as [|c l IH] using rev_ind; intros F; [split; [cbn; lia|congruence]|].
  apply Forall_app in F as [F Fc]. inversion Fc as [|? ? Hc _]; subst. destruct (IH F) as [A B]. rewrite value_snoc. split; [lia|].
  intros _ HD. destruct l as [|x l]; [cbn in HD; cbn; lia|]. cbn [hd app] in HD. specialize (B ltac:(discriminate) HD). lia.
Qed.
Lemma decimal_same : forall d d' v, decimal_of d v -> decimal_of d' v -> d = d'.
Proof.
  induction d as [|c l IH] using rev_ind; intros d' v D D'; [destruct D as (_ & _ & N & _); congruence|].
  destruct D as (F & V & _ & Z0). change (value (l ++ [c]) = v) in V. destruct D' as (F' & V' & N' & Z0'). change (value d' = v) in V'.
  destruct (exists_last N') as (l' & c' & ->). apply Forall_app in F as [F Fc]. apply Forall_app in F' as [F' Fc'].
  inversion Fc as [|? ? Hc _]; subst. inversion Fc' as [|? ? Hc' _]; subst. rewrite !value_snoc in V'. clear Fc Fc'.
  destruct (value_lower l F) as [A B]. destruct (value_lower l' F') as [A' B'].
  assert (C : c = c') by lia. subst c'. assert (V : value l = value l') by lia. f_equal.
  assert (Q : forall l, (hd 0 (l ++ [c]) = 48 -> l ++ [c] = [48]) -> l <> [] -> hd 0 l <> 48).
  { intros [|x m] Z N E; [congruence|]. cbn [hd app] in Z, E. specialize (Z E). destruct m; discriminate Z. }
  destruct l as [|x m].
  - destruct l' as [|x' m']; [reflexivity|]. exfalso. specialize (B' ltac:(discriminate) (Q _ Z0' ltac:(discriminate))). change (value []) with 0 in V. lia.
  - destruct l' as [|x' m']; [exfalso; specialize (B ltac:(discriminate) (Q _ Z0 ltac:(discriminate))); change (value []) with 0 in V; lia|].
    apply (IH _ (value (x :: m))).
    + split; [exact F|]. split; [reflexivity|]. split; [discriminate|]. intros E. exfalso. apply (Q _ Z0 ltac:(discriminate) E).
    + split; [exact F'|]. split; [symmetry; exact V|]. split; [discriminate|]. intros E. exfalso. apply (Q _ Z0' ltac:(discriminate) E).
Qed.
Lemma decimal_unique d v : decimal_of d v -> 0 <= v < 2 ^ 63 -> d = itoa v.
Proof. intros D B. apply (decimal_same _ _ v D). apply itoa_decimal. exact B. Qed.

Lemma ModP_small : ModP < 2 ^ 63. Proof. reflexivity. Qed.
Lemma shows_line description n line : 0 <= n < ModP -> shows description n line -> line = result_line description n.
Proof.
  intros B (d & D & ->). pose proof ModP_small. rewrite (decimal_unique d n D) by lia. reflexivity.
Qed.
Lemma number_page_page n p : 0 <= n < ModP -> number_page n p -> p = write no_page (lit "count: " ++ itoa n).
Proof.
  intros B (d & D & ->). pose proof ModP_small. rewrite (decimal_unique d n D) by lia. reflexivity.
Qed.

Lemma admitted_first refused d v later : Forall (fun t => forall n, 0 <= n -> atoi t <> Some n) refused -> atoi d = Some v -> 0 <= v ->
  admitted_year (refused ++ d :: later) = Ok d.
Proof.
  intros F E B. induction F as [|t r N F IH]; cbn [app admitted_year].
  - rewrite E. destruct (Z.ltb_spec v 0); [lia|reflexivity].
  - destruct (atoi t) as [y|] eqn:ET; [|exact IH]. destruct (Z.ltb_spec y 0); [exact IH|]. exfalso. apply (N y); auto.
Qed.

Lemma text_of_lit s : text_of (lit s) = s.
Proof. apply text_lit. Qed.

Section Answers.
Variables (L : libraries) (auth : bool) (keys : list pkey) (srvs : list (runtime * list (list pkey))) (dbs : list bytes_db) (db : list key_info).
Variables (ps cs : list (list Z)).
Hypothesis DP : deployment L auth keys srvs dbs db.

Lemma deployment_hash : hash_ok (l_hash L).
Proof using DP. destruct DP as ((HH & _) & _). exact HH. Qed.

Lemma count_ok f : 0 <= count_matching f db < ModP.
Proof using DP. destruct DP as (_ & _ & _ & _ & N). pose proof (count_bound f db). lia. Qed.

Lemma turn_right w t lines : rightly_answered L ps cs keys dbs db (w, t) lines -> answer_turn L ps cs w t = (lines, Waiting).
Proof using DP.
  pose proof deployment_hash as HH. pose proof DP as (DD & D3 & HC & HR & HN). intros R. inversion R; subst.
  - match goal with X : lookup_world _ _ _ _ |- _ => rename X into W end. cbn [answer_turn]. rewrite (lookup_answers _ _ _ _ W).
    destruct W as (W1 & W2 & W3 & W4).
    destruct (C106_found _ _ _ (l_dpf L) auth keys srvs dbs (w_described w (map (w_pinfo w) ps)) (w_rnd w) (w_arrive w) key DD D3
      (lookup_described L ps dbs w (conj W1 (conj W2 (conj W3 W4)))) W4 W3 ltac:(assumption)) as (_ & E & _). rewrite E. reflexivity.
  - match goal with X : lookup_world _ _ _ _ |- _ => rename X into W end. cbn [answer_turn]. rewrite (lookup_answers _ _ _ _ W).
    destruct W as (W1 & W2 & W3 & W4).
    destruct (C106_not_found _ _ _ (l_dpf L) auth keys srvs dbs (w_described w (map (w_pinfo w) ps)) (w_rnd w) (w_arrive w) email DD D3
      (lookup_described L ps dbs w (conj W1 (conj W2 (conj W3 W4)))) W4 W3 ltac:(assumption) ltac:(assumption)) as (_ & E & _). rewrite E. reflexivity.
  - match goal with X : shows _ _ _ |- _ => apply shows_line in X; [subst line|apply count_ok] end.
    match goal with X : forall inp, _ -> stats_world _ _ _ _ _ _ _ _ |- _ =>
      destruct (email_stats L cs db now0 now1 at_end text w HC HH HR HN ltac:(assumption) ltac:(assumption) ltac:(assumption) X) as (inp & EI & ES) end.
    cbn [answer_turn get_stats bind wrap count_query].
    replace (select positions (Some (if at_end then 1%nat else 0%nat))) with (@Ok string (place at_end)) by (destruct at_end; reflexivity).
    cbn [bind input]. unfold interactive_email.
    replace (String.eqb (place at_end) "end with") with at_end by (destruct at_end; reflexivity).
    cbv zeta. fold (email_query at_end false text). rewrite EI. cbn [bind wrap]. rewrite ES. reflexivity.
  - match goal with X : shows _ _ _ |- _ => apply shows_line in X; [subst line|apply count_ok] end.
    cbn [answer_turn get_stats bind wrap count_query].
    replace (select algos (Some i)) with (@Ok string name).
    2:{ symmetry. unfold select. unfold algos. match goal with X : nth_error _ i = Some name |- _ => rewrite X end. reflexivity. }
    cbn [bind wrap]. rewrite (algo_stats L cs db now0 now1 name number w); auto.
  - match goal with X : shows _ _ _ |- _ => apply shows_line in X; [subst line|apply count_ok] end.
    match goal with X : decimal_of d v |- _ => pose proof (atoi_decimal d v X ltac:(assumption)) as EA end.
    match goal with X : forall inp, _ -> stats_world _ _ _ _ _ _ _ _ |- _ =>
      destruct (year_stats L cs db now0 now1 v w HC HH HR HN ltac:(assumption) X) as (inp & EI & ES) end.
    cbn [answer_turn get_stats bind wrap count_query]. rewrite (admitted_first refused d v later) by (auto; lia).
    cbn [bind]. unfold interactive_year. rewrite EA. destruct (Z.ltb_spec v 0); [lia|]. rewrite EI. cbn [bind wrap]. rewrite ES. reflexivity.
  - match goal with X : shows _ _ _ |- _ => apply shows_line in X; [subst line|] end.
    2:{ assert (N : 0 <= zsum (ages year chosen)).
        { unfold chosen. clear. induction db as [|ki t IH]; cbn [filter]; [cbn; lia|].
          destruct (_ && _) eqn:E; [|exact IH]. cbn [ages map zsum]. apply andb_true_iff in E as [_ E]. apply Z.leb_le in E. unfold ages in IH. lia. }
        split; [apply Z.div_pos; lia|]. apply Z.le_lt_trans with (zsum (ages year chosen)); [|assumption]. apply Z.div_le_upper_bound; [lia|nia]. }
    match goal with X : forall inp, _ -> stats_world _ _ _ _ _ _ _ _ |- _ =>
      destruct (avg_stats L cs db at_end text w year HC HH HR HN ltac:(assumption) ltac:(assumption) ltac:(assumption) ltac:(assumption) X
        ltac:(assumption) ltac:(assumption)) as (inp & EI & ES) end.
    cbn [answer_turn get_stats bind wrap].
    replace (select positions (Some (if at_end then 1%nat else 0%nat))) with (@Ok string (place at_end)) by (destruct at_end; reflexivity).
    cbn [bind input]. replace (String.eqb (place at_end) "end with") with at_end by (destruct at_end; reflexivity).
    rewrite EI. cbn [bind wrap fst snd]. rewrite ES. reflexivity.
Qed.

Lemma field_get name form v : field name form v -> form_get (lit name) form = v.
Proof.
  intros (b & a & -> & F). induction F as [|[n x] b N F IH]; cbn [app form_get].
  - rewrite bytes_equal_refl. reflexivity.
  - cbn [fst] in N. rewrite bytes_equal_neq by auto. exact IH.
Qed.

Variable X : http_library.
Hypothesis CX : clean_ok X.

Lemma clean_here p : In p ["/"; "/retrieve"; "/count/email"; "/count/algo"; "/count/timestamp"; "/static"]%string ->
  negb (bytes_equal (h_clean X (lit p)) (lit p)) = false.
Proof using CX. intros I. unfold clean_ok in CX. rewrite Forall_forall in CX. rewrite (CX p I), bytes_equal_refl. reflexivity. Qed.

Lemma route_retrieve w h form : route X L ps cs w (mkReq (lit "/retrieve") h form) =
  web_retrieve (l_pgp L) (l_hash L) (l_bucket L) (l_dpf L) (w_described w (map (w_pinfo w) ps)) (w_rnd w) (map (w_point w) ps) (w_arrive w) form.
Proof using CX. unfold route. cbn [rq_path rq_form]. rewrite clean_here by (cbn; tauto). reflexivity. Qed.
Lemma route_email w h form : route X L ps cs w (mkReq (lit "/count/email") h form) =
  with_form form (fun f => web_email (l_hash L) (stats_query L cs w) (form_get (lit "position") f) (form_get (lit "text") f)).
Proof using CX. unfold route. cbn [rq_path rq_form]. rewrite clean_here by (cbn; tauto). reflexivity. Qed.
Lemma route_algo w h form : route X L ps cs w (mkReq (lit "/count/algo") h form) =
  with_form form (fun f => web_algo (stats_query L cs w) (form_get (lit "algo") f)).
Proof using CX. unfold route. cbn [rq_path rq_form]. rewrite clean_here by (cbn; tauto). reflexivity. Qed.
Lemma route_year w h form : route X L ps cs w (mkReq (lit "/count/timestamp") h form) =
  with_form form (fun f => web_year (stats_query L cs w) (form_get (lit "year") f)).
Proof using CX. unfold route. cbn [rq_path rq_form]. rewrite clean_here by (cbn; tauto). reflexivity. Qed.

Lemma page_right w rq p : rightly_served L ps cs keys dbs db (w, rq) p -> route X L ps cs w rq = Ok p.
Proof using DP CX.
  pose proof deployment_hash as HH. pose proof DP as (DD & D3 & HC & HR & HN). intros R. inversion R; subst.
  - match goal with Y : lookup_world _ _ _ _ |- _ => rename Y into W end. rewrite route_retrieve, (lookup_answers _ _ _ _ W).
    destruct W as (W1 & W2 & W3 & W4).
    destruct (C106_found _ _ _ (l_dpf L) auth keys srvs dbs (w_described w (map (w_pinfo w) ps)) (w_rnd w) (w_arrive w) key DD D3
      (lookup_described L ps dbs w (conj W1 (conj W2 (conj W3 W4)))) W4 W3 ltac:(assumption)) as (E & _). apply E; assumption.
  - match goal with Y : lookup_world _ _ _ _ |- _ => rename Y into W end. rewrite route_retrieve, (lookup_answers _ _ _ _ W).
    destruct W as (W1 & W2 & W3 & W4).
    destruct (C106_not_found _ _ _ (l_dpf L) auth keys srvs dbs (w_described w (map (w_pinfo w) ps)) (w_rnd w) (w_arrive w) email DD D3
      (lookup_described L ps dbs w (conj W1 (conj W2 (conj W3 W4)))) W4 W3 ltac:(assumption) ltac:(assumption)) as (E & _). apply E; assumption.
  - match goal with Y : number_page _ _ |- _ => apply number_page_page in Y; [subst p|apply count_ok] end.
    match goal with Y : forall inp, _ -> stats_world _ _ _ _ _ _ _ _ |- _ =>
      destruct (email_stats L cs db now0 now1 at_end text w HC HH HR HN ltac:(assumption) ltac:(assumption) ltac:(assumption) Y) as (inp & EI & ES) end.
    rewrite route_email. cbn [with_form].
    match goal with Y : field "position" _ _ |- _ => rewrite (field_get _ _ _ Y) end.
    match goal with Y : field "text" _ _ |- _ => rewrite (field_get _ _ _ Y) end.
    unfold web_email. rewrite (bytes_equal_neq text []) by assumption.
    destruct at_end; cbv zeta; unfold email_query in EI, ES.
    + change (bytes_equal (lit "end") []) with false. change (bytes_equal (lit "end") (lit "begin")) with false.
      change (bytes_equal (lit "end") (lit "end")) with true. cbv iota. rewrite EI. cbn [bind]. rewrite ES. reflexivity.
    + change (bytes_equal (lit "begin") []) with false. change (bytes_equal (lit "begin") (lit "begin")) with true.
      cbv iota. rewrite EI. cbn [bind]. rewrite ES. reflexivity.
  - match goal with Y : number_page _ _ |- _ => apply number_page_page in Y; [subst p|apply count_ok] end.
    rewrite route_algo. cbn [with_form].
    match goal with Y : field "algo" _ _ |- _ => rewrite (field_get _ _ _ Y) end. unfold web_algo. rewrite text_of_lit.
    rewrite bytes_equal_neq.
    2:{ intros E. destruct name; [|discriminate E]. match goal with Y : algo_number _ = _ |- _ => discriminate Y end. }
    rewrite (algo_stats L cs db now0 now1 name number w); auto.
  - match goal with Y : number_page _ _ |- _ => apply number_page_page in Y; [subst p|apply count_ok] end.
    match goal with Y : decimal_of d v |- _ => pose proof (atoi_decimal d v Y ltac:(assumption)) as EA; destruct Y as (_ & _ & NE & _) end.
    match goal with Y : forall inp, _ -> stats_world _ _ _ _ _ _ _ _ |- _ =>
      destruct (year_stats L cs db now0 now1 v w HC HH HR HN ltac:(assumption) Y) as (inp & EI & ES) end.
    rewrite route_year. cbn [with_form].
    match goal with Y : field "year" _ _ |- _ => rewrite (field_get _ _ _ Y) end. unfold web_year. rewrite bytes_equal_neq by assumption.
    rewrite EA, EI. cbn [bind]. rewrite ES. reflexivity.
Qed.
End Answers.

(** ** whole sessions *)
Lemma session_cons L ps cs w t rest : session L ps cs ((w, t) :: rest) =
  match snd (answer_turn L ps cs w t) with
  | Waiting => (fst (answer_turn L ps cs w t) ++ fst (session L ps cs rest), snd (session L ps cs rest))
  | e => (fst (answer_turn L ps cs w t), e)
  end.
Proof. cbn [session]. destruct (answer_turn L ps cs w t) as [s e]. destruct e; cbn [fst snd]; auto. destruct (session L ps cs rest). reflexivity. Qed.

Lemma session_app L ps cs a b : session L ps cs (a ++ b) =
  match snd (session L ps cs a) with
  | Waiting => (fst (session L ps cs a) ++ fst (session L ps cs b), snd (session L ps cs b))
  | e => (fst (session L ps cs a), e)
  end.
Proof.
  induction a as [|[w t] a IH]; [cbn [app session fst snd]; destruct (session L ps cs b); reflexivity|].
  cbn [app]. rewrite !session_cons. destruct (snd (answer_turn L ps cs w t)); cbn [fst snd]; auto.
  rewrite IH. destruct (snd (session L ps cs a)); cbn [fst snd]; auto. rewrite app_assoc. reflexivity.
Qed.

Lemma serve_app X L ps cs a b : serve_web X L ps cs (a ++ b) =
  match snd (serve_web X L ps cs a) with
  | None => (fst (serve_web X L ps cs a) ++ fst (serve_web X L ps cs b), snd (serve_web X L ps cs b))
  | Some m => serve_web X L ps cs a
  end.
Proof.
  induction a as [|[w rq] a IH]; [cbn [app serve_web fst snd]; destruct (serve_web X L ps cs b); reflexivity|].
  cbn [app serve_web]. destruct (route X L ps cs w rq); auto; rewrite IH; destruct (serve_web X L ps cs a) as [l [msg|]]; cbn [fst snd app];
    try destruct (serve_web X L ps cs b); reflexivity.
Qed.

Lemma serve_one X L ps cs w rq : serve_web X L ps cs [(w, rq)] =
  match route X L ps cs w rq with
  | Ok p => ([Some (request_id w rq, p)], None)
  | Fatal m => ([], Some m)
  | _ => ([None], None)
  end.
Proof. cbn [serve_web]. destruct (route X L ps cs w rq); reflexivity. Qed.

(** the responses are those of the requests before the one that ends the server *)
Lemma serve_nth X L ps cs : forall reqs i r, nth_error (fst (serve_web X L ps cs reqs)) i = Some r ->
  exists w rq, nth_error reqs i = Some (w, rq) /\ serve_web X L ps cs [(w, rq)] = ([r], None).
Proof.
  induction reqs as [|[w rq] t IH]; intros i r E; [destruct i; discriminate E|].
  cbn [serve_web] in E. destruct i as [|i].
  - exists w, rq. split; [reflexivity|]. rewrite serve_one. destruct (route X L ps cs w rq); try (cbn in E; discriminate E);
      destruct (serve_web X L ps cs t); cbn in E; injection E as <-; reflexivity.
  - destruct (route X L ps cs w rq); try (cbn in E; discriminate E);
      destruct (serve_web X L ps cs t); cbn [fst nth_error] in *; apply IH; exact E.
Qed.
