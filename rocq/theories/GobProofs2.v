From Coq Require Import String ZArith List Bool Lia.
From Verif Require Import GoBase BaseFacts FieldModel EncodingModel EncodingProofs MerkleModel FSSModel FSSProofs PredicateModel PredicateProofs PointModel DirectoryModel FrontendModel FrontendSpec FrontendProofs2
  FilesModel KeyPageModel SessionModel WireModel WireSpec WireProofs GobModel GobSpec GobProofs.
Import ListNotations.
Open Scope Z_scope.
Open Scope go_scope.

(** ** the keys of a client fit *)

Lemma loop_words enc : cipher_ok enc -> forall a s0 s1 t0 t1 cws st, seed_ok s0 -> seed_ok s1 -> is_bit t0 -> is_bit t1 -> Z.lxor t0 t1 = 1 ->
  gen_loop enc a s0 s1 t0 t1 = Ok (cws, st) -> length cws = length a /\ Forall (fun w => length w = 18%nat) cws.
Proof.
  intros HC. induction a as [|ab a IH]; intros s0 s1 t0 t1 cws st H0 H1 B0 B1 HX E; cbn [gen_loop] in E.
  - injection E as <- <-. auto.
  - destruct (joint_step enc ab ab s0 s1 t0 t1 HC H0 H1 B0 B1 HX) as (cw & s0' & s1' & t0' & t1' & s0x & s1x & t0x & t1x & G & _ & _ & K0 & K1 & C0 & C1 & CX & _).
    destruct (gen_step_spec enc ab s0 s1 t0 t1 HC H0 H1) as (o0 & o1 & scw & tl & tr & _ & _ & _ & _ & _ & _ & _ & LS & _ & _ & _ & _ & _ & G').
    rewrite G in E. cbn [bind] in E. destruct (gen_loop enc a s0' s1' t0' t1') as [[cws' st']| | |] eqn:GL; try discriminate. cbn [bind fst snd] in E.
    injection E as <- <-. destruct (IH _ _ _ _ _ _ K0 K1 C0 C1 CX GL) as (L & F). split; [cbn [length]; lia|]. constructor; [|exact F].
    rewrite G in G'. assert (EC : cw = scw ++ [tl; tr]) by congruence. rewrite EC, app_length, LS. reflexivity.
Qed.
Lemma final_cw_u32 t1 b y z : 0 <= final_cw t1 b y z < 2 ^ 32.
Proof.
  unfold final_cw. cbv zeta. assert (HP : ModP = 2147483647) by reflexivity.
  destruct (t1 =? 1).
  - unfold u32, w32. change (2 ^ 32) with 4294967296. apply Z.mod_pos_bound. lia.
  - match goal with |- 0 <= ?x mod ModP < _ => pose proof (Z.mod_pos_bound x ModP ltac:(lia)) end. lia.
Qed.
Lemma final_cws_u32 t1 : forall b y z, Forall (fun v => 0 <= v < 2 ^ 32) (final_cws t1 b y z).
Proof. induction b as [|x b IH]; intros [|y ys] [|z zs]; cbn [final_cws]; constructor; auto using final_cw_u32. Qed.

Lemma keys_fit enc bl a b r k0 k1 fg : cipher_ok enc -> rand_ok r -> zlen a <= 40000000 -> zlen b <= 1000000 ->
  generate_tree_pf enc bl a b r = Ok (k0, k1, fg) -> key_fits k0 /\ key_fits k1 /\ zlen (k_cw k0) = zlen a /\ zlen (k_cw k1) = zlen a.
Proof.
  intros HC (L0 & Y0 & L1 & Y1) LA LB E. pose proof (generate_payload_length _ _ _ _ _ _ _ _ E) as (P0 & P1). unfold generate_tree_pf in E. cbv zeta in E.
  set (t0 := nth 16 (r_seed0 r) 0 mod 2) in *.
  assert (B0 : is_bit t0) by (unfold t0, is_bit; lia).
  assert (B1 : is_bit (Z.lxor t0 1)) by (apply xor_bits; auto; right; auto).
  assert (BX : Z.lxor t0 (Z.lxor t0 1) = 1) by (destruct B0 as [-> | ->]; reflexivity).
  assert (S0 : seed_ok (firstn 16 (r_seed0 r))). { split; [rewrite firstn_length, L0; auto|apply Forall_firstn'; auto]. }
  assert (S1 : seed_ok (r_seed1 r)) by (split; auto).
  destruct (gen_loop enc a (firstn 16 (r_seed0 r)) (r_seed1 r) t0 (Z.lxor t0 1)) as [[cws [[[s0' s1'] t0'] t1']]| | |] eqn:G; try discriminate. cbn [bind] in E.
  destruct (loop_words enc HC _ _ _ _ _ _ _ S0 S1 B0 B1 BX G) as (LC & FC).
  destruct (convert_block enc bl (r_fresh0 r) s0' (length b)) as [c0| | |]; try discriminate. cbn [bind] in E.
  destruct (convert_block enc bl (r_fresh1 r) s1' (length b)) as [c1| | |]; try discriminate. cbn [bind] in E.
  assert (ZS : zlen (firstn 16 (r_seed0 r)) <= 1000) by (unfold zlen; rewrite (proj1 S0); lia).
  remember (firstn 16 (r_seed0 r)) as sd eqn:ESD. clear ESD.
  set (f := final_cws t1' b (map fst c0) (map fst c1)) in *. injection E as <- <- _. cbn [k_finalcw k_cw] in *.
  assert (ZC : zlen cws = zlen a) by (unfold zlen; rewrite LC; reflexivity).
  assert (ZF : zlen f = zlen b) by (unfold zlen; rewrite P0; reflexivity).
  conj_split; auto; unfold key_fits; cbn [k_sinit k_tinit k_cw k_finalcw]; conj_split; auto; try lia; try apply final_cws_u32.
  all: try (unfold zlen; rewrite ?firstn_length, ?L0, ?L1; cbn; lia).
  all: try (destruct B0 as [X | X]; rewrite X; lia).
  all: try (destruct B1 as [X | X]; rewrite X; lia).
Qed.

(** ** the questions through bytes *)


Lemma send_all_ext {C Q Q' A} (serve : C -> Q -> option A) (serve' : C -> Q' -> option A) (qs : list Q) (qs' : list Q') : forall conns j,
  length qs = length qs' ->
  Forall (fun c => Forall2 (fun q q' => serve c q = serve' c q') qs qs') conns -> send_all serve conns qs j = send_all serve' conns qs' j.
Proof.
  induction conns as [|c conns IH]; intros j L F; [reflexivity|]. inversion F as [|? ? Fc F']; subst. cbn [send_all].
  assert (X : (exists q q', go_index qs j = Ok q /\ go_index qs' j = Ok q' /\ serve c q = serve' c q') \/ (exists m, go_index qs j = Panic m /\ go_index qs' j = Panic m)).
  { destruct (Z.lt_ge_cases j 0) as [N|N]; [|destruct (Z.lt_ge_cases j (zlen qs)) as [N'|N']].
    - right. eexists. rewrite !go_index_panic by lia. auto.
    - left. assert (J : (Z.to_nat j < length qs)%nat) by (unfold zlen in N'; lia).
      assert (NE : exists q q', nth_error qs (Z.to_nat j) = Some q /\ nth_error qs' (Z.to_nat j) = Some q' /\ serve c q = serve' c q').
      { revert J. generalize (Z.to_nat j). clear - Fc. induction Fc as [|q q' l l' Hq _ IH]; intros n J; cbn [length] in J; [lia|].
        destruct n as [|n]; cbn [nth_error]; [exists q, q'; auto|apply IH; lia]. }
      destruct NE as (q & q' & E & E' & S). exists q, q'. unfold go_index. replace (j <? 0) with false by (symmetry; apply Z.ltb_ge; lia). rewrite E, E'. auto.
    - right. eexists. rewrite !go_index_panic by (unfold zlen in *; lia). auto. }
  destruct X as [(q & q' & E & E' & S)|(m & E & E')]; rewrite E, E'; cbn [bind]; [|reflexivity]. rewrite S. destruct (serve' c q'); [|reflexivity]. rewrite IH; auto.
Qed.

Lemma ask_same {C} g enc e alphas r (serve : C -> list Z -> res (list Z)) (serve' : C -> qinfo * fss_key -> option (list Z)) conns arrive n q inp b :
  cipher_ok enc -> rand_ok r -> zlen alphas <= 1000 -> understood (server_type g) (is_server g) ->
  client_fits (Some (q, []), inp) -> decode_client g b = Ok (Some (q, []), inp) ->
  (forall c k b, In c conns -> key_fits k -> zlen (k_cw k) = zlen inp -> encode_server g (Some (q, []), k) = Ok b -> to_option (serve c b) = serve' c (q, k)) ->
  ask_bytes g enc e alphas r serve conns arrive n b = exchange enc e alphas r serve' conns arrive n q inp.
Proof.
  intros HC HR LA U (FI & LI) D S. cbn [fst snd] in *. unfold ask_bytes, predicate_query_bytes, exchange. rewrite D. cbn [bind fst snd].
  destruct (client_query enc e alphas r inp n) as [[[k0 k1] fg]| | |] eqn:EQ; cbn [bind]; auto.
  assert (F : key_fits k0 /\ key_fits k1 /\ zlen (k_cw k0) = zlen inp /\ zlen (k_cw k1) = zlen inp).
  { unfold client_query in EQ. destruct (negb (n =? 2)); [discriminate|]. eapply keys_fit; eauto. unfold zlen in *. cbn [length]. lia. }
  destruct F as (F0 & F1 & C0 & C1).
  assert (SF : forall k, key_fits k -> server_fits (Some (q, []), k)) by (intros k Fk; split; cbn [fst snd]; auto).
  destruct (server_arrives g g (Some (q, []), k0) [] U (SF k0 F0)) as (b0 & E0 & _). destruct (server_arrives g g (Some (q, []), k1) [] U (SF k1 F1)) as (b1 & E1 & _).
  cbn [mapM]. unfold full_info in *. rewrite E0, E1. cbn [bind].
  rewrite (send_all_ext _ serve' [b0; b1] [(q, k0); (q, k1)]); [reflexivity|reflexivity|].
  apply Forall_forall. intros c IC. repeat constructor; unfold to_option in S; eauto.
Qed.

(** Servers reached through the network, which decode the queries themselves *)
Lemma network_same E g g' (h : server_fss -> res (list Z)) q k b : gzip_ok E -> understood (server_type g) (is_server g') ->
  info_fits (q, []) -> key_fits k -> (forall x a, h x = Ok a -> small a) -> encode_server g (Some (q, []), k) = Ok b ->
  to_option (over_network E (fun b => x <- decode_server g' b ;; h x) b) = to_option (h (Some (q, []), k)).
Proof.
  intros GZ U FI FK SM EB.
  destruct (server_arrives g g' (Some (q, []), k) [] U) as (b' & EB' & LB & D). { split; cbn [fst snd]; [congruence|auto]. }
  assert (b' = b) by congruence. subst b'. rewrite app_nil_r in D.
  assert (SB : small b). { unfold small. destruct FK as (_ & _ & C & _ & F & _). cbn [targets fst snd] in LB. cbn [length] in LB. unfold zlen in LB at 2. cbn [length] in LB. lia. }
  assert (EH : (fun b => x <- decode_server g' b ;; h x) b = h (Some (q, []), k)) by (cbv beta; rewrite D; reflexivity).
  destruct (h (Some (q, []), k)) as [a|m|m|m] eqn:HX.
  - rewrite (remote_ok E _ b a GZ SB (SM _ _ HX) EH). reflexivity.
  - destruct (remote_ends E (serve_query E (fun b => x <- decode_server g' b ;; h x)) b GZ) as [(a & R)|(x & R)].
    + fold (over_network E (fun b => x <- decode_server g' b ;; h x)) in R. apply remote_inv in R as (R & _); auto. congruence.
    + unfold over_network. rewrite R. reflexivity.
  - destruct (remote_ends E (serve_query E (fun b => x <- decode_server g' b ;; h x)) b GZ) as [(a & R)|(x & R)].
    + fold (over_network E (fun b => x <- decode_server g' b ;; h x)) in R. apply remote_inv in R as (R & _); auto. congruence.
    + unfold over_network. rewrite R. reflexivity.
  - destruct (remote_ends E (serve_query E (fun b => x <- decode_server g' b ;; h x)) b GZ) as [(a & R)|(x & R)].
    + fold (over_network E (fun b => x <- decode_server g' b ;; h x)) in R. apply remote_inv in R as (R & _); auto. congruence.
    + unfold over_network. rewrite R. reflexivity.
Qed.

(** ** answers are short *)
Lemma combine_short {A B C} (f : A * B -> C) a b n : (length a <= n)%nat -> (length (map f (combine a b)) <= n)%nat.
Proof. intros L. rewrite map_length, combine_length. lia. Qed.
Lemma records_inv {S} (P : S -> Prop) db body : (forall i ki st st', P st -> body i ki st = Ok st' -> P st') ->
  forall n i st st', P st -> records_loop db body i n st = Ok st' -> P st'.
Proof.
  intros H. induction n as [|n IH]; intros i st st' Hst E; cbn [records_loop] in E; [congruence|].
  destruct (go_index db (Z.of_nat i)) as [ki| | |]; try discriminate. cbn [bind] in E. destruct (body i ki st) as [s| | |] eqn:EB; try discriminate. cbn [bind] in E.
  eapply IH; [|exact E]. eapply H; eauto.
Qed.
Lemma answer_short enc H n sn db m now fresh q k a fl : answer enc H n sn db m now fresh q k = Ok (a, fl) -> (length a <= 2 * n)%nat.
Proof.
  assert (CNT : forall id, records_loop db (count_body enc sn k fresh n id) 0 m (repeat 0 n, false) = Ok (a, fl) -> (length a <= 2 * n)%nat).
  { intros id E. assert (X : (length (fst (a, fl)) <= n)%nat); [|cbn [fst] in X; lia]. refine (records_inv (fun st => (length (fst st) <= n)%nat) db _ _ m 0%nat _ _ _ E); clear E.
    - intros i ki st st' P E. unfold count_body in E. destruct (id ki) as [[x|]| | |]; cbn [bind] in E; try discriminate; [|congruence].
      destruct (evaluate_pf _ _ _ _ _ _ _) as [e| | |]; try discriminate. cbn [bind] in E. injection E as <-. cbn [fst]. apply combine_short. exact P.
    - cbn [fst]. rewrite repeat_length. lia. }
  unfold answer. cbv zeta. destruct q as [q|]; [|discriminate].
  destruct (negb (q_and q) && negb (q_avg q) && negb (q_sum q)).
  { destruct (_ =? _); [apply CNT|]. destruct (_ =? _); [apply CNT|]. destruct (_ =? _); [apply CNT|discriminate]. }
  destruct (q_and q && negb (q_avg q) && negb (q_sum q)); [apply CNT|]. destruct (q_and q && q_sum q && negb (q_avg q)); [discriminate|].
  destruct (q_and q && q_avg q && negb (q_sum q)); [|discriminate].
  destruct (records_loop db (avg_body enc H q now sn k fresh n) 0 m (repeat 0 n, repeat 0 n, false)) as [[[out sum] f]| | |] eqn:E; try discriminate. cbn [bind].
  intros X. injection X as <- <-. rewrite app_length.
  assert (Y : (length (fst (fst (out, sum, f))) <= n)%nat /\ (length (snd (fst (out, sum, f))) <= n)%nat); [|cbn [fst snd] in Y; lia].
  refine (records_inv (fun st => (length (fst (fst st)) <= n)%nat /\ (length (snd (fst st)) <= n)%nat) db _ _ m 0%nat _ _ _ E); clear E.
  - intros i ki [[o s] g] st' (P1 & P2) E. cbn [fst snd] in *. unfold avg_body in E. destruct (id_for_email H q (ki_email ki)) as [[x|]| | |]; cbn [bind] in E; try discriminate; [|injection E as <-; auto].
    destruct (evaluate_pf _ _ _ _ _ _ _) as [e| | |]; try discriminate. cbn [bind] in E. cbv zeta in E. destruct (_ <? 0); injection E as <-; cbn [fst snd]; auto.
    split; apply combine_short; auto.
  - cbn [fst snd]. rewrite repeat_length. lia.
Qed.
Lemma answer_bytes_small enc H n sn db m now fresh q k a : (n <= 1000)%nat -> answer_bytes enc H n sn db m now fresh q k = Ok a -> small a.
Proof.
  intros N. unfold answer_bytes. destruct (answer enc H n sn db m now fresh q k) as [[x fl]| | |] eqn:E; try discriminate. cbn [bind fst]. intros X. injection X as <-.
  apply answer_short in E. unfold small, zlen. rewrite uint32_slice_to_bytes_length. lia.
Qed.

(** ** honest servers *)
Lemma service_same E g g' D enc H row now fresh other values sn columns rows q k b : gzip_ok E -> understood (server_type g) (is_server g') ->
  info_fits (q, []) -> key_fits k -> (values <= 5)%nat -> encode_server g (Some (q, []), k) = Ok b ->
  to_option (over_network E (service_bytes g' D enc H row now fresh (PredicateService values sn columns rows)) b) =
  answer_predicate enc H row now fresh other (PredicateService values sn columns rows) (q, k).
Proof.
  intros GZ U FI FK V EB.
  refine (network_same E g g' (fun x => answer_bytes enc H values sn (map row rows) (Z.to_nat columns) now fresh (option_map fst (fst x)) (snd x)) q k b GZ U FI FK _ EB).
  intros x a HX. eapply answer_bytes_small; [|exact HX]. lia.
Qed.

(** ** truncated requests *)
Lemma uint_prefix v p s : 0 <= v < 2 ^ 64 -> put_uint v = p ++ s -> s <> [] -> exists m, get_uint p = Err m.
Proof.
  intros Hv E N. unfold put_uint in E. destruct (v <=? 127) eqn:C.
  - destruct p as [|x p]; [eexists; reflexivity|]. cbn [app] in E. injection E as _ E. destruct p; [cbn in E; congruence|discriminate].
  - assert (L : zlen (digits 8 v) <= 8) by (apply digits_length; [change (256 ^ 8) with (2 ^ 64)|]; lia).
    cbv zeta in E. generalize dependent (digits 8 v). intros d E L.
    destruct p as [|x p]; [eexists; reflexivity|]. cbn [app] in E. assert (E1 : 256 - zlen d = x) by congruence. assert (E2 : d = p ++ s) by congruence. cbn [get_uint].
    replace (x <=? 127) with false by (symmetry; apply Z.leb_gt; lia).
    replace (zlen p <? 256 - x) with true; [rewrite orb_true_r; eexists; reflexivity|].
    symmetry. apply Z.ltb_lt. assert (ZD : zlen d = zlen p + zlen s) by (rewrite E2; apply zlen_app'). destruct s; [congruence|]. rewrite zlen_cons' in ZD. pose proof (zlen_nn s). lia.
Qed.
Lemma app_split {A} (a b p s : list A) : a ++ b = p ++ s -> (exists t, a = p ++ t /\ s = t ++ b /\ t <> []) \/ (exists t, p = a ++ t /\ b = t ++ s).
Proof.
  revert p. induction a as [|x a IH]; intros p E; cbn [app] in E.
  - right. exists p. auto.
  - destruct p as [|y p]; cbn [app] in E.
    + left. exists (x :: a). repeat split; auto. discriminate.
    + injection E as <- E. destruct (IH p E) as [(t & Ea & Es & N)|(t & Ep & Eb)].
      * left. exists t. subst. auto.
      * right. exists t. subst. auto.
Qed.
Lemma message_prefix m p s : zlen m < too_big -> put_uint (zlen m) ++ m = p ++ s -> s <> [] -> exists e, get_message p = Err e.
Proof.
  intros L E N. pose proof (zlen_nn m). destruct (app_split _ _ _ _ E) as [(t & Ea & Es & NT)|(t & Ep & Eb)].
  - destruct (uint_prefix (zlen m) p t) as (e & X); auto; [unfold too_big in L; lia|]. exists e. unfold get_message. rewrite X. reflexivity.
  - subst p. unfold get_message. rewrite get_put_uint by (unfold too_big in L; lia). cbn [bind fst snd].
    replace (zlen t <? zlen m) with true; [rewrite orb_true_r; eexists; reflexivity|]. symmetry. apply Z.ltb_lt. rewrite Eb, zlen_app'.
    destruct s; [congruence|]. rewrite zlen_cons'. pose proof (zlen_nn s). lia.
Qed.
Lemma stream_prefix {A} D (get : list Z -> res (A * list Z)) id v : 0 <= id < 2 ^ 62 -> zlen v <= 8000000000 ->
  forall ds, Forall (fun d => 0 < fst d < 2 ^ 62 /\ zlen (snd d) <= 10000) ds -> forall seen fuel p s,
  concat (map def_bytes ds) ++ value_bytes id v = p ++ s -> s <> [] -> exists e, get_stream fuel D get seen p = Err e.
Proof.
  intros I L. induction ds as [|d ds IH]; intros F seen fuel p s E N; (destruct fuel as [|fuel]; [eexists; reflexivity|]); cbn [map concat app get_stream] in *.
  - destruct (message_prefix (put_int id ++ v) p s) as (e & X); auto.
    + rewrite zlen_app'. pose proof (put_int_long id ltac:(lia)). unfold too_big. lia.
    + rewrite X. eexists; reflexivity.
  - inversion F as [|? ? Hd F']; subst. rewrite <- app_assoc in E. destruct (app_split _ _ _ _ E) as [(t & Ea & Es & NT)|(t & Ep & Eb)].
    + destruct (message_prefix (put_int (- fst d) ++ snd d) p t) as (e & X); auto; [apply def_small; exact Hd|]. rewrite X. eexists; reflexivity.
    + subst p. unfold def_bytes at 1. cbv zeta. rewrite get_put_message by (apply def_small; exact Hd). cbn [bind fst snd]. rewrite get_put_int by lia. cbn [bind fst snd].
      replace (- fst d <? 0) with true by (symmetry; apply Z.ltb_lt; lia). eapply IH; eauto.
Qed.
Lemma truncated_refused g D g' q b p s : understood (server_type g) D -> server_fits q -> encode_server g q = Ok b -> b = p ++ s -> s <> [] ->
  exists e, decode_server g' p = Err e.
Proof.
  intros U F E EP N. pose proof (server_long q F) as L. destruct F as (FI & FK).
  assert (TG : targets (fst q) <= 1000000000) by (destruct (fst q) as [i|]; cbn [targets]; [apply (FI i eq_refl)|lia]).
  pose proof FK as (S & T & C & CS & FC & FS). assert (LV : zlen (put_server q) <= 8000000000) by lia.
  unfold encode_server in E. rewrite (put_stream_ok _ _ _ U LV) in E. injection E as E. destruct U as (_ & I & _ & FD).
  eapply stream_prefix; eauto. rewrite E. exact EP.
Qed.

(** ** sizes *)
Lemma string_size a b : length a = length b -> zlen (put_string a) = zlen (put_string b).
Proof. intros L. unfold put_string. rewrite !zlen_app'. unfold zlen. rewrite L. reflexivity. Qed.
Lemma words_size : forall a b, Forall (fun w => length w = 18%nat) a -> Forall (fun w => length w = 18%nat) b -> length a = length b ->
  zlen (put_slice put_string a) = zlen (put_slice put_string b).
Proof.
  intros a b FA FB L. unfold put_slice. rewrite !zlen_app'. f_equal; [unfold zlen; rewrite L; reflexivity|]. revert b FB L.
  induction FA as [|x a Hx FA IH]; intros b FB L; destruct FB as [|y b Hy FB]; cbn [length] in L; try discriminate; [reflexivity|].
  cbn [map concat]. rewrite !zlen_app', (string_size x y) by congruence. rewrite (IH b FB) by lia. reflexivity.
Qed.
Fixpoint same_sizes (a b : list (option (list Z))) : Prop :=
  match a, b with
  | [], [] => True
  | None :: a, None :: b => same_sizes a b
  | Some x :: a, Some y :: b => zlen x = zlen y /\ same_sizes a b
  | _, _ => False
  end.
Lemma struct_size : forall a b g, same_sizes a b -> zlen (put_struct_fields g a) = zlen (put_struct_fields g b).
Proof.
  induction a as [|[x|] a IH]; intros [|[y|] b] g S; cbn [same_sizes] in S; try contradiction; cbn [put_struct_fields]; [reflexivity| |apply IH; exact S].
  destruct S as (E & S). rewrite !zlen_app', E, (IH b 1 S). reflexivity.
Qed.
Lemma key_size k k' : key_fits k -> key_fits k' -> length (k_sinit k) = length (k_sinit k') -> k_tinit k = k_tinit k' -> length (k_cw k) = length (k_cw k') ->
  k_finalcw k = k_finalcw k' -> zlen (put_key k) = zlen (put_key k').
Proof.
  destruct k as [si ti cw fc], k' as [si' ti' cw' fc']. intros (_ & _ & _ & FC & _) (_ & _ & _ & FC' & _) S T C F. cbn [k_sinit k_tinit k_cw k_finalcw] in *. subst ti' fc'.
  unfold put_key. cbn [k_sinit k_tinit k_cw k_finalcw]. apply struct_size.
  pose proof (string_size si si' S) as ZS. pose proof (words_size cw cw' FC FC' C) as ZC. revert ZS ZC.
  generalize (put_string si) (put_string si') (put_slice put_string cw) (put_slice put_string cw') (put_slice put_uint fc). intros a a' b b' c ZS ZC.
  destruct si, si'; cbn [length] in S; try discriminate; destruct cw, cw'; cbn [length] in C; try discriminate;
  unfold nonzero; destruct (ti =? 0); destruct fc; cbn [nonempty same_sizes]; auto.
Qed.
Lemma request_size g D i k k' b b' : understood (server_type g) D -> server_fits (i, k) -> server_fits (i, k') ->
  length (k_sinit k) = length (k_sinit k') -> k_tinit k = k_tinit k' -> length (k_cw k) = length (k_cw k') -> k_finalcw k = k_finalcw k' ->
  encode_server g (i, k) = Ok b -> encode_server g (i, k') = Ok b' -> zlen b = zlen b'.
Proof.
  intros U F F' S T C FW E E'. pose proof (key_size k k' (proj2 F) (proj2 F') S T C FW) as Z.
  assert (SZ : forall k0, server_fits (i, k0) -> zlen (put_server (i, k0)) <= 8000000000).
  { intros k0 F0. pose proof (server_long _ F0) as L. destruct F0 as (FI & FK). cbn [fst snd] in *.
    assert (TG : targets i <= 1000000000) by (destruct i as [j|]; cbn [targets]; [apply (FI j eq_refl)|lia]). destruct FK as (_ & _ & C0 & _ & FC0 & _). lia. }
  unfold encode_server in E, E'. rewrite (put_stream_ok _ _ _ U (SZ k F)) in E. rewrite (put_stream_ok _ _ _ U (SZ k' F')) in E'.
  assert (ZP : zlen (put_server (i, k)) = zlen (put_server (i, k'))). { unfold put_server. cbn [fst snd]. apply struct_size. destruct (put_pointer i); cbn [same_sizes]; auto. }
  injection E as <-. injection E' as <-. rewrite !zlen_app'. f_equal. unfold value_bytes. cbv zeta.
  assert (EM : zlen (put_int (ty_id (server_type g)) ++ put_server (i, k)) = zlen (put_int (ty_id (server_type g)) ++ put_server (i, k'))) by (rewrite !zlen_app'; lia).
  rewrite EM, !zlen_app'. lia.
Qed.
