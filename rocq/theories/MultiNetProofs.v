(** Proofs about runs of the multi-server benchmark for predicate queries. *)
From Coq Require Import String ZArith List Bool Lia Permutation.
From Verif Require Import GoBase BaseFacts FieldModel FSSModel FSSProofs EncodingModel EncodingProofs MerkleModel MerkleSpec PredicateModel PredicateSpec
  PointModel PrgModel LWEModel DirectoryModel FrontendModel FrontendSpec FrontendProofs2 KeyPageModel MultiModel MultiSpec MultiProofs MultiProofs2 MultiProofs3 BenchModel ChannelModel
  WireModel WireSpec WireProofs GobModel GobSpec GobProofs GobProofs2 MultiNetModel.
Import ListNotations.
Open Scope Z_scope.
Open Scope go_scope.

(** ** sizes *)
Lemma words_long (l : list Z) : Forall (fun v => 0 <= v < 2 ^ 32) l -> zlen l <= zlen (concat (map put_uint l)) <= 5 * zlen l.
Proof.
  intros F. split.
  - apply concat_long. eapply Forall_impl; [|exact F]. intros v Hv. cbv beta in Hv. apply put_uint_long. lia.
  - apply concat_bound. eapply Forall_impl; [|exact F]. intros v Hv. cbv beta in Hv. apply (put_uint_length v 4); [change (256 ^ 4) with (2 ^ 32)|]; lia.
Qed.
Lemma cw_long (l : list (list Z)) : Forall (fun w => length w = 18%nat) l -> zlen (concat (map put_string l)) = 19 * zlen l.
Proof.
  induction 1 as [|w l Hw _ IH]; [reflexivity|]. cbn [map concat]. rewrite zlen_app', IH, zlen_cons'. unfold put_string. rewrite zlen_app'.
  replace (zlen w) with 18 by (unfold zlen; rewrite Hw; reflexivity). change (zlen (put_uint 18)) with 1. lia.
Qed.
Definition flag_size (k : fss_key) : Z := if k_tinit k =? 0 then 0 else 2.
Lemma key_exact k : key_fits k -> zlen (k_sinit k) = 16 -> 0 < zlen (k_cw k) -> 0 < zlen (k_finalcw k) <= 100 ->
  zlen (put_key k) = 22 + (if k_tinit k =? 0 then 0 else 1 + zlen (put_uint (k_tinit k))) + zlen (put_uint (zlen (k_cw k))) + 19 * zlen (k_cw k) + zlen (concat (map put_uint (k_finalcw k))).
Proof.
  destruct k as [si ti cw fc]. intros (_ & _ & _ & FC & _ & FS) S C F. cbn [k_sinit k_tinit k_cw k_finalcw] in *.
  unfold put_key. cbn [k_sinit k_tinit k_cw k_finalcw].
  assert (ES : nonempty si (put_string si) = Some (put_string si)) by (destruct si; [discriminate S|reflexivity]).
  assert (EC : nonempty cw (put_slice put_string cw) = Some (put_slice put_string cw)) by (destruct cw; [unfold zlen in C; cbn [length] in C; lia|reflexivity]).
  assert (EF : nonempty fc (put_slice put_uint fc) = Some (put_slice put_uint fc)) by (destruct fc; [unfold zlen in F; cbn [length] in F; lia|reflexivity]).
  rewrite ES, EC, EF. unfold nonzero, put_struct. destruct (ti =? 0); cbn [put_struct_fields].
  all: change (put_uint 1) with [1]; change (put_uint (1 + 1)) with [2]; change (put_uint 0) with [0].
  all: rewrite !zlen_app'; unfold put_string at 1, put_slice; rewrite !zlen_app', S, (cw_long cw FC); change (zlen (put_uint 16)) with 1.
  all: assert (L1 : zlen (put_uint (zlen fc)) = 1) by (unfold put_uint; replace (zlen fc <=? 127) with true by (symmetry; apply Z.leb_le; lia); reflexivity).
  all: change (zlen [1]) with 1; change (zlen [2]) with 1; change (zlen [0]) with 1; lia.
Qed.

Definition text_info (n : Z) : full_info := (mkInfo target_userid n 0 false false false, []).
Lemma info_exact n : 0 < n -> zlen (put_info (text_info n)) = 2 + zlen (put_int n).
Proof.
  intros N. unfold put_info, text_info. cbn [fst snd q_target q_from_start q_from_end q_and q_avg q_sum]. unfold nonzero, target_userid.
  replace (n =? 0) with false by (symmetry; apply Z.eqb_neq; lia). cbn [Z.eqb if_true nonempty]. unfold put_struct. cbn [put_struct_fields].
  change (put_uint (1 + 1)) with [2]. change (put_uint 0) with [0]. rewrite !zlen_app'. change (zlen [2]) with 1. change (zlen [0]) with 1. lia.
Qed.

(** The bytes of a query that do not depend on the question *)
Definition fixed_size (g : gobs) : Z := zlen (concat (map def_bytes (ty_defs (server_type g)))) + zlen (put_int (ty_id (server_type g))).
Lemma query_exact g D n k b : understood (server_type g) D -> key_fits k -> 0 < n <= 1000000 -> zlen (k_sinit k) = 16 -> is_bit (k_tinit k) -> zlen (k_cw k) = 8 * n ->
  1 <= zlen (k_finalcw k) <= 5 -> encode_server g (Some (text_info n), k) = Ok b ->
  fixed_size g + 31 + 152 * n <= zlen b - flag_size k <= fixed_size g + 65 + 152 * n.
Proof.
  intros U FK N S T C F E. pose proof FK as (_ & _ & _ & _ & _ & FS).
  assert (FI : info_fits (text_info n)) by (unfold info_fits, text_info; cbn [fst snd q_target q_from_start q_from_end]; unfold target_userid, zlen; cbn [length]; lia).
  assert (SF : server_fits (Some (text_info n), k)) by (split; cbn [fst snd]; [intros i Ei; congruence|auto]).
  pose proof (server_long _ SF) as SL. cbn [fst snd] in SL. change (targets (Some (text_info n))) with 0 in SL.
  unfold encode_server in E. rewrite (put_stream_ok _ D _ U) in E by lia. injection E as <-.
  pose proof U as (_ & ID & _). rewrite zlen_app'. unfold value_bytes. cbv zeta. rewrite zlen_app', zlen_app'.
  pose proof (put_int_long (ty_id (server_type g)) ltac:(lia)) as LI.
  pose proof (zlen_nn (put_server (Some (text_info n), k))) as NN.
  pose proof (put_uint_length (zlen (put_int (ty_id (server_type g))) + zlen (put_server (Some (text_info n), k))) 4 ltac:(change (256 ^ 4) with 4294967296; lia) ltac:(lia)) as LM.
  assert (ES : zlen (put_server (Some (text_info n), k)) = 3 + zlen (put_info (text_info n)) + zlen (put_key k)).
  { unfold put_server. cbn [fst snd put_pointer]. unfold put_struct. cbn [put_struct_fields]. change (put_uint 1) with [1]. change (put_uint 0) with [0].
    rewrite !zlen_app'. change (zlen [1]) with 1. change (zlen [0]) with 1. lia. }
  rewrite (info_exact n) in ES by lia. rewrite (key_exact k) in ES by (auto; lia). rewrite C in ES.
  pose proof (words_long _ FS) as W.
  assert (L1 : 1 <= zlen (put_int n) <= 4). { unfold put_int. replace (n <? 0) with false by (symmetry; apply Z.ltb_ge; lia). apply (put_uint_length (2 * n) 3); [change (256 ^ 3) with 16777216|]; lia. }
  assert (L2 : 1 <= zlen (put_uint (8 * n)) <= 4) by (apply (put_uint_length (8 * n) 3); [change (256 ^ 3) with 16777216|]; lia).
  unfold fixed_size, flag_size. destruct T as [T|T]; rewrite T in *; cbn [Z.eqb] in *; [|change (zlen (put_uint 1)) with 1 in ES]; lia.
Qed.

(** ** one repetition *)
Lemma generated enc e a b r k0 k1 x : rand_ok r -> generate_tree_pf enc e a b r = Ok (k0, k1, x) ->
  zlen (k_sinit k0) = 16 /\ zlen (k_sinit k1) = 16 /\ is_bit (k_tinit k0) /\ is_bit (k_tinit k1) /\ flag_size k0 + flag_size k1 = 2 /\
  length (k_finalcw k0) = length b /\ length (k_finalcw k1) = length b.
Proof.
  intros (L0 & _ & L1 & _) E. destruct (generate_payload_length _ _ _ _ _ _ _ _ E) as (P0 & P1). unfold generate_tree_pf in E. cbv zeta in E.
  destruct (gen_loop _ _ _ _ _ _) as [[cws [[[s0' s1'] t0'] t1']]| | |]; try discriminate. cbn [bind] in E.
  destruct (convert_block enc e (r_fresh0 r) s0' _) as [c0| | |]; try discriminate. cbn [bind] in E.
  destruct (convert_block enc e (r_fresh1 r) s1' _) as [c1| | |]; try discriminate. cbn [bind] in E.
  assert (B0 : is_bit (nth 16 (r_seed0 r) 0 mod 2)) by (unfold is_bit; lia).
  assert (ZS : zlen (firstn 16 (r_seed0 r)) = 16) by (unfold zlen; rewrite firstn_length, L0; reflexivity).
  remember (firstn 16 (r_seed0 r)) as sd. remember (nth 16 (r_seed0 r) 0 mod 2) as t0. remember (Z.lxor t0 1) as t1 eqn:ET. remember (final_cws _ _ _ _) as fw.
  assert (k0 = FSSModel.mkKey sd t0 cws fw /\ k1 = FSSModel.mkKey (r_seed1 r) t1 cws fw) as (-> & ->) by (split; congruence).
  cbn [k_sinit k_tinit k_finalcw] in *. unfold flag_size. cbn [k_tinit].
  conj_split; auto.
  - unfold zlen. rewrite L1. reflexivity.
  - rewrite ET. apply xor_bits; auto. right; reflexivity.
  - rewrite ET. destruct B0 as [-> | ->]; reflexivity.
Qed.

Lemma round_ok {C} g enc (serve : C -> list Z -> res (list Z)) serve' n text h out values :
  cipher_ok enc -> rand_ok (ro_rand h) -> zlen (ro_alphas h) + 1 = Z.of_nat values -> (1 <= values <= 5)%nat -> speaks g g -> 0 < n <= 1000000 -> zlen text = n -> zlen (ro_order h) = 2 ->
  (forall c k b, In c (ro_order h) -> key_fits k -> encode_server g (Some (text_info n), k) = Ok b -> to_option (serve c b) = serve' c (fst (text_info n), k)) ->
  exchange enc values (ro_alphas h) (ro_rand h) serve' (ro_order h) (ro_arrive h) 2 (fst (text_info n)) (byte_to_bits text) = Ok out ->
  exists bw, complex_round g enc values serve n text h = Ok (bw, out) /\ 2 * fixed_size g + 64 + 304 * n <= bw <= 2 * fixed_size g + 132 + 304 * n.
Proof.
  intros HC HR LA LV (UC & US) N LT LO SV EX.
  assert (LB : zlen (byte_to_bits text) = 8 * n) by (unfold zlen in *; rewrite byte_to_bits_length; lia).
  assert (FI : info_fits (text_info n)) by (unfold info_fits, text_info; cbn [fst snd q_target q_from_start q_from_end]; unfold target_userid, zlen; cbn [length]; lia).
  assert (F : client_fits (Some (text_info n), byte_to_bits text)) by (split; cbn [fst snd]; [intros i Ei; congruence|lia]).
  destruct (client_arrives g g (Some (text_info n), byte_to_bits text) [] UC F) as (b & EB & _ & DB). rewrite app_nil_r in DB.
  assert (AS : ask_bytes g enc values (ro_alphas h) (ro_rand h) serve (ro_order h) (ro_arrive h) 2 b = Ok out).
  { rewrite <- EX. apply ask_same; auto; try lia. }
  unfold complex_round. change (mkInfo target_userid n 0 false false false, @nil Z) with (text_info n). unfold full_info, client_fss in *. rewrite EB. cbn [or_fatal bind]. rewrite LO.
  unfold ask_bytes in AS. destruct (predicate_query_bytes g enc values (ro_alphas h) (ro_rand h) b 2) as [qs| | |] eqn:EQ; try discriminate. cbn [bind or_fatal] in *.
  destruct (send_all _ (ro_order h) qs 0) as [ans| | |]; try discriminate. cbn [bind] in *. rewrite AS. cbn [or_fatal bind].
  eexists. split; [reflexivity|].
  unfold predicate_query_bytes in EQ. rewrite DB in EQ. cbn [bind fst snd] in EQ.
  destruct (client_query enc values (ro_alphas h) (ro_rand h) (byte_to_bits text) 2) as [[[k0 k1] x]| | |] eqn:EK; try discriminate. cbn [bind mapM] in EQ.
  unfold client_query in EK. cbn [Z.eqb negb Pos.eqb] in EK.
  destruct (keys_fit enc values (byte_to_bits text) (1 :: ro_alphas h) (ro_rand h) k0 k1 x) as (K0 & K1 & C0 & C1); auto; try lia. { rewrite zlen_cons'. lia. }
  destruct (generated _ _ _ _ _ _ _ _ HR EK) as (S0 & S1 & T0 & T1 & TS & P0 & P1). cbn [length] in P0, P1.
  assert (V0 : 1 <= zlen (k_finalcw k0) <= 5) by (unfold zlen in *; lia). assert (V1 : 1 <= zlen (k_finalcw k1) <= 5) by (unfold zlen in *; lia).
  destruct (encode_server g (Some (text_info n), k0)) as [b0| | |] eqn:E0; try (unfold full_info in *; rewrite E0 in EQ; discriminate).
  destruct (encode_server g (Some (text_info n), k1)) as [b1| | |] eqn:E1; try (unfold full_info in *; rewrite E0, E1 in EQ; discriminate).
  unfold full_info in *. rewrite E0, E1 in EQ. cbn [bind] in EQ. assert (qs = [b0; b1]) as -> by congruence.
  pose proof (query_exact g _ n k0 b0 US K0 N S0 T0 ltac:(lia) V0 E0). pose proof (query_exact g _ n k1 b1 US K1 N S1 T1 ltac:(lia) V1 E1).
  cbn [map zsum]. unfold zsum. cbn [fold_right]. lia.
Qed.
