From Coq Require Import String ZArith List Bool Lia.
From Verif Require Import GoBase BaseFacts EncodingModel MerkleModel FSSModel PredicateModel FrontendModel GobModel GobSpec.
Import ListNotations.
Open Scope Z_scope.
Open Scope go_scope.

Lemma zlen_app' {A} (a b : list A) : zlen (a ++ b) = zlen a + zlen b.
Proof. unfold zlen. rewrite app_length. lia. Qed.
Lemma zlen_nn {A} (l : list A) : 0 <= zlen l. Proof. unfold zlen. lia. Qed.
Lemma zlen_cons' {A} (x : A) l : zlen (x :: l) = 1 + zlen l. Proof. unfold zlen. cbn [length]. lia. Qed.
Lemma firstn_zlen {A} (a b : list A) : firstn (Z.to_nat (zlen a)) (a ++ b) = a.
Proof. unfold zlen. rewrite Nat2Z.id, firstn_app, firstn_all, Nat.sub_diag. cbn [firstn]. apply app_nil_r. Qed.
Lemma skipn_zlen {A} (a b : list A) : skipn (Z.to_nat (zlen a)) (a ++ b) = b.
Proof. unfold zlen. rewrite Nat2Z.id, skipn_app, skipn_all, Nat.sub_diag. reflexivity. Qed.

(** ** numbers *)

Lemma digits_dec : forall k v, 0 <= v < 256 ^ Z.of_nat k -> be_dec (digits k v) = v.
Proof.
  induction k as [|k IH]; intros v Hv.
  - cbn in Hv. assert (v = 0) by lia. subst. reflexivity.
  - cbn [digits]. destruct (v =? 0) eqn:E.
    + apply Z.eqb_eq in E. subst. reflexivity.
    + unfold be_dec. rewrite rev_app_distr. cbn [rev app le_dec]. fold (be_dec (digits k (v / 256))). rewrite IH.
      * pose proof (Z.div_mod v 256). lia.
      * rewrite Nat2Z.inj_succ, Z.pow_succ_r in Hv by lia. split; [apply Z.div_pos; lia|apply Z.div_lt_upper_bound; lia].
Qed.
Lemma digits_length : forall k v m, 0 <= v < 256 ^ m -> 0 <= m -> zlen (digits k v) <= m.
Proof.
  induction k as [|k IH]; intros v m Hv Hm.
  - exact Hm.
  - cbn [digits]. destruct (v =? 0) eqn:E; [exact Hm|]. apply Z.eqb_neq in E. assert (M : m <> 0) by (intros ->; cbn in Hv; lia).
    rewrite zlen_app'. change (zlen [v mod 256]) with 1. assert (zlen (digits k (v / 256)) <= m - 1); [|lia]. apply IH; [|lia].
    replace m with (Z.succ (m - 1)) in Hv by lia. rewrite Z.pow_succ_r in Hv by lia. split; [apply Z.div_pos; lia|apply Z.div_lt_upper_bound; lia].
Qed.
Lemma digits_nonempty k v : v <> 0 -> 1 <= zlen (digits (S k) v).
Proof. intros N. cbn [digits]. apply Z.eqb_neq in N. rewrite N, zlen_app'. change (zlen [v mod 256]) with 1. pose proof (zlen_nn (digits k (v / 256))). lia. Qed.

Lemma get_put_uint v rest : 0 <= v < 2 ^ 64 -> get_uint (put_uint v ++ rest) = Ok (v, rest).
Proof.
  intros Hv. unfold put_uint. destruct (v <=? 127) eqn:E; unfold get_uint; cbn [app].
  - rewrite E. reflexivity.
  - apply Z.leb_gt in E.
    assert (L : zlen (digits 8 v) <= 8) by (apply digits_length; [change (256 ^ 8) with (2 ^ 64)|]; lia).
    pose proof (digits_nonempty 7 v ltac:(lia)) as G.
    replace (256 - zlen (digits 8 v) <=? 127) with false by (symmetry; apply Z.leb_gt; lia).
    replace (256 - (256 - zlen (digits 8 v))) with (zlen (digits 8 v)) by lia.
    replace (8 <? zlen (digits 8 v)) with false by (symmetry; apply Z.ltb_ge; lia).
    rewrite zlen_app'. pose proof (zlen_nn rest).
    replace (zlen (digits 8 v) + zlen rest <? zlen (digits 8 v)) with false by (symmetry; apply Z.ltb_ge; lia).
    cbn [orb]. rewrite firstn_zlen, skipn_zlen, digits_dec; [reflexivity|]. change (256 ^ Z.of_nat 8) with (2 ^ 64). lia.
Qed.
Lemma put_uint_length v m : 0 <= v < 256 ^ m -> 0 <= m -> 1 <= zlen (put_uint v) <= 1 + m.
Proof.
  intros Hv Hm. unfold put_uint. destruct (v <=? 127).
  - change (zlen [v]) with 1. lia.
  - rewrite zlen_cons'. pose proof (digits_length 8 v m Hv Hm). pose proof (zlen_nn (digits 8 v)). lia.
Qed.
Lemma put_uint_long v : 0 <= v < 2 ^ 64 -> 1 <= zlen (put_uint v) <= 9.
Proof. intros Hv. apply (put_uint_length v 8); [change (256 ^ 8) with (2 ^ 64)|]; lia. Qed.
Lemma put_uint_ne v rest : 0 <= v < 2 ^ 64 -> exists x t, put_uint v ++ rest = x :: t.
Proof. intros Hv. unfold put_uint. destruct (v <=? 127); cbn [app]; eauto. Qed.

Lemma get_put_int v rest : - 2 ^ 63 <= v < 2 ^ 63 -> get_int (put_int v ++ rest) = Ok (v, rest).
Proof.
  intros Hv. unfold get_int, put_int. destruct (v <? 0) eqn:E.
  - apply Z.ltb_lt in E. rewrite get_put_uint by lia. cbn [bind fst snd].
    replace (2 * (- v - 1) + 1) with (1 + (- v - 1) * 2) by lia. rewrite Z.mod_add, Z.div_add by lia. change (1 mod 2 =? 1) with true. cbv iota.
    change (1 / 2) with 0. do 2 f_equal. lia.
  - apply Z.ltb_ge in E. rewrite get_put_uint by lia. cbn [bind fst snd].
    replace (2 * v) with (0 + v * 2) by lia. rewrite Z.mod_add, Z.div_add by lia. change (0 mod 2 =? 1) with false. cbv iota. change (0 / 2) with 0. do 2 f_equal; lia.
Qed.
Lemma put_int_long v : - 2 ^ 63 <= v < 2 ^ 63 -> 1 <= zlen (put_int v) <= 9.
Proof. intros Hv. unfold put_int. destruct (v <? 0) eqn:E; [apply Z.ltb_lt in E|apply Z.ltb_ge in E]; apply put_uint_long; lia. Qed.

(** ** values *)

Lemma get_put_string b rest : zlen b < too_big -> get_string (put_string b ++ rest) = Ok (b, rest).
Proof.
  intros L. pose proof (zlen_nn b). unfold get_string, put_string. rewrite <- app_assoc, get_put_uint by (unfold too_big in L; lia). cbn [bind fst snd].
  rewrite zlen_app'. pose proof (zlen_nn rest). replace (zlen b + zlen rest <? zlen b) with false by (symmetry; apply Z.ltb_ge; lia).
  replace (too_big <=? zlen b) with false by (symmetry; apply Z.leb_gt; lia). cbn [orb]. rewrite firstn_zlen, skipn_zlen. reflexivity.
Qed.
Lemma get_put_bool x rest : get_bool (put_bool x ++ rest) = Ok (x, rest).
Proof. unfold get_bool, put_bool. destruct x; rewrite get_put_uint by lia; reflexivity. Qed.
Lemma get_put_limited m v rest : 0 <= v <= m -> m < 2 ^ 64 -> get_limited m (put_uint v ++ rest) = Ok (v, rest).
Proof. intros Hv Hm. unfold get_limited. rewrite get_put_uint by lia. cbn [bind fst snd]. replace (m <? v) with false by (symmetry; apply Z.ltb_ge; lia). reflexivity. Qed.

Lemma get_put_many {A} (put : A -> list Z) get (l : list A) : Forall (fun x => forall rest, get (put x ++ rest) = Ok (x, rest)) l ->
  forall rest, get_many get (length l) (concat (map put l) ++ rest) = Ok (l, rest).
Proof.
  induction 1 as [|x l Hx _ IH]; intros rest; [reflexivity|]. cbn [length map concat get_many]. rewrite <- app_assoc, Hx. cbn [bind fst snd].
  rewrite IH. reflexivity.
Qed.
Lemma concat_long {A} (put : A -> list Z) (l : list A) : Forall (fun x => 1 <= zlen (put x)) l -> zlen l <= zlen (concat (map put l)).
Proof. induction 1 as [|x l Hx _ IH]; [reflexivity|]. cbn [map concat]. rewrite zlen_app', zlen_cons'. lia. Qed.
Lemma get_put_slice {A} size (put : A -> list Z) get (l : list A) rest :
  Forall (fun x => (forall rest, get (put x ++ rest) = Ok (x, rest)) /\ 1 <= zlen (put x)) l -> zlen l * size <= too_big -> zlen l < 2 ^ 64 ->
  get_slice size get (put_slice put l ++ rest) = Ok (l, rest).
Proof.
  intros F S L. pose proof (zlen_nn l). unfold get_slice, put_slice. rewrite <- app_assoc, get_put_uint by lia. cbn [bind fst snd].
  replace (too_big <? zlen l * size) with false by (symmetry; apply Z.ltb_ge; lia). rewrite zlen_app'. pose proof (zlen_nn rest).
  pose proof (concat_long put l ltac:(eapply Forall_impl; [|exact F]; intros x (_ & X); exact X)) as C.
  replace (zlen (concat (map put l)) + zlen rest <? zlen l) with false by (symmetry; apply Z.ltb_ge; lia). cbn [orb].
  unfold zlen. rewrite Nat2Z.id. apply get_put_many. eapply Forall_impl; [|exact F]. intros x (X & _). exact X.
Qed.

(** ** structs *)

(** What a field writes is read back by [f], whose effect on the struct is [u]; nothing is written only if [u] has no effect to
    bring about. *)
Definition reads {S} (o : option (list Z)) (f : S -> list Z -> res (S * list Z)) (u : S -> S) : Prop :=
  match o with Some b => forall s rest, f s (b ++ rest) = Ok (u s, rest) | None => True end.
Fixpoint updated {S} (os : list (option (list Z))) (us : list (S -> S)) (s : S) : S :=
  match os, us with
  | Some _ :: os, u :: us => updated os us (u s)
  | None :: os, _ :: us => updated os us s
  | _, _ => s
  end.
Inductive all_read {S} : list (option (list Z)) -> list (S -> list Z -> res (S * list Z)) -> list (S -> S) -> Prop :=
| read_nil : all_read [] [] []
| read_cons o f u os fs us : reads o f u -> all_read os fs us -> all_read (o :: os) (f :: fs) (u :: us).

Definition read_on {S} (fs : list (S -> list Z -> res (S * list Z))) (gap : Z) (s : S) (b : list Z) : res (S * list Z) :=
  d <- get_uint b ;; if fst d =? 0 then Ok (s, snd d) else get_struct_fields fs (fst d - (gap - 1)) s (snd d).

Lemma first_gap rest : forall os g d, 1 <= g -> g + zlen os < 2 ^ 64 -> get_uint (put_struct_fields g os ++ rest) = Ok d -> fst d = 0 \/ g <= fst d.
Proof.
  induction os as [|[b|] os IHo]; intros g d H H'; cbn [put_struct_fields].
  - rewrite get_put_uint by lia. intros E. injection E as <-. left; reflexivity.
  - pose proof (zlen_nn os). rewrite zlen_cons' in H'. rewrite <- app_assoc, get_put_uint by lia. intros E. injection E as <-. right. cbn [fst]. lia.
  - rewrite zlen_cons' in H'. intros E. apply IHo in E; [|lia|lia]. destruct E; [left; auto|right; lia].
Qed.
Lemma fields_ne rest : forall os g, exists x t, put_struct_fields g os ++ rest = x :: t.
Proof.
  induction os as [|[b|] os IHo]; intros g; cbn [put_struct_fields]; [cbn; eauto| |apply IHo].
  unfold put_uint. destruct (g <=? 127); cbn [app]; eauto.
Qed.

Lemma get_put_fields {S} : forall os fs us, @all_read S os fs us -> forall gap s rest, 1 <= gap -> gap + zlen os < 2 ^ 64 ->
  read_on fs gap s (put_struct_fields gap os ++ rest) = Ok (updated os us s, rest).
Proof.
  induction 1 as [|o f u os fs us R RS IH]; intros gap s rest G1 G2.
  - cbn [put_struct_fields updated]. unfold read_on. rewrite get_put_uint by lia. reflexivity.
  - rewrite zlen_cons' in G2. pose proof (zlen_nn os). destruct o as [b|]; cbn [put_struct_fields updated].
    + unfold read_on. rewrite <- app_assoc, get_put_uint by lia. cbn [bind fst snd].
      replace (gap =? 0) with false by (symmetry; apply Z.eqb_neq; lia). cbn [get_struct_fields].
      replace (gap - (gap - 1)) with 1 by lia. change (1 =? 1) with true. cbv iota. rewrite <- app_assoc, R. cbn [bind fst snd].
      destruct (fields_ne rest os 1) as (x & t & E).
      specialize (IH 1 (u s) rest ltac:(lia) ltac:(lia)). unfold read_on in IH. rewrite E in IH |- *.
      destruct (get_uint (x :: t)) as [d| | |]; cbn [bind] in *; try discriminate. destruct (fst d =? 0); auto.
      replace (fst d - (1 - 1)) with (fst d) in IH by lia. exact IH.
    + specialize (IH (gap + 1) s rest ltac:(lia) ltac:(lia)). unfold read_on in IH |- *.
      destruct (get_uint (put_struct_fields (gap + 1) os ++ rest)) as [d| | |] eqn:EG; cbn [bind] in *; try discriminate.
      apply first_gap in EG; [|lia|lia]. destruct (fst d =? 0) eqn:Z0; auto. apply Z.eqb_neq in Z0.
      cbn [get_struct_fields]. replace (fst d - (gap - 1) =? 1) with false by (symmetry; apply Z.eqb_neq; lia).
      replace (fst d - (gap + 1 - 1)) with (fst d - (gap - 1) - 1) in IH by lia. exact IH.
Qed.
Lemma get_put_struct {S} os fs us (s : S) rest : all_read os fs us -> zlen os < 1000 -> get_struct fs s (put_struct os ++ rest) = Ok (updated os us s, rest).
Proof.
  intros R L. pose proof (get_put_fields os fs us R 1 s rest ltac:(lia) ltac:(lia)) as X. unfold read_on in X. unfold get_struct, put_struct.
  destruct (fields_ne rest os 1) as (x & t & E). rewrite E in *. destruct (get_uint (x :: t)) as [d| | |]; cbn [bind] in *; try discriminate.
  destruct (fst d =? 0); auto. replace (fst d - (1 - 1)) with (fst d) in X by lia. exact X.
Qed.
(** Bounds on what is written *)
Fixpoint written (os : list (option (list Z))) : Z :=
  match os with [] => 1 | Some b :: os => 9 + zlen b + written os | None :: os => written os end.
Lemma put_fields_long : forall os g, 1 <= g -> g + zlen os < 2 ^ 64 -> zlen (put_struct_fields g os) <= written os.
Proof.
  induction os as [|[b|] os IH]; intros g G L; cbn [put_struct_fields written].
  - reflexivity.
  - rewrite zlen_cons' in L. pose proof (zlen_nn os). rewrite !zlen_app'. pose proof (put_uint_long g ltac:(lia)). pose proof (IH 1 ltac:(lia) ltac:(lia)). lia.
  - rewrite zlen_cons' in L. apply IH; lia.
Qed.
Lemma put_struct_long os : zlen os < 1000 -> zlen (put_struct os) <= written os.
Proof. intros L. apply put_fields_long; lia. Qed.

Lemma field_read {S A} put get (set : S -> A -> S) v : (forall rest, get (put ++ rest) = Ok (v, rest)) -> forall s rest, field_of get set s (put ++ rest) = Ok (set s v, rest).
Proof. intros R s rest. unfold field_of. rewrite R. reflexivity. Qed.

Lemma get_put_info i rest : info_fits i -> get_info no_info (put_info i ++ rest) = Ok (i, rest).
Proof.
  destruct i as [[tg fs fe an av su] ts]. intros (T & FS & FE & TS). cbn [fst snd q_target q_from_start q_from_end] in *.
  unfold get_info, put_info. cbn [fst snd q_target q_from_start q_from_end q_and q_avg q_sum].
  rewrite (get_put_struct _ _
    [ (fun i => let q := fst i in (mkInfo tg (q_from_start q) (q_from_end q) (q_and q) (q_avg q) (q_sum q), snd i));
      (fun i => let q := fst i in (mkInfo (q_target q) fs (q_from_end q) (q_and q) (q_avg q) (q_sum q), snd i));
      (fun i => let q := fst i in (mkInfo (q_target q) (q_from_start q) fe (q_and q) (q_avg q) (q_sum q), snd i));
      (fun i => let q := fst i in (mkInfo (q_target q) (q_from_start q) (q_from_end q) an (q_avg q) (q_sum q), snd i));
      (fun i => (fst i, ts));
      (fun i => let q := fst i in (mkInfo (q_target q) (q_from_start q) (q_from_end q) (q_and q) av (q_sum q), snd i));
      (fun i => let q := fst i in (mkInfo (q_target q) (q_from_start q) (q_from_end q) (q_and q) (q_avg q) su, snd i)) ]).
  - do 2 f_equal. unfold nonzero, if_true, nonempty, no_info.
    destruct (tg =? 0) eqn:E1; [apply Z.eqb_eq in E1; subst tg|]; (destruct (fs =? 0) eqn:E2; [apply Z.eqb_eq in E2; subst fs|]);
    (destruct (fe =? 0) eqn:E3; [apply Z.eqb_eq in E3; subst fe|]); destruct an, av, su, ts; reflexivity.
  - repeat (apply read_cons; [unfold reads, nonzero, if_true, nonempty|]); [..|constructor].
    + destruct (tg =? 0); [exact I|]. intros s r. unfold field_of. rewrite get_put_limited by lia. reflexivity.
    + destruct (fs =? 0); [exact I|]. intros s r. unfold field_of. rewrite get_put_int by lia. reflexivity.
    + destruct (fe =? 0); [exact I|]. intros s r. unfold field_of. rewrite get_put_int by lia. reflexivity.
    + destruct an; [|exact I]. intros s r. unfold field_of. rewrite get_put_bool. reflexivity.
    + destruct ts; [exact I|]. intros s r. unfold field_of. rewrite get_put_string by (unfold too_big; lia). reflexivity.
    + destruct av; [|exact I]. intros s r. unfold field_of. rewrite get_put_bool. reflexivity.
    + destruct su; [|exact I]. intros s r. unfold field_of. rewrite get_put_bool. reflexivity.
  - unfold zlen. cbn [length]. lia.
Qed.
Lemma written_opt (c : bool) (b : list Z) m os : 0 <= m -> zlen b <= m -> written ((if c then None else Some b) :: os) <= 9 + m + written os.
Proof. intros M L. destruct c; cbn [written]; lia. Qed.
Lemma written_nonempty {A} (l : list A) (b : list Z) m os : 0 <= m -> zlen b <= m -> written (nonempty l b :: os) <= 9 + m + written os.
Proof. intros M L. destruct l; cbn [written nonempty]; lia. Qed.
Lemma written_true (x : bool) os : written (if_true x :: os) <= 10 + written os.
Proof. unfold if_true. destruct x; cbn [written]; [change (zlen (put_bool true)) with 1|]; lia. Qed.
Lemma put_string_long b : zlen b < 2 ^ 64 -> zlen (put_string b) <= 9 + zlen b.
Proof. intros L. pose proof (zlen_nn b). unfold put_string. rewrite zlen_app'. pose proof (put_uint_long (zlen b) ltac:(lia)). lia. Qed.
Lemma info_long i : info_fits i -> zlen (put_info i) <= 200 + zlen (snd i).
Proof.
  intros (T & FS & FE & TS). pose proof (zlen_nn (snd i)). unfold put_info. etransitivity; [apply put_struct_long; unfold zlen; cbn [length]; lia|]. unfold nonzero.
  etransitivity; [apply written_opt with (m := 9); [lia|apply put_uint_long; lia]|].
  etransitivity; [apply Zplus_le_compat_l, written_opt with (m := 9); [lia|apply put_int_long; lia]|].
  etransitivity; [do 2 apply Zplus_le_compat_l; apply written_opt with (m := 9); [lia|apply put_int_long; lia]|].
  etransitivity; [do 3 apply Zplus_le_compat_l; apply written_true|].
  etransitivity; [do 4 apply Zplus_le_compat_l; apply written_nonempty with (m := 9 + zlen (snd i)); [lia|apply put_string_long; lia]|].
  etransitivity; [do 5 apply Zplus_le_compat_l; apply written_true|].
  etransitivity; [do 6 apply Zplus_le_compat_l; apply written_true|]. cbn [written]. lia.
Qed.

Lemma get_put_key k rest : key_fits k -> get_key (FSSModel.mkKey [] 0 [] []) (put_key k ++ rest) = Ok (k, rest).
Proof.
  destruct k as [si ti cw fc]. intros (S & T & C & CS & F & FS). cbn [k_sinit k_tinit k_cw k_finalcw] in *.
  unfold get_key, put_key. cbn [k_sinit k_tinit k_cw k_finalcw].
  rewrite (get_put_struct _ _
    [ (fun k => FSSModel.mkKey si (k_tinit k) (k_cw k) (k_finalcw k)); (fun k => FSSModel.mkKey (k_sinit k) ti (k_cw k) (k_finalcw k));
      (fun k => FSSModel.mkKey (k_sinit k) (k_tinit k) cw (k_finalcw k)); (fun k => FSSModel.mkKey (k_sinit k) (k_tinit k) (k_cw k) fc) ]).
  - do 2 f_equal. unfold nonzero, nonempty. destruct (ti =? 0) eqn:E1; [apply Z.eqb_eq in E1; subst ti|]; destruct si, cw, fc; reflexivity.
  - repeat (apply read_cons; [unfold reads, nonzero|]); [..|constructor].
    + unfold nonempty at 1. destruct si; [exact I|]. intros s r. unfold field_of. rewrite get_put_string by (unfold too_big; lia). reflexivity.
    + destruct (ti =? 0); [exact I|]. intros s r. unfold field_of. rewrite get_put_limited by lia. reflexivity.
    + remember (put_slice put_string cw) as b eqn:EB. unfold nonempty. destruct cw as [|w cw']; [exact I|]. intros s r. subst b. unfold field_of. rewrite get_put_slice; [reflexivity| |unfold too_big; lia|lia].
      eapply Forall_impl; [|exact CS]. intros x Lx. assert (zlen x = 18) by (unfold zlen; rewrite Lx; reflexivity). split.
      * intros r'. apply get_put_string. unfold too_big. lia.
      * unfold put_string. rewrite zlen_app'. pose proof (put_uint_long (zlen x) ltac:(lia)). lia.
    + remember (put_slice put_uint fc) as b eqn:EB. unfold nonempty. destruct fc as [|w fc']; [exact I|]. intros s r. subst b. unfold field_of. rewrite get_put_slice; [reflexivity| |unfold too_big; lia|lia].
      eapply Forall_impl; [|exact FS]. intros x Hx. cbv beta in Hx. change (2 ^ 32) with 4294967296 in Hx. split.
      * intros r'. apply get_put_limited; lia.
      * apply put_uint_long. lia.
  - unfold zlen. cbn [length]. lia.
Qed.
Lemma concat_bound {A} (put : A -> list Z) m (l : list A) : Forall (fun x => zlen (put x) <= m) l -> zlen (concat (map put l)) <= m * zlen l.
Proof. induction 1 as [|x l Hx _ IH]; [unfold zlen; cbn; lia|]. cbn [map concat]. rewrite zlen_app', zlen_cons'. lia. Qed.
Lemma slice_long {A} (put : A -> list Z) m (l : list A) : Forall (fun x => zlen (put x) <= m) l -> zlen l < 2 ^ 64 -> zlen (put_slice put l) <= 9 + m * zlen l.
Proof. intros F L. pose proof (zlen_nn l). unfold put_slice. rewrite zlen_app'. pose proof (put_uint_long (zlen l) ltac:(lia)). pose proof (concat_bound put m l F). lia. Qed.
Lemma key_long k : key_fits k -> zlen (put_key k) <= 1100 + 19 * zlen (k_cw k) + 5 * zlen (k_finalcw k).
Proof.
  intros (S & T & C & CS & F & FS). pose proof (zlen_nn (k_sinit k)). pose proof (zlen_nn (k_cw k)). pose proof (zlen_nn (k_finalcw k)).
  unfold put_key. etransitivity; [apply put_struct_long; unfold zlen; cbn [length]; lia|]. unfold nonzero.
  etransitivity; [apply written_nonempty with (m := 9 + zlen (k_sinit k)); [lia|apply put_string_long; lia]|].
  etransitivity; [apply Zplus_le_compat_l, written_opt with (m := 9); [lia|apply put_uint_long; lia]|].
  etransitivity; [do 2 apply Zplus_le_compat_l; apply written_nonempty with (m := 9 + 19 * zlen (k_cw k)); [lia|]|].
  { apply slice_long; [|lia]. eapply Forall_impl; [|exact CS]. intros x Lx. assert (E : zlen x = 18) by (unfold zlen; rewrite Lx; reflexivity). unfold put_string. rewrite zlen_app', E. change (zlen (put_uint 18)) with 1. lia. }
  etransitivity; [do 3 apply Zplus_le_compat_l; apply written_nonempty with (m := 9 + 5 * zlen (k_finalcw k)); [lia|]|].
  { apply slice_long; [|lia]. eapply Forall_impl; [|exact FS]. intros x Hx. cbv beta in Hx. apply (put_uint_length x 4); [change (256 ^ 4) with (2 ^ 32); exact Hx|lia]. }
  cbn [written]. lia.
Qed.

Lemma get_put_pointer i rest : info_fits i -> get_pointer (put_info i ++ rest) = Ok (Some i, rest).
Proof. intros F. unfold get_pointer. rewrite get_put_info by auto. reflexivity. Qed.
Lemma get_put_client q rest : client_fits q -> get_client (put_client q ++ rest) = Ok (q, rest).
Proof.
  destruct q as [i inp]. intros (FI & L). cbn [fst snd] in *. unfold get_client, put_client. cbn [fst snd].
  rewrite (get_put_struct _ _ [ (fun q => (i, snd q)); (fun q => (fst q, inp)) ]).
  - do 2 f_equal. destruct i, inp; reflexivity.
  - apply read_cons; [|apply read_cons; [|constructor]].
    + destruct i as [i|]; [|exact I]. cbn [put_pointer reads]. intros s r. unfold field_of. rewrite get_put_pointer by auto. reflexivity.
    + remember (put_slice put_bool inp) as b eqn:EB. unfold nonempty, reads. destruct inp as [|x inp']; [exact I|]. intros s r. subst b. unfold field_of.
      rewrite get_put_slice; [reflexivity| |unfold too_big; lia|lia].
      apply Forall_forall. intros y _. split; [intros; apply get_put_bool|destruct y; vm_compute; discriminate].
  - unfold zlen. cbn [length]. lia.
Qed.
Lemma get_put_server q rest : server_fits q -> get_server (put_server q ++ rest) = Ok (q, rest).
Proof.
  destruct q as [i k]. intros (FI & L). cbn [fst snd] in *. unfold get_server, put_server. cbn [fst snd].
  rewrite (get_put_struct _ _ [ (fun q => (i, snd q)); (fun q => (fst q, k)) ]).
  - do 2 f_equal. destruct i; reflexivity.
  - apply read_cons; [|apply read_cons; [|constructor]].
    + destruct i as [i|]; [|exact I]. cbn [put_pointer reads]. intros s r. unfold field_of. rewrite get_put_pointer by auto. reflexivity.
    + cbn [reads]. intros s r. unfold field_of. rewrite get_put_key by auto. reflexivity.
  - unfold zlen. cbn [length]. lia.
Qed.
Definition targets (i : option full_info) : Z := match i with Some i => zlen (snd i) | None => 0 end.
Lemma pointer_long i os : (forall j, i = Some j -> info_fits j) -> written (put_pointer i :: os) <= 209 + targets i + written os.
Proof. intros F. destruct i as [i|]; cbn [put_pointer written targets]; [pose proof (info_long i (F i eq_refl))|]; lia. Qed.
Lemma client_long q : client_fits q -> zlen (put_client q) <= 300 + targets (fst q) + zlen (snd q).
Proof.
  intros (FI & L). pose proof (zlen_nn (snd q)). unfold put_client. etransitivity; [apply put_struct_long; unfold zlen; cbn [length]; lia|].
  etransitivity; [apply pointer_long; auto|].
  etransitivity; [apply Zplus_le_compat_l, written_nonempty with (m := 9 + 1 * zlen (snd q)); [lia|]|].
  { apply slice_long; [|lia]. apply Forall_forall. intros y _. destruct y; vm_compute; discriminate. }
  cbn [written]. lia.
Qed.
Lemma server_long q : server_fits q -> zlen (put_server q) <= 1400 + targets (fst q) + 19 * zlen (k_cw (snd q)) + 5 * zlen (k_finalcw (snd q)).
Proof.
  intros (FI & L). unfold put_server. etransitivity; [apply put_struct_long; unfold zlen; cbn [length]; lia|].
  etransitivity; [apply pointer_long; auto|]. cbn [written]. pose proof (key_long _ L). lia.
Qed.

(** ** streams *)

Lemma put_message_ok m : zlen m < too_big -> put_message m = Ok (put_uint (zlen m) ++ m).
Proof. intros L. unfold put_message. replace (too_big <=? zlen m) with false by (symmetry; apply Z.leb_gt; lia). reflexivity. Qed.
Lemma get_put_message m rest : zlen m < too_big -> get_message ((put_uint (zlen m) ++ m) ++ rest) = Ok (m, rest).
Proof.
  intros L. pose proof (zlen_nn m). unfold get_message. rewrite <- app_assoc, get_put_uint by (unfold too_big in L; lia). cbn [bind fst snd].
  replace (too_big <=? zlen m) with false by (symmetry; apply Z.leb_gt; lia). rewrite zlen_app'. pose proof (zlen_nn rest).
  replace (zlen m + zlen rest <? zlen m) with false by (symmetry; apply Z.ltb_ge; lia). cbn [orb]. rewrite firstn_zlen, skipn_zlen. reflexivity.
Qed.

Definition def_bytes (d : Z * list Z) : list Z := let m := put_int (- fst d) ++ snd d in put_uint (zlen m) ++ m.
Definition value_bytes (id : Z) (v : list Z) : list Z := let m := put_int id ++ v in put_uint (zlen m) ++ m.
Lemma def_small d : 0 < fst d < 2 ^ 62 /\ zlen (snd d) <= 10000 -> zlen (put_int (- fst d) ++ snd d) < too_big.
Proof. intros (A & B). rewrite zlen_app'. pose proof (put_int_long (- fst d) ltac:(lia)). unfold too_big. lia. Qed.
Lemma put_stream_ok T D v : understood T D -> zlen v <= 8000000000 ->
  put_stream T v = Ok (concat (map def_bytes (ty_defs T)) ++ value_bytes (ty_id T) v).
Proof.
  intros (_ & I & _ & F) L. unfold put_stream.
  assert (E : mapM (fun d => put_message (put_int (- fst d) ++ snd d)) (ty_defs T) = Ok (map def_bytes (ty_defs T))).
  { clear - F. induction F as [|d ds Hd _ IH]; [reflexivity|]. cbn [mapM map]. rewrite put_message_ok by (apply def_small; exact Hd). cbn [bind]. rewrite IH. reflexivity. }
  rewrite E. cbn [bind]. rewrite put_message_ok; [reflexivity|]. rewrite zlen_app'. pose proof (put_int_long (ty_id T) ltac:(lia)). unfold too_big. lia.
Qed.
Lemma stream_long T D v : understood T D -> zlen v <= 8000000000 ->
  zlen (concat (map def_bytes (ty_defs T)) ++ value_bytes (ty_id T) v) <= 2000000 + zlen v.
Proof.
  intros (_ & I & N & F) L. rewrite zlen_app'. pose proof (zlen_nn v).
  assert (X : zlen (concat (map def_bytes (ty_defs T))) <= 10018 * zlen (ty_defs T)).
  { apply concat_bound. eapply Forall_impl; [|exact F]. intros d (A & B). unfold def_bytes. cbv zeta. rewrite zlen_app'. pose proof (zlen_nn (snd d)).
    pose proof (def_small d (conj A B)) as S. unfold too_big in S. pose proof (zlen_nn (put_int (- fst d) ++ snd d)).
    pose proof (put_uint_long (zlen (put_int (- fst d) ++ snd d)) ltac:(lia)). rewrite zlen_app' at 2. pose proof (put_int_long (- fst d) ltac:(lia)). lia. }
  unfold value_bytes. cbv zeta. rewrite zlen_app'. pose proof (put_int_long (ty_id T) ltac:(lia)).
  assert (Y : zlen (put_int (ty_id T) ++ v) <= 9 + zlen v) by (rewrite zlen_app'; lia). pose proof (zlen_nn (put_int (ty_id T) ++ v)).
  pose proof (put_uint_long (zlen (put_int (ty_id T) ++ v)) ltac:(lia)). lia.
Qed.
Lemma get_defs {A} D (get : list Z -> res (A * list Z)) id v x more : forall ds seen fuel, Forall (fun d => 0 < fst d < 2 ^ 62 /\ zlen (snd d) <= 10000) ds ->
  (length ds < fuel)%nat -> 0 <= id < 2 ^ 62 -> zlen v <= 8000000000 -> D (seen ++ ds) id = true -> get v = Ok (x, []) ->
  get_stream fuel D get seen (concat (map def_bytes ds) ++ value_bytes id v ++ more) = Ok x.
Proof.
  induction ds as [|d ds IH]; intros seen fuel F LF I L E G; (destruct fuel as [|fuel]; [cbn [length] in LF; lia|]); cbn [get_stream map concat app].
  - unfold value_bytes. cbv zeta. rewrite get_put_message. 2: { rewrite zlen_app'. pose proof (put_int_long id ltac:(lia)). unfold too_big. lia. }
    cbn [bind fst snd]. rewrite get_put_int by lia. cbn [bind fst snd]. replace (id <? 0) with false by (symmetry; apply Z.ltb_ge; lia).
    rewrite app_nil_r in E. rewrite E, G. reflexivity.
  - inversion F as [|? ? Hd F']; subst. rewrite <- app_assoc. unfold def_bytes at 1. cbv zeta. rewrite get_put_message by (apply def_small; exact Hd).
    cbn [bind fst snd]. rewrite get_put_int by lia. cbn [bind fst snd]. replace (- fst d <? 0) with true by (symmetry; apply Z.ltb_lt; lia).
    replace (- - fst d) with (fst d) by lia. apply IH; auto; [cbn [length] in LF; lia|]. rewrite <- app_assoc. cbn [app]. rewrite <- surjective_pairing. exact E.
Qed.
Lemma defs_many (ds : list (Z * list Z)) : (length ds <= length (concat (map def_bytes ds)))%nat.
Proof.
  induction ds as [|d ds IH]; [cbn; lia|]. cbn [map concat length]. rewrite app_length. assert (1 <= length (def_bytes d))%nat; [|lia].
  unfold def_bytes. cbv zeta. unfold put_uint. destruct (_ <=? 127); rewrite app_length; cbn [length]; lia.
Qed.
Lemma stream_read {A} T D (get : list Z -> res (A * list Z)) v x more : understood T D -> zlen v <= 8000000000 -> get v = Ok (x, []) ->
  exists b, put_stream T v = Ok b /\ zlen b <= 2000000 + zlen v /\ gob_decode D get (b ++ more) = Ok x.
Proof.
  intros U L G. exists (concat (map def_bytes (ty_defs T)) ++ value_bytes (ty_id T) v). split; [eapply put_stream_ok; eauto|]. split; [eapply stream_long; eauto|].
  destruct U as (E & I & N & F). unfold gob_decode. rewrite <- app_assoc. apply get_defs; auto.
  pose proof (defs_many (ty_defs T)). rewrite app_length. lia.
Qed.

Theorem client_arrives g g' q more : understood (client_type g) (is_client g') -> client_fits q -> exists b,
  encode_client g q = Ok b /\ zlen b <= 3000000 + targets (fst q) + zlen (snd q) /\ decode_client g' (b ++ more) = Ok q.
Proof.
  intros U F. pose proof (client_long q F) as L. destruct F as (FI & LI) eqn:X. clear X.
  assert (TG : targets (fst q) <= 1000000000) by (destruct (fst q) as [i|]; cbn [targets]; [apply (FI i eq_refl)|lia]).
  destruct (stream_read (client_type g) (is_client g') get_client (put_client q) q more U ltac:(lia)) as (b & E & LB & D).
  { pose proof (get_put_client q [] (conj FI LI)) as R. rewrite app_nil_r in R. exact R. }
  exists b. split; [exact E|]. split; [lia|exact D].
Qed.
Theorem server_arrives g g' q more : understood (server_type g) (is_server g') -> server_fits q -> exists b,
  encode_server g q = Ok b /\ zlen b <= 3000000 + targets (fst q) + 19 * zlen (k_cw (snd q)) + 5 * zlen (k_finalcw (snd q)) /\ decode_server g' (b ++ more) = Ok q.
Proof.
  intros U F. pose proof (server_long q F) as L. destruct F as (FI & FK) eqn:X. clear X.
  assert (TG : targets (fst q) <= 1000000000) by (destruct (fst q) as [i|]; cbn [targets]; [apply (FI i eq_refl)|lia]).
  pose proof FK as (S & T & C & CS & FC & FS). pose proof (zlen_nn (k_cw (snd q))). pose proof (zlen_nn (k_finalcw (snd q))).
  destruct (stream_read (server_type g) (is_server g') get_server (put_server q) q more U ltac:(lia)) as (b & E & LB & D).
  { pose proof (get_put_server q [] (conj FI FK)) as R. rewrite app_nil_r in R. exact R. }
  exists b. split; [exact E|]. split; [lia|exact D].
Qed.
