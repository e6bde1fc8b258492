(** Proofs about what travels between clients and servers. *)
From Coq Require Import String ZArith List Bool Lia Arith.
From Verif Require Import GoBase BaseFacts EncodingModel FrontendModel WireModel WireSpec.
Import ListNotations.
Open Scope Z_scope.

(** ** Varints *)

Lemma varint_dec : forall k v r, 0 <= v < 2 * 128 ^ Z.of_nat k -> get_varint' (S k) (varint (S k) v ++ r) = Ok (v, r).
Proof.
  induction k as [|k IH]; intros v r H.
  - cbn [varint]. change (2 * 128 ^ Z.of_nat 0) with 2 in H. destruct (Z.ltb_spec v 128); [|lia]. cbn [app get_varint'].
    destruct (Z.ltb_spec v 2); [reflexivity|lia].
  - replace (Z.of_nat (S k)) with (Z.of_nat k + 1) in H by lia. rewrite Z.pow_add_r in H by lia. change (128 ^ 1) with 128 in H.
    change (varint (S (S k)) v) with (if v <? 128 then [v] else (v mod 128 + 128) :: varint (S k) (v / 128)).
    destruct (Z.ltb_spec v 128) as [L|L].
    + cbn [app]. change (get_varint' (S (S k)) (v :: r)) with (if v <? 128 then Ok (v, r) else bind (get_varint' (S k) r) (fun x => Ok (v - 128 + 128 * fst x, snd x))).
      destruct (Z.ltb_spec v 128); [reflexivity|lia].
    + cbn [app]. set (x := v mod 128 + 128).
      change (get_varint' (S (S k)) (x :: varint (S k) (v / 128) ++ r)) with
        (if x <? 128 then Ok (x, varint (S k) (v / 128) ++ r) else bind (get_varint' (S k) (varint (S k) (v / 128) ++ r)) (fun y => Ok (x - 128 + 128 * fst y, snd y))).
      pose proof (Z.mod_pos_bound v 128 ltac:(lia)) as B. destruct (Z.ltb_spec x 128); [unfold x in *; lia|].
      assert (Q : 0 <= v / 128 < 2 * 128 ^ Z.of_nat k).
      { split; [apply Z.div_pos; lia|]. apply Z.div_lt_upper_bound; lia. }
      rewrite IH by exact Q. cbn [bind fst snd]. f_equal. f_equal. unfold x. pose proof (Z.div_mod v 128 ltac:(lia)). lia.
Qed.

Lemma varint_back v r : 0 <= v < 2 ^ 64 -> get_varint (put_varint v ++ r) = Ok (v, r).
Proof. intros H. unfold get_varint, put_varint. apply varint_dec. change (2 * 128 ^ Z.of_nat 9) with (2 ^ 64). exact H. Qed.

Lemma varint_length k v : (length (varint k v) <= k)%nat.
Proof. revert v. induction k as [|k IH]; intros v; cbn [varint]; [auto|]. destruct (v <? 128); cbn [length]; [lia|]. specialize (IH (v / 128)). lia. Qed.
Lemma put_varint_length v : (length (put_varint v) <= 10)%nat.
Proof. apply varint_length. Qed.
Lemma put_varint_nonempty v : (1 <= length (put_varint v))%nat.
Proof. unfold put_varint. cbn [varint]. destruct (v <? 128); cbn [length]; lia. Qed.

Lemma get_varint_S k x t : get_varint' (S (S k)) (x :: t) = if x <? 128 then Ok (x, t) else bind (get_varint' (S k) t) (fun r => Ok (x - 128 + 128 * fst r, snd r)).
Proof. reflexivity. Qed.

Lemma get_varint_app' : forall k b v r c, get_varint' k b = Ok (v, r) -> get_varint' k (b ++ c) = Ok (v, r ++ c) /\ (length r < length b)%nat.
Proof.
  induction k as [|k IH]; intros b v r c E; [discriminate|]. destruct b as [|x t]; [destruct k; discriminate|].
  destruct k as [|k].
  - cbn [get_varint' app] in *. destruct (x <? 2); [|discriminate]. injection E as <- <-. split; [reflexivity|cbn; lia].
  - rewrite get_varint_S in E. cbn [app]. rewrite get_varint_S. destruct (x <? 128). { injection E as <- <-. split; [reflexivity|cbn; lia]. }
    destruct (get_varint' (S k) t) as [[v' r']| | |] eqn:E'; try discriminate. destruct (IH _ _ _ c E') as [A B]. rewrite A. cbn [bind fst snd] in *.
    injection E as <- <-. split; [reflexivity|]. cbn [length]. lia.
Qed.
Lemma get_varint_app b v r c : get_varint b = Ok (v, r) -> get_varint (b ++ c) = Ok (v, r ++ c).
Proof. intros E. apply (get_varint_app' 10 b v r c E). Qed.
Lemma get_varint_shorter b v r : get_varint b = Ok (v, r) -> (length r < length b)%nat.
Proof. intros E. apply (get_varint_app' 10 b v r [] E). Qed.

(** ** Fields *)

Lemma skipn_app_short {A} n (b c : list A) : (n <= length b)%nat -> skipn n (b ++ c) = skipn n b ++ c.
Proof. intros H. rewrite skipn_app. replace (n - length b)%nat with 0%nat by lia. reflexivity. Qed.
Lemma firstn_app_short {A} n (b c : list A) : (n <= length b)%nat -> firstn n (b ++ c) = firstn n b.
Proof. intros H. rewrite firstn_app. replace (n - length b)%nat with 0%nat by lia. cbn [firstn]. apply app_nil_r. Qed.

Lemma get_value_app : forall k num wt b w r c k', get_value k num wt b = Ok (w, r) -> (k <= k')%nat ->
  get_value k' num wt (b ++ c) = Ok (w, r ++ c) /\ (length r <= length b)%nat.
Proof.
  induction k as [|k IH]; intros num wt b w r c k' E L; [discriminate|]. destruct k' as [|k']; [lia|]. cbn [get_value] in *.
  destruct (wt =? 0).
  { destruct (get_varint b) as [[v s]| | |] eqn:EV; try discriminate. rewrite (get_varint_app _ _ _ c EV). cbn [bind fst snd] in *.
    injection E as <- <-. split; [reflexivity|]. apply get_varint_shorter in EV. lia. }
  destruct (wt =? 1).
  { destruct (Nat.ltb_spec (length b) 8); [discriminate|]. assert (ER : r = skipn 8 b) by congruence. assert (w = WFixed64) as -> by congruence. rewrite ER. clear E ER. rewrite app_length.
    destruct (Nat.ltb_spec (length b + length c) 8); [lia|]. rewrite skipn_app_short by lia. split; [reflexivity|]. rewrite skipn_length. lia. }
  destruct (wt =? 2).
  { destruct (get_varint b) as [[v s]| | |] eqn:EV; try discriminate. rewrite (get_varint_app _ _ _ c EV). cbn [bind fst snd] in *.
    apply get_varint_shorter in EV. destruct (Z.ltb_spec (zlen s) v) as [?|H]; [discriminate|]. injection E as <- <-.
    unfold zlen in *. rewrite app_length. destruct (Z.ltb_spec (Z.of_nat (length s + length c)) v); [lia|].
    rewrite firstn_app_short, skipn_app_short by lia. split; [reflexivity|]. rewrite skipn_length. lia. }
  destruct (wt =? 3).
  { destruct (get_varint b) as [[v s]| | |] eqn:EV; try discriminate. rewrite (get_varint_app _ _ _ c EV). cbn [bind fst snd] in *.
    apply get_varint_shorter in EV. destruct (v / 8 <? 1); [discriminate|]. destruct (v mod 8 =? 4).
    - destruct (v / 8 =? num); [|discriminate]. injection E as <- <-. split; [reflexivity|lia].
    - destruct (get_value k (v / 8) (v mod 8) s) as [[w1 r1]| | |] eqn:E1; try discriminate. cbn [bind fst snd] in E.
      destruct (IH _ _ _ _ _ c k' E1 ltac:(lia)) as [A1 L1]. rewrite A1. cbn [bind fst snd].
      destruct (IH _ _ _ _ _ c k' E ltac:(lia)) as [A2 L2]. rewrite A2. split; [reflexivity|lia]. }
  destruct (wt =? 5); [|discriminate].
  destruct (Nat.ltb_spec (length b) 4); [discriminate|]. assert (ER : r = skipn 4 b) by congruence. assert (w = WFixed32) as -> by congruence. rewrite ER. clear E ER. rewrite app_length.
  destruct (Nat.ltb_spec (length b + length c) 4); [lia|]. rewrite skipn_app_short by lia. split; [reflexivity|]. rewrite skipn_length. lia.
Qed.

Lemma get_fields_nil k : get_fields k [] = Ok [].
Proof. destruct k; reflexivity. Qed.

Lemma get_fields_cons k x b : get_fields (S k) (x :: b) =
  bind (get_varint (x :: b)) (fun t =>
    if (fst t / 8 <? 1) || (536870911 <? fst t / 8) || (fst t mod 8 =? 4) then bad_wire else
    bind (get_value (S (length (snd t))) (fst t / 8) (fst t mod 8) (snd t)) (fun v =>
    bind (get_fields k (snd v)) (fun fs => Ok ((fst t / 8, fst v) :: fs)))).
Proof. reflexivity. Qed.

Lemma get_fields_app : forall k a fa b fb k2 k', get_fields k a = Ok fa -> get_fields k2 b = Ok fb -> (length a + k2 <= k')%nat ->
  get_fields k' (a ++ b) = Ok (fa ++ fb).
Proof.
  assert (MONO : forall k2 b fb k', get_fields k2 b = Ok fb -> (k2 <= k')%nat -> get_fields k' b = Ok fb).
  { induction k2 as [|k2 IH]; intros b fb k' E L.
    - destruct b; [|discriminate]. rewrite get_fields_nil. exact E.
    - destruct b as [|x b]; [rewrite get_fields_nil; exact E|]. destruct k' as [|k']; [lia|]. rewrite get_fields_cons in *.
      destruct (get_varint (x :: b)) as [t| | |]; try discriminate. cbn [bind] in *. destruct (_ || _ || _)%bool; [discriminate|].
      destruct (get_value _ _ _ _) as [v| | |]; try discriminate. cbn [bind] in *.
      destruct (get_fields k2 (snd v)) as [fs| | |] eqn:EF; try discriminate. rewrite (IH _ _ k' EF ltac:(lia)). exact E. }
  induction k as [|k IH]; intros a fa b fb k2 k' EA EB L.
  - destruct a; [|discriminate]. injection EA as <-. cbn [app]. eapply MONO; [exact EB|]. cbn [length] in L. lia.
  - destruct a as [|x a]. { rewrite get_fields_nil in EA. injection EA as <-. cbn [app]. eapply MONO; [exact EB|]. cbn [length] in L. lia. }
    destruct k' as [|k']; [cbn [length] in L; lia|]. rewrite get_fields_cons in EA. cbn [app]. rewrite get_fields_cons.
    destruct (get_varint (x :: a)) as [[v s]| | |] eqn:EV; try discriminate.
    pose proof (get_varint_app _ _ _ b EV) as EV'. cbn [app] in EV'. rewrite EV'. cbn [bind fst snd] in *.
    destruct (_ || _ || _)%bool; [discriminate|].
    destruct (get_value (S (length s)) (v / 8) (v mod 8) s) as [[w r]| | |] eqn:EW; try discriminate. cbn [bind fst snd] in EA.
    apply get_varint_shorter in EV. cbn [length] in EV, L.
    destruct (get_value_app _ _ _ _ _ _ b (S (length (s ++ b))) EW) as [A1 L1]; [rewrite app_length; lia|]. rewrite A1. cbn [bind fst snd].
    destruct (get_fields k r) as [fs| | |] eqn:EF; try discriminate. cbn [bind] in EA. injection EA as <-.
    rewrite (IH r fs b fb k2 k' EF EB ltac:(lia)). reflexivity.
Qed.

Lemma fields_app a fa b fb : fields a = Ok fa -> fields b = Ok fb -> fields (a ++ b) = Ok (fa ++ fb).
Proof. intros A B. unfold fields in *. eapply get_fields_app; [exact A|exact B|]. rewrite app_length. lia. Qed.

Definition bytes_entry (n : Z) (b : list Z) : list (Z * wire) := match b with [] => [] | _ => [(n, WBytes b)] end.
Definition uint32_entry (n v : Z) : list (Z * wire) := if v =? 0 then [] else [(n, WVarint v)].

Lemma put_tag n wt r : 1 <= n <= 15 -> 0 <= wt < 8 -> put_varint (n * 8 + wt) ++ r = (n * 8 + wt) :: r.
Proof. intros N W. unfold put_varint. cbn [varint]. destruct (Z.ltb_spec (n * 8 + wt) 128); [reflexivity|lia]. Qed.
Lemma get_tag n wt r : 1 <= n <= 15 -> 0 <= wt < 8 -> get_varint ((n * 8 + wt) :: r) = Ok (n * 8 + wt, r).
Proof. intros N W. unfold get_varint. rewrite get_varint_S. destruct (Z.ltb_spec (n * 8 + wt) 128); [reflexivity|lia]. Qed.

Lemma fields_one n wt r w : 1 <= n <= 15 -> 0 <= wt < 8 -> wt <> 4 -> get_value (S (length r)) n wt r = Ok (w, []) ->
  fields (put_varint (n * 8 + wt) ++ r) = Ok [(n, w)].
Proof.
  intros N W W4 E. rewrite put_tag by lia. unfold fields. cbn [length]. rewrite get_fields_cons. rewrite get_tag by lia. cbn [bind fst snd].
  replace ((n * 8 + wt) / 8) with n by (rewrite Z.div_add_l by lia; rewrite Z.div_small by lia; lia).
  replace ((n * 8 + wt) mod 8) with wt by (rewrite Z.add_comm, Z.mod_add by lia; rewrite Z.mod_small by lia; lia).
  destruct (Z.ltb_spec n 1); [lia|]. destruct (Z.ltb_spec 536870911 n); [lia|]. destruct (Z.eqb_spec wt 4); [lia|]. cbn [orb].
  rewrite E. cbn [bind fst snd]. rewrite get_fields_nil. reflexivity.
Qed.

Lemma fields_bytes n b : 1 <= n <= 15 -> zlen b < 2 ^ 64 -> fields (put_bytes n b) = Ok (bytes_entry n b).
Proof.
  intros N L. unfold put_bytes, bytes_entry. destruct b as [|x b]; [reflexivity|]. set (l := x :: b) in *. apply fields_one; try lia.
  cbn [get_value]. change (2 =? 0) with false. change (2 =? 1) with false. change (2 =? 2) with true. cbv iota.
  assert (Z0 : 0 <= zlen l) by (unfold zlen; lia). rewrite varint_back by lia. cbn [bind fst snd].
  destruct (Z.ltb_spec (zlen l) (zlen l)); [lia|]. unfold zlen. rewrite Nat2Z.id, firstn_all, skipn_all. reflexivity.
Qed.

Lemma fields_uint32 n v : 1 <= n <= 15 -> 0 <= v < 2 ^ 32 -> fields (put_uint32 n v) = Ok (uint32_entry n v).
Proof.
  intros N L. unfold put_uint32, uint32_entry. destruct (v =? 0); [reflexivity|]. replace (n * 8) with (n * 8 + 0) by lia. apply fields_one; try lia.
  cbn [get_value]. change (0 =? 0) with true. cbv iota. rewrite <- (app_nil_r (put_varint v)) at 1. rewrite varint_back by lia. reflexivity.
Qed.

(** ** Messages *)

Lemma query_back q : zlen q < 2 ^ 64 -> decode_query (encode_query q) = Ok q.
Proof. intros L. unfold decode_query, encode_query. rewrite fields_bytes by (auto; lia). cbn [bind]. destruct q; reflexivity. Qed.

Lemma info_back E d : sendable E d -> exists m, encode_info E d = Ok m /\ decode_info E m = Ok d.
Proof.
  intros (R & C & B & P & U & L). unfold encode_info. rewrite U. eexists. split; [reflexivity|]. unfold decode_info.
  assert (L4 : zlen (di_type d) < 2 ^ 64 /\ zlen (di_root d) < 2 ^ 64) by (unfold zlen in *; lia). destruct L4 as [L4 L5].
  pose proof (fields_uint32 1 _ ltac:(lia) R) as F1. pose proof (fields_uint32 2 _ ltac:(lia) C) as F2. pose proof (fields_uint32 3 _ ltac:(lia) B) as F3.
  pose proof (fields_bytes 4 _ ltac:(lia) L4) as F4. pose proof (fields_bytes 5 _ ltac:(lia) L5) as F5. pose proof (fields_uint32 6 _ ltac:(lia) P) as F6.
  rewrite (fields_app _ _ _ _ F1 (fields_app _ _ _ _ F2 (fields_app _ _ _ _ F3 (fields_app _ _ _ _ F4 (fields_app _ _ _ _ F5 F6))))). cbn [bind].
  destruct d as [r c b t ro p]. cbn [di_rows di_cols di_bs di_type di_root di_plen] in *.
  assert (X : forall v, 0 <= v < 2 ^ 32 -> u32 v = v) by (intros v V; unfold u32; apply Z.mod_small; exact V).
  pose proof (X r R) as XR. pose proof (X c C) as XC. pose proof (X b B) as XB. pose proof (X p P) as XP.
  unfold uint32_entry, bytes_entry.
  destruct (Z.eqb_spec r 0), (Z.eqb_spec c 0), (Z.eqb_spec b 0), (Z.eqb_spec p 0), t as [|t0 t], ro as [|r0 ro]; subst;
    cbn [app forallb fst snd negb Z.eqb Pos.eqb orb andb]; rewrite ?U; cbn [andb]; unfold info_of_fields, uint32_field, bytes_field;
    cbn [fold_left fst snd Z.eqb Pos.eqb]; rewrite ?XR, ?XC, ?XB, ?XP; reflexivity.
Qed.

(** ** Frames *)

Lemma be_frame (c : list Z) : zlen c <= max_size -> be_dec (be_enc 4 (zlen c)) = zlen c.
Proof. intros L. apply be_dec_enc. change (256 ^ Z.of_nat 4) with 4294967296. unfold max_size, zlen in *. lia. Qed.

Lemma frame_back E m f : gzip_ok E -> send_frame E m = Ok f ->
  recv_frame E f = if max_size <? zlen m then Err "rpc error: code = ResourceExhausted desc = grpc: message after decompression larger than max" else Ok m.
Proof.
  intros (GZ & _) S. unfold send_frame in S. destruct (4294967295 <? zlen m); [discriminate|]. cbv zeta in S.
  destruct (Z.ltb_spec max_size (zlen (gzip E m))) as [?|L]; [discriminate|]. assert (EF : f = 1 :: be_enc 4 (zlen (gzip E m)) ++ gzip E m) by congruence. rewrite EF. clear S EF f. unfold recv_frame.
  rewrite app_length, be_enc_length. destruct (Nat.ltb_spec (4 + length (gzip E m)) 4); [lia|].
  rewrite firstn_app_short by (rewrite be_enc_length; auto). rewrite firstn_all2 by (rewrite be_enc_length; auto).
  rewrite skipn_app_short by (rewrite be_enc_length; auto). rewrite skipn_all2 by (rewrite be_enc_length; auto). cbn [app]. rewrite be_frame by auto. cbv zeta.
  destruct (Z.ltb_spec max_size (zlen (gzip E m))); [lia|]. destruct (Z.ltb_spec (zlen (gzip E m)) (zlen (gzip E m))); [lia|].
  change (1 =? 0) with false. change (1 =? 1) with true. cbv iota. replace (Z.to_nat (zlen (gzip E m))) with (length (gzip E m)) by (unfold zlen; rewrite Nat2Z.id; reflexivity). rewrite firstn_all, GZ. reflexivity.
Qed.

Lemma frame_sent E m : gzip_ok E -> zlen m <= 1000000100 -> exists f, send_frame E m = Ok f /\ recv_frame E f = Ok m.
Proof.
  intros G L. assert (S : exists f, send_frame E m = Ok f).
  { unfold send_frame. destruct (Z.ltb_spec 4294967295 (zlen m)); [lia|]. cbv zeta. destruct G as (_ & _ & G). specialize (G m).
    assert (zlen m / 1000 <= 1000001) by (apply Z.div_le_upper_bound; lia). unfold max_size.
    destruct (Z.ltb_spec 1073741824 (zlen (gzip E m))); [lia|]. eauto. }
  destruct S as (f & S). exists f. split; [exact S|]. rewrite (frame_back E m f G S). unfold max_size. destruct (Z.ltb_spec 1073741824 (zlen m)); [lia|reflexivity].
Qed.

Lemma encode_query_length q : zlen q <= zlen (encode_query q) <= zlen q + 20.
Proof.
  unfold encode_query, put_bytes, zlen. destruct q as [|x q]; [cbn; lia|]. rewrite !app_length.
  pose proof (put_varint_length (1 * 8 + 2)). pose proof (put_varint_length (Z.of_nat (length (x :: q)))). lia.
Qed.

Lemma encode_info_length E d m : sendable E d -> encode_info E d = Ok m -> zlen m <= 1000000100.
Proof.
  intros (_ & _ & _ & _ & U & L) S. unfold encode_info in S. rewrite U in S. injection S as <-.
  assert (PU : forall n v, (length (put_uint32 n v) <= 20)%nat).
  { intros n v. unfold put_uint32. destruct (v =? 0); [cbn; lia|]. rewrite app_length. pose proof (put_varint_length (n * 8)). pose proof (put_varint_length v). lia. }
  assert (T1 : forall n wt r, 1 <= n <= 15 -> 0 <= wt < 8 -> length (put_varint (n * 8 + wt) ++ r) = S (length r)) by (intros; rewrite put_tag by auto; reflexivity).
  assert (PU' : forall n v, 1 <= n <= 15 -> (length (put_uint32 n v) <= 11)%nat).
  { intros n v N. unfold put_uint32. destruct (v =? 0); [cbn; lia|]. replace (n * 8) with (n * 8 + 0) by lia. rewrite T1 by lia. pose proof (put_varint_length v). lia. }
  assert (PB : forall n b, 1 <= n <= 15 -> (length (put_bytes n b) <= length b + 11)%nat).
  { intros n b N. unfold put_bytes. destruct b as [|x b]; [cbn; lia|]. rewrite T1 by lia. rewrite app_length. pose proof (put_varint_length (zlen (x :: b))). lia. }
  unfold zlen in *. rewrite !app_length. pose proof (PU' 1 (di_rows d) ltac:(lia)). pose proof (PU' 2 (di_cols d) ltac:(lia)). pose proof (PU' 3 (di_bs d) ltac:(lia)).
  pose proof (PU' 6 (di_plen d) ltac:(lia)). pose proof (PB 4 (di_type d) ltac:(lia)). pose proof (PB 5 (di_root d) ltac:(lia)). lia.
Qed.

(** ** Calls *)

Lemma remote_ok E h q a : gzip_ok E -> small q -> small a -> h q = Ok a -> over_network E h q = Ok a.
Proof.
  intros G LQ LA HQ. unfold over_network, remote_query, call. unfold small in *.
  destruct (frame_sent E (encode_query q) G) as (f & S & R). { pose proof (encode_query_length q). lia. } rewrite S. cbn [bind].
  unfold serve_query. rewrite R. cbn [bind]. rewrite query_back by lia. cbn [bind]. rewrite HQ. cbn [bind].
  destruct (frame_sent E (encode_query a) G) as (f' & S' & R'). { pose proof (encode_query_length a). lia. } rewrite S'. cbn [bind]. rewrite R'. cbn [bind].
  apply query_back. lia.
Qed.

Lemma bind_fails {A B} (r : res A) (k : A -> res B) : (forall a, r = Ok a -> fails (k a)) -> (exists a, r = Ok a) \/ fails r -> fails (bind r k).
Proof. intros K [(a & E)|(m & E)]; rewrite E; cbn [bind]; [apply K; auto|exists m; reflexivity]. Qed.

Lemma recv_ends E f : gzip_ok E -> (exists m, recv_frame E f = Ok m) \/ fails (recv_frame E f).
Proof.
  intros (_ & GD & _). unfold recv_frame. destruct f as [|x t]; [right; eexists; reflexivity|]. destruct (length t <? 4)%nat; [right; eexists; reflexivity|].
  cbv zeta. destruct (max_size <? _); [right; eexists; reflexivity|]. destruct (zlen _ <? _); [right; eexists; reflexivity|].
  destruct (x =? 0); [left; eexists; reflexivity|]. destruct (x =? 1); [|right; eexists; reflexivity].
  destruct (GD (firstn (Z.to_nat (be_dec (firstn 4 t))) (skipn 4 t))) as [(r & E1)|(m & E1)]; rewrite E1; cbn [bind].
  - destruct (max_size <? zlen r); [right|left]; eexists; reflexivity.
  - right. eexists; reflexivity.
Qed.

Lemma get_varint_ends : forall k b, (exists r, get_varint' k b = Ok r) \/ fails (get_varint' k b).
Proof.
  induction k as [|k IH]; intros b; [right; eexists; reflexivity|]. destruct b as [|x t]; [right; destruct k; eexists; reflexivity|]. destruct k as [|k].
  - cbn [get_varint']. destruct (x <? 2); [left|right]; eexists; reflexivity.
  - rewrite get_varint_S. destruct (x <? 128); [left; eexists; reflexivity|]. destruct (IH t) as [(r & E)|(m & E)]; rewrite E; cbn [bind]; [left|right]; eexists; reflexivity.
Qed.
Lemma get_value_ends : forall k num wt b, (exists r, get_value k num wt b = Ok r) \/ fails (get_value k num wt b).
Proof.
  induction k as [|k IH]; intros num wt b; [right; eexists; reflexivity|]. cbn [get_value].
  destruct (wt =? 0). { destruct (get_varint_ends 10 b) as [(r & E)|(m & E)]; unfold get_varint; rewrite E; cbn [bind]; [left|right]; eexists; reflexivity. }
  destruct (wt =? 1). { destruct (length b <? 8)%nat; [right|left]; eexists; reflexivity. }
  destruct (wt =? 2).
  { destruct (get_varint_ends 10 b) as [(r & E)|(m & E)]; unfold get_varint; rewrite E; cbn [bind]; [|right; eexists; reflexivity].
    destruct (zlen (snd r) <? fst r); [right|left]; eexists; reflexivity. }
  destruct (wt =? 3).
  { destruct (get_varint_ends 10 b) as [(r & E)|(m & E)]; unfold get_varint; rewrite E; cbn [bind]; [|right; eexists; reflexivity].
    destruct (fst r / 8 <? 1); [right; eexists; reflexivity|]. destruct (fst r mod 8 =? 4). { destruct (fst r / 8 =? num); [left|right]; eexists; reflexivity. }
    destruct (IH (fst r / 8) (fst r mod 8) (snd r)) as [(v & E1)|(m & E1)]; rewrite E1; cbn [bind]; [apply IH|right; eexists; reflexivity]. }
  destruct (wt =? 5); [|right; eexists; reflexivity]. destruct (length b <? 4)%nat; [right|left]; eexists; reflexivity.
Qed.
Lemma get_fields_ends : forall k b, (exists r, get_fields k b = Ok r) \/ fails (get_fields k b).
Proof.
  induction k as [|k IH]; intros b; destruct b as [|x b]; try (left; eexists; reflexivity); try (right; eexists; reflexivity).
  rewrite get_fields_cons. destruct (get_varint_ends 10 (x :: b)) as [(t & E)|(m & E)]; unfold get_varint; rewrite E; cbn [bind]; [|right; eexists; reflexivity].
  destruct (_ || _ || _)%bool; [right; eexists; reflexivity|].
  destruct (get_value_ends (S (length (snd t))) (fst t / 8) (fst t mod 8) (snd t)) as [(v & E1)|(m & E1)]; rewrite E1; cbn [bind]; [|right; eexists; reflexivity].
  destruct (IH (snd v)) as [(fs & E2)|(m & E2)]; rewrite E2; cbn [bind]; [left|right]; eexists; reflexivity.
Qed.
Lemma decode_query_ends b : (exists q, decode_query b = Ok q) \/ fails (decode_query b).
Proof. unfold decode_query, fields. destruct (get_fields_ends (length b) b) as [(r & E)|(m & E)]; rewrite E; cbn [bind]; [left|right]; eexists; reflexivity. Qed.

Lemma remote_ends E s q : gzip_ok E -> (exists a, remote_query E s q = Ok a) \/ fails (remote_query E s q).
Proof.
  intros G. unfold remote_query, call.
  assert (S : (exists f, send_frame E (encode_query q) = Ok f) \/ fails (send_frame E (encode_query q))).
  { unfold send_frame. destruct (_ <? _); [right; eexists; reflexivity|]. cbv zeta. destruct (_ <? _); [right|left]; eexists; reflexivity. }
  destruct S as [(f & S)|(m & S)]; rewrite S; cbn [bind]; [|right; eexists; reflexivity].
  destruct (s f) as [r|m|m|m]; cbn [bind]; try (right; eexists; reflexivity).
  destruct (recv_ends E r G) as [(x & R)|(m & R)]; rewrite R; cbn [bind]; [apply decode_query_ends|right; eexists; reflexivity].
Qed.

(** Nothing but the handler's answer to the query that was sent comes back. *)
Lemma remote_inv E h q a : gzip_ok E -> over_network E h q = Ok a -> h q = Ok a /\ zlen q <= max_size /\ zlen a <= max_size.
Proof.
  intros G R. unfold over_network, remote_query, call in R.
  destruct (send_frame E (encode_query q)) as [f| | |] eqn:S; try discriminate. cbn [bind] in R. unfold serve_query in R.
  rewrite (frame_back E _ _ G S) in R. pose proof (encode_query_length q) as LQ. pose proof (encode_query_length a) as LA.
  destruct (Z.ltb_spec max_size (zlen (encode_query q))) as [?|L1]; [discriminate|]. cbn [bind] in R. unfold max_size in *.
  rewrite query_back in R by lia. cbn [bind] in R. destruct (h q) as [a'| | |]; try discriminate. cbn [bind] in R.
  destruct (send_frame E (encode_query a')) as [f'| | |] eqn:S'; try discriminate.
  rewrite (frame_back E _ _ G S') in R. pose proof (encode_query_length a') as LA'. unfold max_size in R.
  destruct (Z.ltb_spec 1073741824 (zlen (encode_query a'))) as [?|L2]; [discriminate|]. cbn [bind] in R. rewrite query_back in R by lia.
  injection R as ->. split; [reflexivity|]. lia.
Qed.

Lemma description_ok E d : gzip_ok E -> sendable E d -> remote_description E d = Some d.
Proof.
  intros G SD. unfold remote_description, remote_info, call.
  destruct (frame_sent E [] G ltac:(unfold zlen; cbn [length]; lia)) as (f & S & R). rewrite S. cbn [bind]. unfold serve_info. rewrite R. cbn [bind].
  change (fields []) with (@Ok (list (Z * wire)) []). cbn [bind]. destruct (info_back E d SD) as (m & EM & DM). rewrite EM. cbn [bind].
  destruct (frame_sent E m G (encode_info_length E d m SD EM)) as (f' & S' & R'). rewrite S'. rewrite R'. cbn [bind]. rewrite DM. reflexivity.
Qed.
