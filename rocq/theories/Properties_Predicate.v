(** Properties C18-C27 and C68-C71: predicate (COUNT, AVG) queries. Specification vocabulary in PredicateSpec.v. *)
From Coq Require Import String ZArith List Bool Lia.
From Verif Require Import GoBase BaseFacts FieldModel FSSModel EncodingModel MerkleModel MerkleSpec PredicateModel PredicateSpec
  FSSProofs CalendarProofs PredicateProofs PredicateProofs2 PredicateProofs3 PredicateProofs4 ToyInstances.
Import ListNotations.
Open Scope Z_scope.

(** A small database for the examples: two keys from "@x", one RSA, creation years 2018, 2019 and 2020. *)
Definition rsa_2018 : key_info := mkKI [97; 64; 120] (mkTime (86400 * (days_before_year 2018 + 5)) 0 (Some 60)) 1.
Definition dsa_2019 : key_info := mkKI [98; 64; 120] (mkTime (86400 * (days_before_year 2019 + 5)) 0 (Some 60)) 17.
Definition ecdh_2020 : key_info := mkKI [97; 64] (mkTime (86400 * (days_before_year 2020 + 5)) 0 None) 18.
Definition toy_db : list key_info := [rsa_2018; dsa_2019; ecdh_2020].
Definition toy_alphas : list Z := [11; 222222; 3333; 2147483646].
Definition suffix_q : qinfo := mkInfo target_userid 0 2 false false false.
Definition conj_q : qinfo := mkInfo target_userid 0 2 true false false.
Definition avg_q : qinfo := mkInfo target_userid 0 2 true true false.
Lemma toy_db_ok : Forall record_ok toy_db.
Proof.
  repeat (constructor; [unfold record_ok; conj_split; try (vm_compute; intuition congruence);
    try (intros m E; vm_compute in E; inversion E; lia);
    (repeat constructor; vm_compute; intuition congruence)|]). constructor.
Qed.
Definition toy_run (e : nat) (alphas : list Z) (q : qinfo) (inp : res (list bool)) (year : Z) :=
  bind inp (run toy_cipher toy_hash e alphas toy_rand 0 1 (fun _ => year) (fun _ => year) (fun _ _ => 0) (fun _ _ => 0)
              toy_db q).

(** C18: for every request, database and randomness, unless a conversion was resampled ([flag]), the client obtains the
    number of records selected, modulo 2^31-1; [e = 1] is the classical scheme, [e = 5] the authenticated one. *)
Theorem C18_count_correct :
  forall enc H e alphas r now0 now1 fresh0 fresh1 db rq,
  cipher_ok enc -> hash_ok H -> rand_ok r ->
  e = S (length alphas) -> (e < 20)%nat -> Forall (fun v => 0 <= v < ModP) alphas ->
  request_ok rq -> Forall record_ok db ->
  request_bytes rq <= 32 \/ Forall (fun ki => ascii (ki_email ki)) db ->
  exists inp out flag,
    request_input H rq = Ok inp /\
    run enc H e alphas r 0 1 now0 now1 fresh0 fresh1 db (request_info rq) inp = Ok (out, flag) /\
    (flag = false -> out = Ok (count_matching (selects H rq) db mod ModP)).
Proof. exact run_count. Qed.
Print Assumptions C18_count_correct.

Theorem C18_whole_address_without_digest_collision :
  forall H q text db,
  q_from_start q = 0 -> q_from_end q = 0 ->
  Forall (fun ki => firstn 16 (H (ki_email ki)) = firstn 16 (H text) -> ki_email ki = text) db ->
  count_matching (fun ki => email_matches H q text (ki_email ki)) db
  = count_matching (fun ki => list_eqb (ki_email ki) text) db.
Proof. exact whole_address. Qed.
Print Assumptions C18_whole_address_without_digest_collision.

Example C18_example :
  toy_run 5 toy_alphas suffix_q (to_email_client toy_hash suffix_q [64; 120]) 2021 = Ok (Ok 2, false) /\
  toy_run 1 [] suffix_q (to_email_client toy_hash suffix_q [64; 120]) 2021 = Ok (Ok 2, false) /\
  toy_run 5 toy_alphas (request_info (ByAlgo "DSA")) (Ok (to_pka_client "DSA")) 2021 = Ok (Ok 1, false) /\
  toy_run 5 toy_alphas conj_q (to_and_client toy_hash conj_q [64; 120]) 2021 = Ok (Ok 1, false) /\
  request_ok (ByEmail suffix_q [64; 120]) /\ Forall record_ok toy_db.
Proof.
  split; [vm_compute; reflexivity|]. split; [vm_compute; reflexivity|]. split; [vm_compute; reflexivity|].
  split; [vm_compute; reflexivity|]. split; [|exact toy_db_ok].
  unfold request_ok, plain, text_long_enough.
  split; [|split; [|repeat constructor; vm_compute; intuition congruence]]; vm_compute; intuition congruence.
Qed.

(** C19 *)
Theorem C19_avg_correct :
  forall enc H e alphas r now0 now1 year fresh0 fresh1 db q text,
  cipher_ok enc -> hash_ok H -> rand_ok r ->
  e = S (length alphas) -> (e < 20)%nat -> Forall (fun v => 0 <= v < ModP) alphas ->
  avg_query q -> text_long_enough q text -> bytes text -> Forall record_ok db ->
  email_id_bytes q <= 32 \/ Forall (fun ki => ascii (ki_email ki)) db ->
  (forall i, now0 i = year) -> (forall i, now1 i = year) -> year < 2 ^ 33 ->
  let selected := filter (avg_selects H q text year) db in
  0 < zlen selected < ModP -> zsum (ages year selected) < ModP ->
  exists inp out flag,
    to_email_client H q text = Ok inp /\
    run enc H e alphas r 0 1 now0 now1 fresh0 fresh1 db q inp = Ok (out, flag) /\
    (flag = false -> out = Ok (zsum (ages year selected) / zlen selected)).
Proof.
  intros enc H e alphas r now0 now1 year fresh0 fresh1 db q text He HH Hr HE H20 Ha HQ HT HB HD HF N0 N1 HY sel HC HS.
  destruct (run_avg enc H e alphas r now0 now1 year fresh0 fresh1 db q text He HH Hr HE H20 Ha HQ HT HB HD HF N0 N1 HY)
    as (inp & out & flag & E1 & E2 & E3).
  exists inp, out, flag. split; [exact E1|]. split; [exact E2|]. intros F. rewrite (E3 F). cbv zeta.
  unfold count_matching. fold sel.
  assert (P : 0 <= zsum (ages year sel)).
  { unfold sel. clear. induction db as [|ki db IH]; cbn [filter]; [cbn; lia|].
    destruct (avg_selects H q text year ki) eqn:E; [|exact IH]. cbn [ages map zsum]. fold (ages year (filter (avg_selects H q text year) db)).
    unfold avg_selects in E. apply andb_true_iff in E as [_ E]. apply Z.leb_le in E. lia. }
  rewrite (Z.mod_small (zlen sel)) by lia. rewrite (Z.mod_small (zsum (ages year sel))) by lia.
  destruct (Z.eqb_spec (zlen sel) 0); [lia|reflexivity].
Qed.
Print Assumptions C19_avg_correct.

Example C19_example :
  toy_run 5 toy_alphas avg_q (to_email_client toy_hash avg_q [64; 120]) 2024 = Ok (Ok 5, false) /\
  toy_run 1 [] avg_q (to_email_client toy_hash avg_q [64; 120]) 2024 = Ok (Ok 5, false) /\
  zlen (filter (avg_selects toy_hash avg_q [64; 120] 2024) toy_db) = 2.
Proof. conj_split; vm_compute; reflexivity. Qed.

(** C20, refuted: an AVG over no record at all makes the client panic, always. *)
Theorem C20_avg_of_nothing_panics_refuted :
  forall enc H e alphas r now0 now1 year fresh0 fresh1 db q text,
  cipher_ok enc -> hash_ok H -> rand_ok r ->
  e = S (length alphas) -> (e < 20)%nat -> Forall (fun v => 0 <= v < ModP) alphas ->
  avg_query q -> text_long_enough q text -> bytes text -> Forall record_ok db ->
  email_id_bytes q <= 32 \/ Forall (fun ki => ascii (ki_email ki)) db ->
  (forall i, now0 i = year) -> (forall i, now1 i = year) -> year < 2 ^ 33 ->
  filter (avg_selects H q text year) db = [] ->
  exists inp out flag,
    to_email_client H q text = Ok inp /\
    run enc H e alphas r 0 1 now0 now1 fresh0 fresh1 db q inp = Ok (out, flag) /\
    (flag = false -> out = Panic "integer divide by zero").
Proof.
  intros enc H e alphas r now0 now1 year fresh0 fresh1 db q text He HH Hr HE H20 Ha HQ HT HB HD HF N0 N1 HY HN.
  destruct (run_avg enc H e alphas r now0 now1 year fresh0 fresh1 db q text He HH Hr HE H20 Ha HQ HT HB HD HF N0 N1 HY)
    as (inp & out & flag & E1 & E2 & E3).
  exists inp, out, flag. split; [exact E1|]. split; [exact E2|]. intros F. rewrite (E3 F). unfold count_matching. rewrite HN. reflexivity.
Qed.
Print Assumptions C20_avg_of_nothing_panics_refuted.

Example C20_example :
  toy_run 5 toy_alphas avg_q (to_email_client toy_hash avg_q [64; 121]) 2024 = Ok (Panic "integer divide by zero", false).
Proof. vm_compute. reflexivity. Qed.

(** C21: the offset of the cheating server's answer from its honest answer is [d0] on the data and [di] on tag number i.
    Whatever the offset, the client accepts a wrong count for at most one value [z] of the MAC key number i, for
    every i. The honest answers are those of the real servers; the cheating server is the second one. *)
Theorem C21_wrong_count_fixes_every_mac_key :
  forall d0 di, exists z,
  forall enc H e alphas r now0 now1 fresh0 fresh1 db rq inp k0 k1 fg a0 f0 a1 f1 a1' i v,
  cipher_ok enc -> hash_ok H -> rand_ok r ->
  e = S (length alphas) -> (e < 20)%nat -> Forall (fun v => 0 <= v < ModP) alphas ->
  request_ok rq -> Forall record_ok db ->
  request_bytes rq <= 32 \/ Forall (fun ki => ascii (ki_email ki)) db ->
  request_input H rq = Ok inp -> client_query enc e alphas r inp 2 = Ok (k0, k1, fg) ->
  answer enc H e 0 db (length db) now0 fresh0 (Some (request_info rq)) k0 = Ok (a0, f0) ->
  answer enc H e 1 db (length db) now1 fresh1 (Some (request_info rq)) k1 = Ok (a1, f1) ->
  fg || f0 || f1 = false ->
  (e <= length a1')%nat -> Forall (fun v => 0 <= v <= ModP) a1' ->
  (nth 0 a1' 0 - nth 0 a1 0) mod ModP = d0 mod ModP ->
  (i < length alphas)%nat -> (nth (S i) a1' 0 - nth (S i) a1 0) mod ModP = di mod ModP ->
  reconstruct e alphas [a0; a1'] = Ok v ->
  v = count_matching (selects H rq) db mod ModP \/ nth i alphas 0 = z.
Proof.
  intros d0 di. destruct (forge_count_small d0 di) as [z HZ]. exists z.
  intros enc H e alphas r now0 now1 fresh0 fresh1 db rq inp k0 k1 fg a0 f0 a1 f1 a1' i v
    He HH Hr HE H20 Ha HR HD HF EI EQ A B F L U D0 Hi Di HV.
  pose proof (honest_shared enc H e alphas r now0 now1 fresh0 fresh1 db rq inp k0 k1 fg a0 f0 a1 f1 He HH Hr HE H20 Ha HR HD HF EI EQ A B F) as HS.
  destruct (Z.eq_dec v (count_matching (selects H rq) db mod ModP)) as [E|E]; [left; exact E|right].
  exact (HZ e alphas _ a0 a1 a1' v i HE Ha HS L U D0 Hi Di HV E).
Qed.
Print Assumptions C21_wrong_count_fixes_every_mac_key.

(** the same when the first server cheats *)
Theorem C21_wrong_count_first_server :
  forall d0 di, exists z,
  forall enc H e alphas r now0 now1 fresh0 fresh1 db rq inp k0 k1 fg a0 f0 a1 f1 a0' i v,
  cipher_ok enc -> hash_ok H -> rand_ok r ->
  e = S (length alphas) -> (e < 20)%nat -> Forall (fun v => 0 <= v < ModP) alphas ->
  request_ok rq -> Forall record_ok db ->
  request_bytes rq <= 32 \/ Forall (fun ki => ascii (ki_email ki)) db ->
  request_input H rq = Ok inp -> client_query enc e alphas r inp 2 = Ok (k0, k1, fg) ->
  answer enc H e 0 db (length db) now0 fresh0 (Some (request_info rq)) k0 = Ok (a0, f0) ->
  answer enc H e 1 db (length db) now1 fresh1 (Some (request_info rq)) k1 = Ok (a1, f1) ->
  fg || f0 || f1 = false ->
  length a0' = e -> Forall (fun v => 0 <= v <= ModP) a0' ->
  (nth 0 a0' 0 - nth 0 a0 0) mod ModP = d0 mod ModP ->
  (i < length alphas)%nat -> (nth (S i) a0' 0 - nth (S i) a0 0) mod ModP = di mod ModP ->
  reconstruct e alphas [a0'; a1] = Ok v ->
  v = count_matching (selects H rq) db mod ModP \/ nth i alphas 0 = z.
Proof.
  intros d0 di. destruct (forge_count_small d0 di) as [z HZ]. exists z.
  intros enc H e alphas r now0 now1 fresh0 fresh1 db rq inp k0 k1 fg a0 f0 a1 f1 a0' i v
    He HH Hr HE H20 Ha HR HD HF EI EQ A B F L U D0 Hi Di HV.
  pose proof (honest_shared enc H e alphas r now0 now1 fresh0 fresh1 db rq inp k0 k1 fg a0 f0 a1 f1 He HH Hr HE H20 Ha HR HD HF EI EQ A B F) as HS.
  pose proof HS as (_ & L1 & _).
  destruct (Z.eq_dec v (count_matching (selects H rq) db mod ModP)) as [E|E]; [left; exact E|right].
  rewrite reconstruct_sym in HV by (rewrite L, L1; reflexivity).
  exact (HZ e alphas _ a1 a0 a0' v i HE Ha (shared_sym _ _ _ _ _ HS) ltac:(rewrite L; apply le_n) U D0 Hi Di HV E).
Qed.
Print Assumptions C21_wrong_count_first_server.

(** elements above the modulus (the wire format allows any 32-bit word): at most four values of each MAC key *)
Theorem C21_wrong_count_any_words :
  forall d0 di, exists zs, (length zs <= 4)%nat /\
  forall enc H e alphas r now0 now1 fresh0 fresh1 db rq inp k0 k1 fg a0 f0 a1 f1 a1' i v,
  cipher_ok enc -> hash_ok H -> rand_ok r ->
  e = S (length alphas) -> (e < 20)%nat -> Forall (fun v => 0 <= v < ModP) alphas ->
  request_ok rq -> Forall record_ok db ->
  request_bytes rq <= 32 \/ Forall (fun ki => ascii (ki_email ki)) db ->
  request_input H rq = Ok inp -> client_query enc e alphas r inp 2 = Ok (k0, k1, fg) ->
  answer enc H e 0 db (length db) now0 fresh0 (Some (request_info rq)) k0 = Ok (a0, f0) ->
  answer enc H e 1 db (length db) now1 fresh1 (Some (request_info rq)) k1 = Ok (a1, f1) ->
  fg || f0 || f1 = false ->
  (e <= length a1')%nat -> Forall (fun v => 0 <= v < 2 ^ 32) a1' ->
  (nth 0 a1' 0 - nth 0 a1 0) mod ModP = d0 mod ModP ->
  (i < length alphas)%nat -> (nth (S i) a1' 0 - nth (S i) a1 0) mod ModP = di mod ModP ->
  reconstruct e alphas [a0; a1'] = Ok v ->
  v = count_matching (selects H rq) db mod ModP \/ In (nth i alphas 0) zs.
Proof.
  intros d0 di. destruct (forge_count_any d0 di) as (zs & LZ & HZ). exists zs. split; [exact LZ|].
  intros enc H e alphas r now0 now1 fresh0 fresh1 db rq inp k0 k1 fg a0 f0 a1 f1 a1' i v
    He HH Hr HE H20 Ha HR HD HF EI EQ A B F L U D0 Hi Di HV.
  pose proof (honest_shared enc H e alphas r now0 now1 fresh0 fresh1 db rq inp k0 k1 fg a0 f0 a1 f1 He HH Hr HE H20 Ha HR HD HF EI EQ A B F) as HS.
  destruct (Z.eq_dec v (count_matching (selects H rq) db mod ModP)) as [E|E]; [left; exact E|right].
  exact (HZ e alphas _ a0 a1 a1' v i HE Ha HS L U D0 Hi Di HV E).
Qed.
Print Assumptions C21_wrong_count_any_words.

Theorem C21_tag_change_rejected :
  forall enc H e alphas r now0 now1 fresh0 fresh1 db rq inp k0 k1 fg a0 f0 a1 f1 a1' i,
  cipher_ok enc -> hash_ok H -> rand_ok r ->
  e = S (length alphas) -> (e < 20)%nat -> Forall (fun v => 0 <= v < ModP) alphas ->
  request_ok rq -> Forall record_ok db ->
  request_bytes rq <= 32 \/ Forall (fun ki => ascii (ki_email ki)) db ->
  request_input H rq = Ok inp -> client_query enc e alphas r inp 2 = Ok (k0, k1, fg) ->
  answer enc H e 0 db (length db) now0 fresh0 (Some (request_info rq)) k0 = Ok (a0, f0) ->
  answer enc H e 1 db (length db) now1 fresh1 (Some (request_info rq)) k1 = Ok (a1, f1) ->
  fg || f0 || f1 = false ->
  (e <= length a1')%nat -> Forall (fun v => 0 <= v <= ModP) a1' ->
  nth 0 a1' 0 mod ModP = nth 0 a1 0 mod ModP ->
  (i < length alphas)%nat -> nth (S i) a1' 0 mod ModP <> nth (S i) a1 0 mod ModP ->
  reconstruct e alphas [a0; a1'] = Err "REJECT".
Proof.
  intros enc H e alphas r now0 now1 fresh0 fresh1 db rq inp k0 k1 fg a0 f0 a1 f1 a1' i
    He HH Hr HE H20 Ha HR HD HF EI EQ A B F L U D0 Hi Di.
  pose proof (honest_shared enc H e alphas r now0 now1 fresh0 fresh1 db rq inp k0 k1 fg a0 f0 a1 f1 He HH Hr HE H20 Ha HR HD HF EI EQ A B F) as HS.
  exact (tag_change_rejected e alphas _ a0 a1 a1' i HE Ha HS L U D0 Hi Di).
Qed.
Print Assumptions C21_tag_change_rejected.

(** AVG: an accepted wrong average fixes each MAC key to one of two values *)
Theorem C21_wrong_average_fixes_every_mac_key :
  forall dc ds dic dis, exists zc zs,
  forall enc H e alphas r now0 now1 year fresh0 fresh1 db q text inp k0 k1 fg a0 f0 a1 f1 a1' i v,
  cipher_ok enc -> hash_ok H -> rand_ok r ->
  e = S (length alphas) -> (e < 20)%nat -> Forall (fun v => 0 <= v < ModP) alphas ->
  avg_query q -> text_long_enough q text -> bytes text -> Forall record_ok db ->
  email_id_bytes q <= 32 \/ Forall (fun ki => ascii (ki_email ki)) db ->
  (forall i, now0 i = year) -> (forall i, now1 i = year) -> year < 2 ^ 33 ->
  to_email_client H q text = Ok inp -> client_query enc e alphas r inp 2 = Ok (k0, k1, fg) ->
  answer enc H e 0 db (length db) now0 fresh0 (Some q) k0 = Ok (a0, f0) ->
  answer enc H e 1 db (length db) now1 fresh1 (Some q) k1 = Ok (a1, f1) ->
  fg || f0 || f1 = false ->
  length a1' = (2 * e)%nat -> Forall (fun v => 0 <= v <= ModP) a1' ->
  (nth 0 a1' 0 - nth 0 a1 0) mod ModP = dc mod ModP ->
  (nth e a1' 0 - nth e a1 0) mod ModP = ds mod ModP ->
  (i < length alphas)%nat ->
  (nth (S i) a1' 0 - nth (S i) a1 0) mod ModP = dic mod ModP ->
  (nth (e + S i) a1' 0 - nth (e + S i) a1 0) mod ModP = dis mod ModP ->
  reconstruct e alphas [a0; a1'] = Ok v ->
  let selected := filter (avg_selects H q text year) db in
  v = (zsum (ages year selected) mod ModP) / (zlen selected mod ModP) \/ nth i alphas 0 = zc \/ nth i alphas 0 = zs.
Proof.
  intros dc ds dic dis. destruct (forge_avg_halves dc ds dic dis) as (zc & zs & HZ). exists zc, zs.
  intros enc H e alphas r now0 now1 year fresh0 fresh1 db q text inp k0 k1 fg a0 f0 a1 f1 a1' i v
    He HH Hr HE H20 Ha HQ HT HB HD HF N0 N1 HY EI EQ A B F L U Dc Ds Hi Dic Dis HV sel.
  destruct (honest_avg_shared enc H e alphas r now0 now1 year fresh0 fresh1 db q text inp k0 k1 fg a0 f0 a1 f1
      He HH Hr HE H20 Ha HQ HT HB HD HF N0 N1 HY EI EQ A B F) as (c0 & s0 & c1 & s1 & -> & -> & SC & SS).
  exact (HZ e alphas _ _ c0 s0 c1 s1 a1' v i HE Ha SC SS L U Dc Ds Hi Dic Dis HV).
Qed.
Print Assumptions C21_wrong_average_fixes_every_mac_key.

(** the honest answers of the toy run, a wrong answer that is rejected, and the one MAC key value for which it is accepted *)
Example C21_example :
  match to_email_client toy_hash suffix_q [64; 120] with
  | Ok inp =>
    match client_query toy_cipher 2 [11] toy_rand inp 2 with
    | Ok (k0, k1, false) =>
      match answer toy_cipher toy_hash 2 0 toy_db 3 (fun _ => 2021) (fun _ _ => 0) (Some suffix_q) k0,
            answer toy_cipher toy_hash 2 1 toy_db 3 (fun _ => 2021) (fun _ _ => 0) (Some suffix_q) k1 with
      | Ok (a0, false), Ok ([x; y], false) =>
        reconstruct 2 [11] [a0; [x; y]] = Ok 2 /\
        reconstruct 2 [11] [a0; [(x + 1) mod ModP; y]] = Err "REJECT" /\
        reconstruct 2 [11] [a0; [x; (y + 5) mod ModP]] = Err "REJECT" /\
        reconstruct 2 [11] [a0; [(x + 1) mod ModP; (y + 11) mod ModP]] = Ok 3
      | _, _ => False
      end
    | _ => False
    end
  | _ => False
  end.
Proof. vm_compute. repeat split. Qed.

(** C22, refuted: if the server whose answer is looked at first sends only the first half of its AVG answer, the client
    accepts and returns the count as the average. *)
Theorem C22_truncated_average_accepted_refuted :
  forall enc H e alphas r now0 now1 year fresh0 fresh1 db q text inp k0 k1 fg a0 f0 a1 f1,
  cipher_ok enc -> hash_ok H -> rand_ok r ->
  e = S (length alphas) -> (e < 20)%nat -> Forall (fun v => 0 <= v < ModP) alphas ->
  avg_query q -> text_long_enough q text -> bytes text -> Forall record_ok db ->
  email_id_bytes q <= 32 \/ Forall (fun ki => ascii (ki_email ki)) db ->
  (forall i, now0 i = year) -> (forall i, now1 i = year) -> year < 2 ^ 33 ->
  to_email_client H q text = Ok inp -> client_query enc e alphas r inp 2 = Ok (k0, k1, fg) ->
  answer enc H e 0 db (length db) now0 fresh0 (Some q) k0 = Ok (a0, f0) ->
  answer enc H e 1 db (length db) now1 fresh1 (Some q) k1 = Ok (a1, f1) ->
  fg || f0 || f1 = false ->
  reconstruct e alphas [firstn e a0; a1] = Ok (zlen (filter (avg_selects H q text year) db) mod ModP).
Proof.
  intros enc H e alphas r now0 now1 year fresh0 fresh1 db q text inp k0 k1 fg a0 f0 a1 f1
    He HH Hr HE H20 Ha HQ HT HB HD HF N0 N1 HY EI EQ A B F.
  destruct (honest_avg_shared enc H e alphas r now0 now1 year fresh0 fresh1 db q text inp k0 k1 fg a0 f0 a1 f1
      He HH Hr HE H20 Ha HQ HT HB HD HF N0 N1 HY EI EQ A B F) as (c0 & s0 & c1 & s1 & -> & -> & SC & SS).
  pose proof SC as (L0 & _). rewrite firstn_app, <- L0, firstn_all, Nat.sub_diag, firstn_O, app_nil_r.
  rewrite L0. exact (rec_downgrade e alphas _ c0 c1 s1 HE Ha SC).
Qed.
Print Assumptions C22_truncated_average_accepted_refuted.

(** average 5 over two records becomes 2 *)
Example C22_example :
  match to_email_client toy_hash avg_q [64; 120] with
  | Ok inp =>
    match client_query toy_cipher 5 toy_alphas toy_rand inp 2 with
    | Ok (k0, k1, false) =>
      match answer toy_cipher toy_hash 5 0 toy_db 3 (fun _ => 2024) (fun _ _ => 0) (Some avg_q) k0,
            answer toy_cipher toy_hash 5 1 toy_db 3 (fun _ => 2024) (fun _ _ => 0) (Some avg_q) k1 with
      | Ok (a0, false), Ok (a1, false) =>
        reconstruct 5 toy_alphas [a0; a1] = Ok 5 /\ reconstruct 5 toy_alphas [firstn 5 a0; a1] = Ok 2
      | _, _ => False
      end
    | _ => False
    end
  | _ => False
  end.
Proof. vm_compute. split; reflexivity. Qed.

(** C23 *)
Theorem C23_predicate_answer_order :
  forall e alphas a b, length a = length b ->
  reconstruct e alphas [a; b] = reconstruct e alphas [b; a].
Proof. exact reconstruct_sym. Qed.
Print Assumptions C23_predicate_answer_order.

Example C23_example :
  reconstruct 2 [3] [[5; 10]; [2; 11]] = Ok 7 /\ reconstruct 2 [3] [[2; 11]; [5; 10]] = Ok 7.
Proof. split; vm_compute; reflexivity. Qed.

(** C24, refuted: keys delivered to the servers in the other order give the negated count, accepted. *)
Theorem C24_swapped_delivery_accepted_refuted :
  forall enc H e alphas r now0 now1 fresh0 fresh1 db rq,
  cipher_ok enc -> hash_ok H -> rand_ok r ->
  e = S (length alphas) -> (e < 20)%nat -> Forall (fun v => 0 <= v < ModP) alphas ->
  request_ok rq -> Forall record_ok db ->
  request_bytes rq <= 32 \/ Forall (fun ki => ascii (ki_email ki)) db ->
  exists inp out flag,
    request_input H rq = Ok inp /\
    run enc H e alphas r 1 0 now0 now1 fresh0 fresh1 db (request_info rq) inp = Ok (out, flag) /\
    (flag = false -> out = Ok ((- count_matching (selects H rq) db) mod ModP)).
Proof. exact run_swapped. Qed.
Print Assumptions C24_swapped_delivery_accepted_refuted.

Example C24_example :
  bind (to_email_client toy_hash suffix_q [64; 120])
    (run toy_cipher toy_hash 5 toy_alphas toy_rand 1 0 (fun _ => 2021) (fun _ => 2021) (fun _ _ => 0) (fun _ _ => 0)
              toy_db suffix_q) = Ok (Ok 2147483645, false).
Proof. vm_compute. reflexivity. Qed.

(** C25: identifiers are equal exactly when the first (last) n bytes are those of the requested text. *)
Theorem C25_email_identifiers_exact :
  forall H q text email, hash_ok H -> text_long_enough q text -> bytes text -> bytes email ->
  0 < q_from_start q \/ 0 < q_from_end q ->
  exists t, id_for_email H q text = Ok (Some t) /\
    (id_for_email H q email = Ok (Some t) <->
     if 0 <? q_from_start q
     then exists rest, email = firstn (Z.to_nat (q_from_start q)) text ++ rest
     else exists rest, email = rest ++ skipn (length text - Z.to_nat (q_from_end q)) text) /\
    (id_for_email H q email = Ok None <->
     if 0 <? q_from_start q then zlen email < q_from_start q else zlen email < q_from_end q).
Proof.
  intros H q text email HH HT Bt Be HP. pose proof HT as (Hs & He & _).
  destruct (picked_match H q text email HT) as (t & Pt & PM).
  exists (byte_to_bits t). rewrite !id_picked by assumption. rewrite Pt. split; [reflexivity|]. split.
  - transitivity (picked H q email = Some t).
    + split; intros E.
      * destruct (picked H q email) as [s|] eqn:Es; cbn [option_map] in E; [|discriminate].
        injection E as E. apply EncodingProofs.byte_to_bits_inj in E; [congruence| |].
        -- apply (picked_ok H q email s HH Be Es).
        -- apply (picked_ok H q text t HH Bt Pt).
      * rewrite E. reflexivity.
    + rewrite PM. unfold email_matches. destruct (Z.ltb_spec 0 (q_from_start q)).
      * apply is_prefix_spec.
      * destruct (Z.ltb_spec 0 (q_from_end q)); [|lia]. apply is_suffix_spec.
  - unfold picked. destruct (Z.ltb_spec 0 (q_from_start q)).
    + destruct (Z.ltb_spec (zlen email) (q_from_start q)); cbn [option_map]; split; intros; (congruence || lia || reflexivity).
    + destruct (Z.ltb_spec 0 (q_from_end q)); [|lia].
      destruct (Z.ltb_spec (zlen email) (q_from_end q)); cbn [option_map]; split; intros; (congruence || lia || reflexivity).
Qed.
Print Assumptions C25_email_identifiers_exact.

Example C25_example :
  id_for_email toy_hash suffix_q [64; 120] = id_for_email toy_hash suffix_q [98; 64; 120] /\
  id_for_email toy_hash suffix_q [64; 120] <> id_for_email toy_hash suffix_q [98; 64; 121] /\
  id_for_email toy_hash suffix_q [64] = Ok None.
Proof. vm_compute. repeat split; congruence. Qed.

(** C26, refuted: the day asked for by a creation-date query for year y is 30 November of year y-1, so a database whose keys
    were all created in year y yields 0; so does one whose creation times carry a zone other than UTC; and the
    conjunction never counts keys of any year but 2018. *)
Theorem C26_creation_date_is_november_30_refuted :
  forall y, date_utc y 0 0 = date_utc (y - 1) 11 30 /\ time_year (date_utc y 0 0) = y - 1.
Proof. intros y. exact (conj (date_00_is_november_30 y) (date_00_year y)). Qed.
Print Assumptions C26_creation_date_is_november_30_refuted.

Theorem C26_year_query_misses_the_year_refuted :
  forall enc H e alphas r now0 now1 fresh0 fresh1 db rq,
  cipher_ok enc -> hash_ok H -> rand_ok r ->
  e = S (length alphas) -> (e < 20)%nat -> Forall (fun v => 0 <= v < ModP) alphas ->
  request_ok rq -> Forall record_ok db ->
  request_bytes rq <= 32 \/ Forall (fun ki => ascii (ki_email ki)) db ->
  (exists y, rq = ByCreation y /\ Forall (fun ki => time_year (ki_time ki) = y) db) \/
  (exists y, rq = ByCreation y /\ Forall (fun ki => t_zone (ki_time ki) <> None) db) \/
  (exists q text, rq = ByYearAndEmail q text /\ Forall (fun ki => time_year (ki_time ki) <> 2018) db) ->
  exists inp out flag,
    request_input H rq = Ok inp /\
    run enc H e alphas r 0 1 now0 now1 fresh0 fresh1 db (request_info rq) inp = Ok (out, flag) /\
    (flag = false -> out = Ok 0).
Proof.
  intros enc H e alphas r now0 now1 fresh0 fresh1 db rq He HH Hr HE H20 Ha HR HD HF HC.
  destruct (run_count enc H e alphas r now0 now1 fresh0 fresh1 db rq He HH Hr HE H20 Ha HR HD HF)
    as (inp & out & flag & E1 & E2 & E3).
  exists inp, out, flag. split; [exact E1|]. split; [exact E2|]. intros F. rewrite (E3 F).
  assert (Z0 : count_matching (selects H rq) db = 0).
  { destruct HC as [(y & -> & Y)|[(y & -> & Y)|(q & text & -> & Y)]].
    - apply creation_query_counts_nothing; exact Y.
    - apply local_zone_never_counted; exact Y.
    - apply conj_query_ignores_2019; exact Y. }
  rewrite Z0. reflexivity.
Qed.
Print Assumptions C26_year_query_misses_the_year_refuted.

(** the model's calendar is the Gregorian one: day 0 is 1 January of year 1, every year has 365 or 366 days, and the year
    computed for a day is the one whose days contain it *)
Theorem C26_calendar :
  days_before_year 1 = 0 /\
  (forall y, days_before_year (y + 1) = days_before_year y + 365 + (if is_leap y then 1 else 0)) /\
  (forall d, days_before_year (year_of_days d) <= d < days_before_year (year_of_days d + 1)).
Proof. exact (conj days_before_year_1 (conj days_before_year_step year_of_days_spec)). Qed.
Print Assumptions C26_calendar.

Example C26_example :
  toy_run 5 toy_alphas (request_info (ByCreation 2019)) (to_creation_client (Some 2019)) 2021 = Ok (Ok 0, false) /\
  selects toy_hash (ByCreation 2019) (mkKI [97] (date_utc 2018 11 30) 1) = true /\
  time_year (date_utc 2024 2 29) = 2024 /\ time_year (date_utc 2024 12 31) = 2024 /\ time_year (date_utc 2025 1 1) = 2025.
Proof. conj_split; vm_compute; reflexivity. Qed.

(** C27, refuted: every unknown name yields, without an error, the query for algorithm number 0. *)
Theorem C27_unknown_algorithm_becomes_zero_refuted :
  forall name, (name <> "RSA" /\ name <> "ElGamal" /\ name <> "DSA" /\ name <> "ECDH" /\ name <> "ECDSA")%string ->
  to_pka_client name = id_for_algo 0.
Proof.
  intros name (N1 & N2 & N3 & N4 & N5). unfold to_pka_client. f_equal. unfold pka_of_name.
  destruct (String.eqb_spec name "RSA"); [contradiction|].
  destruct (String.eqb_spec name "ElGamal"); [contradiction|].
  destruct (String.eqb_spec name "DSA"); [contradiction|].
  destruct (String.eqb_spec name "ECDH"); [contradiction|].
  destruct (String.eqb_spec name "ECDSA"); [contradiction|]. reflexivity.
Qed.
Print Assumptions C27_unknown_algorithm_becomes_zero_refuted.

Example C27_example : to_pka_client "EdDSA" = id_for_algo 0 /\ to_pka_client "RSA" = id_for_algo 1.
Proof. split; reflexivity. Qed.

(** C68, refuted: each of the following decoded queries crashes the server, whatever the key: no Info, SUM requested, AVG without
    AND, an unknown target, a negative prefix or suffix length (with at least one record). *)
Theorem C68_malformed_query_crashes_server_refuted :
  forall enc H e sn db now fresh q k,
  match q with
  | None => True
  | Some q =>
    q_sum q = true \/ (q_avg q = true /\ q_and q = false) \/
    (q_and q = false /\ 2 < q_target q) \/
    (db <> [] /\ q_target q = target_userid /\ q_from_start q < 0) \/
    (db <> [] /\ q_target q = target_userid /\ q_from_start q = 0 /\ q_from_end q < 0)
  end ->
  is_panic (answer enc H e sn db (length db) now fresh q k) = true.
Proof. exact hostile_crash. Qed.
Print Assumptions C68_malformed_query_crashes_server_refuted.

Example C68_example : is_panic (answer toy_cipher toy_hash 5 0 toy_db 3 (fun _ => 2021) (fun _ _ => 0)
  (Some (mkInfo 0 (-1) 0 false false false)) (mkKey [] 0 [] [])) = true.
Proof. vm_compute. reflexivity. Qed.

(** C69, refuted: a text shorter than the requested prefix or suffix gives, without an error, a query that crashes both
    servers as soon as one e-mail is long enough. *)
Theorem C69_short_text_crashes_servers_refuted :
  forall enc H e sn alphas r now fresh q text db k0 k1 fg k,
  cipher_ok enc -> hash_ok H -> rand_ok r -> plain q ->
  0 <= q_from_start q -> 0 <= q_from_end q ->
  (if 0 <? q_from_start q then zlen text < q_from_start q else zlen text < q_from_end q) ->
  Forall record_ok db ->
  (exists ki, In ki db /\
     ~ (if 0 <? q_from_start q then zlen (ki_email ki) < q_from_start q else zlen (ki_email ki) < q_from_end q)) ->
  client_query enc e alphas r [] 2 = Ok (k0, k1, fg) -> k = k0 \/ k = k1 ->
  to_email_client H q text = Ok [] /\
  is_panic (answer enc H e sn db (length db) now fresh (Some q) k) = true.
Proof.
  intros enc H e sn alphas r now fresh q text db k0 k1 fg k He HH Hr HP Hs Hn HT HD HX HQ HK.
  exact (short_text_crash enc H e sn alphas r now fresh q text db k0 k1 fg k He HH Hr HP (conj Hs (conj Hn HT)) HD HX HQ HK).
Qed.
Print Assumptions C69_short_text_crashes_servers_refuted.

Example C69_example :
  match client_query toy_cipher 5 toy_alphas toy_rand [] 2 with
  | Ok (k0, k1, _) => is_panic (answer toy_cipher toy_hash 5 0 toy_db 3 (fun _ => 2021) (fun _ _ => 0) (Some suffix_q) k0) = true
  | _ => False
  end /\ to_email_client toy_hash suffix_q [64] = Ok [].
Proof. split; vm_compute; reflexivity. Qed.

(** C70, refuted: when the two servers read different years from their clocks, the authenticated client rejects honest
    servers, although it accepts the same servers with equal clocks. *)
Theorem C70_clock_difference_breaks_average_refuted :
  exists enc H r db q text inp,
  cipher_ok enc /\ hash_ok H /\ rand_ok r /\ avg_query q /\ text_long_enough q text /\ Forall record_ok db /\
  to_email_client H q text = Ok inp /\
  run enc H 5 toy_alphas r 0 1 (fun _ => 2024) (fun _ => 2024) (fun _ _ => 0) (fun _ _ => 0) db q inp = Ok (Ok 5, false) /\
  run enc H 5 toy_alphas r 0 1 (fun _ => 2024) (fun _ => 2025) (fun _ _ => 0) (fun _ _ => 0) db q inp = Ok (Err "REJECT sum", false).
Proof.
  exists toy_cipher, toy_hash, toy_rand, toy_db, avg_q, [64; 120], (byte_to_bits [64; 120]).
  split; [exact toy_cipher_ok|]. split; [exact toy_hash_ok|]. split; [exact toy_rand_ok|].
  split; [repeat split|]. split; [vm_compute; intuition congruence|]. split; [exact toy_db_ok|].
  split; [vm_compute; reflexivity|]. split; [vm_compute; reflexivity|]. vm_compute; reflexivity.
Qed.
Print Assumptions C70_clock_difference_breaks_average_refuted.

(** C71, refuted: one server alone can crash the client: by an empty answer, or by an answer twice as long as the other. *)
Theorem C71_malformed_answer_crashes_client_refuted :
  forall e alphas a0 a1, (1 <= e)%nat ->
  (a0 = [] \/ a1 = [] \/ (length a0 = 2 * e /\ length a1 = e)%nat) ->
  is_panic (reconstruct e alphas [a0; a1]) = true.
Proof.
  intros e alphas a0 a1 He [E|[E|[E0 E1]]].
  - destruct (empty_answer_panics e alphas a0 a1 He (or_introl E)) as [m ->]. reflexivity.
  - destruct (empty_answer_panics e alphas a0 a1 He (or_intror E)) as [m ->]. reflexivity.
  - rewrite (doubled_answer_panics e alphas a0 a1 He E0 E1). reflexivity.
Qed.
Print Assumptions C71_malformed_answer_crashes_client_refuted.

(** while answers with at least the expected number of elements never do, for COUNT *)
Theorem C71_long_enough_answers_do_not_panic :
  forall e alphas a0 a1, S (length alphas) = e ->
  (e <= length a0)%nat -> length a0 <> (2 * e)%nat -> (e <= length a1)%nat ->
  is_panic (reconstruct e alphas [a0; a1]) = false.
Proof.
  intros e alphas a0 a1 HE L0 N0 L1. rewrite rec_count_eq by lia. cbv zeta.
  destruct (forallb _ _); reflexivity.
Qed.
Print Assumptions C71_long_enough_answers_do_not_panic.

Example C71_example : is_panic (reconstruct 2 [3] [[1; 2; 3; 4]; [1; 2]]) = true /\ reconstruct 2 [3] [[5; 10]; [2; 11]] = Ok 7.
Proof. split; vm_compute; reflexivity. Qed.
