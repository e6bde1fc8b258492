(** Property C129: addresses in the texts of user ids, and entities of key files. Vocabulary in PgpHelpSpec.v and DirectorySpec.v. *)
From Coq Require Import String ZArith List Bool Lia Arith.
From Verif Require Import GoBase BaseFacts DirectoryModel DirectorySpec DirectoryProofs2 FrontendModel PgpHelpModel PgpHelpSpec PgpHelpProofs ToyDirectory.
Import ListNotations.
Open Scope Z_scope.
Open Scope go_scope.

(** The address found in the text of a user id is the first one in angle brackets, and one is found whenever there is one. *)
Theorem C129_address_found :
  forall id e, get_email_address email_regex id = Ok e <->
  exists before, bracketed id before e /\ forall before' e', bracketed id before' e' -> (length before <= length before')%nat.
Proof.
  assert (NE : ~ lang email_regex []) by (intros L; apply email_lang in L as (e & E & _); discriminate E).
  assert (EV : forall id e u, bracketed id u e -> (forall u' e', bracketed id u' e' -> (length u <= length u')%nat) -> find_string email_regex id = 60 :: e ++ [62]).
  { intros id e u B LM. destruct (find_string email_regex id) as [|c m] eqn:EF.
    - exfalso. apply bracketed_lang in B as (w & -> & L). remember (u ++ (60 :: e ++ [62]) ++ w) as s eqn:ES.
      assert (G : forall s u v w, s = u ++ v ++ w -> lang email_regex v -> find_string email_regex s <> []).
      { clear - NE. induction s as [|c t IH]; intros u v w E L; cbn [find_string].
        - destruct u; [|discriminate]. destruct v; [contradiction|discriminate].
        - destruct (match_re email_regex (c :: t) Some) as [x|] eqn:EM.
          + apply match_sound in EM as (u' & v' & EM & L' & K). assert (x = v') as -> by congruence. rewrite EM, app_length.
            replace (length u' + length v' - length v')%nat with (length u') by lia. rewrite firstn_app, firstn_all, Nat.sub_diag. cbn [firstn]. rewrite app_nil_r. intros ->. contradiction.
          + destruct u as [|c' u]; [exfalso; cbn [app] in E; rewrite E in EM; revert EM; apply match_complete; [exact L|discriminate]|].
            cbn [app] in E. apply (IH u v w); [congruence|exact L]. }
      exact (G s u _ w ES L EF).
    - destruct (find_some email_regex NE id (c :: m) EF ltac:(discriminate)) as (u1 & w1 & E1 & L1 & M1). apply email_lang in L1 as (e1 & X1 & A1). rewrite X1 in *.
      assert (B1 : bracketed id u1 e1). { split; [exact A1|]. exists w1. rewrite E1. cbn [app]. rewrite <- app_assoc. reflexivity. }
      pose proof (LM _ _ B1) as LE. pose proof B as B'. apply bracketed_lang in B' as (w & EB & LB). pose proof (M1 _ _ _ EB LB) as GE.
      destruct B as (A & after & ED). destruct B1 as (_ & after1 & ED1). rewrite ED in ED1.
      assert (LU : length u = length u1) by lia. clear - ED1 LU A A1.
      assert (S : u = u1 /\ 60 :: e ++ 62 :: after = 60 :: e1 ++ 62 :: after1) by (revert u1 LU ED1; induction u as [|x u IH]; intros [|y u1] LU ED1; try discriminate; [auto|]; cbn [length app] in *;
        destruct (IH u1 ltac:(lia) ltac:(congruence)) as (-> & ->); split; congruence).
      destruct S as (_ & S). assert (S' : e ++ 62 :: after = e1 ++ 62 :: after1) by congruence. f_equal. f_equal. symmetry.
      apply address_chars in A, A1. clear S ED1 LU. revert e1 A1 S'. induction A as [|x e X F IH]; intros e1 A1 S'.
      + destruct A1 as [|y e1 Y A1]; [reflexivity|]. cbn [app] in S'. exfalso. assert (y = 62) by congruence. lia.
      + destruct A1 as [|y e1 Y A1]; cbn [app] in S'; [exfalso; assert (x = 62) by congruence; lia|]. f_equal; [congruence|]. apply IH; [exact A1|congruence]. }
  intros id e. unfold get_email_address. cbv zeta. split.
  - intros E. destruct (find_string email_regex id) as [|c m] eqn:EF; [discriminate|].
    destruct (find_some email_regex NE id (c :: m) EF ltac:(discriminate)) as (u & w & E1 & L & M). apply email_lang in L as (e1 & X1 & A1). rewrite X1 in *.
    rewrite trim_brackets in E by (apply address_chars; exact A1). assert (e1 = e) as -> by congruence. exists u. split.
    + split; [exact A1|]. exists w. rewrite E1. cbn [app]. rewrite <- app_assoc. reflexivity.
    + intros u' e' B. apply bracketed_lang in B as (w' & EB & LB). exact (M _ _ _ EB LB).
  - intros (u & B & LM). rewrite (EV id e u B LM). rewrite trim_brackets by (apply address_chars; exact (proj1 B)). reflexivity.
Qed.
Print Assumptions C129_address_found.

(** Otherwise there is an error. *)
Theorem C129_no_address :
  forall id, (exists m, get_email_address email_regex id = Err m) <-> forall before e, ~ bracketed id before e.
Proof.
  intros id. split.
  - intros (m & E) before e B. unfold get_email_address in E. cbv zeta in E. destruct (find_string email_regex id) as [|c t] eqn:EF; [|discriminate].
    assert (X : exists u e', bracketed id u e' /\ forall u' e'', bracketed id u' e'' -> (length u <= length u')%nat).
    { assert (W : forall n, (forall u e', bracketed id u e' -> (n <= length u)%nat) \/ exists u e', bracketed id u e' /\ forall u' e'', bracketed id u' e'' -> (length u <= length u')%nat).
      { induction n as [|n [IH|IH]]; [left; intros; lia| |right; exact IH].
        destruct (match_re email_regex (skipn n id) Some) as [x|] eqn:EM.
        - right. apply match_sound in EM as (u & v & EM & L & _). apply email_lang in L as (e1 & -> & A1).
          exists (firstn n id), e1. split; [split; [exact A1|]; exists v; rewrite <- (firstn_skipn n id) at 1; rewrite EM; cbn [app]; rewrite <- app_assoc; reflexivity|].
          intros u' e'' B'. pose proof (IH _ _ B'). rewrite firstn_length. lia.
        - left. intros u e' B'. pose proof (IH _ _ B') as LE. destruct (Nat.eq_dec (length u) n) as [EN|]; [exfalso|lia].
          apply bracketed_lang in B' as (w & EB & LB). rewrite EB, <- EN, skipn_app, skipn_all, Nat.sub_diag in EM. cbn [app skipn] in EM.
          revert EM. apply (match_complete email_regex (60 :: e' ++ [62]) w Some LB). discriminate. }
      destruct (W (S (length before))) as [W'|W']; [|exact W']. specialize (W' _ _ B). lia. }
    destruct X as (u & e' & B' & LM). assert (Y : get_email_address email_regex id = Ok e') by (apply C129_address_found; eauto).
    unfold get_email_address in Y. cbv zeta in Y. rewrite EF in Y. discriminate.
  - intros N. destruct (get_email_address email_regex id) as [e|m|m|m] eqn:E.
    + apply C129_address_found in E as (before & B & _). destruct (N _ _ B).
    + eauto.
    + unfold get_email_address in E. cbv zeta in E. destruct (find_string email_regex id); discriminate.
    + unfold get_email_address in E. cbv zeta in E. destruct (find_string email_regex id); discriminate.
Qed.
Print Assumptions C129_no_address.

(** Refuted: addresses in a domain with a last part of eleven letters or more are not found, whatever surrounds them. *)
Theorem C129_long_domains_refuted :
  forall before local domain top after, Forall (fun c => c <> 60 /\ c <> 62) (before ++ after) -> (10 < length top)%nat -> Forall ascii_letter top ->
  Forall local_char local -> Forall domain_char domain ->
  exists m, get_email_address email_regex (before ++ 60 :: (local ++ 64 :: domain ++ 46 :: top) ++ 62 :: after) = Err m.
Proof.
  intros before local domain top after F LT FT FL FD. apply C129_no_address. intros u e (A & rest & E). apply Forall_app in F as (FB & FA).
  assert (CH : Forall (fun c => c <> 60 /\ c <> 62) (local ++ 64 :: domain ++ 46 :: top)).
  { apply Forall_app. split; [eapply Forall_impl; [|exact FL]; unfold local_char, ascii_letter, ascii_digit; cbn [In]; intros; lia|]. constructor; [lia|].
    apply Forall_app. split; [eapply Forall_impl; [|exact FD]; unfold domain_char, ascii_letter, ascii_digit; cbn [In]; intros; lia|]. constructor; [lia|].
    eapply Forall_impl; [|exact FT]; unfold ascii_letter; cbv beta; intros; lia. }
  pose proof (address_chars e A) as CE.
  assert (SP : forall (c : Z) p x r y, Forall (fun z => z <> c) p -> Forall (fun z => z <> c) r -> p ++ c :: x = r ++ c :: y -> p = r /\ x = y).
  { intros c p x r y FP. revert r. induction FP as [|z p Z1 FP IH]; intros r FR EQ; destruct FR as [|w r W FR]; cbn [app] in EQ.
    - split; congruence. - exfalso. congruence. - exfalso. congruence. - destruct (IH r FR ltac:(congruence)) as (-> & ->). split; congruence. }
  assert (FU : Forall (fun z => z <> 60) before) by (eapply Forall_impl; [|exact FB]; cbv beta; tauto).
  assert (X : before = u /\ (local ++ 64 :: domain ++ 46 :: top) ++ 62 :: after = e ++ 62 :: rest).
  { assert (NU : Forall (fun z => z <> 60) u).
    { apply Forall_forall. intros z I ->. apply in_split in I as (u1 & u2 & ->). 
      assert (CN : count_occ Z.eq_dec (before ++ 60 :: (local ++ 64 :: domain ++ 46 :: top) ++ 62 :: after) 60 = 1%nat).
      { rewrite count_occ_app. cbn [count_occ]. destruct (Z.eq_dec 60 60) as [_|X]; [|congruence]. rewrite count_occ_app. cbn [count_occ]. destruct (Z.eq_dec 62 60) as [X|_]; [discriminate|].
        rewrite (proj1 (count_occ_not_In Z.eq_dec before 60)), (proj1 (count_occ_not_In Z.eq_dec (local ++ 64 :: domain ++ 46 :: top) 60)), (proj1 (count_occ_not_In Z.eq_dec after 60)); [reflexivity| | |];
          intros I; [rewrite Forall_forall in FA; apply FA in I|rewrite Forall_forall in CH; apply CH in I|rewrite Forall_forall in FB; apply FB in I]; lia. }
      rewrite E in CN. rewrite <- app_assoc in CN. rewrite count_occ_app in CN. cbn [app count_occ] in CN. destruct (Z.eq_dec 60 60) as [_|X]; [|congruence]. rewrite count_occ_app in CN. cbn [count_occ] in CN.
      destruct (Z.eq_dec 60 60) as [_|X]; [|congruence]. lia. }
    exact (SP 60 before _ u _ FU NU E). }
  destruct X as (_ & X).
  assert (Y : local ++ 64 :: domain ++ 46 :: top = e /\ after = rest).
  { apply (SP 62); [| |exact X]; [eapply Forall_impl; [|exact CH]|eapply Forall_impl; [|exact CE]]; cbv beta; tauto. }
  destruct Y as (Y & _). destruct A as (l & d & t & E2 & _ & _ & L2 & D2 & T2 & B2). rewrite E2 in Y. symmetry in Y.
  assert (AT : forall l, Forall local_char l -> Forall (fun z => z <> 64) l) by (intros x Fx; eapply Forall_impl; [|exact Fx]; unfold local_char, ascii_letter, ascii_digit; cbn [In]; intros; lia).
  destruct (SP 64 local _ l _ (AT _ FL) (AT _ L2) (eq_sym Y)) as (_ & W).
  (* the last dot *)
  apply (f_equal (@rev Z)) in W. rewrite !rev_app_distr in W. cbn [rev] in W. rewrite <- !app_assoc in W. cbn [app] in W.
  assert (FR : Forall (fun z => z <> 46) (rev top)) by (apply Forall_rev; eapply Forall_impl; [|exact FT]; unfold ascii_letter; cbv beta; intros; lia).
  assert (LR : (length (rev t) < length (rev top))%nat) by (rewrite !rev_length; lia).
  assert (I : In 46 (rev top)).
  { clear - W LR. revert W LR. generalize (rev top) (rev t) (rev domain) (rev d). intros p. induction p as [|x p IH]; intros q a b W LR; [cbn [length] in LR; lia|].
    destruct q as [|y q]; cbn [app length] in *; [left; congruence|]. right. apply (IH q a b); [congruence|lia]. }
  rewrite Forall_forall in FR. apply FR in I. congruence.
Qed.
Print Assumptions C129_long_domains_refuted.

(** The entities loaded from files are those of the keys in the files, in the order of the files and of the keys in each; there are some only if
    the bytes of every key hold exactly one entity. *)
Theorem C129_entities_exact :
  forall read contents es, load_and_parse_keys read (map Ok contents) = Ok es <-> Forall2 (fun k e => read (k_packet k) = Ok [e]) (concat contents) es.
Proof.
  intros read contents es. unfold load_and_parse_keys. rewrite load_ok. cbn [bind]. generalize (concat contents) as ks. clear contents.
  intros ks. revert es. induction ks as [|k ks IH]; intros es; cbn [mapM].
  - split; [intros E; injection E as <-; constructor|intros F; inversion F; reflexivity].
  - split.
    + destruct (read (k_packet k)) as [[|e [|e' l]]| | |] eqn:ER; cbn [bind]; try discriminate. destruct (mapM _ ks) as [t| | |]; cbn [bind]; try discriminate.
      intros E. injection E as <-. constructor; [exact ER|]. apply IH. reflexivity.
    + intros F. inversion F as [|? e ? t HE FT]; subst. rewrite HE. cbn [bind]. rewrite (proj2 (IH t) FT). reflexivity.
Qed.
Print Assumptions C129_entities_exact.

(** In particular keys that were serialized into the files come back as the same entities. *)
Theorem C129_entities_loaded :
  forall serialize read, keyring_ok serialize read -> forall contents es, mapM serialize es = Ok (map k_packet (concat contents)) ->
  load_and_parse_keys read (map Ok contents) = Ok es.
Proof.
  intros serialize read K contents es E. apply C129_entities_exact. revert es E. generalize (concat contents) as ks. clear contents.
  induction ks as [|k ks IH]; intros [|e es] E; cbn [mapM map] in E.
  - constructor. - destruct (serialize e); cbn [bind] in E; try discriminate. destruct (mapM serialize es); discriminate. - discriminate.
  - destruct (serialize e) as [b| | |] eqn:ES; cbn [bind] in E; try discriminate. destruct (mapM serialize es) as [bs| | |] eqn:EM; cbn [bind] in E; try discriminate.
    assert (b = k_packet k) as -> by congruence. assert (bs = map k_packet ks) as -> by congruence. constructor; [|apply IH; exact EM].
    rewrite <- (app_nil_r (k_packet k)). apply (K [e] [k_packet k]). cbn [mapM]. rewrite ES. reflexivity.
Qed.
Print Assumptions C129_entities_loaded.

(** Everything else is an error: a file that cannot be read, and a key with no entity or with several, wherever it is. *)
Theorem C129_bad_keys :
  forall read, (forall b, (exists es, read b = Ok es) \/ exists m, read b = Err m) ->
  (forall contents k, In k (concat contents) -> (forall e, read (k_packet k) <> Ok [e]) -> exists m, load_and_parse_keys read (map Ok contents) = Err m) /\
  forall contents m files, exists m', load_and_parse_keys read (map Ok contents ++ Err m :: files) = Err m'.
Proof.
  intros read R. split.
  - intros contents k I N. unfold load_and_parse_keys. rewrite load_ok. cbn [bind]. revert I. generalize (concat contents) as ks. induction ks as [|k' ks IH]; intros I; [destruct I|].
    cbn [mapM]. destruct (R (k_packet k')) as [(es & E)|(m & E)]; rewrite E; [|cbn [bind]; eauto].
    destruct es as [|e [|e' es]]; cbn [bind]; eauto. destruct I as [->|I]; [destruct (N _ E)|]. destruct (IH I) as (m & ->). cbn [bind]. eauto.
  - intros contents m files. unfold load_and_parse_keys. assert (X : exists m', load_keys_from_disk (map Ok contents ++ Err m :: files) = Err m').
    { unfold load_keys_from_disk. assert (Y : exists m', mapM (fun f : res (list pkey) => f) (map Ok contents ++ Err m :: files) = Err m').
      { induction contents as [|c cs IH]; cbn [map app mapM bind]; [eauto|]. destruct IH as (m' & ->). cbn [bind]. eauto. }
      destruct Y as (m' & Y). rewrite Y. cbn [bind]. eauto. }
    destruct X as (m' & ->). cbn [bind]. eauto.
Qed.
Print Assumptions C129_bad_keys.

(** The texts of the test of the repository, two addresses in one text, an eleven letter domain, and a file with two keys. *)
Example C129_example :
  get_email_address email_regex (lit "Alice Wonderland <alice@wonderland.com>") = Ok (lit "alice@wonderland.com") /\
  get_email_address email_regex (lit "<michael.steiner@ipfs.co.uk>") = Ok (lit "michael.steiner@ipfs.co.uk") /\
  get_email_address email_regex (lit "A <a@b> <c+d@e-f.org> <g@h.net>") = Ok (lit "c+d@e-f.org") /\
  (exists m, get_email_address email_regex (lit "Bob <??@bob.bob>") = Err m) /\
  (exists m, get_email_address email_regex (lit "a@b.university <a@b.photography>") = Err m) /\
  (exists before, bracketed (lit "A <a@b> <c+d@e-f.org> <g@h.net>") before (lit "c+d@e-f.org")) /\
  (exists b1 b2, let e1 := mkEntity 0 (lit "a@x.org") [] 5 [] [1; 2] in let e2 := mkEntity 0 (lit "b@x.org") [] 6 [] [3] in
    mapM toy_serialize [e1; e2] = Ok [b1; b2] /\
    load_and_parse_keys toy_read (map Ok [[mkKey (lit "a@x.org") b1]; [mkKey (lit "b@x.org") b2]]) = Ok [e1; e2] /\
    exists m, load_and_parse_keys toy_read (map Ok [[mkKey (lit "a@x.org") (b1 ++ b2)]]) = Err m).
Proof.
  split; [vm_compute; reflexivity|]. split; [vm_compute; reflexivity|]. split; [vm_compute; reflexivity|].
  split; [eexists; vm_compute; reflexivity|]. split; [eexists; vm_compute; reflexivity|]. split.
  - destruct (proj1 (C129_address_found (lit "A <a@b> <c+d@e-f.org> <g@h.net>") (lit "c+d@e-f.org")) ltac:(vm_compute; reflexivity)) as (u & B & _). exists u. exact B.
  - eexists. eexists. cbv zeta. split; [vm_compute; reflexivity|]. split; [vm_compute; reflexivity|]. eexists. vm_compute. reflexivity.
Qed.
