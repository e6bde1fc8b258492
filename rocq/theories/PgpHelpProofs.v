(** Proofs about addresses in the texts of user ids. *)
From Coq Require Import String ZArith List Bool Lia Arith.
From Verif Require Import GoBase DirectoryModel FrontendModel PgpHelpModel PgpHelpSpec.
Import ListNotations.
Open Scope Z_scope.

(** The texts a regular expression describes. *)
Fixpoint lang (r : regex) (u : list Z) : Prop :=
  match r with
  | RClass p => exists c, u = [c] /\ p c = true
  | RSeq a b => exists v w, u = v ++ w /\ lang a v /\ lang b w
  | RPlus p => u <> [] /\ Forall (fun c => p c = true) u
  | RRep p min max => (min <= length u <= max)%nat /\ Forall (fun c => p c = true) u
  end.

Lemma rep_sound p k x : forall s min max, match_rep p min max s k = Some x ->
  exists u v, s = u ++ v /\ (min <= length u <= max)%nat /\ Forall (fun c => p c = true) u /\ k v = Some x.
Proof.
  assert (ST : forall s min max, match min with O => k s | S _ => None end = Some x ->
    exists u v, s = u ++ v /\ (min <= length u <= max)%nat /\ Forall (fun c => p c = true) u /\ k v = Some x).
  { intros s [|min] max E; [|discriminate]. exists [], s. cbn [app length]. repeat split; auto; lia. }
  induction s as [|c t IH]; intros min max E; cbn [match_rep] in E; [destruct max; apply ST; exact E|].
  destruct max as [|max]; [apply ST; exact E|]. destruct (p c) eqn:P; [|apply ST; exact E].
  destruct (match_rep p (pred min) max t k) as [r|] eqn:EM; [|apply ST; exact E]. assert (r = x) as -> by congruence.
  apply IH in EM as (u & v & -> & L & F & K). exists (c :: u), v. cbn [app length]. repeat split; auto; lia.
Qed.
Lemma rep_complete p k : forall u v min max, (min <= length u <= max)%nat -> Forall (fun c => p c = true) u -> k v <> None -> match_rep p min max (u ++ v) k <> None.
Proof.
  induction u as [|c u IH]; intros v min max L F K; cbn [app length] in *.
  - assert (min = O) as -> by lia. destruct v as [|c t]; cbn [match_rep]; [destruct max; exact K|]. destruct max; [exact K|].
    destruct (p c); [|exact K]. destruct (match_rep p (pred 0) max t k); [discriminate|exact K].
  - destruct max as [|max]; [lia|]. cbn [match_rep]. inversion F as [|? ? F1 F2]; subst. rewrite F1.
    specialize (IH v (pred min) max ltac:(lia) F2 K). destruct (match_rep p (pred min) max (u ++ v) k); [discriminate|contradiction].
Qed.

Lemma match_sound : forall r s k x, match_re r s k = Some x -> exists u v, s = u ++ v /\ lang r u /\ k v = Some x.
Proof.
  induction r as [p|a IA b IB|p|p min max]; intros s k x E; cbn [match_re] in E.
  - destruct s as [|c t]; [discriminate|]. destruct (p c) eqn:P; [|discriminate]. exists [c], t. cbn [lang]. eauto.
  - apply IA in E as (u & v & -> & LA & E). apply IB in E as (u' & v' & -> & LB & E). exists (u ++ u'), v'. rewrite app_assoc. cbn [lang]. eauto 8.
  - apply rep_sound in E as (u & v & -> & L & F & K). exists u, v. cbn [lang]. repeat split; auto. destruct u; [cbn [length] in L; lia|discriminate].
  - apply rep_sound in E as (u & v & -> & L & F & K). exists u, v. cbn [lang]. auto.
Qed.
Lemma match_complete : forall r u v k, lang r u -> k v <> None -> match_re r (u ++ v) k <> None.
Proof.
  induction r as [p|a IA b IB|p|p min max]; intros u v k L K; cbn [match_re lang] in *.
  - destruct L as (c & -> & P). cbn [app]. rewrite P. exact K.
  - destruct L as (u1 & u2 & -> & LA & LB). rewrite <- app_assoc. apply IA; [exact LA|]. apply IB; auto.
  - destruct L as (NE & F). apply rep_complete; auto. rewrite app_length. destruct u; [contradiction|cbn [length]; lia].
  - destruct L as (L & F). apply rep_complete; auto.
Qed.

(** ** The leftmost match *)

Lemma find_none r : forall s, (forall u v w, s = u ++ v ++ w -> lang r v -> False) -> find_string r s = [].
Proof.
  induction s as [|c t IH]; intros N; cbn [find_string].
  - destruct (match_re r [] Some) as [x|] eqn:E; [|reflexivity]. apply match_sound in E as (u & v & E & L & _). exfalso. apply (N [] u v); auto.
  - destruct (match_re r (c :: t) Some) as [x|] eqn:E; [apply match_sound in E as (u & v & E & L & _); exfalso; apply (N [] u v); auto|].
    apply IH. intros u v w -> L. apply (N (c :: u) v w); auto.
Qed.
Lemma find_some r : (~ lang r []) -> forall s e, find_string r s = e -> e <> [] ->
  exists u w, s = u ++ e ++ w /\ lang r e /\ forall u' v' w', s = u' ++ v' ++ w' -> lang r v' -> (length u <= length u')%nat.
Proof.
  intros NE. induction s as [|c t IH]; intros e E N; cbn [find_string] in E.
  - destruct (match_re r [] Some) as [x|] eqn:EM; [|congruence]. apply match_sound in EM as (u & v & EM & L & _). destruct u; [contradiction|discriminate].
  - destruct (match_re r (c :: t) Some) as [x|] eqn:EM.
    + apply match_sound in EM as (u & v & EM & L & K). assert (x = v) as -> by congruence. exists [], v. cbn [app length].
      assert (e = u) as ->. { subst e. rewrite EM. rewrite app_length. replace (length u + length v - length v)%nat with (length u) by lia. rewrite firstn_app, firstn_all, Nat.sub_diag. cbn [firstn]. apply app_nil_r. }
      split; [exact EM|]. split; [exact L|]. intros; lia.
    + apply IH in E as (u & w & -> & L & LM); auto. exists (c :: u), w. cbn [app length]. split; [reflexivity|]. split; [exact L|].
      intros [|c' u'] v' w' ES L'; [exfalso|].
      * cbn [app] in ES. rewrite ES in EM. revert EM. apply match_complete; [exact L'|discriminate].
      * cbn [app length] in *. assert (ET : u ++ e ++ w = u' ++ v' ++ w') by congruence. specialize (LM u' v' w' ET L'). lia.
Qed.

(** ** The pattern *)

Lemma letter_spec c : letter c = true <-> ascii_letter c.
Proof. unfold letter, between, ascii_letter. rewrite orb_true_iff, !andb_true_iff, !Z.leb_le. tauto. Qed.
Lemma between_spec a b c : between a b c = true <-> a <= c <= b.
Proof. unfold between. rewrite andb_true_iff, !Z.leb_le. tauto. Qed.
Lemma one_of_spec l c : one_of l c = true <-> In c l.
Proof.
  unfold one_of. rewrite existsb_exists. split; [intros (x & I & E); apply Z.eqb_eq in E; subst; auto|]. intros I. exists c. split; auto. apply Z.eqb_refl.
Qed.
Lemma local_spec c : letter c || between 48 57 c || one_of (lit "_+.-") c = true <-> local_char c.
Proof. rewrite !orb_true_iff, letter_spec, between_spec, one_of_spec. change (lit "_+.-") with [95; 43; 46; 45]. unfold local_char, ascii_digit. tauto. Qed.
Lemma domain_spec c : letter c || between 48 57 c || one_of (lit ".-") c = true <-> domain_char c.
Proof. rewrite !orb_true_iff, letter_spec, between_spec, one_of_spec. change (lit ".-") with [46; 45]. unfold domain_char, ascii_digit. tauto. Qed.
Lemma top_spec c : letter c || one_of (lit ".") c = true <-> top_char c.
Proof. rewrite !orb_true_iff, letter_spec, one_of_spec. change (lit ".") with [46]. unfold top_char. cbn [In]. intuition congruence. Qed.

Lemma Forall_iff {A} (P Q : A -> Prop) l : (forall x, P x <-> Q x) -> Forall P l <-> Forall Q l.
Proof. intros PQ. split; intros F; (eapply Forall_impl; [|exact F]); intros x X; cbv beta in *; apply PQ; exact X. Qed.

Lemma email_lang u : lang email_regex u <-> exists e, u = 60 :: e ++ [62] /\ address e.
Proof.
  unfold email_regex. cbn [lang]. split.
  - intros (a1 & b1 & -> & (c1 & -> & P1) & l & b2 & -> & (NL & FL) & a3 & b3 & -> & (c3 & -> & P3) & d & b4 & -> & (ND & FD) & a5 & b5 & -> & (c5 & -> & P5) & t & b6 & -> & (LT & FT) & c7 & -> & P7).
    apply Z.eqb_eq in P1, P3, P5, P7. subst c1 c3 c5 c7.
    apply (Forall_iff _ _ _ local_spec) in FL. apply (Forall_iff _ _ _ domain_spec) in FD. apply (Forall_iff _ _ _ top_spec) in FT.
    exists (l ++ 64 :: d ++ 46 :: t). split; [cbn [app]; rewrite <- !app_assoc; cbn [app]; rewrite <- app_assoc; reflexivity|].
    exists l, d, t. repeat split; auto; lia.
  - intros (e & -> & l & d & t & -> & NL & ND & FL & FD & FT & LT).
    apply (Forall_iff _ _ _ local_spec) in FL. apply (Forall_iff _ _ _ domain_spec) in FD. apply (Forall_iff _ _ _ top_spec) in FT.
    exists [60], (l ++ 64 :: d ++ 46 :: t ++ [62]). split; [cbn [app]; rewrite <- !app_assoc; cbn [app]; rewrite <- app_assoc; reflexivity|]. split; [exists 60; auto|].
    exists l, (64 :: d ++ 46 :: t ++ [62]). split; [reflexivity|]. split; [auto|].
    exists [64], (d ++ 46 :: t ++ [62]). split; [reflexivity|]. split; [exists 64; auto|].
    exists d, (46 :: t ++ [62]). split; [reflexivity|]. split; [auto|].
    exists [46], (t ++ [62]). split; [reflexivity|]. split; [exists 46; auto|].
    exists t, [62]. split; [reflexivity|]. split; [auto|]. exists 62. auto.
Qed.

(** No character of an address is a bracket. *)
Lemma address_chars e : address e -> Forall (fun c => c <> 60 /\ c <> 62) e.
Proof.
  intros (l & d & t & -> & _ & _ & FL & FD & FT & _).
  assert (AL : forall c, ascii_letter c -> c <> 60 /\ c <> 62) by (unfold ascii_letter; intros; lia).
  assert (AD : forall c, ascii_digit c -> c <> 60 /\ c <> 62) by (unfold ascii_digit; intros; lia).
  apply Forall_app. split; [eapply Forall_impl; [|exact FL]; intros c [X|[X|X]]; auto; cbn [In] in X; lia|]. constructor; [lia|].
  apply Forall_app. split; [eapply Forall_impl; [|exact FD]; intros c [X|[X|X]]; auto; cbn [In] in X; lia|]. constructor; [lia|].
  eapply Forall_impl; [|exact FT]. intros c [X|X]; auto. lia.
Qed.
Lemma address_nonempty e : address e -> e <> [].
Proof. intros (l & d & t & -> & _). destruct l; discriminate. Qed.

Lemma trim_left_keep c s : Forall (fun x => x <> c) s -> trim_left c s = s.
Proof. intros F. destruct F as [|x s X F]; [reflexivity|]. cbn [trim_left]. destruct (Z.eqb_spec x c); [contradiction|reflexivity]. Qed.
Lemma trim_brackets e : Forall (fun c => c <> 60 /\ c <> 62) e -> trim 62 (trim 60 (60 :: e ++ [62])) = e.
Proof.
  intros F. assert (F1 : Forall (fun x => x <> 60) (e ++ [62])). { apply Forall_app. split; [eapply Forall_impl; [|exact F]; cbv beta; tauto|]. constructor; [lia|constructor]. }
  assert (F2 : Forall (fun x => x <> 62) e) by (eapply Forall_impl; [|exact F]; cbv beta; tauto).
  unfold trim at 2. cbn [trim_left]. rewrite Z.eqb_refl, (trim_left_keep 60 (e ++ [62])) by exact F1. rewrite (trim_left_keep 60) by (apply Forall_rev; exact F1). rewrite rev_involutive.
  unfold trim. assert (E : trim_left 62 (e ++ [62]) = e ++ [62] \/ e = []). { destruct e as [|x e]; [right; reflexivity|left]. cbn [app trim_left]. inversion F2; subst. destruct (Z.eqb_spec x 62); [contradiction|reflexivity]. }
  destruct E as [->| ->]; [|reflexivity]. rewrite rev_app_distr. cbn [rev app trim_left]. rewrite Z.eqb_refl, trim_left_keep by (apply Forall_rev; exact F2). apply rev_involutive.
Qed.

Lemma bracketed_lang id u e : bracketed id u e -> exists w, id = u ++ (60 :: e ++ [62]) ++ w /\ lang email_regex (60 :: e ++ [62]).
Proof.
  intros (A & after & ->). exists after. split; [cbn [app]; rewrite <- app_assoc; reflexivity|]. apply email_lang. eauto.
Qed.
