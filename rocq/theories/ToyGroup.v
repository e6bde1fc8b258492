(** A small concrete group for the examples: the integers modulo 11, with the identity encoded in one
    byte and the other elements in two, or all elements in two. *)
From Coq Require Import ZArith Znumtheory List Bool Lia Eqdep_dec.
From Verif Require Import GoBase MerkleModel DHModel DHSpec.
Import ListNotations.
Open Scope Z_scope.

Record z11 := mk11 { v11 : Z; p11 : (v11 mod 11 =? v11) = true }.
Lemma of11_p a : ((a mod 11) mod 11 =? a mod 11) = true.
Proof. rewrite Z.mod_mod by lia. apply Z.eqb_refl. Qed.
Definition of11 (a : Z) : z11 := mk11 (a mod 11) (of11_p a).
Lemma z11_eq x y : v11 x = v11 y -> x = y.
Proof.
  destruct x as [a p], y as [b q]. cbn. intros ->. f_equal. apply UIP_dec. decide equality.
Qed.
Lemma v11_mod x : v11 x mod 11 = v11 x.
Proof. apply Z.eqb_eq, p11. Qed.

Definition dec11 (l : list Z) : option z11 :=
  match l with
  | [0] => Some (of11 0)
  | [2; v] => Some (of11 v)
  | _ => None
  end.
Definition toy_group (short : bool) : group :=
  mkGroup z11 (of11 0) (fun x y => of11 (v11 x + v11 y)) (fun a x => of11 (a * v11 x)) 11
    (fun x y => v11 x =? v11 y) (fun l => of11 (le_dec l mod 10 + 1))
    (fun x => if (v11 x =? 0) && short then [0] else [2; v11 x]) dec11 2.

Lemma prime_11 : prime 11.
Proof.
  apply prime_intro. lia. intros n Hn.
  assert (n = 1 \/ n = 2 \/ n = 3 \/ n = 4 \/ n = 5 \/ n = 6 \/ n = 7 \/ n = 8 \/ n = 9 \/ n = 10) as C by lia.
  destruct C as [->|[->|[->|[->|[->|[->|[->|[->|[->| ->]]]]]]]]]; apply Zgcd_1_rel_prime; reflexivity.
Qed.

Lemma toy_group_ok short : group_ok (toy_group short).
Proof.
  constructor; cbn -[Z.mul Z.add Z.modulo]; intros; try (apply z11_eq; cbn -[Z.mul Z.add Z.modulo]).
  - f_equal. lia.
  - rewrite Zplus_mod_idemp_r, Zplus_mod_idemp_l. f_equal. lia.
  - apply v11_mod.
  - rewrite Z.mul_1_l. apply v11_mod.
  - reflexivity.
  - rewrite <- Zplus_mod. f_equal. lia.
  - rewrite Zmult_mod_idemp_r, <- Zplus_mod. f_equal. lia.
  - rewrite Zmult_mod_idemp_r. f_equal. lia.
  - rewrite Z.mul_comm, Z_mod_mult. reflexivity.
  - apply prime_11.
  - rewrite Z.eqb_eq. split; [apply z11_eq|congruence].
  - destruct (v11 x =? 0) eqn:E; cbn.
    + apply Z.eqb_eq in E. assert (x = of11 0) as -> by (apply z11_eq; auto).
      destruct short; reflexivity.
    + f_equal. apply z11_eq. cbn. apply v11_mod.
  - destruct (Z.eqb_spec (v11 x) 0); [|reflexivity]. exfalso. apply H. apply z11_eq. auto.
  - lia.
Qed.
Lemma toy_group_fixed : fixed_length (toy_group false).
Proof. intros x. unfold full. cbn. rewrite andb_false_r. reflexivity. Qed.
Lemma toy_group_short : short_identity (toy_group true).
Proof. reflexivity. Qed.
