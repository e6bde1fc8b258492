(** Specification vocabulary for the numbers computed from published dumps. *)
From Coq Require Import String ZArith List Bool Permutation.
From Verif Require Import GoBase DirectoryModel DirectorySpec KeyPageModel.
Import ListNotations.
Open Scope Z_scope.

(** The current keys of a dump: for every address its freshest valid key, if it is at most 8192 bytes without its subkeys. *)
Definition current (G : openpgp) (es people : list entity) : Prop :=
  NoDup (map (primary_email (g_lower G)) people) /\
  forall e, In e people <->
    primary_email (g_lower G) e <> [] /\ freshest (candidates (g_lower G) es (primary_email (g_lower G) e)) e /\
    exists packet, g_serialize G (primary_only e) = Ok packet /\ zlen packet <= 8192.
