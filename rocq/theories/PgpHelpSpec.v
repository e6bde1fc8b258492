(** Vocabulary for addresses in the texts of user ids. *)
From Coq Require Import ZArith List.
Import ListNotations.
Open Scope Z_scope.

(** ASCII letters, digits, and the characters of the three parts of an address the program accepts. *)
Definition ascii_letter (c : Z) : Prop := 97 <= c <= 122 \/ 65 <= c <= 90.
Definition ascii_digit (c : Z) : Prop := 48 <= c <= 57.
(** letters, digits, underscore, plus, dot, hyphen *)
Definition local_char (c : Z) : Prop := ascii_letter c \/ ascii_digit c \/ In c [95; 43; 46; 45].
(** letters, digits, dot, hyphen *)
Definition domain_char (c : Z) : Prop := ascii_letter c \/ ascii_digit c \/ In c [46; 45].
(** letters, dot *)
Definition top_char (c : Z) : Prop := ascii_letter c \/ c = 46.

(** local@domain.top, with a top of two to ten characters *)
Definition address (e : list Z) : Prop :=
  exists local domain top, e = local ++ 64 :: domain ++ 46 :: top /\ local <> [] /\ domain <> [] /\
    Forall local_char local /\ Forall domain_char domain /\ Forall top_char top /\ (2 <= length top <= 10)%nat.

(** The text has <e> after [before]. *)
Definition bracketed (id before e : list Z) : Prop := address e /\ exists after, id = before ++ 60 :: e ++ 62 :: after.
