(** Specification vocabulary for what travels between clients and servers. *)
From Coq Require Import String ZArith List Bool.
From Verif Require Import GoBase EncodingModel FrontendModel WireModel.
Import ListNotations.
Open Scope Z_scope.

(** gzip gives back what was compressed, fails with an error otherwise, and adds little to what it cannot compress. *)
Definition gzip_ok (E : codec) : Prop :=
  (forall m, gunzip E (gzip E m) = Ok m) /\
  (forall c, (exists m, gunzip E c = Ok m) \/ (exists m, gunzip E c = Err m)) /\
  (forall m, zlen (gzip E m) <= zlen m + zlen m / 1000 + 1000).
(** Strings of ASCII characters are valid UTF-8. *)
Definition utf8_ok (E : codec) : Prop := forall s, Forall (fun b => 0 <= b < 128) s -> utf8 E s = true.

(** A billion bytes. *)
Definition small (b : list Z) : Prop := zlen b <= 1000000000.

(** A description that can be sent. *)
Definition sendable (E : codec) (d : db_info) : Prop :=
  0 <= di_rows d < 2 ^ 32 /\ 0 <= di_cols d < 2 ^ 32 /\ 0 <= di_bs d < 2 ^ 32 /\ 0 <= di_plen d < 2 ^ 32 /\
  utf8 E (di_type d) = true /\ zlen (di_type d) + zlen (di_root d) <= 1000000000.

(** Well-formed fields, none of which this version knows: a later version of the other side may send them. *)
Definition unknown_fields (known : list Z) (b : list Z) : Prop :=
  exists fs, fields b = Ok fs /\ Forall (fun f => ~ In (fst f) known) fs.
(** Well-formed fields. *)
Definition well_formed (b : list Z) : Prop := exists fs, fields b = Ok fs.

Definition fails {A} (r : res A) : Prop := exists m, r = Err m.

(** The number of columns of a description, if there is one, is a uint32. *)
Definition columns_fit (o : option db_info) : Prop := match o with Some d => 0 <= di_cols d < 2 ^ 32 | None => True end.
(** Servers that send small answers. *)
Definition small_answers (servers : list (list Z -> res (list Z))) : Prop := Forall (fun s => forall q a, s q = Ok a -> small a) servers.
