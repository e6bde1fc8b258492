(** Model of the remaining functions of lib/pgp/pgp.go: loading the keys of chunk files as entities, and finding the address in the text of a
    user id. *)
From Coq Require Import String ZArith List Bool.
From Verif Require Import GoBase EncodingModel DirectoryModel FrontendModel.
Import ListNotations.
Open Scope Z_scope.
Open Scope go_scope.

(** lib/pgp/pgp.go:195-211 LoadAndParseKeys; [read] is openpgp.ReadKeyRing, which returns no entities with an error. The error is not looked
    at: without entities the length is not one. *)
Definition load_and_parse_keys (read : list Z -> res (list entity)) (files : list (res (list pkey))) : res (list entity) :=
  keys <- load_keys_from_disk files ;;
  mapM (fun k => match read (k_packet k) with
                 | Ok [e] => Ok e
                 | Ok _ | Err _ => Err "too many encoded entities"
                 | Panic m => Panic m
                 | Fatal m => Fatal m
                 end) keys.

(** ** Regular expressions *)

(** The part of package regexp that the pattern needs: one character of a class, sequences, and greedy repetitions of a class. Texts are
    bytes; all classes are ASCII, so no part of a longer encoded character is in one of them. *)
Inductive regex :=
| RClass (p : Z -> bool)
| RSeq (a b : regex)
| RPlus (p : Z -> bool)
| RRep (p : Z -> bool) (min max : nat).

(** Repetitions: one more character is tried first; [k] is what is left to match and returns what follows the match. *)
Fixpoint match_rep (p : Z -> bool) (min max : nat) (s : list Z) (k : list Z -> option (list Z)) {struct s} : option (list Z) :=
  let stop := match min with O => k s | S _ => None end in
  match s, max with
  | c :: t, S max' =>
    if p c then match match_rep p (pred min) max' t k with Some r => Some r | None => stop end else stop
  | _, _ => stop
  end.
(** The first match of package regexp at the beginning of a text, in the order of a backtracking search *)
Fixpoint match_re (r : regex) (s : list Z) (k : list Z -> option (list Z)) : option (list Z) :=
  match r with
  | RClass p => match s with c :: t => if p c then k t else None | [] => None end
  | RSeq a b => match_re a s (fun s' => match_re b s' k)
  | RPlus p => match_rep p 1 (length s) s k
  | RRep p min max => match_rep p min max s k
  end.
(** Regexp.FindString: the text of the leftmost match, or the empty text *)
Fixpoint find_string (r : regex) (s : list Z) : list Z :=
  match match_re r s Some with
  | Some rest => firstn (length s - length rest) s
  | None => match s with [] => [] | _ :: t => find_string r t end
  end.

Definition between (a b c : Z) : bool := (a <=? c) && (c <=? b).
Definition one_of (l : list Z) (c : Z) : bool := existsb (Z.eqb c) l.
(** a-zA-Z *)
Definition letter (c : Z) : bool := between 97 122 c || between 65 90 c.
(** lib/pgp/pgp.go:298-301 compileRegexToMatchEmail: \<([a-zA-Z0-9_+\.-]+)@([a-zA-Z0-9\.-]+)\.([a-zA-Z\.]{2,10})\> where a backslash before
    punctuation gives the character itself *)
Definition email_regex : regex :=
  RSeq (RClass (Z.eqb 60))
    (RSeq (RPlus (fun c => letter c || between 48 57 c || one_of (lit "_+.-") c))
      (RSeq (RClass (Z.eqb 64))
        (RSeq (RPlus (fun c => letter c || between 48 57 c || one_of (lit ".-") c))
          (RSeq (RClass (Z.eqb 46))
            (RSeq (RRep (fun c => letter c || one_of (lit ".") c) 2 10)
              (RClass (Z.eqb 62))))))).

(** strings.Trim with a cutset of one character *)
Fixpoint trim_left (c : Z) (s : list Z) : list Z :=
  match s with x :: t => if x =? c then trim_left c t else s | [] => [] end.
Definition trim (c : Z) (s : list Z) : list Z := rev (trim_left c (rev (trim_left c s))).

(** lib/pgp/pgp.go:287-295 getEmailAddressFromPGPId *)
Definition get_email_address (r : regex) (id : list Z) : res (list Z) :=
  let email := find_string r id in
  match email with
  | [] => Err "email not found in the id"
  | _ => Ok (trim 62 (trim 60 email))
  end.
