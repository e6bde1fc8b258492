(** Model of the file of results of the single-server benchmark (simulations/simul.go and types.go) and of what is read from it and shown:
    simulations/utils.py and simulations/plot.py. Standard deviations, drawing, rounding to two decimals and the rounding of floating-point
    arithmetic are left out: numbers are rationals. The results themselves are those of BenchModel.v. *)
From Coq Require Import String ZArith QArith List Bool.
From Verif Require Import GoBase FrontendModel LogModel BenchModel.
Import ListNotations.
Open Scope Z_scope.
Open Scope go_scope.

(** ** JSON *)

(** A JSON value. A number is kept as its text. Simplification: no true and false, which are not written. *)
Inductive json := JNull | JNum (t : list Z) | JStr (s : list Z) | JArr (l : list json) | JObj (l : list (list Z * json)).

Fixpoint commas (l : list (list Z)) : list Z :=
  match l with
  | [] => []
  | [x] => x
  | x :: t => x ++ 44 :: commas t
  end.
(** encoding/json.Marshal (external): how values are written. Simplification: strings are written as they are, for those that need no
    escape, which are the only ones in the results. *)
Fixpoint json_text (j : json) : list Z :=
  match j with
  | JNull => lit "null"
  | JNum t => t
  | JStr s => 34 :: s ++ [34]
  | JArr l => 91 :: commas (map json_text l) ++ [93]
  | JObj l => 123 :: commas (map (fun kv => 34 :: fst kv ++ 34 :: 58 :: json_text (snd kv)) l) ++ [125]
  end.

(** The characters of numbers: digits, sign, point, exponent *)
Definition number_char (c : Z) : bool := ((48 <=? c) && (c <=? 57)) || existsb (Z.eqb c) [43; 45; 46; 69; 101].
Fixpoint span (f : Z -> bool) (s : list Z) : list Z * list Z :=
  match s with
  | [] => ([], [])
  | c :: t => if f c then let '(a, b) := span f t in (c :: a, b) else ([], s)
  end.
(** After the opening quote: up to the closing one. *)
Definition json_string (s : list Z) : option (list Z * list Z) :=
  match span (fun c => negb (c =? 34) && negb (c =? 92)) s with
  | (k, 34 :: t) => Some (k, t)
  | _ => None
  end.
(** json.load (external, Python). [fuel] bounds the depth of the recursion. Simplifications: no white space, no true and false, no escapes
    in strings; none of them is in the file. *)
Fixpoint json_value (fuel : nat) (s : list Z) : option (json * list Z) :=
  match fuel with
  | O => None
  | S f =>
    match s with
    | [] => None
    | c :: t =>
      if c =? 110 then match t with 117 :: 108 :: 108 :: t' => Some (JNull, t') | _ => None end
      else if c =? 34 then match json_string t with Some (k, t') => Some (JStr k, t') | None => None end
      else if c =? 91 then match t with
                           | 93 :: t' => Some (JArr [], t')
                           | _ => match json_elements f t with Some (l, t') => Some (JArr l, t') | None => None end
                           end
      else if c =? 123 then match t with
                            | 125 :: t' => Some (JObj [], t')
                            | _ => match json_members f t with Some (l, t') => Some (JObj l, t') | None => None end
                            end
      else match span number_char s with
           | ([], _) => None
           | (n, t') => Some (JNum n, t')
           end
    end
  end
with json_elements (fuel : nat) (s : list Z) : option (list json * list Z) :=
  match fuel with
  | O => None
  | S f =>
    match json_value f s with
    | Some (v, 44 :: t) => match json_elements f t with Some (l, t') => Some (v :: l, t') | None => None end
    | Some (v, 93 :: t) => Some ([v], t)
    | _ => None
    end
  end
with json_members (fuel : nat) (s : list Z) : option (list (list Z * json) * list Z) :=
  match fuel with
  | O => None
  | S f =>
    match s with
    | 34 :: s1 =>
      match json_string s1 with
      | Some (k, 58 :: s2) =>
        match json_value f s2 with
        | Some (v, 44 :: t) => match json_members f t with Some (l, t') => Some ((k, v) :: l, t') | None => None end
        | Some (v, 125 :: t) => Some ([(k, v)], t)
        | _ => None
        end
      | _ => None
      end
    | _ => None
    end
  end.
Definition json_load (s : list Z) : res json :=
  match json_value (length s) s with
  | Some (j, []) => Ok j
  | _ => Err "JSONDecodeError"
  end.

(** ** The file of results *)

(** How a number is written by Go and read by Python (external) *)
Record numbers := mkNumbers { nu_show : Q -> list Z; nu_read : list Z -> Q }.

(** simulations/types.go:3-7 Block, types.go:9-13 Chunk; None: a nil pointer *)
Record block := mkBlock { bl_query : Q; bl_answers : list Q; bl_reconstruct : Q }.
Record full_chunk := mkFull { fc_cpu : list (option block); fc_bandwidth : list (option block); fc_digest : Q }.

(** simul.go:354-368 initChunk and initBlock, filled by pirLWE128 (simul.go:214-238), pirLWE (simul.go:257-279) and pirElliptic
    (simul.go:297-332), where the time is that of the whole retrieval and is stored under Reconstruct; and by RandomMerkleDB
    (preprocessing.go:41-65), where it is stored under Answers and there is no block of sizes. *)
Definition recorded (c : chunk) (time : Q) : full_chunk :=
  match ch_bandwidth c with
  | Some (q, a) => mkFull [Some (mkBlock 0 [0%Q] time)] [Some (mkBlock (inject_Z q) [inject_Z a] 0)] (inject_Z (ch_digest c))
  | None => mkFull [Some (mkBlock 0 [time] 0)] [None] (inject_Z (ch_digest c))
  end.

Definition block_json (nu : numbers) (b : option block) : json :=
  match b with
  | None => JNull
  | Some b => JObj [(lit "Query", JNum (nu_show nu (bl_query b))); (lit "Answers", JArr (map (fun x => JNum (nu_show nu x)) (bl_answers b)));
                    (lit "Reconstruct", JNum (nu_show nu (bl_reconstruct b)))]
  end.
Definition chunk_json (nu : numbers) (c : full_chunk) : json :=
  JObj [(lit "CPU", JArr (map (block_json nu) (fc_cpu c))); (lit "Bandwidth", JArr (map (block_json nu) (fc_bandwidth c)));
        (lit "Digest", JNum (nu_show nu (fc_digest c)))].

(** Insertion in order; used for every sort below *)
Fixpoint insert {A} (le : A -> A -> bool) (x : A) (l : list A) : list A :=
  match l with
  | [] => [x]
  | y :: t => if le x y then x :: l else y :: insert le x t
  end.
Definition sort {A} (le : A -> A -> bool) (l : list A) : list A := fold_right (insert le) [] l.
(** the order of strings *)
Fixpoint text_le (a b : list Z) : bool :=
  match a, b with
  | [], _ => true
  | _ :: _, [] => false
  | x :: a', y :: b' => if x =? y then text_le a' b' else x <? y
  end.

(** The results with their times: [times len j] is what was measured in repetition j for length len, in seconds (milliseconds for the
    preprocessing benchmark). *)
Definition with_times (results : list (Z * list chunk)) (times : Z -> nat -> Q) : list (Z * list full_chunk) :=
  map (fun e => (fst e, map (fun cj => recorded (fst cj) (times (fst e) (snd cj))) (combine (snd e) (range (length (snd e)))))) results.
(** types.go:15-17 Experiment; a map with int keys is written in the order of the keys as strings. *)
Definition experiment_json (nu : numbers) (m : list (Z * list full_chunk)) : json :=
  JObj [(lit "Results", JObj (map (fun e => (itoa (fst e), JArr (map (chunk_json nu) (snd e)))) (sort (fun a b => text_le (itoa (fst a)) (itoa (fst b))) m)))].
(** simul.go:180-188: the contents of results/<Name>.json *)
Definition results_file (nu : numbers) (results : list (Z * list chunk)) (times : Z -> nat -> Q) : list Z :=
  json_text (experiment_json nu (with_times results times)).

(** ** Reading it: simulations/utils.py *)

(** d[k] = v *)
Fixpoint dict_set {K V} (eq : K -> K -> bool) (d : list (K * V)) (k : K) (v : V) : list (K * V) :=
  match d with
  | [] => [(k, v)]
  | e :: t => if eq (fst e) k then (fst e, v) :: t else e :: dict_set eq t k v
  end.
Definition dict_get {K V} (eq : K -> K -> bool) (d : list (K * V)) (k : K) : res V :=
  match find (fun e => eq (fst e) k) d with Some e => Ok (snd e) | None => Err "KeyError" end.
Fixpoint text_eq (a b : list Z) : bool :=
  match a, b with
  | [], [] => true
  | x :: a', y :: b' => (x =? y) && text_eq a' b'
  | _, _ => false
  end.
(** an object is read as a dictionary *)
Definition py_dict (l : list (list Z * json)) : list (list Z * json) := fold_left (fun d e => dict_set text_eq d (fst e) (snd e)) l [].

Definition py_items (j : json) : res (list (list Z * json)) := match j with JObj l => Ok (py_dict l) | _ => Err "AttributeError" end.
Definition py_field (j : json) (k : string) : res json := match j with JObj l => dict_get text_eq (py_dict l) (lit k) | _ => Err "TypeError" end.
(** iteration, over lists only: the other values are not iterated over in what follows *)
Definition py_list (j : json) : res (list json) := match j with JArr l => Ok l | _ => Err "TypeError" end.
Definition py_number (nu : numbers) (j : json) : res Q := match j with JNum t => Ok (nu_read nu t) | _ => Err "TypeError" end.
(** int(s). Simplification: decimal digits with an optional minus sign *)
Definition py_int (s : list Z) : res Z := match atoi s with Some v => Ok v | None => Err "ValueError" end.

Definition q_sum (l : list Q) : Q := fold_right Qplus 0%Q l.

(** What has been read for one size. client[param] and server[param] are kept as lists of pairs of a parameter and a value. *)
Record parsed := mkParsed { pa_digest : Q; pa_client : list (list Z * Q); pa_server : list (list Z * Q) }.

(** utils.py:77-80: one block *)
Definition parse_block (nu : numbers) (param : list Z) (p : parsed) (b : json) : res parsed :=
  q <- py_field b "Query" ;; q <- py_number nu q ;;
  r <- py_field b "Reconstruct" ;; r <- py_number nu r ;;
  a <- py_field b "Answers" ;; a <- py_list a ;; a <- mapM (py_number nu) a ;;
  Ok (mkParsed (pa_digest p) (pa_client p ++ [(param, q + r)%Q]) (pa_server p ++ [(param, q_sum a)])).
Fixpoint foldM {A B} (f : B -> A -> res B) (b : B) (l : list A) : res B :=
  match l with
  | [] => Ok b
  | x :: t => b' <- f b x ;; foldM f b' t
  end.
(** utils.py:72-80: one pair (param, repetition) *)
Definition parse_param (nu : numbers) (p : parsed) (e : list Z * json) : res parsed :=
  if text_eq (fst e) (lit "Digest") then d <- py_number nu (snd e) ;; Ok (mkParsed d (pa_client p) (pa_server p))
  else bs <- py_list (snd e) ;; foldM (parse_block nu (fst e)) p bs.
(** utils.py:69-80: all measures of a size *)
Definition parse_size (nu : numbers) (dbResult : json) : res parsed :=
  ms <- py_list dbResult ;;
  foldM (fun p m => items <- py_items m ;; foldM (parse_param nu) p items) (mkParsed 0 [] []) ms.
(** utils.py:55-82 parseResults *)
Definition parse_results (nu : numbers) (file : list Z) : res (list (Z * parsed)) :=
  data <- json_load file ;;
  dbResults <- py_field data "Results" ;;
  items <- py_items dbResults ;;
  foldM (fun d e => p <- parse_size nu (snd e) ;; k <- py_int (fst e) ;; Ok (dict_set Z.eqb d k p)) [] items.

(** numpy.median: None for nan, which is the median of nothing *)
Definition median (l : list Q) : option Q :=
  let s := sort Qle_bool l in
  let n := length s in
  match n with
  | O => None
  | _ => if Nat.even n then Some ((nth (n / 2 - 1) s 0 + nth (n / 2) s 0) / 2)%Q else Some (nth (n / 2) s 0%Q)
  end.
Definition of_param (param : string) (l : list (list Z * Q)) : list Q := map snd (filter (fun e => text_eq (fst e) (lit param)) l).
(** utils.py:85-91 stats, without the standard deviations: CPU, bandwidth *)
Definition stats (l : list (list Z * Q)) : option Q * option Q := (median (of_param "CPU" l), median (of_param "Bandwidth" l)).
Record figures := mkFigures { fi_digest : Q; fi_client : option Q * option Q; fi_server : option Q * option Q }.
(** utils.py:12-21 allStats *)
Definition all_stats (nu : numbers) (file : list Z) : res (list (Z * figures)) :=
  l <- parse_results nu file ;;
  Ok (map (fun e => (fst e, mkFigures (pa_digest (snd e)) (stats (pa_client (snd e))) (stats (pa_server (snd e))))) l).

(** ** Showing it: simulations/plot.py *)

(** arithmetic with nan *)
Definition nan_add (a b : option Q) : option Q := match a, b with Some x, Some y => Some (x + y)%Q | _, _ => None end.
Definition nan_scale (a : option Q) (k : Q) : option Q := match a with Some x => Some (x * k)%Q | None => None end.
(** plot.py:24-26 cpuMean and 28-30 bwMean *)
Definition cpu_mean (f : figures) : option Q := nan_scale (nan_add (fst (fi_client f)) (fst (fi_server f))) (1 / 1000).
Definition bw_mean (f : figures) : option Q := nan_add (snd (fi_client f)) (snd (fi_server f)).
(** The rows of the table *)
Inductive metric := Offline | Online | UserTime.
(** plot.py:141-146 plotSingle: one entry of digestTable, bwTable or cpuTable, from the statistics of a scheme *)
Definition table_entry (m : metric) (f : figures) : option Q :=
  match m with
  | Offline => Some (fi_digest f / 1024)%Q
  | Online => nan_scale (bw_mean f) (1 / 1024)
  | UserTime => nan_scale (cpu_mean f) (1000 * 1000)
  end.
(** plot.py:123-127 size_to_multipliers *)
Definition multiplier (size : Z) (m : metric) : res Q :=
  if size =? 2 ^ 13 then Ok 1%Q
  else if size =? 2 ^ 23 then Ok (match m with Offline => 1 / 1024 | _ => 1 end)%Q
  else if size =? 2 ^ 33 then Ok (match m with Offline => 1 / 1024 | Online => 1 | UserTime => 1 / 1000 end)%Q
  else Err "KeyError".
(** A cell: N/A or a number, before it is rounded to two decimals *)
Inductive cell := NotApplicable | Number (q : option Q).
(** plot.py:157-161: the cell of a scheme, a size and a metric *)
Definition table_cell (nu : numbers) (scheme file : list Z) (size : Z) (m : metric) : res cell :=
  st <- all_stats nu file ;;
  if (size =? 2 ^ 33) && contains (lit "DH") scheme then Ok NotApplicable
  else f <- dict_get Z.eqb st size ;; k <- multiplier size m ;; Ok (Number (nan_scale (table_entry m f) k)).

(** plot.py:140-146 and 169-176: the heights of the bars of a scheme in one of the three charts, which stand above the labels 1KiB, 1MiB and
    1GiB in this order. [first]: the scheme is the first, the Diffie-Hellman one, which gets one more, of height 0. *)
Definition bars (nu : numbers) (first : bool) (file : list Z) (m : metric) : res (list (option Q)) :=
  st <- all_stats nu file ;;
  l <- mapM (fun k => f <- dict_get Z.eqb st k ;; Ok (table_entry m f)) (sort Z.leb (map fst st)) ;;
  Ok (l ++ if first then [Some 0%Q] else []).

(** plot.py:368-388 plotPreprocessing: the times of every size *)
Definition preprocessing_times (nu : numbers) (file : list Z) : res (list (Z * list Q)) :=
  data <- json_load file ;;
  dbResults <- py_field data "Results" ;;
  items <- py_items dbResults ;;
  foldM (fun d e =>
    k <- py_int (fst e) ;;
    rs <- py_list (snd e) ;;
    ts <- mapM (fun r =>
      cpu <- py_field r "CPU" ;; cpu <- py_list cpu ;; b <- go_index cpu 0 ;;
      a <- py_field b "Answers" ;; a <- py_list a ;; x <- go_index a 0 ;; py_number nu x) rs ;;
    Ok (dict_set Z.eqb d k ts)) [] items.
Fixpoint all_numbers (l : list (option Q)) : option (list Q) :=
  match l with
  | [] => Some []
  | Some x :: t => match all_numbers t with Some r => Some (x :: r) | None => None end
  | None :: _ => None
  end.
(** plot.py:390-404: the labels on the axis of sizes, in GiB, and the values drawn above them, in seconds; the n-th value is drawn at the
    n-th label. None if a value is nan. *)
Definition preprocessing_plot (nu : numbers) (file : list Z) : res (option (list (Z * Q))) :=
  r <- preprocessing_times nu file ;;
  match all_numbers (map (fun e => median (snd e)) r) with
  | None => Ok None
  | Some vs => Ok (Some (combine (map (fun x => Z.quot x (2 ^ 33)) (sort Z.leb (map fst r))) (map (fun x => (x / 1000)%Q) (sort Qle_bool vs))))
  end.
