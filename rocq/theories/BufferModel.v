(** Model of the scratch memory of lib/fss: the slices Temp, Out and OutConvertBlock that an Fss value keeps between
    calls (common.go:15-24) and that every EvaluatePF and GenerateTreePF call overwrites. FSSModel.v and PredicateModel.v
    model the same functions without this memory; here the calls read and write it. The methods have value receivers,
    but the copies of the Fss value share the three slices. *)
From Coq Require Import String ZArith List Bool.
From Verif Require Import GoBase FieldModel FSSModel EncodingModel MerkleModel PredicateModel.
Import ListNotations.
Open Scope Z_scope.
Open Scope go_scope.

(** lib/fss/common.go:19-23 *)
Record buffers := mkBuf { b_temp : list Z; b_out : list Z; b_ocb : list Z }.

(** lib/fss/client.go:31-33, server.go:27-29: make zeroes the slices *)
Definition new_buffers (blockLength : nat) : buffers :=
  mkBuf (repeat 0 16) (repeat 0 64) (repeat 0 (4 * blockLength)).

(** A computation on the scratch memory: what was written stays written when it panics. *)
Definition sm (A : Type) := buffers -> res A * buffers.
Definition sbind {A B} (x : sm A) (f : A -> sm B) : sm B := fun b =>
  match x b with
  | (Ok a, b') => f a b'
  | (Err m, b') => (Err m, b')
  | (Panic m, b') => (Panic m, b')
  | (Fatal m, b') => (Fatal m, b')
  end.
Definition lift {A} (r : res A) : sm A := fun b => (r, b).
Notation "x <~ e ;; k" := (sbind e (fun x => k)) (at level 100, e at next level, right associativity).

(** lib/fss/common.go:59-66 prf, iterations i, ..., i+n-1; [temp] and [out] are the two slices passed. *)
Fixpoint prf_loop (enc : cipher) (x : list Z) (i n : nat) (temp out : list Z) : res unit * (list Z * list Z) :=
  match n with
  | O => (Ok tt, (temp, out))
  | S n' =>
    if (4 <=? i)%nat then (Panic "index out of range", (temp, out)) else
    let temp := go_copy temp (enc i x) in
    if (length out <? 16 * i)%nat then (Panic "slice bounds out of range", (temp, out)) else
    prf_loop enc x (S i) n' temp (firstn (16 * i) out ++ xor_into (skipn (16 * i) out) temp x)
  end.

(** prf(x, f.FixedBlocks, 3, f.Temp, f.Out) *)
Definition prf_out (enc : cipher) (x : list Z) : sm unit := fun b =>
  let '(r, (t, o)) := prf_loop enc x 0 3 (b_temp b) (b_out b) in (r, mkBuf t o (b_ocb b)).
(** prf(x, f.FixedBlocks, n, f.Temp, f.OutConvertBlock) *)
Definition prf_ocb (enc : cipher) (x : list Z) (n : nat) : sm unit := fun b =>
  let '(r, (t, o)) := prf_loop enc x 0 n (b_temp b) (b_ocb b) in (r, mkBuf t (b_out b) o).

(** lib/field/field.go:93-101 BytesToElements with toElement (31-47), which clears the top bit in the input slice itself;
    iterations i, ..., i+n-1. *)
Fixpoint elements_loop (fresh : nat -> Z) (i n : nat) (buf : list Z) : res (list (Z * bool)) * list Z :=
  match n with
  | O => (Ok [], buf)
  | S n' =>
    match go_slice buf (4 * Z.of_nat i) (4 * Z.of_nat i + 4) with
    | Ok b4 =>
      let buf := upd buf (4 * i) (nth 0 (mask_first b4) 0) in
      let '(r, buf) := elements_loop fresh (S i) n' buf in
      (t <- r ;; Ok (to_element (fresh i) b4 :: t), buf)
    | Err m => (Err m, buf)
    | Panic m => (Panic m, buf)
    | Fatal m => (Fatal m, buf)
    end
  end.

Definition elements_ocb (fresh : nat -> Z) (n : nat) : sm (list (Z * bool)) := fun b =>
  let '(r, o) := elements_loop fresh 0 n (b_ocb b) in (r, mkBuf (b_temp b) (b_out b) o).

(** lib/fss/common.go:68-72 convertBlock; [n] = len(out) *)
Definition convert_block_b (enc : cipher) (fresh : nat -> Z) (x : list Z) (n : nat) : sm (list (Z * bool)) :=
  _ <~ prf_ocb enc x (n / 4) ;; elements_ocb fresh n.

(** ** Server *)

(** lib/fss/server.go:53-64 the loop xoring the correction word into f.Out, iterations j, ..., j+n-1 *)
Fixpoint correct_loop (cw : list Z) (t : Z) (j count n : nat) (out : list Z) : res unit * list Z :=
  match n with
  | O => (Ok tt, out)
  | S n' =>
    let count := if (j =? 17)%nat then 0%nat else if (j =? 33)%nat then 17%nat else count in
    match nth_error out j, nth_error cw count with
    | Some o, Some c => correct_loop cw t (S j) (S count) n' (upd out j (Z.lxor o (mul8 t c)))
    | _, _ => (Panic "index out of range", out)
    end
  end.
Definition correct_out (cw : list Z) (t : Z) : sm unit := fun b =>
  let '(r, o) := correct_loop cw t 0 0 34 (b_out b) in (r, mkBuf (b_temp b) o (b_ocb b)).

(** lib/fss/server.go:66-73 the next seed and bit, copied out of f.Out *)
Definition pick_out (xBit : bool) : sm (list Z * Z) := fun b =>
  (if xBit then Ok (firstn 16 (skipn 17 (b_out b)), nth 33 (b_out b) 0 mod 2)
   else Ok (firstn 16 (b_out b), nth 16 (b_out b) 0 mod 2), b).

(** lib/fss/server.go:51-73 one iteration of the loop of EvaluatePF *)
Definition eval_step_b (enc : cipher) (xBit : bool) (cw s : list Z) (t : Z) : sm (list Z * Z) :=
  _ <~ prf_out enc s ;; _ <~ correct_out cw t ;; pick_out xBit.

(** lib/fss/server.go:42-74 (line 44: the bit at position 256 is read as zero) *)
Fixpoint eval_loop_b (enc : cipher) (i : nat) (x : list bool) (cws : list (list Z)) (s : list Z) (t : Z)
  : sm (list Z * Z) :=
  match x with
  | [] => lift (Ok (s, t))
  | xb :: x' =>
    match cws with
    | [] => _ <~ prf_out enc s ;; lift (Panic "index out of range")
    | cw :: cws' =>
      st <~ eval_step_b enc (if (i =? 256)%nat then false else xb) cw s t ;;
      eval_loop_b enc (S i) x' cws' (fst st) (snd st)
    end
  end.

(** lib/fss/server.go:34-86 EvaluatePF; [n] = len(out) *)
Definition evaluate_pf_b (enc : cipher) (fresh : nat -> Z) (serverNum : Z) (k : fss_key) (x : list bool) (n : nat)
  : sm (list Z * bool) :=
  st <~ eval_loop_b enc 0 x (k_cw k) (go_copy (repeat 0 16) (k_sinit k)) (k_tinit k) ;;
  c <~ convert_block_b enc fresh (fst st) n ;;
  o <~ lift (eval_outs serverNum (snd st) (map fst c) (k_finalcw k)) ;;
  lift (Ok (o, existsb snd c)).

(** lib/server/fss.go: the record loops, as in PredicateModel.v *)
Fixpoint records_loop_b {S} (db : list key_info) (body : nat -> key_info -> S -> sm S) (i n : nat) (st : S) : sm S :=
  match n with
  | O => lift (Ok st)
  | Datatypes.S n' =>
    ki <~ lift (go_index db (Z.of_nat i)) ;;
    st' <~ body i ki st ;;
    records_loop_b db body (Datatypes.S i) n' st'
  end.

(** lib/server/fss.go:49-57, 62-66, 71-78, 87-101 *)
Definition count_body_b (enc : cipher) (sn : Z) (k : fss_key) (fresh : freshes) (n : nat)
           (id : key_info -> res (option (list bool))) (i : nat) (ki : key_info) (st : list Z * bool)
  : sm (list Z * bool) :=
  o <~ lift (id ki) ;;
  match o with
  | None => lift (Ok st)
  | Some x =>
    e <~ evaluate_pf_b enc (fresh i) sn k x n ;;
    lift (Ok (add_into (fst st) (fst e), snd st || snd e))
  end.

(** lib/server/fss.go:110-132 *)
Definition avg_body_b (enc : cipher) (H : hash_fn) (q : qinfo) (now : nat -> Z)
           (sn : Z) (k : fss_key) (fresh : freshes) (n : nat)
           (i : nat) (ki : key_info) (st : list Z * list Z * bool) : sm (list Z * list Z * bool) :=
  o <~ lift (id_for_email H q (ki_email ki)) ;;
  match o with
  | None => lift (Ok st)
  | Some x =>
    e <~ evaluate_pf_b enc (fresh i) sn k x n ;;
    lift (let '(out, sum, fl) := st in
          let diff := now i - time_year (ki_time ki) in
          if diff <? 0 then Ok (out, sum, fl || snd e)
          else Ok (add_into out (fst e), sum_into sum (fst e) diff, fl || snd e))
  end.

(** lib/server/fss.go:42-138 answer on the server's scratch memory *)
Definition answer_b (enc : cipher) (H : hash_fn) (n : nat) (sn : Z) (db : list key_info) (numColumns : nat)
           (now : nat -> Z) (fresh : freshes) (q : option qinfo) (k : fss_key) : sm (list Z * bool) :=
  let counting id := records_loop_b db (count_body_b enc sn k fresh n id) 0 numColumns (repeat 0 n, false) in
  match q with
  | None => lift (Panic "nil pointer dereference")
  | Some q =>
    if negb (q_and q) && negb (q_avg q) && negb (q_sum q) then
      if q_target q =? target_userid then
        counting (fun ki => id_for_email H q (ki_email ki))
      else if q_target q =? target_algo then
        counting (fun ki => Ok (Some (id_for_algo (ki_algo ki))))
      else if q_target q =? target_creation then
        counting id_creation
      else lift (Panic "not yet implemented")
    else if q_and q && negb (q_avg q) && negb (q_sum q) then
      counting (id_conj H q)
    else if q_and q && q_sum q && negb (q_avg q) then lift (Panic "sum not implemented")
    else if q_and q && q_avg q && negb (q_sum q) then
      r <~ records_loop_b db (avg_body_b enc H q now sn k fresh n) 0 numColumns (repeat 0 n, repeat 0 n, false) ;;
      lift (let '(out, sum, fl) := r in Ok (out ++ sum, fl))
    else lift (Panic "query not recognized")
  end.

(** One call of Answer: the decoded query, the clock readings and the replacement values of the call. *)
Record request := mkReq { rq_info : option qinfo; rq_key : fss_key; rq_now : nat -> Z; rq_fresh : freshes }.

(** Calls on one server value, one after the other (lib/server/predicate_apir.go:46-52, predicate_pir.go:45-50: out and
    tmp are new for each call, the scratch memory is not). A caller that recovers from a panic may go on calling. *)
Fixpoint serve_all (enc : cipher) (H : hash_fn) (n : nat) (sn : Z) (db : list key_info) (numColumns : nat)
         (rs : list request) : buffers -> list (res (list Z * bool)) * buffers := fun b =>
  match rs with
  | [] => ([], b)
  | r :: rs' =>
    let '(a, b) := answer_b enc H n sn db numColumns (rq_now r) (rq_fresh r) (rq_info r) (rq_key r) b in
    let '(l, b) := serve_all enc H n sn db numColumns rs' b in
    (a :: l, b)
  end.

(** ** Client *)

(** lib/fss/client.go:75-123 one iteration of the loop of GenerateTreePF: the two expansions go through f.Out *)
Definition gen_step_b (enc : cipher) (aBit : bool) (s0 s1 : list Z) (t0 t1 : Z)
  : sm (list Z * (list Z * list Z * Z * Z)) :=
  _ <~ prf_out enc s0 ;;
  o0 <~ (fun b => (Ok (firstn 48 (b_out b)), b)) ;;
  _ <~ prf_out enc s1 ;;
  o1 <~ (fun b => (Ok (firstn 48 (b_out b)), b)) ;;
  let t0Left := nth 16 o0 0 mod 2 in
  let t0Right := nth 33 o0 0 mod 2 in
  let t1Left := nth 16 o1 0 mod 2 in
  let t1Right := nth 33 o1 0 mod 2 in
  let ab := if aBit then 1 else 0 in
  let keep := if aBit then 17%nat else 0%nat in
  let lose := if aBit then 0%nat else 17%nat in
  let scw := xor_list (firstn 16 (skipn lose o0)) (firstn 16 (skipn lose o1)) in
  let tl := Z.lxor (Z.lxor (Z.lxor t0Left t1Left) ab) 1 in
  let tr := Z.lxor (Z.lxor t0Right t1Right) ab in
  let tk := if aBit then tr else tl in
  lift (Ok (scw ++ [tl; tr],
      (xor_list (firstn 16 (skipn keep o0)) (map (mul8 t0) scw),
       xor_list (firstn 16 (skipn keep o1)) (map (mul8 t1) scw),
       Z.lxor (nth (keep + 16) o0 0 mod 2) (mul8 tk t0),
       Z.lxor (nth (keep + 16) o1 0 mod 2) (mul8 tk t1)))).

(** lib/fss/client.go:73-123 *)
Fixpoint gen_loop_b (enc : cipher) (a : list bool) (s0 s1 : list Z) (t0 t1 : Z)
  : sm (list (list Z) * (list Z * list Z * Z * Z)) :=
  match a with
  | [] => lift (Ok ([], (s0, s1, t0, t1)))
  | ab :: a' =>
    st <~ gen_step_b enc ab s0 s1 t0 t1 ;;
    let '(cw, (s0', s1', t0', t1')) := st in
    rest <~ gen_loop_b enc a' s0' s1' t0' t1' ;;
    lift (Ok (cw :: fst rest, snd rest))
  end.

(** lib/fss/client.go:40-152 GenerateTreePF *)
Definition generate_tree_pf_b (enc : cipher) (a : list bool) (b : list Z) (r : gen_rand)
  : sm (fss_key * fss_key * bool) :=
  let s0 := firstn 16 (r_seed0 r) in
  let t0 := nth 16 (r_seed0 r) 0 mod 2 in
  let s1 := r_seed1 r in
  let t1 := Z.lxor t0 1 in
  lp <~ gen_loop_b enc a s0 s1 t0 t1 ;;
  let '(cws, (s0', s1', t0', t1')) := lp in
  c0 <~ convert_block_b enc (r_fresh0 r) s0' (length b) ;;
  c1 <~ convert_block_b enc (r_fresh1 r) s1' (length b) ;;
  let f := final_cws t1' b (map fst c0) (map fst c1) in
  lift (Ok (mkKey s0 t0 cws f, mkKey s1 t1 cws f,
      existsb snd c0 || existsb snd c1)).

(** lib/client/fss.go:47-72 query, called again and again on one client value (its fss field, predicate_apir.go:22,
    predicate_pir.go:18): the inputs, MAC keys and randomness of each call *)
Fixpoint query_all (enc : cipher) (qs : list (list bool * list Z * gen_rand))
  : buffers -> list (res (fss_key * fss_key * bool)) * buffers := fun b =>
  match qs with
  | [] => ([], b)
  | (inp, alphas, r) :: qs' =>
    let '(k, b) := generate_tree_pf_b enc inp (1 :: alphas) r b in
    let '(l, b) := query_all enc qs' b in
    (k :: l, b)
  end.

(** ** Several calls at once on one server value *)

(** Where a call stands in one of its record loops (lib/server/fss.go:49-57, 62-66, 71-78, 87-101, 110-132 with EvaluatePF inlined).
    [Level]: before the prf
    call of a level; [Expanded]: f.Out holds the expansion, the correction and the choice come next; [Convert]: before the
    prf call of convertBlock; [Filled]: OutConvertBlock is filled, the elements are read next. One step of a call is one of
    these four pieces of code, taken as atomic (coarser than what the Go memory model allows). *)
Inductive phase :=
| Between
| Level (i : nat) (x : list bool) (cws : list (list Z)) (s : list Z) (t : Z) (f : nat -> Z)
| Expanded (i : nat) (x : list bool) (cws : list (list Z)) (s : list Z) (t : Z) (f : nat -> Z)
| Convert (s : list Z) (t : Z) (f : nat -> Z)
| Filled (s : list Z) (t : Z) (f : nat -> Z).

(** A record to be evaluated: its identifier, the replacement values of its conversion and, for AVG, the years since its creation. *)
Record item := mkItem { it_id : list bool; it_fresh : nat -> Z; it_years : option Z }.

(** A call in progress: its query key, the records still to be evaluated, the years of the current one, and its private
    accumulators out and, for AVG, sum. Simplification: the identifiers and years of all records are computed first. *)
Record call := mkCall {
  c_key : fss_key; c_todo : list item; c_years : option Z; c_acc : list Z; c_sum : list Z; c_phase : phase }.

Definition set_phase (c : call) (p : phase) : call := mkCall (c_key c) (c_todo c) (c_years c) (c_acc c) (c_sum c) p.

(** lib/server/fss.go:54-56 and the other counting loops; 117-131 for AVG *)
Definition accumulate (years : option Z) (acc sum o : list Z) : list Z * list Z :=
  match years with
  | None => (add_into acc o, sum)
  | Some d => if d <? 0 then (acc, sum) else (add_into acc o, sum_into sum o d)
  end.

Definition call_step (enc : cipher) (n : nat) (sn : Z) (c : call) (b : buffers) : res call * buffers :=
  match c_phase c with
  | Between =>
    match c_todo c with
    | [] => (Ok c, b)
    | mkItem x f years :: todo =>
      (Ok (mkCall (c_key c) todo years (c_acc c) (c_sum c)
                  (match x with
                   | [] => Convert (go_copy (repeat 0 16) (k_sinit (c_key c))) (k_tinit (c_key c)) f
                   | _ => Level 0 x (k_cw (c_key c)) (go_copy (repeat 0 16) (k_sinit (c_key c))) (k_tinit (c_key c)) f
                   end)), b)
    end
  | Level i x cws s t f =>
    (_ <~ prf_out enc s ;; lift (Ok (set_phase c (Expanded i x cws s t f)))) b
  | Expanded i x cws s t f =>
    match x, cws with
    | xb :: x', cw :: cws' =>
      (_ <~ correct_out cw t ;;
       st <~ pick_out (if (i =? 256)%nat then false else xb) ;;
       lift (Ok (set_phase c (match x' with
                              | [] => Convert (fst st) (snd st) f
                              | _ => Level (S i) x' cws' (fst st) (snd st) f
                              end)))) b
    | _, _ => (Panic "index out of range", b)
    end
  | Convert s t f =>
    (_ <~ prf_ocb enc s (n / 4) ;; lift (Ok (set_phase c (Filled s t f)))) b
  | Filled s t f =>
    (e <~ elements_ocb f n ;;
     o <~ lift (eval_outs sn t (map fst e) (k_finalcw (c_key c))) ;;
     lift (Ok (let '(acc, sum) := accumulate (c_years c) (c_acc c) (c_sum c) o in
               mkCall (c_key c) (c_todo c) (c_years c) acc sum Between))) b
  end.

(** A schedule: which call takes the next step. A panic ends the process. *)
Fixpoint run_calls (enc : cipher) (n : nat) (sn : Z) (sched : list nat) (cs : list call) (b : buffers)
  : res (list call) * buffers :=
  match sched with
  | [] => (Ok cs, b)
  | i :: sched' =>
    match nth_error cs i with
    | None => run_calls enc n sn sched' cs b
    | Some c =>
      match call_step enc n sn c b with
      | (Ok c', b') => run_calls enc n sn sched' (upd cs i c') b'
      | (Err m, b') => (Err m, b')
      | (Panic m, b') => (Panic m, b')
      | (Fatal m, b') => (Fatal m, b')
      end
    end
  end.

(** A call that has just started: out is zero, and so is sum for AVG (line 109) *)
Definition start_call (n : nat) (k : fss_key) (avg : bool) (items : list item) : call :=
  mkCall k items None (repeat 0 n) (if avg then repeat 0 n else []) Between.
