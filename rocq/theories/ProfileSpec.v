(** Specification vocabulary for profiling. *)
From Coq Require Import String ZArith List Bool Arith.
From Verif Require Import GoBase EncodingModel LifecycleModel ProfileModel.
Import ListNotations.

(** A server with these flags is listening after these happenings, or has ended since. *)
Definition runs (e : surroundings) (o : options) (hs : list happening) (p : process) : Prop :=
  exists f ds, launch o (Ok tt) = Listens f ds /\
    process_history e (o_prof o) ds hs (mkProc listening_server false f None) = Some p.

(** What the server itself sees of the happenings: both signals are a request to stop. *)
Definition seen (h : happening) : list event :=
  match h with Interrupt | Terminate => [Signal] | Other ev => [ev] | Kill | Profiler => [] end.
Definition all_seen (hs : list happening) : list event := flat_map seen hs.

(** A history of the server in which every request to stop from outside is SIGTERM. *)
Definition by_sigterm (ev : event) : happening := match ev with Signal => Terminate | _ => Other ev end.

(** The files the flags ask for can be created. *)
Definition creatable (o : options) : Prop := o_cpu_file o = Ok tt /\ o_mem_file o = Ok tt /\ o_log_file o = Ok tt.

(** The acts that happen while a CPU profile is taken. *)
Fixpoint while_profiling (on : bool) (acts : list act) : list act :=
  match acts with
  | [] => []
  | StartCpu :: t => while_profiling true t
  | StopCpu :: t => while_profiling false t
  | a :: t => if on then a :: while_profiling on t else while_profiling on t
  end.
Definition recorded (acts : list act) : list act := while_profiling false acts.
(** The profile is started, and stopped afterwards, which is what writes it, before its file is closed. *)
Definition profile_written (acts : list act) : Prop := exists a b c, acts = a ++ StartCpu :: b ++ StopCpu :: c /\ ~ In CloseCpu (a ++ b).
