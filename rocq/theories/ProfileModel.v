(** Model of profiling, lib/utils/profile.go, in the key server (cmd/grpc/server/main.go:48-79), the command-line client
    (cmd/grpc/client/main.go:65-122) and the single-server benchmark (simulations/simul.go:64-84, 190-202). A process is described by
    the order of its deferred functions and by what is in its profile files when it ends. *)
From Coq Require Import String ZArith List Bool Arith.
From Verif Require Import GoBase EncodingModel LifecycleModel.
Import ListNotations.
Open Scope Z_scope.
Open Scope go_scope.

(** A profile file: not created, created but without the profile, or complete. *)
Inductive file := Absent | Unfinished | Complete.
(** The files of a process: the CPU profile, the memory profile, and whether the log file is open. *)
Record files := mkFiles { f_cpu : file; f_mem : file; f_log : bool }.

(** profile.go:13-18 StartProfiling: [create] is the error of os.Create; pprof.StartCPUProfile writes nothing yet *)
Definition start_profiling (create : res unit) (f : files) : res files :=
  match create with
  | Ok _ => Ok (mkFiles Unfinished (f_mem f) (f_log f))
  | Err m => Fatal m
  | Panic m => Panic m
  | Fatal m => Fatal m
  end.
(** profile.go:33-36 StopProfiling: pprof.StopCPUProfile writes the profile if one is being taken *)
Definition stop_profiling (f : files) : res files :=
  Ok (mkFiles (match f_cpu f with Unfinished => Complete | c => c end) (f_mem f) (f_log f)).
(** main.go:57-68, and profile.go:38-46 writeMemProfile; the error of pprof.WriteHeapProfile is ignored by the server and
    not modelled *)
Definition write_mem_profile (create : res unit) (f : files) : res files :=
  match create with
  | Ok _ => Ok (mkFiles (f_cpu f) Complete (f_log f))
  | Err m => Fatal m
  | Panic m => Panic m
  | Fatal m => Fatal m
  end.
(** main.go:77 defer f.Close() *)
Definition close_log (f : files) : res files := Ok (mkFiles (f_cpu f) (f_mem f) false).

(** How a process ends: the exit status the shell shows, and its files. Status 1 is log.Fatal, 2 a panic, 130 and 137 SIGINT and
    SIGKILL. *)
Record ending := mkEnd { e_status : Z; e_files : files }.

(** Deferred functions, latest first. log.Fatal in one of them ends the process at once; a panic runs the remaining ones. *)
Fixpoint run_deferred (ds : list (files -> res files)) (status : Z) (f : files) : ending :=
  match ds with
  | [] => mkEnd status f
  | d :: t => match d f with
              | Ok f' => run_deferred t status f'
              | Panic _ => run_deferred t 2 f
              | _ => mkEnd 1 f
              end
  end.

(** The flags -prof, -mprof and -log of the server, and the outcomes of os.Create for the three files. *)
Record options := mkOpt { o_prof : bool; o_mprof : bool; o_log : bool; o_cpu_file : res unit; o_mem_file : res unit; o_log_file : res unit }.

Definition no_files : files := mkFiles Absent Absent false.

(** A server after its start: it listens, with its deferred functions, or it has ended. *)
Inductive launched := Listens (f : files) (deferred : list (files -> res files)) | Ended (e : ending).

(** main.go:51-79: profiling and logs; main.go:81-175: [load] is the outcome of everything until the process listens *)
Definition launch (o : options) (load : res unit) : launched :=
  match (if o_prof o then start_profiling (o_cpu_file o) no_files else Ok no_files) with
  | Ok f =>
    let ds := if o_prof o then [stop_profiling] else [] in
    let ds := if o_mprof o then write_mem_profile (o_mem_file o) :: ds else ds in
    match (if o_log o then o_log_file o else Ok tt) with
    | Ok _ =>
      let f := mkFiles (f_cpu f) (f_mem f) (o_log o) in
      let ds := if o_log o then close_log :: ds else ds in
      match load with
      | Ok _ => Listens f ds
      | Panic _ => Ended (run_deferred ds 2 f)
      | _ => Ended (mkEnd 1 f)
      end
    | Panic _ => Ended (run_deferred ds 2 f)
    | _ => Ended (mkEnd 1 f)
    end
  | Panic _ => Ended (mkEnd 2 no_files)
  | _ => Ended (mkEnd 1 no_files)
  end.

(** A listening process: the server, the channel c of profile.go:21, and its end. *)
Record process := mkProc { p_server : server_state; p_caught : bool; p_files : files; p_end : option ending }.

Inductive happening :=
| Interrupt       (* SIGINT, which both the profiler and main.go:174 have asked for *)
| Terminate       (* SIGTERM *)
| Kill            (* SIGKILL, which no process can catch: signal.Notify(c, os.Kill) of profile.go:23 has no effect *)
| Profiler        (* the goroutine of profile.go:24-30 *)
| Other (e : event).

(** The end of the process when the server has taken a step to [p]: main returns, log.Fatal, or a panic, which runs the deferred
    functions only when it is in the main goroutine. Signals during the deferred functions are not modelled. *)
Definition ends (ds : list (files -> res files)) (in_main : bool) (p : place) (f : files) : option ending :=
  match p with
  | Exited => Some (run_deferred ds 0 f)
  | Dead _ => Some (mkEnd 1 f)
  | Crashed _ => Some (if in_main then run_deferred ds 2 f else mkEnd 2 f)
  | _ => None
  end.

Definition server_event (e : surroundings) (ds : list (files -> res files)) (ev : event) (caught : bool) (p : process) : option process :=
  match step e ev (p_server p) with
  | Some s => Some (mkProc s caught (p_files p) (ends ds (match ev with Main _ => true | _ => false end) (s_place s) (p_files p)))
  | None => None
  end.

(** One happening of a process with the flag -prof or without it; signals are happenings of their own, not server events. *)
Definition process_step (e : surroundings) (prof : bool) (ds : list (files -> res files)) (h : happening) (p : process) : option process :=
  match p_end p with
  | Some _ => None
  | None =>
    match h with
    | Interrupt => server_event e ds Signal (prof || p_caught p) p
    | Terminate => server_event e ds Signal (p_caught p) p
    | Kill => Some (mkProc (p_server p) (p_caught p) (p_files p) (Some (mkEnd 137 (p_files p))))
    | Profiler =>
      if p_caught p then
        let f := match stop_profiling (p_files p) with Ok f => f | _ => p_files p end in
        Some (mkProc (p_server p) (p_caught p) f (Some (mkEnd 0 f)))
      else None
    | Other Signal => None
    | Other ev => server_event e ds ev (p_caught p) p
    end
  end.

Fixpoint process_history (e : surroundings) (prof : bool) (ds : list (files -> res files)) (hs : list happening) (p : process) : option process :=
  match hs with
  | [] => Some p
  | h :: t => match process_step e prof ds h p with Some p' => process_history e prof ds t p' | None => None end
  end.

(** What a client or a benchmark does, in order. *)
Inductive act := StartCpu | StopCpu | LoadConfig | Connect | Lookup | CloseConnections | Experiment | WriteResults | WriteMem | CloseCpu | CloseMem.

(** The acts of a program and the exit status; a panic is status 2. *)
Definition program := (list act * Z)%type.

(** client/main.go:65-101 newLocalClient: the deferred StopProfiling runs when it returns, or panics, and not when log.Fatal ends the
    process; [create] is the outcome of creating client.prof. The second component is the exit status if the process ends here. *)
Definition new_local_client (prof : bool) (create load : res unit) : list act * option Z :=
  let finish (st : option Z) := ((if prof then [StartCpu] else []) ++ [LoadConfig] ++ (if prof then [StopCpu] else []), st) in
  match (if prof then create else Ok tt) with
  | Ok _ => match load with
            | Ok _ => finish None
            | Panic _ => finish (Some 2)
            | _ => ((if prof then [StartCpu] else []) ++ [LoadConfig], Some 1)
            end
  | Panic _ => ([], Some 2)
  | _ => ([], Some 1)
  end.

(** client/main.go:103-122 main: the deferred closeConnections runs only after a panic, as both log.Fatal and os.Exit end the process
    at once *)
Definition client_main (prof : bool) (create load connect lookup : res unit) : program :=
  match new_local_client prof create load with
  | (acts, Some st) => (acts, st)
  | (acts, None) =>
    match connect with
    | Ok _ => match lookup with
              | Ok _ => (acts ++ [Connect; Lookup], 0)
              | Panic _ => (acts ++ [Connect; Lookup; CloseConnections], 2)
              | _ => (acts ++ [Connect; Lookup], 1)
              end
    | Panic _ => (acts ++ [Connect], 2)
    | _ => (acts ++ [Connect], 1)
    end
  end.

(** SIGINT after the first [n] acts: once StartProfiling has been called its goroutine stops the profile, if there is one, and exits
    with status 0; before, or without profiling, the signal ends the process. *)
Definition interrupted (n : nat) (p : program) : program :=
  if (n <? length (fst p))%nat then
    let before := firstn n (fst p) in
    if existsb (fun a => match a with StartCpu => true | _ => false end) before then (before ++ [StopCpu], 0) else (before, 130)
  else p.

(** simul.go:64-202 main: [cpu] and [mem] say whether -cpuprofile and -memprofile are given, with the outcome of creating
    the file and starting; [load] is the configuration (80-94), [run] the experiments (96-179), [write] the results (181-188). The deferred
    functions stop the profile and close its file. pprof.StartCPUProfile fails only when a profile is being taken, which is not the
    case. *)
Definition simul_main (cpu mem : option (res unit)) (load run write : res unit) : program :=
  match (match cpu with Some c => c | None => Ok tt end) with
  | Ok _ =>
    let start := match cpu with Some _ => [StartCpu] | None => [] end in
    let deferred := match cpu with Some _ => [StopCpu; CloseCpu] | None => [] end in
    match load with
    | Ok _ =>
      match run with
      | Ok _ =>
        match write with
        | Ok _ =>
          match mem with
          | None => (start ++ [LoadConfig; Experiment; WriteResults] ++ deferred, 0)
          | Some (Ok _) => (start ++ [LoadConfig; Experiment; WriteResults; WriteMem; CloseMem] ++ deferred, 0)
          | Some (Panic _) => (start ++ [LoadConfig; Experiment; WriteResults] ++ deferred, 2)
          | Some _ => (start ++ [LoadConfig; Experiment; WriteResults], 1)
          end
        | Panic _ => (start ++ [LoadConfig; Experiment] ++ deferred, 2)
        | _ => (start ++ [LoadConfig; Experiment] ++ deferred, 2)
        end
      | Panic _ => (start ++ [LoadConfig; Experiment] ++ deferred, 2)
      | _ => (start ++ [LoadConfig; Experiment], 1)
      end
    | Panic _ => (start ++ [LoadConfig] ++ deferred, 2)
    | _ => (start ++ [LoadConfig], 1)
    end
  | Panic _ => ([], 2)
  | _ => ([], 1)
  end.
