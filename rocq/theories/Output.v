(** internal/output/output.go: WithProgress, WithProgressParallel, and their use in
    internal/index/scip.go and internal/implementations/implementations.go.

    WithProgressParallel runs together with a worker goroutine (started by the caller after
    wg.Add(1); it ends with wg.Done()), its own waiter goroutine and a ticker.  The model is
    the set of all interleavings of their atomic steps.  The Go memory model is kept by
    [view]s: how many actions of the worker happen before a synchronisation event. *)
From Coq Require Import Ascii String.
From stdpp Require Import prelude strings.
Open Scope list_scope.

(** An action of a worker: change the shared memory, or atomic.AddUint64(&count, 1).
    (scip.go 126-164, 201-249; implementations.go 62-123, 147-162) *)
Inductive action (M : Type) := Work (f : M → M) | Count.
Arguments Work {M}. Arguments Count {M}.
Definition run_action {M} (m : M) (a : action M) : M := match a with Work f => f m | Count => m end.
Definition counts {M} (l : list (action M)) : nat := length (List.filter (λ a, match a with Count => true | _ => false end) l).

(** log levels (log/slog): what matters is the comparison with Warn.
    output.go 31, 59: above Warn: quiet; below Warn: also print the elapsed time *)
Inductive level := Quiet | Default | Verbose.

(** what is printed on stdout: output.go 50, 57, 59, 61 *)
Inductive print := PProgress (done total : nat) | PElapsed | PNewline.

(** where WithProgressParallel is (output.go 30-67) *)
Inductive main_state :=
| MStart                     (* 31 *)
| MWait                      (* 32: wg.Wait() *)
| MSpawn                     (* 39: go func() *)
| MLoad                      (* 49: atomic.LoadUint64(c) *)
| MPrint (completed : nat)   (* 50 *)
| MSelect                    (* 55 *)
| MFinal (step : nat)        (* 57, 59, 61 *)
| MReturned.
Inductive waiter_state := NotStarted | WaitWg | CloseDone (view : nat) | WaiterEnded.
Inductive worker_state (M : Type) := Running (rest : list (action M)) | Ended.
Arguments Running {M}. Arguments Ended {M}.

Record state (M : Type) := State {
  st_mem : M;                    (* shared memory, written by the worker *)
  st_count : nat;                (* the atomic counter *)
  st_worker : worker_state M;
  st_acts : nat;                 (* actions the worker has done *)
  st_wg : option nat;            (* Some view: the counter of the wait group is 0, set by a Done with that view *)
  st_waiter : waiter_state;
  st_done : option nat;          (* Some view: the channel is closed *)
  st_tick : bool;                (* the ticker's channel (capacity 1) holds a tick *)
  st_main : main_state;
  st_view : nat;                 (* actions that happen before main's current step *)
  st_out : list print }.
Arguments State {M}.
Arguments st_mem {M}. Arguments st_count {M}. Arguments st_worker {M}. Arguments st_acts {M}.
Arguments st_wg {M}. Arguments st_waiter {M}. Arguments st_done {M}. Arguments st_tick {M}.
Arguments st_main {M}. Arguments st_view {M}. Arguments st_out {M}.

(** the state after [wg.Add(1); go worker] and the call *)
Definition initial {M} (m : M) (acts : list (action M)) : state M :=
  State m 0 (Running acts) 0 None NotStarted None false MStart 0 [].

Section Steps.
  Context {M : Type} (lv : level) (n : nat).

  (** one atomic step of one of the goroutines, or a tick *)
  Inductive step : state M → state M → Prop :=
  (* the worker *)
  | step_work m c a rest k wg w d t ms v o :
      step (State m c (Running (a :: rest)) k wg w d t ms v o)
           (State (run_action m a) (c + counts [a]) (Running rest) (S k) wg w d t ms v o)
  | step_worker_end m c k wg w d t ms v o :
      step (State m c (Running []) k wg w d t ms v o)
           (State m c Ended k (Some k) w d t ms v o)
  (* the waiter, output.go 40-41 *)
  | step_wait_wg m c wk k vw d t ms v o :
      step (State m c wk k (Some vw) WaitWg d t ms v o)
           (State m c wk k (Some vw) (CloseDone vw) d t ms v o)
  | step_close m c wk k wg vw d t ms v o :
      step (State m c wk k wg (CloseDone vw) d t ms v o)
           (State m c wk k wg WaiterEnded (Some vw) t ms v o)
  (* the ticker: drops the tick when the channel is full; 44-45: stopped on return *)
  | step_tick m c wk k wg w d t ms v o : ms ≠ MReturned → w ≠ NotStarted →
      step (State m c wk k wg w d t ms v o) (State m c wk k wg w d true ms v o)
  (* the function itself *)
  | step_quiet m c wk k wg w d t v o : lv = Quiet →
      step (State m c wk k wg w d t MStart v o) (State m c wk k wg w d t MWait v o)
  | step_quiet_wait m c wk k vw w d t v o :
      step (State m c wk k (Some vw) w d t MWait v o) (State m c wk k (Some vw) w d t MReturned (v `max` vw) o)
  | step_loud m c wk k wg w d t v o : lv ≠ Quiet →
      step (State m c wk k wg w d t MStart v o) (State m c wk k wg w d t MSpawn v o)
  | step_spawn m c wk k wg w d t v o :
      step (State m c wk k wg w d t MSpawn v o) (State m c wk k wg WaitWg d t MLoad v o)
  | step_load m c wk k wg w d t v o :
      step (State m c wk k wg w d t MLoad v o) (State m c wk k wg w d t (MPrint c) v o)
  | step_print m c wk k wg w d t p v o :
      step (State m c wk k wg w d t (MPrint p) v o) (State m c wk k wg w d t MSelect v (o ++ [PProgress p n]))
  | step_select_tick m c wk k wg w d v o :
      step (State m c wk k wg w d true MSelect v o) (State m c wk k wg w d false MLoad v o)
  | step_select_done m c wk k wg w vd t v o :
      step (State m c wk k wg w (Some vd) t MSelect v o) (State m c wk k wg w (Some vd) t (MFinal 0) (v `max` vd) o)
  | step_final0 m c wk k wg w d t v o :
      step (State m c wk k wg w d t (MFinal 0) v o) (State m c wk k wg w d t (MFinal 1) v (o ++ [PProgress n n]))
  | step_final1 m c wk k wg w d t v o :
      step (State m c wk k wg w d t (MFinal 1) v o)
           (State m c wk k wg w d t (MFinal 2) v (match lv with Verbose => o ++ [PElapsed] | _ => o end))
  | step_final2 m c wk k wg w d t v o :
      step (State m c wk k wg w d t (MFinal 2) v o) (State m c wk k wg w d t MReturned v (o ++ [PNewline])).
End Steps.

(** output.go 13-26: WithProgress around a function that itself prints [inner]; [elapsed]: the text of the time *)
Definition with_progress {A} (lv : level) (name elapsed : string) (fn : A) (inner : list string) : A * list string :=
  match lv with
  | Quiet => (fn, inner)
  | Default => (fn, [String.append name (String "010" "")] ++ inner)
  | Verbose => (fn, [String.append name (String "010" "")] ++ inner ++
      [String.append "Finished in " (String.append elapsed (String "." (String "010" (String "010" ""))))])
  end.
(** output.go 50, 57, 59, 61: the text of the prints *)
Definition print_text (name elapsed : string) (number : nat → string) (p : print) : string :=
  match p with
  | PProgress done total =>
      String "013" (String.append name (String.append " [" (String.append (number done) (String "/" (String.append (number total) "]")))))
  | PElapsed => String.append " Finished in " (String.append elapsed ".")
  | PNewline => String "010" ""
  end.
(** output.go 18, 23, 31, 58: comparisons with slog.LevelWarn = 4 *)
Definition level_of (l : Z) : level := if Z.ltb 4 l then Quiet else if Z.ltb l 4 then Verbose else Default.
