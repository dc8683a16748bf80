(** The end of `hotswap build`: the temporary directory and signals (cli/hotswap/cmd/build.go:266-291, 356-360). *)
From Verif Require Export ToolDecls.

Inductive sig := SIGINT | SIGTERM | SIGQUIT.
(** The goroutine running execute. *)
Inductive mainpc :=
| Working                   (** build.go:293-313: building, generating, cleaning *)
| Leaving (panicked : bool) (** returned or panicked, at the deferred send (build.go:286-289) *)
| Waiting (panicked : bool) (** at <-done (build.go:290) *)
| Exited (code : nat).      (** 0, or 1 if execute panicked (build.go:145-154) *)
(** The goroutine of build.go:270-284. *)
Inductive cleaner :=
| CSelect            (** build.go:272-273, waiting on chSignal *)
| CGot (x : sig)     (** received x, before signal.Reset (build.go:274) *)
| CReset (x : sig)   (** before the test for SIGINT (build.go:275-281) *)
| CRemove            (** before bc.removeTmpDir() (build.go:282) *)
| CClose             (** before close(done) (build.go:271) *)
| CEnd.
(** What happens to the temporary directory, and the signals the process gets, in order. *)
Inductive happening :=
| HMake            (** the build makes the directory, or a directory in it (os.MkdirAll, build.go:740 and 910) *)
| HWrite           (** the build writes a file in it (build.go:831, 914, 960, 991) *)
| HRemove (ok : bool) (** os.RemoveAll; [ok]: it removed everything (its error is ignored, build.go:358) *)
| HSignal (s : sig).  (** SIGINT or SIGTERM is delivered to the process *)
Record proc := mkProc {
  pr_main : mainpc;
  pr_cleaner : cleaner;
  pr_chan : option sig;    (** chSignal, a channel with room for one (build.go:266) *)
  pr_notify : bool;        (** signals go to chSignal (build.go:268) and not yet reset (build.go:274) *)
  pr_interrupted : bool;   (** interruptProgram is closed *)
  pr_tmp : bool;           (** the temporary directory exists *)
  pr_dead : bool;          (** the process was killed *)
  pr_log : list happening
}.
(** build.go:266-284 done; [tmp]: the temporary directory exists (it is the plugin directory in static mode; a left-over one
    was removed before, build.go:249-253). *)
Definition startProc (tmp : bool) : proc := mkProc Working CSelect None true false tmp false [].
Definition offer (x : sig) (c : option sig) : option sig := match c with None => Some x | c => c end. (** a send with default *)
Definition setMain (m : mainpc) (p : proc) : proc := mkProc m (pr_cleaner p) (pr_chan p) (pr_notify p) (pr_interrupted p) (pr_tmp p) (pr_dead p) (pr_log p).
Definition setCleaner (c : cleaner) (p : proc) : proc := mkProc (pr_main p) c (pr_chan p) (pr_notify p) (pr_interrupted p) (pr_tmp p) (pr_dead p) (pr_log p).
Definition setTmp (b : bool) (h : happening) (p : proc) : proc :=
  mkProc (pr_main p) (pr_cleaner p) (pr_chan p) (pr_notify p) (pr_interrupted p) b (pr_dead p) (pr_log p ++ [h]).

(** What the build does (build.go:293-313) is left open: any sequence of makings and writings, ended by return or panic.  A write
    needs the directory to be there.  [leave]: bc.leaveTemps. *)
Inductive mainStep : proc -> proc -> Prop :=
| m_make (p : proc) : pr_main p = Working -> mainStep p (setTmp true HMake p)
| m_write (p : proc) : pr_main p = Working -> pr_tmp p = true -> mainStep p (setTmp true HWrite p)
| m_finish (p : proc) (b : bool) : pr_main p = Working -> mainStep p (setMain (Leaving b) p).
Inductive exitStep : proc -> proc -> Prop :=
| x_send (p : proc) b : pr_main p = Leaving b ->
    exitStep p (mkProc (Waiting b) (pr_cleaner p) (offer SIGQUIT (pr_chan p)) (pr_notify p) (pr_interrupted p) (pr_tmp p) (pr_dead p) (pr_log p))
| x_done (p : proc) b : pr_main p = Waiting b -> pr_cleaner p = CEnd -> exitStep p (setMain (Exited (if b then 1 else 0)) p).
Inductive cleanStep (leave : bool) : proc -> proc -> Prop :=
| c_receive (p : proc) x : pr_cleaner p = CSelect -> pr_chan p = Some x ->
    cleanStep leave p (mkProc (pr_main p) (CGot x) None (pr_notify p) (pr_interrupted p) (pr_tmp p) (pr_dead p) (pr_log p))
| c_reset (p : proc) x : pr_cleaner p = CGot x ->
    cleanStep leave p (mkProc (pr_main p) (CReset x) (pr_chan p) false (pr_interrupted p) (pr_tmp p) (pr_dead p) (pr_log p))
| c_interrupt (p : proc) x : pr_cleaner p = CReset x ->
    cleanStep leave p (mkProc (pr_main p) CRemove (pr_chan p) (pr_notify p)
      (match x with SIGINT => true | _ => pr_interrupted p end) (pr_tmp p) (pr_dead p) (pr_log p))
| c_leave (p : proc) : pr_cleaner p = CRemove -> leave = true -> cleanStep leave p (setCleaner CClose p)
| c_remove (p : proc) (ok : bool) : pr_cleaner p = CRemove -> leave = false ->
    cleanStep leave p (setCleaner CClose (setTmp (if ok then false else pr_tmp p) (HRemove ok) p))
| c_close (p : proc) : pr_cleaner p = CClose -> cleanStep leave p (setCleaner CEnd p).
(** The operating system: a signal (to chSignal, or with the default effect after signal.Reset), or the death of the process for another
    reason (SIGKILL, a panic in a worker goroutine). *)
Inductive osStep : proc -> proc -> Prop :=
| o_signal (p : proc) s : s <> SIGQUIT -> pr_notify p = true ->
    osStep p (mkProc (pr_main p) (pr_cleaner p) (offer s (pr_chan p)) (pr_notify p) (pr_interrupted p) (pr_tmp p) (pr_dead p) (pr_log p ++ [HSignal s]))
| o_kill (p : proc) s : s <> SIGQUIT -> pr_notify p = false ->
    osStep p (mkProc (pr_main p) (pr_cleaner p) (pr_chan p) (pr_notify p) (pr_interrupted p) (pr_tmp p) true (pr_log p ++ [HSignal s])).
Inductive crashStep : proc -> proc -> Prop :=
| k_crash (p : proc) : crashStep p (mkProc (pr_main p) (pr_cleaner p) (pr_chan p) (pr_notify p) (pr_interrupted p) (pr_tmp p) true (pr_log p)).
Definition running (p : proc) : Prop := pr_dead p = false /\ forall c, pr_main p <> Exited c.
Inductive procStep (leave : bool) (p p' : proc) : Prop :=
| by_main : running p -> mainStep p p' -> procStep leave p p'
| by_exit : running p -> exitStep p p' -> procStep leave p p'
| by_cleaner : running p -> cleanStep leave p p' -> procStep leave p p'
| by_os : running p -> osStep p p' -> procStep leave p p'
| by_crash : running p -> crashStep p p' -> procStep leave p p'.
