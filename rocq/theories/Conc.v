(** Many goroutines: an interleaving semantics for the programs of the model. *)
From Verif Require Export Spec ExecLemmas.

Section Model.
Context {E : GoEnv}.

(** ** What a goroutine does *)

(** A goroutine of the program that uses hotswap: one call of the swapper's or manager's API; or ([TFree]) the goroutine
    started by a successful reload to release the superseded manager (pluginManagerSwapper.go:155-162). *)
Inductive task :=
  | TLoad (a : api)                                    (** LoadPlugins, Reload, ReloadWithCallback *)
  | TFree (m : mgr) (delay : Z)
  | TCurrent                                           (** Current() *)
  | TCounter                                           (** ReloadCounter() *)
  | TResetDir (d : string)                             (** ResetPluginDir(d) *)
  | TInvoke (m : mgr) (backward : bool) (name : string) (params : N). (** m.InvokeEach / m.InvokeEachBackward *)

Inductive result :=
  | Returned (r : outcome unit)                        (** a function without results; a panic ends the process *)
  | ReturnedLoad (r : outcome (option Details))
  | ReturnedCurrent (m : option mgr)
  | ReturnedCounter (n : Z).

Definition task_prog (o : opts) (k : task) : prog result :=
  match k with
  | TLoad a => let* r := api_prog o a in Ret (ReturnedLoad r)
  | TFree m delay => let* r := freeThread m delay in Ret (Returned r)
  | TCurrent => let* m := Current in Ret (ReturnedCurrent m)
  | TCounter => let* n := ReloadCounter in Ret (ReturnedCounter n)
  | TResetDir d => let* _ := ResetPluginDir d in Ret (Returned (Val tt))
  | TInvoke m backward name params =>
      let* r := if backward then InvokeEachBackward m name params else InvokeEach m name params in Ret (Returned r)
  end.

(** The tasks the user can start. *)
Definition user_task (k : task) : Prop := match k with TFree _ _ => False | _ => True end.

(** A goroutine: its task, when it was started, what remains to be done, and whether it is inside a plugin function. *)
Record thread := mkThread { th_task : task; th_start : Z; th_prog : prog result; th_called : bool }.
Definition start (o : opts) (now : Z) (k : task) : thread := mkThread k now (task_prog o k) false.

(** ** Shared memory: the mutable fields of PluginManagerSwapper (pluginManagerSwapper.go:37-49) and of the Plugin
    objects (plugin.go:35-58), and which objects exist.  The fields mu, current and reloadCounter, Refs and freeOnce are
    accessed through sync and atomic; pluginDir is an unsynchronised field (its accesses are taken as atomic). *)
Record mem := mkMem {
  me_lock : option nat;         (** the goroutine that has locked mu *)
  me_dir : string;              (** pluginDir *)
  me_current : option mgr;
  me_counter : Z;               (** reloadCounter *)
  me_refs : gmap inst Z;        (** Refs of every plugin instance *)
  me_once : gset inst;          (** instances whose freeOnce has run *)
  me_mgrs : gset N }.           (** the managers that exist *)
Definition refs_of (s : mem) (i : inst) : Z := default 0%Z (me_refs s !! i).

(** Which answers of an action agree with the memory. *)
Definition answers (s : mem) {X} (a : act X) : X -> Prop :=
  match a in act X return X -> Prop with
  | ALock => fun _ => me_lock s = None
  | AGetDir => fun d => d = me_dir s
  | ALoadCurrent => fun m => m = me_current s
  | ALoadCounter => fun n => n = me_counter s
  | ANewInst _ _ => fun i => me_refs s !! i = None
  | ARefInc _ i => fun v => v = (refs_of s i + 1)%Z
  | ARefDec _ i => fun v => v = (refs_of s i - 1)%Z
  | AOnce i => fun first => first = bool_decide (i ∉ me_once s)
  | ANewMgr => fun x => fst x ∉ me_mgrs s
  | _ => fun _ => True
  end.

(** What an action of goroutine [j] does to the memory. *)
Definition update (j : nat) (s : mem) {X} (a : act X) : X -> mem :=
  match a in act X return X -> mem with
  | ALock => fun _ => mkMem (Some j) (me_dir s) (me_current s) (me_counter s) (me_refs s) (me_once s) (me_mgrs s)
  | AUnlock => fun _ => mkMem None (me_dir s) (me_current s) (me_counter s) (me_refs s) (me_once s) (me_mgrs s)
  | ASetDir d => fun _ => mkMem (me_lock s) d (me_current s) (me_counter s) (me_refs s) (me_once s) (me_mgrs s)
  | AStoreCurrent m => fun _ => mkMem (me_lock s) (me_dir s) (Some m) (me_counter s) (me_refs s) (me_once s) (me_mgrs s)
  | AAddCounter => fun _ => mkMem (me_lock s) (me_dir s) (me_current s) (me_counter s + 1) (me_refs s) (me_once s) (me_mgrs s)
  | ANewInst _ _ => fun i => mkMem (me_lock s) (me_dir s) (me_current s) (me_counter s) (<[i := 1%Z]> (me_refs s)) (me_once s) (me_mgrs s)
  | ARefInc _ i => fun v => mkMem (me_lock s) (me_dir s) (me_current s) (me_counter s) (<[i := v]> (me_refs s)) (me_once s) (me_mgrs s)
  | ARefDec _ i => fun v => mkMem (me_lock s) (me_dir s) (me_current s) (me_counter s) (<[i := v]> (me_refs s)) (me_once s) (me_mgrs s)
  | AOnce i => fun _ => mkMem (me_lock s) (me_dir s) (me_current s) (me_counter s) (me_refs s) ({[i]} ∪ me_once s) (me_mgrs s)
  | ANewMgr => fun x => mkMem (me_lock s) (me_dir s) (me_current s) (me_counter s) (me_refs s) (me_once s) ({[fst x]} ∪ me_mgrs s)
  | _ => fun _ => s
  end.

(** A sleep that began no earlier than [started] is over no earlier than [started + delay]. *)
Definition awake (now started : Z) {X} (a : act X) : Prop :=
  match a with ASleep _ delay => (started + delay <= now)%Z | _ => True end.
(** The goroutine an action starts. *)
Definition spawns (o : opts) (now : Z) {X} (a : act X) : list thread :=
  match a with ASpawnFree m delay => [start o now (TFree m delay)] | _ => [] end.
(** A plugin function called by an action: such a call takes time; all other actions are single steps. *)
Definition calls {X} (a : act X) : option (role * callee) :=
  match a with ACall r c _ => Some (r, c) | _ => None end.

(** ** The whole program *)

(** The history: who, when, with which task, did what.  A plugin call shows up twice: when it begins, and when it has
    returned (or panicked). *)
Inductive what := Began (r : role) (c : callee) | Did (e : event).
Record entry := mkEntry { en_time : Z; en_thread : nat; en_task : task; en_what : what }.

Record world := mkWorld { w_now : Z; w_mem : mem; w_threads : list thread; w_hist : list entry }.

Definition initially (dir : string) : world := mkWorld 0 (mkMem None dir None 0 ∅ ∅ ∅) [] [].

Inductive step (o : opts) : world -> world -> Prop :=
  | step_start w k : user_task k ->
      step o w (mkWorld (w_now w) (w_mem w) (w_threads w ++ [start o (w_now w) k]) (w_hist w))
  | step_time w now : (w_now w <= now)%Z -> step o w (mkWorld now (w_mem w) (w_threads w) (w_hist w))
  | step_begin w j th X (a : act X) k r c :
      w_threads w !! j = Some th -> th_prog th = Act a k -> calls a = Some (r, c) -> th_called th = false ->
      step o w (mkWorld (w_now w) (w_mem w) (<[j := mkThread (th_task th) (th_start th) (th_prog th) true]> (w_threads w))
                        (w_hist w ++ [mkEntry (w_now w) j (th_task th) (Began r c)]))
  | step_act w j th X (a : act X) k x :
      w_threads w !! j = Some th -> th_prog th = Act a k -> (calls a <> None -> th_called th = true) ->
      valid a x -> answers (w_mem w) a x -> awake (w_now w) (th_start th) a ->
      step o w (mkWorld (w_now w) (update j (w_mem w) a x)
                        (<[j := mkThread (th_task th) (th_start th) (k x) false]> (w_threads w) ++ spawns o (w_now w) a)
                        (w_hist w ++ map (fun e => mkEntry (w_now w) j (th_task th) (Did e)) (ev a x))).

(** The states a program using one swapper with options [o] and initial plugin directory [dir] can get into. *)
Inductive reach (o : opts) (dir : string) : world -> Prop :=
  | reach_init : reach o dir (initially dir)
  | reach_step w w' : reach o dir w -> step o w w' -> reach o dir w'.

(** ** Reading a history *)
Definition did (en : entry) : option event := match en_what en with Did e => Some e | _ => None end.
(** all events *)
Definition events (h : list entry) : list event := omap did h.
(** the events of goroutine [j] *)
Definition events_of (j : nat) (h : list entry) : list event :=
  omap (fun en => if decide (en_thread en = j) then did en else None) h.
(** the events of load calls *)
Definition is_load (k : task) : bool := match k with TLoad _ => true | _ => false end.
Definition load_events (h : list entry) : list event :=
  omap (fun en => if is_load (en_task en) then did en else None) h.
(** the calls of plugin functions begun: who was called *)
Definition begun (r : role) (h : list entry) : list inst :=
  omap (fun en => match en_what en with Began r' c => if decide (r' = r) then Some (c_inst c) else None | _ => None end) h.

End Model.
