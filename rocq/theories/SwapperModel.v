(** Model of staticPlugin.go and pluginManagerSwapper.go. *)
From Verif Require Export ManagerModel.

(** pluginManagerSwapper.go:220 Details: map[string]string of results; where an [option Details] occurs, [None] is the nil map *)
Notation Details := (gmap string string).

Section Model.
Context {E : GoEnv}.

(** ** staticPlugin.go *)

(** staticPlugin.go:39-42 StaticPlugin *)
Record StaticPlugin := mkStatic { sp_name : string; sp_funcs : PluginFuncs }.

(** staticPlugin.go:15-37 NewPluginFuncs: positional parameters, in this order *)
Definition NewPluginFuncs
  (fExport hotswapLiveFuncs hotswapLiveTypes fImport InvokeFunc fOnFree fOnInit fOnLoad fReloadable : option N)
  : PluginFuncs :=
  {| fOnLoad := fOnLoad; fOnInit := fOnInit; fOnFree := fOnFree; fExport := fExport; fImport := fImport;
     fInvokeFunc := InvokeFunc; fReloadable := fReloadable;
     fLiveFuncs := hotswapLiveFuncs; fLiveTypes := hotswapLiveTypes |}.

(** staticPlugin.go:102-109: symbols whose func value is nil *)
Definition missing_funcs (f : PluginFuncs) : list string :=
  map role_symbol (List.filter (fun r => bool_decide (get_func r f = None)) funcItems).

(** staticPlugin.go:95-126 PluginManager.loadStaticPlugin; [None] is a nil *StaticPlugin *)
Definition loadStaticPlugin (sp : option StaticPlugin) : SM unit :=
  let! pm := sget in
  let! i := sdo (ANewInst (pm_id pm) (match sp with Some sp => sp_name sp | None => "" end)) in
  match sp with
  | None => span PNil
  | Some sp =>
      let p := mkPlugin (sp_name sp) "" "" (pm_when pm) "ok" false None (sp_funcs sp) [] i None false [] in
      match missing_funcs (sp_funcs sp) with
      | [] => admitPlugin p
      | missing => serr (EMissingFuncs missing)
      end
  end.

(** staticPlugin.go:59-93: body of PluginManager.loadStaticPlugins without the deferred function *)
Definition loadStaticPlugins_body (statics : gmap string (option StaticPlugin)) (data : N) : SM unit :=
  let! pm := sget in
  if negb (size (pm_map pm) =? 0)%nat then serr ETwice
  else
    let! now := sdo ANow in
    let! _ := smod (upd_when now) in
    let! _ := sfor (sort_strings (map_keys statics)) (fun name pm =>
      bind (loadStaticPlugin (default None (statics !! name)) pm) (fun so =>
        match snd so with
        | Err e => Ret (fst so, Err (ELoad name e))
        | _ => Ret so
        end)) in
    let! _ := initDeps in
    let! _ := invokeEveryOnLoad data in
    let! _ := setupVault in
    invokeEveryOnInit.

(** staticPlugin.go:44-93 PluginManager.loadStaticPlugins *)
Definition loadStaticPlugins (statics : gmap string (option StaticPlugin)) (data : N) : SM unit :=
  with_cleanup (loadStaticPlugins_body statics data).

(** ** pluginManagerSwapper.go: configuration *)

(** pluginManagerSwapper.go:41-49: the option part of PluginManagerSwapper (fields are set by options before
    the swapper is used and then never written; pluginDir is shared memory, see [AGetDir]). *)
Record opts := mkOpts {
  o_newExt : bool;                 (** an extension constructor is configured *)
  o_reloadCallback : option N;
  o_freeDelay : Z;                 (** nanoseconds *)
  o_whitelist : list string;
  o_static : option (gmap string (option StaticPlugin)) (** None: nil map *)
}.

Definition second : Z := 1000000000.
(** pluginManagerSwapper.go:21 *)
Definition minFreeDelay : Z := 15 * second.

(** pluginManagerSwapper.go:240-282 the options *)
Inductive Option :=
  | WithLogger
  | WithFreeDelay (d : Z)
  | WithReloadCallback (cb : option N)
  | WithExtensionNewer (present : bool)
  | WithStaticPlugins (plugins : option (gmap string (option StaticPlugin)))
  | WithWhitelist (names : list string).

Definition apply_option (o : opts) (x : Option) : opts :=
  match x with
  | WithLogger => o
  | WithFreeDelay d => mkOpts (o_newExt o) (o_reloadCallback o) d (o_whitelist o) (o_static o)
  | WithReloadCallback cb => mkOpts (o_newExt o) cb (o_freeDelay o) (o_whitelist o) (o_static o)
  | WithExtensionNewer b => mkOpts b (o_reloadCallback o) (o_freeDelay o) (o_whitelist o) (o_static o)
  | WithStaticPlugins s => mkOpts (o_newExt o) (o_reloadCallback o) (o_freeDelay o) (o_whitelist o) s
  | WithWhitelist l => mkOpts (o_newExt o) (o_reloadCallback o) (o_freeDelay o) l (o_static o)
  end.

(** pluginManagerSwapper.go:55-63 NewPluginManagerSwapper *)
Definition NewPluginManagerSwapper (options : list Option) : opts :=
  fold_left apply_option options (mkOpts false None (5 * 60 * second) [] None).

(** pluginManagerSwapper.go:216-218 *)
Definition StaticLinkingMode (o : opts) : bool :=
  match o_static o with None => false | Some _ => true end.

(** ** pluginManagerSwapper.go: loading *)

(** pluginManagerSwapper.go:69-73 Current *)
Definition Current : prog (option mgr) := do ALoadCurrent.

(** pluginManagerSwapper.go:65-67 ResetPluginDir *)
Definition ResetPluginDir (d : string) : prog unit := do (ASetDir d).

(** internal/hutils/hutils.go:24-34 FindDirectory *)
Definition FindDirectory (dir alt : string) : prog (outcome unit) :=
  if blank dir then Ret (Err (EDirEmpty alt))
  else
    let* r := do (AStat dir) in
    match r with
    | Err e => Ret (Err e)
    | Pan x => Ret (Pan x)
    | Val isDir => if isDir then Ret (Val tt) else Ret (Err (ENotDir dir))
    end.

(** pluginManagerSwapper.go:169-188 invokeReloadCallbacks; a nil callback is skipped *)
Fixpoint invokeReloadCallbacks (cbs : list (option N)) (new : mgr) (old : option mgr) : prog (outcome unit) :=
  match cbs with
  | [] => Ret (Val tt)
  | None :: cbs' => invokeReloadCallbacks cbs' new old
  | Some cb :: cbs' =>
      let* o := do (ACallback cb new old) in
      let err := match o with
                 | Val e => e
                 | Err e => Some e
                 | Pan x => Some (EPanic None x)
                 end in
      match err with
      | None => invokeReloadCallbacks cbs' new old
      | Some e =>
          let* c := invokeEveryOnFree new in
          match c with Pan x => Ret (Pan x) | _ => Ret (Err e) end
      end
  end.

(** pluginManagerSwapper.go:145-153: the entry of one file in the result *)
Definition detail_of (p : plugin) : string :=
  if negb (String.eqb (pl_note p) "") then pl_note p else "ok".
Fixpoint buildDetails (new : mgr) (files : list string) (acc : Details) : outcome Details :=
  match files with
  | [] => Val acc
  | f :: files' =>
      match FindPlugin new (pluginName f) with
      | None => Pan PNil
      | Some p => buildDetails new files' (<[pl_file p := detail_of p]> acc)
      end
  end.

(** pluginManagerSwapper.go:156-159: the delay of the release goroutine *)
Definition free_delay (o : opts) : Z :=
  if (minFreeDelay <? o_freeDelay o)%Z then o_freeDelay o else minFreeDelay.

(** pluginManagerSwapper.go:131-167 loadPluginFiles; [Val None] is (nil, nil) *)
Definition loadPluginFiles (o : opts) (files : list string) (data : N) (cbs : list (option N))
  : prog (outcome (option Details)) :=
  match files with
  | [] => Ret (Val None)
  | _ =>
      let* old := Current in
      let* n := newPluginManager (o_newExt o) in
      match n with
      | Err e => Ret (Err e)
      | Pan x => Ret (Pan x)
      | Val new0 =>
          let* r := loadPlugins files old data new0 in
          let new := fst r in
          match snd r with
          | Err e => Ret (Err e)
          | Pan x => Ret (Pan x)
          | Val _ =>
              let* c := invokeReloadCallbacks cbs new old in
              match c with
              | Err e => Ret (Err e)
              | Pan x => Ret (Pan x)
              | Val _ =>
                  match buildDetails new files ∅ with
                  | Err e => Ret (Err e)
                  | Pan x => Ret (Pan x)
                  | Val details =>
                      let* _ := match old with
                                | Some om => do (ASpawnFree om (free_delay o))
                                | None => Ret tt
                                end in
                      let* _ := do (AStoreCurrent new) in
                      Ret (Val (Some details))
                  end
              end
          end
      end
  end.

(** pluginManagerSwapper.go:155-162: the goroutine started by [ASpawnFree om delay] *)
Definition freeThread (om : mgr) (delay : Z) : prog (outcome unit) :=
  let* _ := do (ASleep (pm_id om) delay) in
  invokeEveryOnFree om.

(** pluginManagerSwapper.go:28-35 Contains *)
Definition Contains (pw : list string) (name : string) : bool := existsb (String.eqb name) pw.

(** pluginManagerSwapper.go:99-115: the files to load and the set of whitelisted names found *)
Fixpoint selectFiles (whitelist : list string) (absDir : string) (entries : list (string * bool))
  : list string * gset string :=
  match entries with
  | [] => ([], ∅)
  | (name, isDir) :: entries' =>
      let '(files, found) := selectFiles whitelist absDir entries' in
      if isDir then (files, found)
      else if has_suffix FileNameExt name then
        match whitelist with
        | [] => (path_join absDir name :: files, found)
        | _ => if Contains whitelist (pluginName name)
               then (path_join absDir name :: files, {[pluginName name]} ∪ found)
               else (files, found)
        end
      else (files, found)
  end.

(** pluginManagerSwapper.go:116-126: the whitelist check *)
Definition missing_plugins (whitelist : list string) (found : gset string) : list string :=
  List.filter (fun v => negb (bool_decide (v ∈ found))) whitelist.
Definition whitelist_ok (whitelist : list string) (found : gset string) : bool :=
  match whitelist with
  | [] => true
  | _ => (size found =? length whitelist)%nat
  end.

(** pluginManagerSwapper.go:87-129 loadPluginsImpl.  The plugin directory is read from shared memory twice. *)
Definition loadPluginsImpl (o : opts) (data : N) (cbs : list (option N)) : prog (outcome (option Details)) :=
  let* dir1 := do AGetDir in
  let* r1 := FindDirectory dir1 "pluginDir" in
  match r1 with
  | Err e => Ret (Err e)
  | Pan x => Ret (Pan x)
  | Val _ =>
      let* dir2 := do AGetDir in
      let* r2 := do (AAbs dir2) in
      match r2 with
      | Err e => Ret (Err e)
      | Pan x => Ret (Pan x)
      | Val absDir =>
          let* r3 := do (AReadDir absDir) in
          match r3 with
          | Err e => Ret (Err e)
          | Pan x => Ret (Pan x)
          | Val entries =>
              let '(files, found) := selectFiles (o_whitelist o) absDir entries in
              if negb (whitelist_ok (o_whitelist o) found)
              then Ret (Err (EMissingPlugins (missing_plugins (o_whitelist o) found)))
              else loadPluginFiles o files data cbs
          end
      end
  end.

(** staticPlugin.go:131-140: the whitelist in static mode *)
Fixpoint selectStatic (statics : gmap string (option StaticPlugin)) (whitelist : list string)
  (acc : gmap string (option StaticPlugin)) : outcome (gmap string (option StaticPlugin)) :=
  match whitelist with
  | [] => Val acc
  | name :: whitelist' =>
      match statics !! name with
      | Some p => selectStatic statics whitelist' (<[name := p]> acc)
      | None => Err (ENoStatic name)
      end
  end.

(** staticPlugin.go:128-156 PluginManagerSwapper.loadStaticPlugins *)
Definition swLoadStaticPlugins (o : opts) (statics : gmap string (option StaticPlugin)) (data : N)
  (cbs : list (option N)) : prog (outcome (option Details)) :=
  let* n := newPluginManager (o_newExt o) in
  match n with
  | Err e => Ret (Err e)
  | Pan x => Ret (Pan x)
  | Val new0 =>
      match (match o_whitelist o with [] => Val statics | wl => selectStatic statics wl ∅ end) with
      | Err e => Ret (Err e)
      | Pan x => Ret (Pan x)
      | Val sel =>
          let* r := loadStaticPlugins sel data new0 in
          let new := fst r in
          match snd r with
          | Err e => Ret (Err e)
          | Pan x => Ret (Pan x)
          | Val _ =>
              let* c := invokeReloadCallbacks cbs new None in
              match c with
              | Err e => Ret (Err e)
              | Pan x => Ret (Pan x)
              | Val _ =>
                  let* _ := do (AStoreCurrent new) in
                  Ret (Val (Some ((fun _ => "ok") <$> sel)))
              end
          end
      end
  end.

(** sw.mu.Lock(); defer sw.mu.Unlock(): also unlocks on panic *)
Definition locked {A} (p : prog A) : prog A :=
  let* _ := do ALock in
  let* r := p in
  let* _ := do AUnlock in
  Ret r.

(** pluginManagerSwapper.go:75-85 LoadPlugins *)
Definition LoadPlugins (o : opts) (data : N) : prog (outcome (option Details)) :=
  locked (
    let cbs := [o_reloadCallback o] in
    match o_static o with
    | Some statics => swLoadStaticPlugins o statics data cbs
    | None => loadPluginsImpl o data cbs
    end).

(** pluginManagerSwapper.go:194-210 ReloadWithCallback *)
Definition ReloadWithCallback (o : opts) (data : N) (extra : option N) : prog (outcome (option Details)) :=
  match o_static o with
  | Some _ => Ret (Err EStaticMode)
  | None =>
      locked (
        let cbs := match extra with
                   | None => [o_reloadCallback o]
                   | Some e => [o_reloadCallback o; Some e]
                   end in
        let* r := loadPluginsImpl o data cbs in
        match r with
        | Val d => let* _ := do AAddCounter in Ret (Val d)
        | r => Ret r
        end)
  end.

(** pluginManagerSwapper.go:190-192 Reload *)
Definition Reload (o : opts) (data : N) : prog (outcome (option Details)) := ReloadWithCallback o data None.

(** pluginManagerSwapper.go:212-214 ReloadCounter *)
Definition ReloadCounter : prog Z := do ALoadCounter.

(** pluginManagerSwapper.go:220-238 Details.String *)
Definition detail_entry (d : Details) (k : string) : string :=
  trim_suffix FileNameExt (path_base k) +:+ ": " +:+ default "" (d !! k).
Definition Details_String (d : Details) : prog string :=
  let* it := do (AIter (map_keys d)) in
  Ret (join_with ", " (map (detail_entry d) (sort_strings it))).

End Model.
