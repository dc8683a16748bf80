(** Vocabulary of the property theorems: small definitions over events, plugins and managers. *)
From Verif Require Export SwapperModel.
From stdpp Require Export relations.

(** ** Names *)

(** Plugin names are compared up to (ASCII) case. *)
Definition same_name (a b : string) : Prop := to_lower a = to_lower b.

(** ** Managers *)

(** The plugins a manager holds, in the order of Plugins(). *)
Definition holds (m : mgr) (p : plugin) : Prop := p ∈ Plugins m.

(** [depends m p q]: [p] of manager [m] lists (in Deps) the plugin [q] of the same manager. *)
Definition depends (m : mgr) (p q : plugin) : Prop :=
  holds m p /\ holds m q /\ exists d, d ∈ pl_deps p /\ same_name d (pl_name q).

(** ** Events *)

(** A call of a plugin function: role, manager on whose behalf, plugin name, plugin instance, func value, argument. *)
Definition callsig : Type := role * N * string * inst * option N * callarg.
Definition cs_role (c : callsig) : role := let '(r, _, _, _, _, _) := c in r.
Definition cs_name (c : callsig) : string := let '(_, _, n, _, _, _) := c in n.
Definition cs_inst (c : callsig) : inst := let '(_, _, _, i, _, _) := c in i.

(** The call [p.role(arg)] made by manager [mid]. *)
Definition called (r : role) (mid : N) (arg : callarg) (p : plugin) : callsig :=
  (r, mid, pl_name p, pl_inst p, get_func r (pl_funcs p), arg).

(** The plugin calls of a trace, in order. *)
Definition call_sig (e : event) : option callsig :=
  match e with
  | EvCall r c arg _ => Some (r, c_mid c, c_name c, c_inst c, Some (c_code c), arg)
  | _ => None
  end.
Definition call_sigs (t : list event) : list callsig := omap call_sig t.

(** The event "[p.role(arg)] called by manager [mid] answered [x]". *)
Definition answered (r : role) (mid : N) (arg : callarg) (p : plugin) (x : outcome (role_resp r)) (t : list event) : Prop :=
  exists code, get_func r (pl_funcs p) = Some code /\
    EvCall r (mkCallee mid (pl_name p) (pl_inst p) code) arg x ∈ t.

(** References to plugin instances: taken over from an older manager, newly created, given back. *)
Definition inc_inst (e : event) : option inst := match e with EvRefInc _ i _ => Some i | _ => None end.
Definition dec_inst (e : event) : option inst := match e with EvRefDec _ i _ => Some i | _ => None end.
Definition new_inst (e : event) : option inst := match e with EvNewInst _ _ i => Some i | _ => None end.
Definition increments (t : list event) : list inst := omap inc_inst t.
Definition decrements (t : list event) : list inst := omap dec_inst t.
Definition created (t : list event) : list inst := omap new_inst t.

(** A plugin instance is admitted when its Export has returned. *)
Definition admit_inst (e : event) : option inst :=
  match e with EvCall RExport c _ (Val _) => Some (c_inst c) | _ => None end.
Definition admitted (t : list event) : list inst := omap admit_inst t.

(** Phases of a load. *)
Definition phase (r : role) : nat :=
  match r with
  | RReloadable | RExport => 0 | RImport => 1 | ROnLoad => 2 | RLiveFuncs => 3 | RLiveTypes => 4
  | ROnInit => 5 | ROnFree => 6 | RInvokeFunc => 7
  end.

(** The manager published by a trace. *)
Definition published (t : list event) (m : mgr) : Prop := EvStore m ∈ t.
(** The manager the trace saw as current. *)
Definition saw_current (t : list event) (m : option mgr) : Prop := EvLoadCurrent m ∈ t.

(** The plugins of [m] created during [t], in Plugins() order. *)
Definition new_in (t : list event) (m : mgr) : list plugin :=
  List.filter (fun p => bool_decide (pl_inst p ∈ created t)) (Plugins m).

(** The calls of a complete load by manager [mid]: [opened] are the newly opened plugins in the order they were
    opened, [byname] the same plugins sorted by name, [new] the same plugins in Plugins() order, [all] all plugins. *)
Definition lifecycle_calls (mid data : N) (opened byname new all : list plugin) : list callsig :=
  flat_map (fun p => [called RReloadable mid ArgNone p; called RExport mid ArgNone p]) opened ++
  map (called RImport mid ArgNone) byname ++
  map (called ROnLoad mid (ArgData data)) new ++
  map (called RLiveFuncs mid ArgNone) all ++
  map (called RLiveTypes mid ArgNone) all ++
  map (called ROnInit mid (ArgVault mid)) new.

(** A call of role [r] on instance [i] that returned normally, without error. *)
Definition no_error (r : role) : role_resp r -> Prop :=
  match r return role_resp r -> Prop with
  | ROnLoad => fun e => e = None
  | ROnInit => fun we => snd we = None
  | RLiveFuncs | RLiveTypes => fun tbl => tbl <> None
  | _ => fun _ => True
  end.
Definition returned (r : role) (i : inst) (t : list event) : Prop :=
  exists c arg x, EvCall r c arg (Val x) ∈ t /\ c_inst c = i /\ no_error r x.

(** Code outside hotswap panicked: a plugin function, a package initialiser, a callback, the extension constructor. *)
Definition panicked (e : event) : Prop :=
  match e with
  | EvCall _ _ _ (Pan _) | EvOpen _ (Pan _) | EvCallback _ _ _ (Pan _) | EvNewExt (Pan _) => True
  | _ => False
  end.
(** Code outside hotswap reported an error: the OS, the plugin runtime, OnLoad, OnInit, a callback; or a plugin has
    a nil live table or lacks a symbol. *)
Definition reported (e : event) : Prop :=
  match e with
  | EvStat _ (Err _) | EvAbs _ (Err _) | EvReadDir _ (Err _) | EvReadFile _ (Err _) | EvOpen _ (Err _) => True
  | EvMkdir _ (Some _) | EvWriteFile _ _ (Some _) | EvCallback _ _ _ (Val (Some _)) => True
  | EvCall ROnLoad _ _ (Val (Some _)) => True
  | EvCall ROnInit _ _ (Val (_, Some _)) => True
  | EvCall RLiveFuncs _ _ (Val None) | EvCall RLiveTypes _ _ (Val None) => True
  | EvLookupSym _ _ None => True
  | _ => False
  end.
(** Either of them. *)
Inductive troubled (e : event) : Prop := trouble_panic : panicked e -> troubled e | trouble_error : reported e -> troubled e.

(** The calls of reload callbacks: which callback, its two arguments, the answer. *)
Definition cbcall : Type := N * mgr * option mgr * outcome (option gerror).
Definition callbacks (t : list event) : list cbcall :=
  omap (fun e => match e with EvCallback cb new old x => Some (cb, new, old, x) | _ => None end) t.
(** The error a reload callback causes, if any. *)
Definition refusal (x : outcome (option gerror)) : option gerror :=
  match x with Val None => None | Val (Some e) => Some e | Err e => Some e | Pan p => Some (EPanic None p) end.
(** The releases scheduled: which manager, after which delay. *)
Definition releases (t : list event) : list (mgr * Z) :=
  omap (fun e => match e with EvSpawnFree m d => Some (m, d) | _ => None end) t.

(** How many times the reload counter was incremented. *)
Definition counted (t : list event) : nat :=
  length (omap (fun e => match e with EvAddCounter => Some tt | _ => None end) t).

(** ** Import() objects *)

(** The fields of an Import() object that name dependencies: exported (first byte upper case) and not
    tagged hotswap:"-". *)
Definition dep_field (f : sfield) : bool :=
  match sf_name f with
  | EmptyString => false
  | String c _ => is_upper_byte c && negb (String.eqb (sf_tag f) "-")
  end.
(** The dependency fields of the value returned by Import(); [None] if it is not a pointer to a struct. *)
Definition dep_fields (imp : iface) : option (list sfield) :=
  if is_nil imp then Some []
  else match imp with
       | Some (GV (TPtr _ (TStruct _ fields)) _ _ _) => Some (List.filter dep_field fields)
       | _ => None
       end.
(** What field [f] of plugin [p] receives from the plugin [q] it names. *)
Definition field_value (f : sfield) (q : plugin) : option (string * gvalue) :=
  match pl_exported q with
  | Some g => if is_nil (Some g) then None else Some (sf_name f, g)
  | None => None
  end.

(** What Import() of plugin [p] returned ([imp]) is served by manager [m]: every dependency field is a plain field that
    names a plugin of [m]; Deps are those plugins in field order; each field whose plugin exports a non-nil value got
    that value (which is assignable to it), and nothing else was assigned. *)
Definition wired_to `{GoEnv} (m : mgr) (p : plugin) (imp : iface) : Prop :=
  exists fields qs, dep_fields imp = Some fields /\
    Forall2 (fun f q => FindPlugin m (sf_name f) = Some q /\ sf_anon f = false /\
                        forall x, field_value f q = Some x -> assignable (gv_type (snd x)) (sf_type f) = true) fields qs /\
    pl_deps p = map pl_name qs /\
    pl_imports p = omap (fun x => x) (zip_with field_value fields qs).

(** [p] is the plugin [q] again: everything but the note of the last load is the same. *)
Definition same_plugin (p q : plugin) : Prop :=
  pl_name p = pl_name q /\ pl_file p = pl_file q /\ pl_sha1 p = pl_sha1 q /\ pl_when p = pl_when q /\ pl_P p = pl_P q /\
  pl_funcs p = pl_funcs q /\ pl_deps p = pl_deps q /\ pl_inst p = pl_inst q /\ pl_exported p = pl_exported q /\
  pl_reloadable p = pl_reloadable q /\ pl_imports p = pl_imports q.

(** The value a sequence of assignments leaves in [key]. *)
Definition last_write (key : string) (writes : list (string * N)) : option N :=
  last (omap (fun kv => if String.eqb (fst kv) key then Some (snd kv) else None) writes).

(** ** Plugin files *)

(** A directory entry (name, is it a directory) that the swapper with the given whitelist loads. *)
Definition loadable (whitelist : list string) (e : string * bool) : bool :=
  negb (snd e) && has_suffix ".so" (fst e) &&
  (bool_decide (whitelist = []) || bool_decide (trim_suffix ".so" (fst e) ∈ whitelist)).
(** The plugin name of a file name. *)
Definition plugin_of (file : string) : string := trim_suffix ".so" file.
(** The plugin files of a listing. *)
Definition plugin_files (whitelist : list string) (entries : list (string * bool)) : list string :=
  map fst (List.filter (loadable whitelist) entries).

(** The call listed directory [dir] and found [entries]. *)
Definition listed (t : list event) (dir : string) (entries : list (string * bool)) : Prop := EvReadDir dir (Val entries) ∈ t.
(** The listing has a file for the plugin [n]. *)
Definition has_file (entries : list (string * bool)) (n : string) : Prop := (n +:+ ".so", false) ∈ entries.
(** No plugin file was read, copied or opened, no plugin was created, kept or given back, no plugin function ran. *)
Definition touches_plugins (e : event) : bool :=
  match e with
  | EvReadFile _ _ | EvMkdir _ _ | EvWriteFile _ _ _ | EvNewInst _ _ _ | EvOpen _ _ | EvLookupSym _ _ _
  | EvCall _ _ _ _ | EvRefInc _ _ _ | EvRefDec _ _ _ => true
  | _ => false
  end.
Definition untouched (t : list event) : Prop := forall e, e ∈ t -> touches_plugins e = false.
(** The files read, in order. *)
Definition files_read (t : list event) : list string :=
  omap (fun e => match e with EvReadFile f _ => Some f | _ => None end) t.
(** The order in which the required symbols are looked up. *)
Definition required_symbols : list string :=
  ["OnLoad"; "OnInit"; "OnFree"; "Export"; "Import"; "InvokeFunc"; "Reloadable"; "HotswapLiveFuncs"; "HotswapLiveTypes"].

(** ** Histories of one swapper *)

Section History.
Context {E : GoEnv}.

(** The API calls that load plugins. *)
Inductive load_call (o : opts) : prog (outcome (option Details)) -> Prop :=
  | call_LoadPlugins data : load_call o (LoadPlugins o data)
  | call_Reload data extra : load_call o (ReloadWithCallback o data extra).

(** What Current() returns after the events [t], if it returned [cur] before. *)
Definition after (cur : option mgr) (t : list event) : option mgr :=
  fold_left (fun c e => match e with EvStore m => Some m | _ => c end) t cur.

(** [history o h cur]: the swapper with options [o] has executed load calls one after the other with the
    events [h] and any results, and now Current() is [cur]. *)
Inductive history (o : opts) : list event -> option mgr -> Prop :=
  | history_start : history o [] None
  | history_call h cur p t r :
      history o h cur -> load_call o p -> exec p t r -> (forall x, saw_current t x -> x = cur) ->
      history o (h ++ t) (after cur t).

(** Every newPlugin() makes a new object. *)
Definition fresh_objects (h : list event) : Prop := NoDup (created h).

(** The same calls as data: which call, its arguments. *)
Inductive api := Call_LoadPlugins (data : N) | Call_Reload (data : N) (extra : option N).
Definition api_prog (o : opts) (a : api) : prog (outcome (option Details)) :=
  match a with
  | Call_LoadPlugins data => LoadPlugins o data
  | Call_Reload data extra => ReloadWithCallback o data extra
  end.
(** the argument passed on to OnLoad *)
Definition api_data (a : api) : N := match a with Call_LoadPlugins data | Call_Reload data _ => data end.
(** the reload callbacks to run, in order *)
Definition api_callbacks (o : opts) (a : api) : list N :=
  option_list (o_reloadCallback o) ++ match a with Call_Reload _ (Some extra) => [extra] | _ => [] end.

(** Statically registered names are different even up to case (always true in dynamic mode). *)
Definition distinct_registrations (o : opts) : Prop :=
  forall statics, o_static o = Some statics ->
  forall n1 n2 sp1 sp2, statics !! n1 = Some (Some sp1) -> statics !! n2 = Some (Some sp2) ->
    same_name (sp_name sp1) (sp_name sp2) -> n1 = n2.

(** One more load call [p] with events [t] and result [r], made after the history [h] when Current() is [cur]. *)
Definition next_call (o : opts) (h : list event) (cur : option mgr) (p : prog (outcome (option Details)))
  (t : list event) (r : outcome (option Details)) : Prop :=
  history o h cur /\ load_call o p /\ exec p t r /\ (forall x, saw_current t x -> x = cur) /\ fresh_objects (h ++ t).

End History.
