(** Model of plugin.go and pluginManager.go. *)
From Verif Require Export Prog.

Section Model.
Context {E : GoEnv}.

(** ** plugin.go *)

(** Calling one of the func values of a plugin on behalf of manager [mid]; calling a nil func panics.
    Not a function of the code base: the Go call expression. *)
Definition call (r : role) (mid : N) (p : plugin) (arg : callarg) : prog (outcome (role_resp r)) :=
  match get_func r (pl_funcs p) with
  | None => Ret (Pan PNil)
  | Some c => do (ACall r (mkCallee mid (pl_name p) (pl_inst p) c) arg)
  end.

(** defer func() { if r := recover(); r != nil { err = fmt.Errorf("<hotswap:%s> panic ...") } }() *)
Definition recovered {A} (who : string) (o : outcome A) : outcome A :=
  match o with Pan x => Err (EPanic (Some who) x) | o => o end.

(** The outcome of a statement whose result and error (logged) are not used; only a panic goes on. *)
Definition ignored {A} (o : outcome A) : outcome unit :=
  match o with Pan x => Pan x | _ => Val tt end.
(** defer func() { if r := recover(); r != nil { pm.Errorf("<hotswap:%s> panic ...") } }() in a function without results *)
Definition logged (o : outcome unit) : outcome unit :=
  match o with Pan x => Val tt | o => o end.

(** plugin.go:107-114 *)
Definition invokeExport (mid : N) (p : plugin) : prog (outcome iface) :=
  let* o := call RExport mid p ArgNone in Ret (recovered (pl_name p) o).
(** plugin.go:116-123 *)
Definition invokeImport (mid : N) (p : plugin) : prog (outcome iface) :=
  let* o := call RImport mid p ArgNone in Ret (recovered (pl_name p) o).
(** plugin.go:125-132 *)
Definition invokeReloadable (mid : N) (p : plugin) : prog (outcome bool) :=
  let* o := call RReloadable mid p ArgNone in Ret (recovered (pl_name p) o).

(** plugin.go:73-105 Plugin.Lookup.  [out] is the argument; the result [Val v] means "returned nil after
    storing [v] through out", [Err e] "returned e, nothing stored".  The symbol table is consulted by the
    action [ALookupSym]; with a nil *plugin.Plugin (statically linked plugin) the runtime dereferences nil. *)
Definition Plugin_Lookup (p : plugin) (symName : string) (out : iface) : prog (outcome gvalue) :=
  if String.eqb symName "" then Ret (Err ESymEmpty)
  else if is_nil out then Ret (Err EOutNil)
  else match out with
  | None => Ret (Err EOutNil)
  | Some o =>
      match gv_type o with
      | TPtr _ eleTyp =>
          match pl_P p with
          | None => Ret (Pan PNil)
          | Some h =>
              let* s := do (ALookupSym h symName) in
              match s with
              | None => Ret (Err ENotExist)
              | Some sym =>
                  if assignable (gv_type sym) eleTyp then Ret (Val sym)
                  else match gv_type sym with
                       | TPtr _ e =>
                           if assignable e eleTyp then
                             match gv_pointee sym with
                             | Some v => Ret (Val v)
                             | None => Ret (Pan PNil) (* Set(zero Value): only for a nil pointer symbol *)
                             end
                           else Ret (Err (ECannotAssign symName))
                       | _ => Ret (Err (ECannotAssign symName))
                       end
              end
          end
      | _ => Ret (Err EOutNotPtr)
      end
  end.

(** ** pluginManager.go: small functions *)

(** functional updates of a manager *)
Definition upd_map (f : gmap string plugin -> gmap string plugin) (m : mgr) : mgr :=
  mkMgr (pm_id m) (pm_born m) (f (pm_map m)) (pm_ordered m) (pm_when m)
        (pm_livefuncs m) (pm_livetypes m) (pm_databag m) (pm_ext m).
Definition upd_ordered (l : list string) (m : mgr) : mgr :=
  mkMgr (pm_id m) (pm_born m) (pm_map m) l (pm_when m)
        (pm_livefuncs m) (pm_livetypes m) (pm_databag m) (pm_ext m).
Definition upd_when (w : N) (m : mgr) : mgr :=
  mkMgr (pm_id m) (pm_born m) (pm_map m) (pm_ordered m) w
        (pm_livefuncs m) (pm_livetypes m) (pm_databag m) (pm_ext m).
Definition upd_livefuncs (f : gmap string N -> gmap string N) (m : mgr) : mgr :=
  mkMgr (pm_id m) (pm_born m) (pm_map m) (pm_ordered m) (pm_when m)
        (f (pm_livefuncs m)) (pm_livetypes m) (pm_databag m) (pm_ext m).
Definition upd_livetypes (f : gmap string N -> gmap string N) (m : mgr) : mgr :=
  mkMgr (pm_id m) (pm_born m) (pm_map m) (pm_ordered m) (pm_when m)
        (pm_livefuncs m) (f (pm_livetypes m)) (pm_databag m) (pm_ext m).
Definition upd_databag (f : gmap string N -> gmap string N) (m : mgr) : mgr :=
  mkMgr (pm_id m) (pm_born m) (pm_map m) (pm_ordered m) (pm_when m)
        (pm_livefuncs m) (pm_livetypes m) (f (pm_databag m)) (pm_ext m).

(** pluginManager.go:38-59 newPluginManager.  [newExt] tells whether an extension constructor is configured. *)
Definition newPluginManager (newExt : bool) : prog (outcome mgr) :=
  let* md := do ANewMgr in let '(mid, born) := md in
  let* ext := if newExt then do ANewExt else Ret (Val None) in
  match ext with
  | Val e => Ret (Val (mkMgr mid born ∅ [] 0 ∅ ∅ ∅ e))
  | Err e => Ret (Err e)
  | Pan x => Ret (Pan x)
  end.

Definition set_unchanged (note : string) (p : plugin) : plugin :=
  mkPlugin (pl_name p) (pl_file p) (pl_sha1 p) (pl_when p) note true (pl_P p) (pl_funcs p) (pl_deps p)
           (pl_inst p) (pl_exported p) (pl_reloadable p) (pl_imports p).

(** pluginManager.go:61-67 addUnchanged *)
Definition addUnchanged (oldP : option plugin) (note : string) : SM unit :=
  match oldP with
  | None => span PNil
  | Some oldP =>
      let newP := set_unchanged note oldP in
      let! pm := sget in
      let! _ := sdo (ARefInc (pm_id pm) (pl_inst newP)) in
      smod (upd_map <[name2key (pl_name oldP) := newP]>)
  end.

Definition map_keys {A} (m : gmap string A) : list string := map fst (map_to_list m).

(** pluginManager.go:69-85 outputStats1: logs only, but panics on an unknown note. *)
Definition known_note (p : plugin) : bool :=
  String.eqb (pl_note p) "not reloadable" || String.eqb (pl_note p) "unchanged".
Definition outputStats1 : SM unit :=
  let! pm := sget in
  if forallb (fun kp => known_note (snd kp)) (map_to_list (pm_map pm)) then sret tt else span PNote.

(** pluginManager.go:624-635 fileInfoMap.add *)
Definition info_add (m : gmap string fileInfo) (file data : string) : gmap string fileInfo :=
  let name := pluginName file in
  <[name2key name := mkInfo name file data (sha1 data)]> m.

(** pluginManager.go:637-649 buildFileInfoMap *)
Fixpoint buildFileInfoMap (files : list string) (m : gmap string fileInfo)
  : prog (outcome (gmap string fileInfo)) :=
  match files with
  | [] => Ret (Val m)
  | file :: files' =>
      let* r := do (AReadFile file) in
      match r with
      | Val data => buildFileInfoMap files' (info_add m file data)
      | Err e => Ret (Err e)
      | Pan x => Ret (Pan x)
      end
  end.

(** pluginManager.go:568-583 removeNotReloadable: the test deciding whether an entry is taken out.
    The loop deletes only the entry it is at, so the iteration order is irrelevant. *)
Definition isNotReloadable (old : option mgr) (k : string) : bool :=
  match old with
  | None => false
  | Some om => match pm_map om !! k with
               | Some oldP => negb (pl_reloadable oldP)
               | None => false
               end
  end.
(** pluginManager.go:589-605 removeUnchanged, likewise. *)
Definition isUnchanged (old : option mgr) (k : string) (info : fileInfo) : bool :=
  match old with
  | None => false
  | Some om => match pm_map om !! k with
               | Some oldP => String.eqb (fi_sha1 info) (pl_sha1 oldP)
               | None => false
               end
  end.
Definition notReloadable_of (old : option mgr) (m : gmap string fileInfo) : gmap string fileInfo :=
  filter (fun ki => isNotReloadable old (fst ki) = true) m.
Definition without_notReloadable (old : option mgr) (m : gmap string fileInfo) : gmap string fileInfo :=
  filter (fun ki => isNotReloadable old (fst ki) = false) m.
Definition unchanged_of (old : option mgr) (m : gmap string fileInfo) : gmap string fileInfo :=
  filter (fun ki => isUnchanged old (fst ki) (snd ki) = true) m.
Definition without_unchanged (old : option mgr) (m : gmap string fileInfo) : gmap string fileInfo :=
  filter (fun ki => isUnchanged old (fst ki) (snd ki) = false) m.

(** pluginManager.go:607-614 names *)
Definition info_names (m : gmap string fileInfo) : list string :=
  sort_strings (map (fun ki => fi_name (snd ki)) (map_to_list m)).

(** fmt verb %x on an unsigned number: lower-case hexadecimal digits, no leading zeros. *)
Definition hex_digit (n : N) : ascii :=
  if (n <? 10)%N then ascii_of_N (48 + n) else ascii_of_N (87 + n).
Fixpoint hex_digits (fuel : nat) (n : N) (acc : string) : string :=
  match fuel with
  | O => acc
  | S fuel' =>
      let acc' := String (hex_digit (n mod 16)) acc in
      if (n <? 16)%N then acc' else hex_digits fuel' (n / 16) acc'
  end.
Fixpoint spaces (n : nat) : string := match n with O => "" | S n' => String " " (spaces n') end.
(** fmt.Sprintf("%#8x", n): "0x" and the digits, padded with blanks on the left to width 8.
    A uint32 has at most 8 hexadecimal digits. *)
Definition fmt_sharp8x (n : N) : string :=
  let s := "0x" +:+ hex_digits 8 n "" in
  spaces (8 - String.length s) +:+ s.

(** pluginManager.go:163 and 169: the directory and file name of the private copy *)
Definition copy_dir (dirName : string) (info : fileInfo) : string :=
  path_join (path_join (path_dir (fi_file info)) "tmp") dirName.
Definition copy_dst (dirName : string) (info : fileInfo) : string :=
  path_join (copy_dir dirName info)
            (fi_name info +:+ "-" +:+ fmt_sharp8x (xxhash32 (fi_sha1 info)) +:+ FileNameExt).

(** pluginManager.go:162-171 copyPlugin.  (The Go function returns dst together with WriteFile's error.) *)
Definition copyPlugin (info : fileInfo) : SM string :=
  let! pm := sget in
  let! e := sdo (AMkdirAll (copy_dir (pm_dirName pm) info)) in
  match e with
  | Some e => serr e
  | None =>
      let dst := copy_dst (pm_dirName pm) info in
      let! e := sdo (AWriteFile dst (fi_data info)) in
      match e with Some e => serr e | None => sret dst end
  end.

(** pluginManager.go:178-190 makePluginFuncItemList: symbol order *)
Definition funcItems : list role :=
  [ROnLoad; ROnInit; ROnFree; RExport; RImport; RInvokeFunc; RReloadable; RLiveFuncs; RLiveTypes].

Definition set_funcs (f : PluginFuncs) (p : plugin) : plugin :=
  mkPlugin (pl_name p) (pl_file p) (pl_sha1 p) (pl_when p) (pl_note p) (pl_unchanged p) (pl_P p) f
           (pl_deps p) (pl_inst p) (pl_exported p) (pl_reloadable p) (pl_imports p).
Definition set_reloadable (b : bool) (p : plugin) : plugin :=
  mkPlugin (pl_name p) (pl_file p) (pl_sha1 p) (pl_when p) (pl_note p) (pl_unchanged p) (pl_P p) (pl_funcs p)
           (pl_deps p) (pl_inst p) (pl_exported p) b (pl_imports p).
Definition set_exported (v : iface) (p : plugin) : plugin :=
  mkPlugin (pl_name p) (pl_file p) (pl_sha1 p) (pl_when p) (pl_note p) (pl_unchanged p) (pl_P p) (pl_funcs p)
           (pl_deps p) (pl_inst p) v (pl_reloadable p) (pl_imports p).
Definition add_dep (d : string) (p : plugin) : plugin :=
  mkPlugin (pl_name p) (pl_file p) (pl_sha1 p) (pl_when p) (pl_note p) (pl_unchanged p) (pl_P p) (pl_funcs p)
           (pl_deps p ++ [d]) (pl_inst p) (pl_exported p) (pl_reloadable p) (pl_imports p).
Definition add_import (f : string) (v : gvalue) (p : plugin) : plugin :=
  mkPlugin (pl_name p) (pl_file p) (pl_sha1 p) (pl_when p) (pl_note p) (pl_unchanged p) (pl_P p) (pl_funcs p)
           (pl_deps p) (pl_inst p) (pl_exported p) (pl_reloadable p) (pl_imports p ++ [(f, v)]).

(** The func value stored through &p.fXxx by Lookup. *)
Definition code_of (v : gvalue) : option N := if gv_nil v then None else Some (gv_payload v).
(** The [out] argument &p.fXxx: a non-nil pointer to the func type of the field. *)
Definition out_ptr (r : role) : iface := Some (GV (TPtr 0 (role_type r)) false 0 None).

(** pluginManager.go:209-219: the Lookup loop of loadPlugin; result: the plugin and the missing symbols. *)
Fixpoint lookupAll (items : list role) (p : plugin) (missing : list string)
  : prog (outcome (plugin * list string)) :=
  match items with
  | [] => Ret (Val (p, missing))
  | r :: items' =>
      let* o := Plugin_Lookup p (role_symbol r) (out_ptr r) in
      match o with
      | Val v => lookupAll items' (set_funcs (set_func r (code_of v) (pl_funcs p)) p) missing
      | Err ENotExist => lookupAll items' p (missing ++ [role_symbol r])
      | Err e => Ret (Err e)
      | Pan x => Ret (Pan x)
      end
  end.

(** pluginManager.go:224-234 and staticPlugin.go:114-125: Reloadable, Export, insertion into the map *)
Definition admitPlugin (p : plugin) : SM unit :=
  let! pm := sget in
  let! b := slift (invokeReloadable (pm_id pm) p) in
  let p := set_reloadable b p in
  let! v := slift (invokeExport (pm_id pm) p) in
  let p := set_exported v p in
  smod (upd_map <[name2key (pl_name p) := p]>).

(** pluginManager.go:192-235 loadPlugin; [None] is a nil *fileInfo. *)
Definition loadPlugin (info : option fileInfo) : SM unit :=
  match info with
  | None => span PNil
  | Some info =>
      let! actual := copyPlugin info in
      let! pm := sget in
      let! i := sdo (ANewInst (pm_id pm) (fi_name info)) in
      let! h := slift (do (AOpen actual)) in
      let p := mkPlugin (fi_name info) (fi_file info) (fi_sha1 info) (pm_when pm) "" false (Some h)
                        no_funcs [] i None false [] in
      let! pmiss := slift (lookupAll funcItems p []) in
      let '(p, missing) := pmiss in
      match missing with
      | [] => admitPlugin p
      | _ => serr (EMissingFuncs missing)
      end
  end.

(** ** initDeps *)

(** pluginManager.go:261-290: one field of the Import() object of the plugin with key [k].
    The plugin is re-read from the map because the loop updates it through its pointer. *)
Definition initField (k : string) (f : sfield) : SM unit :=
  let! pm := sget in
  match pm_map pm !! k with
  | None => span PNil
  | Some p =>
      match sf_name f with
      | EmptyString => span PIndex
      | String ch _ =>
          if negb (is_upper_byte ch) then sret tt
          else if String.eqb (sf_tag f) "-" then sret tt
          else if sf_anon f then serr (EAnonField (sf_name f) (pl_name p))
          else
            match pm_map pm !! name2key (sf_name f) with
            | None => serr (EUnknownDep (sf_name f) (pl_name p))
            | Some dep =>
                if negb (pl_reloadable p) && pl_reloadable dep
                then serr (ENotReloadableDep (pl_name p) (pl_name dep))
                else
                  match pl_exported dep with
                  | Some g =>
                      if is_nil (Some g) then
                        smod (upd_map <[k := add_dep (pl_name dep) p]>)
                      else if negb (assignable (gv_type g) (sf_type f))
                      then serr (ENotAssignable (pl_name dep) (pl_name p) (sf_name f))
                      else if negb (sf_exported f) then span PSet
                      else
                        smod (upd_map <[k := add_dep (pl_name dep) (add_import (sf_name f) g p)]>)
                  | None =>
                      smod (upd_map <[k := add_dep (pl_name dep) p]>)
                  end
            end
      end
  end.

(** pluginManager.go:244-291: one plugin of the first loop of initDeps *)
Definition initPlugin (k : string) : SM unit :=
  let! pm := sget in
  match pm_map pm !! k with
  | None => span PNil
  | Some p =>
      if pl_unchanged p then sret tt
      else
        let! imp := slift (invokeImport (pm_id pm) p) in
        match imp with
        | None => sret tt
        | Some g =>
            if is_nil (Some g) then sret tt
            else match gv_type g with
                 | TPtr _ (TStruct _ fields) => sfor fields (initField k)
                 | _ => serr (EImportShape (pl_name p))
                 end
        end
  end.

(** pluginManager.go:332-338: the loop over p.Deps of checkCyclicDependency *)
Fixpoint cyc_deps (rec : string -> outcome (list string)) (me : string) (deps : list string)
  : outcome (list string) :=
  match deps with
  | [] => Val []
  | d :: deps' =>
      match rec (name2key d) with
      | Val [] => cyc_deps rec me deps'
      | Val ret => Val (me :: ret)
      | o => o
      end
  end.

(** pluginManager.go:321-341 checkCyclicDependency.  The argument is the key whose pointer
    pm.pluginMap[key] is passed (a missing key is a nil *Plugin); [visited] holds the keys on the current
    path (inserted on entry, removed on exit).  The result is the list of keys of the returned plugins,
    empty when no cycle is found.  The recursion of the Go code has no bound; [fuel] is one. *)
Fixpoint checkCyclic (m : gmap string plugin) (fuel : nat) (visited : gset string) (k : string)
  : outcome (list string) :=
  match fuel with
  | O => Pan PFuel
  | S fuel' =>
      if decide (k ∈ visited) then Val [k]
      else match m !! k with
           | None => Pan PNil
           | Some p => cyc_deps (checkCyclic m fuel' ({[k]} ∪ visited)) k (pl_deps p)
           end
  end.

Definition name_of (m : gmap string plugin) (k : string) : string :=
  match m !! k with Some p => pl_name p | None => "" end.

(** pluginManager.go:293-305: one plugin of the second loop *)
Definition checkOne (k : string) : SM unit :=
  let! pm := sget in
  match pm_map pm !! k with
  | None => span PNil
  | Some p =>
      match pl_deps p with
      | [] => sret tt
      | _ =>
          let! cyclicDeps := spure (checkCyclic (pm_map pm) (S (size (pm_map pm))) ∅ k) in
          match cyclicDeps with
          | [] => sret tt
          | _ => serr (ECyclic (map (name_of (pm_map pm)) cyclicDeps))
          end
      end
  end.

(** pluginManager.go:307-315: one plugin of the third loop *)
Definition checkRebuilt (k : string) : SM unit :=
  let! pm := sget in
  match pm_map pm !! k with
  | None => span PNil
  | Some p =>
      if pl_unchanged p then
        sfor (pl_deps p) (fun depName =>
          match pm_map pm !! name2key depName with
          | None => span PNil
          | Some dep => if pl_unchanged dep then sret tt
                        else serr (ERebuilt (pl_name dep) (pl_name p))
          end)
      else sret tt
  end.

(** pluginManager.go:368-380: are all dependencies already placed?  (the counter equals len(p.Deps)) *)
Definition deps_placed (m : gmap string plugin) (placed : list string) (p : plugin) : bool :=
  forallb (fun d => bool_decide (name2key d ∈ placed)) (pl_deps p).

(** pluginManager.go:363-381: one round over the sorted keys; [a] is the slice built so far, and
    membership in [a] is what the Go map m records. *)
Fixpoint orderRound (m : gmap string plugin) (keys a : list string) : list string :=
  match keys with
  | [] => a
  | k :: keys' =>
      if decide (k ∈ a) then orderRound m keys' a
      else match m !! k with
           | None => orderRound m keys' a
           | Some p => if deps_placed m a p then orderRound m keys' (a ++ [k])
                       else orderRound m keys' a
           end
  end.

(** pluginManager.go:358-382: at most [rounds] rounds; [None] when they do not suffice *)
Fixpoint orderRounds (m : gmap string plugin) (n : nat) (keys a : list string) (rounds : nat)
  : option (list string) :=
  match rounds with
  | O => None
  | S r => if (length a =? n)%nat then Some a else orderRounds m n keys (orderRound m keys a) r
  end.

Definition has_deps (m : gmap string plugin) (k : string) : bool :=
  match m !! k with Some p => negb (bool_decide (pl_deps p = [])) | None => false end.

(** pluginManager.go:343-385 orderPlugins *)
Definition orderPlugins : SM unit :=
  let! pm := sget in
  let m := pm_map pm in
  let! it := sdo (AIter (map_keys m)) in
  let a := List.filter (fun k => negb (has_deps m k)) it in
  let keys := sort_strings (List.filter (has_deps m) it) in
  match orderRounds m (size m) keys a (S (size m)) with
  | Some ordered => smod (upd_ordered ordered)
  | None => span POrder
  end.

(** pluginManager.go:237-319 initDeps *)
Definition initDeps : SM unit :=
  let! pm := sget in
  let! _ := sfor (sort_strings (map_keys (pm_map pm))) initPlugin in
  let! it2 := sdo (AIter (map_keys (pm_map pm))) in
  let! _ := sfor it2 checkOne in
  let! it3 := sdo (AIter (map_keys (pm_map pm))) in
  let! _ := sfor it3 checkRebuilt in
  orderPlugins.

(** ** OnLoad, vault, OnInit *)

(** pluginManager.go:387-408 invokeEveryOnLoad: one plugin *)
Definition onLoadOne (data : N) (k : string) : SM unit :=
  let! pm := sget in
  match pm_map pm !! k with
  | None => span PNil
  | Some p =>
      if pl_unchanged p then sret tt
      else
        let! e := slift (let* o := call ROnLoad (pm_id pm) p (ArgData data) in
                         Ret (recovered (pl_name p) o)) in
        match e with None => sret tt | Some e => serr e end
  end.
Definition invokeEveryOnLoad (data : N) : SM unit :=
  let! pm := sget in sfor (pm_ordered pm) (onLoadOne data).

(** pluginManager.go:410-431 invokeEveryOnInit: one plugin.  The DataBag assignments reported by the call
    are applied to this manager's vault.  (Assignments made before a panic are dropped by the model: the
    manager is discarded then.) *)
Definition store_all (l : list (string * N)) (m : gmap string N) : gmap string N :=
  fold_left (fun m kv => <[fst kv := snd kv]> m) l m.
Definition onInitOne (k : string) : SM unit :=
  let! pm := sget in
  match pm_map pm !! k with
  | None => span PNil
  | Some p =>
      if pl_unchanged p then sret tt
      else
        let! we := slift (let* o := call ROnInit (pm_id pm) p (ArgVault (pm_id pm)) in
                                    Ret (recovered (pl_name p) o)) in
        let '(writes, e) := we : role_resp ROnInit in
        let! _ := smod (upd_databag (store_all writes)) in
        match e with None => sret tt | Some e => serr e end
  end.
Definition invokeEveryOnInit : SM unit :=
  let! pm := sget in sfor (pm_ordered pm) onInitOne.

(** pluginManager.go:445-452 / 469-476: search the earlier plugins for the owner of a duplicate name *)
Fixpoint findAnother (r : role) (mid : N) (call_tbl : plugin -> prog (outcome (option (list (string * N)))))
  (earlier : list plugin) (name : string) : prog (outcome string) :=
  match earlier with
  | [] => Ret (Val "")
  | q :: earlier' =>
      let* o := call_tbl q in
      match o with
      | Val tbl =>
          match tbl with
          | Some l => if bool_decide (name ∈ map fst l) then Ret (Val (pl_name q))
                      else findAnother r mid call_tbl earlier' name
          | None => findAnother r mid call_tbl earlier' name
          end
      | Err e => Ret (Err e)
      | Pan x => Ret (Pan x)
      end
  end.

Fixpoint plugins_of (m : gmap string plugin) (keys : list string) : list plugin :=
  match keys with
  | [] => []
  | k :: keys' => match m !! k with Some p => p :: plugins_of m keys' | None => plugins_of m keys' end
  end.

(** pluginManager.go:439-455: the loop over one plugin's live functions *)
Fixpoint addLiveFuncs (earlier : list plugin) (p : plugin) (l : list (string * N)) : SM unit :=
  match l with
  | [] => sret tt
  | (name, v) :: l' =>
      let! pm := sget in
      match pm_livefuncs pm !! name with
      | None => let! _ := smod (upd_livefuncs <[name := v]>) in addLiveFuncs earlier p l'
      | Some _ =>
          let! another := slift (findAnother RLiveFuncs (pm_id pm)
                                   (fun q => call RLiveFuncs (pm_id pm) q ArgNone) earlier name) in
          serr (EDupLiveFunc name another (pl_name p))
      end
  end.
(** pluginManager.go:463-479: the loop over one plugin's live types *)
Fixpoint addLiveTypes (earlier : list plugin) (p : plugin) (l : list (string * N)) : SM unit :=
  match l with
  | [] => sret tt
  | (name, v) :: l' =>
      let! pm := sget in
      match pm_livetypes pm !! name with
      | None => let! _ := smod (upd_livetypes <[name := v]>) in addLiveTypes earlier p l'
      | Some _ =>
          let! another := slift (findAnother RLiveTypes (pm_id pm)
                                   (fun q => call RLiveTypes (pm_id pm) q ArgNone) earlier name) in
          serr (EDupLiveType name another (pl_name p))
      end
  end.

(** pluginManager.go:434-456: first loop of setupVault; [earlier] are the plugins pm.ordered[0..i-1] *)
Fixpoint vaultFuncs (earlier rest : list plugin) : SM unit :=
  match rest with
  | [] => sret tt
  | p :: rest' =>
      let! pm := sget in
      let! tbl := slift (call RLiveFuncs (pm_id pm) p ArgNone) in
      match tbl with
      | None => serr (ENilLiveFuncs (pl_name p))
      | Some l => let! _ := addLiveFuncs earlier p l in vaultFuncs (earlier ++ [p]) rest'
      end
  end.
(** pluginManager.go:458-480: second loop *)
Fixpoint vaultTypes (earlier rest : list plugin) : SM unit :=
  match rest with
  | [] => sret tt
  | p :: rest' =>
      let! pm := sget in
      let! tbl := slift (call RLiveTypes (pm_id pm) p ArgNone) in
      match tbl with
      | None => serr (ENilLiveTypes (pl_name p))
      | Some l => let! _ := addLiveTypes earlier p l in vaultTypes (earlier ++ [p]) rest'
      end
  end.

(** pluginManager.go:433-483 setupVault *)
Definition setupVault : SM unit :=
  let! pm := sget in
  let ps := plugins_of (pm_map pm) (pm_ordered pm) in
  let! _ := vaultFuncs [] ps in
  vaultTypes [] ps.

(** ** OnFree *)

(** pluginManager.go:486-499: invokeImpl of invokeEveryOnFree; a panic of OnFree is recovered and logged *)
Definition freeOne (mid : N) (p : plugin) : prog (outcome unit) :=
  let* v := do (ARefDec mid (pl_inst p)) in
  if (0 <? v)%Z then Ret (Val tt)
  else
    let* first := do (AOnce (pl_inst p)) in
    if first then
      let* o := call ROnFree mid p ArgNone in Ret (logged (ignored o))
    else Ret (Val tt).

Definition freeKey (pm : mgr) (k : string) : prog (outcome unit) :=
  match pm_map pm !! k with
  | None => Ret (Pan PNil)
  | Some p => freeOne (pm_id pm) p
  end.

(** pluginManager.go:485-511 invokeEveryOnFree *)
Definition invokeEveryOnFree (pm : mgr) : prog (outcome unit) :=
  match pm_ordered pm with
  | _ :: _ => ofor (rev (pm_ordered pm)) (freeKey pm)
  | [] => let* it := do (AIter (map_keys (pm_map pm))) in ofor it (freeKey pm)
  end.

(** ** loadPlugins *)

(** pluginManager.go:106-114: duplicate names; the first duplicate in iteration order is reported *)
Definition file_key (f : string) : string := name2key (pluginName f).
Definition dup_keys (files : list string) : list string :=
  List.filter (fun k => (1 <? length (List.filter (fun f => String.eqb (file_key f) k) files))%nat)
              (remove_dups (map file_key files)).

(** pluginManager.go:135-141 and 89-96: what becomes of the outcome of loadPlugin for the file [info] (nil if there is no entry of
    that name).  An error is wrapped; a panic ends the function, and the deferred function makes an error of it that names the
    plugin curFileInfo points to, if it is not nil.  (The error is made here rather than in [with_cleanup]: nothing runs in
    between.) *)
Definition open_outcome (info : option fileInfo) (name : string) (o : outcome unit) : outcome unit :=
  match o with
  | Err e => Err (ELoad name e)
  | Pan x => match info with Some i => Err (EPanic (Some (fi_name i)) x) | None => Pan x end
  | Val u => Val u
  end.

(** pluginManager.go:102-159: the body of loadPlugins, without the deferred function *)
Definition loadPlugins_body (files : list string) (old : option mgr) (data : N) : SM unit :=
  let! pm := sget in
  if negb (size (pm_map pm) =? 0)%nat then serr ETwice
  else
    let! dups := sdo (AIter (dup_keys files)) in
    match dups with
    | k :: _ => serr (EDup k files)
    | [] =>
        let! infos := slift (buildFileInfoMap files ∅) in
        let oldPlugin k := match old with None => None | Some om => pm_map om !! k end in
        let! it1 := sdo (AIter (map_keys (notReloadable_of old infos))) in
        let! _ := sfor it1 (fun k => addUnchanged (oldPlugin k) "not reloadable") in
        let infos := without_notReloadable old infos in
        let! it2 := sdo (AIter (map_keys (unchanged_of old infos))) in
        let! _ := sfor it2 (fun k => addUnchanged (oldPlugin k) "unchanged") in
        let infos := without_unchanged old infos in
        let! pm := sget in
        if negb (size infos + size (pm_map pm) =? length files)%nat then serr ECount
        else
          let! _ := outputStats1 in
          let! now := sdo ANow in
          let! _ := smod (upd_when now) in
          let! _ := sfor (info_names infos) (fun name pm =>
            bind (loadPlugin (infos !! name) pm) (fun so => Ret (fst so, open_outcome (infos !! name) name (snd so)))) in
          let! _ := initDeps in
          let! _ := invokeEveryOnLoad data in
          let! _ := setupVault in
          invokeEveryOnInit
    end.

(** pluginManager.go:89-100: the deferred function shared by loadPlugins and loadStaticPlugins *)
Definition with_cleanup (body : SM unit) : SM unit := fun pm =>
  bind (body pm) (fun so =>
    match snd so with
    | Val _ => Ret (fst so, Val tt)
    | Err e =>
        let* c := invokeEveryOnFree (fst so) in
        match c with Pan x => Ret (fst so, Pan x) | _ => Ret (fst so, Err e) end
    | Pan x =>
        let* c := invokeEveryOnFree (fst so) in
        match c with Pan x' => Ret (fst so, Pan x') | _ => Ret (fst so, Err (EPanic None x)) end
    end).

(** pluginManager.go:87-160 loadPlugins.  A panic recovered outside the loop that opens the plugins carries no plugin name. *)
Definition loadPlugins (files : list string) (old : option mgr) (data : N) : SM unit :=
  with_cleanup (loadPlugins_body files old data).

(** ** Manager API *)

(** pluginManager.go:513-515 *)
Definition FindPlugin (pm : mgr) (name : string) : option plugin := pm_map pm !! name2key name.
(** pluginManager.go:517-519 *)
Definition Plugins (pm : mgr) : list plugin := plugins_of (pm_map pm) (pm_ordered pm).

(** pluginManager.go:522-531: invokeImpl of InvokeEach: error logged, panic recovered *)
Definition invokeOne (mid : N) (name : string) (params : N) (p : plugin) : prog (outcome unit) :=
  let* o := call RInvokeFunc mid p (ArgInvoke name params) in Ret (logged (ignored o)).
(** pluginManager.go:521-537 *)
Definition InvokeEach (pm : mgr) (name : string) (params : N) : prog (outcome unit) :=
  ofor (Plugins pm) (invokeOne (pm_id pm) name params).
(** pluginManager.go:539-555 *)
Definition InvokeEachBackward (pm : mgr) (name : string) (params : N) : prog (outcome unit) :=
  ofor (rev (Plugins pm)) (invokeOne (pm_id pm) name params).

End Model.
