MUTANTS = []
def M(id, file, definition, old, new, edit, claim):
    MUTANTS.append(dict(id=id, file=file, definition=definition, old=old, new=new, edit=edit, claim=claim))
MM='ManagerModel.v'; SM='SwapperModel.v'; CC='Conc.v'
# --- pluginManager.go
M('m01',MM,'initField','                if negb (pl_reloadable p) && pl_reloadable dep\n','                if negb (pl_reloadable p) && negb (pl_reloadable dep)\n','non-reloadable check negated on the dependency','C12')
M('m02',MM,'initField','else if negb (assignable (gv_type g) (sf_type f))','else if negb (assignable (sf_type f) (gv_type g))','arguments of AssignableTo swapped','C10')
M('m03',MM,'initField','''                      if is_nil (Some g) then
                        smod (upd_map <[k := add_dep (pl_name dep) p]>)''','''                      if is_nil (Some g) then sret tt''','a dependency whose export is a nil value is not recorded in Deps','C01/C10')
M('m04',MM,'initField','''smod (upd_map <[k := add_dep (pl_name dep) (add_import (sf_name f) g p)]>)''','''smod (upd_map <[k := add_import (sf_name f) g p]>)''','Deps not extended after the field is set','C01')
M('m05',MM,'initField','''smod (upd_map <[k := add_dep (pl_name dep) (add_import (sf_name f) g p)]>)''','''smod (upd_map <[k := add_dep (pl_name p) (add_import (sf_name f) g p)]>)''','the plugin\'s own name is appended to Deps','C01/C04')
M('m06',MM,'initField','''          else if String.eqb (sf_tag f) "-" then sret tt
''','''''','the hotswap:"-" tag is ignored','C10')
M('m07',MM,'initField','''match pm_map pm !! name2key (sf_name f) with
            | None => serr (EUnknownDep (sf_name f) (pl_name p))''','''match pm_map pm !! name2key (sf_name f) with
            | None => sret tt''','a field naming an absent plugin is silently skipped','C10')
M('m08',MM,'initPlugin','''      if pl_unchanged p then sret tt
      else
        let! imp''','''      if negb (pl_unchanged p) then sret tt
      else
        let! imp''','imports are wired for kept plugins instead of new ones','C03/C09/C10')
M('m09',MM,'initPlugin','''      if pl_unchanged p then sret tt
      else
        let! imp''','''        let! imp''','Import() is also called on kept plugins','C02/C03')
M('m10',MM,'checkRebuilt','''if pl_unchanged dep then sret tt''','''if negb (pl_unchanged dep) then sret tt''','rebuilt check negated','C09/C11')
M('m11',MM,'checkRebuilt','''      if pl_unchanged p then
        sfor (pl_deps p)''','''      if negb (pl_unchanged p) then
        sfor (pl_deps p)''','rebuilt check applied to new plugins','C09/C11')
M('m12',MM,'checkRebuilt','''          | None => span PNil
          | Some dep => if pl_unchanged dep''','''          | None => sret tt
          | Some dep => if pl_unchanged dep''','a kept plugin whose dependency is gone is accepted','C11')
M('m13',MM,'initDeps','''  let! _ := sfor it3 checkRebuilt in
''','''''','the rebuilt check is dropped','C09')
M('m14',MM,'initDeps','''  let! _ := sfor it2 checkOne in
''','''''','the cycle check is dropped','C04/C05')
M('m15',MM,'checkCyclic','''(checkCyclic m fuel' ({[k]} ∪ visited))''','''(checkCyclic m fuel' visited)''','visited set not extended on entry','C04')
M('m16',MM,'cyc_deps','''      | Val [] => cyc_deps rec me deps'
''','''      | Val [] => Val []
''','only the first dependency is searched for a cycle','C04')
M('m17',MM,'cyc_deps','''      | Val ret => Val (me :: ret)''','''      | Val ret => Val ret''','the plugins on the way are not in the reported cycle','C04')
M('m18',MM,'deps_placed','''forallb (fun d''','''existsb (fun d''','a plugin is placed as soon as one dependency is','C01')
M('m19',MM,'orderRound','''      if decide (k ∈ a) then orderRound m keys' a
      else match''','''      match''','already placed plugins are placed again','C01/C05')
M('m20',MM,'orderPlugins','''let keys := sort_strings (List.filter (has_deps m) it) in''','''let keys := List.filter (has_deps m) it in''','plugins with dependencies are not sorted','C42')
M('m21',MM,'orderPlugins','''orderRounds m (size m) keys a (S (size m))''','''orderRounds m (size m) keys a (size m)''','one round too few','C05')
M('m22',MM,'orderPlugins','''List.filter (fun k => negb (has_deps m k)) it in''','''it in''','every plugin is placed in the first step','C01')
M('m23',MM,'onLoadOne','''      if pl_unchanged p then sret tt
      else
        let! e := slift''','''        let! e := slift''','OnLoad called on kept plugins','C02/C03')
M('m24',MM,'onLoadOne','''call ROnLoad (pm_id pm) p (ArgData data) in''','''call ROnInit (pm_id pm) p (ArgVault (pm_id pm)) in let* o := Ret (match o with Val w => Val (snd (w : role_resp ROnInit)) | Err e => Err e | Pan x => Pan x end) in''','OnInit called instead of OnLoad','C02')
M('m25',MM,'onLoadOne','''        match e with None => sret tt | Some e => serr e end
  end.
Definition invokeEveryOnLoad''','''        sret tt
  end.
Definition invokeEveryOnLoad''','error of OnLoad dropped','C54')
M('m26',MM,'invokeEveryOnLoad','''sfor (pm_ordered pm) (onLoadOne data)''','''sfor (rev (pm_ordered pm)) (onLoadOne data)''','OnLoad in reverse order','C02')
M('m27',MM,'onInitOne','''      if pl_unchanged p then sret tt
      else
        let! we''','''        let! we''','OnInit called on kept plugins','C02/C03')
M('m28',MM,'invokeEveryOnInit','''sfor (pm_ordered pm) onInitOne''','''sfor (sort_strings (map_keys (pm_map pm))) onInitOne''','OnInit in name order instead of dependency order','C02')
M('m29',MM,'onInitOne','''        let! _ := smod (upd_databag (store_all writes)) in
''','''''','DataBag writes lost','C39')
M('m30',MM,'addLiveFuncs','''      | None => let! _ := smod (upd_livefuncs <[name := v]>) in addLiveFuncs earlier p l'
      | Some _ =>''','''      | None => let! _ := smod (upd_livefuncs <[name := v]>) in addLiveFuncs earlier p l'
      | Some _ => let! _ := smod (upd_livefuncs <[name := v]>) in addLiveFuncs earlier p l' end end.
Fixpoint addLiveFuncs' (earlier : list plugin) (p : plugin) (l : list (string * N)) : SM unit :=
  match l with
  | [] => sret tt
  | (name, v) :: l' =>
      let! pm := sget in
      match pm_livefuncs pm !! name with
      | None => let! _ := smod (upd_livefuncs <[name := v]>) in addLiveFuncs' earlier p l'
      | Some _ =>''','a duplicate live function overwrites the earlier one','C15')
M('m31',MM,'addLiveTypes','''      match pm_livetypes pm !! name with''','''      match pm_livefuncs pm !! name with''','live types checked against the functions table','C15')
M('m32',MM,'vaultFuncs','''      | None => serr (ENilLiveFuncs (pl_name p))''','''      | None => vaultFuncs (earlier ++ [p]) rest\'''','a nil live functions table is accepted','C15/C54')
M('m33',MM,'setupVault','''  let! _ := vaultFuncs [] ps in
  vaultTypes [] ps.''','''  vaultFuncs [] ps.''','live types are not collected','C15')
M('m34',MM,'findAnother','''then Ret (Val (pl_name q))''','''then Ret (Val name)''','the error names the symbol instead of the other plugin','C15')
M('m35',MM,'freeOne','''if (0 <? v)%Z then Ret tt''','''if (0 <=? v)%Z then Ret tt''','released only below zero references','C16/C18')
M('m36',MM,'freeOne','''    let* first := do (AOnce (pl_inst p)) in
    if first then''','''    if true then''','freeOnce is not used','C16')
M('m37',MM,'freeOne','''  let* v := do (ARefDec mid (pl_inst p)) in
  if (0 <? v)%Z then Ret tt
  else
''','''''','references are not counted','C17/C16')
M('m38',MM,'invokeEveryOnFree','''ofor (rev (pm_ordered pm)) (freeKey pm)''','''ofor (pm_ordered pm) (freeKey pm)''','OnFree in load order','C19')
M('m39',MM,'invokeEveryOnFree','''  | [] => let* it := do (AIter (map_keys (pm_map pm))) in ofor it (freeKey pm)''','''  | [] => Ret (Val tt)''','an unordered (failed) manager is not released','C07')
M('m40',MM,'with_cleanup','''    | Err e =>
        let* c := invokeEveryOnFree (fst so) in
        match c with Pan x => Ret (fst so, Pan x) | _ => Ret (fst so, Err e) end''','''    | Err e => Ret (fst so, Err e)''','no cleanup after an error','C07')
M('m41',MM,'with_cleanup','''    | Pan x =>
        let* c := invokeEveryOnFree (fst so) in
        match c with Pan x' => Ret (fst so, Pan x') | _ => Ret (fst so, Err (EPanic None x)) end''','''    | Pan x => Ret (fst so, Pan x)''','panics not recovered in loadPlugins','C06/C07')
M('m42',MM,'with_cleanup','''    | Val _ => Ret (fst so, Val tt)
    | Err e =>''','''    | Val _ => let* _ := invokeEveryOnFree (fst so) in Ret (fst so, Val tt)
    | Err e =>''','cleanup also after success','C07/C17')
M('m43',MM,'addUnchanged','''      let! _ := sdo (ARefInc (pm_id pm) (pl_inst newP)) in
''','''''','kept plugin not retained','C17')
M('m44',MM,'set_unchanged','''(pl_when p) note true (pl_P p)''','''(pl_when p) note false (pl_P p)''','kept plugin not marked unchanged','C03')
M('m45',MM,'isUnchanged','''String.eqb (fi_sha1 info) (pl_sha1 oldP)''','''negb (String.eqb (fi_sha1 info) (pl_sha1 oldP))''','hash comparison negated','C13')
M('m46',MM,'isNotReloadable','''Some oldP => negb (pl_reloadable oldP)''','''Some oldP => pl_reloadable oldP''','reloadable test negated','C14')
M('m47',MM,'loadPlugins_body','''addUnchanged (oldPlugin k) "unchanged")''','''addUnchanged (oldPlugin k) "not reloadable")''','wrong note for unchanged plugins','C36')
M('m48',MM,'loadPlugins_body','''        let infos := without_unchanged old infos in
''','''''','unchanged plugins are loaded as well','C03/C13')
M('m49',MM,'loadPlugins_body','''    | k :: _ => serr (EDup k files)
    | [] =>''','''    | _ =>''','duplicate file names accepted','C27')
M('m50',MM,'loadPlugins_body','''          let! _ := invokeEveryOnLoad data in
          let! _ := setupVault in
          invokeEveryOnInit''','''          let! _ := setupVault in
          let! _ := invokeEveryOnLoad data in
          invokeEveryOnInit''','vault set up before OnLoad','C02')
M('m51',MM,'loadPlugins_body','''          let! _ := invokeEveryOnLoad data in
          let! _ := setupVault in
          invokeEveryOnInit''','''          let! _ := invokeEveryOnLoad data in
          let! _ := invokeEveryOnInit in
          setupVault''','OnInit before the vault is set up','C02')
M('m52',MM,'lookupAll','''      | Err ENotExist => lookupAll items' p (missing ++ [role_symbol r])''','''      | Err ENotExist => lookupAll items' p missing''','missing symbols tolerated','C29')
M('m53',MM,'funcItems','''RReloadable; RLiveFuncs; RLiveTypes]''','''RReloadable; RLiveFuncs]''','HotswapLiveTypes not looked up','C29')
M('m54',MM,'Plugin_Lookup','''if assignable (gv_type sym) eleTyp then Ret (Val sym)''','''if assignable eleTyp (gv_type sym) then Ret (Val sym)''','arguments of AssignableTo swapped in Lookup','C30')
M('m55',MM,'Plugin_Lookup','''  else if is_nil out then Ret (Err EOutNil)
''','''''','nil out pointer not refused','C30')
M('m56',MM,'loadPlugin','''          | [] => admitPlugin p''' if False else '''      let! h := slift (do (AOpen actual)) in''','''      let! h := slift (do (AOpen (fi_file info))) in''','the original file is opened instead of the copy','C38')
M('m57',MM,'copy_dst','''(fi_name info +:+ "-" +:+ fmt_sharp8x (xxhash32 (fi_sha1 info)) +:+ FileNameExt)''','''("plugin-" +:+ fmt_sharp8x (xxhash32 (fi_sha1 info)) +:+ FileNameExt)''','copy not named after the plugin','C38')
M('m58',MM,'copyPlugin','''      let! e := sdo (AWriteFile dst (fi_data info)) in
      match e with Some e => serr e | None => sret dst end''','''      let! e := sdo (AWriteFile dst (fi_data info)) in
      sret dst''','write error ignored','C54')
M('m59',MM,'admitPlugin','''  let p := set_reloadable b p in''','''  let p := set_reloadable true p in''','answer of Reloadable dropped','C12/C14')
M('m60',MM,'admitPlugin','''  let p := set_exported v p in''','''  let p := set_exported None p in''','answer of Export dropped','C10')
M('m61',MM,'FindPlugin','''pm_map pm !! name2key name.''','''pm_map pm !! name.''','FindPlugin is case sensitive','C35')
M('m62',MM,'InvokeEachBackward','''  pfor (rev (Plugins pm)) (invokeOne''','''  pfor (Plugins pm) (invokeOne''','InvokeEachBackward goes forward','C34')
M('m63',MM,'dup_keys','''(1 <? length''','''(2 <? length''','two files with the same name accepted','C27')
M('m64',MM,'info_add','''<[name2key name := mkInfo''','''<[name := mkInfo''','file infos not keyed by the lower-case name','C28/C27')
M('m65',MM,'upd_when use','''          let! _ := smod (upd_when now) in
          let! _ := sfor (info_names''','''          let! _ := sfor (info_names''','time of loading not stored','C68')
M('m66',MM,'invokeOne','''call RInvokeFunc mid p (ArgInvoke name params)''','''call RInvokeFunc mid p (ArgInvoke (pl_name p) params)''','plugin name passed instead of the function name','C34')
M('m67',MM,'recovered','''Pan x => Err (EPanic (Some who) x)''','''Pan x => Err (EPanic None x)''','plugin name lost in the recovered panic','C06')
M('m68',MM,'admitPlugin','''let! v := slift (invokeExport (pm_id pm) p) in''','''let! v := slift (invokeImport (pm_id pm) p) in''','Import called where Export should be','C02/C10')
M('m69',MM,'findAnother','''                      else findAnother r mid call_tbl earlier' name
          | None''','''                      else Ret (Val (pl_name q))
          | None''','first earlier plugin is blamed','C15')
M('m70',MM,'onLoadOne','''                         Ret (recovered (pl_name p) o)) in
        match e with''','''                         Ret (match o with Pan _ => Val None | o => o end)) in
        match e with''','panic of OnLoad swallowed','C54/C06')
# --- swapper
M('s01',SM,'free_delay','''if (minFreeDelay <? o_freeDelay o)%Z''','''if (o_freeDelay o <? minFreeDelay)%Z''','min instead of max','C24/C17')
M('s02',SM,'minFreeDelay','''15 * second''','''1 * second''','minimum delay 1 s','C24')
M('s03',SM,'NewPluginManagerSwapper','''(5 * 60 * second)''','''(5 * second)''','default delay 5 s','C41')
M('s04',SM,'loadPluginFiles','''                                | Some om => do (ASpawnFree om (free_delay o))''','''                                | Some om => do (ASpawnFree new (free_delay o))''','the new manager is released','C17/C24')
M('s05',SM,'loadPluginFiles','''                      let* _ := do (AStoreCurrent new) in
                      Ret (Val (Some details))''','''                      Ret (Val (Some details))''','the new manager is not published','C21/C13')
M('s06',SM,'loadPluginFiles','''              let* c := invokeReloadCallbacks cbs new old in
              match c with''','''              let* c := invokeReloadCallbacks cbs new None in
              match c with''','callbacks get no old manager','C23')
M('s07',SM,'invokeReloadCallbacks','''          let* c := invokeEveryOnFree new in
          match c with Pan x => Ret (Pan x) | _ => Ret (Err e) end''','''          Ret (Err e)''','no release when a callback fails','C07')
M('s08',SM,'invokeReloadCallbacks','''  | None :: cbs' => invokeReloadCallbacks cbs' new old''','''  | None :: cbs' => Ret (Val tt)''','a nil callback ends the loop','C23')
M('s09',SM,'invokeReloadCallbacks','''                 | Pan x => Some (EPanic None x)''','''                 | Pan x => None''','panic of a callback ignored','C23/C54')
M('s10',SM,'ReloadWithCallback','''                   | Some e => [o_reloadCallback o; Some e]''','''                   | Some e => [Some e; o_reloadCallback o]''','extra callback runs first','C23')
M('s11',SM,'ReloadWithCallback','''        | Val d => let* _ := do AAddCounter in Ret (Val d)
        | r => Ret r''','''        | Val d => let* _ := do AAddCounter in Ret (Val d)
        | r => let* _ := do AAddCounter in Ret r''','failed reloads counted','C22')
M('s12',SM,'LoadPlugins','''    | None => loadPluginsImpl o data cbs
    end).''','''    | None => let* r := loadPluginsImpl o data cbs in let* _ := do AAddCounter in Ret r
    end).''','LoadPlugins counted','C22')
M('s13',SM,'locked','''  let* _ := do ALock in
''','''''','mutex not taken','C20')
M('s14',SM,'locked','''  let* r := p in
  let* _ := do AUnlock in
  Ret r.''','''  let* r := p in
  Ret r.''','mutex not released','C20')
M('s15',SM,'selectFiles','''      if isDir then (files, found)
      else if''','''      if''','directories are taken for plugins','C26')
M('s16',SM,'selectFiles','''        | _ => if Contains whitelist (pluginName name)''','''        | _ => if negb (Contains whitelist (pluginName name))''','whitelist inverted','C25')
M('s17',SM,'whitelist_ok','''(size found =? length whitelist)%nat''','''(size found <=? length whitelist)%nat''','missing whitelisted plugins tolerated','C25')
M('s18',SM,'missing_plugins','''negb (bool_decide (v ∈ found))''','''bool_decide (v ∈ found)''','present plugins are reported as missing','C25')
M('s19',SM,'selectStatic','''      | None => Err (ENoStatic name)''','''      | None => selectStatic statics whitelist' acc''','unknown whitelisted name ignored in static mode','C33')
M('s20',SM,'ReloadWithCallback','''  | Some _ => Ret (Err EStaticMode)
  | None =>
      locked''','''  | _ =>
      locked''','reload allowed in static mode','C32')
M('s21',SM,'missing_funcs','''bool_decide (get_func r f = None)''','''negb (bool_decide (get_func r f = None))''','missing static functions test negated','C29')
M('s22',SM,'NewPluginFuncs','''fExport := fExport; fImport := fImport;''','''fExport := fImport; fImport := fExport;''','Export and Import swapped','C44')
M('s23',SM,'detail_of','''then pl_note p else "ok"''','''then "ok" else pl_note p''','notes swapped','C36')
M('s24',SM,'buildDetails','''<[pl_file p := detail_of p]>''','''<[pl_name p := detail_of p]>''','keyed by name instead of file','C36')
M('s25',SM,'Details_String','''(sort_strings it)''','''it''','not sorted','C37')
M('s26',SM,'apply_option','''| WithFreeDelay d => mkOpts (o_newExt o) (o_reloadCallback o) d (o_whitelist o) (o_static o)''','''| WithFreeDelay d => mkOpts (o_newExt o) (o_reloadCallback o) (o_freeDelay o) (o_whitelist o) (o_static o)''','WithFreeDelay has no effect','C41')
M('s27',SM,'FindDirectory','''if isDir then Ret (Val tt) else Ret (Err (ENotDir dir))''','''Ret (Val tt)''','plain file accepted as directory','C26')
M('s28',SM,'swLoadStaticPlugins','''                  let* _ := do (AStoreCurrent new) in
                  Ret (Val (Some ((fun _ => "ok") <$> sel)))''','''                  let* _ := do (AStoreCurrent new) in
                  Ret (Val (Some ((fun _ => "ok") <$> statics)))''','details list all registered plugins','C33/C31')
M('s29',SM,'freeThread','''  let* _ := do (ASleep (pm_id om) delay) in
''','''''','release without waiting','C17/C24')
M('s30',SM,'loadPluginFiles','''          let* r := loadPlugins files old data new0 in''','''          let* r := loadPlugins files None data new0 in''','the old manager is not passed on: everything is reloaded','C13/C14')
M('s31',SM,'ReloadWithCallback','''        | Val d => let* _ := do AAddCounter in Ret (Val d)''','''        | Val d => Ret (Val d)''','reloads not counted','C22')
M('s32',SM,'loadPluginsImpl','''      let* r2 := do (AAbs dir2) in''','''      let* r2 := do (AAbs dir1) in''','the directory is read only once','C40')
M('s33',SM,'loadStaticPlugins_body','''    let! _ := initDeps in
    let! _ := invokeEveryOnLoad data in
    let! _ := setupVault in
    invokeEveryOnInit.''','''    let! _ := initDeps in
    let! _ := setupVault in
    invokeEveryOnInit.''','OnLoad not called in static mode','C02/C31')
M('s34',SM,'swLoadStaticPlugins','''match o_whitelist o with [] => Val statics | wl => selectStatic statics wl ∅ end''','''Val statics''','whitelist ignored in static mode','C33')
M('s35',SM,'loadPluginFiles','''  | [] => Ret (Val None)
  | _ =>''','''  | _ =>''','empty directory goes on','C26')
M('s36',SM,'detail_entry','''trim_suffix FileNameExt (path_base k)''','''path_base k''','extension shown','C37')
M('s37',SM,'apply_option','''| WithWhitelist l => mkOpts (o_newExt o) (o_reloadCallback o) (o_freeDelay o) l (o_static o)''','''| WithWhitelist l => mkOpts (o_newExt o) (o_reloadCallback o) (o_freeDelay o) (o_whitelist o ++ l) (o_static o)''','WithWhitelist appends','C41')
M('s38',SM,'StaticLinkingMode','''None => false | Some _ => true''','''None => false | Some s => negb (size s =? 0)%nat''','empty table is not static mode','C32')
M('s39',SM,'loadPluginFiles','''                      let* _ := match old with
                                | Some om => do (ASpawnFree om (free_delay o))
                                | None => Ret tt
                                end in
''','''''','old manager never released','C18/C24')
# --- concurrency
M('c01',CC,'update','''  | AUnlock => fun _ => mkMem None''','''  | AUnlock => fun _ => mkMem (me_lock s)''','unlock without effect','C20')
M('c02',CC,'answers','''  | ALock => fun _ => me_lock s = None''','''  | ALock => fun _ => True''','lock does not exclude','C20')
M('c03',CC,'awake','''(started + delay <= now)%Z''','''True''','sleep returns at once','C17')
M('c04',CC,'update','''(<[i := 1%Z]> (me_refs s))''','''(<[i := 0%Z]> (me_refs s))''','new plugins start with 0 references','C17/C18')
M('c05',CC,'answers','''  | AOnce i => fun first => first = bool_decide (i ∉ me_once s)''','''  | AOnce i => fun first => first = true''','freeOnce runs every time','C16')
M('c06',CC,'update','''(me_counter s + 1) (me_refs s)''','''(me_counter s + 2) (me_refs s)''','counter incremented by two','C22')
M('c07',CC,'answers','''  | ALoadCurrent => fun m => m = me_current s
''','''''','Current may return anything','C21')
M('c08',CC,'update','''(Some m) (me_counter s) (me_refs s) (me_once s) (me_mgrs s)''','''None (me_counter s) (me_refs s) (me_once s) (me_mgrs s)''','store forgets the manager','C21')
M('c09',CC,'spawns','''[start o now (TFree m delay)]''','''[]''','release goroutine not started','C18')
# --- cli/hotswap: declarations, generated code
TD='ToolDecls.v'; TP='ToolPaths.v'; TC='ToolCopy.v'; TX='ToolExit.v'; TS='ToolStatic.v'; TB='ToolBuild.v'; BA='Base.v'
M('t01',TD,'Join','| [x; y] => x +:+ " and " +:+ y','| [x; y] => x +:+ ", " +:+ y','two names joined by a comma','C45')
M('t02',TD,'requiredFuncs','"InvokeFunc"; "Reloadable"; "HotswapLiveFuncs"; "HotswapLiveTypes"]) in','"InvokeFunc"; "HotswapLiveFuncs"; "HotswapLiveTypes"]) in','Reloadable not required','C45/C44')
M('t03',TD,'requiredFuncs','if String.eqb pkgName "" then delete "HotswapLiveTypes" (delete "HotswapLiveFuncs" m) else m.','m.','dynamic builds require the generated functions','C45')
M('t04',TD,'noteFunc','| DFunc false name => match m !! name','| DFunc _ name => match m !! name','methods count as functions','C45')
M('t05',TD,'noteFiles','if has_suffix "_test.go" (fst f) then m else fold_left','fold_left','test files are searched too','C45')
M('t06',TD,'parseRequiredPluginFuncs','(sort_strings a))','a)','arguments in map order','C44')
M('t07',TD,'parseRequiredPluginFuncs','Join (sort_strings missing))','Join missing)','missing functions in map order','C45')
M('t08',TD,'checkRequired','|| String.eqb envVar "0"','|| String.eqb envVar ""','an unset variable switches the check off','C45')
M('t09',TD,'importName','then "hotswapx" else pkg','then "hotswap" else pkg','package named hotswap clashes with the import of hotswap itself','C44')
M('t10',TD,'genHotswapStaticPluginInit','(pkgName, pkgPath) (map snd fs)','(pkgName, pkgPath) (map fst fs)','bare names instead of qualified ones','C44')
M('t11',TD,'genHotswapStaticPluginInit','Done (mkInit plugin plugin','Done (mkInit plugin pkgName','Name is the package name','C44')
M('t12',TD,'liveFunc','if has_prefix prefix (to_lower name) then\n    if bool_decide','if has_prefix prefix name then\n    if bool_decide','prefix compared case-sensitively','C46')
M('t13',TD,'liveFunc','''    if bool_decide (name ∈ lv_names s) then mkLive (lv_names s) (lv_funcs s) (lv_types s) (lv_pkgs s) (lv_errs s ++ [dup_msg name])
    else mkLive ({[name]} ∪ lv_names s) (push dir name (lv_funcs s))''','''    if bool_decide (name ∈ lv_names s) then s
    else mkLive ({[name]} ∪ lv_names s) (push dir name (lv_funcs s))''','duplicate live function silently dropped','C46')
M('t14',TD,'liveFunc','else mkLive ({[name]} ∪ lv_names s) (push dir name (lv_funcs s))','else mkLive (lv_names s) (push dir name (lv_funcs s))','function names are not remembered','C46')
M('t15',TD,'liveType','''    if negb (snd spec) then mkLive''','''    if snd spec then mkLive''','struct test negated','C46')
M('t16',TD,'liveType','else mkLive ({[name]} ∪ lv_names s) (lv_funcs s) (push dir name (lv_types s)) (<[dir := pkg]> (lv_pkgs s))','else mkLive ({[name]} ∪ lv_names s) (lv_funcs s) (push dir name (lv_types s)) (lv_pkgs s)','package of a live type not recorded','C46')
M('t17',TD,'liveDecl','| DFunc true _ | DOther => s\n  | DFunc false name','| DOther => s\n  | DFunc _ name','methods are taken for live functions','C46')
M('t18',TD,'push','default [] (m !! k) ++ [x]','[x]','only the last live name of a directory is kept','C46')
M('t19',TD,'mainImports','then None else Some (pk_path pkg)','then Some (pk_path pkg) else None','imports only itself','C46')
M('t20',TD,'liveInit','default [] (lv_types s !! dir))','default [] (lv_funcs s !! dir))','functions registered as types','C46')
M('t21',TD,'Register','| Some _ => None end','| Some _ => Some t end','second registration ignored','C46')
M('t22',TD,'registerAll','match Register n (path, n) t with','match Register n (n, path) t with','registered under the wrong key','C46')
# --- paths
M('t30',TP,'resolve','[] => resolve rooted (if rooted then [] else [".."]) cs','[] => resolve rooted [".."] cs','.. above the root kept','C50..C52/C66')
M('t31',TP,'GoDir','| _ :: r => join_with "/" (rev r) +:+ "/" end','| _ :: r => join_with "/" r +:+ "/" end','components reversed','C50/C51')
M('t32',TP,'Rel','if String.eqb x y then strip_common b\' t\'','if String.eqb x y then strip_common b t\'','base not advanced','C52')
M('t33',TP,'wordName','(rev (trim_left (rev (trim_left l))))','(trim_left l)','trailing underscores kept','C51')
M('t34',TP,'packageName','| _ => Panics (dir +:+ " contains several packages")','| p :: _ => Done p','first of several packages taken','C51')
M('t35',TP,'searchStep','Found (GoJoin (m :: rev a1))','Found (GoJoin (m :: a1))','directories below the module in reverse order','C51')
M('t36',TP,'searchStep','Searching (GoDir absDir) (a1 ++ [path_base absDir])','Searching (GoDir absDir) a1','directories below the module forgotten','C51')
M('t37',TP,'outputCheck','if has_prefix ".." rel then Done tt else Panics','if has_prefix ".." rel then Panics "x" else Panics','every other directory refused','C52')
M('t38',TP,'outputCheck','Some rel => if has_prefix ".." rel then Done tt else Panics "<outputDir> must not be a subdirectory of <pluginDir>"','Some rel => Done tt','subdirectories accepted','C52')
M('t39',TP,'makeSetup','let leave := fl_leaveTemps fl || negb (fl_goBuild fl) || fl_static fl in','let leave := fl_leaveTemps fl || negb (fl_goBuild fl) in','static builds do not leave the "temporary" (= plugin) directory','C50/C52')
M('t40',TP,'makeSetup','(GoJoin [GoDir pluginDir; name])','(GoJoin [pluginDir; name])','temporary directory inside the plugin directory','C50')
M('t41',TP,'removedDirs','if negb (fl_static fl) && existed then','if existed then','static builds remove the plugin directory','C50')
M('t42',TP,'isInitFile','match s with EmptyString => false | String _ s => isInitFile s end.','false.','pattern anchored at the start','C53')
M('t43',TP,'removeInitFiles','negb (isInitFile (fst kv)) | Subdir => true end','negb (isInitFile (fst kv)) | Subdir => false end','subdirectories removed too','C53/C63')
M('t44',TP,'staticBuild','match writeFile (initFile plugin) (CInit i) d with','match writeFile tableFile (CInit i) d with','registration written to the table file','C53')
M('t45',TP,'writeFile','Some Subdir => Panics "is a directory"','Some (File _) => Panics "exists"','existing files are not overwritten','C53/C63')
# --- copying
M('t50',TC,'takesFile','if has_suffix "_test.go" path then false\n  else ','','test files copied','C47')
M('t51',TC,'takesFile','then negb (bool_decide (path_base path ∈ hotswapFiles))','then true','generated files copied','C47')
M('t52',TC,'rexMatch','inc name && negb (exc name)','inc name || negb (exc name)','exclude alone includes','C47')
M('t53',TC,'rexMatch','| None, _ => false','| None, None => true | None, Some exc => negb (exc name)','without --include everything is taken','C47')
M('t54',TC,'collectLoop','dirs (if takesFile include exclude path rel then files ++ [rel] else files)','dirs (if takesFile include exclude path rel then files ++ [path] else files)','absolute instead of relative path','C47')
M('t55',TC,'collectLoop','| VErr e => Panics e','| VErr e => collectLoop pluginDir tmpDir include exclude walk dirs files','walk errors ignored','C47')
M('t56',TC,'replaceFrom','new +:+ replaceFrom (String.length old - 1) old new s\'','new +:+ replaceFrom (String.length old) old new s\'','one byte too many dropped','C48')
M('t57',TC,'clauseLength','Some (7 + n + m)%nat','Some (7 + n)%nat','the old package name stays','C48')
M('t58',TC,'replaceClauses','match (if bol then clauseLength s else None) with','match clauseLength s with','not only at the beginning of a line','C48')
M('t59',TC,'replaceImports','(quote +:+ pkg +:+ "/") (quote +:+ tmp +:+ "/")','(quote +:+ pkg +:+ "/") (quote +:+ tmp)','slash lost in subpackage imports','C48')
M('t60',TC,'replaceImports','(quote +:+ pkg +:+ quote) (quote +:+ tmp +:+ quote)','(quote +:+ pkg) (quote +:+ tmp)','packages that merely start with the path are rewritten','C48')
M('t61',TC,'replaceCode','if String.eqb (GoDir rel) "." then replaceClauses true 0 data else data','replaceClauses true 0 data','subpackages become package main','C48')
M('t62',TC,'copied','if has_suffix ".go" rel then replaceCode pkg tmp rel data else data','replaceCode pkg tmp rel data','other files rewritten too','C48')
M('t63',TC,'poolStep','po_workers p !! i = Some WLoop -> po_pending p = rel :: rest ->','po_workers p !! i = Some WLoop -> po_pending p = rel :: rest -> po_interrupted p = false ->','no file taken after an interrupt','C49 (schedules only removed)')
M('t64',TC,'poolStep','(<[i := WRead rel]> (po_workers p)) rest (po_errs p)','(<[i := WRead rel]> (po_workers p)) (po_pending p) (po_errs p)','file not taken from the channel','C49')
M('t65',TC,'poolStep','po_workers p !! i = Some WLoop -> po_pending p = [] -> po_interrupted','po_workers p !! i = Some WLoop -> po_interrupted','workers may stop although files are left','C49')
M('t66',TC,'poolResult','Some (match po_errs p with e :: _ => Panics e | [] => Done tt end)','Some (Done tt)','errors of the workers dropped','C49')
M('t67',TC,'poolStep','(po_written p ++ [(rel, copied pkg tmp rel data)])','(po_written p ++ [(rel, data)])','files copied without rewriting','C48/C49')
M('t68',TC,'poolStep','(setWorker p i (if po_aborted p then WDone else WClose))','(setWorker p i WClose)','abort closed without testing','C49')
# --- exit
M('t70',TX,'c_remove','(setTmp (if ok then false else pr_tmp p) (HRemove ok) p)','(setTmp (pr_tmp p) (HRemove ok) p)','the temporary directory stays','C62')
M('t71',TX,'c_leave','pr_cleaner p = CRemove -> leave = true ->','pr_cleaner p = CRemove ->','cleanup may be skipped','C62')
M('t72',TX,'c_interrupt','(match x with SIGINT => true | _ => pr_interrupted p end)','(match x with SIGTERM => true | _ => pr_interrupted p end)','SIGTERM interrupts instead of SIGINT','C62')
M('t73',TX,'x_done','pr_main p = Waiting b -> pr_cleaner p = CEnd ->','pr_main p = Waiting b ->','exit without waiting for the cleanup','C62')
M('t74',TX,'x_done','(Exited (if b then 1 else 0))','(Exited 0)','exit status always 0','C62')
M('t75',TX,'x_send','(offer SIGQUIT (pr_chan p))','(pr_chan p)','the cleaner is not told','C62')
M('t76',TX,'offer','match c with None => Some x | c => c end','Some x','a full channel is overwritten','C62')
# --- static builds
M('t80',TS,'removeMarked','NFile _ => negb (marked (fst kv)) | NDir => true','NFile _ => marked (fst kv) | NDir => true','user files removed, generated ones kept','C63')
M('t81',TS,'marked','existsb (String.eqb (baseName p)) hotswapFiles','existsb (fun f => has_suffix f (baseName p)) hotswapFiles','files whose name ends in hotswap.main.go removed','C63')
M('t82',TS,'removeBureau','| true, Some NDir =>','| _, Some NDir =>','the bureau directory is removed by builds too','C63')
M('t83',TS,'writeNode','| Some NDir, _ => (s, Panics "is a directory")\n','','directories overwritten by files','C63')
M('t84',TS,'genBureau','(mkDirs (<[[bureau] := NDir]> (ds_plugin s)) (ds_out s))','s','bureau directory not made','C63')
M('t85',TS,'genLives','| _ => let r := writeNode (dir ++ ["hotswap.live.go"]) text s in','| _ => let r := writeNode ["hotswap.live.go"] text s in','all live files in the root','C63')
M('t86',TS,'staticJob','if snd rb then (andThen (fst rb) (epilogue j), true) else (fst rb, false)','(andThen (fst rb) (epilogue j), true)','an interrupted static build registers the plugin','C63')
M('t87',TS,'staticJob','if jb_early j then ((s, Done tt), false) else\n','','early interrupt ignored','C63')
M('t88',TS,'staticJob','andThen (removeStaticFiles false','andThen (removeStaticFiles true','a build cleans like --clean','C63')
M('t89',TS,'epilogue','match writeFile (initFile (jb_plugin j)) (CInit i) (ds_out s) with','match writeFile (initFile "plugin") (CInit i) (ds_out s) with','one registration file for all plugins','C63')
M('t90',TS,'cleanJob','removeStaticFiles true outBase s','removeStaticFiles false outBase s','--clean leaves the bureau','C63')
# --- the whole build
M('t100',TB,'splitArgs','if String.eqb a "--" then ([], args)','if String.eqb a "--" then ([], a :: args)','"--" is passed on','C64')
M('t101',TB,'outputFile','GoJoin [outputDir; path_base pluginDir +:+ ".so"]','GoJoin [pluginDir; path_base pluginDir +:+ ".so"]','output into the plugin directory','C64')
M('t102',TB,'goArgs','"-buildmode=plugin"; "-o"','"-o"','not built as a plugin','C64')
M('t103',TB,'goArgs','file] ++ buildFlags','file]','build flags dropped','C64')
M('t104',TB,'buildPlugin','if ok then Done file else Panics "exit status"','Done file','failure of go build ignored','C64')
M('t105',TB,'buildPlugin','if negb (fl_goBuild (cl_flags cl)) then (acts, Done "") else','','--goBuild=false ignored','C64')
M('t106',TB,'work','''    match be_required e with
    | Panics m => ([], Panics m)
    | Done _ => buildPlugin cl e
    end''','''    buildPlugin cl e''','required functions not checked','C64')
M('t107',TB,'proceed','(if String.eqb f "" then [] else [ActPrint f])','[ActPrint f]','always prints','C64')
M('t108',TB,'proceed','| Done _, Some (Panics m) => ([ActRemoveTmp], Panics m)','| Done _, Some (Panics m) => finish [ActRemoveTmp]','left-over directory that cannot be removed is used','C64')
M('t109',TB,'executeBody','else if negb static && cl_clean cl then ([], Panics "--clean works only under the static linking mode")\n','','--clean accepted in dynamic mode','C64')
M('t110',TB,'executeBody','if static then ([], Panics "<outputDir> does not exist")\n                              else ','','static builds make the output directory','C64')
M('t111',TB,'exitCode','Panics _ => 1','Panics _ => 0','exit status 0 after a panic','C64')
M('t112',TB,'completeDynamic','if jb_early j then (t, Done tt) else\n','if jb_early j then (t, Panics "interrupted") else\n','an interrupted build fails (a fix)','C64 (the finding would be gone)')
# --- u: definitions not mutated before
TI='Times.v'; TA='ToolAbs.v'; GT='GoTypes.v'
M('u01',BA,'lower_byte','ascii_of_N (n + 32) else c.','ascii_of_N (n + 32) else if (n =? 95) then ascii_of_N 45 else c.','underscore is treated as a hyphen in names','C10/C31')
M('u02',BA,'lower_byte','if (65 <=? n) && (n <=? 90) then','if (65 <=? n) && (n <? 90) then','Z is not lower-cased','C10/C28')
M('u03',BA,'is_upper_byte','((65 <=? n) && (n <=? 90)) || ((192','((65 <=? n) && (n <? 90)) || ((192','fields starting with Z are skipped','C10')
M('u04',BA,'has_suffix','(String.length suf <=? String.length s)%nat','(String.length suf <? String.length s)%nat','a file called exactly .so is not a plugin file','C25')
M('u05',BA,'trim_suffix','substring 0 (String.length s - String.length suf) s else s.','substring 0 (String.length s - String.length suf - 1) s else s.','one byte too many cut','C26/C37')
M('u06',BA,'path_base','rev (take_until_slash r)','take_until_slash r','base name reversed','C37')
M('u07',BA,'path_join','if String.eqb dir "/" then "/" +:+ name else','if String.eqb dir "" then "/" +:+ name else','root directory gives //name','C38')
M('u08',BA,'path_dir','| [] => "/"\n  | l => string_of_list_ascii (rev l)','| [] => "."\n  | l => string_of_list_ascii (rev l)','directory of /x is .','C38')
M('u09',BA,'is_space','|| (n =? 32).','.','a blank is not white space','C42/C60')
M('u10',BA,'sort_strings','merge_sort str_le l.','l.','no sorting','C02/C15/C44')
M('u11',BA,'join_with','| x :: l\' => x +:+ sep +:+ join_with sep l\'','| x :: l\' => x +:+ join_with sep l\'','separator dropped','C45/C50')
M('u12',MM,'call','| None => Ret (Pan PNil)\n  | Some c => do (ACall','| None => Ret (Pan PIndex)\n  | Some c => do (ACall','another panic for a nil func','none (the kind of panic is not in a property)')
M('u13',MM,'call','mkCallee mid (pl_name p) (pl_inst p) c) arg','mkCallee mid (pl_name p) 0%N c) arg','calls attributed to another instance','C02/C03')
M('u14',MM,'ignored','match o with Pan x => Pan x | _ => Val tt end','match o with Val _ => Val tt | Err e => Err e | Pan x => Pan x end','an error of the call ends the loop','C34')
M('u15',MM,'logged','match o with Pan x => Val tt | o => o end','o','recover dropped','C67/C34')
M('u16',MM,'invokeExport','let* o := call RExport mid p ArgNone in Ret (recovered (pl_name p) o).','call RExport mid p ArgNone.','panic of Export not recovered','C06 (recovered further out; the name is lost)')
M('u17',MM,'invokeReloadable','call RReloadable mid p ArgNone in Ret','call RReloadable 0 p ArgNone in Ret','called for another manager','C02')
M('u18',MM,'newPluginManager','if newExt then do ANewExt else Ret (Val None) in','do ANewExt in','constructor called even if there is none','C35')
M('u19',MM,'newPluginManager','∅ [] 0 ∅ ∅ ∅ e))','∅ [] 0 ∅ ∅ ∅ None))','Extension not stored','C35')
M('u20',MM,'set_unchanged','(pl_inst p) (pl_exported p) (pl_reloadable p) (pl_imports p).\n\n(** pluginManager.go:61-67','(pl_inst p) (pl_exported p) true (pl_imports p).\n\n(** pluginManager.go:61-67','a carried-over plugin becomes reloadable','C05/C09')
M('u21',MM,'known_note','|| String.eqb (pl_note p) "unchanged"','','unchanged plugins make outputStats1 panic','C09')
M('u22',MM,'buildFileInfoMap','| Err e => Ret (Err e)\n      | Pan x => Ret (Pan x)\n      end\n  end.\n\n(** pluginManager.go:568','| Err e => buildFileInfoMap files\' m\n      | Pan x => Ret (Pan x)\n      end\n  end.\n\n(** pluginManager.go:568','unreadable files skipped','C59/C08')
M('u23',MM,'info_names','map (fun ki => fi_name (snd ki))','map (fun ki => fst ki)','keys instead of names','C28 (the finding would be gone)')
M('u24',MM,'hex_digit','ascii_of_N (87 + n)','ascii_of_N (55 + n)','upper-case digits','C38 (harmless; paths change)')
M('u25',MM,'hex_digit','if (n <? 10)%N then','if (n <? 9)%N then','9 is written as `','C38')
M('u26',MM,'hex_digits','hex_digits fuel\' (n / 16) acc\'','hex_digits fuel\' (n / 8) acc\'','wrong divisor','C38')
M('u27',MM,'fmt_sharp8x','spaces (8 - String.length s) +:+ s.','s +:+ spaces (8 - String.length s).','padded on the right','C38')
M('u28',MM,'copy_dir','path_join (path_join (path_dir (fi_file info)) "tmp") dirName.','path_join (path_dir (fi_file info)) "tmp".','private directory not private','C38')
M('u29',MM,'set_funcs','(pl_unchanged p) (pl_P p) f\n','(pl_unchanged p) (pl_P p) (pl_funcs p)\n','functions found are not stored','C36/C37')
M('u30',MM,'set_exported','(pl_deps p) (pl_inst p) v (pl_reloadable p)','(pl_deps p) (pl_inst p) (pl_exported p) (pl_reloadable p)','exported value not stored','C10')
M('u31',MM,'add_dep','(pl_deps p ++ [d])','([d])','only the last dependency kept','C02/C13')
M('u32',MM,'add_import','(pl_imports p ++ [(f, v)])','(pl_imports p)','nothing assigned','C10')
M('u33',MM,'code_of','if gv_nil v then None else Some (gv_payload v)','if gv_nil v then None else Some 0%N','every symbol is the same function','C36')
M('u34',MM,'out_ptr','GV (TPtr 0 (role_type r)) false','GV (TPtr 0 (role_type ROnLoad)) false','wrong type of the target','C36')
M('u35',MM,'checkOne','''      match pl_deps p with
      | [] => sret tt
      | _ =>
          let! cyclicDeps''','''      match pl_deps p with
      | [] | [_] => sret tt
      | _ =>
          let! cyclicDeps''','plugins with one dependency are not checked','C11')
M('u36',MM,'orderRounds','if (length a =? n)%nat then Some a else','if (n <=? S (length a))%nat then Some a else','one plugin forgotten','C02')
M('u37',MM,'has_deps','negb (bool_decide (pl_deps p = []))','bool_decide (pl_deps p = [])','test negated','C02')
M('u38',MM,'store_all','fold_left (fun m kv => <[fst kv := snd kv]> m) l m','fold_left (fun m kv => <[fst kv := snd kv]> m) l ∅','DataBag replaced instead of extended','C39')
M('u39',MM,'vaultTypes','let! _ := addLiveTypes earlier p l in vaultTypes (earlier ++ [p]) rest\'','let! _ := addLiveTypes earlier p l in vaultTypes earlier rest\'','owner of a duplicate not found','C16/C29')
M('u40',MM,'vaultTypes','let! tbl := slift (call RLiveTypes (pm_id pm) p ArgNone) in\n      match tbl with','let! tbl := slift (call RLiveFuncs (pm_id pm) p ArgNone) in\n      match tbl with','functions taken for types','C16')
M('u41',MM,'freeKey','| None => Ret (Pan PNil)\n  | Some p => freeOne','| None => Ret (Val tt)\n  | Some p => freeOne','missing plugin skipped (unreachable)','none')
M('u42',MM,'freeOne','let* v := do (ARefDec mid (pl_inst p)) in','let* v := Ret 0%Z in','no reference counting','C03/C18')
M('u43',MM,'file_key','name2key (pluginName f)','pluginName f','duplicates up to case not found','C31/C28')
M('u44',MM,'InvokeEach','  ofor (Plugins pm) (invokeOne','  ofor (rev (Plugins pm)) (invokeOne','wrong direction','C34')
M('u45',MM,'Plugins','Definition Plugins (pm : mgr) : list plugin := plugins_of (pm_map pm) (pm_ordered pm).','Definition Plugins (pm : mgr) : list plugin := plugins_of (pm_map pm) (map_keys (pm_map pm)).','map order','C02/C33')
M('u46',MM,'with_cleanup','| _ => Ret (fst so, Err (EPanic None x)) end','| _ => Ret (fst so, Pan x) end','panic goes on after the cleanup','C06/C67')
M('u50',SM,'second','Definition second : Z := 1000000000.','Definition second : Z := 1000000.','milliseconds','C24')
M('u51',SM,'Contains','existsb (String.eqb name) pw','existsb (fun w => String.eqb (to_lower name) (to_lower w)) pw','whitelist compared up to case','C25')
M('u52',SM,'selectFiles','if isDir then (files, found)','if false then (files, found)','directories called x.so are taken','C25')
M('u53',SM,'whitelist_ok','(size found =? length whitelist)%nat','(size found <=? length whitelist)%nat','missing plugins tolerated','C25')
M('u54',SM,'missing_plugins','negb (bool_decide (v ∈ found))','bool_decide (v ∈ found)','found ones reported','C25')
M('u55',SM,'FindDirectory','if isDir then Ret (Val tt) else Ret (Err (ENotDir dir))','Ret (Val tt)','a file passes as a directory','C42/C60')
M('u56',SM,'FindDirectory','if blank dir then Ret (Err (EDirEmpty alt))\n  else','if String.eqb dir "" then Ret (Err (EDirEmpty alt))\n  else','white space passes','C42/C60')
M('u57',SM,'loadPluginsImpl','let* r2 := do (AAbs dir2) in','let* r2 := Ret (Val dir2) in','relative directory kept','C42/C25')
M('u58',SM,'loadStaticPlugin','(sp_funcs sp) [] i None false [] in','no_funcs [] i None false [] in','functions not taken over','C30')
M('u60',CC,'task_prog','if backward then InvokeEachBackward','if negb backward then InvokeEachBackward','directions swapped','C34 under concurrency')
M('u61',CC,'update AUnlock','| AUnlock => fun _ => mkMem None','| AUnlock => fun _ => mkMem (me_lock s)','mutex never released','C65/C55')
M('u62',CC,'answers ALock','| ALock => fun _ => me_lock s = None','| ALock => fun _ => True','no mutual exclusion','C01/C56')
M('u63',CC,'update AStoreCurrent','(me_dir s) (Some m) (me_counter s)','(me_dir s) (me_current s) (me_counter s)','store lost','C56')
M('u64',CC,'update AAddCounter','(me_counter s + 1)','(me_counter s + 2)','counts double','C14/C22')
M('u65',CC,'answers AOnce','first = bool_decide (i ∉ me_once s)','True','freeOnce may run twice','C03')
M('u66',CC,'answers ARefDec','v = (refs_of s i - 1)%Z','(v <= refs_of s i - 1)%Z','lost updates of the reference count','C03/C17')
M('u67',CC,'awake','(started + delay <= now)%Z','(started <= now)%Z','no sleeping','C24')
M('u70',TD,'runInit','(si_key i, mkStatic (si_name i) (NewPluginFuncs a b c d e f g h j))','(si_name i, mkStatic (si_key i) (NewPluginFuncs a b c d e f g j h))','two arguments swapped','C44')
M('u71',TD,'livePackage','| f :: _ => fold_left (fun s synt => fold_left','| f :: _ => fold_left (fun s synt => if decide (synt = []) then s else fold_left','(no change of meaning)','none')
M('u72',TD,'livePackage','  | [] => s\n  | f :: _ => fold_left (fun s synt','  | [] | [_] => s\n  | f :: _ => fold_left (fun s synt','packages of one file skipped','C46')
M('u73',TD,'collectLive','match lv_errs s with [] => inl s | errs => inr errs end','inl s','errors ignored','C46')
M('u74',TD,'runLive','registerAll (pk_path pkg) ts (snd ft) with','registerAll (pk_name pkg) ts (snd ft) with','types registered for the wrong package','C46')
M('u75',TD,'linked','String.eqb (pk_path pkg) tmpPkgPath || bool','bool','the root package is not linked','C46')
M('u76',TD,'startUp','if linked tmpPkgPath imports pkg then match runLive','if negb (linked tmpPkgPath imports pkg) then match runLive','only packages not linked are run','C46')
M('u80',TP,'split_slash','if Ascii.eqb c slash then "" :: split_slash s\n','if Ascii.eqb c slash then split_slash s\n','slashes dropped','C50..C53')
M('u81',TP,'Clean','if rooted s then "/" +:+ body else if String.eqb body "" then "." else body','if rooted s then "/" +:+ body else body','empty relative path stays empty','C66')
M('u82',TP,'Clean','if rooted s then "/" +:+ body else if','if rooted s then body else if','root lost','C50')
M('u83',TP,'GoJoin','match drop_empty l with [] => ""','match l with [] => ""','leading empty elements give a rooted path','none (arguments are never empty)')
M('u84',TP,'elements','negb (String.eqb c "")','String.eqb c ""','only empty elements','C52')
M('u85',TP,'strip_common','then strip_common b\' t\' else (b, t)','then strip_common b\' t\' else (b\', t\')','one element too many stripped','C52')
M('u86',TP,'word_byte','|| (n =? 95))%N','|| (n =? 45))%N','hyphens kept in package names','C51')
M('u87',TP,'trim_left','if Ascii.eqb c underscore then trim_left l\' else l','if Ascii.eqb c underscore then l\' else l','only one underscore trimmed','C51')
M('u88',TP,'then_go','has_prefix ".go" s || match s with EmptyString => false | String c s => negb (Ascii.eqb c "010"%char) && then_go s end.','has_prefix ".go" s || match s with EmptyString => false | String c s => then_go s end.','the dot matches newlines','C53')
M('u89',TP,'init_tail','match s with EmptyString => false | String c s => negb (Ascii.eqb c "010"%char) && then_go s end.\nDefinition init_prefix','then_go s.\nDefinition init_prefix','an empty plugin name matches','C53')
M('u90',TP,'initFile','"hotswap.staticPluginInit." +:+ plugin +:+ ".go"','"hotswap.staticPluginInit." +:+ plugin','extension forgotten','C53')
M('u91',TP,'tableFile','"hotswap.staticPlugins.go"','"hotswap.staticPluginInit.s.go"','table name matches the pattern','C53')
M('u92',TP,'cleanBuild','tool outdir := removeInitFiles outBase d.','tool outdir := Done d.','--clean leaves the output directory alone','C53')
M('u93',TC,'hotswapFiles','["hotswap.bureau.go"; "hotswap.main.go"; "hotswap.live.go"]','["hotswap.bureau.go"; "hotswap.main.go"]','live files not recognised','C47/C63')
M('u94',TC,'re_space','(n =? 13) || (n =? 32)','(n =? 13)','blank is no space','C48')
M('u95',TC,'span_len','if f c then S (span_len f s) else O','if f c then span_len f s else O','length wrong','C48')
M('u96',TC,'quote','String "034"%char ""','String "039"%char ""','single quotes','C48')
M('u97',TC,'startPool','repeat WLoop burst','repeat WDone burst','no worker runs','C49')
M('u98',TC,'setWorker','(<[i := w]> (po_workers p)) (po_pending p) (po_errs p) (po_aborted p) (po_interrupted p) (po_crashed p) (po_written p) (po_failed p).\n(** One step','(<[i := w]> (po_workers p)) (po_pending p) [] (po_aborted p) (po_interrupted p) (po_crashed p) (po_written p) (po_failed p).\n(** One step','errors forgotten','C49')
M('u99',TC,'copied','if has_suffix ".go" rel then','if has_suffix "_go" rel then','nothing rewritten','C48')
M('u100',TX,'c_reset','(CReset x) (pr_chan p) false (pr_interrupted p)','(CReset x) (pr_chan p) true (pr_interrupted p)','signals stay redirected','C62')
M('u101',TX,'startProc','mkProc Working CSelect None true','mkProc Working CSelect None false','signal.Notify missing','C62')
M('u102',TX,'o_signal','(offer s (pr_chan p))','None','signals lost','C62')
M('u103',TX,'m_write','pr_main p = Working -> pr_tmp p = true -> mainStep','pr_main p = Working -> mainStep','writes recreate the directory','C62')
M('u104',TS,'baseName','default "" (last p)','default "" (head p)','first component','C63')
M('u105',TS,'andThen','Panics m => (fst r, Panics m) end','Panics m => f (fst r) end','panics ignored','C63')
M('u106',TS,'removeStaticFiles','| Done d => (mkDirs t d, Done tt)','| Done d => (mkDirs t (ds_out s), Done tt)','init files kept','C63')
M('u107',TS,'genMain','writeNode ["hotswap.main.go"] (text n) s','writeNode [bureau; "hotswap.main.go"] (text n) s','main file into the bureau','C63')
M('u108',TA,'GoAbs','if rooted s then Clean s else GoJoin [wd; s]','GoJoin [wd; s]','absolute arguments taken as relative','C66')
M('u109',TA,'stamp','pad2 (dd t) +:+ pad2 (hh t) +:+ pad2 (mi t) +:+ pad2 (ss t)','pad2 (dd t) +:+ pad2 (hh t) +:+ pad2 (mi t)','seconds dropped','C66')
M('u110',TA,'commitInfo','substring 0 8 hash','substring 0 7 hash','seven bytes','C66')
M('u111',TI,'compact','pad2 (yy t) +:+ pad2 (mo t) +:+ pad2 (dd t) +:+ pad2 (hh t) +:+ pad2 (mi t) +:+ pad2 (ss t).','pad2 (yy t) +:+ pad2 (mo t) +:+ pad2 (dd t) +:+ pad2 (hh t) +:+ pad2 (mi t).','minutes only','C38')
M('u112',TI,'dir_name','compact (fst born) +:+ "-" +:+ pretty (snd born)','compact (fst born)','process id dropped','C38')
M('u113',TI,'pad2','(digit (n / 10)) (String (digit (n mod 10)) "")','(digit (n mod 10)) (String (digit (n mod 10)) "")','tens lost','C38/C66')
M('u120',GT,'is_nil','| KChan | KFunc | KMap | KPtr | KUnsafePointer | KInterface | KSlice => gv_nil g','| KChan | KFunc | KMap | KPtr | KUnsafePointer | KInterface => gv_nil g | KSlice => false','nil slices count as values','C10')
M('u121',GT,'role_symbol','| ROnLoad => "OnLoad" | ROnInit => "OnInit"','| ROnLoad => "OnInit" | ROnInit => "OnLoad"','two symbols swapped','C36')
M('u122',GT,'set_func','| RImport => mkFuncs a b c d v g h i j','| RImport => mkFuncs a b c v e g h i j','Import stored in the field of Export','C36')
M('u123',GT,'get_func','| RReloadable => fReloadable f | RLiveFuncs => fLiveFuncs f | RLiveTypes => fLiveTypes f','| RReloadable => fReloadable f | RLiveFuncs => fLiveFuncs f | RLiveTypes => fLiveFuncs f','wrong field read','C16/C36')
M('u124',GT,'pluginName','trim_suffix FileNameExt (path_base file)','path_base file','extension kept in plugin names','C37/C25')
M('u125',GT,'name2key','string := to_lower name.','string := name.','names case-sensitive','C31/C33')
HM='HeapModel.v'
M('v01',HM,'haddUnchanged','let^ newP := new_plug (hp_set_unchanged note p) in','let^ _ := set_plug oldP (hp_set_unchanged note) in let^ newP := hret oldP in','no copy: the note is stored into the plugin of the old manager','C72')
M('v02',HM,'haddUnchanged','let^ newP := new_plug (hp_set_unchanged note p) in','let^ newP := new_plug p in','the copy is not marked unchanged','C72')
M('v03',HM,'hinitPlugin','if pl_unchanged v then hret tt\n      else\n        let^ imp','if false then hret tt\n      else\n        let^ imp','carried-over plugins wired again: appends to the shared list of dependencies','C72')
M('v04',HM,'slice_append','if (sl_len s <? length xs)%nat\n      then Ret (put_arr a (<[sl_len s := d]> xs) h, Val (mkSlice (Some a) (S (sl_len s))))','if (sl_len s <? length xs)%nat\n      then Ret (put_arr a (<[sl_len s := d]> xs) h, Val (mkSlice (Some a) (sl_len s)))','append in place forgets the new length','C72')
M('v05',HM,'slice_append','let^ b := new_arr (take (sl_len s) xs ++ d :: replicate','let^ b := new_arr (d :: replicate','growing loses the old elements','C72')
M('v06',HM,'slice_append','(let^ b := new_arr (d :: replicate (grow 0) "") in hret (mkSlice (Some b) 1)) h\n  end.','Ret (put_arr 0 (d :: replicate (grow 0) "") h, Val (mkSlice (Some 0%N) 1))\n  end.','all lists of dependencies in one array','C72')
M('v07',HM,'hstore','fun h => Ret (put_cur (Some new) h, Val tt).','fun h => Ret (h, Val tt).','current not stored','C72')
M('v08',HM,'hloadPluginFiles','let^ _ := hinvokeReloadCallbacks cbs new old in\n      let^ details','let^ _ := (fun h => Ret (put_cur (Some new) h, Val tt)) in let^ _ := hinvokeReloadCallbacks cbs new old in\n      let^ details','the pointer is stored before the callbacks have agreed','C72')
M('v09',HM,'hnewPluginManager','new_mgr (mkHM (fst md) (snd md) ∅ [] 0 ∅ ∅ ∅ ext).','(fun h => match h_cur h with Some l => Ret (put_mgr l (mkHM (fst md) (snd md) ∅ [] 0 ∅ ∅ ∅ ext) h, Val l) | None => new_mgr (mkHM (fst md) (snd md) ∅ [] 0 ∅ ∅ ∅ ext) h end).','the manager in use is recycled','C72')
M('v10',HM,'hinvokeEveryOnFree','| _ :: _ => hfor (rev (hm_ordered m)) (fun p => let^ v := see_plug p in hlift (freeOne (hm_id m) v))','| _ :: _ => let^ _ := hfor (rev (hm_ordered m)) (fun p => let^ v := see_plug p in hlift (freeOne (hm_id m) v)) in set_mgr pm (hm_set_ordered [])','a release empties the manager','C72')
M('v11',HM,'hinitPlugin','let^ i := new_imp in','let^ i := (fun h => match h_plug h !! 1%N ≫= hp_imp with Some i => Ret (h, Val i) | None => new_imp h end) in','the import object of the first plugin is used for all','C72')
M('v12',HM,'hloadPlugins_body','let^ oldMap := match old with None => hret ∅ | Some ol => let^ v := get_mgr ol in hret (hm_map v) end in','let^ oldMap := match old with None => hret ∅ | Some ol => let^ v := get_mgr ol in let^ _ := set_mgr ol (hm_set_map (fun _ => ∅)) in hret (hm_map v) end in','plugins are moved out of the old manager instead of copied','C72')
M('v13',HM,'hset_import','Ret (put_imp i (default [] (h_imp h !! i) ++ [(f, x)]) h, Val tt)','Ret (put_imp i [(f, x)] h, Val tt)','only the last imported value is kept','C72')
M('v14',HM,'hadmitPlugin','let^ _ := set_plug p (hp_set_reloadable b) in','let^ _ := hret tt in','Reloadable not stored','C72')
M('v15',HM,'honInitOne','if pl_unchanged v then hret tt\n  else\n    let^ we','if false then hret tt\n  else\n    let^ we','OnInit of carried-over plugins','C72')
M('v16',HM,'hwith_cleanup','| Val _ => Ret (fst so, Val tt)','| Val _ => Ret (put_cur (Some pm) (fst so), Val tt)','published at the end of loading, before callbacks','C72')
M('v17',HM,'horderPlugins','| Some ordered => set_mgr pm (hm_set_ordered ordered)','| Some ordered => set_mgr pm (hm_set_ordered (rev ordered))','order reversed','C72')
M('v18',HM,'haddUnchanged','let^ m := get_mgr pm in\n      let^ _ := hdo (ARefInc (hm_id m) (hp_inst p)) in\n      set_mgr pm','let^ m := get_mgr pm in\n      set_mgr pm','reference not counted','C72')
M('v19',HM,'hbuildDetails','hm_map m !! name2key (pluginName f)','hm_map m !! pluginName f','lookup without lower-casing','C72')
M('v20',HM,'hnewPluginManager','mkHM (fst md) (snd md) ∅ [] 0 ∅ ∅ ∅ ext).','mkHM (fst md) (snd md) ∅ [] 0 ∅ ∅ ∅ None).','Extension lost','C72')
# --- concurrency, second round (C74, C75)
M('w01',SM,'ReloadWithCallback','      locked (\n        let cbs := match extra with','      (\n        let cbs := match extra with','reloads do not take the mutex','C75/C20')
M('w02',SM,'ResetPluginDir','prog unit := do (ASetDir d).','prog unit := let* _ := do ALock in let* _ := do (ASetDir d) in do AUnlock.','ResetPluginDir takes the mutex (the fix of the race)','C75: ResetPluginDir is not ordered; C74: never waits')
M('w03',SM,'ReloadCounter','prog Z := do ALoadCounter.','prog Z := let* _ := do ALock in let* n := do ALoadCounter in let* _ := do AUnlock in Ret n.','ReloadCounter waits for loads','C74')
M('w04',SM,'loadPluginFiles','| Some om => do (ASpawnFree om (free_delay o))','| Some om => let* _ := do (ASpawnFree om (free_delay o)) in do (ASpawnFree om (free_delay o))','two release goroutines','C75/C24')
M('w05',SM,'loadPluginFiles','''                      let* _ := do (AStoreCurrent new) in
                      Ret (Val (Some details))''','''                      let* _ := do (AStoreCurrent new) in
                      let* _ := do (AStoreCurrent new) in
                      Ret (Val (Some details))''','published twice','C75')
M('w06',SM,'loadPluginFiles','              let* c := invokeReloadCallbacks cbs new old in','              let* _ := do (AStoreCurrent new) in\n              let* c := invokeReloadCallbacks cbs new old in','published before the callbacks have agreed','C07/C23/C75')
M('w07',SM,'Current','prog (option mgr) := do ALoadCurrent.','prog (option mgr) := let* _ := do ALock in let* m := do ALoadCurrent in let* _ := do AUnlock in Ret m.','Current waits for loads (and a load for itself)','C74/C20')
M('w08',CC,'update ASetDir','| ASetDir d => fun _ => mkMem (me_lock s) d ','| ASetDir d => fun _ => mkMem (me_lock s) (me_dir s) ','ResetPluginDir has no effect','C40/C69')
M('w09',CC,'answers ANewMgr','| ANewMgr => fun x => fst x ∉ me_mgrs s','| ANewMgr => fun x => True','managers share their identity','C75')
M('w10',SM,'freeThread','  let* _ := do (ASleep (pm_id om) delay) in\n  invokeEveryOnFree om.','  let* _ := do (ASleep (pm_id om) delay) in\n  let* _ := do ALock in invokeEveryOnFree om.','the release goroutine takes the mutex and keeps it','C74/C20/C75')
# --- UTF-8, Unicode (C28, C35, C46, C51, C69)
U8='Utf8.v'; TP='ToolPaths.v'
M('x01',U8,'seq2','within 194 b0 223 && cont b1','within 192 b0 223 && cont b1','overlong two-byte sequences accepted','C35: the reading of a string')
M('x02',U8,'seq3','|| (b0 =? 237) && within 128 b1 159) && cont b2','|| (b0 =? 237) && within 128 b1 191) && cont b2','surrogates accepted','C35: the reading of a string')
M('x03',U8,'one','if b0 <? 128 then b0 else rune_error','b0','bytes that are not UTF-8 read as Latin-1','C35/C28')
M('x04',U8,'to_lower','Definition to_lower (s : string) : string := of_runes (map lower_rune (runes s)).','Definition to_lower (s : string) : string := if forallb (fun r => negb (r =? rune_error)) (runes s) then of_runes (map lower_rune (runes s)) else s.','strings that are not UTF-8 are left as they are','C35/C28')
M('x05',U8,'to_lower','of_runes (map lower_rune (runes s)).','of_runes (map (fun r => if r <? 128 then lower_rune r else r) (runes s)).','only ASCII letters are lower-cased','C35/C28/C46')
M('x06',U8,'lower_table','(65, 90, 1, (32)%Z)','(65, 89, 1, (32)%Z)','Z has no lower case','C35')
M('x07',U8,'is_space','(r =? 133) || (r =? 160)','(r =? 133)','the no-break space is not white space','C69')
M('x08',TP,'word_rune','(48 <=? n) && (n <=? 57)','(48 <=? n) && (n <? 57)','the digit 9 is replaced','C51')
M('x09',TP,'wordName','(fun r => if word_rune r then ascii_of_N r else underscore) (runes s)','(fun c => if word_rune (N_of_ascii c) then c else underscore) (list_ascii_of_string s)','one underscore per byte','C51')
M('x10',U8,'rune_bytes','if negb (valid_rune r) then [239; 191; 189]','if negb (valid_rune r) then [239; 191; 190]','wrong replacement character','none: no such character is ever encoded')
# static mode and the builder's exit status
M('y01',SM,'loadStaticPlugins_body','sfor (sort_strings (map_keys statics))','sfor (List.rev (sort_strings (map_keys statics)))','registrations loaded in reverse order: the first of those equal up to case wins','C31/C55')
M('y02',SM,'loadStaticPlugins_body','| Err e => Ret (fst so, Err (ELoad name e))','| Err e => Ret (fst so, Err e)','the error does not say which registration','C71')
M('y03',SM,'loadStaticPlugin','(pm_when pm) "ok" false None','(pm_when pm) "" false None','no note','C31/C70')
M('y04',SM,'loadStaticPlugin','let p := mkPlugin (sp_name sp) "" ""','let p := mkPlugin (to_lower (sp_name sp)) "" ""','the plugin gets its name in lower case','C31')
M('y05',SM,'loadStaticPlugin','| missing => serr (EMissingFuncs missing)','| missing => admitPlugin p','incomplete registrations admitted','C55')
M('y06',SM,'swLoadStaticPlugins','let* c := invokeReloadCallbacks cbs new None in\n              match c with\n              | Err e => Ret (Err e)\n              | Pan x => Ret (Pan x)\n              | Val _ =>\n                  let* _ := do (AStoreCurrent new) in\n                  Ret (Val (Some ((fun _ => "ok") <$> sel)))','let* c := invokeReloadCallbacks cbs new None in\n              match c with\n              | Pan x => Ret (Pan x)\n              | _ =>\n                  let* _ := do (AStoreCurrent new) in\n                  Ret (Val (Some ((fun _ => "ok") <$> sel)))','the error of a callback ignored in static mode','C23/C08')
M('y07',SM,'swLoadStaticPlugins','(fun _ => "ok") <$> sel','(fun _ => "ok") <$> statics','Details lists every registration, whitelisted or not','C31/C33')
M('y08',TB,'exitCode','Panics _ => 1','Panics _ => 2','panics end with status 2','C64')
M('y09',SM,'loadStaticPlugins_body','invokeEveryOnLoad data in','invokeEveryOnLoad 0 in','data not handed to OnLoad in static mode','C05/C61')
M('y10',SM,'loadStaticPlugins_body','    let! _ := setupVault in\n    invokeEveryOnInit.','    let! _ := invokeEveryOnInit in\n    setupVault.','OnInit before the live tables in static mode','C05/C15')
M('y11',SM,'loadStaticPlugins_body','    let! _ := smod (upd_when now) in\n','','static plugins without time','C68')
M('y12',SM,'swLoadStaticPlugins','let* c := invokeReloadCallbacks cbs new None in','let* c := invokeReloadCallbacks [] new None in','callbacks not called in static mode','C23')
M('y13',SM,'selectStatic','(<[name := p]> acc)','acc','listed registrations not taken','C33')
