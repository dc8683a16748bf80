(** The loading code of plugin.go, pluginManager.go, staticPlugin.go and pluginManagerSwapper.go once more, on the level of
    pointers: objects in a heap, dereferences, stores through pointers, slices that share their backing arrays.  The model of
    ManagerModel.v and SwapperModel.v passes managers and plugins around as values; C72 (PropHeap.v) shows that this is faithful:
    the pointer program has the same executions, and writes to no object that existed before the call. *)
From Verif Require Export Spec.

(** Address of an object. *)
Notation loc := N (only parsing).
(** A []string: backing array (None: no array, capacity 0) and length; the capacity is the length of the array. *)
Record slice := mkSlice { sl_arr : option loc; sl_len : nat }.
(** plugin.go:35-51 Plugin.  [hp_inst] stands for the pointers Refs and freeOnce.  [hp_imp] is the address of the object Import()
    returned: the struct of the code has no such field, the object belongs to the plugin; it is kept here to be able to say
    which object the wiring of this plugin has written to. *)
Record hplugin := mkHP {
  hp_name : string; hp_file : string; hp_sha1 : string; hp_when : N; hp_note : string;
  hp_unchanged : bool; hp_P : option handle; hp_funcs : PluginFuncs; hp_deps : slice;
  hp_inst : inst; hp_exported : iface; hp_reloadable : bool; hp_imp : option loc }.
(** pluginManager.go:24-36 PluginManager.  The maps pluginMap, LiveFuncs, LiveTypes and DataBag are made by newPluginManager and
    never handed to another manager; they are part of the object here. *)
Record hmgr := mkHM {
  hm_id : N; hm_born : moment * N;
  hm_map : gmap string loc; hm_ordered : list loc; hm_when : N;
  hm_livefuncs : gmap string N; hm_livetypes : gmap string N; hm_databag : gmap string N; hm_ext : iface }.
(** All objects.  Addresses from [h_next] on are free.  [h_cur] is the field current of the swapper. *)
Record heap := mkHeap {
  h_next : loc;
  h_plug : gmap N hplugin;                     (** Plugin structs *)
  h_arr : gmap N (list string);                (** backing arrays of slices *)
  h_imp : gmap N (list (string * gvalue));     (** objects returned by Import(): the fields hotswap has set, in order *)
  h_mgr : gmap N hmgr;                         (** PluginManager structs *)
  h_cur : option loc;
  h_log : list N }.                            (** not in the code: the addresses stored to so far, latest first *)

(** append: how much spare room a new backing array gets.  The theorems hold for every such function. *)
Class HeapEnv := { grow : nat -> nat }.

(** ** What the objects mean for the model with values *)
Definition slice_view (h : heap) (s : slice) : list string :=
  match sl_arr s with
  | None => []
  | Some a => take (sl_len s) (default [] (h_arr h !! a))
  end.
Definition import_view (h : heap) (i : option loc) : list (string * gvalue) :=
  match i with None => [] | Some l => default [] (h_imp h !! l) end.
Definition view_plugin (h : heap) (p : hplugin) : plugin :=
  mkPlugin (hp_name p) (hp_file p) (hp_sha1 p) (hp_when p) (hp_note p) (hp_unchanged p) (hp_P p) (hp_funcs p)
           (slice_view h (hp_deps p)) (hp_inst p) (hp_exported p) (hp_reloadable p) (import_view h (hp_imp p)).
Definition view_ptr (h : heap) (l : loc) : option plugin := view_plugin h <$> h_plug h !! l.
Definition key_ptr (h : heap) (l : loc) : option string := (fun p => name2key (hp_name p)) <$> h_plug h !! l.
Definition view_mgr (h : heap) (m : hmgr) : mgr :=
  mkMgr (hm_id m) (hm_born m) (omap (view_ptr h) (hm_map m)) (omap (key_ptr h) (hm_ordered m)) (hm_when m)
        (hm_livefuncs m) (hm_livetypes m) (hm_databag m) (hm_ext m).
(** the manager at address [l] *)
Definition view (h : heap) (l : loc) : option mgr := view_mgr h <$> h_mgr h !! l.

(** ** Programs on the heap *)
Definition HM (A : Type) := heap -> prog (heap * outcome A).
Definition hret {A} (a : A) : HM A := fun h => Ret (h, Val a).
Definition herr {A} (e : gerror) : HM A := fun h => Ret (h, Err e).
Definition hpan {A} (x : gpanic) : HM A := fun h => Ret (h, Pan x).
Definition hbind {A B} (m : HM A) (f : A -> HM B) : HM B := fun h =>
  bind (m h) (fun so =>
    match snd so with
    | Val a => f a (fst so)
    | Err e => Ret (fst so, Err e)
    | Pan x => Ret (fst so, Pan x)
    end).
Notation "'let^' x := m 'in' f" := (hbind m (fun x => f)) (at level 200, x name, m at level 200, f at level 200, right associativity).
Definition hdo {X} (a : act X) : HM X := fun h => Act a (fun x => Ret (h, Val x)).
Definition hlift {A} (p : prog (outcome A)) : HM A := fun h => bind p (fun o => Ret (h, o)).
Definition hrun {A} (p : prog A) : HM A := fun h => bind p (fun o => Ret (h, Val o)).
Fixpoint hfor {A} (l : list A) (body : A -> HM unit) : HM unit :=
  match l with
  | [] => hret tt
  | x :: l' => let^ _ := body x in hfor l' body
  end.

(** functional updates *)
Definition put_plug (l : loc) (p : hplugin) (h : heap) : heap :=
  mkHeap (h_next h) (<[l := p]> (h_plug h)) (h_arr h) (h_imp h) (h_mgr h) (h_cur h) (l :: h_log h).
Definition put_arr (l : loc) (a : list string) (h : heap) : heap :=
  mkHeap (h_next h) (h_plug h) (<[l := a]> (h_arr h)) (h_imp h) (h_mgr h) (h_cur h) (l :: h_log h).
Definition put_imp (l : loc) (a : list (string * gvalue)) (h : heap) : heap :=
  mkHeap (h_next h) (h_plug h) (h_arr h) (<[l := a]> (h_imp h)) (h_mgr h) (h_cur h) (l :: h_log h).
Definition put_mgr (l : loc) (m : hmgr) (h : heap) : heap :=
  mkHeap (h_next h) (h_plug h) (h_arr h) (h_imp h) (<[l := m]> (h_mgr h)) (h_cur h) (l :: h_log h).
Definition put_cur (c : option loc) (h : heap) : heap :=
  mkHeap (h_next h) (h_plug h) (h_arr h) (h_imp h) (h_mgr h) c (h_log h).
Definition bump (h : heap) : heap :=
  mkHeap (N.succ (h_next h)) (h_plug h) (h_arr h) (h_imp h) (h_mgr h) (h_cur h) (h_log h).

(** dereference; a dangling address does not occur *)
Definition get_plug (l : loc) : HM hplugin := fun h =>
  match h_plug h !! l with Some p => Ret (h, Val p) | None => Ret (h, Pan PNil) end.
Definition get_mgr (l : loc) : HM hmgr := fun h =>
  match h_mgr h !! l with Some m => Ret (h, Val m) | None => Ret (h, Pan PNil) end.
(** all that can be read through a *Plugin *)
Definition see_plug (l : loc) : HM plugin := fun h =>
  match h_plug h !! l with Some p => Ret (h, Val (view_plugin h p)) | None => Ret (h, Pan PNil) end.
(** all that can be read through a *PluginManager *)
Definition see_mgr (l : loc) : HM mgr := fun h =>
  match h_mgr h !! l with Some m => Ret (h, Val (view_mgr h m)) | None => Ret (h, Pan PNil) end.
(** store into the struct at an address *)
Definition set_plug (l : loc) (f : hplugin -> hplugin) : HM unit := fun h =>
  match h_plug h !! l with Some p => Ret (put_plug l (f p) h, Val tt) | None => Ret (h, Pan PNil) end.
Definition set_mgr (l : loc) (f : hmgr -> hmgr) : HM unit := fun h =>
  match h_mgr h !! l with Some m => Ret (put_mgr l (f m) h, Val tt) | None => Ret (h, Pan PNil) end.
(** a new object *)
Definition new_plug (p : hplugin) : HM loc := fun h => Ret (put_plug (h_next h) p (bump h), Val (h_next h)).
Definition new_mgr (m : hmgr) : HM loc := fun h => Ret (put_mgr (h_next h) m (bump h), Val (h_next h)).
Definition new_arr (a : list string) : HM loc := fun h => Ret (put_arr (h_next h) a (bump h), Val (h_next h)).
Definition new_imp : HM loc := fun h => Ret (put_imp (h_next h) [] (bump h), Val (h_next h)).

Section Model.
Context {E : GoEnv} {HE : HeapEnv}.

(** append(s, d): in place if there is room, otherwise into a new array *)
Definition slice_append (s : slice) (d : string) : HM slice := fun h =>
  match sl_arr s with
  | Some a =>
      let xs := default [] (h_arr h !! a) in
      if (sl_len s <? length xs)%nat
      then Ret (put_arr a (<[sl_len s := d]> xs) h, Val (mkSlice (Some a) (S (sl_len s))))
      else (let^ b := new_arr (take (sl_len s) xs ++ d :: replicate (grow (sl_len s)) "") in hret (mkSlice (Some b) (S (sl_len s)))) h
  | None => (let^ b := new_arr (d :: replicate (grow 0) "") in hret (mkSlice (Some b) 1)) h
  end.

(** field updates *)
Definition hp_set_unchanged (note : string) (p : hplugin) : hplugin :=
  mkHP (hp_name p) (hp_file p) (hp_sha1 p) (hp_when p) note true (hp_P p) (hp_funcs p) (hp_deps p) (hp_inst p) (hp_exported p) (hp_reloadable p) (hp_imp p).
Definition hp_set_P (x : option handle) (p : hplugin) : hplugin :=
  mkHP (hp_name p) (hp_file p) (hp_sha1 p) (hp_when p) (hp_note p) (hp_unchanged p) x (hp_funcs p) (hp_deps p) (hp_inst p) (hp_exported p) (hp_reloadable p) (hp_imp p).
Definition hp_set_funcs (f : PluginFuncs -> PluginFuncs) (p : hplugin) : hplugin :=
  mkHP (hp_name p) (hp_file p) (hp_sha1 p) (hp_when p) (hp_note p) (hp_unchanged p) (hp_P p) (f (hp_funcs p)) (hp_deps p) (hp_inst p) (hp_exported p) (hp_reloadable p) (hp_imp p).
Definition hp_set_deps (s : slice) (p : hplugin) : hplugin :=
  mkHP (hp_name p) (hp_file p) (hp_sha1 p) (hp_when p) (hp_note p) (hp_unchanged p) (hp_P p) (hp_funcs p) s (hp_inst p) (hp_exported p) (hp_reloadable p) (hp_imp p).
Definition hp_set_exported (v : iface) (p : hplugin) : hplugin :=
  mkHP (hp_name p) (hp_file p) (hp_sha1 p) (hp_when p) (hp_note p) (hp_unchanged p) (hp_P p) (hp_funcs p) (hp_deps p) (hp_inst p) v (hp_reloadable p) (hp_imp p).
Definition hp_set_reloadable (b : bool) (p : hplugin) : hplugin :=
  mkHP (hp_name p) (hp_file p) (hp_sha1 p) (hp_when p) (hp_note p) (hp_unchanged p) (hp_P p) (hp_funcs p) (hp_deps p) (hp_inst p) (hp_exported p) b (hp_imp p).
Definition hp_set_imp (i : option loc) (p : hplugin) : hplugin :=
  mkHP (hp_name p) (hp_file p) (hp_sha1 p) (hp_when p) (hp_note p) (hp_unchanged p) (hp_P p) (hp_funcs p) (hp_deps p) (hp_inst p) (hp_exported p) (hp_reloadable p) i.
Definition hm_set_map (f : gmap string loc -> gmap string loc) (m : hmgr) : hmgr :=
  mkHM (hm_id m) (hm_born m) (f (hm_map m)) (hm_ordered m) (hm_when m) (hm_livefuncs m) (hm_livetypes m) (hm_databag m) (hm_ext m).
Definition hm_set_ordered (l : list loc) (m : hmgr) : hmgr :=
  mkHM (hm_id m) (hm_born m) (hm_map m) l (hm_when m) (hm_livefuncs m) (hm_livetypes m) (hm_databag m) (hm_ext m).
Definition hm_set_when (w : N) (m : hmgr) : hmgr :=
  mkHM (hm_id m) (hm_born m) (hm_map m) (hm_ordered m) w (hm_livefuncs m) (hm_livetypes m) (hm_databag m) (hm_ext m).
Definition hm_set_livefuncs (f : gmap string N -> gmap string N) (m : hmgr) : hmgr :=
  mkHM (hm_id m) (hm_born m) (hm_map m) (hm_ordered m) (hm_when m) (f (hm_livefuncs m)) (hm_livetypes m) (hm_databag m) (hm_ext m).
Definition hm_set_livetypes (f : gmap string N -> gmap string N) (m : hmgr) : hmgr :=
  mkHM (hm_id m) (hm_born m) (hm_map m) (hm_ordered m) (hm_when m) (hm_livefuncs m) (f (hm_livetypes m)) (hm_databag m) (hm_ext m).
Definition hm_set_databag (f : gmap string N -> gmap string N) (m : hmgr) : hmgr :=
  mkHM (hm_id m) (hm_born m) (hm_map m) (hm_ordered m) (hm_when m) (hm_livefuncs m) (hm_livetypes m) (f (hm_databag m)) (hm_ext m).

(** pluginManager.go:38-59 newPluginManager *)
Definition hnewPluginManager (newExt : bool) : HM loc :=
  let^ md := hdo ANewMgr in
  let^ ext := hlift (if newExt then do ANewExt else Ret (Val None)) in
  new_mgr (mkHM (fst md) (snd md) ∅ [] 0 ∅ ∅ ∅ ext).

(** pluginManager.go:61-67 addUnchanged: newP is a copy of *oldP; it shares the array of Deps and the counters *)
Definition haddUnchanged (pm : loc) (oldP : option loc) (note : string) : HM unit :=
  match oldP with
  | None => hpan PNil
  | Some oldP =>
      let^ p := get_plug oldP in
      let^ newP := new_plug (hp_set_unchanged note p) in
      let^ m := get_mgr pm in
      let^ _ := hdo (ARefInc (hm_id m) (hp_inst p)) in
      set_mgr pm (hm_set_map <[name2key (hp_name p) := newP]>)
  end.

(** pluginManager.go:69-85 outputStats1 *)
Definition houtputStats1 (pm : loc) : HM unit :=
  let^ m := see_mgr pm in
  if forallb (fun kp => known_note (snd kp)) (map_to_list (pm_map m)) then hret tt else hpan PNote.

(** pluginManager.go:162-171 copyPlugin *)
Definition hcopyPlugin (pm : loc) (info : fileInfo) : HM string :=
  let^ m := get_mgr pm in
  let^ e := hdo (AMkdirAll (copy_dir (dir_name (hm_born m)) info)) in
  match e with
  | Some e => herr e
  | None =>
      let^ e := hdo (AWriteFile (copy_dst (dir_name (hm_born m)) info) (fi_data info)) in
      match e with Some e => herr e | None => hret (copy_dst (dir_name (hm_born m)) info) end
  end.

(** pluginManager.go:209-219: the Lookup loop; each symbol is stored through &p.fXxx *)
Fixpoint hlookupAll (items : list role) (p : loc) (missing : list string) : HM (list string) :=
  match items with
  | [] => hret missing
  | r :: items' =>
      let^ v := see_plug p in
      let^ o := hrun (Plugin_Lookup v (role_symbol r) (out_ptr r)) in
      match o with
      | Val x => let^ _ := set_plug p (hp_set_funcs (set_func r (code_of x))) in hlookupAll items' p missing
      | Err ENotExist => hlookupAll items' p (missing ++ [role_symbol r])
      | Err e => herr e
      | Pan x => hpan x
      end
  end.

(** pluginManager.go:224-234 and staticPlugin.go:114-125 *)
Definition hadmitPlugin (pm p : loc) : HM unit :=
  let^ m := get_mgr pm in
  let^ v := see_plug p in
  let^ b := hlift (invokeReloadable (hm_id m) v) in
  let^ _ := set_plug p (hp_set_reloadable b) in
  let^ v := see_plug p in
  let^ x := hlift (invokeExport (hm_id m) v) in
  let^ _ := set_plug p (hp_set_exported x) in
  set_mgr pm (hm_set_map <[name2key (pl_name v) := p]>).

(** pluginManager.go:192-235 loadPlugin.  (The first assignments to the fields of the object newPlugin() returns are made with
    its creation.) *)
Definition hloadPlugin (pm : loc) (info : option fileInfo) : HM unit :=
  match info with
  | None => hpan PNil
  | Some info =>
      let^ actual := hcopyPlugin pm info in
      let^ m := get_mgr pm in
      let^ i := hdo (ANewInst (hm_id m) (fi_name info)) in
      let^ p := new_plug (mkHP (fi_name info) (fi_file info) (fi_sha1 info) (hm_when m) "" false None no_funcs (mkSlice None 0) i None false None) in
      let^ x := hlift (do (AOpen actual)) in
      let^ _ := set_plug p (hp_set_P (Some x)) in
      let^ missing := hlookupAll funcItems p [] in
      match missing with
      | [] => hadmitPlugin pm p
      | _ => herr (EMissingFuncs missing)
      end
  end.

(** p.Deps = append(p.Deps, d) *)
Definition hadd_dep (p : loc) (d : string) : HM unit :=
  let^ v := get_plug p in
  let^ s := slice_append (hp_deps v) d in
  set_plug p (hp_set_deps s).
(** reflect.ValueOf(imp).Elem().Field(i).Set(exportedVal): a store into the object Import() returned *)
Definition hset_import (p : loc) (f : string) (x : gvalue) : HM unit := fun h =>
  match h_plug h !! p with
  | Some v => match hp_imp v with
              | Some i => Ret (put_imp i (default [] (h_imp h !! i) ++ [(f, x)]) h, Val tt)
              | None => Ret (h, Pan PNil)
              end
  | None => Ret (h, Pan PNil)
  end.

(** pluginManager.go:261-290: one field of the Import() object of *p *)
Definition hinitField (pm p : loc) (f : sfield) : HM unit :=
  let^ v := see_plug p in
  match sf_name f with
  | EmptyString => hpan PIndex
  | String ch _ =>
      if negb (is_upper_byte ch) then hret tt
      else if String.eqb (sf_tag f) "-" then hret tt
      else if sf_anon f then herr (EAnonField (sf_name f) (pl_name v))
      else
        let^ m := get_mgr pm in
        match hm_map m !! name2key (sf_name f) with
        | None => herr (EUnknownDep (sf_name f) (pl_name v))
        | Some dep =>
            let^ d := see_plug dep in
            if negb (pl_reloadable v) && pl_reloadable d
            then herr (ENotReloadableDep (pl_name v) (pl_name d))
            else
              match pl_exported d with
              | Some g =>
                  if is_nil (Some g) then hadd_dep p (pl_name d)
                  else if negb (assignable (gv_type g) (sf_type f))
                  then herr (ENotAssignable (pl_name d) (pl_name v) (sf_name f))
                  else if negb (sf_exported f) then hpan PSet
                  else let^ _ := hset_import p (sf_name f) g in hadd_dep p (pl_name d)
              | None => hadd_dep p (pl_name d)
              end
        end
  end.

(** pluginManager.go:244-291.  That Import() of a plugin opened by this call returns an object hotswap has not seen before
    ([new_imp]) is an assumption. *)
Definition hinitPlugin (pm : loc) (k : string) : HM unit :=
  let^ m := get_mgr pm in
  match hm_map m !! k with
  | None => hpan PNil
  | Some p =>
      let^ v := see_plug p in
      if pl_unchanged v then hret tt
      else
        let^ imp := hlift (invokeImport (hm_id m) v) in
        match imp with
        | None => hret tt
        | Some g =>
            if is_nil (Some g) then hret tt
            else match gv_type g with
                 | TPtr _ (TStruct _ fields) =>
                     let^ i := new_imp in
                     let^ _ := set_plug p (hp_set_imp (Some i)) in
                     hfor fields (hinitField pm p)
                 | _ => herr (EImportShape (pl_name v))
                 end
        end
  end.

(** pluginManager.go:321-341 checkCyclicDependency: visited is a set of pointers; None is a nil *Plugin *)
Fixpoint hcyc_deps (rec : string -> outcome (list loc)) (me : loc) (deps : list string) : outcome (list loc) :=
  match deps with
  | [] => Val []
  | d :: deps' =>
      match rec (name2key d) with
      | Val [] => hcyc_deps rec me deps'
      | Val ret => Val (me :: ret)
      | o => o
      end
  end.
Fixpoint hcheckCyclic (h : heap) (m : gmap string loc) (fuel : nat) (visited : gset N) (p : option loc) : outcome (list loc) :=
  match fuel with
  | O => Pan PFuel
  | S fuel' =>
      match p with
      | None => Pan PNil
      | Some p =>
          if decide (p ∈ visited) then Val [p]
          else match h_plug h !! p with
               | None => Pan PNil
               | Some v => hcyc_deps (fun k => hcheckCyclic h m fuel' ({[p]} ∪ visited) (m !! k)) p (slice_view h (hp_deps v))
               end
      end
  end.
Definition hname_of (h : heap) (p : loc) : string := match h_plug h !! p with Some v => hp_name v | None => "" end.

(** pluginManager.go:293-305 *)
Definition hcheckOne (pm : loc) (k : string) : HM unit :=
  let^ m := get_mgr pm in
  match hm_map m !! k with
  | None => hpan PNil
  | Some p =>
      let^ v := see_plug p in
      match pl_deps v with
      | [] => hret tt
      | _ =>
          let^ cyclicDeps := (fun h => Ret (h, match hcheckCyclic h (hm_map m) (S (size (hm_map m))) ∅ (Some p) with
                                               | Val l => Val (map (hname_of h) l) | Err e => Err e | Pan x => Pan x end)) in
          match cyclicDeps with
          | [] => hret tt
          | names => herr (ECyclic names)
          end
      end
  end.

(** pluginManager.go:307-315 *)
Definition hcheckRebuilt (pm : loc) (k : string) : HM unit :=
  let^ m := get_mgr pm in
  match hm_map m !! k with
  | None => hpan PNil
  | Some p =>
      let^ v := see_plug p in
      if pl_unchanged v then
        hfor (pl_deps v) (fun depName =>
          match hm_map m !! name2key depName with
          | None => hpan PNil
          | Some dep =>
              let^ d := see_plug dep in
              if pl_unchanged d then hret tt else herr (ERebuilt (pl_name d) (pl_name v))
          end)
      else hret tt
  end.

(** pluginManager.go:343-385 orderPlugins: the slice [a] and the set m hold pointers *)
Definition hdeps_placed (m : gmap string loc) (placed : list loc) (deps : list string) : bool :=
  forallb (fun d => match m !! name2key d with Some p => bool_decide (p ∈ placed) | None => false end) deps.
Fixpoint horderRound (h : heap) (m : gmap string loc) (keys : list string) (a : list loc) : list loc :=
  match keys with
  | [] => a
  | k :: keys' =>
      match m !! k with
      | None => horderRound h m keys' a
      | Some p =>
          if decide (p ∈ a) then horderRound h m keys' a
          else match h_plug h !! p with
               | None => horderRound h m keys' a
               | Some v => if hdeps_placed m a (slice_view h (hp_deps v)) then horderRound h m keys' (a ++ [p])
                           else horderRound h m keys' a
               end
      end
  end.
Fixpoint horderRounds (h : heap) (m : gmap string loc) (n : nat) (keys : list string) (a : list loc) (rounds : nat) : option (list loc) :=
  match rounds with
  | O => None
  | S r => if (length a =? n)%nat then Some a else horderRounds h m n keys (horderRound h m keys a) r
  end.
Definition hhas_deps (h : heap) (m : gmap string loc) (k : string) : bool :=
  match m !! k with
  | Some p => match h_plug h !! p with Some v => negb (bool_decide (slice_view h (hp_deps v) = [])) | None => false end
  | None => false
  end.
Definition horderPlugins (pm : loc) : HM unit :=
  let^ m := get_mgr pm in
  let^ it := hdo (AIter (map_keys (hm_map m))) in
  let^ ordered := (fun h => Ret (h, Val
    (let a := omap (fun k => hm_map m !! k) (List.filter (fun k => negb (hhas_deps h (hm_map m) k)) it) in
     let keys := sort_strings (List.filter (hhas_deps h (hm_map m)) it) in
     horderRounds h (hm_map m) (size (hm_map m)) keys a (S (size (hm_map m)))))) in
  match ordered with
  | Some ordered => set_mgr pm (hm_set_ordered ordered)
  | None => hpan POrder
  end.

(** pluginManager.go:237-319 initDeps *)
Definition hinitDeps (pm : loc) : HM unit :=
  let^ m := get_mgr pm in
  let^ _ := hfor (sort_strings (map_keys (hm_map m))) (hinitPlugin pm) in
  let^ it2 := hdo (AIter (map_keys (hm_map m))) in
  let^ _ := hfor it2 (hcheckOne pm) in
  let^ it3 := hdo (AIter (map_keys (hm_map m))) in
  let^ _ := hfor it3 (hcheckRebuilt pm) in
  horderPlugins pm.

(** pluginManager.go:387-408 invokeEveryOnLoad *)
Definition honLoadOne (pm : loc) (data : N) (p : loc) : HM unit :=
  let^ m := get_mgr pm in
  let^ v := see_plug p in
  if pl_unchanged v then hret tt
  else
    let^ e := hlift (let* o := call ROnLoad (hm_id m) v (ArgData data) in Ret (recovered (pl_name v) o)) in
    match e with None => hret tt | Some e => herr e end.
Definition hinvokeEveryOnLoad (pm : loc) (data : N) : HM unit :=
  let^ m := get_mgr pm in hfor (hm_ordered m) (honLoadOne pm data).

(** pluginManager.go:410-431 invokeEveryOnInit *)
Definition honInitOne (pm : loc) (p : loc) : HM unit :=
  let^ m := get_mgr pm in
  let^ v := see_plug p in
  if pl_unchanged v then hret tt
  else
    let^ we := hlift (let* o := call ROnInit (hm_id m) v (ArgVault (hm_id m)) in Ret (recovered (pl_name v) o)) in
    let^ _ := set_mgr pm (hm_set_databag (store_all (fst (we : role_resp ROnInit)))) in
    match snd (we : role_resp ROnInit) with None => hret tt | Some e => herr e end.
Definition hinvokeEveryOnInit (pm : loc) : HM unit :=
  let^ m := get_mgr pm in hfor (hm_ordered m) (honInitOne pm).

(** pluginManager.go:445-452 / 469-476 *)
Fixpoint hfindAnother (tbl : plugin -> prog (outcome (option (list (string * N))))) (earlier : list loc) (name : string) : HM string :=
  match earlier with
  | [] => hret ""
  | q :: earlier' =>
      let^ v := see_plug q in
      let^ o := hlift (tbl v) in
      match o with
      | Some l => if bool_decide (name ∈ map fst l) then hret (pl_name v) else hfindAnother tbl earlier' name
      | None => hfindAnother tbl earlier' name
      end
  end.
(** pluginManager.go:433-483 setupVault *)
Fixpoint haddLiveFuncs (pm : loc) (earlier : list loc) (p : loc) (l : list (string * N)) : HM unit :=
  match l with
  | [] => hret tt
  | (name, x) :: l' =>
      let^ m := get_mgr pm in
      match hm_livefuncs m !! name with
      | None => let^ _ := set_mgr pm (hm_set_livefuncs <[name := x]>) in haddLiveFuncs pm earlier p l'
      | Some _ =>
          let^ another := hfindAnother (fun q => call RLiveFuncs (hm_id m) q ArgNone) earlier name in
          let^ v := see_plug p in
          herr (EDupLiveFunc name another (pl_name v))
      end
  end.
Fixpoint haddLiveTypes (pm : loc) (earlier : list loc) (p : loc) (l : list (string * N)) : HM unit :=
  match l with
  | [] => hret tt
  | (name, x) :: l' =>
      let^ m := get_mgr pm in
      match hm_livetypes m !! name with
      | None => let^ _ := set_mgr pm (hm_set_livetypes <[name := x]>) in haddLiveTypes pm earlier p l'
      | Some _ =>
          let^ another := hfindAnother (fun q => call RLiveTypes (hm_id m) q ArgNone) earlier name in
          let^ v := see_plug p in
          herr (EDupLiveType name another (pl_name v))
      end
  end.
Fixpoint hvaultFuncs (pm : loc) (earlier rest : list loc) : HM unit :=
  match rest with
  | [] => hret tt
  | p :: rest' =>
      let^ m := get_mgr pm in
      let^ v := see_plug p in
      let^ tbl := hlift (call RLiveFuncs (hm_id m) v ArgNone) in
      match (tbl : role_resp RLiveFuncs) with
      | None => herr (ENilLiveFuncs (pl_name v))
      | Some l => let^ _ := haddLiveFuncs pm earlier p l in hvaultFuncs pm (earlier ++ [p]) rest'
      end
  end.
Fixpoint hvaultTypes (pm : loc) (earlier rest : list loc) : HM unit :=
  match rest with
  | [] => hret tt
  | p :: rest' =>
      let^ m := get_mgr pm in
      let^ v := see_plug p in
      let^ tbl := hlift (call RLiveTypes (hm_id m) v ArgNone) in
      match (tbl : role_resp RLiveTypes) with
      | None => herr (ENilLiveTypes (pl_name v))
      | Some l => let^ _ := haddLiveTypes pm earlier p l in hvaultTypes pm (earlier ++ [p]) rest'
      end
  end.
Definition hsetupVault (pm : loc) : HM unit :=
  let^ m := get_mgr pm in
  let^ _ := hvaultFuncs pm [] (hm_ordered m) in
  hvaultTypes pm [] (hm_ordered m).

(** pluginManager.go:485-511 invokeEveryOnFree: only the counters of the plugins are written, and they are atomic *)
Definition hinvokeEveryOnFree (pm : loc) : HM unit :=
  let^ m := get_mgr pm in
  match hm_ordered m with
  | _ :: _ => hfor (rev (hm_ordered m)) (fun p => let^ v := see_plug p in hlift (freeOne (hm_id m) v))
  | [] =>
      let^ it := hdo (AIter (map_keys (hm_map m))) in
      hfor it (fun k => match hm_map m !! k with
                        | None => hpan PNil
                        | Some p => let^ v := see_plug p in hlift (freeOne (hm_id m) v)
                        end)
  end.

(** pluginManager.go:89-100 *)
Definition hwith_cleanup (pm : loc) (body : HM unit) : HM unit := fun h =>
  bind (body h) (fun so =>
    match snd so with
    | Val _ => Ret (fst so, Val tt)
    | Err e =>
        bind (hinvokeEveryOnFree pm (fst so)) (fun c => match snd c with Pan x => Ret (fst c, Pan x) | _ => Ret (fst c, Err e) end)
    | Pan x =>
        bind (hinvokeEveryOnFree pm (fst so)) (fun c => match snd c with Pan x' => Ret (fst c, Pan x') | _ => Ret (fst c, Err (EPanic None x)) end)
    end).

(** pluginManager.go:568-605 and 102-159.  The old manager is a pointer; its plugins are read through it. *)
Definition hloadPlugins_body (pm : loc) (files : list string) (old : option loc) (data : N) : HM unit :=
  let^ m := get_mgr pm in
  if negb (size (hm_map m) =? 0)%nat then herr ETwice
  else
    let^ dups := hdo (AIter (dup_keys files)) in
    match dups with
    | k :: _ => herr (EDup k files)
    | [] =>
        let^ infos := hlift (buildFileInfoMap files ∅) in
        let^ o := match old with None => hret None | Some ol => let^ v := see_mgr ol in hret (Some v) end in
        let^ oldMap := match old with None => hret ∅ | Some ol => let^ v := get_mgr ol in hret (hm_map v) end in
        let^ it1 := hdo (AIter (map_keys (notReloadable_of o infos))) in
        let^ _ := hfor it1 (fun k => haddUnchanged pm (oldMap !! k) "not reloadable") in
        let^ it2 := hdo (AIter (map_keys (unchanged_of o (without_notReloadable o infos)))) in
        let^ _ := hfor it2 (fun k => haddUnchanged pm (oldMap !! k) "unchanged") in
        let^ m := get_mgr pm in
        if negb (size (without_unchanged o (without_notReloadable o infos)) + size (hm_map m) =? length files)%nat then herr ECount
        else
          let^ _ := houtputStats1 pm in
          let^ now := hdo ANow in
          let^ _ := set_mgr pm (hm_set_when now) in
          let^ _ := hfor (info_names (without_unchanged o (without_notReloadable o infos))) (fun name h =>
            bind (hloadPlugin pm (without_unchanged o (without_notReloadable o infos) !! name) h) (fun so =>
              Ret (fst so, open_outcome (without_unchanged o (without_notReloadable o infos) !! name) name (snd so)))) in
          let^ _ := hinitDeps pm in
          let^ _ := hinvokeEveryOnLoad pm data in
          let^ _ := hsetupVault pm in
          hinvokeEveryOnInit pm
    end.
Definition hloadPlugins (pm : loc) (files : list string) (old : option loc) (data : N) : HM unit :=
  hwith_cleanup pm (hloadPlugins_body pm files old data).

(** staticPlugin.go:95-126 and 44-93 *)
Definition hloadStaticPlugin (pm : loc) (sp : option StaticPlugin) : HM unit :=
  let^ m := get_mgr pm in
  let^ i := hdo (ANewInst (hm_id m) (match sp with Some sp => sp_name sp | None => "" end)) in
  match sp with
  | None => hpan PNil
  | Some sp =>
      let^ p := new_plug (mkHP (sp_name sp) "" "" (hm_when m) "ok" false None (sp_funcs sp) (mkSlice None 0) i None false None) in
      match missing_funcs (sp_funcs sp) with
      | [] => hadmitPlugin pm p
      | missing => herr (EMissingFuncs missing)
      end
  end.
Definition hloadStaticPlugins_body (pm : loc) (statics : gmap string (option StaticPlugin)) (data : N) : HM unit :=
  let^ m := get_mgr pm in
  if negb (size (hm_map m) =? 0)%nat then herr ETwice
  else
    let^ now := hdo ANow in
    let^ _ := set_mgr pm (hm_set_when now) in
    let^ _ := hfor (sort_strings (map_keys statics)) (fun name h =>
      bind (hloadStaticPlugin pm (default None (statics !! name)) h) (fun so =>
        match snd so with
        | Err e => Ret (fst so, Err (ELoad name e))
        | _ => Ret so
        end)) in
    let^ _ := hinitDeps pm in
    let^ _ := hinvokeEveryOnLoad pm data in
    let^ _ := hsetupVault pm in
    hinvokeEveryOnInit pm.
Definition hloadStaticPlugins (pm : loc) (statics : gmap string (option StaticPlugin)) (data : N) : HM unit :=
  hwith_cleanup pm (hloadStaticPlugins_body pm statics data).

(** ** The swapper *)
(** pluginManagerSwapper.go:69-73 Current.  The event records what can be read through the pointer. *)
Definition hCurrent : HM (option loc) := fun h => Act ALoadCurrent (fun _ => Ret (h, Val (h_cur h))).
Definition see_opt (old : option loc) : HM (option mgr) :=
  match old with None => hret None | Some l => let^ v := see_mgr l in hret (Some v) end.

(** pluginManagerSwapper.go:169-188 invokeReloadCallbacks *)
Fixpoint hinvokeReloadCallbacks (cbs : list (option N)) (new : loc) (old : option loc) : HM unit :=
  match cbs with
  | [] => hret tt
  | None :: cbs' => hinvokeReloadCallbacks cbs' new old
  | Some cb :: cbs' =>
      let^ n := see_mgr new in
      let^ o := see_opt old in
      let^ r := hdo (ACallback cb n o) in
      match (match r with Val e => e | Err e => Some e | Pan x => Some (EPanic None x) end) with
      | None => hinvokeReloadCallbacks cbs' new old
      | Some e => fun h => bind (hinvokeEveryOnFree new h) (fun c => match snd c with Pan x => Ret (fst c, Pan x) | _ => Ret (fst c, Err e) end)
      end
  end.

(** pluginManagerSwapper.go:145-153 *)
Fixpoint hbuildDetails (new : loc) (files : list string) (acc : Details) : HM Details :=
  match files with
  | [] => hret acc
  | f :: files' =>
      let^ m := get_mgr new in
      match hm_map m !! name2key (pluginName f) with
      | None => hpan PNil
      | Some p => let^ v := see_plug p in hbuildDetails new files' (<[pl_file v := detail_of v]> acc)
      end
  end.

(** sw.current.Store(newManager) *)
Definition hstore (new : loc) : HM unit :=
  let^ n := see_mgr new in
  let^ _ := hdo (AStoreCurrent n) in
  fun h => Ret (put_cur (Some new) h, Val tt).

(** pluginManagerSwapper.go:131-167 loadPluginFiles *)
Definition hloadPluginFiles (o : opts) (files : list string) (data : N) (cbs : list (option N)) : HM (option Details) :=
  match files with
  | [] => hret None
  | _ =>
      let^ old := hCurrent in
      let^ new := hnewPluginManager (o_newExt o) in
      let^ _ := hloadPlugins new files old data in
      let^ _ := hinvokeReloadCallbacks cbs new old in
      let^ details := hbuildDetails new files ∅ in
      let^ _ := match old with
                | Some ol => let^ v := see_mgr ol in hdo (ASpawnFree v (free_delay o))
                | None => hret tt
                end in
      let^ _ := hstore new in
      hret (Some details)
  end.

(** pluginManagerSwapper.go:87-129 loadPluginsImpl *)
Definition hloadPluginsImpl (o : opts) (data : N) (cbs : list (option N)) : HM (option Details) :=
  let^ dir1 := hdo AGetDir in
  let^ _ := hlift (FindDirectory dir1 "pluginDir") in
  let^ dir2 := hdo AGetDir in
  let^ absDir := hlift (do (AAbs dir2)) in
  let^ entries := hlift (do (AReadDir absDir)) in
  if negb (whitelist_ok (o_whitelist o) (snd (selectFiles (o_whitelist o) absDir entries)))
  then herr (EMissingPlugins (missing_plugins (o_whitelist o) (snd (selectFiles (o_whitelist o) absDir entries))))
  else hloadPluginFiles o (fst (selectFiles (o_whitelist o) absDir entries)) data cbs.

(** staticPlugin.go:128-156 PluginManagerSwapper.loadStaticPlugins *)
Definition hswLoadStaticPlugins (o : opts) (statics : gmap string (option StaticPlugin)) (data : N) (cbs : list (option N)) : HM (option Details) :=
  let^ new := hnewPluginManager (o_newExt o) in
  let^ sel := (fun h => Ret (h, match o_whitelist o with [] => Val statics | wl => selectStatic statics wl ∅ end)) in
  let^ _ := hloadStaticPlugins new sel data in
  let^ _ := hinvokeReloadCallbacks cbs new None in
  let^ _ := hstore new in
  hret (Some ((fun _ => "ok") <$> sel)).

Definition hlocked {A} (p : HM A) : HM A := fun h =>
  Act ALock (fun _ => bind (p h) (fun r => Act AUnlock (fun _ => Ret r))).

(** pluginManagerSwapper.go:75-85 and 190-210 *)
Definition hapi (o : opts) (a : api) : HM (option Details) :=
  match a with
  | Call_LoadPlugins data =>
      hlocked (match o_static o with
               | Some statics => hswLoadStaticPlugins o statics data [o_reloadCallback o]
               | None => hloadPluginsImpl o data [o_reloadCallback o]
               end)
  | Call_Reload data extra =>
      match o_static o with
      | Some _ => herr EStaticMode
      | None =>
          hlocked (
            let cbs := match extra with None => [o_reloadCallback o] | Some e => [o_reloadCallback o; Some e] end in
            let^ d := hloadPluginsImpl o data cbs in
            let^ _ := hdo AAddCounter in
            hret d)
      end
  end.
End Model.
