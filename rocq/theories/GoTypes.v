(** Go values, types, errors and the data types of package hotswap. *)
From Verif Require Export Times.

(** ** reflect: kinds, types and values *)

(** reflect.Kind: the kinds the code distinguishes; all others (ints, strings, arrays ...) are [KBasic]. *)
Inductive kind :=
  | KChan | KFunc | KMap | KPtr | KUnsafePointer | KInterface | KSlice | KStruct | KBasic.

(** Kinds of the types that are neither pointers nor structs. *)
Inductive okind := OChan | OFunc | OMap | OUnsafePointer | OInterface | OSlice | OBasic.

(** reflect.Type.  [id] stands for everything else that identifies the type.  Pointers know their element
    type, structs their fields. *)
Inductive gtype :=
  | TPtr (id : N) (elem : gtype)
  | TStruct (id : N) (fields : list sfield)
  | TOther (id : N) (k : okind)
(** reflect.StructField: name, value of the "hotswap" tag, Anonymous, whether the compiler regards the
    field as exported (PkgPath == ""), and its type. *)
with sfield := SField (sf_name sf_tag : string) (sf_anon sf_exported : bool) (sf_type : gtype).

Definition sf_name '(SField n _ _ _ _) := n.
Definition sf_tag '(SField _ t _ _ _) := t.
Definition sf_anon '(SField _ _ a _ _) := a.
Definition sf_exported '(SField _ _ _ e _) := e.
Definition sf_type '(SField _ _ _ _ t) := t.

Definition kind_of (t : gtype) : kind :=
  match t with
  | TPtr _ _ => KPtr
  | TStruct _ _ => KStruct
  | TOther _ OChan => KChan
  | TOther _ OFunc => KFunc
  | TOther _ OMap => KMap
  | TOther _ OUnsafePointer => KUnsafePointer
  | TOther _ OInterface => KInterface
  | TOther _ OSlice => KSlice
  | TOther _ OBasic => KBasic
  end.

(** reflect.Value: a value of dynamic type [gv_type]; [gv_nil] tells whether a nilable kind holds nil;
    [gv_payload] is the identity of the value (for a func: which code); [gv_pointee] what a pointer points to. *)
Inductive gvalue := GV (ty : gtype) (isnil : bool) (payload : N) (pointee : option gvalue).
Definition gv_type '(GV t _ _ _) := t.
Definition gv_nil '(GV _ b _ _) := b.
Definition gv_payload '(GV _ _ n _) := n.
Definition gv_pointee '(GV _ _ _ o) := o.

(** interface{}: nil or a value. *)
Definition iface := option gvalue.

(** plugin.go:60-71 isNil *)
Definition is_nil (v : iface) : bool :=
  match v with
  | None => true
  | Some g =>
      match kind_of (gv_type g) with
      | KChan | KFunc | KMap | KPtr | KUnsafePointer | KInterface | KSlice => gv_nil g
      | KStruct | KBasic => false
      end
  end.

(** ** The nine plugin functions *)
Inductive role :=
  | ROnLoad | ROnInit | ROnFree | RExport | RImport | RInvokeFunc | RReloadable
  | RLiveFuncs | RLiveTypes.
Global Instance role_eq_dec : EqDecision role.
Proof. solve_decision. Defined.

(** symbol names, pluginManager.go:178-190 makePluginFuncItemList *)
Definition role_symbol (r : role) : string :=
  match r with
  | ROnLoad => "OnLoad" | ROnInit => "OnInit" | ROnFree => "OnFree"
  | RExport => "Export" | RImport => "Import" | RInvokeFunc => "InvokeFunc"
  | RReloadable => "Reloadable"
  | RLiveFuncs => "HotswapLiveFuncs" | RLiveTypes => "HotswapLiveTypes"
  end.

(** plugin.go:21-33 PluginFuncs: nine func values; [None] is a nil func, [Some c] the function with code [c]. *)
Record PluginFuncs := mkFuncs {
  fOnLoad : option N; fOnInit : option N; fOnFree : option N;
  fExport : option N; fImport : option N; fInvokeFunc : option N; fReloadable : option N;
  fLiveFuncs : option N; fLiveTypes : option N }.

Definition no_funcs : PluginFuncs := mkFuncs None None None None None None None None None.

(** The field addressed by each item of makePluginFuncItemList (pluginManager.go:178-190). *)
Definition get_func (r : role) (f : PluginFuncs) : option N :=
  match r with
  | ROnLoad => fOnLoad f | ROnInit => fOnInit f | ROnFree => fOnFree f
  | RExport => fExport f | RImport => fImport f | RInvokeFunc => fInvokeFunc f
  | RReloadable => fReloadable f | RLiveFuncs => fLiveFuncs f | RLiveTypes => fLiveTypes f
  end.
Definition set_func (r : role) (v : option N) (f : PluginFuncs) : PluginFuncs :=
  let 'mkFuncs a b c d e g h i j := f in
  match r with
  | ROnLoad => mkFuncs v b c d e g h i j
  | ROnInit => mkFuncs a v c d e g h i j
  | ROnFree => mkFuncs a b v d e g h i j
  | RExport => mkFuncs a b c v e g h i j
  | RImport => mkFuncs a b c d v g h i j
  | RInvokeFunc => mkFuncs a b c d e v h i j
  | RReloadable => mkFuncs a b c d e g v i j
  | RLiveFuncs => mkFuncs a b c d e g h v j
  | RLiveTypes => mkFuncs a b c d e g h i v
  end.

(** ** Errors and panics *)

(** Values a Go panic can carry in this code base. *)
Inductive gpanic :=
  | PUser (n : N)          (** panic raised by plugin code, a callback, the extension constructor *)
  | PNil                   (** nil pointer dereference / call of a nil func *)
  | PIndex                 (** index out of range *)
  | PNote                  (** panic("unknown plugin note"), pluginManager.go:78 *)
  | POrder                 (** panic("something is wrong with ..."), pluginManager.go:384 *)
  | PSet                   (** reflect: Set on an unexported field *)
  | PFuel.                 (** model only: recursion fuel exhausted (proved unreachable) *)

Global Instance gpanic_eq_dec : EqDecision gpanic.
Proof. solve_decision. Defined.

(** One constructor per error-producing site; arguments are what the message mentions. *)
Inductive gerror :=
  | EOpaque (n : N)                          (** an error made outside hotswap (OS, runtime, plugin code) *)
  | EDirEmpty (alt : string)                 (** hutils.go: "%s cannot be empty" *)
  | ENotDir (dir : string)                   (** hutils.go: "%s is a not a directory" *)
  | EMissingPlugins (names : list string)    (** swapper: "cannot find the following plugin(s)" *)
  | ETwice                                   (** "never call loadPlugins twice" *)
  | EDup (key : string) (files : list string)(** "duplicate name detected" *)
  | ECount                                   (** "infoMap.Len()+len(pm.pluginMap) != len(files)" *)
  | ELoad (name : string) (e : gerror)       (** "failed to load the plugin %s. err: %w" *)
  | EMissingFuncs (symbols : list string)    (** "missing functions: ..." *)
  | EPanic (who : option string) (p : gpanic)(** "<hotswap...> panic: ..." *)
  | EImportShape (plugin : string)           (** "the return value of %s.Import() must be a pointer to a struct" *)
  | EAnonField (field plugin : string)
  | EUnknownDep (field plugin : string)
  | ENotReloadableDep (plugin dep : string)
  | ENotAssignable (dep plugin field : string)
  | ECyclic (names : list string)
  | ERebuilt (dep plugin : string)           (** "%s was rebuilt while %s was not" *)
  | ENilLiveFuncs (plugin : string) | ENilLiveTypes (plugin : string)
  | EDupLiveFunc (name another plugin : string) | EDupLiveType (name another plugin : string)
  | ESymEmpty | EOutNil | EOutNotPtr | ENotExist | ECannotAssign (sym : string)
  | EStaticMode                              (** "running under static linking mode" *)
  | ENoStatic (name : string).               (** "cannot find the static plugin %q" *)

(** Result of a Go call that may return an error or panic. *)
Inductive outcome (A : Type) :=
  | Val (a : A)
  | Err (e : gerror)
  | Pan (p : gpanic).
Arguments Val {A} a. Arguments Err {A} e. Arguments Pan {A} p.

(** ** Plugins and managers *)

Definition inst := N.   (** identity of one opened plugin: the shared Refs / freeOnce pointers *)
Definition handle := N. (** *plugin.Plugin *)

(** plugin.go:35-51 Plugin.  [pl_inst] stands for the pointers Refs and freeOnce, which all copies of an
    opened plugin share.  [pl_imports] is the part of the object returned by Import() that initDeps assigns:
    (field name, value) pairs in assignment order. *)
Record plugin := mkPlugin {
  pl_name : string; pl_file : string; pl_sha1 : string; pl_when : N; pl_note : string;
  pl_unchanged : bool; pl_P : option handle; pl_funcs : PluginFuncs; pl_deps : list string;
  pl_inst : inst; pl_exported : iface; pl_reloadable : bool;
  pl_imports : list (string * gvalue) }.

(** pluginManager.go:24-36 PluginManager.  [pm_id] is the identity of the object.  A *Plugin inside a manager
    is represented by its key in [pm_map]; [pm_ordered] is the list of those pointers.
    [pm_born] is the time and the process id the field dirName is made from (it never changes).
    The logger and the test hooks cbOpen/panicTrigger (no-ops outside the tests) are not modelled. *)
Record mgr := mkMgr {
  pm_id : N; pm_born : moment * N;
  pm_map : gmap string plugin; pm_ordered : list string; pm_when : N;
  pm_livefuncs : gmap string N; pm_livetypes : gmap string N;
  pm_databag : gmap string N; pm_ext : iface }.

(** the field dirName (pluginManager.go:25 and 38-44) *)
Definition pm_dirName (m : mgr) : string := dir_name (pm_born m).

(** pluginManager.go:585-587 name2key *)
Definition name2key (name : string) : string := to_lower name.

(** internal/hutils/os.go:4 FileNameExt *)
Definition FileNameExt : string := ".so".

(** pluginManager.go:620-622 pluginName *)
Definition pluginName (file : string) : string := trim_suffix FileNameExt (path_base file).

(** pluginManager.go:557-562 fileInfo *)
Record fileInfo := mkInfo { fi_name : string; fi_file : string; fi_data : string; fi_sha1 : string }.

(** The parts of the Go runtime and libraries the model leaves open.  Every theorem holds for all of them. *)
Class GoEnv := {
  assignable : gtype -> gtype -> bool;      (** reflect.Type.AssignableTo *)
  sha1 : string -> string;                  (** crypto/sha1.Sum *)
  xxhash32 : string -> N;                   (** xxHash32.Checksum(_, 0) *)
  role_type : role -> gtype                 (** the func types of the fields of PluginFuncs *)
}.
