(** Model of the parts of the build tool (cli/hotswap/cmd/build.go) that look at declarations and generate code. *)
From Verif Require Export ManagerModel SwapperModel.

(** A panic of the tool: `execute` (build.go:145-154) prints the value on stderr and exits with status 1. *)
Inductive tool (A : Type) := Done (x : A) | Panics (msg : string).
Arguments Done {A} _. Arguments Panics {A} _.

(** A top-level declaration of a Go file as far as the tool looks at it:
    a function (with receiver or not), a `type` declaration with its specs (name, is the type a struct literal),
    anything else.  Generic functions and types are not distinguished (they would not compile when registered). *)
Inductive decl := DFunc (recv : bool) (name : string) | DType (specs : list (string * bool)) | DOther.

(** ** hutils.Join (internal/hutils/hutils.go:130-141) *)
Definition Join (a : list string) : string :=
  match a with
  | [] => ""
  | [x] => x
  | [x; y] => x +:+ " and " +:+ y
  | _ => join_with ", " (removelast a) +:+ " and " +:+ List.last a ""
  end.

(** ** parseRequiredPluginFuncs (build.go:514-576) *)
(** build.go:515-529: the map of required names, every value "nil"; with an empty package name (dynamic builds) the two
    generated functions are not required. *)
Definition requiredFuncs (pkgName : string) : gmap string string :=
  let m := list_to_map (map (fun n => (n, "nil")) ["OnLoad"; "OnInit"; "OnFree"; "Export"; "Import"; "InvokeFunc"; "Reloadable"; "HotswapLiveFuncs"; "HotswapLiveTypes"]) in
  if String.eqb pkgName "" then delete "HotswapLiveTypes" (delete "HotswapLiveFuncs" m) else m.
(** build.go:540-550, one declaration *)
Definition noteFunc (pkgName : string) (m : gmap string string) (d : decl) : gmap string string :=
  match d with
  | DFunc false name => match m !! name with Some _ => <[name := pkgName +:+ "." +:+ name]> m | None => m end
  | _ => m
  end.
(** build.go:531-553.  [files]: the .go files of the directory with their declarations (go/parser.ParseDir; files that do
    not parse make the tool panic and are not modelled), in any order; the filter drops _test.go files. *)
Definition noteFiles (pkgName : string) (files : list (string * list decl)) (m : gmap string string) : gmap string string :=
  fold_left (fun m f => if has_suffix "_test.go" (fst f) then m else fold_left (noteFunc pkgName) (snd f) m) files m.
(** build.go:555-575.  [it]: the order in which the map is iterated. *)
Definition parseRequiredPluginFuncs (pkgName : string) (files : list (string * list decl)) (it : list string) : tool (list (string * string)) :=
  let m := noteFiles pkgName files (requiredFuncs pkgName) in
  let missing := List.filter (fun k => bool_decide (m !! k = Some "nil")) it in
  let a := List.filter (fun k => negb (bool_decide (m !! k = Some "nil"))) it in
  match missing with
  | [] => Done (map (fun k => (k, default "" (m !! k))) (sort_strings a))
  | _ => Panics ("missing fundamental plugin functions: " +:+ Join (sort_strings missing))
  end.
(** build.go:294-297: dynamic builds check unless the environment variable is "false" or "0" *)
Definition checkRequired (envVar : string) (files : list (string * list decl)) (it : list string) : tool unit :=
  if String.eqb envVar "false" || String.eqb envVar "0" then Done tt
  else match parseRequiredPluginFuncs "" files it with Done _ => Done tt | Panics msg => Panics msg end.

(** ** The generated registration of a static plugin (build.go:578-624, hotswapStaticPluginInit.tpl) *)
(** hotswapStaticPluginInit.tpl:10-19: the map key, the Name field, and the argument expressions in order; with the import of the
    plugin package under a name (tpl:7) *)
Record staticInit := mkInit { si_key : string; si_name : string; si_import : string * string; si_args : list string }.
(** build.go:587-590 *)
Definition importName (pkg : string) : string := if String.eqb pkg "hotswap" then "hotswapx" else pkg.
(** build.go:579-607.  [plugin]: base name of the plugin directory; [pkgName], [pkgPath]: package of the plugin directory. *)
Definition genHotswapStaticPluginInit (plugin pkgName pkgPath : string) (files : list (string * list decl)) (it : list string) : tool staticInit :=
  let pkgName := importName pkgName in
  match parseRequiredPluginFuncs pkgName files it with
  | Done fs => Done (mkInit plugin plugin (pkgName, pkgPath) (map snd fs))
  | Panics msg => Panics msg
  end.

(** What Go makes of the generated code: the argument expressions are evaluated and passed by position to
    [NewPluginFuncs]; a wrong number of
    arguments does not compile ([None]).  [eval]: the value of an expression such as "pkg.Name". *)
Definition runInit (eval : string -> option N) (i : staticInit) : option (string * StaticPlugin) :=
  match map eval (si_args i) with
  | [a; b; c; d; e; f; g; h; j] => Some (si_key i, mkStatic (si_name i) (NewPluginFuncs a b c d e f g h j))
  | _ => None
  end.

(** ** Live functions and types (build.go:1003-1096 completePlugin) *)
(** packages.Package as far as it is used: path, name, Go files, declarations of its files *)
Record package := mkPkg { pk_path : string; pk_name : string; pk_gofiles : list string; pk_syntax : list (list decl) }.
(** build.go:1024-1027 the four maps, and the errors printed so far *)
Record live := mkLive { lv_names : gset string; lv_funcs : gmap string (list string); lv_types : gmap string (list string);
  lv_pkgs : gmap string package; lv_errs : list string }.
Definition no_live : live := mkLive ∅ ∅ ∅ ∅ [].
Definition push (k x : string) (m : gmap string (list string)) : gmap string (list string) := <[k := default [] (m !! k) ++ [x]]> m.
Definition dup_msg (name : string) : string := "duplicate live func/type name detected: " +:+ name.
(** build.go:1049-1063 *)
Definition liveFunc (prefix dir : string) (pkg : package) (s : live) (name : string) : live :=
  if has_prefix prefix (to_lower name) then
    if bool_decide (name ∈ lv_names s) then mkLive (lv_names s) (lv_funcs s) (lv_types s) (lv_pkgs s) (lv_errs s ++ [dup_msg name])
    else mkLive ({[name]} ∪ lv_names s) (push dir name (lv_funcs s)) (lv_types s) (<[dir := pkg]> (lv_pkgs s)) (lv_errs s)
  else s.
(** build.go:1068-1090 *)
Definition liveType (prefix dir : string) (pkg : package) (s : live) (spec : string * bool) : live :=
  let name := fst spec in
  if has_prefix prefix (to_lower name) then
    if negb (snd spec) then mkLive (lv_names s) (lv_funcs s) (lv_types s) (lv_pkgs s)
      (lv_errs s ++ [name +:+ " (a live type) must be a simple struct. package: " +:+ pk_path pkg])
    else if bool_decide (name ∈ lv_names s) then mkLive (lv_names s) (lv_funcs s) (lv_types s) (lv_pkgs s) (lv_errs s ++ [dup_msg name])
    else mkLive ({[name]} ∪ lv_names s) (lv_funcs s) (push dir name (lv_types s)) (<[dir := pkg]> (lv_pkgs s)) (lv_errs s)
  else s.
(** build.go:1044-1091 *)
Definition liveDecl (prefix dir : string) (pkg : package) (s : live) (d : decl) : live :=
  match d with
  | DFunc true _ | DOther => s
  | DFunc false name => liveFunc prefix dir pkg s name
  | DType specs => fold_left (liveType prefix dir pkg) specs s
  end.
(** build.go:1034-1092; [dirOf]: filepath.Dir of a file.  No interrupt arrives (build.go:1038-1042). *)
Definition livePackage (dirOf : string -> string) (prefix : string) (s : live) (pkg : package) : live :=
  match pk_gofiles pkg with
  | [] => s
  | f :: _ => fold_left (fun s synt => fold_left (liveDecl prefix (dirOf f) pkg) synt s) (pk_syntax pkg) s
  end.
(** build.go:1034-1095; the number of errors is in the message *)
Definition collectLive (dirOf : string -> string) (prefix : string) (pkgs : list package) : live + list string :=
  let s := fold_left (livePackage dirOf prefix) pkgs no_live in
  match lv_errs s with [] => inl s | errs => inr errs end.

(** *** Generated code *)
(** build.go:926-932, hotswapMain.tpl:5-11: the packages imported for their registrations *)
Definition mainImports (tmpPkgPath : string) (s : live) (it : list string) : list string :=
  sort_strings (omap (fun dir => match lv_pkgs s !! dir with Some pkg => if String.eqb (pk_path pkg) tmpPkgPath then None else Some (pk_path pkg) | None => None end) it).
(** build.go:1134-1141, 972-985 and hotswapLive.tpl: for each live directory the package, the functions and the types registered by its init *)
Definition liveInit (s : live) (dir : string) : option (package * list string * list string) :=
  match lv_pkgs s !! dir with
  | Some pkg => Some (pkg, default [] (lv_funcs s !! dir), default [] (lv_types s !! dir))
  | None => None
  end.

(** *** The bureau (hotswapBureau.tpl): [None] is the panic for a name registered twice.
    A registered function or type is identified by the package path and the name. *)
Notation table := (gmap string (string * string)).
Definition Register (name : string) (v : string * string) (t : table) : option table :=
  match t !! name with None => Some (<[name := v]> t) | Some _ => None end.
Fixpoint registerAll (path : string) (names : list string) (t : table) : option table :=
  match names with
  | [] => Some t
  | n :: names => match Register n (path, n) t with Some t => registerAll path names t | None => None end
  end.
(** the init function of one generated hotswap.live.go (hotswapLive.tpl:9-19) *)
Definition runLive (i : package * list string * list string) (ft : table * table) : option (table * table) :=
  let '(pkg, fs, ts) := i in
  match registerAll (pk_path pkg) fs (fst ft), registerAll (pk_path pkg) ts (snd ft) with
  | Some f, Some t => Some (f, t)
  | _, _ => None
  end.
(** program start: the inits of the live packages that are linked - those imported by hotswap.main.go and the root
    package itself -, in any order Go chooses; the order is [dirs], a list of directories *)
Definition linked (tmpPkgPath : string) (imports : list string) (pkg : package) : bool :=
  String.eqb (pk_path pkg) tmpPkgPath || bool_decide (pk_path pkg ∈ imports).
Fixpoint startUp (tmpPkgPath : string) (imports : list string) (s : live) (dirs : list string) (ft : table * table) : option (table * table) :=
  match dirs with
  | [] => Some ft
  | d :: dirs =>
      match liveInit s d with
      | Some (pkg, fs, ts) =>
          if linked tmpPkgPath imports pkg then match runLive (pkg, fs, ts) ft with Some ft => startUp tmpPkgPath imports s dirs ft | None => None end
          else startUp tmpPkgPath imports s dirs ft
      | None => startUp tmpPkgPath imports s dirs ft
      end
  end.
