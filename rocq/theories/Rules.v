(** The rules a set of plugins has to obey to be loaded, and environments in which nothing fails (C55). *)
From Verif Require Export Spec.

Section Rules.
Context {E : GoEnv}.

(** What the functions of a plugin answer during a load. *)
Record described := mkDesc {
  d_reloadable : bool;              (** Reloadable() *)
  d_export : iface;                 (** Export() *)
  d_import : iface;                 (** Import() *)
  d_funcs : list (string * N);      (** the live functions *)
  d_types : list (string * N) }.    (** the live types *)

(** [x] is the answer of a function of a plugin described by [d]; OnLoad and OnInit return no error. *)
Definition good_answer (d : described) (r : role) : outcome (role_resp r) -> Prop :=
  match r return outcome (role_resp r) -> Prop with
  | RReloadable => fun x => x = Val (d_reloadable d)
  | RExport => fun x => x = Val (d_export d)
  | RImport => fun x => x = Val (d_import d)
  | RLiveFuncs => fun x => x = Val (Some (d_funcs d))
  | RLiveTypes => fun x => x = Val (Some (d_types d))
  | ROnLoad => fun x => x = Val None
  | ROnInit => fun x => exists writes, x = Val (writes, None)
  | ROnFree | RInvokeFunc => fun _ => True
  end.

(** The symbol is a function of the type required for role [r], or a pointer to a variable that holds one; not nil. *)
Definition good_symbol (r : role) (sym : gvalue) : Prop :=
  if assignable (gv_type sym) (role_type r) then gv_nil sym = false
  else exists x ty f, gv_type sym = TPtr x ty /\ assignable ty (role_type r) = true /\ gv_pointee sym = Some f /\ gv_nil f = false.

(** An environment in which nothing fails.  [entries]: the plugin directory; [content]: the contents of its files;
    [D]: the plugins by name. *)
Definition well_behaved (D : string -> described) (entries : list (string * bool)) (content : string -> string) (e : event) : Prop :=
  match e with
  | EvGetDir d => blank d = false
  | EvStat _ r => r = Val true
  | EvAbs _ r => exists abs, r = Val abs
  | EvReadDir _ r => r = Val entries
  | EvReadFile f r => r = Val (content (path_base f))
  | EvMkdir _ r | EvWriteFile _ _ r => r = None
  | EvOpen _ r => exists h, r = Val h
  | EvLookupSym _ sym r => exists v, r = Some v /\ forall rl, sym = role_symbol rl -> good_symbol rl v
  | EvCall r c _ x => good_answer (D (c_name c)) r x
  | EvNewExt r => exists ext, r = Val ext
  | EvCallback _ _ _ r => r = Val None
  | _ => True
  end.

(** The plugin of the current manager that is kept for the file [f]: one that is not reloadable or whose file has not
    changed. *)
Definition kept_for (cur : option mgr) (content : string -> string) (f : string) : option plugin :=
  match cur with
  | None => None
  | Some m => match FindPlugin m (plugin_of f) with
              | Some q => if negb (pl_reloadable q) || String.eqb (sha1 (content f)) (pl_sha1 q) then Some q else None
              | None => None
              end
  end.
(** The names of the plugins to be loaded from [files], and what is kept for each name. *)
Definition names_of (files : list string) : list string := map (fun f => to_lower (plugin_of f)) files.
Definition kept_among (cur : option mgr) (content : string -> string) (files : list string) (n : string) : option plugin :=
  match List.filter (fun f => String.eqb (to_lower (plugin_of f)) n) files with
  | f :: _ => kept_for cur content f
  | [] => None
  end.

Section Set_of_plugins.
(** [names]: the plugins to be loaded; [kept]: those that are taken over from the current manager *)
Context (D : string -> described) (kept : string -> option plugin) (names : list string).

(** What plugin [n] exports, whether it is reloadable, the names it depends on. *)
Definition exports_of (n : string) : iface := match kept n with Some q => pl_exported q | None => d_export (D n) end.
Definition reloadable_of (n : string) : bool := match kept n with Some q => pl_reloadable q | None => d_reloadable (D n) end.
Definition deps_of (n : string) : list string :=
  match kept n with
  | Some q => pl_deps q
  | None => match dep_fields (d_import (D n)) with Some fields => map sf_name fields | None => [] end
  end.
Definition needs (a b : string) : Prop := a ∈ names /\ b ∈ names /\ exists d, d ∈ deps_of a /\ same_name d b.

(** Field [f] of the Import() object of plugin [n] can be served by plugin [q]. *)
Definition servable (n : string) (f : sfield) (q : string) : Prop :=
  sf_anon f = false /\
  (d_reloadable (D n) = false -> reloadable_of q = false) /\
  (forall g, exports_of q = Some g -> is_nil (Some g) = false -> assignable (gv_type g) (sf_type f) = true /\ sf_exported f = true).

Record rules : Prop := mkRules {
  (** Import() of a new plugin returns nil or a pointer to a struct; every dependency field names a present plugin that can serve it *)
  rule_imports : forall n, n ∈ names -> kept n = None -> exists fields, dep_fields (d_import (D n)) = Some fields /\
    forall f, f ∈ fields -> exists q, q ∈ names /\ same_name (sf_name f) q /\ servable n f q;
  (** the dependencies of a kept plugin are present and kept *)
  rule_kept : forall n p d, n ∈ names -> kept n = Some p -> d ∈ pl_deps p -> exists q, q ∈ names /\ same_name d q /\ kept q <> None;
  (** no plugin depends on itself, directly or indirectly *)
  rule_acyclic : forall n, ~ tc needs n n;
  (** no live function or type name is used twice *)
  rule_funcs : NoDup (concat (map (fun n => map fst (d_funcs (D n))) names));
  rule_types : NoDup (concat (map (fun n => map fst (d_types (D n))) names)) }.
End Set_of_plugins.

(** The rules for the files of the directory: no two plugin names are equal up to case, names are in lower case except perhaps
    those of files for which a plugin is kept, and the whitelist, if there is one, has no duplicates and names plugins that have
    a file. *)
Definition file_rules (cur : option mgr) (content : string -> string) (whitelist : list string) (entries : list (string * bool)) : Prop :=
  NoDup (names_of (plugin_files whitelist entries)) /\
  (forall f, f ∈ plugin_files whitelist entries -> to_lower (plugin_of f) = plugin_of f \/ kept_for cur content f <> None) /\
  (whitelist <> [] -> NoDup whitelist /\ forall n, n ∈ whitelist -> has_file entries n).

End Rules.
