(** Model of path handling in the build tool: the Go functions it calls, package discovery, the checks and temporary names of `execute`. *)
From Verif Require Export ToolDecls.

(** ** Go library (path/filepath on Unix, package path is the same there) *)
(** strings.Split(s, "/") *)
Fixpoint split_slash (s : string) : list string :=
  match s with
  | EmptyString => [""]
  | String c s => if Ascii.eqb c slash then "" :: split_slash s
                  else match split_slash s with x :: l => String c x :: l | [] => [String c ""] end
  end.
(** the elements of a path after processing "", "." and ".."; [stack] is reversed *)
Fixpoint resolve (rooted : bool) (stack cs : list string) : list string :=
  match cs with
  | [] => rev stack
  | c :: cs =>
      if String.eqb c "" || String.eqb c "." then resolve rooted stack cs
      else if String.eqb c ".." then
        match stack with
        | [] => resolve rooted (if rooted then [] else [".."]) cs
        | x :: st => if String.eqb x ".." then resolve rooted (".." :: stack) cs else resolve rooted st cs
        end
      else resolve rooted (c :: stack) cs
  end.
Definition rooted (s : string) : bool := has_prefix "/" s.
(** filepath.Clean *)
Definition Clean (s : string) : string :=
  let body := join_with "/" (resolve (rooted s) [] (split_slash s)) in
  if rooted s then "/" +:+ body else if String.eqb body "" then "." else body.
(** filepath.Join *)
Fixpoint drop_empty (l : list string) : list string := match l with "" :: l => drop_empty l | _ => l end.
Definition GoJoin (l : list string) : string := match drop_empty l with [] => "" | l => Clean (join_with "/" l) end.
(** filepath.Dir: everything up to the last slash, cleaned *)
Definition GoDir (s : string) : string :=
  Clean (match rev (split_slash s) with [] | [_] => "" | _ :: r => join_with "/" (rev r) +:+ "/" end).
(** filepath.Rel: [None] is an error *)
Definition elements (s : string) : list string := List.filter (fun c => negb (String.eqb c "")) (split_slash s).
Fixpoint strip_common (b t : list string) : list string * list string :=
  match b, t with
  | x :: b', y :: t' => if String.eqb x y then strip_common b' t' else (b, t)
  | _, _ => (b, t)
  end.
Definition Rel (base targ : string) : option string :=
  let base := Clean base in
  let targ := Clean targ in
  if String.eqb targ base then Some "."
  else
    let base := if String.eqb base "." then "" else base in
    if Bool.eqb (rooted base) (rooted targ) then
      match strip_common (elements base) (elements targ) with
      | ([], t) => Some (join_with "/" t)
      | (b :: bs, t) => if String.eqb b ".." then None else Some (join_with "/" (map (fun _ => "..") (b :: bs) ++ t))
      end
    else None.

(** ** hutils.PackageFromDirectory (internal/hutils/hutils.go:36-108) *)
Definition word_rune (n : N) : bool :=
  ((65 <=? n) && (n <=? 90) || (97 <=? n) && (n <=? 122) || (48 <=? n) && (n <=? 57) || (n =? 95))%N.
Definition underscore : ascii := "_"%char.
Fixpoint trim_left (l : list ascii) : list ascii := match l with c :: l' => if Ascii.eqb c underscore then trim_left l' else l | [] => [] end.
(** hutils.go:51-61: the directory name with every other rune replaced by '_' and '_' trimmed at both ends. *)
Definition wordName (s : string) : string :=
  let l := map (fun r => if word_rune r then ascii_of_N r else underscore) (runes s) in
  string_of_list_ascii (rev (trim_left (rev (trim_left l)))).
(** hutils.go:48-73.  [pkgs]: the names of the packages found in the directory by go/parser.ParseDir - all .go files, test files included. *)
Definition packageName (dir : string) (pkgs : list string) : tool string :=
  match pkgs with
  | [] => let n := wordName (path_base dir) in if String.eqb n "" then Panics ("failed to convert " +:+ dir +:+ " to a package name") else Done n
  | [p] => if String.eqb p "" then Panics ("empty package name. dir: " +:+ dir) else Done p
  | _ => Panics (dir +:+ " contains several packages")
  end.
(** What os.Stat, ioutil.ReadFile and modfile.ParseLax say about a go.mod file: [None] if Stat fails, otherwise the module path or an error. *)
Definition gomods := string -> option (string + string).
Inductive search := Searching (absDir : string) (a1 : list string) | Found (pkgPath : string) | Failed (err : string).
(** hutils.go:76-104, one round of the loop *)
Definition searchStep (gomod : gomods) (s : search) : search :=
  match s with
  | Searching absDir a1 =>
      if String.eqb absDir "" then Failed "cannot find go.mod"
      else match gomod (GoJoin [absDir; "go.mod"]) with
           | None => Searching (GoDir absDir) (a1 ++ [path_base absDir])
           | Some (inr e) => Failed e
           | Some (inl m) => if String.eqb m "" then Failed "failed to parse go.mod [2]" else Found (GoJoin (m :: rev a1))
           end
  | s => s
  end.
Fixpoint searchRounds (n : nat) (gomod : gomods) (s : search) : search :=
  match n with O => s | S n => searchRounds n gomod (searchStep gomod s) end.

(** ** execute (cli/hotswap/cmd/build.go:144-313): directories *)
Record flags := mkFlags { fl_leaveTemps : bool; fl_goBuild : bool; fl_static : bool }.
Record setup := mkSetup { su_tmpDirName : string; su_tmpDir : string; su_tmpPkgPath : string; su_leaveTemps : bool }.
(** build.go:216-223; both directories are absolute (filepath.Abs, build.go:205-214) *)
Definition outputCheck (static : bool) (pluginDir outputDir : string) : tool unit :=
  if static then
    if String.eqb outputDir pluginDir then Panics "<pluginDir> and <outputDir> must not be identical"
    else match Rel pluginDir outputDir with
         | Some rel => if has_prefix ".." rel then Done tt else Panics "<outputDir> must not be a subdirectory of <pluginDir>"
         | None => Done tt
         end
  else Done tt.
(** build.go:230-264; [commitInfo] and [now] are the formatted commit and time *)
Definition makeSetup (fl : flags) (pluginDir pluginPkgPath commitInfo now : string) : setup :=
  let leave := fl_leaveTemps fl || negb (fl_goBuild fl) || fl_static fl in
  if fl_static fl then mkSetup (path_base pluginDir) pluginDir pluginPkgPath leave
  else let name := path_base pluginDir +:+ "-" +:+ commitInfo +:+ "-" +:+ now in
       mkSetup name (GoJoin [GoDir pluginDir; name]) (GoJoin [GoDir pluginPkgPath; name]) leave.
(** The directories removed with everything below: build.go:249-253 (a temporary directory left over, dynamic builds only;
    [existed]: there is one), and removeTmpDir (build.go:356-360), which the goroutine of build.go:270-284 runs once, on SIGINT, SIGTERM
    or at the end ([ends]: the program came as far as installing it). *)
Definition removedDirs (fl : flags) (su : setup) (existed ends : bool) : list string :=
  (if negb (fl_static fl) && existed then [su_tmpDir su] else []) ++ (if ends && negb (su_leaveTemps su) then [su_tmpDir su] else []).

(** ** Static builds: the output directory (build.go:393-512, 578-655) *)
(** what a file of the output directory contains: a generated registration, the generated table, or anything else *)
Inductive content := CInit (i : staticInit) | CTable (pkg : string) | COther (text : string).
Inductive entry := File (c : content) | Subdir.
Notation outdir := (gmap string entry).
(** build.go:402-423 findPluginInitFiles: the regexp hotswap\.staticPluginInit\..+?\.go, not anchored, on the base name *)
Fixpoint then_go (s : string) : bool := (** at least zero more bytes but no newline, then ".go" *)
  has_prefix ".go" s || match s with EmptyString => false | String c s => negb (Ascii.eqb c "010"%char) && then_go s end.
Definition init_tail (s : string) : bool := (** one byte, not a newline, then any, then ".go" *)
  match s with EmptyString => false | String c s => negb (Ascii.eqb c "010"%char) && then_go s end.
Definition init_prefix : string := "hotswap.staticPluginInit.".
Fixpoint isInitFile (s : string) : bool :=
  (has_prefix init_prefix s && init_tail (substring (String.length init_prefix) (String.length s - String.length init_prefix) s)) ||
  match s with EmptyString => false | String _ s => isInitFile s end.
(** build.go:466-472 in removeStaticFiles: delete them all.  Subdirectories are skipped.  The directory itself is tested too
    (build.go:412-419): if its own name matches, os.Remove of it fails as long as it is not empty, and if it is empty the following
    write fails; either way the tool panics. *)
Definition removeInitFiles (outBase : string) (d : outdir) : tool outdir :=
  if isInitFile outBase then Panics "remove" else
  Done (filter (fun kv => match snd kv with File _ => negb (isInitFile (fst kv)) | Subdir => true end = true) d).
Definition initFile (plugin : string) : string := "hotswap.staticPluginInit." +:+ plugin +:+ ".go".
Definition tableFile : string := "hotswap.staticPlugins.go".
(** ioutil.WriteFile: fails on a directory *)
Definition writeFile (name : string) (c : content) (d : outdir) : tool outdir :=
  match d !! name with Some Subdir => Panics "is a directory" | _ => Done (<[name := File c]> d) end.
(** build.go:393-400, 1003-1143: a static build as far as the output directory is concerned.  [gen]: the registration generated for
    the plugin (or the panic of the generator).  [outPkg]: the package name of the output directory. *)
Definition staticBuild (outBase outPkg : string) (plugin : string) (gen : tool staticInit) (d : outdir) : tool outdir :=
  match removeInitFiles outBase d with
  | Panics m => Panics m
  | Done d =>
      match gen with
      | Panics m => Panics m
      | Done i => match writeFile (initFile plugin) (CInit i) d with
                  | Panics m => Panics m
                  | Done d => writeFile tableFile (CTable outPkg) d
                  end
      end
  end.
(** build.go:308-309, 425-464: `--clean` of a plugin as far as the output directory is concerned: the same removal and nothing else. *)
Definition cleanBuild (outBase : string) (d : outdir) : tool outdir := removeInitFiles outBase d.
