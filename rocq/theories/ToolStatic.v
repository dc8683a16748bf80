(** Static builds and `--clean`: what happens to the plugin directory and the output directory
    (cli/hotswap/cmd/build.go:295-303, 393-512, 578-655, 908-1001, 1003-1144). *)
From Verif Require Export ToolPaths.
From Verif Require Import ToolCopy.

(** What is below the plugin directory: path components below it -> a file with its contents or a directory.  In static mode it is the
    temporary directory as well (build.go:254-258).  Simplification: no symbolic links, no failures of the file system other than those
    caused by the names and kinds of the entries. *)
Inductive node := NFile (c : string) | NDir.
Notation ptree := (gmap (list string) node).
Definition baseName (p : list string) : string := default "" (last p).
(** build.go:46-50, 434: the name is one of hotswapFiles *)
Definition marked (p : list string) : bool := existsb (String.eqb (baseName p)) hotswapFiles.
(** build.go:425-457: WalkDir over everything below the plugin directory; every file (not directory) of such a name is removed *)
Definition removeMarked (t : ptree) : ptree :=
  filter (fun kv => match snd kv with NFile _ => negb (marked (fst kv)) | NDir => true end = true) t.
Definition bureau : string := "hotswapbureau". (** build.go:35 *)
(** build.go:459-464 *)
Definition removeBureau (cleanOnly : bool) (t : ptree) : ptree :=
  match cleanOnly, t !! [bureau] with
  | true, Some NDir => filter (fun kv => negb (match fst kv with x :: _ => String.eqb x bureau | [] => false end) = true) t
  | _, _ => t
  end.
(** The two directories, and how the program fares. *)
Record dirs := mkDirs { ds_plugin : ptree; ds_out : outdir }.
Notation run := (dirs * tool unit)%type.
Definition andThen (r : run) (f : dirs -> run) : run := match snd r with Done _ => f (fst r) | Panics m => (fst r, Panics m) end.
(** build.go:425-471 removeStaticFiles; [outBase]: the base name of the output directory *)
Definition removeStaticFiles (cleanOnly : bool) (outBase : string) (s : dirs) : run :=
  let t := removeBureau cleanOnly (removeMarked (ds_plugin s)) in
  match removeInitFiles outBase (ds_out s) with
  | Panics m => (mkDirs t (ds_out s), Panics m)
  | Done d => (mkDirs t d, Done tt)
  end.
(** ioutil.WriteFile in the plugin directory *)
Definition writeNode (p : list string) (c : string) (s : dirs) : run :=
  match ds_plugin s !! p, removelast p with
  | Some NDir, _ => (s, Panics "is a directory")
  | _, [] => (mkDirs (<[p := NFile c]> (ds_plugin s)) (ds_out s), Done tt)
  | _, q => match ds_plugin s !! q with
            | Some NDir => (mkDirs (<[p := NFile c]> (ds_plugin s)) (ds_out s), Done tt)
            | _ => (s, Panics "no such directory")
            end
  end.
(** build.go:908-924 genHotswapBureau *)
Definition genBureau (text : string) (s : dirs) : run :=
  match ds_plugin s !! [bureau] with
  | Some (NFile _) => (s, Panics "not a directory")
  | _ => writeNode [bureau; "hotswap.bureau.go"] text (mkDirs (<[[bureau] := NDir]> (ds_plugin s)) (ds_out s))
  end.
(** build.go:926-970 genHotswapMain; [pkgName]: the result of PackageFromDirectory, [text] of the template *)
Definition genMain (pkgName : tool string) (text : string -> string) (s : dirs) : run :=
  match pkgName with
  | Panics m => (s, Panics m)
  | Done n => writeNode ["hotswap.main.go"] (text n) s
  end.
(** build.go:1134-1141: the directories with live functions or types, in the order of the map iteration; [stop]: after how many of them
    interruptProgram was found closed.  The bool: all were done. *)
Fixpoint genLives (stop : option nat) (lives : list (list string * string)) (s : dirs) : run * bool :=
  match lives with
  | [] => ((s, Done tt), true)
  | (dir, text) :: lives =>
      match stop with
      | Some O => ((s, Done tt), false)
      | _ => let r := writeNode (dir ++ ["hotswap.live.go"]) text s in
             match snd r with
             | Panics _ => (r, false)
             | Done _ => genLives (option_map pred stop) lives (fst r)
             end
      end
  end.
(** What a static build of one plugin depends on. *)
Record job := mkJob {
  jb_plugin : string;                       (** the plugin's name *)
  jb_found : tool (list (list string * string)); (** live names found, per directory, with the text generated; or the errors (build.go:1032-1094) *)
  jb_early : bool;                          (** interruptProgram was found closed while looking for live names (build.go:1038-1042) *)
  jb_stop : option nat;                     (** see genLives *)
  jb_pkg : tool string; jb_bureau : string; jb_main : string -> string;
  jb_gen : tool staticInit;                 (** the registration (build.go:578-612) *)
  jb_outBase : string; jb_outPkg : string }.
(** build.go:578-655: the two files in the output directory *)
Definition epilogue (j : job) (s : dirs) : run :=
  match jb_gen j with
  | Panics m => (s, Panics m)
  | Done i =>
      match writeFile (initFile (jb_plugin j)) (CInit i) (ds_out s) with
      | Panics m => (s, Panics m)
      | Done d => match writeFile tableFile (CTable (jb_outPkg j)) d with
                  | Panics m => (mkDirs (ds_plugin s) d, Panics m)
                  | Done d => (mkDirs (ds_plugin s) d, Done tt)
                  end
      end
  end.
(** build.go:393-400, 1003-1143: genStaticPlugin, completePlugin.  The bool: it came to its regular end. *)
Definition staticJob (j : job) (s : dirs) : run * bool :=
  if jb_early j then ((s, Done tt), false) else
  match jb_found j with
  | Panics m => ((s, Panics m), false)
  | Done lives =>
      let r := andThen (removeStaticFiles false (jb_outBase j) s) (fun s => andThen (genBureau (jb_bureau j) s) (genMain (jb_pkg j) (jb_main j))) in
      match snd r with
      | Panics _ => (r, false)
      | Done _ =>
          let rb := genLives (jb_stop j) lives (fst r) in
          if snd rb then (andThen (fst rb) (epilogue j), true) else (fst rb, false)
      end
  end.
(** build.go:299-300 `--clean` *)
Definition cleanJob (outBase : string) (s : dirs) : run := removeStaticFiles true outBase s.
