(** `hotswap build` as a whole: command line, order of the steps, the go build subprocess and what is printed
    (cli/hotswap/hotswap.go:10-20, cli/hotswap/cmd/build.go:144-313, 657-711). *)
From Verif Require Export ToolStatic.
From Verif Require Import ToolCopy.

(** cli/hotswap/hotswap.go:11-17: everything after the first "--" goes to go build, everything before it to the tool *)
Fixpoint splitArgs (args : list string) : list string * list string :=
  match args with
  | [] => ([], [])
  | a :: args => if String.eqb a "--" then ([], args) else let r := splitArgs args in (a :: fst r, snd r)
  end.
(** build.go:674-675; Go's filepath.Join *)
Definition outputFile (pluginDir outputDir : string) : string := GoJoin [outputDir; path_base pluginDir +:+ ".so"].
(** build.go:677-682 *)
Definition goArgs (file : string) (buildFlags : list string) : list string :=
  ["build"; "-trimpath"; "-buildmode=plugin"; "-o"; file] ++ buildFlags.

(** What the tool does to the world, in order. *)
Inductive deed :=
| ActMkOutput                                  (** build.go:190 os.MkdirAll(outputDir) *)
| ActRemoveTmp                                 (** build.go:250 a left-over temporary directory is removed *)
| ActCopy                                      (** build.go:668-669: collectFiles and copyFiles write into the temporary directory *)
| ActGenerate (t : ptree)                      (** build.go:672: completePlugin wrote files there; [t]: the temporary directory after it *)
| ActGo (args : list string) (ok : bool)       (** build.go:701-708: go build; [ok]: exit status 0 *)
| ActPrint (file : string)                     (** build.go:311 *)
| ActStatic (s : dirs)                         (** build.go:302 a static build; the two directories after it *)
| ActClean (s : dirs).                         (** build.go:300 *)

(** The command line (build.go:97-119). *)
Record cmdline := mkCmd { cl_flags : flags; cl_clean : bool; cl_prefix : string (** trimmed *); cl_args : list string; cl_buildFlags : list string }.
(** What os.Stat says about the output directory (build.go:183-193). *)
Inductive outStat := OutDir | OutMissing (mkdir : tool unit) | OutBad (msg : string).
(** What the steps of the tool meet.  Each is the outcome of the named step; the steps themselves are in ToolDecls, ToolPaths, ToolCopy, ToolStatic. *)
Record buildEnv := mkEnv {
  be_windows : bool;                 (** build.go:162 *)
  be_plugin : tool unit;             (** build.go:180-182 the plugin directory exists *)
  be_out : outStat;
  be_path : tool unit;               (** build.go:195-203 go, gofmt, git are installed *)
  be_pluginDir : string; be_outputDir : string; (** absolute *)
  be_pkg : tool string;              (** build.go:225-228 *)
  be_commit : tool string;           (** build.go:231 *)
  be_regex : tool unit;              (** build.go:238-247 *)
  be_left : option (tool unit);      (** build.go:249-253: there is a left-over temporary directory; the result of removing it *)
  be_required : tool unit;           (** build.go:295-297 checkRequired *)
  be_copy : tool ptree;              (** collectFiles, copyFiles; the temporary directory after it.  An interrupted copy returns normally (C49). *)
  be_job : job;                      (** what completePlugin finds and generates *)
  be_go : ptree -> bool;             (** go build on the temporary directory *)
  be_dirs : dirs                     (** the plugin directory and the output directory before a static build *)
}.
(** build.go:1003-1143 completePlugin in a dynamic build: nothing is removed and there is no epilogue; an interrupt makes it return normally.
    The output directory plays no role. *)
Definition completeDynamic (j : job) (t : ptree) : ptree * tool unit :=
  if jb_early j then (t, Done tt) else
  match jb_found j with
  | Panics m => (t, Panics m)
  | Done lives =>
      let r := andThen (genBureau (jb_bureau j) (mkDirs t ∅)) (genMain (Done "main") (jb_main j)) in
      match snd r with
      | Panics m => (ds_plugin (fst r), Panics m)
      | Done _ => let rb := fst (genLives (jb_stop j) lives (fst r)) in (ds_plugin (fst rb), snd rb)
      end
  end.
(** build.go:657-711; the result: the output file, or "" if go build is skipped *)
Definition buildPlugin (cl : cmdline) (e : buildEnv) : list deed * tool string :=
  match be_copy e with
  | Panics m => ([ActCopy], Panics m)
  | Done t =>
      let r := completeDynamic (be_job e) t in
      let acts := [ActCopy; ActGenerate (fst r)] in
      match snd r with
      | Panics m => (acts, Panics m)
      | Done _ =>
          if negb (fl_goBuild (cl_flags cl)) then (acts, Done "") else
          let file := outputFile (be_pluginDir e) (be_outputDir e) in
          let ok := be_go e (fst r) in
          (acts ++ [ActGo (goArgs file (cl_buildFlags cl)) ok], if ok then Done file else Panics "exit status")
      end
  end.
(** build.go:293-303 *)
Definition work (cl : cmdline) (e : buildEnv) : list deed * tool string :=
  if negb (fl_static (cl_flags cl)) then
    match be_required e with
    | Panics m => ([], Panics m)
    | Done _ => buildPlugin cl e
    end
  else if cl_clean cl then
    let r := cleanJob (jb_outBase (be_job e)) (be_dirs e) in
    ([ActClean (fst r)], match snd r with Done _ => Done "" | Panics m => Panics m end)
  else
    let rb := staticJob (be_job e) (be_dirs e) in
    ([ActStatic (fst (fst rb))], match snd (fst rb) with Done _ => Done "" | Panics m => Panics m end).
(** build.go:216-311, from the check of the output directory on *)
Definition proceed (cl : cmdline) (e : buildEnv) : list deed * tool unit :=
  match outputCheck (fl_static (cl_flags cl)) (be_pluginDir e) (be_outputDir e), be_pkg e, be_commit e with
  | Panics m, _, _ | _, Panics m, _ | _, _, Panics m => ([], Panics m)
  | Done _, Done _, Done _ =>
      let finish (acts : list deed) :=
        let r := work cl e in
        match snd r with
        | Panics m => (acts ++ fst r, Panics m)
        | Done f => (acts ++ fst r ++ (if String.eqb f "" then [] else [ActPrint f]), Done tt)
        end in
      if fl_static (cl_flags cl) then finish []
      else match be_regex e, be_left e with
           | Panics m, _ => ([], Panics m)
           | Done _, None => finish []
           | Done _, Some (Panics m) => ([ActRemoveTmp], Panics m)
           | Done _, Some (Done _) => finish [ActRemoveTmp]
           end
  end.
(** build.go:144-214 *)
Definition executeBody (cl : cmdline) (e : buildEnv) : list deed * tool unit :=
  let static := fl_static (cl_flags cl) in
  if negb (Nat.eqb (length (cl_args cl)) 2) then ([], Panics "usage")
  else if negb static && be_windows e then ([], Panics "windows")
  else if negb static && cl_clean cl then ([], Panics "--clean works only under the static linking mode")
  else if String.eqb (cl_prefix cl) "" then ([], Panics "--livePrefix cannot be empty")
  else match be_plugin e with
       | Panics m => ([], Panics m)
       | Done _ =>
           let continue (acts : list deed) := match be_path e with
             | Panics m => (acts, Panics m)
             | Done _ => let r := proceed cl e in (acts ++ fst r, snd r)
             end in
           match be_out e with
           | OutDir => continue []
           | OutBad m => ([], Panics m)
           | OutMissing mk => if static then ([], Panics "<outputDir> does not exist")
                              else match mk with Panics m => ([ActMkOutput], Panics m) | Done _ => continue [ActMkOutput] end
           end
       end.
(** build.go:145-154: the exit status *)
Definition exitCode (r : list deed * tool unit) : nat := match snd r with Done _ => 0 | Panics _ => 1 end.
