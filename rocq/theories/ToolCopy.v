(** Model of the copying of a plugin's sources into the temporary directory (cli/hotswap/cmd/build.go:713-847). *)
From Verif Require Export ToolPaths.

(** ** collectFiles (build.go:713-762) *)
(** What filepath.WalkDir reports for one entry: an error, a directory (with the result of os.MkdirAll for its copy), or anything that is
    not a directory. *)
Inductive visit := VErr (e : string) | VDir (mkdir : option string) | VFile.
Definition hotswapFiles : list string := ["hotswap.bureau.go"; "hotswap.main.go"; "hotswap.live.go"]. (** build.go:46-50 *)
(** build.go:714-728; a regular expression is given by the function that says which strings it matches, [None]: the flag is empty *)
Definition rexMatch (include exclude : option (string -> bool)) (name : string) : bool :=
  match include, exclude with
  | Some inc, Some exc => inc name && negb (exc name)
  | Some inc, None => inc name
  | None, _ => false
  end.
(** build.go:743-754: is the file taken *)
Definition takesFile (include exclude : option (string -> bool)) (path rel : string) : bool :=
  if has_suffix "_test.go" path then false
  else if has_suffix ".go" path then negb (bool_decide (path_base path ∈ hotswapFiles))
  else rexMatch include exclude (path_base rel).
(** build.go:731-760; [dirs]: the directories created, in order; [files]: the files taken, in walk order *)
Fixpoint collectLoop (pluginDir tmpDir : string) (include exclude : option (string -> bool)) (walk : list (string * visit)) (dirs files : list string)
  : tool (list string * list string) :=
  match walk with
  | [] => Done (dirs, files)
  | (path, v) :: walk =>
      match v with
      | VErr e => Panics e
      | _ => match Rel pluginDir path with
             | None => Panics "Rel"
             | Some rel =>
                 match v with
                 | VDir (Some e) => Panics e
                 | VDir None => collectLoop pluginDir tmpDir include exclude walk (dirs ++ [GoJoin [tmpDir; rel]]) files
                 | _ => collectLoop pluginDir tmpDir include exclude walk dirs (if takesFile include exclude path rel then files ++ [rel] else files)
                 end
             end
      end
  end.
Definition collectFiles (pluginDir tmpDir : string) (include exclude : option (string -> bool)) (walk : list (string * visit)) : tool (list string * list string) :=
  collectLoop pluginDir tmpDir include exclude walk [] [].

(** ** replaceCode (build.go:764-784) *)
(** bytes.ReplaceAll for a non-empty [old]: leftmost matches that do not overlap.  [skip]: bytes of a match still to be passed. *)
Fixpoint replaceFrom (skip : nat) (old new s : string) : string :=
  match s with
  | EmptyString => EmptyString
  | String c s' =>
      match skip with
      | S k => replaceFrom k old new s'
      | O => if has_prefix old s then new +:+ replaceFrom (String.length old - 1) old new s' else String c (replaceFrom 0 old new s')
      end
  end.
Definition ReplaceAll (s old new : string) : string := replaceFrom 0 old new s.
(** The regular expression (?m)^package\s+\S+ (build.go:765).  \s is tab, newline, form feed, carriage return, blank. *)
Definition re_space (c : ascii) : bool := let n := N_of_ascii c in ((n =? 9) || (n =? 10) || (n =? 12) || (n =? 13) || (n =? 32))%N.
Fixpoint span_len (f : ascii -> bool) (s : string) : nat := match s with String c s => if f c then S (span_len f s) else O | EmptyString => O end.
Definition skip_bytes (n : nat) (s : string) : string := substring n (String.length s - n) s.
(** the length of the match that starts at the beginning of [s], if any; the repetitions are greedy and \s, \S exclude each other *)
Definition clauseLength (s : string) : option nat :=
  if has_prefix "package" s then
    let n := span_len re_space (skip_bytes 7 s) in
    let m := span_len (fun c => negb (re_space c)) (skip_bytes (7 + n) s) in
    if Nat.eqb n 0 || Nat.eqb m 0 then None else Some (7 + n + m)%nat
  else None.
(** regexp.ReplaceAll with "package main"; [bol]: at the beginning of a line *)
Fixpoint replaceClauses (bol : bool) (skip : nat) (s : string) : string :=
  match s with
  | EmptyString => EmptyString
  | String c s' =>
      let bol' := Ascii.eqb c "010"%char in
      match skip with
      | S k => replaceClauses bol' k s'
      | O => match (if bol then clauseLength s else None) with
             | Some n => "package main" +:+ replaceClauses bol' (n - 1) s'
             | None => String c (replaceClauses bol' 0 s')
             end
      end
  end.
Definition quote : string := String "034"%char "".
Definition backquote : string := "`".
(** build.go:766-783 *)
Definition replaceImports (pkg tmp data : string) : string :=
  let data := ReplaceAll data (quote +:+ pkg +:+ quote) (quote +:+ tmp +:+ quote) in
  let data := ReplaceAll data (quote +:+ pkg +:+ "/") (quote +:+ tmp +:+ "/") in
  let data := ReplaceAll data (backquote +:+ pkg +:+ backquote) (backquote +:+ tmp +:+ backquote) in
  ReplaceAll data (backquote +:+ pkg +:+ "/") (backquote +:+ tmp +:+ "/").
Definition replaceCode (pkg tmp rel data : string) : string :=
  replaceImports pkg tmp (if String.eqb (GoDir rel) "." then replaceClauses true 0 data else data).
(** build.go:826-829: what is written for a file *)
Definition copied (pkg tmp rel data : string) : string := if has_suffix ".go" rel then replaceCode pkg tmp rel data else data.

(** ** copyFiles (build.go:764-847): the workers *)
Inductive worker :=
| WLoop                       (** build.go:809-818, at the select *)
| WRead (rel : string)        (** build.go:820-821 *)
| WWrite (rel data : string)  (** build.go:826-831, [data] is what was read *)
| WReport (e : string)        (** build.go:796, sending on chErr *)
| WCheck                      (** build.go:797-800, at the select on abort *)
| WClose                      (** build.go:800, before close(abort) *)
| WDone.                      (** wg.Done called *)
Record pool := mkPool {
  po_workers : list worker;
  po_pending : list string;          (** the channel of files, filled before the workers start (build.go:786-789) *)
  po_errs : list string;             (** the buffered channel chErr *)
  po_aborted : bool;                 (** abort is closed *)
  po_interrupted : bool;             (** interruptProgram is closed *)
  po_crashed : bool;                 (** a worker panicked: the process dies *)
  po_written : list (string * string); (** completed writes: the file below tmpDir and its contents, in order *)
  po_failed : list string            (** files whose reading or writing failed *)
}.
(** build.go:786-806; [burst] is runtime.NumCPU()*5 *)
Definition startPool (burst : nat) (files : list string) : pool := mkPool (repeat WLoop burst) files [] false false false [] [].
Definition setWorker (p : pool) (i : nat) (w : worker) : pool :=
  mkPool (<[i := w]> (po_workers p)) (po_pending p) (po_errs p) (po_aborted p) (po_interrupted p) (po_crashed p) (po_written p) (po_failed p).
(** One step of one worker, or the arrival of an interrupt.  [src]: the contents of the source files.  The select of build.go:810-818
    takes any ready case, and default only if none is ready. *)
Inductive poolStep (burst : nat) (pkg tmp : string) (src : string -> string) : pool -> pool -> Prop :=
| s_interrupt p : po_interrupted p = false -> po_crashed p = false ->
    poolStep burst pkg tmp src p (mkPool (po_workers p) (po_pending p) (po_errs p) (po_aborted p) true (po_crashed p) (po_written p) (po_failed p))
| s_stop p i : po_crashed p = false -> po_workers p !! i = Some WLoop -> po_interrupted p = true \/ po_aborted p = true ->
    poolStep burst pkg tmp src p (setWorker p i WDone)
| s_take p i rel rest : po_crashed p = false -> po_workers p !! i = Some WLoop -> po_pending p = rel :: rest ->
    poolStep burst pkg tmp src p
      (mkPool (<[i := WRead rel]> (po_workers p)) rest (po_errs p) (po_aborted p) (po_interrupted p) (po_crashed p) (po_written p) (po_failed p))
| s_finish p i : po_crashed p = false -> po_workers p !! i = Some WLoop -> po_pending p = [] -> po_interrupted p = false -> po_aborted p = false ->
    poolStep burst pkg tmp src p (setWorker p i WDone)
| s_read p i rel : po_crashed p = false -> po_workers p !! i = Some (WRead rel) -> poolStep burst pkg tmp src p (setWorker p i (WWrite rel (src rel)))
| s_read_fails p i rel e : po_crashed p = false -> po_workers p !! i = Some (WRead rel) ->
    poolStep burst pkg tmp src p
      (mkPool (<[i := WReport e]> (po_workers p)) (po_pending p) (po_errs p) (po_aborted p) (po_interrupted p) (po_crashed p) (po_written p) (po_failed p ++ [rel]))
| s_write p i rel data : po_crashed p = false -> po_workers p !! i = Some (WWrite rel data) ->
    poolStep burst pkg tmp src p
      (mkPool (<[i := WLoop]> (po_workers p)) (po_pending p) (po_errs p) (po_aborted p) (po_interrupted p) (po_crashed p)
        (po_written p ++ [(rel, copied pkg tmp rel data)]) (po_failed p))
| s_write_fails p i rel data e : po_crashed p = false -> po_workers p !! i = Some (WWrite rel data) ->
    poolStep burst pkg tmp src p
      (mkPool (<[i := WReport e]> (po_workers p)) (po_pending p) (po_errs p) (po_aborted p) (po_interrupted p) (po_crashed p) (po_written p) (po_failed p ++ [rel]))
| s_send p i e : po_crashed p = false -> po_workers p !! i = Some (WReport e) -> (length (po_errs p) < burst)%nat -> (** the buffer has room *)
    poolStep burst pkg tmp src p
      (mkPool (<[i := WCheck]> (po_workers p)) (po_pending p) (po_errs p ++ [e]) (po_aborted p) (po_interrupted p) (po_crashed p) (po_written p) (po_failed p))
| s_check p i : po_crashed p = false -> po_workers p !! i = Some WCheck -> poolStep burst pkg tmp src p (setWorker p i (if po_aborted p then WDone else WClose))
| s_close p i : po_crashed p = false -> po_workers p !! i = Some WClose -> po_aborted p = false ->
    poolStep burst pkg tmp src p
      (mkPool (<[i := WDone]> (po_workers p)) (po_pending p) (po_errs p) true (po_interrupted p) (po_crashed p) (po_written p) (po_failed p))
| s_close_again p i : po_crashed p = false -> po_workers p !! i = Some WClose -> po_aborted p = true -> (** panic: close of closed channel *)
    poolStep burst pkg tmp src p (mkPool (po_workers p) (po_pending p) (po_errs p) true (po_interrupted p) true (po_written p) (po_failed p)).
(** build.go:841-846 after wg.Wait returned: [Some (Done tt)] copyFiles returns, [Some (Panics e)] it panics, [None]: not there (yet) *)
Definition poolResult (p : pool) : option (tool unit) :=
  if po_crashed p then None
  else if forallb (fun w => match w with WDone => true | _ => false end) (po_workers p) then
    Some (match po_errs p with e :: _ => Panics e | [] => Done tt end)
  else None.
