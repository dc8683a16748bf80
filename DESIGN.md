# Formal model of edwingeng/hotswap in Rocq (Coq 8.16.1)

## 1. Shape of the model

### 1.1 Programs

The Go functions of the library are modelled one by one as *programs*: trees of type `prog A` (`Prog.v`)

    Ret a                              -- finished with result a
    Act (a : act X) (k : X -> prog A)  -- perform the atomic action a, continue with its answer

An action is everything that is not a computation on private data: a call into plugin code (Reloadable, Export,
Import, OnLoad, OnInit, OnFree, InvokeFunc, the live tables), a user callback, the extension constructor, an OS call,
`plugin.Open`, a symbol lookup, the iteration order of a Go map, the clock, and the shared memory of the process (mutex, atomic
`current`, `pluginDir`, reference counters, `sync.Once`, reload counter, goroutine creation, object creation).
`error` results and panics are the cases `Err e` / `Pan p` of `outcome A`, `nil` is an explicit case, `recover` is an
explicit catch, and each error message of the code is a constructor of `gerror` whose arguments are what the
message prints.

### 1.2 Two semantics for the same programs

* `exec p t r` (`Prog.v`): program `p` can perform the events `t` and return `r`, where the environment may answer every action
  in any way allowed by `valid` (an iteration order is a permutation of the keys, a listing has no repeated names, ...).
  Theorems over `exec` (through `history`/`next_call` in `Spec.v`) hold for every plugin behaviour, file system, map order, and for every
  sequence of earlier calls, of any length.
* `reach o dir w` (`Conc.v`): any number of goroutines, each running one API call (or one release goroutine),
  interleaved action by action over a shared memory. Plugin calls have a beginning and an end; time passes
  arbitrarily. Theorems over `reach` are invariants of every reachable state of every such program.

`run` with an oracle (`Demo.v`) and `Sched.v` execute the same programs with `vm_compute`; they are used only for the concrete
examples beside the theorems (non-vacuity) and for the two refutation theorems.

### 1.3 The build tool

`cli/hotswap/cmd/build.go` is modelled as pure functions over strings, lists and declaration lists
(`ToolDecls.v`, `ToolPaths.v`, `ToolCopy.v`), with outcomes `tool A` for its panics and errors; the parallel copy
is a labelled transition system over worker states (`poolStep` in `ToolCopy.v`).

## 2. Files

Build order is in `rocq/_CoqProject`.

| files | contents |
|-------|----------|
| `Utf8.v` | UTF-8 decoding and encoding (`for range` over a string, `utf8.DecodeRuneInString`, `utf8.AppendRune`), `unicode.ToLower`, `unicode.IsSpace`, `strings.ToLower` on all strings, also those that are not UTF-8 |
| `Base.v` | strings, `strings.TrimSpace/HasSuffix/TrimSuffix`, `filepath.Base/Join/Dir` on the paths that occur, sorting |
| `GoTypes.v` | reflect kinds/types/values, errors, panics, `Plugin`, `PluginManager` (plugin.go, pluginManager.go types), `GoEnv` |
| `Prog.v` | actions, programs, events, possible answers, `exec` |
| `ManagerModel.v` | plugin.go, pluginManager.go, internal/hutils |
| `SwapperModel.v` | pluginManagerSwapper.go, staticPlugin.go |
| `HeapModel.v` | the same four files on the level of pointers |
| `HeapProofs.v`, `HeapSim.v`, `HeapLoad.v`, `HeapDeps.v`, `HeapRun.v`, `HeapSwap.v` | the two programs do the same |
| `Conc.v` | goroutines, shared memory, histories |
| `ToolDecls.v`, `ToolPaths.v`, `ToolCopy.v`, `ToolExit.v`, `ToolStatic.v`, `ToolBuild.v` | cli/hotswap/cmd/build.go and its templates |
| `Spec.v`, `Rules.v` | the vocabulary of the theorem statements (no model helper is needed to read them except the API functions) |
| `*Proofs.v`, `Graph.v`, `Tokens.v`, `Conc[A-Z]*.v` | lemmas |
| `Demo.v`, `Worlds.v`, `Sched.v` | concrete runs for the examples |
| `Prop*.v` | the property theorems `Cnn_...`, each followed by `Print Assumptions` and examples |

Every definition of the model files cites the Go file and lines and says what it simplifies.

## 3. Per property: what is modelled, how it is proved

| id | modelled | proof |
|----|----------|-------|
| C01 | `initDeps`, `orderPlugins`, whole load | invariant of the ordering rounds; permutation of the keys + topological order; lifted to every `Current()` of a history |
| C02 | whole load with its trace of calls | exact equation of the call sequence on success; on failure a prefix of such a sequence followed by OnFree calls |
| C03 | same trace | the trace only has calls of created instances; kept instances are disjoint from them |
| C04 | `checkCyclicDependency` with fuel | soundness and completeness by induction on paths; fuel = number of plugins + 1 is never exhausted |
| C05 | `orderPlugins` | every round places a plugin if the graph is acyclic; exact list of panics that can be recovered in a load |
| C06 | every recover point | outcome analysis of all programs |
| C07 | `loadPlugins` with its deferred `invokeEveryOnFree` | stages of a load with reference accounting |
| C08 | swapper functions | trace analysis: no store, no counter, no release, lock released |
| C09, C12 | wiring, `checkRebuilt`, non-reloadable check | invariant of all managers of a history (`sound`) |
| C10 | `initDeps` | exact characterisation of the field loop |
| C11, C13 | `loadPlugins` | characterisation of the resulting plugin map |
| C14 | histories | induction over later calls |
| C15 | `setupVault` | fold characterisation; error analysis |
| C16-C22 | goroutines over shared memory | reference tokens: every reference of every counter has one owner (`Tokens.v`, `ConcTokens.v`); linearisation of load calls (`ConcLin.v`) |
| C17 | same, with time | holds if no goroutine lingers between scheduling the release and publishing (`prompt`); `C17_unconditional_claim_is_refuted` exhibits the bad schedule |
| C23, C24 | swapper functions | trace equations for callbacks and releases |
| C25, C26 | `loadPluginsImpl`, `selectFiles` | list reasoning over the directory listing |
| C27-C29 | `loadPlugins`, `loadPlugin` | error analysis of opening a plugin |
| C30 | `Plugin.Lookup` | exact characterisation |
| C31-C33 | staticPlugin.go | as the dynamic case, with the registered table |
| C34, C35 | manager API | list reasoning |
| C36, C37 | `Details` | characterisation of the map; sortedness |
| C38 | `copyPlugin` | injectivity of the path format |
| C39 | DataBag writes of OnInit | fold over the OnInit answers |
| C40 | two reads of `pluginDir` | trace fact + concrete interleaving |
| C41 | options | fold over the option list |
| C42 | `orderPlugins` | two runs with different map orders compared |
| C43 | visit counter of the cycle check | the counting function is proved to follow the model's recursion; induction over the ladder |
| C44 | generated registration, `Register` in static mode | composition of the template's argument order with the nine slots |
| C45 | `parseRequiredPluginFuncs` | set characterisation of the missing list |
| C46 | live collection, generated live table, start-up | characterisation of the collection fold; the generated `init` never hits the duplicate panic |
| C47 | `collectFiles` | list characterisation; regexps are arbitrary functions |
| C48 | `copyFiles` rewriting | text as quoted and unquoted pieces; induction over the scan |
| C49 | worker pool of `copyFiles` | invariants and a decreasing measure of the transition system; two witnesses for the defects |
| C50-C52 | paths in `execute` | paths as lists of components, `Clean`, `Rel`, `Join` proved correct on them |
| C53 | generation and deletion of static files | directory as list of files; induction over sequences of builds |
| C54 | whole load | every failing answer propagates (contrapositive over all programs) |
| C55 | whole load | rules in `Rules.v` are sufficient (progress through every stage, `RuleProofs.v`) and necessary (`RuleExact.v`): an equivalence |
| C56 | Conc.v (time, release goroutines) | the call replacing the manager is identified by the first publication after the reading; its goroutine sleeps first |
| C57 | Conc.v | token invariant: every published manager keeps its reference until its release goroutine drops it |
| C58 | Conc.v | in static mode no release goroutine exists, and a load gives up only what it has made itself and then publishes nothing (`ConcStatic.v`); this case also frees C17, C19, C56, C57, C75 of any assumption on the registrations |
| C59 | initDeps and its errors | every failing call is traced to the stage that produced the error and its cause in the trace |
| C60 | copyPlugin, loadPlugin, removeUnchanged | history invariant: every plugin of the current manager has an opening in the history, with the read before it |
| C61 | newPluginManager | trace shape of every call; exactly one constructor event precedes the plugins |
| C62 | execute's signal goroutine, deferred wait, removeTmpDir (ToolExit.v: transition system of main, signal goroutine, OS) | invariant over all reachable states; ranking for termination; a concrete leak after SIGTERM |
| C63 | removeStaticFiles, genHotswapBureau/Main/Live, completePlugin, --clean on the plugin directory (ToolStatic.v) | a relation kept by every step, closed forms of lookups |
| C64 | main, execute, buildPlugin, completePlugin of a dynamic build (ToolBuild.v: the run as a list of deeds and a result) | case analysis of the course of a run; linked to C63's generator and C28's loader |
| C65 | the same worlds as C16-C22 (Conc.v); waiting is a restriction of the schedule: goroutine j makes no step while k is pending | invariant along waiting schedules (lock held, no load event); positive part by running a goroutine alone |
| C66 | filepath.Abs, commitInfo, the format of the time stamp, makeSetup (ToolAbs.v) | a walk through the directory tree as specification of Clean; injectivity of the name by the fixed lengths of its parts; C51 for the package path |
| C67 | results of goroutines (Conc.v `result`), recover and re-panic as functions on outcomes (`logged`, `ignored`) | by cases on the task, over the invariants of C16-C22; C06 for load calls |
| C68 | the clock reading of loadPlugins/loadStaticPlugins is an event; When and Note are fields of the model's plugin | from the invariant of a load (RunProofs `g_when`), by induction over histories |
| C69 | loadPluginsImpl, FindDirectory; the operating system answers freely | inversion of the run (`looked`), an `only` invariant for static mode |
| C70 | pairs of loads | from the equivalence of C55 (verdict) and C10, C13, C15, C26 on both loads (contents) |
| C71 | every recover point and error path, with the name of the plugin in recovered panics | two inductions over the programs: every failing event is answered by the error returned (`judged`), every error that speaks of outside code has its event (`grounded`) |
| C72 | the loading code once more on a heap: addresses, copies that share slices, append in place, stores through pointers (`HeapModel.v`) | bisimulation with the model with values (`HeapSim.v` to `HeapSwap.v`): same traces and results, invariant on who owns which object, ghost log of stores |
| C73 | source files, files copied, files compiled (arbitrary choice of the go tool), lookups of the loader | composition of C29, C45 and C47; an explicit source tree for the finding |
| C74 | the concurrent model of Conc.v; `moves` = a step of one goroutine, `inevitably` = on every path | strong normalisation of pools of programs that spawn release goroutines (reducibility argument), progress from the lock invariant |
| C75 | happens-before of the Go memory model on the histories of Conc.v: program order, mutex, atomic store/load of the current manager, atomic counters, go statement | mutual exclusion of load calls gives a chain through the mutex; freshness of manager ids gives unique publication; reference counts give the drop before OnFree |
| C76 | two successive loads in a well-behaved environment, the second starting from the manager published by the first | what a load keeps (C05, C39) applied to the whole listing; every request of the second load enumerated |
| C77 | lists of load calls with their events and results | C08 (no store, no count, Current() kept) and induction over the list; freshness of the plugin objects is inherited by sublists |
| C78.. | see properties.jsonl and MANIFEST.json | |

Nothing on the list was found inexpressible. No theorem is partial.

## 4. Trusted base

### 4.1 Kernel and axioms

* Coq 8.16.1's kernel, including its `vm_compute` (examples and the refutation witnesses).
* `Print Assumptions` is run below each property theorem: each prints `Closed under the global context`. No axiom is
  used by any theorem, neither from the standard library nor from another one.
* Loading std++ loads ssreflect, whose file `Coq.ssr.ssrunder` declares a module with parameters
  (`Over_rel`, `over_rel`, `over_rel_done`, `Under_rel`, `Under_rel_from_rel`, `Under_relE`, `under_rel_done`). A
  whole-context listing shows them; no theorem here depends on them.
* `GoEnv` is a type class, i.e. an ordinary parameter of every theorem: `reflect`'s assignability relation, SHA-1, xxHash32 and the func types are
  arbitrary. Theorems hold for all of them.

### 4.2 The reading of Go

* The translation of each function by hand (cited lines).
* Go semantics used: map iteration is an arbitrary permutation of the keys; `defer`/`recover`; nil maps, nil funcs and nil pointers panic as modelled;
  `sync.Mutex` excludes; operations of `sync/atomic` are single steps and sequentially consistent;
  `sync.Once.Do` runs its body for the first caller only (in Go a second caller also waits; the model lets it go on, i.e. has more behaviours;
  moreover C16 shows that there is no second caller).
* `pluginDir` is an ordinary field read without a lock: its accesses are taken as atomic (Go gives a data race).
* `time.Sleep(d)` ends no earlier than `d` after the goroutine started.
* New objects (plugin instances, managers) are different from all existing ones: guaranteed by the shared memory in `Conc.v`; the
  hypothesis `fresh_objects` of the sequential theorems.
* Errors and panics raised outside hotswap are opaque values.
* The case table `lower_table` and the list of white-space characters in `Utf8.v` are those of Unicode 13.0, the version of Go 1.18 (go.mod) to 1.20;
  the table is generated by `tools/unicode_table.py` from Python's data (of version 14.0, less what that version added). A later Go adds letters (Unicode 15: no change of an existing one).
* Each opened plugin's Import() returns an object of its own (`HeapModel.v`). In static mode a second LoadPlugins calls the same functions
  again; a plugin whose Import() returns the address of a package variable then breaks this assumption, and C72 does not speak about that variable.

## 5. What is modelled and what is not

Modelled: plugin.go, pluginManager.go, pluginManagerSwapper.go, staticPlugin.go, the parts of internal/hutils they use, and from
cli/hotswap/cmd/build.go: flag checks and directory set-up of `execute`, package discovery, the required-function
check, live collection, all five templates as far as they determine behaviour, file collection, parallel copying with import rewriting, static code
generation and `--clean` in the plugin directory and the output directory, signals and the removal of the temporary directory, the order of all steps of `execute`, resolution of directory arguments and the names of temporary directories; cli/hotswap/hotswap.go.

Not modelled:

* Plugin code that never returns or calls `runtime.Goexit`/`os.Exit` (plugin code that calls back into the swapper is covered by
  C65); OnInit writing maps of the vault other than DataBag, and any other use of shared memory by plugin code.
* The logger; the test hooks `cbOpen`, `panicTrigger`; the text of messages beyond the values they print; stack traces.
* Build tool: parsing of Go source (the model starts from declaration lists; parse errors stop the tool), gofmt, what the `go build` subprocess does (an arbitrary function of the
  temporary directory), verbose printing and timing, type parameters; regular expressions (arbitrary functions);
  a failed write counts as a file not copied; symbolic links and I/O errors in the plugin directory during a static build.
* C48 assumes that the quoted strings to be rewritten do not overlap, which is stated as a hypothesis on the text.
* `demo/`, `cli/hotswap/trial/` (examples and test plugins), `vault/` is only two type definitions, `cobra.go`, `g.go` (flag plumbing).

## 6. Seeded bugs

`tools/mutants.py` lists edits of the model (one realistic bug each); `tools/mutate.py SCRATCH` applies each to a copy outside /verif,
rebuilds, and records the proofs that fail and the theorems of the manifest resting on them (with `ADMIT=1` failing proofs are admitted in the copy, so that
every failing proof is found and not only the first of each file). The outcome is `seeded/LOG.jsonl`.
