#!/usr/bin/env python3
# Generates /verif/properties.jsonl (one JSON object per line).
import json, os
P=[]
def p(title, statement, quantifier, why, *anchors):
    P.append(dict(id="C%02d"%(len(P)+1), title=title, statement=statement,
                  quantifier=quantifier, why_tests_cant=why, anchors=list(anchors)))

PM="pluginManager.go"; SW="pluginManagerSwapper.go"; ST="staticPlugin.go"; PL="plugin.go"; HU="internal/hutils/hutils.go"; BC="cli/hotswap/cmd/build.go"

p("Plugins() is a dependency order",
  "After a successful LoadPlugins/Reload, Plugins() lists every plugin of the new manager exactly once, and every plugin comes after all plugins it depends on.",
  "every set of plugins, dependency graph, previous manager, plugin behaviour and every Go map iteration order",
  "The order of plugins without dependencies comes from random map iteration and the graph is unbounded; a test sees one graph and one iteration order.",
  PM+":initDeps", PM+":orderPlugins", PM+":Plugins")
p("Lifecycle phase order",
  "During a successful load the new plugins' functions run in whole phases: first Reloadable then Export plugin by plugin in name order, then every Import, then every OnLoad, then the live-function/live-type collection, then every OnInit; each of them exactly once per newly loaded plugin (of plugins registered statically under names that differ in case only all are asked Reloadable and Export, and one goes on), OnLoad/OnInit in Plugins() order, and OnLoad receives the caller's data and OnInit the new manager's vault. A failed load runs a prefix of such a sequence, followed only by OnFree calls.",
  "every plugin set, every return value, error or panic of every plugin function, every map iteration order",
  "Needs to hold for every combination of behaviours and every failure point.",
  PM+":loadPlugins", PM+":loadPlugin", PM+":initDeps", PM+":invokeEveryOnLoad", PM+":setupVault", PM+":invokeEveryOnInit", "README.md:Order of Execution during Plugin Reload")
p("Carried-over plugins are left alone",
  "A plugin that is reported as unchanged or not reloadable by a reload receives no Reloadable, Export, Import, OnLoad or OnInit call during that reload.",
  "every reload, every previous manager, every plugin behaviour",
  "Absence of calls over all reloads and all failure points cannot be sampled.",
  PM+":addUnchanged", PM+":initDeps", PM+":invokeEveryOnLoad", PM+":invokeEveryOnInit")
p("Cyclic dependencies are always refused",
  "A load never succeeds when the dependency graph of its plugins has a cycle (including a plugin importing itself); an acyclic graph is never refused as cyclic; the chain printed in the error is a real dependency chain that closes a cycle; the check always terminates.",
  "every finite dependency graph, every map iteration order",
  "Tests cover a 2-cycle and a 3-cycle only; termination and completeness are for all graphs.",
  PM+":checkCyclicDependency", PM+":initDeps")
p("Ordering never fails on an acceptable graph",
  "Once the dependency check has passed, computing the load order terminates and never raises the internal 'something is wrong' panic.",
  "every acyclic dependency graph and map iteration order",
  "The bounded number of rounds could be insufficient for some unseen graph.",
  PM+":orderPlugins")
p("A panicking plugin cannot crash a load",
  "Whatever plugin code does (any panic in package initialisation, Reloadable, Export, Import, OnLoad, OnInit, OnFree, live-function tables, reload callbacks), LoadPlugins and Reload return an error instead of panicking; only a panic in the user's extension constructor can escape.",
  "every plugin behaviour at every call",
  "Each call site and combination (e.g. a panic in OnFree while cleaning up after another panic) would need its own test.",
  PM+":loadPlugins", PL+":invokeExport", PL+":invokeImport", PL+":invokeReloadable", SW+":invokeReloadCallbacks", SW+":loadPluginFiles")
p("A failed load is cleaned up",
  "When a load fails after some plugins were admitted, every admitted plugin's reference taken by this load is dropped exactly once, before the error is returned (in static mode, of plugins registered under names that differ in case only, one's); a plugin that was opened but not admitted (missing functions, panic in Reloadable/Export) gets no OnFree.",
  "every failure point, every plugin behaviour, every map iteration order",
  "Every failure point crossed with every set of admitted plugins.",
  PM+":loadPlugins", PM+":invokeEveryOnFree", SW+":invokeReloadCallbacks")
p("A failed reload changes nothing visible",
  "If LoadPlugins or Reload returns an error (or panics), Current() and ReloadCounter() are what they were before, no release of the old manager is scheduled, and the lock is free again.",
  "every failure cause and every history",
  "All failure causes over all histories.",
  SW+":loadPluginFiles", SW+":LoadPlugins", SW+":ReloadWithCallback", ST+":PluginManagerSwapper.loadStaticPlugins")
p("No plugin holds a stale dependency",
  "In every manager ever returned by Current(), the value each plugin received for an Import() field is the value exported by the plugin instance that the same manager holds under that name.",
  "every history of loads and reloads, every mix of rebuilt, unchanged and non-reloadable plugins",
  "An invariant over unbounded reload histories.",
  PM+":initDeps", PM+":addUnchanged")
p("Import wiring is complete",
  "After a successful load, for every newly loaded plugin and every exported, non-ignored field of its Import() struct: the field names a loaded plugin (case-insensitively), that plugin is recorded in Deps in field order, and if it exports a non-nil value the field received exactly that value, which is assignable to the field's type; ignored, unexported fields and nil imports are skipped; nothing else is assigned.",
  "every Import() struct, every export value, every plugin set",
  "Struct shapes and export values are unbounded.",
  PM+":initDeps")
p("Rebuilt dependency forces rebuilt dependents",
  "A reload never succeeds with a plugin carried over from the previous manager that depends on a plugin newly loaded by that reload, nor with a carried-over plugin whose dependency is gone.",
  "every previous manager and every set of changed files",
  "All combinations of changed and unchanged files.",
  PM+":initDeps")
p("Non-reloadable plugins depend only on non-reloadable plugins",
  "In every manager ever returned by Current(), every dependency of a non-reloadable plugin is itself non-reloadable.",
  "every history of loads and reloads",
  "Holds across histories because of the interaction of several checks.",
  PM+":initDeps", PM+":removeNotReloadable")
p("What a reload keeps and what it replaces",
  "For each plugin file: if the current manager has a non-reloadable plugin of that name, the same instance is kept and reported 'not reloadable' even if the file changed; otherwise if the file's SHA-1 equals the loaded one, the same instance is kept and reported 'unchanged'; otherwise the file is opened as a new instance and reported 'ok'. Plugins without a file are dropped.",
  "every previous manager, every set of files and contents",
  "All combinations of files, contents and reloadable flags.",
  PM+":removeNotReloadable", PM+":removeUnchanged", PM+":addUnchanged", PM+":loadPlugins")
p("A non-reloadable plugin is loaded once",
  "As long as every reload finds its file, a plugin that is not reloadable keeps the very same instance (same functions, same exported value, same file and SHA-1) in every later manager.",
  "every history of successful and failed reloads",
  "Unbounded histories.",
  PM+":removeNotReloadable", PM+":addUnchanged")
p("Vault live tables are the disjoint union of all plugins' tables",
  "After a successful load Vault.LiveFuncs and Vault.LiveTypes contain exactly the entries returned by all plugins of the manager, carried-over plugins included; if two plugins offer the same name, the load fails and the error names a plugin that really has it.",
  "every set of tables, every map iteration order",
  "Any number of plugins and names.",
  PM+":setupVault")
p("OnFree at most once",
  "For every plugin instance OnFree is called at most once, over any history of concurrent loads, reloads (successful or failed) and delayed releases.",
  "every interleaving of API calls and release goroutines, every history",
  "Races between release goroutines and reloads cannot be enumerated by tests.",
  PM+":invokeEveryOnFree", PM+":addUnchanged", SW+":loadPluginFiles")
p("OnFree never hits a plugin in use",
  "OnFree of a plugin instance is never called while Current() returns a manager that holds that instance, provided that the few instructions between scheduling the release and publishing the new manager take less than the release delay (at least 15 s). Without that proviso the order is not guaranteed.",
  "every interleaving and history",
  "Schedule-dependent.",
  SW+":loadPluginFiles", PM+":invokeEveryOnFree")
p("No leak: superseded plugins are freed",
  "When all API calls and release goroutines have finished, in dynamic mode every plugin instance ever admitted that is not part of Current() has had its OnFree called exactly once, and no instance in Current() has.",
  "every interleaving and history",
  "Reference counts over unbounded histories.",
  PM+":invokeEveryOnFree", PM+":addUnchanged", SW+":loadPluginFiles")
p("Dependents are freed before their dependencies",
  "If a published plugin instance depends on another one, its OnFree has returned before the OnFree of the dependency starts, even when several managers are released concurrently.",
  "every interleaving of release goroutines, every history",
  "Needs all interleavings of several goroutines.",
  PM+":invokeEveryOnFree", SW+":loadPluginFiles")
p("Loads are serialised",
  "Calls of LoadPlugins and Reload from any number of goroutines run one at a time: each one takes the manager published by the previous successful one as the old manager, so no load result is lost; the mutex is always released.",
  "every number of goroutines and every interleaving",
  "Schedule-dependent.",
  SW+":LoadPlugins", SW+":ReloadWithCallback")
p("Current() only shows finished managers",
  "Current() returns nil or a manager for which every new plugin's OnLoad and OnInit returned without error and every reload callback accepted it; once it has returned a manager it never returns nil again.",
  "every interleaving",
  "A reader may run at any point of a load.",
  SW+":Current", SW+":loadPluginFiles", ST+":PluginManagerSwapper.loadStaticPlugins")
p("ReloadCounter counts successful reloads",
  "At any time ReloadCounter() equals the number of Reload/ReloadWithCallback calls that finished without error; LoadPlugins never changes it.",
  "every history and interleaving",
  "Unbounded histories.",
  SW+":ReloadWithCallback", SW+":ReloadCounter")
p("Reload callbacks",
  "On a load that gets that far, the swapper's callback runs first and the extra callback second, both with (new manager, manager that Current() still returns); the first error or panic stops the sequence, releases the new manager and is returned as the error; the new manager is published only if all succeeded. In static mode the old manager passed is nil.",
  "every callback behaviour",
  "Every combination of callback results.",
  SW+":invokeReloadCallbacks", SW+":ReloadWithCallback", ST+":PluginManagerSwapper.loadStaticPlugins")
p("Release delay",
  "The release of a replaced manager sleeps for at least 15 seconds and at least the configured delay, and not longer than the larger of the two; exactly one release is scheduled per successful load that replaced a manager.",
  "every configured delay (also negative) and every load",
  "All durations.",
  SW+":loadPluginFiles", SW+":WithFreeDelay")
p("Whitelist selection (dynamic)",
  "With a non-empty whitelist exactly the .so files whose name is listed (case-sensitively) are loaded; a name without a file makes the load fail before any plugin is opened, and the error lists exactly the missing names in whitelist order. A whitelist with a repeated name always fails, even if all plugins are present.",
  "every whitelist and directory content",
  "All lists and directories.",
  SW+":loadPluginsImpl", SW+":WithWhitelist")
p("File discovery",
  "Without a whitelist exactly the regular entries of the plugin directory ending in .so are loaded, each once; an empty selection makes LoadPlugins/Reload succeed with nil details without touching Current().",
  "every directory content",
  "All directory listings.",
  SW+":loadPluginsImpl", SW+":loadPluginFiles")
p("Duplicate names are refused before any code runs",
  "If two files of one load have names equal up to case, the load fails with the duplicate-name error and no file is read, copied or opened and no plugin function runs.",
  "every file list",
  "All file lists.",
  PM+":loadPlugins")
p("Mixed-case plugin files",
  "A plugin file whose name contains an upper-case letter (of any alphabet) or is not UTF-8 and that would have to be opened always makes the load fail (with a recovered nil dereference); consequently every plugin in a dynamically loaded manager that was freshly opened has a lower-case name.",
  "every file list and previous manager",
  "The tests only use lower-case names.",
  PM+":loadPlugins", PM+":names", PM+":add")
p("Missing or mistyped plugin functions",
  "A plugin lacking required symbols makes the load fail with an error listing exactly the missing ones in the fixed order, and none of its functions runs; on success each stored function is the plugin's own symbol of that name.",
  "every symbol table",
  "All subsets of the nine functions and all symbol types.",
  PM+":loadPlugin", PM+":makePluginFuncItemList", PL+":Lookup")
p("Plugin.Lookup",
  "Lookup writes to its target only when it returns nil, then the value is the symbol itself if assignable, else the symbol's pointee if that is assignable; an empty name, nil or non-pointer target and an unknown symbol give their respective errors. On a statically linked plugin, a well-formed Lookup panics.",
  "every symbol, target and type",
  "All types and values.",
  PL+":Lookup", PL+":isNil")
p("Static linking mode: loading",
  "In static mode LoadPlugins runs the same lifecycle (phases, dependency order, vault) on the registered plugins and publishes the new manager; Details reports every registered (whitelisted) plugin 'ok'. Two registered plugins whose names differ only in case are not refused: all but the last, in the order of the registered names, are silently dropped although reported 'ok'.",
  "every static plugin table and plugin behaviour",
  "All tables and behaviours.",
  ST+":loadStaticPlugins", ST+":loadStaticPlugin", ST+":PluginManagerSwapper.loadStaticPlugins")
p("Static linking mode: Reload refused",
  "In static mode Reload and ReloadWithCallback always fail with the static-linking error and have no effect at all; StaticLinkingMode() tells exactly whether a (non-nil) table was configured.",
  "every state",
  "Absence of any effect for all states.",
  SW+":ReloadWithCallback", SW+":StaticLinkingMode")
p("Static whitelist",
  "In static mode a non-empty whitelist loads exactly the listed plugins (repetitions allowed) and a listed name that is not registered makes LoadPlugins fail before any plugin function runs.",
  "every whitelist and static table",
  "All lists and tables.",
  ST+":PluginManagerSwapper.loadStaticPlugins")
p("InvokeEach and InvokeEachBackward reach every plugin",
  "InvokeEach calls InvokeFunc with the given name and parameters exactly once on every plugin in Plugins() order, InvokeEachBackward in the reverse order, no matter which calls fail or panic, and neither panics.",
  "every manager returned by a successful load and every plugin behaviour",
  "All failure combinations.",
  PM+":InvokeEach", PM+":InvokeEachBackward")
p("FindPlugin is case-insensitive",
  "FindPlugin(a) and FindPlugin(b) agree whenever a and b have the same characters up to case (Unicode lower case, so the Kelvin sign counts as a k, and a byte that is not UTF-8 as U+FFFD); FindPlugin(name) returns the plugin with that name up to case if there is one among Plugins(), else nil.",
  "every name and loaded manager",
  "All strings.",
  PM+":FindPlugin", PM+":name2key")
p("Details tell the truth",
  "A successful load's Details has exactly one entry per loaded plugin file, keyed by the file the plugin was opened from, with value 'ok' exactly for newly opened plugins, 'unchanged' or 'not reloadable' exactly for kept ones; building it never dereferences a missing plugin.",
  "every load",
  "All loads.",
  SW+":loadPluginFiles")
p("Details.String()",
  "Details.String() is independent of map order: it lists 'name: note' for every entry, sorted by file, separated by ', '.",
  "every Details map and iteration order",
  "All maps and orders.",
  SW+":Details.String")
p("Private copies never clash",
  "The private copies of plugins opened by one load go to pairwise different paths, and copies made by two loads coincide only if both loads started in the same second in processes with the same id, and only for the same directory, plugin name and content hash.",
  "every set of plugin names and contents",
  "All names; the format pads and prefixes the hash.",
  PM+":copyPlugin")
p("DataBag after a partial reload",
  "The DataBag of a new manager contains exactly what the OnInit calls of the newly loaded plugins stored; entries stored by a plugin that is carried over are not in the new manager's DataBag.",
  "every reload",
  "Shows a loss that tests with full rebuilds do not exhibit.",
  PM+":newPluginManager", PM+":invokeEveryOnInit", PM+":setupVault")
p("Plugin directory switch during a load",
  "A load that is not overlapped by ResetPluginDir reads exactly the directory it validated; an overlapping ResetPluginDir can make a load validate one directory and load another.",
  "every interleaving of ResetPluginDir with loads",
  "Schedule-dependent.",
  SW+":ResetPluginDir", SW+":loadPluginsImpl", HU+":FindDirectory")
p("Swapper options",
  "After NewPluginManagerSwapper every setting has the value of the last option given for it, or its default (5 minute delay, no callback, no extension, no whitelist, dynamic mode) if none was given; the order of options for different settings does not matter.",
  "every option list",
  "All option lists.",
  SW+":NewPluginManagerSwapper", SW+":Option")
p("Dependent order is deterministic",
  "Two loads of the same plugins may differ in the order of plugins without dependencies only: the sub-list of plugins that have dependencies is identical whatever the map iteration order.",
  "every pair of map iteration orders",
  "All iteration orders.",
  PM+":orderPlugins")
p("Cost of the cycle check",
  "The number of plugin visits of the cycle check is not polynomially bounded: for a ladder of n layers with two plugins per layer it makes at least 2^n visits.",
  "every n",
  "Asymptotic statement.",
  PM+":checkCyclicDependency")
p("Generated static registration passes every function in its own slot",
  "The static-plugin registration code generated by `hotswap build --staticLinking` passes the nine plugin functions so that each ends up as the function of the same name of the static plugin.",
  "every plugin package with the nine functions",
  "Several of the functions have the same Go type, so a swap would compile.",
  BC+":parseRequiredPluginFuncs", "cli/hotswap/cmd/hotswapStaticPluginInit.tpl", ST+":NewPluginFuncs")
p("Required-function check of the builder",
  "`hotswap build` refuses a plugin directory exactly when a required function is not declared as a receiver-less top-level function in its non-test files, and the message lists exactly the missing ones in alphabetical order.",
  "every set of declarations",
  "All packages.",
  BC+":parseRequiredPluginFuncs", HU+":Join")
p("Live functions and types are collected completely",
  "The builder registers exactly the receiver-less functions and the struct types of all packages of the plugin whose name starts with the prefix (case-insensitively), once each and in their own package; a name used twice or a non-struct live type makes the build fail; the generated registration therefore never panics at start-up and the plugin's live tables contain exactly those names.",
  "every set of packages and declarations, every prefix",
  "All source trees.",
  BC+":completePlugin", "cli/hotswap/cmd/hotswapLive.tpl", "cli/hotswap/cmd/hotswapBureau.tpl", "cli/hotswap/cmd/hotswapMain.tpl")
p("Files taken into the build",
  "The builder copies exactly the .go files that are neither _test.go files nor generated hotswap files, plus the non-.go files whose base name matches --include and does not match --exclude; --exclude never removes a .go file.",
  "every directory tree and pair of expressions",
  "All trees.",
  BC+":collectFiles")
p("Import path rewriting",
  "Copying rewrites every quoted import of the plugin's own package path or a sub-package of it to the temporary package path, and leaves every other quoted string, including packages whose path merely starts with the same letters, unchanged.",
  "every source text made of code and quoted strings, every package path",
  "All source texts.",
  BC+":copyFiles")
p("Parallel copy copies everything",
  "If no file operation fails and no interrupt arrives, every collected file is copied exactly once whatever the number of workers and their interleaving, and the copy step ends; if a file operation fails the copy step does not report success; no worker blocks forever. Two workers failing at the same time can crash the tool by closing a channel twice.",
  "every file list, number of workers, interleaving and failure pattern",
  "Schedule-dependent.",
  BC+":copyFiles")
p("The builder never deletes the plugin's source directory",
  "Whatever the flags and whenever interrupted, the directory removed as temporary directory is never the plugin directory or one of its ancestors.",
  "every flag combination, directory name and time of interruption",
  "All flag combinations and crash points.",
  BC+":execute", BC+":removeTmpDir")
p("Package path discovery",
  "For a directory below a go.mod the package path is the module path followed by the path from the nearest go.mod; when no ancestor has a go.mod, the search never ends (the 'cannot find go.mod' error is unreachable).",
  "every directory depth and placement of go.mod files",
  "Non-termination cannot be observed by a test.",
  HU+":PackageFromDirectory")
p("Output directory check of static builds",
  "A static build refuses an output directory equal to the plugin directory or below it, except when the first component below the plugin directory starts with '..', which is accepted although it is a subdirectory.",
  "every pair of absolute paths",
  "All paths.",
  BC+":execute")
p("Static build and other plugins' registrations",
  "Generating static code for one plugin deletes the registration files of all plugins in the output directory and writes only its own, so that after building several plugins into one output directory only the last one is registered.",
  "every sequence of static builds",
  "Sequences of builds; the existing test skips itself in this case.",
  BC+":removeStaticFiles", BC+":findPluginInitFiles", BC+":genStaticPlugin")

p("A load succeeds only if nothing failed",
  "If LoadPlugins or Reload returns without error, then during that call no OS operation failed, plugin.Open succeeded for every opened file, every required symbol was there, and no plugin function, live table, or callback returned an error or panicked.",
  "every outcome of every operation of the environment",
  "All failure points in all combinations.",
  PM+":loadPlugins", SW+":loadPluginsImpl", SW+":loadPluginFiles")
p("A load succeeds exactly when the rules are obeyed",
  "If the directory can be listed and read, the plugin file names differ even up to case and have no capitals except those of kept plugins, every plugin opens with all symbols, no function or callback fails, imports are well-formed pointers to structs whose fields name present plugins with assignable exports, there is no cycle, non-reloadable plugins depend on such only, live names are distinct, and no kept plugin depends on a rebuilt or removed one, then the load succeeds and publishes the new manager; and if nothing in the environment fails but one of these rules is broken, the load fails.",
  "every such set of plugins and every environment",
  "All inputs satisfying the documented rules.",
  PM+":loadPlugins", SW+":loadPluginFiles")

p("Grace period after Current()",
  "A manager obtained from Current() stays usable: OnFree of any of its plugins begins no earlier than max(15s, FreeDelay) after Current() returned it, minus the time the replacing load needs between scheduling the release and publishing the new manager.",
  "every interleaving of loads, readers and release goroutines, and every time at which they run",
  "All schedules and timings.",
  SW+":loadPluginFiles", SW+":Current", PM+":invokeEveryOnFree")
p("OnFree waits for every manager that holds the plugin",
  "When OnFree of a plugin instance begins, every manager published so far that holds this instance has been scheduled for release at least max(15s, FreeDelay) earlier; a plugin kept over several reloads is therefore freed only after the last of its managers.",
  "every history of loads and every schedule",
  "All histories and schedules.",
  SW+":loadPluginFiles", PM+":invokeEveryOnFree")
p("Static mode never frees a published plugin",
  "In static mode OnFree is never called for a plugin of a manager that was ever returned by Current(), also when a later LoadPlugins replaced that manager.",
  "every history and schedule in static mode",
  "Absence of a call in all executions.",
  SW+":loadStaticPlugins", SW+":loadPluginFiles")

p("Dependency errors tell the truth",
  "When LoadPlugins or Reload fails with one of the errors about dependencies, what the message says holds: Import() really had the wrong shape, the field really is anonymous, no plugin of that name really was among those of the load, the importing plugin really said it is not reloadable and the imported one that it is, the exported value really is not assignable, the dependency really was rebuilt while the dependent was carried over. 'Not a directory' is said only if Stat said so, and an empty-directory error only for a blank name. The errors 'never call loadPlugins twice', the plugin-count error and the raw Lookup errors are never returned.",
  "every history, environment and failing call",
  "All combinations of plugins and failures; the message must match what really happened.",
  PM+":initDeps", PM+":loadPlugins", SW+":loadPluginsImpl")

p("Reported plugin identity is true",
  "For every plugin of Current(), newly loaded or carried over any number of reloads: Name is the base name of File without the extension, FileSha1 is the hash of bytes read from File, exactly those bytes were written to a private copy, the copy was opened next, and P is what opening it returned.",
  "every history of loads and every plugin of the manager",
  "All histories; a carried-over plugin was opened arbitrarily many reloads ago.",
  PM+":loadPlugin", PM+":copyPlugin", PM+":removeUnchanged", PM+":FindPlugin")
p("The vault extension belongs to its load",
  "The Extension of a manager's vault is what the extension constructor returned in the load that made the manager, before any plugin was opened or called in it; the constructor runs at most once per call whatever the outcome, and never if none was configured (then the extension is nil).",
  "every load call and outcome",
  "All calls and outcomes.",
  PM+":newPluginManager", SW+":WithExtensionNewer", SW+":loadPluginFiles")

p("Temporary directory and signals",
  "If temporaries are not to be kept, hotswap build removes its temporary directory exactly once before it exits, whether it returns or panics, and without a signal nothing is written into it afterwards; if they are to be kept it never removes anything. When the build is over the program always exits within a bounded number of its own steps. Its status is 0 if the build returned and 1 if it panicked. One SIGINT or SIGTERM does not kill it; only SIGINT interrupts the build. SIGTERM during a build removes the directory while the build goes on and can recreate it, so that it is left behind.",
  "every interleaving of the build, the signal goroutine and signals",
  "All schedules and signal times.",
  BC+":execute", BC+":removeTmpDir")

p("Static builds and --clean in the plugin directory",
  "A static build, however it ends, changes nothing in the plugin directory but files called hotswap.bureau.go, hotswap.main.go and hotswap.live.go, and may add the directory hotswapbureau. At its regular end the files of these names are exactly the new ones; stale ones are gone. Building again changes nothing. --clean removes all files of these names and the whole directory hotswapbureau, including files of the user in it, and nothing else; on a directory that had nothing of the tool in it, it undoes any build. A build with errors in the live names changes nothing; one that stops later leaves the output directory with no plugin registered.",
  "every directory tree, every plugin, every point of failure or interruption, and every sequence of build and clean",
  "All directory trees and all points at which a build can stop.",
  BC+":removeStaticFiles", BC+":completePlugin", BC+":genHotswapBureau", BC+":genHotswapMain", BC+":genHotswapLive", BC+":genStaticPlugin")

p("What hotswap build does and prints",
  "The arguments after the first -- go to go build. Nothing is copied, generated, built or cleaned before all checks are passed. A dynamic build that exits with 0 has run a successful go build into <outputDir>/<base of pluginDir>.so, with the user's flags last, and prints exactly that file; any other dynamic build exits with 1 and prints nothing. Static builds and --clean run no go build and touch nothing else. If the program was not interrupted, go build sees the generated code of every directory with live names; an interrupted build can nevertheless exit with 0 and print a plugin without them. A load of the output directory finds the plugin under the base name of its source directory; if that has an upper-case letter, no load accepts it.",
  "every command line, every outcome of every step, every interrupt, every later load",
  "All combinations of flags, failures and interrupts.",
  BC+":execute", BC+":buildPlugin", BC+":completePlugin", "cli/hotswap/hotswap.go:main")

p("Loading from within a load",
  "User code that runs inside LoadPlugins or Reload (plugin functions, package initialisation, the extension constructor, reload callbacks) and calls LoadPlugins or Reload of the same swapper and waits for it, waits forever: neither call returns, no other load returns any more, nothing is published and the reload counter stays. Current, ReloadCounter, ResetPluginDir, InvokeEach and the release of old managers go on. Code that runs outside load calls, such as InvokeFunc or the OnFree of a released plugin, may load and wait.",
  "every user code position in every load, every schedule of any number of goroutines afterwards",
  "Never is not observable; the schedules are unbounded.",
  SW+":LoadPlugins", SW+":ReloadWithCallback", SW+":loadPluginFiles", SW+":invokeReloadCallbacks", PM+":invokeOnFree")

p("Directory arguments and temporary directories of builds",
  "The directories the build works with are exactly those its arguments lead to from the working directory (., .., empty components and trailing slashes included). Two dynamic builds use the same temporary directory exactly if they build the same directory at the same commit and started in the same second of the same day of the month, whatever the month; the later one then removes the directory of the other. For a plugin below a module root the temporary directory lies in the same module and its package path is the one the generated code uses; for a plugin directory that is itself a module root it lies outside of the module.",
  "every working directory and argument, all pairs of builds, every placement of go.mod",
  "All path strings and all pairs of builds.",
  BC+":execute", BC+":commitInfo", HU+":PackageFromDirectory")

p("User code cannot bring the process down",
  "Whatever plugin functions, OnFree, InvokeFunc, reload callbacks and package initialisation do, in any interleaving: no goroutine started by the library ends with a panic, and no call of LoadPlugins, Reload, Current, ReloadCounter, ResetPluginDir, InvokeEach or InvokeEachBackward panics, except a load call whose extension constructor panicked; its caller gets that very panic.",
  "every schedule of any number of goroutines and every behaviour of user code",
  "A panic in a background goroutine kills the whole process; all behaviours in all schedules cannot be tried.",
  SW+":loadPluginFiles", SW+":LoadPlugins", PM+":invokeEveryOnFree", PM+":InvokeEach", PM+":InvokeEachBackward")

p("Plugin.When and Plugin.Note are truthful",
  "In every manager a load publishes, all plugins the load created carry one and the same time, read from the clock by that load, and the note \"\" (dynamic) or \"ok\" (static); every carried-over plugin keeps the time it had, and its note is \"unchanged\" if it is reloadable and \"not reloadable\" if it is not. So When of any plugin of the current manager, however often it was carried over, was read by the very load that created it.",
  "every history of load calls, every plugin of every published manager",
  "Ranges over histories of any length and all mixtures of kept and new plugins.",
  PL+":Plugin", PM+":copyPlugin", PM+":loadPlugins", ST+":loadStaticPlugins")

p("The plugin directory of a load",
  "A dynamic load first looks at the plugin directory: a name of (Unicode) white space only, a directory that cannot be examined, made absolute or listed, or something that is no directory makes it fail with exactly that error, with no plugin file touched, no plugin function called and Current() unchanged; otherwise it lists the absolute form of the directory, once. In static mode no directory or file is looked at.",
  "every directory string, every answer of the operating system",
  "Ranges over all strings and all combinations of failures.",
  SW+":loadPluginsImpl", HU+":FindDirectory", ST+":loadStaticPlugins")

p("Loading is reproducible",
  "In environments where nothing fails, two loads with the same options, current manager, plugin directory, file contents and plugin answers - but different times, histories, data arguments, callbacks, addresses and Go map iteration orders - both succeed or both fail; and if they succeed, for every plugin of one new manager the other has an equivalent plugin (same name, checksum, note, dependencies, exported value, reloadability, values in the import fields) and the live functions and types are the same. In static mode the same holds of two loads with the same registrations, whatever else differs.",
  "every pair of such loads, every set of plugins, every directory, every table of registrations",
  "Compares all pairs of executions; map iteration order is random at run time.",
  PM+":loadPlugins", PM+":orderPlugins", PM+":initDeps", PM+":setupVault", SW+":loadPluginFiles")

p("The error a load returns is the one that occurred",
  "If a load call returns an error, every failure during the call is accounted for by it: an error of writing or opening a private copy comes back with the name of the plugin copied (an error of creating the directory for copies: with some plugin name; of looking at the plugin directory or reading a plugin file: as it is), an error of OnLoad, OnInit or a reload callback comes back as it is, a panic of plugin.Open or of a plugin function comes back as that panic with the name of that plugin (of a live table or a reload callback: without a name), a missing function is listed (unless a function of the wrong type stopped the search). If the call returns no error, nothing failed during the call; if it panics, what failed is the extension constructor with that very panic. Conversely an error that speaks of code outside hotswap repeats an error or panic such code raised during this call.",
  "every load call in every history, dynamic or static, every behaviour of the operating system and of user code",
  "All places where something can fail, in all combinations with carried-over plugins, cleanup and callbacks.",
  PM+":loadPlugins", PM+":loadPlugin", PM+":invokeEveryOnLoad", PM+":invokeEveryOnInit", PM+":setupVault", SW+":invokeReloadCallbacks", SW+":loadPluginFiles", ST+":loadStaticPlugins")

p("A manager handed out never changes",
  "The loading code works on shared objects: managers are pointers, a carried-over plugin is a copy that shares its list of dependencies and its imported values with the old plugin, lists grow in place. Nevertheless a load call stores only to objects it has made itself, and nothing is stored to a new manager after it has been published; a release stores nothing. So everything that can be read through a manager obtained from Current() or in a callback (its plugins, their dependencies, notes, imported values, order, live functions and types) stays the same for ever, whatever loads and releases follow, and no reader of a manager needs synchronisation with them. The program on pointers has exactly the executions of the model with values.",
  "every history of load calls and releases, dynamic or static, successful or failing, every growth policy of append",
  "Sharing between arbitrarily long chains of managers; every interleaving of readers with stores of later loads.",
  PM+":addUnchanged", PM+":newPluginManager", PM+":loadPlugin", PM+":initDeps", PM+":invokeEveryOnFree", SW+":loadPluginFiles", PL+":Plugin")

p("What the builder checks and what the loader needs",
  "A plugin that `hotswap build` refuses for missing functions lacks one of the nine functions the loader looks up. A plugin that lacks one of them is never in a published manager. If the check passed (and was not switched off), every file declaring a required function is copied and compiled by go build, and the generated file was written, then no load refuses the built file for missing functions. Without that condition the check can pass for a plugin that can never be loaded: functions in files that go build leaves out (build constraints, _-prefixed names) or in left-over generated files count for the check.",
  "every plugin directory, every choice of files go build leaves out, every load call in every history of a dynamic swapper",
  "Connects two programs: every source tree against every load.",
  BC+":parseRequiredPluginFuncs", BC+":collectFiles", BC+":execute", PM+":loadPlugin", PL+":Lookup")

p("Every call returns, whatever the scheduler does",
  "From every state, however many loads, releases, readers and invocations are under way: if the program makes no further calls and every plugin function, callback and system call returns, all of these calls and all release goroutines finish after finitely many steps, in whatever order the scheduler takes the steps and whatever plugins and the operating system answer; the lock of the swapper is free then and every plugin that has been superseded has been freed. As long as something is unfinished, something can go on: there is no deadlock, and no execution goes on for ever. Current(), ReloadCounter(), ResetPluginDir() and the Invoke methods never wait for a load in progress.",
  "every reachable state of every program on one swapper, every schedule from there, every answer",
  "Termination under all schedules is a statement about infinitely many interleavings.",
  SW+":LoadPlugins", SW+":ReloadWithCallback", SW+":loadPluginFiles", SW+":Current", SW+":ResetPluginDir", SW+":ReloadCounter", PM+":invokeEveryOnFree", PM+":InvokeEach")

p("Data races: none among loads, managers and callbacks; one on the plugin directory",
  "In the sense of the Go memory model (program order, mutex, atomic value, atomic counter, go statement): any two actions of load calls are ordered, whatever goroutines make them. A goroutine that has a manager, from Current() or because it releases it, does everything after all the work of the load that published it (and of all earlier loads), so it may read the manager without locks; each manager is published once and released at most once. Everything called to start a plugin (OnLoad, OnInit, ...) happens before its OnFree, and so does everything done by whoever gave the plugin up, so a plugin needs no lock between these functions. What goroutines of the user do with a manager happens before nothing else: only the delay keeps OnFree away from callers still using the plugin. ResetPluginDir is ordered with nothing: together with a load in another goroutine it is a data race on the plugin directory.",
  "every reachable state of every program on one swapper, every two actions in its history; a call of ResetPluginDir is taken as a goroutine of its own",
  "A race detector sees one schedule; ordering must hold in all of them.",
  SW+":LoadPlugins", SW+":ReloadWithCallback", SW+":loadPluginFiles", SW+":Current", SW+":ResetPluginDir", PM+":invokeEveryOnFree", PM+":InvokeEach", PL+":Plugin")

p("A reload without changes changes nothing",
  "When a load has succeeded and the next load finds the same plugin directory with the same files, and everything called returns normally, then that load succeeds, copies and opens nothing, calls no function of a plugin other than asking each for its live functions and live types, and publishes a manager with the same plugins (same objects, found under the same names), each noted as unchanged (or as not reloadable), those with dependencies in the same order, and with the same live tables.",
  "every directory listing, file content, dependency graph and option list of a dynamic swapper; every pair of successive loads in a well-behaved environment",
  "Reload is run periodically; that it is idempotent must hold for every set of plugins.",
  SW+":loadPluginFiles", PM+":loadPlugins", PM+":addUnchanged", PM+":removeUnchanged")

p("A failed load leaves no trace in later loads",
  "What a load call can do and return after a failed load call is exactly what it could do and return had the failed call never been made (with other plugin objects). Leaving all failed calls out of any history gives a possible history with the same Current(), the same published managers and the same number of counted reloads.",
  "every history of load calls of every swapper, static or dynamic, every way a call can fail",
  "Failed loads can stop at every point; what stays behind would show only in some later load.",
  SW+":LoadPlugins", SW+":ReloadWithCallback", SW+":loadPluginFiles", PM+":loadPlugins", ST+":loadStaticPlugins")

# the theorems of these properties assume, in static mode, names that differ even up to case
DISTINCT=[]
for x in P:
    if x["id"] in DISTINCT: x["quantifier"]+="; in static mode: every table of registrations whose names differ even up to case (C31 covers the others)"
out=os.path.join(os.path.dirname(os.path.dirname(os.path.abspath(__file__))),"properties.jsonl")
with open(out,"w") as f:
    for x in P: f.write(json.dumps(x)+"\n")
print(len(P))
