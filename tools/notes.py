NOTES = {
'C01': "Both modes, every history. Dependencies are those of Deps, resolved case-insensitively in the same manager; C01 plus C10 tie Deps to the Import() fields.",
'C02': "In static mode registrations whose names differ in case only fall together in the manager; the theorems cover this: all of them are opened, one of them is in the manager and goes through the later phases. With distinct_registrations (always so in dynamic mode) the opened plugins are exactly the new ones.",
'C03': "Both modes, no assumption on the registrations.",
'C04': "No assumption on the registrations. A cycle is stated as a relation on Import() fields/Deps, not with the code's visiting set; the check is run with fuel that C04/C05 show is never used up.",
'C05': "Both modes, no assumption on the registrations.",
'C06': "The panic of the extension constructor is the exception stated; C67 lifts it to all goroutines and schedules.",
'C07': "In static mode registrations whose names differ in case only fall together in the manager; the theorems cover this: the reference of an overwritten plugin is not given back (it has no other). With distinct_registrations (always so in dynamic mode) all references are.",
'C08': "Stated for one call after any history; C20 gives the same under concurrency.",
'C15': "Both modes, no assumption on the registrations.",
'C16': "All interleavings of any number of goroutines (Conc.v), no assumption on the registrations.",
'C17': "The proviso of the English claim is the hypothesis `prompt`; C17_unconditional_claim_is_refuted exhibits a reachable schedule that violates the claim without it.",
'C18': "Hypothesis have_OnFree: the OnFree function value is not nil (it is nil only if the plugin exports a nil function variable of that name).",
'C22': "The counter is incremented before the call returns: C22_counter accounts for the one call that may be between the two.",
'C28': "A finding: the nil dereference is recovered and reported as error.",
'C30': "A finding: Lookup on a statically linked plugin panics.",
'C31': "That phases, dependency order, wiring and vault are as in dynamic mode is part of C01-C05, C09, C10, C15, whose theorems cover both modes. A finding: case variants are dropped silently.",
'C36': "That building Details never dereferences a missing plugin follows from C06 (no panic other than the constructor's escapes) and the equality with the plugins of the manager.",
'C38': "The private directory's name is modelled digit by digit (Times.v); a time is taken to have two-digit fields, as time.Format prints them, and a process id to be a natural number.",
'C40': "pluginDir is read twice without lock; its accesses are taken as atomic (the data race itself is outside the model).",
'C43': "A finding, stated as a lower bound for an explicit family of graphs; check_n is the model's check with a counter, C43_count_is_faithful says that the counter does not change it.",
'C46': "Hypothesis of C46_tables: two packages of the plugin never share a directory.",
'C48': "Texts are cut at their double quotes. Hypothesis ~ overlapping: the path between two quotes that belong to different strings (code between two strings that happens to equal the package path) does not occur; the temporary path is not below the package path (proved: C48_temporary_path).",
'C49': "Findings: double close, unnoticed interrupt.",
'C51': "A finding: the search never ends without go.mod.",
'C52': "A finding: first component starting with two dots.",
'C53': "A finding: registrations of other plugins are deleted.",
'C55': "The rules for plugins are an independent specification (Rules.v). Every directory: files with capitals in their names are part of the rules (allowed only if the plugin is kept). In static mode: every table of registrations; of registrations equal up to case the last counts.",
'C56': "delta bounds the time between scheduling the release and publishing.",
'C58': "However the plugins are registered (case variants included).",
'C59': "Both modes, no assumption on the registrations.",
'C62': "A finding: SIGTERM during a build can leave the temporary directory behind.",
'C64': "Findings: an interrupted build can exit 0 with live functions missing; mixed-case directories are built but can never be loaded.",
'C65': "A finding: sync.Mutex is not reentrant.",
'C66': "A finding: two builds of the same commit at the same second of the same day of the month share their temporary directory.",
'C73': "A finding: functions in files that go build leaves out satisfy the check of the builder.",
'C77': "About the library: the answers of plugins and of the operating system are arbitrary, so what a failed load leaves in a plugin's own memory or in the file system is up to them (the copies it leaves behind are C38).",
'C76': "Dynamic mode; a well-behaved environment (same listing and contents in both loads, every call returns normally); that such a first load succeeds is the subject of C22 and C28.",
'C75': "Happens-before is defined on the positions of a history, with the edges the Go memory model gives for what the library uses; orderings made by the user's own synchronisation are not counted. Finding: ResetPluginDir concurrent with a load is a data race.",
'C72': "Import() is assumed to return an object of its own for each opened plugin.",
'C70': "Both modes (C70_same_* dynamic, C70_static_* static), no assumption on the files.",
'C67': "Release goroutines exist in dynamic mode only, so no assumption on the registrations is needed.",
}
STATUS = {}
