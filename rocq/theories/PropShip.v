(** C73: the check of the builder and the check of the loader.  `hotswap build` looks for the required functions in the source directory; the
    loader looks them up in the file that go build made of the copied files.  Composition of C29, C45 and the rules of C47. *)
From Verif Require Export PropOpen PropTool.
From Verif Require Import Worlds.
From Verif Require Import ToolCopy FileProofs.

(** ** Specification *)
Definition generated_names : list string := ["hotswap.bureau.go"; "hotswap.main.go"; "hotswap.live.go"].
(** a .go file of the plugin directory that the builder copies *)
Definition source_file (f : string) : Prop := has_suffix ".go" f = true /\ has_suffix "_test.go" f = false /\ f ∉ generated_names.
(** The functions in the plugin: those of the copied files that go build does not leave out ([compiled]: build constraints,
    names starting with "_" or "."), and the two of the generated file if it was written. *)
Definition linked_in (compiled : string -> bool) (files : list (string * list decl)) (main_written : bool) (n : string) : Prop :=
  (exists f ds, (f, ds) ∈ files /\ source_file f /\ compiled f = true /\ DFunc false n ∈ ds) \/
  (main_written = true /\ (n = "HotswapLiveFuncs" \/ n = "HotswapLiveTypes")).
(** Wherever in [T] a file was opened for plugin [name], its symbols were [fns]. *)
Definition has_functions `{E : GoEnv} (fns : string -> Prop) (name : string) (T : list event) : Prop :=
  forall ta tz mid copy j hd table syms, T = ta ++ looked_up mid name copy j hd table syms ++ tz -> forall s, s ∈ syms -> table s <> None <-> fns s.

Section Ship.
Context {E : GoEnv}.

(** A plugin the builder refuses for missing functions could not have been loaded. *)
Theorem C73_refused_plugin_lacks_a_function env files it msg compiled w : Permutation it seven -> checkRequired env files it = Panics msg ->
  exists n, n ∈ required_symbols /\ ~ linked_in compiled files w n.
Proof.
  intros Hp H. unfold checkRequired in H. destruct (_ || _); [done|]. destruct (parseRequiredPluginFuncs "" files it) as [|m] eqn:Hr; [done|].
  apply (C45_refuses_exactly_incomplete_packages "" files it m Hp) in Hr as [(n & Hn & Hd) _]. change (required "") with seven in Hn. exists n. split.
  - unfold seven, required_symbols in *. rewrite !elem_of_cons in *. tauto.
  - intros [(f & ds & Hf & (_ & Ht & _) & _ & Hin)|(_ & Hc)].
    + apply Hd. by exists f, ds.
    + unfold seven in Hn. rewrite !elem_of_cons, elem_of_nil in Hn. destruct Hc as [->| ->]; by repeat destruct Hn as [Hn|Hn].
Qed.
(** A plugin that lacks one of the nine functions is never published. *)
Theorem C73_incomplete_plugin_is_never_published o h cur a t r m p fns n : next_call o h cur (api_prog o a) t r -> o_static o = None ->
  published t m -> holds m p -> has_functions fns (pl_name p) (h ++ t) -> n ∈ required_symbols -> fns n.
Proof.
  intros HN Hst Hpub Hp Hf Hn. destruct (C29_functions_are_own_symbols o h cur a t r m p HN Hst Hpub Hp) as (ta & tz & mid & copy & hd & table & Ht & _ & Hs).
  apply (Hf ta tz mid copy (pl_inst p) hd table required_symbols Ht n Hn).
  assert (exists f, n = role_symbol f) as [f ->].
  { unfold required_symbols in Hn. rewrite !elem_of_cons, elem_of_nil in Hn.
    destruct Hn as [->|[->|[->|[->|[->|[->|[->|[->|[->|[]]]]]]]]]]; [by exists ROnLoad|by exists ROnInit|by exists ROnFree|by exists RExport|by exists RImport|by exists RInvokeFunc|by exists RReloadable|by exists RLiveFuncs|by exists RLiveTypes]. }
  destruct (Hs f) as (v & -> & _). done.
Qed.
(** A plugin that passed the check, whose declaring files go build compiles and whose generated file was written, is not refused for missing functions. *)
Theorem C73_checked_plugin_is_complete env files it compiled : Permutation it seven -> env <> "false" -> env <> "0" -> checkRequired env files it = Done tt ->
  (forall f ds n, (f, ds) ∈ files -> has_suffix "_test.go" f = false -> n ∈ seven -> DFunc false n ∈ ds -> source_file f /\ compiled f = true) ->
  (forall n, n ∈ required_symbols -> linked_in compiled files true n) /\
  forall o h cur a t name missing, next_call o h cur (api_prog o a) t (Err (ELoad name (EMissingFuncs missing))) -> o_static o = None ->
    has_functions (linked_in compiled files true) name t -> False.
Proof.
  intros Hp He1 He2 Hc Hall. assert (Hd : forall n, n ∈ seven -> declared files n).
  { apply (proj1 (C45_dynamic_build env files it Hp)) in Hc as [[?|?]|Hc]; done. }
  assert (Hl : forall n, n ∈ required_symbols -> linked_in compiled files true n).
  { intros n Hn. assert (n ∈ seven \/ n = "HotswapLiveFuncs" \/ n = "HotswapLiveTypes") as [H7|H2] by (unfold seven, required_symbols in *; rewrite !elem_of_cons in *; tauto); [|by right].
    left. destruct (Hd n H7) as (f & ds & Hf & Ht & Hin). exists f, ds. destruct (Hall f ds n Hf Ht H7 Hin). done. }
  split; [exact Hl|]. intros o h cur a t name missing HN Hst Hf.
  destruct (C29_missing_functions_are_listed o h cur a t name missing HN Hst) as (ta & tz & mid & copy & j & hd & table & Ht & Hm & Hne & _).
  destruct missing as [|n l]; [done|]. assert (Hin : In n (List.filter (fun sym => bool_decide (table sym = None)) required_symbols)) by (rewrite <- Hm; by left).
  apply filter_In in Hin as [Hin Hb]. apply bool_decide_eq_true in Hb. apply elem_of_list_In in Hin.
  by apply (Hf ta tz mid copy j hd table required_symbols Ht n Hin) in Hb; [|apply Hl].
Qed.
End Ship.

(** ** A finding: functions in files that go build leaves out count for the check *)
Definition tagged_files : list (string * list decl) :=
  [("main.go", [DOther; DFunc false "OnLoad"; DFunc false "OnInit"; DFunc false "Export"; DFunc false "Import"; DFunc false "InvokeFunc"; DFunc false "Reloadable"]);
   ("free_windows.go", [DFunc false "OnFree"])].
Definition on_linux (f : string) : bool := negb (String.eqb f "free_windows.go").
Theorem C73_check_can_pass_for_an_unloadable_plugin : exists files compiled, checkRequired "" files seven = Done tt /\
  forall w, ~ linked_in compiled files w "OnFree".
Proof.
  exists tagged_files, on_linux. split; [vm_compute; reflexivity|]. intros w [(f & ds & Hf & _ & Hc & Hin)|(_ & [? | ?])]; [|done..].
  unfold tagged_files in Hf. rewrite !elem_of_cons, elem_of_nil in Hf. destruct Hf as [[= -> ->]|[[= -> ->]|[]]]; [|done].
  rewrite !elem_of_cons, elem_of_nil in Hin. by repeat destruct Hin as [Hin|Hin].
Qed.

(** ** Concrete cases *)
Lemma has_all (fns : string -> Prop) name (T : list event) :
  forallb (fun e => match e with EvLookupSym _ s (Some _) => bool_decide (s ∈ required_symbols) | EvLookupSym _ _ None => false | _ => true end) T = true ->
  (forall n, n ∈ required_symbols -> fns n) -> has_functions fns name T.
Proof.
  intros HT Hf ta tz mid copy j hd table syms -> s Hs. rewrite forallb_forall in HT.
  assert (Hin : In (EvLookupSym hd s (table s)) (ta ++ looked_up mid name copy j hd table syms ++ tz)).
  { apply elem_of_list_In. apply elem_of_app. right. apply elem_of_app. left. unfold looked_up. do 2 right. apply elem_of_list_fmap. by exists s. }
  apply HT in Hin. destruct (table s); [|done]. apply bool_decide_eq_true in Hin. split; [by intros _; apply Hf|done].
Qed.
Definition whole_files : list (string * list decl) :=
  [("main.go", [DOther; DFunc false "OnLoad"; DFunc false "OnInit"; DFunc false "Export"; DFunc false "Import"; DFunc false "InvokeFunc"; DFunc false "Reloadable"]);
   ("free.go", [DFunc false "OnFree"]); ("x_test.go", [DFunc false "OnFree"])].
Lemma whole_case : forall f ds n, (f, ds) ∈ whole_files -> has_suffix "_test.go" f = false -> n ∈ seven -> DFunc false n ∈ ds -> source_file f /\ on_linux f = true.
Proof.
  intros f ds n Hf Ht _ _. unfold whole_files in Hf. rewrite !elem_of_cons, elem_of_nil in Hf. destruct Hf as [[= -> ->]|[[= -> ->]|[[= -> ->]|[]]]]; [..|done].
  1-2: split; [|done]; split_and!; [done..|]; apply (bool_decide_unpack _); vm_compute; exact I.
Qed.
Lemma whole_linked : forall n, n ∈ required_symbols -> linked_in on_linux whole_files true n.
Proof. refine (proj1 (C73_checked_plugin_is_complete "" whole_files seven on_linux _ _ _ _ whole_case)); [done..|vm_compute; reflexivity]. Qed.
(** the first load of the demonstration, with files built from such sources *)
Example C73_case : checkRequired "" whole_files seven = Done tt /\ next_call dyn [] None (api_prog dyn (Call_LoadPlugins 77)) t0 (snd run0) /\
  o_static dyn = None /\ published t0 m0 /\ has_functions (linked_in on_linux whole_files true) "a" ([] ++ t0) /\ length (Plugins m0) = 3%nat.
Proof.
  split_and!; [vm_compute; reflexivity|apply first_load|done|apply published0| |vm_compute; reflexivity].
  rewrite app_nil_l. apply has_all; [vm_compute; reflexivity|exact whole_linked].
Qed.
Example C73_refused_case : checkRequired "" [("x_test.go", [DFunc false "OnFree"])] seven = Panics "missing fundamental plugin functions: Export, Import, InvokeFunc, OnFree, OnInit, OnLoad and Reloadable".
Proof. vm_compute. reflexivity. Qed.

Print Assumptions C73_refused_plugin_lacks_a_function.
Print Assumptions C73_incomplete_plugin_is_never_published.
Print Assumptions C73_checked_plugin_is_complete.
Print Assumptions C73_check_can_pass_for_an_unloadable_plugin.
