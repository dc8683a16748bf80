(** C67: user code cannot bring the process down *)
From Verif Require Import PropGrace PropLoad PropApi.

Section Props.
Context {E : GoEnv}.

(** ** Specification *)
(** The panic with which a goroutine leaves the library. *)
Definition escaping (x : result) : option gpanic :=
  match x with Returned (Pan y) => Some y | ReturnedLoad (Pan y) => Some y | _ => None end.

(** ** Proofs *)
Lemma release_ready o dir w j th m d : reach o dir w -> w_threads w !! j = Some th -> th_task th = TFree m d ->
  deps_ready (pm_map m) (pm_ordered m).
Proof.
  intros HR Hth Ht. destruct (thread_spawned _ _ _ _ _ _ _ HR Hth Ht) as (en & Hen & Hw & _).
  destruct (spawn_call _ _ _ _ _ _ HR Hen Hw) as [_ Hst].
  assert (HD : distinct_registrations o) by (intros st Hs; congruence).
  destruct (reach_tokens _ _ _ HR HD) as (H & rest & x & HT).
  assert (Hm : m ∈ stores H).
  { apply (tk_stores _ _ _ _ _ HT). apply elem_of_app. left. apply elem_of_list_fmap. exists (j, m). split; [done|]. apply frees_in. eauto. }
  apply (lg_ready _ _ _ (tk_ledger _ _ _ _ _ HT) _ Hm).
Qed.

(** Whatever plugin functions, callbacks and package initialisers do, in any interleaving: the goroutine that releases an old
    manager and the goroutines that call the API never leave it with a panic - except for a load call whose extension
    constructor panicked, and then the caller gets that very panic. *)
Theorem C67_no_panic_escapes o dir w j th x y :
  reach o dir w -> w_threads w !! j = Some th -> th_prog th = Ret x -> escaping x = Some y ->
  o_newExt o = true /\ (exists a, th_task th = TLoad a) /\ x = ReturnedLoad (Pan y) /\ EvNewExt (Pan y) ∈ events_of j (w_hist w).
Proof.
  intros HR Hth Hx Hy. pose proof (b_thread _ _ _ (reach_basic _ _ _ HR) _ _ Hth) as HP. rewrite Hx in HP. apply partial_ret in HP.
  destruct (th_task th) as [a|m d| | |d|m b name params] eqn:Ht.
  - destruct (finished_call _ _ _ _ _ _ _ HR Hth Ht Hx) as (r & -> & Hex & Hun). destruct r as [|e|y']; try done. cbn in Hy. injection Hy as ->.
    destruct Hun as [[Hz Hst]|Hun].
    + exfalso. rewrite Hz in Hex. destruct a as [data|data extra]; cbn [api_prog] in Hex.
      * apply exec_locked in Hex as (tb & Hb & _). done.
      * unfold ReloadWithCallback in Hex. destruct (o_static o) as [st|]; [by destruct Hex as [_ ?]|done].
    + apply elem_of_list_split in Hun as (l1 & l2 & Heq). destruct (complete_call _ _ _ _ _ _ HR Heq) as (th' & a' & r & Hth' & Hta' & Hr' & HN).
      simplify_eq. rewrite Hx in Hr'. injection Hr' as <-. apply C06_only_extension_panic_escapes in HN as (HE & Hin & _). split_and!; [done|by exists a|done|done].
  - destruct (free_task _ _ _ _ _ HP (release_ready _ _ _ _ _ _ _ HR Hth Ht)) as (t & _ & _ & ->). done.
  - cbn [task_prog] in HP. apply exec_bind in HP as (? & ? & ? & _ & _ & [_ ->]). done.
  - cbn [task_prog] in HP. apply exec_bind in HP as (? & ? & ? & _ & _ & [_ ->]). done.
  - cbn [task_prog] in HP. apply exec_bind in HP as (? & ? & ? & _ & _ & [_ ->]). done.
  - cbn [task_prog] in HP. apply exec_bind in HP as (t1 & t2 & r & _ & He & [_ ->]).
    assert (r = Val tt) as ->; [|done]. destruct b; [by apply C34_InvokeEachBackward in He as [? _]|by apply C34_InvokeEach in He as [? _]].
Qed.
(** A goroutine in InvokeEach (or InvokeEachBackward), among whatever other goroutines, has made the first of its calls in
    the order of Plugins() (or the reverse order); when it returns it has made all of them, and it returns normally. *)
Theorem C34_among_other_goroutines o dir w j th m (backward : bool) name params : reach o dir w -> w_threads w !! j = Some th -> th_task th = TInvoke m backward name params ->
  exists rest, invoke_calls m name params (if backward then rev (Plugins m) else Plugins m) = call_sigs (events_of j (w_hist w)) ++ rest /\
    (forall x, th_prog th = Ret x -> rest = [] /\ x = Returned (Val tt)).
Proof.
  intros HR Hth Ht. pose proof (b_thread _ _ _ (reach_basic _ _ _ HR) _ _ Hth) as HP. rewrite Ht in HP.
  assert (Hex : forall t r, exec (task_prog o (TInvoke m backward name params)) t r ->
    call_sigs t = invoke_calls m name params (if backward then rev (Plugins m) else Plugins m) /\ r = Returned (Val tt)).
  { intros t r H. cbn [task_prog] in H. apply exec_bind in H as (t1 & t2 & r' & -> & H1 & [-> ->]). rewrite (right_id_L [] (++)). destruct backward.
    - apply C34_InvokeEachBackward in H1 as (-> & -> & _). done.
    - apply C34_InvokeEach in H1 as (-> & -> & _). done. }
  destruct (complete (th_prog th) None []) as (t' & r & He & _). pose proof He as He0. apply HP in He. apply Hex in He as [He ->].
  exists (call_sigs t'). split; [rewrite <- He; apply omap_app|]. intros x Hx. rewrite Hx in He0. destruct He0 as [-> ->]. done.
Qed.

End Props.

(** ** A concrete case: OnFree and InvokeFunc of every plugin panic *)
Definition calls_rude (r : role) (c : callee) : outcome (role_resp r) :=
  match r return outcome (role_resp r) -> outcome (role_resp r) with
  | ROnFree => fun _ => Pan (PUser 5)
  | RInvokeFunc => fun _ => Pan (PUser 6)
  | _ => fun x => x
  end (good_call reloadable_abc r c).
Definition world_rude : demo_world := world_calls calls_rude world0.
Lemma world_rude_ok : demo_ok world_rude.
Proof.
  split_and!; try done; [apply world_listing|]. intros r c. destruct r; try apply good_call_valid; by eexists.
Qed.
Definition rude_cmds : list cmd :=
  [SStart (TLoad (Call_LoadPlugins 77)); SRun world0 0 400; SStart (TLoad (Call_Reload 78 (Some 5%N))); SRun world1 1 400;
   SStart (TInvoke m0 true "hi" 3); SRun world_rude 3 9; STime (400 * second); SRun world_rude 2 300].
Definition rude : world := sched dyn rude_cmds (initially "/p").
Definition panics_of (r : role) (w : world) : nat :=
  length (List.filter (fun e => match e with EvCall r' _ _ (Pan _) => bool_decide (r' = r) | _ => false end) (events (w_hist w))).
Example C67_case : reach dyn "/p" rude /\ panics_of ROnFree rude = 1%nat /\ panics_of RInvokeFunc rude = 3%nat /\
  map (result_of_thread rude) [2; 3]%nat = [Some (Returned (Val tt)); Some (Returned (Val tt))].
Proof.
  split_and!; [|vm_compute; reflexivity..]. apply sched_reach. unfold rude_cmds. repeat apply Forall_cons_2; try exact I; try apply Forall_nil_2; unfold cmd_ok;
    first [apply world0_ok|apply world1_ok|apply world_rude_ok].
Qed.
Definition rude_invocation : option (bool * string * N * list string) :=
  match w_threads rude !! 3%nat with Some th => match th_task th with TInvoke m b n p => Some (b, n, p, map pl_name (Plugins m)) | _ => None end | None => None end.
Example C34_goroutine_case : rude_invocation = Some (true, "hi", 3%N, ["a"; "b"; "c"]) /\
  map cs_name (call_sigs (events_of 3 (w_hist rude))) = ["c"; "b"; "a"].
Proof. split; vm_compute; reflexivity. Qed.
Definition badext_cmds : list cmd := [SStart (TLoad (Call_LoadPlugins 77)); SRun world_badext 0 400].
Example C67_extension_case : let w := sched dyn_ext badext_cmds (initially "/p") in
  reach dyn_ext "/p" w /\ result_of_thread w 0 = Some (ReturnedLoad (Pan (PUser 8))).
Proof.
  split; [|vm_compute; reflexivity]. apply sched_reach. unfold badext_cmds. repeat apply Forall_cons_2; try exact I; try apply Forall_nil_2; unfold cmd_ok;
    first [apply world_badext_ok].
Qed.
Print Assumptions C34_among_other_goroutines.
Print Assumptions C67_no_panic_escapes.
