(** C72: the pointer-level program.  HeapModel.v restates the loading code with addresses, dereferences, stores and slices that
    share arrays.  Its executions are those of the model with values, over whole histories, and a load stores only to objects it
    has made itself: what can be read through a *PluginManager somebody holds never changes. *)
From Verif Require Export Worlds.
From Verif Require Export HeapSwap.

Definition empty_heap : heap := mkHeap 0 ∅ ∅ ∅ ∅ None [].
(** what Current() gives access to *)
Definition current (h : heap) : option mgr := h_cur h ≫= view h.

Section Heaps.
Context {E : GoEnv} {HE : HeapEnv} (o : opts).
(** a call of the pointer program: the answer recorded for Current() is what can be read through the pointer *)
Definition hcall (h : heap) (a : api) (t : list event) (h' : heap) (r : outcome (option Details)) : Prop :=
  exec (hapi o a h) t (h', r) /\ forall x, saw_current t x -> x = current h.
(** calls and releases one after the other, from [h] to [h'] *)
Inductive later : heap -> heap -> Prop :=
  | later_refl h : later h h
  | later_load h h1 h2 a t r : later h h1 -> hcall h1 a t h2 r -> later h h2
  | later_free h h1 h2 l t r : later h h1 -> is_Some (view h1 l) -> exec (hinvokeEveryOnFree l h1) t (h2, r) -> later h h2.
(** the load calls of a swapper from the start of the process *)
Inductive heap_history : list event -> heap -> Prop :=
  | heap_start : heap_history [] empty_heap
  | heap_call T h a t h' r : heap_history T h -> hcall h a t h' r -> heap_history (T ++ t) h'.
(** no object has this address *)
Definition unused (h : heap) (l : N) : Prop := h_plug h !! l = None /\ h_arr h !! l = None /\ h_imp h !! l = None /\ h_mgr h !! l = None.

Lemma empty_wf : wf empty_heap.
Proof. by split. Qed.
Lemma call_spec h a t h' r : wf h -> hcall h a t h' r -> exec (api_prog o a) t r /\ left_behind h h' /\ current h' = after (current h) t.
Proof.
  intros HW [H Hs]. destruct (rel_sound _ _ _ _ (rel_api h HW o a) t _ H Hs) as (r' & H' & Hr & Hl). cbn in Hr. subst r'.
  split_and!; [done|exact Hl|]. exact (cur_api h HW o a t _ H Hs).
Qed.
Lemma rel_blind {A B} (Q : A -> B -> Prop) cur p p' : rel cur Q p p' -> only private_act p' ->
  forall t r, exec p t r -> exists r', exec p' t r' /\ Q r r'.
Proof.
  induction 1 as [a b HQ|X a k k' _ IH|l l' k k' Hl _ IH|k k' _ IH]; intros Ho t r H.
  - destruct H as [-> ->]. exists b. by split.
  - destruct H as (x & t' & Hv & -> & H). destruct (IH x Hv (proj2 Ho x) t' r H) as (r' & H' & HQ). exists r'. split; [|done]. by exists x, t'.
  - destruct H as (x & t' & Hv & -> & H). destruct (IH x Hv (proj2 Ho x) t' r H) as (r' & H' & HQ). exists r'. split; [|done]. exists x, t'. split; [|done].
    cbn in Hv |- *. by transitivity l.
  - by destruct Ho.
Qed.
Lemma free_spec h l m t h' r : wf h -> view h l = Some m -> exec (hinvokeEveryOnFree l h) t (h', r) -> h' = h /\ exec (invokeEveryOnFree m) t r.
Proof.
  intros HW Hv H. unfold view in Hv. destruct (h_mgr h !! l) as [x|] eqn:Hx; [|done]. injection Hv as <-.
  destruct (rel_blind _ _ _ _ (rel_free None h l x HW Hx) (private_free _) t _ H) as (r' & H' & [= -> ->]). done.
Qed.
Lemma hcall_wf h a t h' r : wf h -> hcall h a t h' r -> wf h' /\ frame h h'.
Proof. intros HW H. by destruct (call_spec h a t h' r HW H) as (_ & (H1 & H2 & _) & _). Qed.
Lemma later_wf h h' : later h h' -> wf h -> wf h' /\ frame h h'.
Proof.
  induction 1 as [h|h h1 h2 a t r _ IH H|h h1 h2 l t r _ IH [m Hm] H]; intros HW.
  - split; [done|apply frame_refl].
  - destruct (IH HW) as [H1 H2]. destruct (hcall_wf _ _ _ _ _ H1 H) as [H3 H4]. split; [done|]. by eapply frame_trans.
  - destruct (IH HW) as [H1 H2]. by destruct (free_spec _ _ _ _ _ _ H1 Hm H) as [-> _].
Qed.
Lemma history_wf T h : heap_history T h -> wf h.
Proof. induction 1 as [|T h a t h' r _ IH H]; [apply empty_wf|]. by apply (hcall_wf _ _ _ _ _ IH H). Qed.
Lemma wf_unused h l : wf h -> (h_next h <= l)%N -> unused h l.
Proof.
  intros HW Hl. split_and!; apply eq_None_not_Some; intros [x Hx].
  - apply (wf_plug _ HW) in Hx. lia.
  - apply (wf_arr _ HW) in Hx. lia.
  - apply (wf_imp _ HW) in Hx. lia.
  - apply (wf_mgr _ HW) in Hx. lia.
Qed.

(** The pointer program and the program with values have the same histories: every sequence of calls of the one is one of the
    other, and Current() gives access to the same manager. *)
Theorem C72_pointer_program_has_the_same_histories :
  (forall T h, heap_history T h -> history o T (current h)) /\
  (forall T cur, history o T cur -> exists h, heap_history T h /\ current h = cur).
Proof.
  split.
  - induction 1 as [|T h a t h' r HH IH H]; [constructor|]. destruct (call_spec _ _ _ _ _ (history_wf _ _ HH) H) as (H1 & _ & ->).
    eapply history_call; [exact IH|apply api_load_call|exact H1|apply H].
  - induction 1 as [|T cur p t r HH (h & IH1 & IH2) Hp H Hs]; [exists empty_heap; by split; [constructor|]|].
    assert (exists a, p = api_prog o a) as [a ->] by (destruct Hp as [data|data extra]; [by exists (Call_LoadPlugins data)|by exists (Call_Reload data extra)]).
    pose proof (history_wf _ _ IH1) as HW. rewrite <- IH2 in Hs. destruct (rel_complete _ _ _ _ (rel_api h HW o a) t r H Hs) as ([h' r'] & H' & Hr & _). cbn in Hr. subst r'.
    assert (Hc : hcall h a t h' r) by done. exists h'. split; [by eapply heap_call|]. destruct (call_spec _ _ _ _ _ HW Hc) as (_ & _ & ->). by rewrite IH2.
Qed.
(** Call by call, with the results. *)
Theorem C72_pointer_call_is_value_call T h a t r : heap_history T h ->
  ((exists h', hcall h a t h' r) <-> exec (api_prog o a) t r /\ forall x, saw_current t x -> x = current h).
Proof.
  intros HH. pose proof (history_wf _ _ HH) as HW. split.
  - intros [h' H]. split; [|apply H]. by apply (call_spec _ _ _ _ _ HW H).
  - intros [H Hs]. destruct (rel_complete _ _ _ _ (rel_api h HW o a) t r H Hs) as ([h' r'] & H' & Hr & _). cbn in Hr. subst r'. by exists h'.
Qed.
(** What can be read through a pointer to a manager never changes, whatever loads and releases follow. *)
Theorem C72_handed_out_managers_never_change T h h' l m : heap_history T h -> later h h' -> view h l = Some m -> view h' l = Some m.
Proof.
  intros HH HL Hv. pose proof (history_wf _ _ HH) as HW. destruct (later_wf _ _ HL HW) as [_ HF]. exact (frame_view h h' l m HW HF Hv).
Qed.
(** A call stores only to objects that did not exist before it: nobody who reads objects of earlier calls meanwhile can be disturbed. *)
Theorem C72_stores_only_to_new_objects T h a t h' r : heap_history T h -> hcall h a t h' r ->
  exists l, h_log h' = l ++ h_log h /\ Forall (unused h) l.
Proof.
  intros HH H. pose proof (history_wf _ _ HH) as HW. destruct (call_spec _ _ _ _ _ HW H) as (_ & (_ & _ & l & Hl & HF) & _). exists l. split; [done|].
  eapply Forall_impl; [exact HF|]. intros x Hx. by apply wf_unused.
Qed.
(** At the end of a call Current() gives access to the value that was published: nothing is stored to the manager after its publication. *)
Theorem C72_current_is_what_was_published T h a t h' r : heap_history T h -> hcall h a t h' r -> current h' = after (current h) t.
Proof. intros HH H. by apply (call_spec _ _ _ _ _ (history_wf _ _ HH) H). Qed.
(** A release, whenever it runs, stores nothing, and does what it would have done on the manager as it was handed over. *)
Theorem C72_release_stores_nothing T h h' l m t h2 r : heap_history T h -> later h h' -> view h l = Some m ->
  exec (hinvokeEveryOnFree l h') t (h2, r) -> h2 = h' /\ exec (invokeEveryOnFree m) t r.
Proof.
  intros HH HL Hv H. pose proof (history_wf _ _ HH) as HW. destruct (later_wf _ _ HL HW) as [HW' HF].
  apply (free_spec h' l m); [done| |done]. exact (frame_view h h' l m HW HF Hv).
Qed.
End Heaps.

(** ** The demonstration: two loads; the copies of a and b in the second manager share their slices with the first manager *)
#[export] Instance demo_heap_env : HeapEnv := {| grow n := S n |}.
Definition hrun0 := run (demo 0 world0) [] (hapi dyn (Call_LoadPlugins 77) empty_heap).
Definition heap0 : heap := fst (snd hrun0).
(** then c is rebuilt *)
Definition hworld1 : demo_world := mkDemo (current heap0) (d_dir world1) (d_listing world1) (d_content world1) (d_mid world1) (d_call world1) (d_cb world1) (d_ext world1) (d_sym world1) (d_open world1).
Lemma hworld1_ok : demo_ok hworld1.
Proof. exact world1_ok. Qed.
Definition hrun1 := run (demo 3 hworld1) [] (hapi dyn (Call_Reload 78 (Some 5%N)) heap0).
Definition heap1 : heap := fst (snd hrun1).
Definition deps_at (h : heap) (m : N) (k : string) : option slice :=
  x ← h_mgr h !! m; p ← hm_map x !! k; hp_deps <$> h_plug h !! p.

Lemma hrun0_call : hcall dyn empty_heap (Call_LoadPlugins 77) (fst hrun0) heap0 (snd (snd hrun0)).
Proof.
  split; [|exact (demo_saw 0 world0 (hapi dyn (Call_LoadPlugins 77) empty_heap) [])].
  pose proof (demo_exec 0 world0 (hapi dyn (Call_LoadPlugins 77) empty_heap) world0_ok) as H. fold hrun0 in H. unfold heap0. destruct (snd hrun0). exact H.
Qed.
Lemma heap0_history : heap_history dyn (fst hrun0) heap0.
Proof. pose proof (heap_call dyn [] empty_heap _ _ _ _ (heap_start dyn) hrun0_call) as H. rewrite app_nil_l in H. exact H. Qed.
Lemma hrun1_call : hcall dyn heap0 (Call_Reload 78 (Some 5%N)) (fst hrun1) heap1 (snd (snd hrun1)).
Proof.
  split.
  - pose proof (demo_exec 3 hworld1 (hapi dyn (Call_Reload 78 (Some 5%N)) heap0) hworld1_ok) as H. fold hrun1 in H. unfold heap1. destruct (snd hrun1). exact H.
  - exact (demo_saw 3 hworld1 (hapi dyn (Call_Reload 78 (Some 5%N)) heap0) []).
Qed.
Lemma heap1_history : heap_history dyn (fst hrun0 ++ fst hrun1) heap1.
Proof. exact (heap_call dyn _ _ _ _ _ _ heap0_history hrun1_call). Qed.
(** Plugin b of both managers has the same backing array. *)
Example C72_slices_are_shared :
  h_cur heap0 = Some 0%N /\ h_cur heap1 = Some 8%N /\
  deps_at heap1 0 "b" = Some (mkSlice (Some 5%N) 1) /\ deps_at heap1 8 "b" = Some (mkSlice (Some 5%N) 1) /\ slice_view heap1 (mkSlice (Some 5%N) 1) = ["a"] /\
  deps_at heap1 0 "c" = Some (mkSlice (Some 7%N) 1) /\ deps_at heap1 8 "c" = Some (mkSlice (Some 13%N) 1).
Proof. vm_compute. done. Qed.
(** The manager of the first load is the same after the second one. *)
Example C72_first_manager_survives m : view heap0 0 = Some m -> view heap1 0 = Some m.
Proof.
  apply (C72_handed_out_managers_never_change dyn _ heap0 heap1 0 m heap0_history).
  exact (later_load dyn heap0 heap0 heap1 _ _ _ (later_refl dyn heap0) hrun1_call).
Qed.
Example C72_managers_are_there :
  ((fun m => map (fun p => (pl_name p, pl_deps p, pl_unchanged p)) (Plugins m)) <$> view heap1 0) = Some [("a", [], false); ("b", ["a"], false); ("c", ["b"], false)] /\
  ((fun m => map (fun p => (pl_name p, pl_deps p, pl_unchanged p)) (Plugins m)) <$> view heap1 8) = Some [("a", [], true); ("b", ["a"], true); ("c", ["b"], false)].
Proof. vm_compute. done. Qed.

Print Assumptions C72_pointer_program_has_the_same_histories.
Print Assumptions C72_pointer_call_is_value_call.
Print Assumptions C72_handed_out_managers_never_change.
Print Assumptions C72_stores_only_to_new_objects.
Print Assumptions C72_current_is_what_was_published.
Print Assumptions C72_release_stores_nothing.
