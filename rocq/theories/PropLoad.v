(** C06, C07, C08, C54: panics, cleanup, atomicity of one load. *)
From Verif Require Import FileProofs Worlds.

Section Props.
Context {E : GoEnv}.

(** ** C06 *)
(** The only panic that escapes LoadPlugins/Reload is one raised by the user's extension constructor; then the lock
    has been released and nothing was loaded. *)
Theorem C06_only_extension_panic_escapes o h cur a t x :
  next_call o h cur (api_prog o a) t (Pan x) ->
  o_newExt o = true /\ EvNewExt (Pan x) ∈ t /\ call_sigs t = [] /\ exists tb, t = EvLock :: tb ++ [EvUnlock].
Proof.
  intros HN. destruct (o_static o) as [st|] eqn:Hst.
  - destruct (next_static _ _ _ _ _ _ _ HN Hst) as [(data & tb & -> & -> & Hr)|(data & extra & _ & _ & Hr)]; [|done].
    inversion Hr as [mid dn y Hext Hy Ht Hx| | | |]; subst. split_and!; [done| |done|eauto]. right. apply elem_of_app. left. right. by left.
  - destruct (next_dir _ _ _ _ _ _ HN Hst) as (tb & add & -> & Hr & Hadd).
    assert (add = []) as ->. { destruct a; [done|]. rewrite decide_False in Hadd; [done|by intros []]. }
    inversion Hr as [| |tp files tl r Hch Hne Hf Ht Hx]; subst. inversion Hf as [old mid dn y Hext Hy Ht Hx| | |]; subst.
    split_and!; [done| | |eauto].
    + right. rewrite !elem_of_app. left. right. do 2 right. by left.
    + change (EvLock :: ?x) with ([EvLock] ++ x). rewrite !call_sigs_app. destruct (silent_chosen _ _ _ Hch) as [-> _]. done.
Qed.

(** Whatever panics during a load - a package initialiser, a plugin function, OnFree during the clean-up, a reload
    callback - the call returns an error (or passes on the panic of the extension constructor). *)
Theorem C06_panic_becomes_error o h cur a t r e :
  next_call o h cur (api_prog o a) t r -> e ∈ t -> panicked e ->
  (exists err, r = Err err) \/ (exists x, r = Pan x /\ EvNewExt (Pan x) ∈ t).
Proof.
  intros HN He Hp. destruct r as [d|err|x]; [exfalso|left; eauto|right; exists x; split; [done|by apply C06_only_extension_panic_escapes in HN as (_ & ? & _)]].
  destruct HN as (_ & _ & Hx & _). pose proof (clean_api o a t d Hx) as Hc. unfold clean in Hc. rewrite Forall_forall in Hc. apply (Hc e He). by left.
Qed.

(** The release goroutine of a published manager never panics, whatever OnFree does. *)
Theorem C06_release_never_panics o h m t r : history o h (Some m) -> fresh_objects h ->
  exec (invokeEveryOnFree m) t r -> r = Val tt.
Proof.
  intros HH Hf Hx.
  assert (Hp : Permutation (pm_ordered m) (map_keys (pm_map m))).
  { remember (Some m) as cur eqn:Hc. revert m Hc Hx. induction HH as [|h cur p t0 r0 HH IH Hl Ht Hsaw]; intros m Hc Hx; [done|].
    destruct (stored _ _ _ Hc) as [->|Hpub].
    - unfold fresh_objects in Hf. rewrite created_app in Hf. apply NoDup_app in Hf as (Hf & _ & _). by apply IH.
    - apply (pub_ready o h cur p t0 r0 m); [by repeat split|done]. }
  apply exec_invokeEveryOnFree in Hx as [-> _]; [done|by right].
Qed.

(** ** C54 *)
(** A load succeeds only if nothing went wrong: no operation of the OS or the plugin runtime failed, no required symbol
    was missing, no plugin function or callback returned an error or panicked. *)
Theorem C54_success_means_no_failure o a t d e :
  exec (api_prog o a) t (Val d) -> e ∈ t -> ~ troubled e.
Proof. intros Hx He. pose proof (clean_api o a t d Hx) as Hc. unfold clean in Hc. rewrite Forall_forall in Hc. by apply Hc. Qed.

(** ** C07 *)
(** A failed load gives back only references it took (on plugins carried over) or created (admitted plugins), none twice; and
    it gives back all of them, unless plugins were registered under names that differ in case only: of these one is in the
    manager, and only its reference is given back. *)
Theorem C07_references_given_back o h cur a t e :
  next_call o h cur (api_prog o a) t (Err e) ->
  decrements t ⊆+ increments t ++ admitted t /\ NoDup (decrements t) /\
  (distinct_registrations o -> Permutation (decrements t) (increments t ++ admitted t)).
Proof.
  intros HN. pose proof (next_stages _ _ _ _ _ _ HN) as S. destruct HN as (HH & _ & _ & _ & Hfresh).
  assert (Hct : NoDup (created t)). { unfold fresh_objects in Hfresh. rewrite created_app in Hfresh. by apply NoDup_app in Hfresh as (_ & _ & ?). }
  assert (Hgo : forall s s1 t1 ps ks m tf, gath (source o) (old_seen o cur) s t1 s1 ps ks -> core_map m = core_map s1 -> released m tf ->
    decrements t = decrements tf -> increments t = increments t1 -> admitted t = map pl_inst ps -> created t1 `prefix_of` created t ->
    decrements t ⊆+ increments t ++ admitted t /\ NoDup (decrements t) /\ (distinct_registrations o -> Permutation (decrements t) (increments t ++ admitted t))).
  { intros s s1 t1 ps ks m tf HG Hcore HR Hd Hi Ha (cr & Hcr). destruct (released_facts _ _ HR) as (qs & Rq & Hperm & _).
    assert (Hq : Permutation (decrements t) (map pl_inst (mplugins (pm_map m)))) by (rewrite Hd, (rf_dec _ _ _ _ _ Rq); by apply Permutation_map).
    assert (Hall : Permutation (increments t ++ admitted t) (map pl_inst ps ++ map pl_inst ks)) by (rewrite Hi, Ha, (g_inc _ _ _ _ _ _ _ HG); apply Permutation_app_comm).
    assert (HND : NoDup (map pl_inst ps ++ map pl_inst ks)).
    { refine (gath_nodup _ _ _ _ _ _ _ _ _ HH Hfresh _ _ HG); [intros i Hi'; rewrite Hcr; apply elem_of_app; by left|]. rewrite Hcr in Hct. by apply NoDup_app in Hct as (? & _). }
    pose proof (gath_insts_sub _ _ _ _ _ _ _ _ HG Hcore) as Hsub. split_and!.
    - by rewrite Hq, Hall.
    - rewrite Hq. by eapply submseteq_nodup.
    - intros HD. rewrite Hq, Hall. exact (gath_insts _ _ _ _ _ _ _ _ HG (names_ok_spec _ HD) Hcore). }
  destruct S as [Hsil Hnp Hr|s t1 tl s' ps ks tf e' Hb HG HO HR He Hge Hnp Hin Hcs Rf|s t1 s1 t2 s' ob ps ks tf Hb HG HE Hres Hin Hcs Rf].
  - destruct Hsil as (_ & -> & -> & _ & ->). split_and!; [done|constructor|done].
  - apply (Hgo s s' t1 ps ks s' tf HG eq_refl HR); [by apply Rf..|]. rewrite (rf_created _ _ _ _ _ Rf), (g_created _ _ _ _ _ _ _ HG). by eexists.
  - destruct Hres as [(e' & _ & _ & HR & _)|(d & ? & _)]; [|done].
    assert (Hcore : core_map s' = core_map s1).
    { apply exec_lifecycle in HE as (? & ? & ? & ? & ? & _ & _ & _ & _ & _ & _ & _ & _ & ? & _); [done|apply HG..]. }
    apply (Hgo s s1 t1 ps ks s' tf HG Hcore HR); [by apply Rf..|]. by rewrite (rf_created _ _ _ _ _ Rf), (g_created _ _ _ _ _ _ _ HG).
Qed.

(** OnFree is called only on plugins whose reference the load gives back: never on a plugin that was opened but not
    admitted, and never by a successful load. *)
Theorem C07_onfree_only_on_released o h cur a t r c :
  next_call o h cur (api_prog o a) t r -> c ∈ call_sigs t -> cs_role c = ROnFree ->
  ~ is_val r /\ (cs_inst c ∈ increments t \/ cs_inst c ∈ admitted t).
Proof.
  intros HN Hc Hrole. pose proof (next_stages _ _ _ _ _ _ HN) as S.
  destruct S as [Hsil Hnp Hr|s t1 tl s' ps ks tf e' Hb HG HO HR He Hge Hnp Hin Hcs Rf|s t1 s1 t2 s' ob ps ks tf Hb HG HE Hres Hin Hcs Rf].
  - destruct Hsil as (Hz & _). rewrite Hz in Hc. by apply elem_of_nil in Hc.
  - split; [by rewrite He; intros []|]. rewrite Hcs, !elem_of_app in Hc. destruct Hc as [Hc|[Hc|Hc]].
    + unfold opens in Hc. apply elem_of_list_In, in_flat_map in Hc as (p & _ & [<-|[<-|[]]]); done.
    + destruct HO as (_ & _ & _ & [Hz|(p & _ & [Hz|Hz])]); rewrite Hz in Hc; repeat (apply elem_of_cons in Hc as [->|Hc]; [done|]); by apply elem_of_nil in Hc.
    + destruct (released_facts _ _ HR) as (qs & Rq & Hperm & _ & _ & Hsub). apply (sublist_in _ _ Hsub) in Hc. apply elem_of_list_fmap in Hc as (q & -> & Hq).
      rewrite called_inst, (rf_inc _ _ _ _ _ Rf), (rf_admitted _ _ _ _ _ Rf), (g_inc _ _ _ _ _ _ _ HG).
      rewrite Hperm in Hq. apply (elem_of_list_fmap_1 pl_inst) in Hq. pose proof (elem_of_submseteq _ _ _ Hq (gath_insts_sub _ _ _ _ _ _ _ s' HG ltac:(done))) as Hq'. apply elem_of_app in Hq'. tauto.
  - rewrite Hcs, !elem_of_app in Hc. destruct Hc as [Hc|[Hc|Hc]].
    + unfold opens in Hc. apply elem_of_list_In, in_flat_map in Hc as (p & _ & [<-|[<-|[]]]); done.
    + exfalso. apply exec_lifecycle in HE as (u1 & u2 & u3 & u4 & u5 & -> & H1 & H2 & H3 & H4 & H5 & _); [|apply HG..].
      rewrite !call_sigs_app, !elem_of_app in Hc.
      apply call_in_roles in H1, H2, H3, H4, H5. rewrite Forall_forall in H1, H2, H3, H4, H5.
      destruct Hc as [Hc|[Hc|[Hc|[Hc|Hc]]]]; [apply H1 in Hc|apply H2 in Hc|apply H3 in Hc|apply H4 in Hc|apply H5 in Hc]; congruence.
    + destruct Hres as [(e' & -> & _ & HR & _)|(d & _ & _ & _ & -> & _)]; [|by apply elem_of_nil in Hc]. split; [by intros []|].
      assert (Hcore : core_map s' = core_map s1).
      { apply exec_lifecycle in HE as (? & ? & ? & ? & ? & _ & _ & _ & _ & _ & _ & _ & _ & ? & _); [done|apply HG..]. }
      destruct (released_facts _ _ HR) as (qs & Rq & Hperm & _ & _ & Hsub). apply (sublist_in _ _ Hsub) in Hc. apply elem_of_list_fmap in Hc as (q & -> & Hq).
      rewrite called_inst, (rf_inc _ _ _ _ _ Rf), (rf_admitted _ _ _ _ _ Rf), (g_inc _ _ _ _ _ _ _ HG).
      rewrite Hperm in Hq. apply (elem_of_list_fmap_1 pl_inst) in Hq. pose proof (elem_of_submseteq _ _ _ Hq (gath_insts_sub _ _ _ _ _ _ _ s' HG ltac:(done))) as Hq'. apply elem_of_app in Hq'. tauto.
Qed.

(** Decisions taken by the release: a reference count that reaches zero calls OnFree once. *)
Theorem C07_successful_load_releases_nothing o h cur a t d :
  next_call o h cur (api_prog o a) t (Val d) -> decrements t = [].
Proof.
  intros HN. pose proof (next_stages _ _ _ _ _ _ HN) as S.
  destruct S as [Hsil Hnp Hr|s t1 tl s' ps ks tf e' Hb HG HO HR He Hge Hnp Hin Hcs Rf|s t1 s1 t2 s' ob ps ks tf Hb HG HE Hres Hin Hcs Rf]; [apply Hsil|done|].
  destruct Hres as [(e' & ? & _)|(d' & _ & _ & _ & -> & _)]; [done|]. by rewrite (rf_dec _ _ _ _ _ Rf).
Qed.

(** ** C08 *)
Lemma inner_counted t : Forall inner t -> counted t = 0%nat.
Proof. unfold counted. induction 1 as [|e t He _ IH]; [done|]. by destruct e. Qed.
Lemma inner_not e t : Forall inner t -> e ∈ t -> inner e.
Proof. rewrite Forall_forall. auto. Qed.

(** A failed call: Current() and ReloadCounter() are as before, nothing is scheduled for release, and the lock was
    taken once and given back (Reload in static mode does not even take it). *)
Theorem C08_failed_call_changes_nothing o h cur a t r :
  next_call o h cur (api_prog o a) t r -> ~ is_val r ->
  after cur t = cur /\ counted t = 0%nat /\ (forall m d, EvSpawnFree m d ∉ t) /\
  (t = [] \/ exists tb, t = EvLock :: tb ++ [EvUnlock] /\ EvLock ∉ tb /\ EvUnlock ∉ tb).
Proof.
  intros HN Hr.
  assert (t = [] \/ exists tb, t = EvLock :: tb ++ [EvUnlock] /\ Forall inner tb) as [->|(tb & -> & Hi)].
  { destruct (o_static o) as [st|] eqn:Hst.
    - destruct (next_static _ _ _ _ _ _ _ HN Hst) as [(data & tb & _ & -> & Hs)|(data & extra & _ & -> & _)]; [right|by left].
      exists tb. split; [done|]. destruct (static_shape _ _ _ _ _ _ Hs) as (ti & tz & -> & Hi & Hz).
      destruct Hz as [[-> _]|(new & d & _ & ->)]; [by rewrite app_nil_r|]. exfalso. by apply Hr.
    - destruct (next_dir _ _ _ _ _ _ HN Hst) as (tb & add & -> & Hd & Hadd). right.
      assert (add = []) as ->. { destruct a; [done|]. by rewrite decide_False in Hadd. }
      exists tb. split; [done|]. destruct (dir_shape _ _ _ _ _ Hd) as (ti & tz & -> & Hi & Hz).
      destruct Hz as [[-> _]|(new & old & d & _ & -> & _)]; [by rewrite app_nil_r|]. exfalso. by apply Hr. }
  { split_and!; try done; [|by left]. intros m d H. by apply elem_of_nil in H. }
  split_and!.
  - apply after_no_publish. constructor; [done|]. apply no_publish_app; [|nopub]. eapply Forall_impl; [exact Hi|]. by intros [].
  - assert (Hc : counted (EvLock :: tb ++ [EvUnlock]) = counted tb); [|rewrite Hc; by apply inner_counted].
    unfold counted. cbn. rewrite omap_app, app_length. simpl. lia.
  - intros m d H. apply elem_of_cons in H as [|H]; [done|]. apply elem_of_app in H as [H|H]; [by apply (inner_not _ _ Hi) in H|].
    by apply elem_of_list_singleton in H.
  - right. exists tb. split; [done|]. split; intros H; by apply (inner_not _ _ Hi) in H.
Qed.

End Props.

(** ** Concrete cases *)
Definition dyn_ext : opts := NewPluginManagerSwapper [WithExtensionNewer true].
Example C06_escape_case : next_call dyn_ext [] None (api_prog dyn_ext (Call_LoadPlugins 1)) (fst (demo_run 0 world_badext dyn_ext (Call_LoadPlugins 1))) (Pan (PUser 8)).
Proof. apply demo_first; [done|apply world_badext_ok|vm_compute; reflexivity]. Qed.
(** OnInit of c panics in the first load; the reload callback panics in the second *)
Definition t_oninit := fst (demo_run 0 world_oninit dyn (Call_LoadPlugins 1)).
Definition t_badcb := fst (demo_run 3 world_badcb dyn (Call_Reload 1 None)).
Example C06_C07_C08_case :
  next_call dyn [] None (api_prog dyn (Call_LoadPlugins 1)) t_oninit (Err (EPanic (Some "c") (PUser 7))) /\
  EvCall ROnInit (mkCallee 1%N "c" 3%N 7%N) (ArgVault 1%N) (Pan (PUser 7)) ∈ t_oninit /\
  decrements t_oninit = [3; 2; 1]%N /\ admitted t_oninit = [1; 2; 3]%N.
Proof.
  split_and!; [apply demo_first; [done|apply world_oninit_ok|vm_compute; reflexivity]| |vm_compute; reflexivity..].
  apply elem_of_list_In. vm_compute. tauto.
Qed.
Example C07_kept_case :
  next_call dyn t0 (Some m0) (api_prog dyn (Call_Reload 1 None)) t_badcb (Err (EPanic None (PUser 3))) /\
  increments t_badcb = [1; 2]%N /\ admitted t_badcb = [4]%N /\ decrements t_badcb = [4; 2; 1]%N.
Proof. split; [apply demo_second; [reflexivity|apply world_badcb_ok|vm_compute; reflexivity]|vm_compute; done]. Qed.
Example C06_release_case : history dyn (t0 ++ t1) (Some m1) /\ fresh_objects (t0 ++ t1) /\ exists t, exec (invokeEveryOnFree m1) t (Val tt).
Proof.
  split_and!; [apply history1|apply fresh1|]. pose proof (demo_exec 0 world0 (invokeEveryOnFree m1) world0_ok) as H.
  rewrite (C06_release_never_panics _ _ _ _ _ history1 fresh1 H) in H. by eexists.
Qed.
Example C54_C07_success_case : next_call dyn t0 (Some m0) (api_prog dyn (Call_Reload 78 (Some 5%N))) t1 (snd run1) /\ is_val (snd run1) /\ (30 < length t1)%nat.
Proof. split_and!; [apply second_load|vm_compute; done|apply Nat.ltb_lt; vm_compute; done]. Qed.

Print Assumptions C06_only_extension_panic_escapes.
Print Assumptions C06_panic_becomes_error.
Print Assumptions C06_release_never_panics.
Print Assumptions C54_success_means_no_failure.
Print Assumptions C07_references_given_back.
Print Assumptions C07_onfree_only_on_released.
Print Assumptions C07_successful_load_releases_nothing.
Print Assumptions C08_failed_call_changes_nothing.
