(** C22 (one call), C23, C24, C31 - C33, C41: callbacks, release, static mode, options. *)
From Verif Require Export PropVault.

Section Props.
Context {E : GoEnv}.

(** events concerning callbacks and releases are not private *)
Lemma callbacks_app t1 t2 : callbacks (t1 ++ t2) = callbacks t1 ++ callbacks t2.
Proof. apply omap_app. Qed.
Lemma releases_app t1 t2 : releases (t1 ++ t2) = releases t1 ++ releases t2.
Proof. apply omap_app. Qed.
Lemma omap_none {A B} (f : A -> option B) l : Forall (fun x => f x = None) l -> omap f l = [].
Proof. induction 1 as [|x l Hx _ IH]; [done|]. simpl. by rewrite Hx. Qed.
Lemma callbacks_private t : Forall private_event t -> callbacks t = [].
Proof. intros H. apply omap_none. eapply Forall_impl; [exact H|]. by intros []. Qed.
Lemma releases_inner t : Forall inner t -> releases t = [].
Proof. intros H. apply omap_none. eapply Forall_impl; [exact H|]. by intros []. Qed.
Lemma callbacks_made b tn s : made b tn s -> callbacks tn = [].
Proof. intros (_ & -> & _). by destruct b. Qed.
Lemma callbacks_chosen o tp files : chosen o tp files -> callbacks tp = [].
Proof. by intros (d1 & d2 & abs & es & fnd & -> & _). Qed.
Lemma callbacks_refused o tp e : refused o tp e -> callbacks tp = [].
Proof. by intros []. Qed.
Lemma callbacks_accepted new old l : callbacks (map (accepted new old) l) = map (fun cb => (cb, new, old, Val None)) l.
Proof. induction l as [|x l IH]; [done|]. cbn [map]. unfold callbacks in *. cbn [omap list_omap accepted]. by f_equal. Qed.
Lemma callbacks_spawned o old : callbacks (spawned o old) = [].
Proof. by destruct old. Qed.
Lemma callbacks_released m t : released m t -> callbacks t = [].
Proof. intros (ps & ts & -> & HF & _). apply callbacks_private. by eapply freed_private. Qed.

(** ** C23 *)
(** How the callbacks of one load go: none ran and nothing was published; or one of them refused, after those before it
    had accepted; or all accepted and the manager was published afterwards. *)
Inductive callback_story (cbs : list N) (old : option mgr) (t : list event) (r : outcome (option Details)) : Prop :=
  | cbs_none : callbacks t = [] -> (forall m, ~ published t m) -> callback_story cbs old t r
  | cbs_refused l1 cb l2 new x e :
      cbs = l1 ++ cb :: l2 -> callbacks t = map (fun cb => (cb, new, old, Val None)) l1 ++ [(cb, new, old, x)] ->
      refusal x = Some e -> r = Err e -> (forall m, ~ published t m) ->
      (* the new manager is released after the refusal *)
      (exists ta tz, t = ta ++ EvCallback cb new old x :: tz /\ decrements ta = [] /\ Permutation (decrements tz) (map pl_inst (Plugins new))) ->
      callback_story cbs old t r
  | cbs_accepted new d ta tz :
      callbacks t = map (fun cb => (cb, new, old, Val None)) cbs -> r = Val (Some d) ->
      t = ta ++ EvStore new :: tz -> callbacks tz = [] -> (forall m, EvStore m ∉ ta ++ tz) -> callback_story cbs old t r.

Lemma released_plugins m t : released m t -> Permutation (pm_ordered m) (map_keys (pm_map m)) -> Permutation (decrements t) (map pl_inst (Plugins m)).
Proof.
  intros Hr Hperm. destruct (released_facts _ _ Hr) as (ps & Hrf & Hps & Hrev & _). rewrite (rf_dec _ _ _ _ _ Hrf).
  destruct (decide (pm_ordered m = [])) as [Ho|Ho].
  - unfold Plugins, plugins_of. rewrite Ho in Hperm |- *. simpl. apply Permutation_nil in Hperm. unfold map_keys in Hperm. apply map_eq_nil in Hperm.
    unfold mplugins in Hps. rewrite Hperm in Hps. symmetry in Hps. apply Permutation_nil in Hps as ->. done.
  - rewrite (Hrev Ho), map_rev. symmetry. apply Permutation_rev.
Qed.
(** a complete load gives nothing back and leaves an ordered manager *)
Lemma load_ok_quiet files old data s t new : blank_mgr s -> load_ok files old data s t new ->
  decrements t = [] /\ Permutation (pm_ordered new) (map_keys (pm_map new)).
Proof.
  intros Hb (t1 & t2 & s1 & -> & Hg & Hl). destruct (gath_dyn _ _ _ _ _ Hb Hg) as (ps & ks & HG).
  pose proof (life_refs _ _ _ _ _ (g_ordered _ _ _ _ _ _ _ HG) (g_funcs _ _ _ _ _ _ _ HG) (g_types _ _ _ _ _ _ _ HG) Hl) as Hrf.
  split; [rewrite decrements_app, (g_dec _ _ _ _ _ _ _ HG); apply (rf_dec _ _ _ _ _ Hrf)|].
  apply exec_lifecycle in Hl; [|apply HG..]. destruct Hl as (u1 & u2 & u3 & u4 & u5 & _ & _ & _ & _ & _ & _ & _ & _ & _ & _ & _ & _ & _ & HI & _).
  destruct (HI (or_intror eq_refl)) as (_ & (_ & _ & _ & Hp & _) & _). exact Hp.
Qed.
Lemma static_ok_quiet sel data s t new : blank_mgr s -> static_ok sel data s t new ->
  decrements t = [] /\ Permutation (pm_ordered new) (map_keys (pm_map new)).
Proof.
  intros Hb (t1 & t2 & s1 & -> & Hg & Hl). destruct (sgathered_facts _ _ _ _ Hb Hg) as (G1 & G2 & G3 & G4 & G5 & G6 & G7).
  pose proof (life_refs _ _ _ _ _ G1 G2 G3 Hl) as Hrf.
  split; [rewrite decrements_app, G7; apply (rf_dec _ _ _ _ _ Hrf)|].
  apply exec_lifecycle in Hl; [|done..]. destruct Hl as (u1 & u2 & u3 & u4 & u5 & _ & _ & _ & _ & _ & _ & _ & _ & _ & _ & _ & _ & _ & HI & _).
  destruct (HI (or_intror eq_refl)) as (_ & (_ & _ & _ & Hp & _) & _). exact Hp.
Qed.

(** surroundings of a story *)
Lemma story_wrap cbs old ta t tz r : callback_story cbs old t r -> callbacks ta = [] -> callbacks tz = [] ->
  (forall m, EvStore m ∉ ta ++ tz) -> decrements ta = [] -> decrements tz = [] -> callback_story cbs old (ta ++ t ++ tz) r.
Proof.
  intros Hst Ca Cz Hn Da Dz.
  assert (Hpub : forall m, published (ta ++ t ++ tz) m -> published t m).
  { intros m. unfold published. rewrite !elem_of_app. intros [H|[H|H]]; [exfalso|done|exfalso]; eapply Hn; apply elem_of_app; eauto. }
  destruct Hst as [H1 H2|l1 cb l2 new x e H1 H2 H3 H4 H5 (ua & uz & -> & H6 & H7)|new d ua uz H1 H2 -> H3 H4].
  - apply cbs_none; [by rewrite !callbacks_app, Ca, H1, Cz|]. intros m Hm. by eapply H2, Hpub.
  - eapply cbs_refused; [exact H1| |exact H3|exact H4| |].
    + rewrite callbacks_app, (callbacks_app _ tz), Ca, Cz, H2, app_nil_r. done.
    + intros m Hm. by eapply H5, Hpub.
    + exists (ta ++ ua), (uz ++ tz). split; [by rewrite <- !(assoc_L (++))|]. rewrite !decrements_app, Da, H6, Dz, (right_id_L [] (++) (decrements uz)). done.
  - eapply (cbs_accepted _ _ _ _ new d (ta ++ ua) (uz ++ tz)).
    + rewrite callbacks_app, (callbacks_app _ tz), Ca, Cz, H1, app_nil_r. done.
    + done.
    + by rewrite <- !(assoc_L (++)).
    + by rewrite callbacks_app, H3, Cz.
    + intros m. rewrite !elem_of_app. intros [[H|H]|[H|H]];
        [eapply (Hn m)|eapply (H4 m)|eapply (H4 m)|eapply (Hn m)]; apply elem_of_app; eauto.
Qed.

Lemma not_published_inner t : Forall inner t -> forall m, ~ published t m.
Proof. intros H m Hm. rewrite Forall_forall in H. by apply (H _ Hm). Qed.

Lemma refused_story cbs new old t e ta : callback_failed cbs new old t e -> callbacks ta = [] -> Forall inner ta -> decrements ta = [] ->
  Permutation (pm_ordered new) (map_keys (pm_map new)) -> callback_story (somes cbs) old (ta ++ t) (Err e).
Proof.
  intros Hcb Ca Ia Da Hp. pose proof (inner_callback _ _ _ _ _ Hcb) as Ii.
  destruct Hcb as (l1 & cb & l2 & x & tf & Hs & -> & Hx & Hr).
  eapply (cbs_refused _ _ _ _ l1 cb l2 new x e); [exact Hs| | |done| |].
  - rewrite !callbacks_app, Ca. change (EvCallback cb new old x :: tf) with ([EvCallback cb new old x] ++ tf).
    rewrite callbacks_app, callbacks_accepted, (callbacks_released _ _ Hr), app_nil_r. done.
  - destruct Hx as [[-> _]|(y & -> & -> & _)]; done.
  - intros m. apply not_published_inner. by apply Forall_app.
  - exists (ta ++ map (accepted new old) l1), tf. split; [by rewrite <- (assoc_L (++))|]. split; [|by apply released_plugins].
    rewrite decrements_app, Da. clear. induction l1 as [|y l IH]; [done|]. exact IH.
Qed.

Lemma file_story o files data cbs t r : file_run o files data cbs t r ->
  exists old, (saw_current t old) /\ callback_story (somes cbs) old t r.
Proof.
  intros [old mid dn x Hx Hy|old tn s tl s' e Hm Hh Hp Hlf|old tn s tl new tc e Hm Hh Hp Hok Hcb|old tn s tl new Hm Hh Hp Hok]; exists old; (split; [left|]).
  - apply cbs_none; [done|]. intros m Hin. unfold published in Hin. rewrite !elem_of_cons, elem_of_nil in Hin. naive_solver.
  - apply cbs_none.
    + change (EvLoadCurrent old :: tn ++ tl) with ([EvLoadCurrent old] ++ tn ++ tl). by rewrite !callbacks_app, (callbacks_made _ _ _ Hm), (callbacks_private _ Hp).
    + apply not_published_inner. apply Forall_cons_2; [done|]. apply Forall_app. split; [by eapply inner_made|by apply inner_private].
  - destruct (load_ok_quiet _ _ _ _ _ _ (proj1 Hm) Hok) as [Hd Hpm].
    change (EvLoadCurrent old :: tn ++ tl ++ tc) with (([EvLoadCurrent old] ++ tn) ++ tl ++ tc). rewrite (assoc_L (++)).
    eapply refused_story; [exact Hcb| | | |done].
    + by rewrite !callbacks_app, (callbacks_made _ _ _ Hm), (callbacks_private _ Hp).
    + apply Forall_app. split; [|by apply inner_private]. apply Forall_cons_2; [done|]. by eapply inner_made.
    + rewrite !decrements_app, Hd. destruct (silent_made _ _ _ Hm) as (_ & _ & -> & _). done.
  - eapply (cbs_accepted _ _ _ _ new _ (EvLoadCurrent old :: tn ++ tl ++ map (accepted new old) (somes cbs) ++ spawned o old) []).
    + change (EvLoadCurrent old :: ?l) with ([EvLoadCurrent old] ++ l). rewrite !callbacks_app, (callbacks_made _ _ _ Hm), (callbacks_private _ Hp), callbacks_accepted, callbacks_spawned.
      simpl. by rewrite app_nil_r.
    + done.
    + simpl. by rewrite <- !(assoc_L (++)).
    + done.
    + intros m. rewrite app_nil_r. 
      intros Hin. apply elem_of_cons in Hin as [?|Hin]; [done|]. rewrite !elem_of_app in Hin. destruct Hin as [Hin|[Hin|[Hin|Hin]]].
      * eapply not_published_inner; [by eapply inner_made|exact Hin].
      * eapply not_published_inner; [by apply inner_private|exact Hin].
      * eapply not_published_inner; [by apply inner_accepted|exact Hin].
      * destruct old; simpl in Hin; [|by apply elem_of_nil in Hin]. by apply elem_of_list_singleton in Hin.
Qed.

Lemma static_story o st data cbs t r : static_run o st data cbs t r -> callback_story (somes cbs) None t r.
Proof.
  intros [mid dn x Hx Hy|tn s name Hm _ _ _ _|tn s sel tl s' e Hm Hh _ _ Hp Hlf|tn s sel tl new tc e Hm Hh _ _ Hp Hok Hcb|tn s sel tl new Hm Hh _ _ Hp Hok].
  - apply cbs_none; [done|]. intros m Hin. unfold published in Hin. rewrite !elem_of_cons, elem_of_nil in Hin. naive_solver.
  - apply cbs_none; [by eapply callbacks_made|]. apply not_published_inner. by eapply inner_made.
  - apply cbs_none.
    + by rewrite callbacks_app, (callbacks_made _ _ _ Hm), (callbacks_private _ Hp).
    + apply not_published_inner. apply Forall_app. split; [by eapply inner_made|by apply inner_private].
  - destruct (static_ok_quiet _ _ _ _ _ (proj1 Hm) Hok) as [Hd Hpm]. rewrite (assoc_L (++)).
    eapply refused_story; [exact Hcb| | | |done].
    + by rewrite !callbacks_app, (callbacks_made _ _ _ Hm), (callbacks_private _ Hp).
    + apply Forall_app. split; [|by apply inner_private]. by eapply inner_made.
    + rewrite !decrements_app, Hd. destruct (silent_made _ _ _ Hm) as (_ & _ & -> & _). done.
  - eapply (cbs_accepted _ _ _ _ new _ (tn ++ tl ++ map (accepted new None) (somes cbs)) []).
    + rewrite !callbacks_app, (callbacks_made _ _ _ Hm), (callbacks_private _ Hp), callbacks_accepted. simpl. by rewrite app_nil_r.
    + done.
    + by rewrite <- !(assoc_L (++)).
    + done.
    + intros m. rewrite app_nil_r. intros Hin. rewrite !elem_of_app in Hin. destruct Hin as [Hin|[Hin|Hin]].
      * eapply not_published_inner; [by eapply inner_made|exact Hin].
      * eapply not_published_inner; [by apply inner_private|exact Hin].
      * eapply not_published_inner; [by apply inner_accepted|exact Hin].
Qed.

(** In static mode the old manager passed is nil, in dynamic mode it is the manager Current() still returns. *)
Theorem C23_callbacks o h cur a t r : next_call o h cur (api_prog o a) t r ->
  callback_story (api_callbacks o a) (if StaticLinkingMode o then None else cur) t r.
Proof.
  intros Hn. pose proof Hn as (_ & _ & _ & Hsaw & _). unfold StaticLinkingMode. destruct (o_static o) as [st|] eqn:Hst.
  - destruct (next_static _ _ _ _ _ _ _ Hn Hst) as [(data & tb & -> & -> & Hs)|(data & extra & -> & -> & ->)].
    + rewrite <- api_cbs_somes. change (EvLock :: tb ++ [EvUnlock]) with ([EvLock] ++ tb ++ [EvUnlock]). apply story_wrap; try done.
      * by eapply static_story.
      * intros m Hin. cbn [app] in Hin. rewrite !elem_of_cons, elem_of_nil in Hin. naive_solver.
    + apply cbs_none; [done|]. intros m Hin. by apply elem_of_nil in Hin.
  - destruct (next_dir _ _ _ _ _ _ Hn Hst) as (tb & add & -> & Hd & Hadd). rewrite <- api_cbs_somes.
    assert (Hadd' : add = [] \/ add = [EvAddCounter]). { destruct a; [by left|]. destruct (decide (is_val r)); eauto. }
    change (EvLock :: tb ++ add ++ [EvUnlock]) with ([EvLock] ++ tb ++ add ++ [EvUnlock]). apply story_wrap; try done.
    2,4: by destruct Hadd' as [-> | ->].
    2: { intros m Hin. rewrite !elem_of_app, !elem_of_list_singleton in Hin. destruct Hadd' as [-> | ->]; [rewrite elem_of_nil in Hin|rewrite elem_of_list_singleton in Hin]; naive_solver. }
    destruct Hd as [tp e Hr|tp Hc|tp files tl r Hc Hne Hf].
    + apply cbs_none; [by eapply callbacks_refused|]. apply not_published_inner. by eapply inner_refused.
    + apply cbs_none; [by eapply callbacks_chosen|]. apply not_published_inner. by eapply inner_chosen.
    + destruct (file_story _ _ _ _ _ _ Hf) as (old & Hold & Hstory).
      assert (old = cur) as <-. { apply Hsaw. right. rewrite !elem_of_app. left. by right. }
      rewrite <- (app_nil_r tl). apply story_wrap; try done; [by eapply callbacks_chosen| |].
      * intros m. rewrite app_nil_r. apply not_published_inner. by eapply inner_chosen.
      * by destruct (silent_chosen _ _ _ Hc) as (_ & _ & -> & _).
Qed.

(** ** C24 *)
(** Delays are counted in nanoseconds, as Go's time.Duration. *)
Theorem C24_second_means : second = 1000000000%Z.
Proof. reflexivity. Qed.
(** The delay: never below 15 seconds or the configured delay, and one of the two. *)
Theorem C24_release_delay o : let d := free_delay o in
  (15 * second <= d)%Z /\ (o_freeDelay o <= d)%Z /\ (d = 15 * second \/ d = o_freeDelay o)%Z.
Proof. unfold free_delay, minFreeDelay. simpl. destruct (Z.ltb_spec (15 * second) (o_freeDelay o)); lia. Qed.

(** A call schedules the release of the replaced manager, with that delay, exactly when it publishes a manager in
    dynamic mode and there was one before. *)
Theorem C24_one_release_per_replacement o h cur a t r : next_call o h cur (api_prog o a) t r ->
  releases t = match r, o_static o, cur with
               | Val (Some _), None, Some old => [(old, Z.max (15 * second) (o_freeDelay o))]
               | _, _, _ => []
               end.
Proof.
  intros Hn. pose proof Hn as (_ & _ & _ & Hsaw & _). destruct (o_static o) as [st|] eqn:Hst.
  - assert (releases t = []) as ->; [|by destruct r as [[]| |]]. destruct (next_static _ _ _ _ _ _ _ Hn Hst) as [(data & tb & _ & -> & Hs)|(data & extra & _ & -> & _)]; [|done].
    destruct (static_shape _ _ _ _ _ _ Hs) as (ti & tz & -> & Hi & Hz).
    change (EvLock :: (ti ++ tz) ++ [EvUnlock]) with ([EvLock] ++ (ti ++ tz) ++ [EvUnlock]). rewrite !releases_app, (releases_inner _ Hi).
    destruct Hz as [[-> _]|(new & d & -> & _)]; done.
  - destruct (next_dir _ _ _ _ _ _ Hn Hst) as (tb & add & -> & Hd & Hadd).
    assert (Ha : releases add = []). { destruct a; [by subst|]. subst add. by destruct (decide (is_val r)). }
    change (EvLock :: tb ++ add ++ [EvUnlock]) with ([EvLock] ++ tb ++ add ++ [EvUnlock]). rewrite !releases_app, Ha. cbn [app].
    destruct (dir_shape _ _ _ _ _ Hd) as (ti & tz & -> & Hi & Hz). rewrite releases_app, (releases_inner _ Hi). destruct Hz as [[-> Hz]|(new & old & d & -> & -> & Hold)].
    + destruct Hz as [->|Hz]; [done|]. destruct r as [d| |]; [|done..]. exfalso. by apply Hz.
    + assert (old = cur) as ->. { apply Hsaw. right. rewrite !elem_of_app. left. by left. }
      unfold spawned, free_delay, minFreeDelay. destruct cur as [om|]; [|done]. simpl. do 2 f_equal. destruct (Z.ltb_spec (15 * second) (o_freeDelay o)); lia.
Qed.
(** The scheduled goroutine first sleeps for that delay, then releases the manager. *)
Theorem C24_release_sleeps_first om delay t r : exec (freeThread om delay) t r ->
  exists t', t = EvSleep (pm_id om) delay :: t' /\ exec (invokeEveryOnFree om) t' r /\ forall mid d, EvSleep mid d ∉ t'.
Proof.
  unfold freeThread. intros H. apply exec_bind in H as (u1 & u2 & x & -> & H1 & H2). apply exec_do in H1 as [_ ->].
  exists u2. split; [done|]. split; [done|].
  intros mid d Hin. pose proof (only_exec _ _ _ _ _ private_ev (private_free om) H2) as HF. rewrite Forall_forall in HF.
  by apply (HF _ Hin).
Qed.

End Props.

(** ** Concrete cases *)
Definition t_badcb := fst (demo_run 3 world_badcb dyn (Call_Reload 7 (Some 6%N))).
Example C23_refused_case : next_call dyn t0 (Some m0) (api_prog dyn (Call_Reload 7 (Some 6%N))) t_badcb (Err (EPanic None (PUser 3))) /\
  api_callbacks dyn (Call_Reload 7 (Some 6%N)) = [4; 6]%N /\ map (fun c => fst (fst (fst c))) (callbacks t_badcb) = [4%N] /\ length (decrements t_badcb) = 3%nat.
Proof. split_and!; [apply demo_second; [done|apply world_badcb_ok|vm_compute; reflexivity]|vm_compute; reflexivity..]. Qed.
Example C23_C24_case : next_call dyn t0 (Some m0) (api_prog dyn (Call_Reload 78 (Some 5%N))) t1 (snd run1) /\ is_val (snd run1) /\
  callbacks t1 = [(4%N, m1, Some m0, Val None); (5%N, m1, Some m0, Val None)] /\ releases t1 = [(m0, 300 * second)%Z].
Proof. split_and!; [apply second_load|vm_compute; exact I|vm_compute; reflexivity..]. Qed.
Example C24_delay_case : map (fun d => free_delay (NewPluginManagerSwapper [WithFreeDelay d])) [-5; 0; 15 * second; 15 * second + 1]%Z =
  [15 * second; 15 * second; 15 * second; 15 * second + 1]%Z.
Proof. vm_compute. reflexivity. Qed.
Example C24_release_case : exec (freeThread m0 (300 * second)) (fst (run (demo 3 world0) [] (freeThread m0 (300 * second)))) (Val tt) /\
  decrements (fst (run (demo 3 world0) [] (freeThread m0 (300 * second)))) = [3; 2; 1]%N.
Proof. split; [|vm_compute; reflexivity]. assert (H : snd (run (demo 3 world0) [] (freeThread m0 (300 * second))) = Val tt) by (vm_compute; reflexivity). rewrite <- H. by apply demo_exec, world0_ok. Qed.

(** Reload(data) is ReloadWithCallback(data, nil): only the configured callback runs, and everything stated of [Call_Reload data None] holds of it. *)
Theorem C23_plain_reload o h cur data t r : next_call o h cur (Reload o data) t r ->
  next_call o h cur (api_prog o (Call_Reload data None)) t r /\
  callback_story (option_list (o_reloadCallback o)) (if StaticLinkingMode o then None else cur) t r.
Proof.
  intros Hn. split; [exact Hn|]. rewrite <- (app_nil_r (option_list _)). apply (C23_callbacks o h cur (Call_Reload data None) t r Hn).
Qed.
Print Assumptions C23_callbacks.
Print Assumptions C23_plain_reload.
Print Assumptions C24_release_delay.
Print Assumptions C24_one_release_per_replacement.
Print Assumptions C24_release_sleeps_first.
