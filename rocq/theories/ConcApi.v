(** What goroutines that use the API see *)
From Verif Require Export ConcFinish PropStatic.

Section Proofs.
Context {E : GoEnv}.

(** ** Unlocking is the last step of a load *)
Fixpoint unlock_last (p : prog result) : Prop :=
  match p with
  | Ret _ => True
  | @Act _ X a k => (match a in act Y return (Y -> prog result) -> Prop with AUnlock => fun k => forall x, exists r, k x = Ret r | _ => fun _ => True end k) /\
                    forall x, unlock_last (k x)
  end.
(** up to the point where the current manager is read *)
Definition early_act : forall X, act X -> Prop := fun X a => match a with ALock | AUnlock => False | _ => True end.
Lemma plain_early {A} (p : prog A) : only plain_act p -> only early_act p.
Proof. apply only_impl. intros X a. by destruct a. Qed.
Lemma early_impl o data cbs : only early_act (loadPluginsImpl o data cbs).
Proof.
  unfold loadPluginsImpl. apply only_bind; [by apply only_do|]. intros d1. apply only_bind.
  - unfold FindDirectory. destruct (blank d1); [done|]. apply only_bind; [by apply only_do|]. intros [[]| |]; done.
  - intros [ |e|x]; try done. apply only_bind; [by apply only_do|]. intros d2. apply only_bind; [by apply only_do|]. intros [abs|e|x]; try done.
    apply only_bind; [by apply only_do|]. intros [entries|e|x]; try done. destruct (selectFiles _ _ _) as [files found]. destruct (whitelist_ok _ _); [|done].
    destruct files as [|f files]; [done|]. destruct (plain_files o (f :: files) data cbs ltac:(done)) as (k & -> & Hk). split; [done|]. intros x. by apply plain_early, Hk.
Qed.
Lemma unlock_last_locked {A} (p : prog A) (g : A -> result) : only early_act p -> unlock_last (let* r := locked p in Ret (g r)).
Proof.
  intros Hp. unfold locked. cbn. split; [done|]. intros _.
  induction p as [a|X a k IH]; cbn; [split; [intros x; by eexists|done]|]. destruct Hp as [Ha Hk]. split; [by destruct a|]. intros x. by apply IH.
Qed.
Lemma unlock_last_load o a : unlock_last (task_prog o (TLoad a)).
Proof.
  destruct a as [data|data extra]; cbn [task_prog api_prog].
  - unfold LoadPlugins. apply unlock_last_locked. destruct (o_static o); [apply plain_early, plain_static|apply early_impl].
  - unfold ReloadWithCallback. destruct (o_static o); [done|]. apply unlock_last_locked. apply only_bind; [apply early_impl|]. intros [d|e|x]; [|done|done]. apply only_bind; [by apply only_do|done].
Qed.

Lemma ev_unlock X (a : act X) x : EvUnlock ∈ ev a x -> exists (H : X = unit), eq_rect X act a unit H = AUnlock.
Proof. destruct a; intros Hin; try (by apply elem_of_nil in Hin); apply elem_of_list_singleton in Hin; try done. by exists eq_refl. Qed.

Lemma reach_unlock o dir w : reach o dir w -> forall j th a, w_threads w !! j = Some th -> th_task th = TLoad a ->
  unlock_last (th_prog th) /\ (EvUnlock ∈ events_of j (w_hist w) -> finished th).
Proof.
  induction 1 as [|w w' HR IH HS]; [done|]. intros i th a Hi Hta. pose proof (reach_basic _ _ _ HR) as HB.
  assert (Hnone : events_of (length (w_threads w)) (w_hist w) = []).
  { apply events_of_none. intros en Hen Heq. destruct (b_index _ _ _ HB _ Hen) as (th' & Hth' & _). apply lookup_lt_Some in Hth'. lia. }
  destruct HS as [w k Hk|w now Hn|w j th' X b k r c Hth Hp Hc Hcl|w j th' X b k x Hth Hp Hc Hva Ha Haw].
  - cbn [w_threads w_hist] in *. apply lookup_app_Some in Hi as [Hi|[Hle Hi]]; [by eapply IH|]. destruct (i - _)%nat eqn:Hz; [|done]. injection Hi as <-. cbn in *. subst k.
    split; [apply unlock_last_load|]. assert (i = length (w_threads w)) as -> by lia. rewrite Hnone. intros Hin. by apply elem_of_nil in Hin.
  - by eapply IH.
  - cbn [w_threads w_hist] in *. rewrite events_of_app. assert (Hz : events_of i [mkEntry (w_now w) j (th_task th') (Began r c)] = []) by (unfold events_of; cbn; by case_decide).
    rewrite Hz, (right_id_L [] (++)). destruct (decide (i = j)) as [->|Hne].
    + rewrite list_lookup_insert in Hi by (by eapply lookup_lt_Some). injection Hi as <-. cbn in *. destruct (IH _ _ _ Hth Hta) as [I1 I2]. split; [done|]. intros Hin. destruct (I2 Hin) as (r' & Hr'). congruence.
    + rewrite list_lookup_insert_ne in Hi by done. by eapply IH.
  - cbn [w_threads w_hist] in *. change (map _ _) with (done_by (w_now w) j (th_task th') (ev b x)). rewrite events_of_app, events_of_done.
    apply lookup_insert_app in Hi as [[-> ->]|(Hne & [Hi|[Hle Hi]])]; [| | |by eapply lookup_lt_Some].
    + cbn in *. destruct (IH _ _ _ Hth Hta) as [I1 I2]. rewrite Hp in I1. cbn in I1. destruct I1 as [I1 I3]. split; [apply I3|]. rewrite decide_True by done.
      intros [Hin|Hin]%elem_of_app; [destruct (I2 Hin) as (r' & Hr'); congruence|]. destruct (ev_unlock _ _ _ Hin) as (HX & HbX). subst X. cbn in HbX. subst b. cbn in I1. unfold finished. cbn. apply I1.
    + rewrite decide_False by done. rewrite (right_id_L [] (++)). by eapply IH.
    + destruct b; try (by apply elem_of_nil in Hi). apply elem_of_list_singleton in Hi. subst th. done.
Qed.

(** ** The call in progress *)
Lemma running_call o dir w j : reach o dir w -> me_lock (w_mem w) = Some j ->
  exists th a t' r, w_threads w !! j = Some th /\ th_task th = TLoad a /\ ~ finished th /\
    next_call o (calls_of (w_hist w) (unlockers (w_hist w))) (after None (calls_of (w_hist w) (unlockers (w_hist w)))) (api_prog o a) (events_of j (w_hist w) ++ t') r.
Proof.
  intros HR Hlock. pose proof (reach_basic _ _ _ HR) as HB. destruct (reach_serial _ _ _ HR) as (h & HS). destruct (reach_ordered _ _ _ HR) as [O1 O2 O3].
  destruct (s_held _ _ _ HS j Hlock) as (th & a & Hth & Ht & Hload & (t1 & Heq & Hun & Hsaw)).
  unfold running in O1. rewrite Hlock, Hload in O1. apply app_inv_tail in O1. rewrite <- O1.
  pose proof (b_thread _ _ _ HB _ _ Hth) as HP. rewrite Ht in HP.
  destruct (load_prefix _ _ _ _ (after None h) (created (events (w_hist w))) HP) as (t' & r & He & Hs' & Hn' & Hnew).
  exists th, a, t', r. split_and!; [done|done| |].
  - intros Hf. by destruct (finished_lock _ _ _ _ _ HR Hth Hf).
  - split_and!; [by apply HS|apply load_call_api; by exists a|done|..].
    + intros y Hy. unfold saw_current in Hy. rewrite elem_of_app in Hy. destruct Hy as [Hy|Hy]; [by apply Hsaw|by apply Hs'].
    + unfold fresh_objects. rewrite (assoc_L (++)), created_app, <- Hload. apply NoDup_app. split_and!; [|..|done].
      * rewrite <- (created_loads _ _ _ HB). apply (b_created _ _ _ HB).
      * intros i Hi Hi'. apply Hnew in Hi'. by rewrite (created_loads _ _ _ HB) in Hi'.
Qed.

(** a complete call, with the result of the goroutine *)
Lemma complete_call o dir w l1 j l2 : reach o dir w -> unlockers (w_hist w) = l1 ++ j :: l2 ->
  exists th a r, w_threads w !! j = Some th /\ th_task th = TLoad a /\ th_prog th = Ret (ReturnedLoad r) /\
    next_call o (calls_of (w_hist w) l1) (after None (calls_of (w_hist w) l1)) (api_prog o a) (events_of j (w_hist w)) r.
Proof.
  intros HR Heq. destruct (oc_call _ _ (reach_ordered _ _ _ HR) _ _ _ Heq) as (th & a & r0 & Hth & Hta & HN).
  assert (Hin : EvUnlock ∈ events_of j (w_hist w)). { apply unlockers_in. rewrite Heq. apply elem_of_app. right. left. }
  destruct (proj2 (reach_unlock _ _ _ HR _ _ _ Hth Hta) Hin) as (x & Hx).
  destruct (finished_call _ _ _ _ _ _ _ HR Hth Hta Hx) as (r & -> & Hex & _). exists th, a, r. split_and!; [done..|].
  destruct HN as (N1 & N2 & N3 & N4 & N5). by split_and!.
Qed.

(** the load that published a manager *)
Lemma published_load o dir w m : reach o dir w -> published (load_events (w_hist w)) m ->
  exists j th a h t' r, w_threads w !! j = Some th /\ th_task th = TLoad a /\
    next_call o h (after None h) (api_prog o a) (events_of j (w_hist w) ++ t') r /\
    published (events_of j (w_hist w)) m /\ Forall ending t' /\ exists hz, load_events (w_hist w) = h ++ events_of j (w_hist w) ++ hz.
Proof.
  intros HR Hm. destruct (reach_ordered _ _ _ HR) as [O1 O2 O3]. rewrite O1 in Hm. apply published_app in Hm as [Hm|Hm].
  - unfold calls_of in Hm. unfold published in Hm. apply elem_of_list_In, in_concat in Hm as (l & Hl & Hm). apply elem_of_list_In in Hl, Hm. apply elem_of_list_fmap in Hl as (j & -> & Hj).
    apply elem_of_list_split in Hj as (l1 & l2 & Heq). destruct (O3 _ _ _ Heq) as (th & a & r & Hth & Hta & HN).
    exists j, th, a, (calls_of (w_hist w) l1), [], r. rewrite (right_id_L [] (++)). split_and!; [done..|].
    exists (calls_of (w_hist w) l2 ++ running w). rewrite O1, Heq. rewrite calls_of_app. cbn. rewrite <- !(assoc_L (++)). done.
  - unfold running in *. destruct (me_lock (w_mem w)) as [j|] eqn:Hlock; [|by apply elem_of_nil in Hm].
    destruct (running_call _ _ _ _ HR Hlock) as (th & a & t' & r & Hth & Hta & _ & HN).
    exists j, th, a, (calls_of (w_hist w) (unlockers (w_hist w))), t', r. split_and!; [done..| |exists []; by rewrite O1, (right_id_L [] (++))].
    destruct (call_shape _ _ _ _ _ _ HN) as [Hnp|(tc & m' & tz & Heq & Hnc & Hez)].
    + apply Forall_app in Hnp as [Hnp _]. unfold no_publish in Hnp. rewrite Forall_forall in Hnp. by apply Hnp in Hm.
    + unfold pubs in Heq. rewrite <- (assoc_L (++)) in Heq. rewrite (assoc_L (++)) in Heq.
      apply app_eq_inv in Heq as [(k & Hk & Hk')|(k & Hk & Hk')].
      * destruct k as [|e k]; [|cbn in Hk'; injection Hk' as <- ->; by apply Forall_app in Hez as [_ ?]].
        rewrite (right_id_L [] (++)) in Hk. rewrite Hk in Hm. exfalso. unfold published in Hm. rewrite elem_of_app in Hm. destruct Hm as [Hm|Hm].
        -- unfold no_publish in Hnc. rewrite Forall_forall in Hnc. by apply Hnc in Hm.
        -- unfold spawned in Hm. destruct (old_seen o _); [apply elem_of_list_singleton in Hm; done|by apply elem_of_nil in Hm].
      * exfalso. unfold published in Hm. assert (Hin : EvStore m ∈ tc ++ spawned o (old_seen o (after None (calls_of (w_hist w) (unlockers (w_hist w)))))) by (rewrite Hk; apply elem_of_app; by left).
        rewrite elem_of_app in Hin. destruct Hin as [Hin|Hin].
        -- unfold no_publish in Hnc. rewrite Forall_forall in Hnc. by apply Hnc in Hin.
        -- unfold spawned in Hin. destruct (old_seen o _); [apply elem_of_list_singleton in Hin; done|by apply elem_of_nil in Hin].
Qed.
End Proofs.
