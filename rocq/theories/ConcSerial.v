(** The order of the load calls of a history *)
From Verif Require Export ConcOrder.

Section Proofs.
Context {E : GoEnv}.

(** the goroutines that have released the lock, in order *)
Definition unlockers (h : list entry) : list nat := omap (fun en => match en_what en with Did EvUnlock => Some (en_thread en) | _ => None end) h.
Lemma unlockers_app h1 h2 : unlockers (h1 ++ h2) = unlockers h1 ++ unlockers h2. Proof. apply omap_app. Qed.
Lemma unlockers_done now j k l : unlockers (done_by now j k l) = omap (fun e => match e with EvUnlock => Some j | _ => None end) l.
Proof. unfold done_by. induction l as [|e l IH]; [done|]. cbn. change (list_omap ?f ?l) with (omap f l). unfold unlockers in IH. by rewrite IH. Qed.
Lemma unlockers_in h j : j ∈ unlockers h <-> EvUnlock ∈ events_of j h.
Proof.
  rewrite events_of_in. unfold unlockers. rewrite elem_of_list_omap. split.
  - intros (en & Hen & Hs). exists en. destruct (en_what en) as [|e] eqn:Hw; [done|]. destruct e; try done. by injection Hs as ->.
  - intros (en & Hen & <- & Hw). exists en. split; [done|]. by rewrite Hw.
Qed.

(** the events of the calls of the goroutines [js], one after the other *)
Definition calls_of (hist : list entry) (js : list nat) : list event := concat (map (fun j => events_of j hist) js).
Lemma calls_of_app hist l1 l2 : calls_of hist (l1 ++ l2) = calls_of hist l1 ++ calls_of hist l2.
Proof. unfold calls_of. by rewrite map_app, concat_app. Qed.
Lemma calls_of_ext hist hist' js : (forall j, j ∈ js -> events_of j hist' = events_of j hist) -> calls_of hist' js = calls_of hist js.
Proof. intros H. unfold calls_of. f_equal. apply map_ext_in. intros j Hj. apply H. by apply elem_of_list_In. Qed.

Definition running (w : world) : list event := match me_lock (w_mem w) with Some j => events_of j (w_hist w) | None => [] end.

Record ordered_calls (o : opts) (w : world) : Prop := mkOrdered {
  oc_events : load_events (w_hist w) = calls_of (w_hist w) (unlockers (w_hist w)) ++ running w;
  oc_nodup : NoDup (unlockers (w_hist w));
  oc_call : forall l1 j l2, unlockers (w_hist w) = l1 ++ j :: l2 -> exists th a r, w_threads w !! j = Some th /\ th_task th = TLoad a /\
     next_call o (calls_of (w_hist w) l1) (after None (calls_of (w_hist w) l1)) (api_prog o a) (events_of j (w_hist w)) r }.

Lemma oc_same o w w' : ordered_calls o w -> load_events (w_hist w') = load_events (w_hist w) -> unlockers (w_hist w') = unlockers (w_hist w) ->
  me_lock (w_mem w') = me_lock (w_mem w) ->
  (forall j, j ∈ unlockers (w_hist w) \/ me_lock (w_mem w) = Some j -> events_of j (w_hist w') = events_of j (w_hist w)) ->
  (forall j th, w_threads w !! j = Some th -> exists th', w_threads w' !! j = Some th' /\ th_task th' = th_task th) -> ordered_calls o w'.
Proof.
  intros [O1 O2 O3] Hl Hu Hk He Ht. constructor.
  - rewrite Hl, Hu, O1. f_equal; [symmetry; apply calls_of_ext; intros; apply He; by left|]. unfold running. rewrite Hk. destruct (me_lock (w_mem w)) eqn:Hlk; [|done]. symmetry. apply He. by right.
  - by rewrite Hu.
  - intros l1 j l2 Heq. rewrite Hu in Heq. destruct (O3 _ _ _ Heq) as (th & a & r & Hth & Hta & HN). destruct (Ht _ _ Hth) as (th' & Hth' & Hta').
    exists th', a, r. split_and!; [done|congruence|]. rewrite (calls_of_ext (w_hist w)).
    + rewrite He; [done|]. left. rewrite Heq. apply elem_of_app. right. left.
    + intros i Hi. apply He. left. rewrite Heq. apply elem_of_app. by left.
Qed.

Lemma unlock_dec (e : event) : e = EvUnlock \/ e <> EvUnlock.
Proof. destruct e; try (by right). by left. Qed.
Lemma lock_dec (e : event) : e = EvLock \/ e <> EvLock.
Proof. destruct e; try (by right). by left. Qed.
Lemma unlocker_other (e : event) (j : nat) : e <> EvUnlock -> omap (fun e => match e with EvUnlock => Some j | _ => None end) [e] = [].
Proof. by destruct e. Qed.
Lemma lock_kept j s X (b : act X) x e : ev b x = [e] -> e <> EvLock -> e <> EvUnlock -> me_lock (update j s b x) = me_lock s.
Proof. destruct b; try done; cbn; intros H; by injection H as <-. Qed.

Lemma oc_step o dir w w' : reach o dir w -> ordered_calls o w -> step o w w' -> ordered_calls o w'.
Proof.
  intros HR HO HS. pose proof (reach_basic _ _ _ HR) as HB. destruct (reach_serial _ _ _ HR) as (h & HSr).
  destruct HS as [w k Hk|w now Hn|w j th X b k r c Hth Hp Hc Hcl|w j th X b k x Hth Hp Hc Hva Ha Haw].
  - apply (oc_same _ _ _ HO); try done. intros j th Hth. cbn. exists th. split; [by apply lookup_app_l_Some|done].
  - apply (oc_same _ _ _ HO); try done. intros j th Hth. by exists th.
  - assert (Hld : load_events [mkEntry (w_now w) j (th_task th) (Began r c)] = []) by (unfold load_events; cbn; by destruct (is_load (th_task th))).
    assert (Hul : unlockers [mkEntry (w_now w) j (th_task th) (Began r c)] = []) by done.
    apply (oc_same _ _ _ HO); cbn [w_hist w_mem w_threads].
    + by rewrite load_events_app, Hld, (right_id_L [] (++)).
    + by rewrite unlockers_app, Hul, (right_id_L [] (++)).
    + done.
    + intros i _. rewrite events_of_app. unfold events_of at 2. cbn. case_decide; by rewrite (right_id_L [] (++)).
    + intros i th' Hi. destruct (decide (i = j)) as [->|Hne]; [|exists th'; by rewrite list_lookup_insert_ne].
      rewrite list_lookup_insert by (by eapply lookup_lt_Some). eexists. split; [done|]. cbn. congruence.
  - set (w' := mkWorld _ _ _ _). change (w_hist w') with (w_hist w ++ done_by (w_now w) j (th_task th) (ev b x)) in *.
    assert (Hths : forall i th', w_threads w !! i = Some th' -> exists th2, w_threads w' !! i = Some th2 /\ th_task th2 = th_task th').
    { intros i th' Hi. destruct (decide (i = j)) as [->|Hne].
      - eexists. split; [apply lookup_app_l_Some; apply list_lookup_insert; by eapply lookup_lt_Some|]. cbn. congruence.
      - exists th'. split; [|done]. apply lookup_app_l_Some. by rewrite list_lookup_insert_ne. }
    assert (Hoth : forall i, i <> j -> events_of i (w_hist w') = events_of i (w_hist w)).
    { intros i Hne. change (w_hist w') with (w_hist w ++ done_by (w_now w) j (th_task th) (ev b x)). by rewrite events_of_app, events_of_done, decide_False, (right_id_L [] (++)) by done. }
    assert (Hme : events_of j (w_hist w') = events_of j (w_hist w) ++ ev b x).
    { change (w_hist w') with (w_hist w ++ done_by (w_now w) j (th_task th) (ev b x)). by rewrite events_of_app, events_of_done, decide_True. }
    assert (Hld : load_events (w_hist w') = load_events (w_hist w) ++ if is_load (th_task th) then ev b x else []).
    { change (w_hist w') with (w_hist w ++ done_by (w_now w) j (th_task th) (ev b x)). by rewrite load_events_app, load_events_done. }
    assert (Hul : unlockers (w_hist w') = unlockers (w_hist w) ++ omap (fun e => match e with EvUnlock => Some j | _ => None end) (ev b x)).
    { change (w_hist w') with (w_hist w ++ done_by (w_now w) j (th_task th) (ev b x)). by rewrite unlockers_app, unlockers_done. }
    assert (HP := b_thread _ _ _ HB _ _ Hth). rewrite Hp in HP. apply (partial_act _ _ _ _ x) in HP; [|done].
    destruct (ev_one _ b x) as [Hz|(e & Hz)].
    { rewrite Hz in *. apply (oc_same _ _ _ HO).
      - rewrite Hld. destruct (is_load (th_task th)); by rewrite (right_id_L [] (++)).
      - rewrite Hul. cbn [omap list_omap]. by rewrite (right_id_L [] (++)).
      - destruct b; done.
      - intros i _. destruct (decide (i = j)) as [->|Hne]; [by rewrite Hme, (right_id_L [] (++))|by apply Hoth].
      - done. }
    destruct (is_load (th_task th)) eqn:Hl.
    2:{ assert (Hot : other_event e). { eapply (partial_forall _ _ _ other_event) in HP; [|intros t r; by apply other_task]. apply Forall_app in HP as [_ HP]. rewrite Hz in HP. by apply Forall_cons in HP as [? _]. }
        assert (Hnj : forall i, i ∈ unlockers (w_hist w) \/ me_lock (w_mem w) = Some i -> i <> j).
        { intros i [Hi|Hi] ->.
          - apply elem_of_list_split in Hi as (l1 & l2 & Heq). destruct (oc_call _ _ HO _ _ _ Heq) as (th' & a & r & Hth' & Hta & _). simplify_eq. by rewrite Hta in Hl.
          - destruct (s_held _ _ _ HSr j Hi) as (th' & a & Hth' & Hta & _). simplify_eq. by rewrite Hta in Hl. }
        apply (oc_same _ _ _ HO).
        - by rewrite Hld, (right_id_L [] (++)).
        - rewrite Hul, Hz. destruct e; try done; cbn; by rewrite (right_id_L [] (++)).
        - destruct b; try done; cbn in Hz; by injection Hz as <-.
        - intros i Hi. apply Hoth. by apply Hnj.
        - done. }
    destruct (th_task th) as [a| | | | |] eqn:Ht; try done. clear Hl.
    destruct (load_prefix _ _ _ _ None [] HP) as (t' & r & Hex & _). rewrite Hz, <- (assoc_L (++)) in Hex.
    pose proof (lock_shape _ _ _ _ _ _ _ Hex eq_refl) as Hsh. rewrite Hz in *.
    assert (Hun : EvUnlock ∉ events_of j (w_hist w)).
    { destruct Hsh as [[-> _]|[(u & -> & Hu & _)|(u & -> & Hu & _)]]; [apply not_elem_of_nil|..]; intros Hin; apply elem_of_cons in Hin as [?|Hin]; try done; rewrite Forall_forall in Hu; by apply Hu in Hin. }
    assert (Hnj : j ∉ unlockers (w_hist w)) by (by rewrite unlockers_in).
    assert (Hext : forall js, (forall i, i ∈ js -> i ∈ unlockers (w_hist w)) -> calls_of (w_hist w') js = calls_of (w_hist w) js).
    { intros js Hjs. apply calls_of_ext. intros i Hi. apply Hoth. intros ->. by apply Hnj, Hjs. }
    destruct HO as [O1 O2 O3].
    assert (Hold : forall l1 i l2, unlockers (w_hist w) = l1 ++ i :: l2 -> exists th' a' r', w_threads w' !! i = Some th' /\ th_task th' = TLoad a' /\
      next_call o (calls_of (w_hist w') l1) (after None (calls_of (w_hist w') l1)) (api_prog o a') (events_of i (w_hist w')) r').
    { intros l1 i l2 Heq. destruct (O3 _ _ _ Heq) as (th' & a' & r' & Hth' & Hta' & HN). destruct (Hths _ _ Hth') as (th2 & Hth2 & Hta2).
      exists th2, a', r'. split_and!; [done|congruence|]. rewrite Hext, Hoth; [done|..].
      - intros ->. apply Hnj. rewrite Heq. apply elem_of_app. right. left.
      - intros y Hy. rewrite Heq. apply elem_of_app. by left. }
    destruct (unlock_dec e) as [->|Hnu].
    + (* unlocking *)
      assert (Hlock : me_lock (w_mem w) = Some j) by exact (load_locked o dir w h j th a _ b k x _ HR HSr Hth Ht Hp Hva Hz ltac:(done)).
      destruct b; try done. destruct x. change (omap _ (ev AUnlock tt)) with [j] in Hul. change (omap _ [EvUnlock]) with [j] in Hul.
      destruct (load_running _ _ _ _ _ _ _ _ _ _ tt HR HSr Hth Ht Hp I Hlock eq_refl) as (Hload & t2 & r2 & HN). { intros y Hy. by apply elem_of_list_singleton in Hy. }
      assert (Ht2 : t2 = []).
      { destruct HN as (_ & _ & Hx & _). destruct (lock_shape _ _ _ _ _ _ _ Hx eq_refl) as [[_ ?]|[(u & _ & _ & Hu & _)|(u & _ & _ & _ & ?)]]; done. }
      subst t2. cbn [ev] in HN. rewrite (right_id_L [] (++)) in HN.
      assert (Hh : h = calls_of (w_hist w) (unlockers (w_hist w))). { unfold running in O1. rewrite Hlock, Hload in O1. by apply app_inv_tail in O1. }
      constructor.
      * rewrite Hld, Hul, calls_of_app, Hext by done. unfold running. change (me_lock (w_mem w')) with (@None nat). cbn [calls_of]. unfold calls_of at 2. cbn [map concat]. rewrite Hme, Hload, Hh. rewrite !(right_id_L [] (++)). by rewrite (assoc_L (++)).
      * rewrite Hul. apply NoDup_app. split_and!; [done| |apply NoDup_singleton]. intros i Hi Hi'. by apply elem_of_list_singleton in Hi' as ->.
      * intros l1 i l2 Heq. rewrite Hul in Heq. destruct l2 as [|y l2 _] using rev_ind.
        -- apply app_inj_2 in Heq as [<- [= <-]]; [|done]. destruct (Hths _ _ Hth) as (th2 & Hth2 & Hta2). exists th2, a, r2. split_and!; [done|congruence|].
           rewrite Hext, Hme, <- Hh by done. done.
        -- change (i :: l2 ++ [y]) with ((i :: l2) ++ [y]) in Heq. rewrite (assoc_L (++)) in Heq. apply app_inj_2 in Heq as [Heq _]; [|done]. by eapply Hold.
    + assert (Hul' : unlockers (w_hist w') = unlockers (w_hist w)). { by rewrite Hul, (unlocker_other _ _ Hnu), (right_id_L [] (++)). }
      constructor.
      * rewrite Hld, Hul', Hext by done. destruct (lock_dec e) as [->|Hnl].
        -- destruct Hsh as [[Hz0 _]|[(u & _ & _ & Hu & _)|(u & _ & _ & ? & _)]]; [|done|done]. destruct b; try done. cbn in Ha. rewrite O1. unfold running. rewrite Ha. change (me_lock (w_mem w')) with (Some j). cbn beta iota. rewrite ?Hme, ?Hz0. by rewrite <- (assoc_L (++)).
        -- assert (Hlock : me_lock (w_mem w) = Some j) by exact (load_locked o dir w h j th a _ b k x _ HR HSr Hth Ht Hp Hva Hz ltac:(done)).
           assert (Hk' : me_lock (w_mem w') = Some j). { change (w_mem w') with (update j (w_mem w) b x). by rewrite (lock_kept _ _ _ _ _ _ Hz Hnl Hnu). }
           rewrite O1. unfold running. rewrite Hlock, Hk', Hme. by rewrite (assoc_L (++)).
      * by rewrite Hul'.
      * intros l1 i l2 Heq. rewrite Hul' in Heq. by eapply Hold.
Qed.

Lemma reach_ordered o dir w : reach o dir w -> ordered_calls o w.
Proof.
  induction 1 as [|w w' HR IH HS]; [|by eapply oc_step]. constructor; [done|constructor|]. intros l1 j l2 Heq. cbn in Heq. by destruct l1.
Qed.

(** ** Finished goroutines *)
Definition finished (th : thread) : Prop := exists r, th_prog th = Ret r.
Lemma finished_lock o dir w j th : reach o dir w -> w_threads w !! j = Some th -> finished th -> me_lock (w_mem w) <> Some j.
Proof.
  intros HR Hth (r & Hr) Hlock. destruct (reach_serial _ _ _ HR) as (h & HS). destruct (s_held _ _ _ HS j Hlock) as (th' & a & Hth' & Hta & _ & (t1 & Heq & Hun & _)).
  simplify_eq. pose proof (b_thread _ _ _ (reach_basic _ _ _ HR) _ _ Hth) as HP. rewrite Hr, Hta in HP. apply partial_ret in HP. apply exec_task_load in HP as (r' & -> & HP).
  apply api_shape in HP as [[Hz _]|(t2 & Ht2 & _)]; rewrite Heq in *; [done|]. injection Ht2 as ->. apply Forall_app in Hun as [_ Hun]. by apply Forall_cons in Hun as [? _].
Qed.
(** a load call that has finished has released the lock, or (Reload in static mode) never took it *)
Lemma finished_call o dir w j th a x : reach o dir w -> w_threads w !! j = Some th -> th_task th = TLoad a -> th_prog th = Ret x ->
  exists r, x = ReturnedLoad r /\ exec (api_prog o a) (events_of j (w_hist w)) r /\ (events_of j (w_hist w) = [] /\ o_static o <> None \/ j ∈ unlockers (w_hist w)).
Proof.
  intros HR Hth Hta Hr. pose proof (b_thread _ _ _ (reach_basic _ _ _ HR) _ _ Hth) as HP. rewrite Hr, Hta in HP. apply partial_ret in HP. apply exec_task_load in HP as (r' & -> & HP).
  exists r'. split_and!; [done|done|]. pose proof (api_shape _ _ _ _ HP) as [[Hz ?]|(t2 & Ht2 & _)]; [by left|right]. apply unlockers_in. rewrite Ht2. right. apply elem_of_app. right. left.
Qed.

End Proofs.
