(** C16, C17, C19 - C22, C40: many goroutines. *)
From Verif Require Export ConcStatic Sched.

Section Props.
Context {E : GoEnv}.

(** ** C16 *)
(** [begun ROnFree]: the instances whose OnFree has been called, one entry per call. *)
Theorem C16_OnFree_at_most_once o dir w : reach o dir w -> NoDup (begun ROnFree (w_hist w)).
Proof. intros HR. apply (bg_nodup _ (reach_begins _ _ _ HR)). Qed.

(** ** C17 *)
(** Every load that has scheduled a release so long ago that its delay is over has also published its manager. *)
Definition prompt (w : world) : Prop := forall en om d, en ∈ w_hist w -> en_what en = Did (EvSpawnFree om d) -> (en_time en + d <= w_now w)%Z ->
  exists m, EvStore m ∈ events_of (en_thread en) (w_hist w).
Theorem C17_plugins_in_use_are_not_freed o dir w m p : reach o dir w -> prompt w ->
  me_current (w_mem w) = Some m -> holds m p -> pl_inst p ∉ begun ROnFree (w_hist w).
Proof.
  intros HR Hpr Hm Hp Hin. destruct (o_static o) as [st|] eqn:Hst.
  { exact (static_published_not_freed _ _ _ _ _ _ HR Hst (current_published _ _ _ _ HR Hm) (holds_insts _ _ Hp) Hin). }
  pose proof (dynamic_distinct _ Hst) as HD. pose proof (begun_refs _ _ _ _ HR HD Hin). pose proof (current_alive_prompt _ _ _ _ _ HR HD Hm (holds_insts _ _ Hp) Hpr). lia.
Qed.
(** The delay is at least 15 seconds. *)
Theorem C17_delay o dir w en om d : reach o dir w -> en ∈ w_hist w -> en_what en = Did (EvSpawnFree om d) -> (15 * second <= d)%Z /\ (o_freeDelay o <= d)%Z.
Proof. intros HR Hen Hw. destruct (spawn_call _ _ _ _ _ _ HR Hen Hw) as [-> _]. lia. Qed.

(** ** C19 *)
Lemma keyed_find o h cur m d p q : history o h cur -> fresh_objects h -> published h m -> depends m p q -> d ∈ pl_deps p -> same_name d (pl_name q) -> FindPlugin m d = Some q.
Proof.
  intros HH HF Hm (_ & Hq & _) Hd Hn. destruct (published_origin _ _ _ _ HH HF Hm) as (h0 & cur0 & a & t & r & h1 & _ & HN & Ht).
  destruct (C01_plugins_in_dependency_order _ _ _ _ _ _ _ HN Ht) as (Hf & _). by apply Hf.
Qed.

(** the history of load calls, extended to complete calls *)
Lemma load_history o dir w : reach o dir w -> exists t', history o (load_events (w_hist w) ++ t') (after None (load_events (w_hist w) ++ t')) /\ fresh_objects (load_events (w_hist w) ++ t').
Proof.
  intros HR. destruct (reach_ordered _ _ _ HR) as [O1 O2 O3]. pose proof (reach_basic _ _ _ HR) as HB. unfold running in O1. destruct (me_lock (w_mem w)) as [j|] eqn:Hlk.
  - destruct (running_call _ _ _ _ HR Hlk) as (th' & a' & t' & r & Hth' & Ha' & _ & HN). exists t'. rewrite O1, <- (assoc_L (++)). destruct HN as (N1 & N2 & N3 & N4 & N5). split; [|done].
    rewrite after_app'. by econstructor.
  - exists []. rewrite (right_id_L [] (++)). destruct (reach_serial _ _ _ HR) as (h & HS). rewrite (s_free _ _ _ HS Hlk). split; [by apply HS|].
    unfold fresh_objects. rewrite <- (s_free _ _ _ HS Hlk), <- (created_loads _ _ _ HB). apply (b_created _ _ _ HB).
Qed.

(** right after its publication a manager's plugins have references *)
Lemma just_published o dir w1 w2 en a m : reach o dir w1 -> distinct_registrations o -> step o w1 w2 -> w_hist w2 = w_hist w1 ++ [en] ->
  en_task en = TLoad a -> en_what en = Did (EvStore m) -> forall i, i ∈ insts m -> (1 <= refs_of (w_mem w2) i)%Z.
Proof.
  intros HR HD HS Hh Hta Hw i Hi. assert (HR2 : reach o dir w2) by (by econstructor). pose proof (reach_basic _ _ _ HR2) as HB2.
  assert (Hcur : me_current (w_mem w2) = Some m).
  { rewrite (b_current _ _ _ HB2), Hh, events_app, after_app'. unfold events at 2, did. cbn. rewrite Hw. done. }
  apply (current_alive _ _ _ _ _ HR2 HD Hcur); [|done]. intros (j & Hlk & _ & Hst).
  destruct (reach_serial _ _ _ HR2) as (h & HSr). destruct (s_held _ _ _ HSr j Hlk) as (th & b & Hth & Htb & Hload & _).
  rewrite Hh, load_events_app in Hload. unfold load_events at 2, did in Hload. cbn in Hload. rewrite Hta, Hw in Hload. cbn in Hload.
  (* the event is the last one, and belongs to the call in progress *)
  assert (Hne : events_of j (w_hist w2) <> []). { destruct (s_held _ _ _ HSr j Hlk) as (? & ? & _ & _ & _ & (t1 & -> & _)). done. }
  destruct (exists_last Hne) as (u & e & He). rewrite He in Hst. rewrite <- Hh, He, (assoc_L (++)) in Hload. apply app_inj_2 in Hload as [_ [= <-]]; [|done].
  rewrite stores_app in Hst. by apply app_eq_nil in Hst as [_ ?].
Qed.

(** [p] depends on [q], in any manager ever published; at some point OnFree of [q] is called.  Then OnFree of [p] (unless
    the plugin has a nil OnFree) has already returned. *)
Theorem C19_dependents_are_freed_first o dir w m p q h1 en c h2 : reach o dir w ->
  published (load_events (w_hist w)) m -> depends m p q ->
  w_hist w = h1 ++ en :: h2 -> en_what en = Began ROnFree c -> c_inst c = pl_inst q ->
  forall code, get_func ROnFree (pl_funcs p) = Some code ->
  exists mid name x, EvCall ROnFree (mkCallee mid name (pl_inst p) code) ArgNone x ∈ events h1.
Proof.
  intros HR Hm Hdep Hh Hw Hc code Hcode. destruct (o_static o) as [st|] eqn:Hst0.
  { exfalso. apply (static_published_not_freed _ _ _ _ _ _ HR Hst0 Hm (holds_insts _ _ (proj1 (proj2 Hdep)))). rewrite Hh. by apply (began_free _ _ _ _ _ Hw). }
  pose proof (dynamic_distinct _ Hst0) as HD. destruct (reach_prefix _ _ _ _ _ _ HR Hh) as (w1 & w2 & HR1 & HS & Hst & Hh1 & Hh2).
  assert (HR2 : reach o dir w2) by (by econstructor).
  assert (Hbeg : pl_inst q ∈ begun ROnFree (w_hist w2)). { rewrite Hh2, begun_app. apply elem_of_app. right. unfold begun. cbn. rewrite Hw, decide_True by done. rewrite Hc. left. }
  pose proof (begun_refs _ _ _ _ HR2 HD Hbeg) as Hr0.
  pose proof (once_dropped _ _ _ _ HR2 (bg_once _ (reach_begins _ _ _ HR2) _ Hbeg)) as Hdrop.
  assert (Hpub : published (load_events (w_hist w2)) m).
  { rewrite Hh in Hm. change (en :: h2) with ([en] ++ h2) in Hm. rewrite (assoc_L (++)), <- Hh2, load_events_app in Hm. apply published_app in Hm as [Hm|Hm]; [done|exfalso].
    apply load_events_in in Hm as (en' & a & Hen' & Hta & Hw'). apply elem_of_list_split in Hen' as (h3 & h4 & ->).
    destruct (reach_prefix o dir w ((h1 ++ [en]) ++ h3) en' h4 HR) as (w3 & w4 & HR3 & HS3 & _ & Hh3 & Hh4). { rewrite Hh. by rewrite <- !(assoc_L (++)). }
    assert (1 <= refs_of (w_mem w4) (pl_inst q))%Z. { eapply just_published; try done; [by rewrite Hh3|]. apply holds_insts, Hdep. }
    assert (HR4 : reach o dir w4) by (by econstructor).
    assert (refs_of (w_mem w4) (pl_inst q) = 0)%Z; [|lia]. apply (dropped_refs _ _ _ _ HR4 HD). rewrite Hh4, <- Hh2, !events_app. apply dropped_app. left. apply dropped_app. by left. }
  destruct (load_history _ _ _ HR2) as (t' & HH & HF).
  destruct Hdep as (Hp & Hq & d & Hd & Hn).
  assert (Hfind : FindPlugin m d = Some q). { eapply keyed_find; [exact HH|exact HF| |by split_and!; [exact Hp| |exists d]|done|done]. apply published_app. by left. }
  destruct (free_order _ _ _ _ _ _ _ HR2 HD Hpub Hp Hd Hfind Hr0 _ Hcode) as (j & mid & name & x & Hin).
  exists mid, name, x. eapply events_of_sub in Hin; [|exact HR2]. rewrite Hh2, events_app in Hin. apply elem_of_app in Hin as [Hin|Hin]; [done|].
  unfold events, did in Hin. cbn in Hin. rewrite Hw in Hin. by apply elem_of_nil in Hin.
Qed.

(** ** C20 *)
(** The load calls of all goroutines happened one after the other, in some order: those complete, and at last the one in
    progress (the goroutine that holds the lock).  Every complete call has returned and is a legal next call after
    those before it (next_call): it saw the manager published last as the old one.  Current() is the result of this sequence. *)
Theorem C20_loads_are_serialised o dir w : reach o dir w ->
  exists order : list nat, NoDup order /\
    (forall j, j ∈ order <-> EvUnlock ∈ events_of j (w_hist w)) /\
    let complete := concat (map (fun j => events_of j (w_hist w)) order) in
    load_events (w_hist w) = complete ++ match me_lock (w_mem w) with Some j => events_of j (w_hist w) | None => [] end /\
    me_current (w_mem w) = after None (load_events (w_hist w)) /\
    (forall l1 j l2, order = l1 ++ j :: l2 -> exists th a r, w_threads w !! j = Some th /\ th_task th = TLoad a /\ th_prog th = Ret (ReturnedLoad r) /\
       let before := concat (map (fun j => events_of j (w_hist w)) l1) in
       next_call o before (after None before) (api_prog o a) (events_of j (w_hist w)) r) /\
    (forall j, me_lock (w_mem w) = Some j -> exists th a t' r, w_threads w !! j = Some th /\ th_task th = TLoad a /\ ~ finished th /\
       next_call o complete (after None complete) (api_prog o a) (events_of j (w_hist w) ++ t') r).
Proof.
  intros HR. destruct (reach_ordered _ _ _ HR) as [O1 O2 O3]. exists (unlockers (w_hist w)). split_and!; [done|apply unlockers_in|]. intros complete. split_and!.
  - exact O1.
  - apply (after_loads _ _ _ (reach_basic _ _ _ HR)).
  - intros l1 j l2 Heq. by apply (complete_call _ _ _ _ _ _ HR Heq).
  - intros j Hlk. by apply (running_call _ _ _ _ HR Hlk).
Qed.
(** A load that has returned does not hold the lock, however it ended. *)
Theorem C20_lock_is_released o dir w j th : reach o dir w -> w_threads w !! j = Some th -> finished th -> me_lock (w_mem w) <> Some j.
Proof. apply finished_lock. Qed.
(** No deadlock: whatever has happened, all goroutines can run to their end. *)
Theorem C20_no_deadlock o dir w : reach o dir w -> exists w', rtc (step o) w w' /\ me_lock (w_mem w') = None /\ forall j th, w_threads w' !! j = Some th -> finished th.
Proof. intros HR. destruct (can_finish _ _ _ HR) as (w' & H1 & H2 & H3). by exists w'. Qed.

(** ** C21 *)
Lemma answered_end r mid arg p x t t' : Forall ending t' -> answered r mid arg p x (t ++ t') -> answered r mid arg p x t.
Proof.
  intros Hen (c & Hc & Hin). exists c. split; [done|]. apply elem_of_app in Hin as [Hin|Hin]; [done|]. rewrite Forall_forall in Hen. by apply Hen in Hin.
Qed.
Lemma started_born h t m p mid : born mid t m p -> started (h ++ t) p.
Proof.
  intros (_ & _ & _ & _ & (d & H1) & (ww & H2)). exists mid, d, ww.
  split; [destruct H1 as (c & Hc & Hin)|destruct H2 as (c & Hc & Hin)]; exists c; (split; [done|]); apply elem_of_app; by right.
Qed.
Lemma published_started o h cur a t r m p : next_call o h cur (api_prog o a) t r -> published t m -> holds m p -> started (h ++ t) p.
Proof.
  intros HN Ht Hp. destruct (published_plugins _ _ _ _ _ _ _ _ HN Ht Hp) as [[_ Hb]|(_ & Hst & _)]; [by eapply started_born|].
  destruct (HN) as (N1 & N2 & N3 & N4 & N5). assert (HH : history o (h ++ t) (after cur t)) by (by econstructor).
  assert (Hc : after cur t = Some m).
  { destruct (call_shape _ _ _ _ _ _ HN) as [Hnp|(tc & m' & tz & Heq & Hnc & Hez)].
    - exfalso. unfold no_publish in Hnp. rewrite Forall_forall in Hnp. by apply Hnp in Ht.
    - assert (m' = m) as ->. { eapply published_one; [exact HN| |exact Ht]. rewrite Heq. unfold pubs. apply published_app. right. apply published_app. left. apply published_app. right. left. }
      rewrite Heq, !after_app'. rewrite (no_publish_after _ tz) by (by apply ending_silent). unfold pubs. by rewrite after_app'. }
  pose proof (history_sound _ _ _ Hst HH m Hc) as [_ Hs]. apply Plugins_lookup in Hp as (k & Hk). by apply Hs in Hk as (_ & _ & _ & _ & ? & _).
Qed.

(** Whatever Current() returns was published by some load [a] of some goroutine [j], all of whose callbacks had been called
    with it and had accepted it; OnLoad and OnInit of every plugin it holds have returned without error. *)
Theorem C21_current_is_complete o dir w m : reach o dir w -> me_current (w_mem w) = Some m ->
  (exists j th a old, w_threads w !! j = Some th /\ th_task th = TLoad a /\ EvStore m ∈ events_of j (w_hist w) /\
     callbacks (events_of j (w_hist w)) = map (fun cb => (cb, m, old, Val None)) (api_callbacks o a) /\
     exists ta tz, events_of j (w_hist w) = ta ++ EvStore m :: tz /\ callbacks tz = []) /\
  (forall p, holds m p -> exists mid data ws,
     answered ROnLoad mid (ArgData data) p (Val None) (load_events (w_hist w)) /\
     answered ROnInit mid (ArgVault mid) p (Val (ws, None)) (load_events (w_hist w))).
Proof.
  intros HR Hm. rewrite (after_loads _ _ _ (reach_basic _ _ _ HR)) in Hm. apply published_after in Hm as [?|Hm]; [done|].
  destruct (published_load _ _ _ _ HR Hm) as (j & th & a & h & t' & r & Hth & Hta & HN & Hj & Hen & (hz & Hload)).
  assert (Hnc : callbacks t' = []). { apply omap_none. eapply (Forall_impl _ _ _ Hen). by intros []. }
  split.
  - pose proof (C23_callbacks _ _ _ _ _ _ HN) as Hst. exists j, th, a, (if StaticLinkingMode o then None else after None h).
    assert (HP : published (events_of j (w_hist w) ++ t') m) by (apply published_app; by left).
    destruct Hst as [_ Hno|? ? ? ? ? ? _ _ _ _ Hno _|new d ta tz Hcb _ Heq Htz Hno]; [by apply Hno in HP|by apply Hno in HP|].
    assert (new = m) as ->. { eapply published_one; [exact HN| |exact HP]. rewrite Heq. apply published_app. right. left. }
    rewrite callbacks_app, Hnc, (right_id_L [] (++)) in Hcb. split_and!; try done.
    apply elem_of_list_split in Hj as (ta' & tz' & Hj). exists ta', tz'. split; [done|].
    rewrite Hj, <- (assoc_L (++)) in Heq. cbn in Heq. assert (ta' = ta /\ tz' ++ t' = tz) as [_ Htz'].
    { apply app_eq_inv in Heq as [(k & Hk & Hk')|(k & Hk & Hk')]; (destruct k as [|e k]; [rewrite (right_id_L [] (++)) in Hk; cbn in Hk'; injection Hk' as ?; by subst|]); exfalso.
      - cbn in Hk'. injection Hk' as <- Hk'. apply (Hno m). apply elem_of_app. right. rewrite Hk'. apply elem_of_app. right. left.
      - cbn in Hk'. injection Hk' as <- Hk'. apply (Hno m). apply elem_of_app. left. rewrite Hk. apply elem_of_app. right. left. }
    rewrite <- Htz', callbacks_app in Htz. by apply app_eq_nil in Htz as [? _].
  - intros p Hp. assert (HP : published (events_of j (w_hist w) ++ t') m) by (apply published_app; by left).
    destruct (published_started _ _ _ _ _ _ _ _ HN HP Hp) as (mid & d & ww & H1 & H2). rewrite (assoc_L (++)) in H1, H2.
    apply (answered_end _ _ _ _ _ _ _ Hen) in H1, H2. exists mid, d, ww. rewrite Hload, (assoc_L (++)). split; by apply answered_mono_l.
Qed.
(** Once there is a manager, there is one for ever. *)
Theorem C21_never_nil_again o dir w w' m : reach o dir w -> rtc (step o) w w' -> me_current (w_mem w) = Some m -> exists m', me_current (w_mem w') = Some m'.
Proof.
  intros HR HS Hm. pose proof (reach_steps _ _ _ _ HR HS) as HR'. destruct (steps_hist _ _ _ HS) as (h & Hh).
  rewrite (b_current _ _ _ (reach_basic _ _ _ HR)) in Hm. rewrite (b_current _ _ _ (reach_basic _ _ _ HR')), Hh, events_app, after_app', Hm.
  clear. generalize m. induction (events h) as [|e l IH]; intros m'; [by exists m'|]. cbn. destruct e; apply IH.
Qed.
(** a call that reads shared memory once: its answer was right at some moment between the call and its return *)
Lemma answered_moment o dir w j en h1 h2 e : reach o dir w -> w_hist w = h1 ++ en :: h2 -> en_thread en = j -> en_what en = Did e ->
  exists w1, reach o dir w1 /\ rtc (step o) w1 w /\ is_Some (w_threads w1 !! j) /\ w_hist w1 = h1 /\
    (forall m, e = EvLoadCurrent m -> me_current (w_mem w1) = m) /\ (forall n, e = EvLoadCounter n -> me_counter (w_mem w1) = n) /\ (forall d, e = EvGetDir d -> me_dir (w_mem w1) = d).
Proof.
  intros HR Hh Hj Hw. destruct (reach_prefix _ _ _ _ _ _ HR Hh) as (w1 & w2 & HR1 & HS & Hst & Hh1 & Hh2). exists w1. split; [done|]. split; [by eapply rtc_l|].
  assert (Hl : exists en', w_hist w2 = w_hist w1 ++ [en'] /\ en' = en) by (exists en; by rewrite Hh1). destruct Hl as (en' & Hl & ->). clear Hst.
  destruct HS as [w1 k Hk|w1 now Hn|w1 i th' X b k r c Hth Hp Hc Hcl|w1 i th' X b k x Hth Hp Hc Hva Ha Haw]; cbn [w_hist w_threads w_mem] in *.
  - rewrite <- (right_id_L [] (++) (w_hist w1)) in Hl at 1. by apply app_inv_head in Hl.
  - rewrite <- (right_id_L [] (++) (w_hist w1)) in Hl at 1. by apply app_inv_head in Hl.
  - apply app_inv_head in Hl. injection Hl as <-. done.
  - apply app_inv_head in Hl. destruct (ev_one _ b x) as [Hz|(e' & Hz)]; rewrite Hz in Hl; [done|]. injection Hl as <-. cbn in Hw, Hj. injection Hw as ->. subst i.
    split_and!; [by eexists|done|..]; intros y ->; destruct b; try done; cbn in Hz; injection Hz as ->; done.
Qed.
Theorem C21_current_call o dir w j th m : reach o dir w -> w_threads w !! j = Some th -> th_task th = TCurrent -> th_prog th = Ret (ReturnedCurrent m) ->
  exists w1, reach o dir w1 /\ rtc (step o) w1 w /\ is_Some (w_threads w1 !! j) /\ me_current (w_mem w1) = m.
Proof.
  intros HR Hth Hta Hp. pose proof (b_thread _ _ _ (reach_basic _ _ _ HR) _ _ Hth) as HP. rewrite Hta, Hp in HP. apply partial_ret in HP. cbn [task_prog] in HP.
  unfold Current in HP. apply exec_bind in HP as (t1 & t2 & x & Heq & H1 & H2). apply exec_do in H1 as [_ ->]. destruct H2 as [-> H2]. injection H2 as ->.
  assert (Hin : EvLoadCurrent x ∈ events_of j (w_hist w)) by (rewrite Heq; left). apply events_of_in in Hin as (en & Hen & Hj & Hw). apply elem_of_list_split in Hen as (h1 & h2 & Hh).
  destruct (answered_moment _ _ _ _ _ _ _ _ HR Hh Hj Hw) as (w1 & H1 & H2 & H3 & _ & H4 & _). exists w1. split_and!; try done. by apply H4.
Qed.

(** ** C22 *)
(** the goroutine's Reload has returned without error *)
Definition reloaded (w : world) (j : nat) : bool :=
  match w_threads w !! j with
  | Some th => match th_task th, th_prog th with TLoad (Call_Reload _ _), Ret (ReturnedLoad (Val _)) => true | _, _ => false end
  | None => false
  end.
(** the goroutine's Reload has succeeded, but has not returned yet *)
Definition reloading (w : world) (j : nat) : bool := bool_decide (me_lock (w_mem w) = Some j) && bool_decide (counted (events_of j (w_hist w)) <> 0%nat).

Lemma sum_point n k v : (k < n)%nat -> list_sum (map (fun j => if decide (j = k) then v else 0%nat) (seq 0 n)) = v.
Proof.
  induction n as [|n IH]; intros Hk; [lia|]. rewrite seq_S, map_app, list_sum_app. cbn. case_decide as Hd.
  - assert (Hz : list_sum (map (fun j => if decide (j = k) then v else 0%nat) (seq 0 n)) = 0%nat); [|lia]. subst k. clear.
    assert (forall m, (m <= n)%nat -> list_sum (map (fun j => if decide (j = n) then v else 0%nat) (seq 0 m)) = 0%nat) as Hm; [|by apply Hm].
    induction m as [|m IH]; intros Hle; [done|]. rewrite seq_S, map_app, list_sum_app, IH by lia. cbn. rewrite decide_False by lia. done.
  - rewrite IH by lia. lia.
Qed.
Lemma sum_add (f g : nat -> nat) (l : list nat) : list_sum (map (fun j => (f j + g j)%nat) l) = (list_sum (map f l) + list_sum (map g l))%nat.
Proof. induction l as [|x l IH]; [done|]. unfold list_sum in *. cbn [map fold_right]. lia. Qed.
Lemma counted_threads n h : (forall en, en ∈ h -> (en_thread en < n)%nat) -> counted (events h) = list_sum (map (fun j => counted (events_of j h)) (seq 0 n)).
Proof.
  induction h as [|en h IH] using rev_ind; intros Hlt.
  - unfold counted, events. cbn. clear. induction (seq 0 n); done.
  - rewrite events_app, counted_app, IH by (intros en' Hen'; apply Hlt; apply elem_of_app; by left).
    rewrite <- (sum_point n (en_thread en) (counted (events [en]))) by (apply Hlt, elem_of_app; right; left). rewrite <- sum_add. f_equal. apply map_ext. intros j.
    rewrite events_of_app, counted_app. f_equal. unfold events_of, events. cbn. case_decide as Hd; [rewrite decide_True by done; done|by rewrite decide_False].
Qed.
Lemma sum_filter (f : nat -> bool) l : list_sum (map (fun j => if f j then 1 else 0)%nat l) = length (List.filter f l).
Proof. induction l as [|x l IH]; [done|]. unfold list_sum in *. cbn [map fold_right List.filter]. destruct (f x); cbn [length]; lia. Qed.
Lemma sum_ext (f g : nat -> nat) (l : list nat) : (forall j, j ∈ l -> f j = g j) -> list_sum (map f l) = list_sum (map g l).
Proof. intros H. f_equal. apply map_ext_in. intros j Hj. apply H. by apply elem_of_list_In. Qed.

(** the loads that neither hold the lock nor have released it have done nothing *)
Lemma other_counted o dir w j th : reach o dir w -> w_threads w !! j = Some th ->
  counted (events_of j (w_hist w)) = ((if reloaded w j then 1 else 0) + (if reloading w j then 1 else 0))%nat.
Proof.
  intros HR Hth. destruct (is_load (th_task th)) eqn:Hl.
  2:{ assert (Hz : counted (events_of j (w_hist w)) = 0%nat).
      { pose proof (b_thread _ _ _ (reach_basic _ _ _ HR) _ _ Hth) as HP. eapply (partial_forall _ _ _ other_event) in HP; [|intros t r; by apply other_task].
        apply counted_none. eapply (Forall_impl _ _ _ HP). by intros []. }
      unfold reloading. rewrite Hz, (bool_decide_false (0 <> 0)%nat) by (intros H; by apply H). rewrite andb_false_r.
      unfold reloaded. rewrite Hth. by destruct (th_task th). }
  destruct (th_task th) as [a| | | | |] eqn:Ht; try done. destruct (reach_serial _ _ _ HR) as (h & HS). destruct (decide (me_lock (w_mem w) = Some j)) as [Hlk|Hlk].
  - destruct (running_call _ _ _ _ HR Hlk) as (th' & a' & t' & r & Hth' & Ha' & Hnf & HN). rewrite Hth in Hth'. injection Hth' as <-. rewrite Ht in Ha'. injection Ha' as <-.
    assert (Hnr : reloaded w j = false). { unfold reloaded. rewrite Hth, Ht. destruct a; [done|]. destruct (th_prog th) as [x|] eqn:Hp; [|done]. exfalso. apply Hnf. by exists x. }
    rewrite Hnr. unfold reloading. rewrite (bool_decide_true _ Hlk). cbn [andb].
    pose proof (C22_one_call _ _ _ _ _ _ HN) as Hc. rewrite counted_app in Hc. case_bool_decide as Hb; [|lia].
    assert (counted (events_of j (w_hist w)) <= 1)%nat by (destruct a, r; lia). lia.
  - unfold reloading. rewrite (bool_decide_false _ Hlk). cbn [andb]. destruct (s_idle _ _ _ HS _ _ _ Hth Ht Hlk) as [Hz|Hz].
    + rewrite Hz. cbn. unfold reloaded. rewrite Hth, Ht. destruct a as [|data extra]; [done|]. destruct (th_prog th) as [x|] eqn:Hp; [|done].
      destruct (finished_call _ _ _ _ _ _ _ HR Hth Ht Hp) as (r & -> & Hex & _). rewrite Hz in Hex.
      cbn [api_prog] in Hex. unfold ReloadWithCallback in Hex. destruct (o_static o) eqn:Hso; [by destruct Hex as [_ ->]|]. apply exec_locked in Hex as (tb & Htb & _). done.
    + apply unlockers_in in Hz. apply elem_of_list_split in Hz as (l1 & l2 & Hz).
      destruct (complete_call _ _ _ _ _ _ HR Hz) as (th' & a' & r & Hth' & Ha' & Hp & HN). rewrite Hth in Hth'. injection Hth' as <-. rewrite Ht in Ha'. injection Ha' as <-.
      rewrite (C22_one_call _ _ _ _ _ _ HN). unfold reloaded. rewrite Hth, Ht, Hp. destruct a, r; done.
Qed.

(** At any time the counter is the number of Reload calls that have returned without error, plus one if the call in
    progress is a Reload just about to return. *)
Theorem C22_counter o dir w : reach o dir w ->
  me_counter (w_mem w) = Z.of_nat (length (List.filter (reloaded w) (seq 0 (length (w_threads w)))) + length (List.filter (reloading w) (seq 0 (length (w_threads w)))))%nat.
Proof.
  intros HR. pose proof (reach_basic _ _ _ HR) as HB. rewrite (b_counter _ _ _ HB). f_equal. rewrite (counted_threads (length (w_threads w))).
  - rewrite <- !sum_filter, <- sum_add. apply sum_ext. intros j Hj. apply elem_of_seq in Hj. destruct (lookup_lt_is_Some_2 (w_threads w) j) as [th Hth]; [lia|]. by eapply other_counted.
  - intros en Hen. destruct (b_index _ _ _ HB _ Hen) as (th & Hth & _). by eapply lookup_lt_Some.
Qed.
Theorem C22_at_most_one_reloading o dir w : reach o dir w -> (length (List.filter (reloading w) (seq 0 (length (w_threads w)))) <= 1)%nat /\
  (me_lock (w_mem w) = None -> me_counter (w_mem w) = Z.of_nat (length (List.filter (reloaded w) (seq 0 (length (w_threads w)))))).
Proof.
  intros HR. assert (Hle : forall n, (length (List.filter (reloading w) (seq 0 n)) <= match me_lock (w_mem w) with Some j => if decide (j < n)%nat then 1 else 0 | None => 0 end)%nat).
  { induction n as [|n IH]; [cbn; lia|]. rewrite seq_S, List.filter_app, app_length. cbn. unfold reloading at 2. case_bool_decide as Hb.
    - rewrite Hb in IH |- *. rewrite decide_False in IH by lia. rewrite decide_True by lia. cbn [andb]. case_bool_decide; cbn; lia.
    - cbn. destruct (me_lock (w_mem w)) as [j|]; [|lia]. assert (j <> n) by congruence. destruct (decide (j < n)%nat), (decide (j < S n)%nat); lia. }
  specialize (Hle (length (w_threads w))). split; [destruct (me_lock (w_mem w)); [case_decide|]; lia|].
  intros Hlk. rewrite Hlk in Hle. rewrite (C22_counter _ _ _ HR). lia.
Qed.
(** ReloadCounter() returns the counter at some moment between the call and its return. *)
Theorem C22_counter_call o dir w j th n : reach o dir w -> w_threads w !! j = Some th -> th_task th = TCounter -> th_prog th = Ret (ReturnedCounter n) ->
  exists w1, reach o dir w1 /\ rtc (step o) w1 w /\ is_Some (w_threads w1 !! j) /\ me_counter (w_mem w1) = n.
Proof.
  intros HR Hth Hta Hp. pose proof (b_thread _ _ _ (reach_basic _ _ _ HR) _ _ Hth) as HP. rewrite Hta, Hp in HP. apply partial_ret in HP. cbn [task_prog] in HP.
  unfold ReloadCounter in HP. apply exec_bind in HP as (t1 & t2 & x & Heq & H1 & H2). apply exec_do in H1 as [_ ->]. destruct H2 as [-> H2]. injection H2 as ->.
  assert (Hin : EvLoadCounter x ∈ events_of j (w_hist w)) by (rewrite Heq; left). apply events_of_in in Hin as (en & Hen & Hj & Hw). apply elem_of_list_split in Hen as (h1 & h2 & Hh).
  destruct (answered_moment _ _ _ _ _ _ _ _ HR Hh Hj Hw) as (w1 & H1 & H2 & H3 & _ & _ & H4 & _). exists w1. split_and!; try done. by apply H4.
Qed.

(** ** C40 *)
(** the plugin directory after the events [t] *)
Definition dir_after (dir : string) (t : list event) : string := fold_left (fun d e => match e with EvSetDir d' => d' | _ => d end) t dir.
Lemma dir_after_app dir t1 t2 : dir_after dir (t1 ++ t2) = dir_after (dir_after dir t1) t2.
Proof. apply fold_left_app. Qed.
Lemma reach_dir o dir w : reach o dir w -> me_dir (w_mem w) = dir_after dir (events (w_hist w)).
Proof.
  induction 1 as [|w w' HR IH HS]; [done|]. destruct HS as [w k Hk|w now Hn|w i th' X b k r c Hth Hp Hc Hcl|w i th' X b k x Hth Hp Hc Hva Ha Haw]; [done|done|..]; cbn [w_hist w_mem].
  - rewrite events_app. unfold events at 2. cbn. by rewrite (right_id_L [] (++)).
  - change (map _ _) with (done_by (w_now w) i (th_task th') (ev b x)). rewrite events_app, events_done, dir_after_app, <- IH. by destruct b.
Qed.
Lemma dir_unset dir t : (forall d, EvSetDir d ∉ t) -> dir_after dir t = dir.
Proof.
  unfold dir_after. induction t as [|e t IH]; intros H; [done|]. cbn.
  assert (Ht : forall d, EvSetDir d ∉ t) by (intros d Hd; apply (H d); by right).
  destruct e; try (by apply IH). exfalso. apply (H d). left.
Qed.

(** a directory is looked at after having been read from the swapper; the directory listed is the absolute form of such a one *)
Definition dir_step (pre : list event) (e : event) : Prop :=
  match e with
  | EvStat d _ | EvAbs d _ => EvGetDir d ∈ pre
  | EvReadDir b _ => exists d, EvAbs d (Val b) ∈ pre
  | _ => True
  end.
Fixpoint dir_steps (pre t : list event) : Prop := match t with [] => True | e :: t => dir_step pre e /\ dir_steps (pre ++ [e]) t end.
Lemma dir_steps_app pre t1 t2 : dir_steps pre (t1 ++ t2) <-> dir_steps pre t1 /\ dir_steps (pre ++ t1) t2.
Proof.
  revert pre. induction t1 as [|e t1 IH]; intros pre; cbn [app dir_steps]; [rewrite (right_id_L [] (++)); tauto|]. rewrite IH, <- (assoc_L (++)). cbn. tauto.
Qed.
Definition late_act : forall X, act X -> Prop := fun X a => match a with AGetDir | AStat _ | AAbs _ | AReadDir _ => False | _ => True end.
Definition late (e : event) : Prop := match e with EvStat _ _ | EvAbs _ _ | EvReadDir _ _ => False | _ => True end.
Lemma late_ev X (a : act X) x : late_act X a -> Forall late (ev a x).
Proof. destruct a; try done; intros _; by repeat constructor. Qed.
Lemma late_steps pre t : Forall late t -> dir_steps pre t.
Proof. intros H. revert pre. induction H as [|e t He _ IH]; intros pre; [done|]. split; [by destruct e|apply IH]. Qed.
Lemma private_late {A} (p : prog A) : only private_act p -> only late_act p.
Proof. apply only_impl. intros X a. by destruct a. Qed.
Lemma late_new b : only late_act (newPluginManager b).
Proof. apply only_bind; [by apply only_do|]. intros [mid dn]. apply only_bind; [destruct b; [by apply only_do|done]|]. by intros []. Qed.
Lemma late_callbacks cbs new old : only late_act (invokeReloadCallbacks cbs new old).
Proof.
  induction cbs as [|[cb|] cbs IH]; cbn; [done| |exact IH]. split; [done|]. intros x.
  destruct (match x with Val e => e | Err e => Some e | Pan x0 => Some (EPanic None x0) end); [|exact IH].
  apply only_bind; [apply private_late, private_free|]. by intros [].
Qed.
Lemma late_static o st data cbs : only late_act (swLoadStaticPlugins o st data cbs).
Proof.
  apply only_bind; [apply late_new|]. intros [s|e|x]; [|done|done].
  destruct (match o_whitelist o with [] => Val st | wl => selectStatic st wl ∅ end); [|done|done].
  apply only_bind; [apply private_late, private_loadStatic|]. intros [s' [|e|x]]; cbn; [|done|done].
  apply only_bind; [apply late_callbacks|]. by intros [].
Qed.
Lemma late_files o files data cbs : only late_act (loadPluginFiles o files data cbs).
Proof.
  destruct files as [|f files]; [done|]. split; [done|]. intros old. rewrite bind_ret. apply only_bind; [apply late_new|]. intros [s|e|x]; [|done|done].
  apply only_bind; [apply private_late, private_loadPlugins|]. intros [s' [|e|x]]; cbn [fst snd]; [|done|done].
  apply only_bind; [apply late_callbacks|]. intros [[]|e|x]; [|done|done].
  destruct (buildDetails s' (f :: files) ∅); [|done|done].
  apply only_bind; [destruct old; [by apply only_do|done]|]. intros _. apply only_bind; [by apply only_do|]. done.
Qed.
Lemma late_exec {A} (p : prog A) t r pre : only late_act p -> exec p t r -> dir_steps pre t.
Proof. intros Hp He. apply late_steps. by eapply only_exec; [apply late_ev|exact Hp|]. Qed.
Lemma impl_steps o data cbs t r pre : exec (loadPluginsImpl o data cbs) t r -> dir_steps pre t.
Proof.
  unfold loadPluginsImpl. intros H. xinv H. unfold FindDirectory in H. destruct (blank x) eqn:Hb; [rewrite bind_ret in H; by destruct H as [-> _]|].
  apply exec_bind in H as (t1 & t2 & r1 & -> & H1 & H). rewrite bind_do in H1. apply exec_act in H1 as (r0 & t' & _ & -> & H1).
  assert (Hpre : forall (l l' : list event) e, e ∈ (l ++ [e]) ++ l') by (intros l l' e; apply elem_of_app; left; apply elem_of_app; right; left).
  assert (Ht' : t' = []) by (destruct r0 as [[]| |]; by destruct H1). subst t'. rewrite (right_id_L [] (++)). cbn [ev app dir_steps].
  split; [done|]. split; [apply elem_of_app; right; left|]. destruct r1 as [u|e|y]; [|by destruct H as [-> _]..].
  xinv H. cbn [app dir_steps]. split; [done|]. xinv H. cbn [app dir_steps]. split; [apply elem_of_app; right; left|]. destruct x1 as [abs|e|y]; [|by destruct H as [-> _]..].
  xinv H. cbn [app dir_steps]. split; [exists x0; apply elem_of_app; right; left|]. destruct x1 as [entries|e|y]; [|by destruct H as [-> _]..].
  destruct (selectFiles _ _ _) as [files found]. destruct (whitelist_ok _ _); [|by destruct H as [-> _]]. eapply late_exec; [apply late_files|exact H].
Qed.
Lemma locked_steps {A} (p : prog A) t r pre : (forall t r pre, exec p t r -> dir_steps pre t) -> exec (locked p) t r -> dir_steps pre t.
Proof.
  intros Hp H. apply exec_locked in H as (tb & -> & H). split; [done|]. apply dir_steps_app. split; [by eapply Hp|]. done.
Qed.
Lemma api_steps o a t r pre : exec (api_prog o a) t r -> dir_steps pre t.
Proof.
  destruct a as [data|data extra]; cbn [api_prog].
  - unfold LoadPlugins. apply locked_steps. intros t' r' pre' H. destruct (o_static o); [by eapply late_exec; [apply late_static|]|by eapply impl_steps].
  - unfold ReloadWithCallback. destruct (o_static o); [by intros [-> _]|]. apply locked_steps. intros t' r' pre' H. apply exec_bind in H as (t1 & t2 & r1 & -> & H1 & H).
    apply dir_steps_app. split; [by eapply impl_steps|]. destruct r1; [|by destruct H as [-> _]..]. apply exec_bind in H as (t3 & t4 & ? & -> & H2 & H). apply exec_do in H2 as [_ ->]. destruct H as [-> _]. done.
Qed.

(** While goroutine [j] loads plugins (the part [hb] of the history), nobody calls ResetPluginDir.  Then the directory
    validated (os.Stat) is the one made absolute and listed: the directory set at that time. *)
Theorem C40_undisturbed_load o dir w ha hb hc j th a d1 r1 : reach o dir w -> w_hist w = ha ++ hb ++ hc -> w_threads w !! j = Some th -> th_task th = TLoad a ->
  events_of j ha = [] -> (forall d, EvSetDir d ∉ events hb) -> EvStat d1 r1 ∈ events_of j hb ->
  d1 = dir_after dir (events ha) /\
  (forall d2 r2, EvAbs d2 r2 ∈ events_of j hb -> d2 = d1) /\
  (forall b r3, EvReadDir b r3 ∈ events_of j hb -> EvAbs d1 (Val b) ∈ events_of j hb).
Proof.
  intros HR Hh Hth Hta Hnone Hset Hstat.
  pose proof (b_thread _ _ _ (reach_basic _ _ _ HR) _ _ Hth) as HP. rewrite Hta in HP. destruct (load_prefix _ _ _ _ None [] HP) as (t' & r & Hex & _).
  rewrite Hh, !events_of_app, Hnone, app_nil_l in Hex. apply (api_steps _ _ _ _ []) in Hex. apply dir_steps_app in Hex as [Hex _]. apply dir_steps_app in Hex as [Hex _].
  assert (Hpre : forall e, e ∈ events_of j hb -> exists ta, dir_step ta e /\ forall e', e' ∈ ta -> e' ∈ events_of j hb).
  { intros e Hin. apply elem_of_list_split in Hin as (ta & tb & Heq). rewrite Heq in Hex |- *. apply dir_steps_app in Hex as [_ Hex]. exists ta. split; [apply Hex|]. intros e' He'. apply elem_of_app. by left. }
  assert (Hget : forall d, EvGetDir d ∈ events_of j hb -> d = dir_after dir (events ha)).
  { intros d Hd. apply events_of_in in Hd as (en & Hen & Hj & Hw). apply elem_of_list_split in Hen as (b1 & b2 & ->).
    destruct (answered_moment o dir w j en (ha ++ b1) (b2 ++ hc) (EvGetDir d) HR) as (w1 & HR1 & _ & _ & Hw1 & _ & _ & Hd); [by rewrite Hh, <- !(assoc_L (++))|done|done|].
    rewrite <- (Hd d eq_refl), (reach_dir _ _ _ HR1), Hw1, events_app, dir_after_app. apply dir_unset. intros d' Hin. apply (Hset d'). rewrite events_app. apply elem_of_app. by left. }
  assert (Hd1 : d1 = dir_after dir (events ha)). { destruct (Hpre _ Hstat) as (ta & Hst & Hsub). apply Hget, Hsub, Hst. }
  assert (Habs : forall d2 r2, EvAbs d2 r2 ∈ events_of j hb -> d2 = d1). { intros d2 r2 Hin. destruct (Hpre _ Hin) as (ta & Hst & Hsub). rewrite Hd1. apply Hget, Hsub, Hst. }
  split_and!; [done|done|]. intros b r3 Hin. destruct (Hpre _ Hin) as (ta & (d & Hd) & Hsub). apply Hsub in Hd. by rewrite <- (Habs _ _ Hd).
Qed.
End Props.

(** ** Concrete cases *)
(** Three loads at once, two of them replacing managers; the two release goroutines overlap; Current() and ReloadCounter() are called. *)
Definition busy_cmds : list cmd :=
  [SStart (TLoad (Call_LoadPlugins 77)); SRun world0 0 400; SStart (TLoad (Call_Reload 78 (Some 5%N))); SStart (TLoad (Call_Reload 79 None));
   SRun world1 1 20; SRun world0 2 10; SRun world1 1 400; SRun world_rebuilt 2 400; SStart TCounter; SRun world0 5 5; SStart TCurrent; SRun world0 6 9;
   STime (400 * second); SRun world1 3 2; SRun world1 4 3; SRun world0 3 1; SRun world0 4 300; SRun world0 3 300].
Definition busy : world := sched dyn busy_cmds (initially "/p").
Lemma busy_reach : reach dyn "/p" busy.
Proof.
  apply sched_reach. unfold busy_cmds. repeat apply Forall_cons_2; try exact I; try apply Forall_nil_2; unfold cmd_ok;
    first [apply world0_ok|apply world1_ok|apply world_rebuilt_ok].
Qed.
Example C16_case : reach dyn "/p" busy /\ begun ROnFree (w_hist busy) = [4%N; 3%N; 2%N].
Proof. split; [apply busy_reach|vm_compute; reflexivity]. Qed.
Example C20_case : reach dyn "/p" busy /\ unlockers (w_hist busy) = [0; 1; 2]%nat /\ map (ended busy) (seq 0 7) = repeat true 7.
Proof. split_and!; [apply busy_reach|vm_compute; reflexivity..]. Qed.
Example C20_waiting_case : let w := sched dyn (take 6 busy_cmds) (initially "/p") in
  reach dyn "/p" w /\ me_lock (w_mem w) = Some 1%nat /\ map (ended w) (seq 0 3) = [true; false; false] /\ events_of 2 (w_hist w) = [].
Proof.
  split_and!; [|vm_compute; reflexivity..]. apply sched_reach. unfold busy_cmds. cbn [take].
  repeat apply Forall_cons_2; try exact I; try apply Forall_nil_2; unfold cmd_ok; first [apply world0_ok|apply world1_ok].
Qed.
Example C22_counter_case : reach dyn "/p" busy /\ me_counter (w_mem busy) = 2%Z /\ List.filter (reloaded busy) (seq 0 7) = [1; 2]%nat /\
  result_of_thread busy 5 = Some (ReturnedCounter 2).
Proof. split_and!; [apply busy_reach|vm_compute; reflexivity..]. Qed.
Definition current_plugins (w : world) : list (string * inst) := match me_current (w_mem w) with Some m => map (fun p => (pl_name p, pl_inst p)) (Plugins m) | None => [] end.
Example C21_case : reach dyn "/p" busy /\ current_plugins busy = [("a", 1%N); ("b", 5%N); ("c", 6%N)].
Proof. split; [apply busy_reach|vm_compute; reflexivity]. Qed.
(** all releases are over, and each had been scheduled by a load that has published: prompt *)
Lemma prompt_all w : (forall en om d, en ∈ w_hist w -> en_what en = Did (EvSpawnFree om d) -> exists m, EvStore m ∈ events_of (en_thread en) (w_hist w)) -> prompt w.
Proof. intros H en om d H1 H2 _. eauto. Qed.
Definition stored (j : nat) (h : list entry) : bool := existsb (fun e => match e with EvStore _ => true | _ => false end) (events_of j h).
Definition prompt_b (w : world) : bool :=
  forallb (fun en => match en_what en with Did (EvSpawnFree _ _) => stored (en_thread en) (w_hist w) | _ => true end) (w_hist w).
Lemma prompt_check w : prompt_b w = true -> prompt w.
Proof.
  intros H. apply prompt_all. intros en om d Hin Hw. unfold prompt_b in H. rewrite forallb_forall in H. specialize (H en). rewrite Hw in H.
  apply elem_of_list_In in Hin. specialize (H Hin). unfold stored in H. apply existsb_exists in H as (e & He & Hs). destruct e; try done. exists m. by apply elem_of_list_In.
Qed.
Example C17_case : reach dyn "/p" busy /\ prompt busy /\ current_plugins busy = [("a", 1%N); ("b", 5%N); ("c", 6%N)] /\
  begun ROnFree (w_hist busy) = [4%N; 3%N; 2%N].
Proof. split_and!; [apply busy_reach|apply prompt_check; vm_compute; reflexivity|vm_compute; reflexivity..]. Qed.

(** [prompt] is needed: the release goroutine is started before the new manager is published, so if the loading goroutine is
    not scheduled for the whole delay, plugins of the manager Current() returns are freed. *)
Definition stalled_cmds : list cmd :=
  [SStart (TLoad (Call_LoadPlugins 77)); SRun world0 0 400; SStart (TLoad (Call_Reload 78 (Some 5%N))); SRun world1 1 58; STime (400 * second); SRun world1 2 300].
Definition stalled : world := sched dyn stalled_cmds (initially "/p").
Definition freed_in_use (w : world) : bool :=
  match me_current (w_mem w) with Some m => existsb (fun p => bool_decide (pl_inst p ∈ begun ROnFree (w_hist w))) (Plugins m) | None => false end.
Theorem C17_unconditional_claim_is_refuted : exists o dir w m p, reach o dir w /\ distinct_registrations o /\ me_current (w_mem w) = Some m /\ holds m p /\ pl_inst p ∈ begun ROnFree (w_hist w).
Proof.
  assert (HR : reach dyn "/p" stalled).
  { apply sched_reach. unfold stalled_cmds. repeat apply Forall_cons_2; try exact I; try apply Forall_nil_2; unfold cmd_ok; first [apply world0_ok|apply world1_ok]. }
  assert (Hf : freed_in_use stalled = true) by (vm_compute; reflexivity). revert HR Hf. generalize stalled. intros w HR Hf. unfold freed_in_use in Hf.
  destruct (me_current (w_mem w)) as [m|] eqn:Hm; [|done]. apply existsb_exists in Hf as (p & Hp & Hb). apply bool_decide_eq_true in Hb.
  exists dyn, "/p", w, m, p. split_and!; [exact HR|by apply distinct_dynamic|exact Hm|by apply elem_of_list_In|exact Hb].
Qed.
(** [C19]: b (instance 2) depended on by c (instance 3), both replaced; OnFree of c came first. *)
Example C19_case : reach dyn "/p" busy /\ (exists l, begun ROnFree (w_hist busy) = [4%N] ++ [3%N] ++ l /\ l = [2%N]) /\
  omap (fun e => match e with EvStore m => Some (map (fun p => (pl_inst p, pl_deps p)) (Plugins m)) | _ => None end) (load_events (w_hist busy)) =
    [[(1%N, []); (2%N, ["a"]); (3%N, ["b"])]; [(1%N, []); (2%N, ["a"]); (4%N, ["b"])]; [(1%N, []); (5%N, ["a"]); (6%N, ["b"])]].
Proof. split_and!; [apply busy_reach|exists [2%N]; split; vm_compute; reflexivity|vm_compute; reflexivity]. Qed.

(** Without the proviso of C40 the claim fails: one goroutine validates "/p" and then lists "/q". *)
Definition moved_cmds : list cmd := [SStart (TLoad (Call_LoadPlugins 77)); SRun world0 0 3; SStart (TResetDir "/q"); SRun world0 1 4; SRun world0 0 400].
Definition moved : world := sched dyn moved_cmds (initially "/p").
Definition looked_at (j : nat) (w : world) : list (string * string) :=
  omap (fun e => match e with EvStat d _ => Some ("stat", d) | EvAbs d _ => Some ("abs", d) | EvReadDir d _ => Some ("list", d) | _ => None end) (events_of j (w_hist w)).
Lemma looked_at_stat j w d : ("stat", d) ∈ looked_at j w -> exists r, EvStat d r ∈ events_of j (w_hist w).
Proof. unfold looked_at. intros (e & He & Hs)%elem_of_list_omap. destruct e; try done. injection Hs as <-. eauto. Qed.
Lemma looked_at_list j w d : ("list", d) ∈ looked_at j w -> exists r, EvReadDir d r ∈ events_of j (w_hist w).
Proof. unfold looked_at. intros (e & He & Hs)%elem_of_list_omap. destruct e; try done. injection Hs as <-. eauto. Qed.
Definition loaded (j : nat) (w : world) : bool := match result_of_thread w j with Some (ReturnedLoad (Val (Some _))) => true | _ => false end.
Theorem C40_concurrent_reset_is_seen : exists o dir w j d1 r1 d2 r2, reach o dir w /\ loaded j w = true /\
  EvStat d1 r1 ∈ events_of j (w_hist w) /\ EvReadDir d2 r2 ∈ events_of j (w_hist w) /\ d1 <> d2.
Proof.
  assert (HR : reach dyn "/p" moved).
  { apply sched_reach. unfold moved_cmds. repeat apply Forall_cons_2; try exact I; try apply Forall_nil_2; unfold cmd_ok; apply world0_ok. }
  assert (Hf : looked_at 0 moved = [("stat", "/p"); ("abs", "/q"); ("list", "/q")]) by (vm_compute; reflexivity).
  assert (Hl : loaded 0 moved = true) by (vm_compute; reflexivity). revert HR Hf Hl. generalize moved. intros w HR Hf Hl.
  destruct (looked_at_stat 0 w "/p") as (r1 & H1); [rewrite Hf; left|].
  destruct (looked_at_list 0 w "/q") as (r2 & H2); [rewrite Hf; right; right; left|].
  exists dyn, "/p", w, 0%nat, "/p", r1, "/q", r2. done.
Qed.
(** an undisturbed load of the same swapper *)
Example C40_case : let w := sched dyn [SStart (TResetDir "/q"); SRun world0 0 4; SStart (TLoad (Call_LoadPlugins 77)); SRun world0 1 400; SStart (TResetDir "/r"); SRun world0 2 4] (initially "/p") in
  looked_at 1 w = [("stat", "/q"); ("abs", "/q"); ("list", "/q")] /\ loaded 1 w = true /\ me_dir (w_mem w) = "/r".
Proof. split_and!; vm_compute; reflexivity. Qed.

Print Assumptions C16_OnFree_at_most_once.
Print Assumptions C17_plugins_in_use_are_not_freed.
Print Assumptions C17_delay.
Print Assumptions C17_unconditional_claim_is_refuted.
Print Assumptions C19_dependents_are_freed_first.
Print Assumptions C20_loads_are_serialised.
Print Assumptions C20_lock_is_released.
Print Assumptions C20_no_deadlock.
Print Assumptions C21_current_is_complete.
Print Assumptions C21_never_nil_again.
Print Assumptions C21_current_call.
Print Assumptions C22_counter.
Print Assumptions C22_at_most_one_reloading.
Print Assumptions C22_counter_call.
Print Assumptions C40_undisturbed_load.
Print Assumptions C40_concurrent_reset_is_seen.
