(** More about reachable worlds: earlier worlds, promptness, who drops the last reference, who frees whom first *)
From Verif Require Export ConcFree.

Section Proofs.
Context {E : GoEnv}.

(** ** Earlier worlds *)
Lemma reach_steps o dir w w' : reach o dir w -> rtc (step o) w w' -> reach o dir w'.
Proof. intros HR HS. induction HS as [|w w1 w' H _ IH]; [done|]. apply IH. by econstructor. Qed.
Lemma step_hist o w w' : step o w w' -> w_hist w' = w_hist w \/ exists en, w_hist w' = w_hist w ++ [en] /\ en_time en = w_now w.
Proof.
  destruct 1 as [w k Hk|w now Hn|w j th X a k r c Hth Hp Hc Hcl|w j th X a k x Hth Hp Hc Hv Ha Haw]; cbn [w_hist]; [by left|by left|right|].
  - eexists. split; [done|done].
  - destruct (ev_one _ a x) as [->|(e & ->)]; [left; by rewrite app_nil_r|right]. eexists. split; [done|done].
Qed.
Lemma reach_prefix o dir w h1 en h2 : reach o dir w -> w_hist w = h1 ++ en :: h2 ->
  exists w1 w2, reach o dir w1 /\ step o w1 w2 /\ rtc (step o) w2 w /\ w_hist w1 = h1 /\ w_hist w2 = h1 ++ [en].
Proof.
  intros HR. revert h2. induction HR as [|w w' HR IH HS]; intros h2 Heq; [cbn in Heq; by destruct h1|].
  destruct (step_hist _ _ _ HS) as [Hh|(en' & Hh & _)].
  - rewrite Hh in Heq. destruct (IH _ Heq) as (w1 & w2 & ? & ? & ? & ? & ?). exists w1, w2. split_and!; try done. by eapply rtc_r.
  - destruct h2 as [|y h2 _] using rev_ind.
    + assert (Heq' := Heq). rewrite Hh in Heq'. apply app_inj_2 in Heq' as [<- [= <-]]; [|done]. by exists w, w'.
    + rewrite Hh in Heq. change (en :: h2 ++ [y]) with ((en :: h2) ++ [y]) in Heq. rewrite (assoc_L (++)) in Heq. apply app_inj_2 in Heq as [Heq _]; [|done].
      destruct (IH _ Heq) as (w1 & w2 & ? & ? & ? & ? & ?). exists w1, w2. split_and!; try done. by eapply rtc_r.
Qed.
Lemma steps_hist o w w' : rtc (step o) w w' -> exists h, w_hist w' = w_hist w ++ h.
Proof.
  induction 1 as [w|w w1 w' H _ (h & IH)]; [exists []; by rewrite app_nil_r|]. destruct (step_hist _ _ _ H) as [Hh|(en & Hh & _)]; rewrite IH, Hh; [by exists h|].
  exists (en :: h). by rewrite <- (assoc_L (++)).
Qed.

(** ** Sleeping *)
Lemma reach_sleep o dir w en mid d : reach o dir w -> en ∈ w_hist w -> en_what en = Did (EvSleep mid d) ->
  exists th, w_threads w !! en_thread en = Some th /\ (th_start th + d <= en_time en)%Z.
Proof.
  intros HR. revert en. induction HR as [|w w' HR IH HS]; intros en Hen Hw; [by apply elem_of_nil in Hen|].
  destruct HS as [w k Hk|w now Hn|w j th X a k r c Hth Hp Hc Hcl|w j th X a k x Hth Hp Hc Hv Ha Haw]; cbn [w_hist w_threads] in *.
  - destruct (IH en Hen Hw) as (th & Hth & Hle). exists th. split; [by apply lookup_app_l_Some|done].
  - by apply IH.
  - apply elem_of_app in Hen as [Hen|Hen]; [|apply elem_of_list_singleton in Hen; by subst en].
    destruct (IH en Hen Hw) as (th' & Hth' & Hle). destruct (decide (en_thread en = j)) as [Hj|Hj].
    + rewrite Hj in *. rewrite list_lookup_insert by (by eapply lookup_lt_Some). eexists. split; [done|]. cbn. congruence.
    + rewrite list_lookup_insert_ne by done. by exists th'.
  - apply elem_of_app in Hen as [Hen|Hen].
    + destruct (IH en Hen Hw) as (th' & Hth' & Hle). destruct (decide (en_thread en = j)) as [Hj|Hj].
      * rewrite Hj in *. eexists. split; [apply lookup_app_l_Some; apply list_lookup_insert; by eapply lookup_lt_Some|]. cbn. congruence.
      * exists th'. split; [|done]. apply lookup_app_l_Some. by rewrite list_lookup_insert_ne.
    + apply elem_of_list_fmap in Hen as (e & -> & Hin). cbn [en_thread en_time en_what] in *. injection Hw as ->.
      eexists. split; [apply lookup_app_l_Some; apply list_lookup_insert; by eapply lookup_lt_Some|]. cbn [th_start].
      destruct a; cbn in Hin; try (by apply elem_of_list_singleton in Hin); try (by apply elem_of_nil in Hin).
      apply elem_of_list_singleton in Hin. injection Hin as -> ->. exact Haw.
Qed.

(** a release goroutine that has done anything has slept *)
Lemma free_awake o dir w j th m d : reach o dir w -> w_threads w !! j = Some th -> th_task th = TFree m d -> deps_ready (pm_map m) (pm_ordered m) ->
  events_of j (w_hist w) <> [] -> (th_start th + d <= w_now w)%Z.
Proof.
  intros HR Hth Ht Hr Hne. pose proof (reach_basic _ _ _ HR) as HB. pose proof (b_thread _ _ _ HB _ _ Hth) as HP. rewrite Ht in HP.
  destruct (complete (th_prog th) None []) as (t' & r & He & _). apply HP in He. apply free_task in He as (t2 & Heq & _); [|done].
  destruct (events_of j (w_hist w)) as [|e t1] eqn:Hev; [done|]. injection Heq as -> _.
  assert (Hin : EvSleep (pm_id m) d ∈ events_of j (w_hist w)) by (rewrite Hev; left).
  apply events_of_in in Hin as (en & Hen & <- & Hw). destruct (reach_sleep _ _ _ _ _ _ HR Hen Hw) as (th' & Hth' & Hle).
  pose proof (b_time _ _ _ HB en Hen). simplify_eq. lia.
Qed.

(** ** Between scheduling the release and publishing *)
Lemma midway_spawn o dir w : reach o dir w -> distinct_registrations o -> midway w ->
  exists j om d, me_lock (w_mem w) = Some j /\ EvSpawnFree om d ∈ events_of j (w_hist w) /\ me_current (w_mem w) = Some om /\
    stores (events_of j (w_hist w)) = [] /\ o_static o = None.
Proof.
  intros HR HD (j & Hlock & Hrel & Hst). destruct (reach_tokens _ _ _ HR HD) as (H & rest & x & HT).
  destruct (tk_prog _ _ _ _ _ HT j Hlock) as (h & a & t' & r & Hload & HN & _ & Hc). destruct (call_part _ _ _ _ _ _ _ HN HD) as [_ [Hnp|(m & _ & _ & Hrl & _)]].
  { by destruct (no_publish_stores _ Hnp). }
  rewrite Hrl in Hrel. unfold old_seen in *. destruct (o_static o) eqn:Hs; [done|]. destruct (after None h) as [om|] eqn:Hom; [|done].
  exists j, om, (free_delay o). split_and!; [done| | |done|done].
  - assert (Hin : (om, free_delay o) ∈ releases (events_of j (w_hist w))) by (rewrite Hrl; left).
    apply elem_of_list_omap in Hin as (e & He & Heq). destruct e; try done. by injection Heq as -> ->.
  - by rewrite (after_loads _ _ _ (reach_basic _ _ _ HR)), Hload, after_app, Hom, after_stores, Hst.
Qed.

(** the goroutine started by a release event *)
Lemma spawn_thread o dir w en m d : reach o dir w -> en ∈ w_hist w -> en_what en = Did (EvSpawnFree m d) ->
  exists j th, w_threads w !! j = Some th /\ th_task th = TFree m d /\ th_start th = en_time en.
Proof.
  intros HR Hen Hw. assert (Hin : (m, d, en_time en) ∈ omap spawn_at (w_hist w)).
  { apply elem_of_list_omap. exists en. split; [done|]. unfold spawn_at. by rewrite Hw. }
  rewrite <- (reach_starts _ _ _ HR) in Hin. apply elem_of_list_omap in Hin as (th & Hth & Hs). apply elem_of_list_lookup in Hth as (j & Hth).
  exists j, th. unfold free_start in Hs. destruct (th_task th) eqn:Ht; try done. by injection Hs as -> -> ->.
Qed.

Lemma born_mentions o dir w i e : reach o dir w -> e ∈ events (w_hist w) -> mentions i e -> me_refs (w_mem w) !! i <> None.
Proof. intros HR He Hm Hn. pose proof (b_unborn _ _ _ (reach_basic _ _ _ HR) i Hn) as HF. rewrite Forall_forall in HF. by apply (HF e). Qed.

(** an instance whose OnFree was begun has no references left *)
Lemma once_dropped o dir w i : reach o dir w -> i ∈ onced (events (w_hist w)) -> dropped i (events (w_hist w)).
Proof.
  intros HR Hi. apply onced_in in Hi. apply events_in in Hi as (en & Hen & Hw).
  assert (Hj : EvOnce i true ∈ events_of (en_thread en) (w_hist w)) by (apply events_of_in; by exists en).
  apply elem_of_list_split in Hj as (t1 & t2 & Heq). destruct (thread_wf _ _ _ (en_thread en) HR _ _ _ Heq) as (t0 & mid & v & -> & Hv).
  exists mid, v. split; [|done]. assert (Hin : EvRefDec mid i v ∈ events_of (en_thread en) (w_hist w)).
  { rewrite Heq, !elem_of_app. left. right. by apply elem_of_list_singleton. }
  apply events_of_in in Hin as (en' & ? & _ & ?). apply events_in. by exists en'.
Qed.
Lemma dropped_refs o dir w i : reach o dir w -> distinct_registrations o -> dropped i (events (w_hist w)) -> refs_of (w_mem w) i = 0%Z.
Proof.
  intros HR HD Hd. pose proof (refs_nonneg _ _ _ i HR HD). apply (proj2 (reach_dropped _ _ _ i HR HD ltac:(destruct Hd as (mid & v & Hin & _); by eapply born_mentions))) in Hd. lia.
Qed.
Lemma begun_refs o dir w i : reach o dir w -> distinct_registrations o -> i ∈ begun ROnFree (w_hist w) -> refs_of (w_mem w) i = 0%Z.
Proof. intros HR HD Hi. apply (bg_once _ (reach_begins _ _ _ HR)) in Hi. eapply dropped_refs; try done. by eapply once_dropped. Qed.

(** the current manager's plugins have references, if the publication is prompt *)
Lemma current_alive_prompt o dir w m i : reach o dir w -> distinct_registrations o -> me_current (w_mem w) = Some m -> i ∈ insts m ->
  (forall en om d, en ∈ w_hist w -> en_what en = Did (EvSpawnFree om d) -> (en_time en + d <= w_now w)%Z -> exists m', EvStore m' ∈ events_of (en_thread en) (w_hist w)) ->
  (1 <= refs_of (w_mem w) i)%Z.
Proof.
  intros HR HD Hc Hi Hprompt. destruct (reach_tokens _ _ _ HR HD) as (H & rest & x & HT).
  destruct (tk_cur _ _ _ _ _ HT m Hc) as [Hin|Hmid].
  { rewrite (tk_refs _ _ _ _ _ HT). apply cnt_in in Hi. fold (has i m) in Hi.
    pose proof (held_nonneg _ _ _ _ _ _ i HR HT). pose proof (sum_has_in i m rest Hin). pose proof (tk_x _ _ _ _ _ HT i). lia. }
  destruct (midway_spawn _ _ _ HR HD Hmid) as (j & om & d & Hlock & Hsp & Hcur & Hst & Hs).
  rewrite Hc in Hcur. injection Hcur as <-. apply events_of_in in Hsp as (en & Hen & Hj & Hw).
  destruct (spawn_thread _ _ _ _ _ _ HR Hen Hw) as (j' & th & Hth & Ht & Hstart).
  assert (Hfr : (j', m) ∈ frees (w_threads w)) by (apply frees_in; by exists th, d).
  assert (Hms : m ∈ stores H). { apply (tk_stores _ _ _ _ _ HT). apply elem_of_app. left. apply elem_of_list_fmap. by exists (j', m). }
  destruct (lg_ready _ _ _ (tk_ledger _ _ _ _ _ HT) m Hms) as [_ Hr].
  assert (Hnone : events_of j' (w_hist w) = []).
  { destruct (decide (events_of j' (w_hist w) = [])) as [|Hne]; [done|]. exfalso.
    pose proof (free_awake _ _ _ _ _ _ _ HR Hth Ht Hr Hne) as Haw. rewrite Hstart in Haw. destruct (Hprompt en m d Hen Hw Haw) as (m' & Hm').
    rewrite Hj in Hm'. apply stores_in in Hm'. rewrite Hst in Hm'. by apply elem_of_nil in Hm'. }
  rewrite (tk_refs _ _ _ _ _ HT). pose proof (sum_over_in (fun y => has i (snd y) + wt i (events_of (fst y) (w_hist w)))%Z (frees (w_threads w)) (j', m)) as HI.
  cbn [fst snd] in HI. rewrite Hnone in HI. cbn [wt] in HI. apply cnt_in in Hi. fold (has i m) in Hi.
  assert (has i m + 0 <= held w i)%Z. { apply HI; [|done]. intros y Hy. by eapply held_parts. }
  pose proof (sum_has_nonneg i rest). pose proof (tk_x _ _ _ _ _ HT i). lia.
Qed.

End Proofs.
