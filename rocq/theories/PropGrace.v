(** C56, C60: how long a manager stays usable after Current() has returned it; what drops to zero is freed at once. *)
From Verif Require Export PropLeak.

Section Props.
Context {E : GoEnv}.

(** ** Time and history *)
Lemma step_now o w w' en : step o w w' -> w_hist w' = w_hist w ++ [en] -> w_now w' = en_time en.
Proof.
  intros HS Hh. inversion HS; subst; cbn [w_hist w_now] in *.
  - exfalso. by apply (f_equal length) in Hh; rewrite app_length in Hh; cbn in Hh; lia.
  - exfalso. by apply (f_equal length) in Hh; rewrite app_length in Hh; cbn in Hh; lia.
  - apply app_inv_head in Hh. by injection Hh as <-.
  - apply app_inv_head in Hh. destruct (ev a x) as [|e [|e' l]]; cbn [map] in Hh; try discriminate Hh. by injection Hh as <-.
Qed.
Lemma hist_sorted o dir w h1 e1 h2 e2 h3 : reach o dir w -> w_hist w = h1 ++ e1 :: h2 ++ e2 :: h3 -> (en_time e1 <= en_time e2)%Z.
Proof.
  intros HR Hh. destruct (reach_prefix _ _ _ (h1 ++ e1 :: h2) e2 h3 HR) as (w1 & w2 & HR1 & HS & _ & H1 & H2); [by rewrite <- (assoc_L (++))|].
  rewrite <- (step_now _ _ _ e2 HS); [|by rewrite H1, H2]. apply (b_time _ _ _ (reach_basic _ _ _ (reach_step _ _ _ _ HR1 HS))).
  rewrite H2, !elem_of_app. left. right. left.
Qed.

(** splitting a list at the first element with some property *)
Lemma first_split {A} (f : A -> bool) (l : list A) : Forall (fun x => f x = false) l \/
  exists l1 x l2, l = l1 ++ x :: l2 /\ f x = true /\ Forall (fun x => f x = false) l1.
Proof.
  induction l as [|x l IH]; [by left|]. destruct (f x) eqn:Hf.
  - right. exists [], x, l. split_and!; [done|done|by apply Forall_nil].
  - destruct IH as [IH|(l1 & y & l2 & -> & Hy & HF)].
    + left. by apply Forall_cons.
    + right. exists (x :: l1), y, l2. split_and!; [done|done|by apply Forall_cons].
Qed.
Definition is_store (en : entry) : bool := match en_what en with Did (EvStore _) => true | _ => false end.
Lemma no_stores_after l : Forall (fun en => is_store en = false) l -> forall cur, after cur (events l) = cur.
Proof.
  intros HF. induction HF as [|en l Hen HF IH]; intros cur; [done|]. rewrite events_cons. unfold is_store in Hen.
  destruct (en_what en) as [r c|e]; [apply IH|]. change (e :: events l) with ([e] ++ events l). rewrite after_app'.
  destruct e; try discriminate Hen; apply IH.
Qed.

(** ** The references of a published manager *)

(** A published manager whose plugin [i] has no references left has release goroutines; each of them has given its
    reference back, after its sleep. *)
Lemma all_released o dir w m i : reach o dir w -> distinct_registrations o -> m ∈ stores (load_events (w_hist w)) -> i ∈ insts m ->
  refs_of (w_mem w) i = 0%Z ->
  (exists j, (j, m) ∈ frees (w_threads w)) /\
  forall j th d, w_threads w !! j = Some th -> th_task th = TFree m d -> (th_start th + d <= w_now w)%Z.
Proof.
  intros HR HD Hm Hi H0. destruct (reach_tokens _ _ _ HR HD) as (H & rest & x & HT).
  pose proof (held_nonneg _ _ _ _ _ _ i HR HT) as Hh. pose proof (tk_x _ _ _ _ _ HT i) as Hx. pose proof (sum_has_nonneg i rest) as Hs.
  rewrite (tk_refs _ _ _ _ _ HT) in H0. pose proof Hi as Hi'. apply cnt_in in Hi'. fold (has i m) in Hi'.
  assert (Hfr : m ∈ map snd (frees (w_threads w))).
  { pose proof (tk_rest _ _ _ _ _ HT m Hm) as Hin. apply elem_of_app in Hin as [Hin|Hin]; [done|]. pose proof (sum_has_in i m rest Hin). lia. }
  split. { apply elem_of_list_fmap in Hfr as ([j m'] & -> & Hin). by exists j. }
  intros j th d Hth Ht. assert (Hj : (j, m) ∈ frees (w_threads w)) by (apply frees_in; by exists th, d).
  assert (Hms : m ∈ stores H) by (apply (tk_stores _ _ _ _ _ HT); apply elem_of_app; by left).
  destruct (lg_ready _ _ _ (tk_ledger _ _ _ _ _ HT) m Hms) as [_ Hr].
  eapply free_awake; try done. intros Hnil.
  assert (Hle : (has i m + wt i (events_of j (w_hist w)) <= held w i)%Z).
  { unfold held. apply (sum_over_in (fun x => has i (snd x) + wt i (events_of (fst x) (w_hist w)))%Z _ (j, m)); [|done]. intros y Hy. by eapply held_parts. }
  rewrite Hnil in Hle. cbn [wt] in Hle. lia.
Qed.

(** the load call that replaces the current manager has scheduled its release just before *)
Lemma store_spawned o dir w w' en m m' : reach o dir w -> distinct_registrations o -> step o w w' -> w_hist w' = w_hist w ++ [en] ->
  en_what en = Did (EvStore m') -> me_current (w_mem w) = Some m -> o_static o = None ->
  exists es, es ∈ w_hist w /\ en_thread es = en_thread en /\ en_what es = Did (EvSpawnFree m (free_delay o)) /\
    forall en' m'', en' ∈ w_hist w -> en_thread en' = en_thread en -> en_what en' <> Did (EvStore m'').
Proof.
  intros HR HD HS Hh Hw Hc Hs. set (j := en_thread en). assert (HR' : reach o dir w') by (by eapply reach_step).
  assert (Hj : events_of j (w_hist w') = events_of j (w_hist w) ++ [EvStore m']).
  { rewrite Hh, events_of_app. f_equal. unfold events_of. cbn [omap list_omap]. unfold j. rewrite decide_True by done. unfold did. by rewrite Hw. }
  destruct (reach_tokens _ _ _ HR' HD) as (H & rest & x & HT).
  assert (Hlock : me_lock (w_mem w') = Some j).
  { destruct (reach_serial _ _ _ HR') as (h & [_ S2 S3 S4]). pose proof (reach_basic _ _ _ HR') as HB.
    destruct (b_index _ _ _ HB en) as (th & Hth & Htask). { rewrite Hh. apply elem_of_app. right. by apply elem_of_list_singleton. }
    destruct (is_load (en_task en)) eqn:Hl.
    2: { pose proof (basic_others _ _ _ en _ HB ltac:(rewrite Hh; apply elem_of_app; right; by apply elem_of_list_singleton) Hl Hw) as Ho. done. }
    destruct (en_task en) eqn:Hta; try done. destruct (decide (me_lock (w_mem w') = Some j)) as [|Hn]; [done|]. exfalso.
    destruct (S4 _ _ _ Hth Htask Hn) as [Hnil|Hun].
    - fold j in Hnil. rewrite Hj in Hnil. by apply app_eq_nil in Hnil as [_ ?].
    - fold j in Hun. pose proof (b_thread _ _ _ HB _ _ Hth) as Hp. fold j in Hp. rewrite Htask in Hp.
      destruct (load_prefix _ _ _ _ None [] Hp) as (t' & r & He & _). apply elem_of_list_split in Hun as (u1 & u2 & Hu).
      rewrite Hu, <- (assoc_L (++)) in He. destruct (lock_shape _ _ _ _ u1 EvUnlock (u2 ++ t') He eq_refl) as [[_ [=]]|[(? & _ & _ & [] & _)|(? & _ & _ & _ & Hnil)]].
      apply app_eq_nil in Hnil as [-> _]. rewrite Hu in Hj. apply app_inj_tail in Hj as [_ [=]]. }
  destruct (tk_prog _ _ _ _ _ HT j Hlock) as (h & a & t' & r & Hload & HN & _ & _).
  assert (Hcur : after None h = Some m /\ stores (events_of j (w_hist w)) = [] /\ EvSpawnFree m (free_delay o) ∈ events_of j (w_hist w)).
  { destruct (call_shape _ _ _ _ _ _ HN) as [Hnp|(tc & m1 & tz & Heq & Hnp & Hz)].
    { exfalso. destruct (no_publish_stores _ Hnp) as [Hst _]. by rewrite Hj, !stores_app in Hst; apply app_eq_nil in Hst as [Hst _]; apply app_eq_nil in Hst as [_ ?]. }
    unfold pubs in Heq. destruct (no_publish_stores _ Hnp) as [S1 _]. destruct (ending_silent _ Hz) as [_ Hzn]. destruct (no_publish_stores _ Hzn) as [Z1 _].
    assert (Hone : events_of j (w_hist w) = tc ++ spawned o (old_seen o (after None h))).
    { rewrite Hj, <- !(assoc_L (++)) in Heq. change ([EvStore m'] ++ t') with (EvStore m' :: t') in Heq. change ([EvStore m1] ++ tz) with (EvStore m1 :: tz) in Heq.
      assert (Heq' : events_of j (w_hist w) ++ EvStore m' :: t' = (tc ++ spawned o (old_seen o (after None h))) ++ EvStore m1 :: tz) by (by rewrite <- (assoc_L (++))).
      apply app_eq_inv in Heq' as [(k & Hk1 & Hk2)|(k & Hk1 & Hk2)].
      - destruct k as [|e k]; [by rewrite (right_id_L [] (++)) in Hk1|]. exfalso. cbn [app] in Hk2. injection Hk2 as <- Hk2.
        (* the store of the call lies within what was done before *)
        assert (Hin : m' ∈ stores (EvStore m' :: t')) by (cbn; left). 
        assert (Hst : stores tz = stores k ++ stores (EvStore m' :: t')) by (by rewrite Hk2, stores_app). rewrite Z1 in Hst. symmetry in Hst. by apply app_eq_nil in Hst as [_ ?].
      - destruct k as [|e k]; [by rewrite (right_id_L [] (++)) in Hk1|]. exfalso. cbn in Hk2. injection Hk2 as <- Hk2.
        assert (Hin : m' ∈ stores (tc ++ spawned o (old_seen o (after None h)))). { rewrite Hk1, stores_app. apply elem_of_app. right. cbn. left. }
        rewrite stores_app, S1 in Hin. cbn [app] in Hin. unfold spawned in Hin. destruct (old_seen o (after None h)); by apply elem_of_nil in Hin. }
    assert (Hst : stores (events_of j (w_hist w)) = []).
    { rewrite Hone, stores_app, S1. unfold spawned. by destruct (old_seen o (after None h)). }
    assert (Hcur : after None h = Some m).
    { rewrite (after_loads _ _ _ (reach_basic _ _ _ HR)) in Hc. assert (Hl : load_events (w_hist w') = load_events (w_hist w) ++ [EvStore m']).
      { rewrite Hh, load_events_app. f_equal. unfold load_events. cbn [omap list_omap]. unfold did. rewrite Hw.
        destruct (is_load (en_task en)) eqn:Hl; [done|]. pose proof (basic_others _ _ _ en _ (reach_basic _ _ _ HR') ltac:(rewrite Hh; apply elem_of_app; right; by apply elem_of_list_singleton) Hl Hw) as Ho. done. }
      rewrite Hload, Hj, (assoc_L (++)) in Hl. apply app_inj_tail in Hl as [Hl _]. rewrite <- Hl, after_app, (after_stores (events_of j (w_hist w))), Hst in Hc. done. }
    split_and!; [done|done|]. rewrite Hone. apply elem_of_app. right. rewrite Hcur. unfold old_seen. rewrite Hs. left. }
  destruct Hcur as (Hcur & Hst & Hsp). apply events_of_in in Hsp as (es & Hes & Hesj & Hesw). exists es. split_and!; try done.
  intros en' m'' Hin Hj' Hw'. assert (Hin' : EvStore m'' ∈ events_of j (w_hist w)) by (apply events_of_in; by exists en').
  apply stores_in in Hin'. rewrite Hst in Hin'. by apply elem_of_nil in Hin'.
Qed.

(** what Current() returned was the current manager *)
Lemma loaded_current o w w' en m : step o w w' -> w_hist w' = w_hist w ++ [en] -> en_what en = Did (EvLoadCurrent m) -> me_current (w_mem w) = m.
Proof.
  intros HS Hh Hw. inversion HS; subst; cbn [w_hist] in *.
  - exfalso. by apply (f_equal length) in Hh; rewrite app_length in Hh; cbn in Hh; lia.
  - exfalso. by apply (f_equal length) in Hh; rewrite app_length in Hh; cbn in Hh; lia.
  - apply app_inv_head in Hh. injection Hh as <-. done.
  - apply app_inv_head in Hh. destruct a; cbn [ev map] in Hh; try discriminate Hh; try (injection Hh as <-; discriminate Hw).
    + injection Hh as <-. cbn [en_what] in Hw. injection Hw as <-. by cbn [answers] in *.
Qed.
Lemma free_delay_max o : free_delay o = Z.max (15 * second) (o_freeDelay o).
Proof. unfold free_delay, minFreeDelay. destruct (Z.ltb_spec (15 * second) (o_freeDelay o)); lia. Qed.

Lemma midway_dec w : midway w \/ ~ midway w.
Proof.
  unfold midway. destruct (me_lock (w_mem w)) as [j|]; [|right; intros (? & [=] & _)].
  destruct (releases (events_of j (w_hist w))) as [|y l] eqn:Hr; [right; intros (? & [= <-] & Hn & _); by rewrite Hr in Hn|].
  destruct (stores (events_of j (w_hist w))) as [|z l'] eqn:Hs; [|right; intros (? & [= <-] & _ & Hn); by rewrite Hs in Hn].
  left. exists j. rewrite Hr. done.
Qed.

Lemma stored_load o dir w m : reach o dir w -> EvStore m ∈ events (w_hist w) -> m ∈ stores (load_events (w_hist w)).
Proof.
  intros HR Hin. apply events_in in Hin as (en & Hen & Hw). apply stores_in. unfold published. apply load_events_in.
  destruct (is_load (en_task en)) eqn:Hl; [|by pose proof (basic_others _ _ _ en _ (reach_basic _ _ _ HR) Hen Hl Hw)].
  destruct (en_task en) eqn:Ht; try done. by eexists en, _.
Qed.
(** the world right after a call of OnFree has begun *)
Lemma free_world o dir w h1 e2 h3 c : reach o dir w -> distinct_registrations o -> w_hist w = h1 ++ e2 :: h3 -> en_what e2 = Began ROnFree c ->
  exists wb, reach o dir wb /\ w_hist wb = h1 ++ [e2] /\ w_now wb = en_time e2 /\ refs_of (w_mem wb) (c_inst c) = 0%Z.
Proof.
  intros HR HD Hh H2. destruct (reach_prefix _ _ _ h1 e2 h3 HR Hh) as (wb & wb' & HRb & HSb & _ & Hb & Hb').
  assert (HRb' : reach o dir wb') by (by eapply reach_step). pose proof (step_now _ _ _ e2 HSb ltac:(by rewrite Hb, Hb')) as Hnow.
  exists wb'. split_and!; try done. eapply begun_refs; try done. rewrite Hb', begun_app. apply elem_of_app. right. unfold begun. cbn [omap list_omap]. rewrite H2. rewrite decide_True by done. left.
Qed.

(** ** C56 *)
(** Every load call that has scheduled the release of the old manager publishes the new one within [delta]. *)
Definition swift (delta : Z) (w : world) : Prop := forall en om d, en ∈ w_hist w -> en_what en = Did (EvSpawnFree om d) ->
  (exists en' m, en' ∈ w_hist w /\ en_thread en' = en_thread en /\ en_what en' = Did (EvStore m) /\ (en_time en' <= en_time en + delta)%Z) \/
  (w_now w <= en_time en + delta)%Z.

(** Somebody obtained [m] from Current() (entry [e1]); OnFree of one of its plugins begins (entry [e2]). *)
Theorem C56_grace_period o dir w delta m p h1 e1 h2 e2 h3 c : reach o dir w -> swift delta w ->
  w_hist w = h1 ++ e1 :: h2 ++ e2 :: h3 -> en_what e1 = Did (EvLoadCurrent (Some m)) ->
  en_what e2 = Began ROnFree c -> holds m p -> c_inst c = pl_inst p ->
  (en_time e1 + Z.max (15 * second) (o_freeDelay o) - delta <= en_time e2)%Z.
Proof.
  intros HR Hsw Hh H1 H2 Hp Hc. destruct (o_static o) as [st|] eqn:Hst0.
  { exfalso. destruct (reach_prefix _ _ _ h1 e1 (h2 ++ e2 :: h3) HR Hh) as (wa & wa' & HRa & HSa & _ & Ha & Ha').
    assert (Hcur : me_current (w_mem wa) = Some m) by (eapply loaded_current; [exact HSa|by rewrite Ha, Ha'|done]).
    assert (Hm : published (load_events (w_hist w)) m). { rewrite Hh, load_events_app. apply published_app. left. rewrite <- Ha. by eapply current_published. }
    apply (static_published_not_freed _ _ _ _ _ _ HR Hst0 Hm (holds_insts _ _ Hp)). rewrite Hh. change (h1 ++ e1 :: h2 ++ e2 :: h3) with (h1 ++ (e1 :: h2) ++ e2 :: h3). rewrite (assoc_L (++)). by apply (began_free _ _ _ _ _ H2). }
  pose proof (dynamic_distinct _ Hst0) as HD. pose proof (holds_insts _ _ Hp) as Hi. rewrite <- Hc in Hi.
  (* the world in which [m] was current *)
  destruct (reach_prefix _ _ _ h1 e1 (h2 ++ e2 :: h3) HR Hh) as (wa & wa' & HRa & HSa & _ & Ha & Ha').
  assert (Hcur : me_current (w_mem wa) = Some m).
  { eapply loaded_current; [exact HSa|by rewrite Ha, Ha'|done]. }
  (* the world in which OnFree was just called *)
  destruct (free_world _ _ _ (h1 ++ e1 :: h2) e2 h3 _ HR HD ltac:(by rewrite <- (assoc_L (++))) H2) as (wb' & HRb' & Hb' & Hnow & H0).
  assert (Hst : m ∈ stores (load_events (w_hist wb'))).
  { rewrite (after_loads _ _ _ (reach_basic _ _ _ HRa)), after_stores, Ha in Hcur. rewrite Hb', !load_events_app, !stores_app, !elem_of_app. left. left.
    destruct (last (stores (load_events h1))) as [m1|] eqn:Hl; [|done]. injection Hcur as ->. by apply last_Some_elem_of in Hl. }
  destruct (all_released _ _ _ _ _ HRb' HD Hst Hi H0) as [(jf & Hjf) Hall].
  assert (Hdyn : o_static o = None).
  { apply frees_in in Hjf as (thf & df & Hth & Htf). destruct (thread_spawned _ _ _ _ _ _ _ HRb' Hth Htf) as (en & Hen & Hwn & _). by eapply spawn_call. }
  (* the call that replaces [m] *)
  assert (Hs : exists es, es ∈ w_hist wb' /\ en_what es = Did (EvSpawnFree m (free_delay o)) /\
             forall en' m', en' ∈ h1 ++ [e1] -> en_thread en' = en_thread es -> en_what en' <> Did (EvStore m')).
  { destruct (first_split is_store (h2 ++ [e2])) as [Hno|(l1 & x & l2 & Hl & Hx & Hno)].
    - assert (Hcb : me_current (w_mem wb') = Some m).
      { rewrite (b_current _ _ _ (reach_basic _ _ _ HRb')), Hb'.
        replace ((h1 ++ e1 :: h2) ++ [e2]) with (h1 ++ [e1] ++ (h2 ++ [e2])) by (by rewrite <- (assoc_L (++))).
        rewrite (events_app h1), (events_app [e1]), !after_app', (no_stores_after _ Hno), (no_stores_after [e1]); [|by apply Forall_singleton; unfold is_store; rewrite H1].
        by rewrite <- Ha, <- (b_current _ _ _ (reach_basic _ _ _ HRa)). }
      destruct (midway_dec wb') as [Hmid|Hmid]; [|pose proof (current_alive _ _ _ _ _ HRb' HD Hcb Hmid Hi); lia].
      destruct (midway_spawn _ _ _ HRb' HD Hmid) as (j & om & d & _ & Hsp & Hcm & Hns & _). rewrite Hcb in Hcm. injection Hcm as <-.
      apply events_of_in in Hsp as (es & Hes & Hej & Hew). exists es. split; [done|]. destruct (spawn_call _ _ _ _ _ _ HRb' Hes Hew) as [-> _].
      rewrite free_delay_max. split; [done|].
      intros en' m' Hin Hj Hw'. rewrite Hej in Hj. assert (Hin' : EvStore m' ∈ events_of j (w_hist wb')).
      { apply events_of_in. exists en'. split_and!; try done. rewrite Hb'. apply elem_of_app. left. apply elem_of_app in Hin as [Hin|Hin]; apply elem_of_app; [by left|right]. apply elem_of_list_singleton in Hin as ->. left. }
      apply stores_in in Hin'. rewrite Hns in Hin'. by apply elem_of_nil in Hin'.
    - assert (Hhb : w_hist wb' = (h1 ++ e1 :: l1) ++ x :: l2).
      { rewrite Hb'. rewrite <- !(assoc_L (++)). cbn [app]. by rewrite Hl. }
      destruct (reach_prefix _ _ _ _ _ _ HRb' Hhb) as (wc & wc' & HRc & HSc & _ & Hhc & Hhc').
      assert (Hcc : me_current (w_mem wc) = Some m).
      { rewrite (b_current _ _ _ (reach_basic _ _ _ HRc)), Hhc. replace (h1 ++ e1 :: l1) with (h1 ++ [e1] ++ l1) by done.
        rewrite (events_app h1), (events_app [e1]), !after_app', (no_stores_after _ Hno), (no_stores_after [e1]); [|by apply Forall_singleton; unfold is_store; rewrite H1].
        by rewrite <- Ha, <- (b_current _ _ _ (reach_basic _ _ _ HRa)). }
      unfold is_store in Hx. destruct (en_what x) as [|ex] eqn:Hwx; [done|]. destruct ex; try done.
      destruct (store_spawned _ _ _ _ _ _ _ HRc HD HSc ltac:(by rewrite Hhc, Hhc') Hwx Hcc Hdyn) as (es & Hes & Hej & Hew & Hns).
      exists es. split_and!; [|done|].
      + rewrite Hhb. apply elem_of_app. left. by rewrite <- Hhc.
      + intros en' m' Hin Hj. apply Hns; [|by rewrite Hj]. rewrite Hhc. apply elem_of_app in Hin as [Hin|Hin]; apply elem_of_app; [by left|right]. apply elem_of_list_singleton in Hin as ->. left. }
  destruct Hs as (es & Hes & Hew & Hns).
  (* its release comes after the delay *)
  assert (Hlate : (en_time es + Z.max (15 * second) (o_freeDelay o) <= en_time e2)%Z).
  { destruct (spawn_thread _ _ _ _ _ _ HRb' Hes Hew) as (j & th & Hth & Htf & Hts). pose proof (Hall _ _ _ Hth Htf) as Hd.
    rewrite free_delay_max in Hd. lia. }
  (* it publishes after [e1], and in time *)
  assert (Hearly : (en_time e1 <= en_time es + delta)%Z).
  { assert (Hes' : es ∈ w_hist w). { rewrite Hh. rewrite Hb' in Hes. rewrite !elem_of_app, !elem_of_cons, !elem_of_app, elem_of_cons, elem_of_nil in *. tauto. }
    destruct (Hsw _ _ _ Hes' Hew) as [(en' & m' & Hin & Hj & Hw' & Ht)|Hn].
    - assert (Hpos : en' ∈ h2 ++ e2 :: h3).
      { rewrite Hh in Hin. apply elem_of_app in Hin as [Hin|Hin]; [|apply elem_of_cons in Hin as [->|Hin]; [|done]].
        - exfalso. eapply (Hns en' m'); try done. apply elem_of_app. by left.
        - rewrite H1 in Hw'. done. }
      apply elem_of_list_split in Hpos as (k1 & k2 & Hk). pose proof (hist_sorted _ _ _ h1 e1 k1 en' k2 HR ltac:(by rewrite Hh, Hk)). lia.
    - pose proof (b_time _ _ _ (reach_basic _ _ _ HR) e1 ltac:(rewrite Hh, elem_of_app; right; left)). lia. }
  lia.
Qed.

(** ** C57 *)
(** OnFree of a plugin instance begins (entry [e2]).  Every manager published before that holds this instance has been
    scheduled for release, at least the configured delay and 15 seconds earlier. *)
Theorem C57_OnFree_waits_for_all_holders o dir w m p h1 e2 h3 c : reach o dir w ->
  w_hist w = h1 ++ e2 :: h3 -> en_what e2 = Began ROnFree c -> EvStore m ∈ events h1 -> holds m p -> c_inst c = pl_inst p ->
  exists es d, es ∈ h1 /\ en_what es = Did (EvSpawnFree m d) /\ d = Z.max (15 * second) (o_freeDelay o) /\ (en_time es + d <= en_time e2)%Z.
Proof.
  intros HR Hh H2 Hst Hp Hc. destruct (o_static o) as [st|] eqn:Hst0.
  { exfalso. assert (Hm : published (load_events (w_hist w)) m).
    { apply stores_in, (stored_load _ _ _ _ HR). rewrite Hh, events_app. apply elem_of_app. by left. }
    apply (static_published_not_freed _ _ _ _ _ _ HR Hst0 Hm (holds_insts _ _ Hp)). rewrite Hh. by apply (began_free _ _ _ _ _ H2). }
  pose proof (dynamic_distinct _ Hst0) as HD. destruct (free_world _ _ _ _ _ _ _ HR HD Hh H2) as (wb & HRb & Hb & Hnow & H0).
  pose proof (holds_insts _ _ Hp) as Hi. rewrite <- Hc in Hi.
  assert (Hst' : m ∈ stores (load_events (w_hist wb))) by (eapply stored_load; [done|rewrite Hb, events_app; apply elem_of_app; by left]).
  destruct (all_released _ _ _ _ _ HRb HD Hst' Hi H0) as [(jf & Hjf) Hall].
  apply frees_in in Hjf as (thf & df & Hth & Htf). destruct (thread_spawned _ _ _ _ _ _ _ HRb Hth Htf) as (en & Hen & Hwn & Htn).
  destruct (spawn_call _ _ _ _ _ _ HRb Hen Hwn) as [Hd _]. exists en, df. split_and!; [|done|done|].
  - rewrite Hb in Hen. apply elem_of_app in Hen as [?|Hen]; [done|]. apply elem_of_list_singleton in Hen as ->. by rewrite H2 in Hwn.
  - pose proof (Hall _ _ _ Hth Htf). lia.
Qed.

(** ** C58 *)
(** In static mode no plugin of a published manager is ever freed, replaced or not. *)
Theorem C58_static_plugins_are_never_freed o st dir w m p : reach o dir w -> o_static o = Some st ->
  EvStore m ∈ events (w_hist w) -> holds m p -> pl_inst p ∉ begun ROnFree (w_hist w).
Proof.
  intros HR Hs Hst Hp. apply (static_published_not_freed o st dir w m _ HR Hs); [apply stores_in, (stored_load _ _ _ _ HR Hst)|by apply holds_insts].
Qed.
End Props.

(** ** Concrete cases *)
Definition swift_b (delta : Z) (w : world) : bool :=
  forallb (fun en => match en_what en with
    | Did (EvSpawnFree _ _) => existsb (fun en' => match en_what en' with Did (EvStore _) => Nat.eqb (en_thread en') (en_thread en) && (en_time en' <=? en_time en + delta)%Z | _ => false end) (w_hist w)
    | _ => true end) (w_hist w).
Lemma swift_check delta w : swift_b delta w = true -> swift delta w.
Proof.
  intros H en om d Hen Hw. left. unfold swift_b in H. rewrite forallb_forall in H. apply elem_of_list_In, H in Hen. rewrite Hw in Hen.
  apply existsb_exists in Hen as (en' & Hin & Hb). destruct (en_what en') as [|e] eqn:Hw'; [done|]. destruct e; try done.
  apply andb_true_iff in Hb as [Hj Ht]. apply Nat.eqb_eq in Hj. apply Z.leb_le in Ht. exists en', m. split_and!; try done. by apply elem_of_list_In.
Qed.
(** positions of calls of Current() answered by a manager that holds [i], with the times *)
Definition readings (i : inst) (w : world) : list (nat * Z) :=
  omap (fun x => match en_what (snd x) with Did (EvLoadCurrent (Some m)) => if existsb (fun p => N.eqb (pl_inst p) i) (Plugins m) then Some (fst x, en_time (snd x)) else None | _ => None end)
    (imap (fun n en => (n, en)) (w_hist w)).
Definition freeings (i : inst) (w : world) : list (nat * Z) :=
  omap (fun x => match en_what (snd x) with Began ROnFree c => if N.eqb (c_inst c) i then Some (fst x, en_time (snd x)) else None | _ => None end)
    (imap (fun n en => (n, en)) (w_hist w)).
(** Three plugins: one stays; instances 2, 3, 4 were replaced.  Entries 102, 157, 228 of the history are readings of the
    current manager; 235, 239, 243 are the calls of OnFree, 400 seconds later. *)
Example C56_case : reach dyn "/p" busy /\ swift 0 busy /\
  map (fun i => (readings i busy, freeings i busy)) [1; 2; 3; 4]%N =
    [([(102%nat, 0%Z); (157%nat, 0%Z); (228%nat, 0%Z)], []);
     ([(102%nat, 0%Z); (157%nat, 0%Z)], [(243%nat, (400 * second)%Z)]);
     ([(102%nat, 0%Z)], [(239%nat, (400 * second)%Z)]);
     ([(157%nat, 0%Z)], [(235%nat, (400 * second)%Z)])].
Proof. split_and!; [apply busy_reach|apply swift_check; vm_compute; reflexivity|vm_compute; reflexivity]. Qed.
(** [C57]: instance 2 was in two managers; both had been scheduled for release. *)
Example C57_case : reach dyn "/p" busy /\ freeings 2%N busy = [(243%nat, (400 * second)%Z)] /\
  omap (fun en => match en_what en with Did (EvSpawnFree m d) => Some (map pl_inst (Plugins m), d, en_time en) | _ => None end) (take 243 (w_hist busy)) =
    [([1%N; 2%N; 3%N], Z.max (15 * second) (o_freeDelay dyn), 0%Z); ([1%N; 2%N; 4%N], Z.max (15 * second) (o_freeDelay dyn), 0%Z)].
Proof. split_and!; [apply busy_reach|vm_compute; reflexivity..]. Qed.
(** [C58]: two loads in static mode, the second one replacing all three plugins; much later nothing has been freed. *)
Definition still_cmds : list cmd :=
  [SStart (TLoad (Call_LoadPlugins 77)); SRun world0 0 400; SStart (TLoad (Call_LoadPlugins 78)); SRun world0 1 400; STime (400 * second); SRun world0 2 400].
Definition still : world := sched stat still_cmds (initially "/p").
Example C58_case : reach stat "/p" still /\ o_static stat <> None /\
  omap (fun e => match e with EvStore m => Some (map pl_inst (Plugins m)) | _ => None end) (events (w_hist still)) = [[1; 2; 3]; [4; 5; 6]]%N /\
  length (w_threads still) = 2%nat.
Proof.
  split_and!; [|done|vm_compute; reflexivity..].
  apply sched_reach. unfold still_cmds. repeat apply Forall_cons_2; try exact I; try apply Forall_nil_2; unfold cmd_ok; apply world0_ok.
Qed.
(** the same with two registrations whose names differ in case only *)
Definition still_variants : world := sched stat_variants still_cmds (initially "/p").
Example C58_variants_case : reach stat_variants "/p" still_variants /\ o_static stat_variants <> None /\
  omap (fun e => match e with EvStore m => Some (map pl_inst (Plugins m)) | _ => None end) (events (w_hist still_variants)) = [[2; 3]; [5; 6]]%N /\
  length (w_threads still_variants) = 2%nat.
Proof.
  split_and!; [|done|vm_compute; reflexivity..].
  apply sched_reach. unfold still_cmds. repeat apply Forall_cons_2; try exact I; try apply Forall_nil_2; unfold cmd_ok; apply world0_ok.
Qed.
Print Assumptions C56_grace_period.
Print Assumptions C57_OnFree_waits_for_all_holders.
Print Assumptions C58_static_plugins_are_never_freed.
