(** Static mode: nothing that has been published is ever freed, however the plugins are registered *)
From Verif Require Export ConcApi.

Section Proofs.
Context {E : GoEnv}.

(** ** One call *)
Lemma insert_all_insts ps i : i ∈ map pl_inst (mplugins (insert_all ps ∅)) -> i ∈ map pl_inst ps.
Proof.
  intros Hi. apply elem_of_list_fmap in Hi as (p & -> & Hp). unfold mplugins in Hp. apply elem_of_list_fmap in Hp as ([k q] & -> & Hk).
  apply elem_of_map_to_list in Hk. apply insert_all_elem in Hk as [[Hq _]|Hk]; [by apply elem_of_list_fmap_1|by rewrite lookup_empty in Hk].
Qed.
Lemma insert_all_nodup ps : NoDup (map pl_inst ps) -> NoDup (map pl_inst (mplugins (insert_all ps ∅))).
Proof.
  intros Hn. unfold mplugins. rewrite map_map. pose proof (NoDup_map_to_list (insert_all ps ∅)) as HL.
  assert (HK : forall x, x ∈ map_to_list (insert_all ps ∅) -> snd x ∈ ps /\ fst x = name2key (pl_name (snd x))).
  { intros [k p] Hk. apply elem_of_map_to_list in Hk. apply insert_all_elem in Hk as [[Hq Hk]|Hk]; [by split|by rewrite lookup_empty in Hk]. }
  assert (HI : forall p q, p ∈ ps -> q ∈ ps -> pl_inst p = pl_inst q -> p = q).
  { clear -Hn. induction ps as [|x ps IH]; [intros p q H; by apply elem_of_nil in H|]. cbn [map] in Hn. apply NoDup_cons in Hn as [Hx Hn]. intros p q [->|Hp]%elem_of_cons [->|Hq]%elem_of_cons Heq; [done|..|by apply IH].
    - destruct Hx. rewrite Heq. by apply elem_of_list_fmap_1.
    - destruct Hx. rewrite <- Heq. by apply elem_of_list_fmap_1. }
  revert HL HK. generalize (map_to_list (insert_all ps ∅)). intros l. induction l as [|x l IH]; intros HL HK; [constructor|]. cbn [map]. apply NoDup_cons in HL as [Hx HL]. constructor.
  - intros Hin. apply elem_of_list_fmap in Hin as (y & Hxy & Hy). destruct (HK x ltac:(left)) as [X1 X2], (HK y ltac:(by right)) as [Y1 Y2].
    apply Hx. assert (Heq : snd x = snd y) by (by apply HI). assert (x = y) as ->; [|done]. destruct x as [kx px], y as [ky py]. cbn in *. congruence.
  - apply IH; [done|]. intros y Hy. apply HK. by right.
Qed.
Lemma sgathered_insts sel s t s1 i : sgathered sel s t s1 -> i ∈ insts s1 -> i ∈ created t.
Proof.
  intros (now & ps & ts & Hall & -> & ->) Hi. apply sopened_all_facts in Hall as (_ & A2 & _). change (created (EvNow now :: concat ts)) with (created (concat ts)). rewrite A2.
  by apply insert_all_insts.
Qed.
Lemma sbody_insts sel data s t s' ob i : blank_mgr s -> sbody_ran sel data s t s' ob -> i ∈ insts s' -> i ∈ created t.
Proof.
  intros Hb [Hg|(t1 & t2 & s1 & -> & Hg & Hl)] Hi.
  - destruct Hg as (now & n1 & name & n2 & ps & ts & tl & _ & Hall & -> & -> & _). apply sopened_all_facts in Hall as (_ & A2 & _).
    change (created (EvNow now :: concat ts ++ tl)) with (created (concat ts ++ tl)). rewrite created_app, A2. apply elem_of_app. left. by apply insert_all_insts.
  - destruct (sgathered_facts _ _ _ _ Hb Hg) as (G1 & G2 & G3 & _). apply lifecycle_noref in Hl as (_ & _ & _ & HP); [|done..].
    rewrite created_app. apply elem_of_app. left. eapply sgathered_insts; [done|]. unfold insts in *. by rewrite <- HP.
Qed.
Lemma sbody_nodup sel data s t s' ob : blank_mgr s -> sbody_ran sel data s t s' ob -> NoDup (created t) -> NoDup (insts s').
Proof.
  intros Hb [Hg|(t1 & t2 & s1 & -> & Hg & Hl)] Hi.
  - destruct Hg as (now & n1 & name & n2 & ps & ts & tl & _ & Hall & -> & -> & _). apply sopened_all_facts in Hall as (_ & A2 & _).
    change (created (EvNow now :: concat ts ++ tl)) with (created (concat ts ++ tl)) in Hi. rewrite created_app, A2 in Hi. apply NoDup_app in Hi as (Hi & _). by apply insert_all_nodup.
  - destruct (sgathered_facts _ _ _ _ Hb Hg) as (G1 & G2 & G3 & _). apply lifecycle_noref in Hl as (_ & _ & _ & HP); [|done..].
    rewrite created_app in Hi. apply NoDup_app in Hi as (Hi & _). unfold insts. rewrite HP. destruct Hg as (now & ps & ts & Hall & -> & ->). apply sopened_all_facts in Hall as (_ & A2 & _).
    change (created (EvNow now :: concat ts)) with (created (concat ts)) in Hi. rewrite A2 in Hi. by apply insert_all_nodup.
Qed.
Lemma released_nodup m t : released m t -> NoDup (insts m) -> NoDup (decrements t).
Proof. intros HR Hn. destruct (released_facts _ _ HR) as (ps & Hrf & HP & _). rewrite (rf_dec _ _ _ _ _ Hrf), HP. exact Hn. Qed.
Lemma released_insts m t i : released m t -> i ∈ decrements t -> i ∈ insts m.
Proof.
  intros HR Hi. destruct (released_facts _ _ HR) as (ps & Hrf & HP & _). rewrite (rf_dec _ _ _ _ _ Hrf) in Hi. unfold insts. by rewrite <- HP.
Qed.
(** what a call gives up it has made itself, and it publishes nothing; what it publishes it has made itself *)
Lemma static_call o st h cur a t r : next_call o h cur (api_prog o a) t r -> o_static o = Some st ->
  (forall i, i ∈ decrements t -> no_publish t /\ i ∈ created t /\ NoDup (decrements t)) /\ (forall m i, published t m -> i ∈ insts m -> i ∈ created t).
Proof.
  intros HN Hst. assert (Hfr : NoDup (created t)). { destruct HN as (_ & _ & _ & _ & Hfr). unfold fresh_objects in Hfr. rewrite created_app in Hfr. by apply NoDup_app in Hfr as (_ & _ & ?). } destruct (next_static _ _ _ _ _ _ _ HN Hst) as [(data & tb & -> & -> & Hs)|(data & extra & -> & -> & ->)].
  2:{ split; [intros i Hi; by apply elem_of_nil in Hi|intros m i Hm; by apply elem_of_nil in Hm]. }
  split.
  - assert (Hd : decrements (EvLock :: tb ++ [EvUnlock]) = decrements tb).
    { change (EvLock :: tb ++ [EvUnlock]) with ([EvLock] ++ tb ++ [EvUnlock]). rewrite !decrements_app. apply app_nil_r. }
    assert (Hc : created (EvLock :: tb ++ [EvUnlock]) = created tb).
    { change (EvLock :: tb ++ [EvUnlock]) with ([EvLock] ++ tb ++ [EvUnlock]). rewrite !created_app. apply app_nil_r. }
    intros i Hi. rewrite Hc, Hd. rewrite Hd in Hi. rewrite Hc in Hfr. clear HN Hd Hc.
    assert (Hx : (i ∈ created tb /\ NoDup (decrements tb)) /\ no_publish tb).
    { destruct Hs as [mid dn x Hb Hx|tn s name Hm Hw Hin Hno Hl|tn s sel tl s' e Hm Hh Hsel Hf Hpr Hl|tn s sel tl new tc e Hm Hh Hsel Hf Hpr Hl Hcb|tn s sel tl new Hm Hh Hsel Hf Hpr Hl].
      - by apply elem_of_nil in Hi.
      - destruct (silent_made _ _ _ Hm) as (_ & _ & A3 & _). rewrite A3 in Hi. by apply elem_of_nil in Hi.
      - split; [|apply no_publish_app; [by eapply made_no_publish|by apply private_no_publish]].
        destruct (silent_made _ _ _ Hm) as (_ & _ & A3 & _). destruct Hl as (tb & tf & ob & -> & _ & _ & Hbody & Hrel & D1 & _). rewrite !decrements_app, A3, D1 in *. cbn [app] in *. split; [|rewrite !created_app in Hfr; apply NoDup_app in Hfr as (_ & _ & Hfr); apply NoDup_app in Hfr as (Hfr & _); eapply released_nodup; [exact Hrel|eapply sbody_nodup; [apply Hm|done|done]]].
        rewrite !created_app. apply elem_of_app. right. apply elem_of_app. left. eapply sbody_insts; [apply Hm|done|by eapply released_insts].
      - split; [|apply no_publish_app; [by eapply made_no_publish|]; apply no_publish_app; [by apply private_no_publish|by eapply callback_failed_no_publish]].
        destruct (silent_made _ _ _ Hm) as (_ & _ & A3 & _). destruct Hcb as (c1 & cb & c2 & r0 & tf & _ & -> & _ & Hrel).
        destruct (static_ok_quiet _ _ _ _ _ (proj1 Hm) Hl) as [Hdl _].
        destruct (silent_accepted new None c1) as (_ & _ & B3 & _). change (EvCallback cb new None r0 :: tf) with ([EvCallback cb new None r0] ++ tf) in Hi. rewrite !decrements_app, A3, Hdl, B3 in Hi.
        split; [|change (EvCallback cb new None r0 :: tf) with ([EvCallback cb new None r0] ++ tf); rewrite !decrements_app, A3, Hdl, B3; change (NoDup (decrements tf)); rewrite !created_app in Hfr; apply NoDup_app in Hfr as (_ & _ & Hfr); apply NoDup_app in Hfr as (Hfr & _); eapply released_nodup; [exact Hrel|eapply sbody_nodup; [apply Hm|right; exact Hl|done]]].
        rewrite !created_app. apply elem_of_app. right. apply elem_of_app. left. eapply sbody_insts; [apply Hm|right; exact Hl|]. eapply released_insts; [exact Hrel|]. exact Hi.
      - exfalso. destruct (silent_made _ _ _ Hm) as (_ & _ & A3 & _). destruct (static_ok_quiet _ _ _ _ _ (proj1 Hm) Hl) as [Hdl _].
        destruct (silent_accepted new None (somes [o_reloadCallback o])) as (_ & _ & B3 & _). rewrite !decrements_app, A3, Hdl, B3 in Hi. by apply elem_of_nil in Hi. }
    destruct Hx as [[Hx Hnd] Hn]. split_and!; [|done|done]. constructor; [done|]. apply no_publish_app; [done|repeat constructor].
  - intros m i Hm Hi. destruct (spub_inv _ _ _ _ _ _ _ _ Hst HN Hm) as (data' & sel & s & tn & tl & P). destruct (spub_events _ _ _ _ _ _ _ _ _ _ _ P) as (_ & _ & _ & -> & _).
    eapply sbody_insts; [apply (proj1 (spub_made _ _ _ _ _ _ _ _ _ _ _ P))|right; exact (spub_ok _ _ _ _ _ _ _ _ _ _ _ P)|done].
Qed.

(** ** Many goroutines *)
(** a load call that has done anything is complete or running *)
Lemma load_status o dir w j th a e : reach o dir w -> w_threads w !! j = Some th -> th_task th = TLoad a -> e ∈ events_of j (w_hist w) ->
  (exists l1 l2 r, unlockers (w_hist w) = l1 ++ j :: l2 /\ next_call o (calls_of (w_hist w) l1) (after None (calls_of (w_hist w) l1)) (api_prog o a) (events_of j (w_hist w)) r) \/
  (me_lock (w_mem w) = Some j /\ exists t' r, next_call o (calls_of (w_hist w) (unlockers (w_hist w))) (after None (calls_of (w_hist w) (unlockers (w_hist w)))) (api_prog o a) (events_of j (w_hist w) ++ t') r).
Proof.
  intros HR Hth Ht Hin. destruct (reach_serial _ _ _ HR) as (h & HS). destruct (decide (me_lock (w_mem w) = Some j)) as [Hlk|Hlk].
  - right. destruct (running_call _ _ _ _ HR Hlk) as (th' & a' & t' & r & Hth' & Ha' & _ & HN). rewrite Hth in Hth'. injection Hth' as <-. rewrite Ht in Ha'. injection Ha' as <-. by eauto.
  - left. destruct (s_idle _ _ _ HS _ _ _ Hth Ht Hlk) as [Hz|Hz]; [rewrite Hz in Hin; by apply elem_of_nil in Hin|]. apply unlockers_in in Hz. apply elem_of_list_split in Hz as (l1 & l2 & Hz).
    destruct (complete_call _ _ _ _ _ _ HR Hz) as (th' & a' & r & Hth' & Ha' & _ & HN). rewrite Hth in Hth'. injection Hth' as <-. rewrite Ht in Ha'. injection Ha' as <-. eauto 10.
Qed.
(** a release is scheduled by a load call in dynamic mode, with the delay configured *)
Lemma spawn_call o dir w en om d : reach o dir w -> en ∈ w_hist w -> en_what en = Did (EvSpawnFree om d) ->
  d = Z.max (15 * second) (o_freeDelay o) /\ o_static o = None.
Proof.
  intros HR Hen Hw. assert (Hin : EvSpawnFree om d ∈ events_of (en_thread en) (w_hist w)) by (apply events_of_in; by exists en).
  destruct (b_index _ _ _ (reach_basic _ _ _ HR) _ Hen) as (th & Hth & Hta).
  pose proof (b_thread _ _ _ (reach_basic _ _ _ HR) _ _ Hth) as HP.
  destruct (is_load (th_task th)) eqn:Hl.
  2:{ eapply (partial_forall _ _ _ other_event) in HP; [|intros t r; by apply other_task]. rewrite Forall_forall in HP. by apply HP in Hin. }
  destruct (th_task th) as [a| | | | |] eqn:Ht; try done.
  assert (Hcall : exists h cur t r, next_call o h cur (api_prog o a) t r /\ EvSpawnFree om d ∈ t).
  { destruct (reach_serial _ _ _ HR) as (h & HS). destruct (decide (me_lock (w_mem w) = Some (en_thread en))) as [Hlk|Hlk].
    - destruct (running_call _ _ _ _ HR Hlk) as (th' & a' & t' & r & Hth' & Ha' & _ & HN). rewrite Hth in Hth'. injection Hth' as <-. rewrite Ht in Ha'. injection Ha' as <-. eexists _, _, _, r. split; [exact HN|]. apply elem_of_app. by left.
    - destruct (s_idle _ _ _ HS _ _ _ Hth Ht Hlk) as [Hz|Hz]; [rewrite Hz in Hin; by apply elem_of_nil in Hin|]. apply unlockers_in in Hz. apply elem_of_list_split in Hz as (l1 & l2 & Hz).
      destruct (complete_call _ _ _ _ _ _ HR Hz) as (th' & a' & r & Hth' & Ha' & _ & HN). rewrite Hth in Hth'. injection Hth' as <-. rewrite Ht in Ha'. injection Ha' as <-. eauto 10. }
  destruct Hcall as (h & cur & t & r & HN & Hint). pose proof (C24_one_release_per_replacement _ _ _ _ _ _ HN) as Hrel.
  assert (Hr : (om, d) ∈ releases t). { unfold releases. apply elem_of_list_omap. by exists (EvSpawnFree om d). }
  rewrite Hrel in Hr. destruct r as [[x|]| |]; try (by apply elem_of_nil in Hr). destruct (o_static o); [by apply elem_of_nil in Hr|]. destruct cur; [|by apply elem_of_nil in Hr].
  apply elem_of_list_singleton in Hr. by injection Hr as -> ->.
Qed.
(** a release goroutine was started by a load call *)
Lemma thread_spawned o dir w j th m d : reach o dir w -> w_threads w !! j = Some th -> th_task th = TFree m d ->
  exists en, en ∈ w_hist w /\ en_what en = Did (EvSpawnFree m d) /\ en_time en = th_start th.
Proof.
  intros HR Hth Ht. assert (Hin : (m, d, th_start th) ∈ omap free_start (w_threads w)).
  { apply elem_of_list_omap. exists th. split; [by eapply elem_of_list_lookup_2|]. unfold free_start. by rewrite Ht. }
  rewrite (reach_starts _ _ _ HR) in Hin. apply elem_of_list_omap in Hin as (en & Hen & Hs). exists en. unfold spawn_at in Hs.
  destruct (en_what en) as [|e]; [done|]. destruct e; try done. by injection Hs as -> -> ->.
Qed.

Lemma no_release_thread o st dir w j th m d : reach o dir w -> o_static o = Some st -> w_threads w !! j = Some th -> th_task th <> TFree m d.
Proof.
  intros HR Hst Hth Ht. destruct (thread_spawned _ _ _ _ _ _ _ HR Hth Ht) as (en & Hen & Hw & _). destruct (spawn_call _ _ _ _ _ _ HR Hen Hw) as [_ Hn]. congruence.
Qed.
(** references are given up by load calls only *)
Lemma static_dec o st dir w j mid i v : reach o dir w -> o_static o = Some st -> EvRefDec mid i v ∈ events_of j (w_hist w) ->
  exists th a, w_threads w !! j = Some th /\ th_task th = TLoad a.
Proof.
  intros HR Hst Hin. assert (Hin' := Hin). apply events_of_in in Hin' as (en & Hen & Hj & Hw).
  destruct (b_index _ _ _ (reach_basic _ _ _ HR) _ Hen) as (th & Hth & Hta). rewrite Hj in Hth. exists th.
  destruct (is_load (th_task th)) eqn:Hl; [by destruct (th_task th); try done; eauto|exfalso].
  assert (HF : Forall (fun e => weight i e = 0%Z) (events_of j (w_hist w))).
  { eapply partial_forall; [exact (b_thread _ _ _ (reach_basic _ _ _ HR) _ _ Hth)|]. intros t r. apply refless_task; [done|]. intros m d. by eapply no_release_thread. }
  rewrite Forall_forall in HF. apply HF in Hin. cbn [weight] in Hin. by rewrite decide_True in Hin.
Qed.
Lemma created_ending t : Forall ending t -> created t = [].
Proof. intros H. apply omap_none. eapply Forall_impl; [exact H|]. by intros []. Qed.

Lemma running_fresh o w a t r j l1 l2 i : next_call o (calls_of (w_hist w) (unlockers (w_hist w))) (after None (calls_of (w_hist w) (unlockers (w_hist w)))) (api_prog o a) t r ->
  unlockers (w_hist w) = l1 ++ j :: l2 -> i ∈ created (events_of j (w_hist w)) -> i ∈ created t -> False.
Proof.
  intros HN Hu Hc2 Hc1. destruct HN as (_ & _ & _ & _ & Hfr). unfold fresh_objects in Hfr. rewrite created_app in Hfr. apply NoDup_app in Hfr as (_ & Hfr & _). apply (Hfr i); [|done].
  rewrite Hu, calls_of_app, created_app. apply elem_of_app. right. change (calls_of (w_hist w) (j :: l2)) with (events_of j (w_hist w) ++ calls_of (w_hist w) l2).
  rewrite created_app. apply elem_of_app. by left.
Qed.
(** nobody else gives up what a load call has given up, and it does so once *)
Lemma static_dec_once o st dir w n1 n2 e1 e2 mid1 mid2 i v1 v2 : reach o dir w -> o_static o = Some st -> w_hist w !! n1 = Some e1 -> w_hist w !! n2 = Some e2 ->
  en_what e1 = Did (EvRefDec mid1 i v1) -> en_what e2 = Did (EvRefDec mid2 i v2) -> (n2 <= n1)%nat.
Proof.
  intros HR Hst H1 H2 W1 W2. destruct (decide (n2 <= n1)%nat) as [?|Hgt]; [done|exfalso].
  assert (I1 : EvRefDec mid1 i v1 ∈ events_of (en_thread e1) (w_hist w)) by (apply events_of_in; exists e1; split_and!; [by eapply elem_of_list_lookup_2|done|done]).
  assert (I2 : EvRefDec mid2 i v2 ∈ events_of (en_thread e2) (w_hist w)) by (apply events_of_in; exists e2; split_and!; [by eapply elem_of_list_lookup_2|done|done]).
  assert (D1 : forall t', i ∈ decrements (events_of (en_thread e1) (w_hist w) ++ t')). { intros t'. rewrite decrements_app. apply elem_of_app. left. apply elem_of_list_omap. by exists (EvRefDec mid1 i v1). }
  assert (D2 : forall t', i ∈ decrements (events_of (en_thread e2) (w_hist w) ++ t')). { intros t'. rewrite decrements_app. apply elem_of_app. left. apply elem_of_list_omap. by exists (EvRefDec mid2 i v2). }
  destruct (static_dec _ _ _ _ _ _ _ _ HR Hst I1) as (th1 & a1 & Hth1 & Ht1). destruct (static_dec _ _ _ _ _ _ _ _ HR Hst I2) as (th2 & a2 & Hth2 & Ht2).
  destruct (decide (en_thread e1 = en_thread e2)) as [Hj|Hj].
  - assert (Hnd : NoDup (decrements (events_of (en_thread e1) (w_hist w)))).
    { destruct (load_status _ _ _ _ _ _ _ HR Hth1 Ht1 I1) as [(l1 & l2 & r & _ & HN)|(_ & t' & r & HN)].
      - rewrite <- (app_nil_r (events_of (en_thread e1) (w_hist w))) in HN. destruct (proj1 (static_call _ _ _ _ _ _ _ HN Hst) i (D1 _)) as (_ & _ & Hnd). by rewrite app_nil_r in Hnd.
      - destruct (proj1 (static_call _ _ _ _ _ _ _ HN Hst) i (D1 _)) as (_ & _ & Hnd). rewrite decrements_app in Hnd. by apply NoDup_app in Hnd as (? & _). }
    rewrite <- (take_drop n2 (w_hist w)), events_of_app, decrements_app in Hnd. apply NoDup_app in Hnd as (_ & Hnd & _). apply (Hnd i).
    + apply elem_of_list_omap. exists (EvRefDec mid1 i v1). split; [|done]. apply events_of_in. exists e1. split_and!; [|done|done]. apply elem_of_list_lookup. exists n1. rewrite lookup_take by lia. done.
    + apply elem_of_list_omap. exists (EvRefDec mid2 i v2). split; [|done]. apply events_of_in. exists e2. split_and!; [|done|done]. apply elem_of_list_lookup. exists 0%nat. rewrite lookup_drop, Nat.add_0_r. done.
  - destruct (load_status _ _ _ _ _ _ _ HR Hth1 Ht1 I1) as [(l1 & l1' & r1 & U1 & N1)|(Hlk1 & t1 & r1 & N1)];
      destruct (load_status _ _ _ _ _ _ _ HR Hth2 Ht2 I2) as [(l2 & l2' & r2 & U2 & N2)|(Hlk2 & t2 & r2 & N2)]; [| | |congruence].
    + rewrite <- (app_nil_r (events_of (en_thread e1) (w_hist w))) in N1. rewrite <- (app_nil_r (events_of (en_thread e2) (w_hist w))) in N2.
      destruct (proj1 (static_call _ _ _ _ _ _ _ N1 Hst) i (D1 _)) as (_ & C1 & _). destruct (proj1 (static_call _ _ _ _ _ _ _ N2 Hst) i (D2 _)) as (_ & C2 & _). rewrite app_nil_r in C1, C2.
      apply elem_of_list_omap in C1 as (x1 & E1 & F1). apply elem_of_list_omap in C2 as (x2 & E2 & F2). apply Hj. apply (omap_thread new_inst _ _ _ _ _ i (b_created _ _ _ (reach_basic _ _ _ HR)) E1 E2 F1 F2).
    + rewrite <- (app_nil_r (events_of (en_thread e1) (w_hist w))) in N1. destruct (proj1 (static_call _ _ _ _ _ _ _ N1 Hst) i (D1 _)) as (_ & C1 & _). destruct (proj1 (static_call _ _ _ _ _ _ _ N2 Hst) i (D2 _)) as (_ & C2 & _). rewrite app_nil_r in C1.
      eapply running_fresh; [exact N2|exact U1|exact C1|exact C2].
    + rewrite <- (app_nil_r (events_of (en_thread e2) (w_hist w))) in N2. destruct (proj1 (static_call _ _ _ _ _ _ _ N1 Hst) i (D1 _)) as (_ & C1 & _). destruct (proj1 (static_call _ _ _ _ _ _ _ N2 Hst) i (D2 _)) as (_ & C2 & _). rewrite app_nil_r in C2.
      eapply running_fresh; [exact N1|exact U2|exact C2|exact C1].
Qed.

(** a plugin of a published manager loses no reference *)
Lemma static_published_kept o st dir w m i mid v : reach o dir w -> o_static o = Some st -> published (load_events (w_hist w)) m -> i ∈ insts m ->
  EvRefDec mid i v ∉ events (w_hist w).
Proof.
  intros HR Hst Hm Hi Hdec. apply events_in in Hdec as (en & Hen & Hw).
  assert (Hin : EvRefDec mid i v ∈ events_of (en_thread en) (w_hist w)) by (apply events_of_in; by exists en). clear Hen Hw. generalize dependent (en_thread en). clear en. intros j1 Hin.
  destruct (published_load _ _ _ _ HR Hm) as (j2 & th2 & a2 & h2 & t2 & r2 & Hth2 & Hta2 & HN2 & Hp2 & He2 & _).
  destruct (static_call _ _ _ _ _ _ _ HN2 Hst) as [SA SB].
  assert (Hpub : published (events_of j2 (w_hist w) ++ t2) m) by (apply published_app; by left).
  assert (Hc2 : i ∈ created (events_of j2 (w_hist w))).
  { specialize (SB _ _ Hpub Hi). by rewrite created_app, (created_ending _ He2), app_nil_r in SB. }
  destruct (decide (j1 = j2)) as [->|Hne].
  { destruct (SA i) as [Hnp _]; [|by eapply no_publish_not]. rewrite decrements_app. apply elem_of_app. left. apply elem_of_list_omap. by exists (EvRefDec mid i v). }
  destruct (static_dec _ _ _ _ _ _ _ _ HR Hst Hin) as (th1 & a1 & Hth1 & Hta1).
  assert (Hc1 : forall h c t' r, next_call o h c (api_prog o a1) (events_of j1 (w_hist w) ++ t') r -> i ∈ created (events_of j1 (w_hist w) ++ t')).
  { intros h c t' r HN. apply (proj1 (static_call _ _ _ _ _ _ _ HN Hst)). rewrite decrements_app. apply elem_of_app. left. apply elem_of_list_omap. by exists (EvRefDec mid i v). }
  destruct (load_status _ _ _ _ _ _ _ HR Hth1 Hta1 Hin) as [(l1 & l2 & r & _ & HN)|(Hlk & t' & r & HN)].
  - rewrite <- (app_nil_r (events_of j1 (w_hist w))) in HN. specialize (Hc1 _ _ _ _ HN). rewrite app_nil_r in Hc1.
    apply elem_of_list_omap in Hc1 as (e1 & E1 & F1). apply elem_of_list_omap in Hc2 as (e2 & E2 & F2).
    apply Hne. apply (omap_thread new_inst _ _ _ _ _ i (b_created _ _ _ (reach_basic _ _ _ HR)) E1 E2 F1 F2).
  - specialize (Hc1 _ _ _ _ HN). apply elem_of_list_omap in Hc2 as (e2 & E2 & F2).
    destruct (load_status _ _ _ _ _ _ _ HR Hth2 Hta2 E2) as [(l1 & l2 & r' & Hu & _)|[Hlk' _]]; [|congruence].
    eapply running_fresh; [exact HN|exact Hu| |exact Hc1]. apply elem_of_list_omap. by exists e2.
Qed.
Lemma static_published_not_freed o st dir w m i : reach o dir w -> o_static o = Some st -> published (load_events (w_hist w)) m -> i ∈ insts m ->
  i ∉ begun ROnFree (w_hist w).
Proof.
  intros HR Hst Hm Hi Hb. apply (bg_once _ (reach_begins _ _ _ HR)) in Hb. destruct (once_dropped _ _ _ _ HR Hb) as (mid & v & Hin & _). by eapply static_published_kept.
Qed.
Lemma began_free h1 en h2 c i : en_what en = Began ROnFree c -> c_inst c = i -> i ∈ begun ROnFree (h1 ++ en :: h2).
Proof.
  intros Hw <-. change (en :: h2) with ([en] ++ h2). rewrite !begun_app, !elem_of_app. right. left. unfold begun. cbn [omap list_omap]. rewrite Hw. rewrite decide_True by done. left.
Qed.
(** every manager that has been current was published *)
Lemma current_published o dir w m : reach o dir w -> me_current (w_mem w) = Some m -> published (load_events (w_hist w)) m.
Proof.
  intros HR Hc. rewrite (after_loads _ _ _ (reach_basic _ _ _ HR)), after_stores in Hc.
  destruct (last (stores (load_events (w_hist w)))) as [m1|] eqn:Hl; [|done]. injection Hc as ->. by apply stores_in, last_Some_elem_of.
Qed.
(** in dynamic mode there are no registrations *)
Lemma dynamic_distinct o : o_static o = None -> distinct_registrations o.
Proof. intros H st Hs. congruence. Qed.
End Proofs.
