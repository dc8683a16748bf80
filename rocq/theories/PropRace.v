(** C75: what happens before what; data races. *)
From Verif Require Export PropGrace PropOrder.

Section Props.
Context {E : GoEnv}.

(** ** Specification: the happens-before relation of the Go memory model, on the positions of a history *)
Definition stores_at (h : list entry) (n : nat) (m : mgr) : Prop := exists en, h !! n = Some en /\ en_what en = Did (EvStore m).
(** an atomic read-modify-write of the reference count of [i] *)
Definition counts (i : inst) (en : entry) : Prop :=
  match en_what en with Did (EvRefInc _ i' _) | Did (EvRefDec _ i' _) => i' = i | _ => False end.
Inductive before (h : list entry) : nat -> nat -> Prop :=
  (** the order of one goroutine *)
  | before_program n1 n2 e1 e2 : h !! n1 = Some e1 -> h !! n2 = Some e2 -> (n1 < n2)%nat -> en_thread e1 = en_thread e2 -> before h n1 n2
  (** mutex: unlocking happens before every later locking *)
  | before_lock n1 n2 e1 e2 : h !! n1 = Some e1 -> h !! n2 = Some e2 -> (n1 < n2)%nat -> en_what e1 = Did EvUnlock -> en_what e2 = Did EvLock -> before h n1 n2
  (** atomic value: a store happens before a load that observes it *)
  | before_current n1 n2 e1 e2 m : h !! n1 = Some e1 -> h !! n2 = Some e2 -> (n1 < n2)%nat -> en_what e1 = Did (EvStore m) -> en_what e2 = Did (EvLoadCurrent (Some m)) ->
      (forall n m', (n1 < n < n2)%nat -> ~ stores_at h n m') -> before h n1 n2
  (** atomic counter: an update of the reference count of a plugin happens before the later ones *)
  | before_count n1 n2 e1 e2 i : h !! n1 = Some e1 -> h !! n2 = Some e2 -> (n1 < n2)%nat -> counts i e1 -> counts i e2 -> before h n1 n2
  (** go statement: starting the release of a manager happens before what the release goroutine does *)
  | before_go n1 n2 e1 e2 m d : h !! n1 = Some e1 -> h !! n2 = Some e2 -> (n1 < n2)%nat -> en_what e1 = Did (EvSpawnFree m d) -> en_task e2 = TFree m d -> before h n1 n2
  | before_trans n1 n2 n3 : before h n1 n2 -> before h n2 n3 -> before h n1 n3.

(** The goroutine of entry [n2] has the manager [m]: it is the release goroutine of [m], or has got [m] from Current() (also
    inside a load call). *)
Definition has_manager (h : list entry) (n2 : nat) (m : mgr) : Prop :=
  exists e2, h !! n2 = Some e2 /\ ((exists d, en_task e2 = TFree m d) \/
    exists n e, (n <= n2)%nat /\ h !! n = Some e /\ en_thread e = en_thread e2 /\ en_what e = Did (EvLoadCurrent (Some m))).

Lemma before_lt h n1 n2 : before h n1 n2 -> (n1 < n2)%nat.
Proof. induction 1; lia. Qed.

(** ** Positions *)
Lemma step_at o dir w n en : reach o dir w -> w_hist w !! n = Some en ->
  exists w1 w2, reach o dir w1 /\ step o w1 w2 /\ reach o dir w2 /\ rtc (step o) w2 w /\ w_hist w1 = take n (w_hist w) /\ w_hist w2 = take n (w_hist w) ++ [en].
Proof.
  intros HR Hn. destruct (reach_prefix o dir w (take n (w_hist w)) en (drop (S n) (w_hist w)) HR) as (w1 & w2 & H1 & H2 & H3 & H4 & H5); [by rewrite take_drop_middle|].
  exists w1, w2. split_and!; try done. by eapply reach_step.
Qed.
Lemma event_position j h e n : e ∈ events_of j (take n h) -> exists k en, (k < n)%nat /\ h !! k = Some en /\ en_thread en = j /\ en_what en = Did e.
Proof.
  intros H. apply events_of_in in H as (en & Hin & Hj & Hw). apply elem_of_list_lookup in Hin as (k & Hk). apply lookup_take_Some in Hk as [Hk Hlt]. eauto 10.
Qed.
Lemma position_event h n k en e : (k < n)%nat -> h !! k = Some en -> en_what en = Did e -> e ∈ events_of (en_thread en) (take n h).
Proof. intros Hlt Hk Hw. apply events_of_in. exists en. split_and!; [|done|done]. apply elem_of_list_lookup. exists k. by apply lookup_take_Some. Qed.
Lemma any_position h e n : e ∈ events (take n h) -> exists k en, (k < n)%nat /\ h !! k = Some en /\ en_what en = Did e.
Proof.
  intros H. unfold events in H. apply elem_of_list_omap in H as (en & Hin & Hd). apply elem_of_list_lookup in Hin as (k & Hk). apply lookup_take_Some in Hk as [Hk Hlt].
  exists k, en. split_and!; [done|done|]. unfold did in Hd. destruct (en_what en); congruence.
Qed.

Lemma same_task o dir w n1 n2 e1 e2 : reach o dir w -> w_hist w !! n1 = Some e1 -> w_hist w !! n2 = Some e2 -> en_thread e1 = en_thread e2 -> en_task e1 = en_task e2.
Proof.
  intros HR H1 H2 Hj. pose proof (reach_basic _ _ _ HR) as HB. destruct (b_index _ _ _ HB e1) as (th & Hth & Hta); [by eapply elem_of_list_lookup_2|].
  destruct (b_index _ _ _ HB e2) as (th2 & Hth2 & Hta2); [by eapply elem_of_list_lookup_2|]. congruence.
Qed.

(** ** Load calls *)
(** the event of an entry (a call that has only begun is completed), and how the goroutine might go on *)
Lemma entry_trace o dir w n en : reach o dir w -> w_hist w !! n = Some en ->
  exists e t' r, exec (task_prog o (en_task en)) (events_of (en_thread en) (take n (w_hist w)) ++ e :: t') r /\
    (en_what en = Did e \/ exists r c arg x, e = EvCall r c arg x /\ en_what en = Began r c).
Proof.
  intros HR Hn. destruct (step_at _ _ _ _ _ HR Hn) as (w1 & w2 & HR1 & Hs & HR2 & _ & Hh1 & Hh2).
  destruct Hs as [w1 k Hk|w1 now Hle|w1 j th X b k r c Hth Hp Hc Hcl|w1 j th X b k x Hth Hp Hc Hv Ha Hw]; cbn [w_hist] in *.
  - rewrite Hh1 in Hh2. apply (f_equal length) in Hh2. rewrite app_length in Hh2. cbn in Hh2. lia.
  - rewrite Hh1 in Hh2. apply (f_equal length) in Hh2. rewrite app_length in Hh2. cbn in Hh2. lia.
  - rewrite Hh1 in Hh2. apply app_inj_2 in Hh2 as [_ Hh2]; [|done]. injection Hh2 as Hen. subst en. cbn [en_task en_thread en_what] in *.
    pose proof (b_thread _ _ _ (reach_basic _ _ _ HR1) _ _ Hth) as HP. rewrite Hp, Hh1 in HP. set (x := some_answer None [] b).
    apply (partial_act _ _ _ _ x) in HP; [|apply some_answer_valid]. destruct (complete (k x) None []) as (t' & r' & Hex & _). apply HP in Hex.
    destruct b; try done. cbn [ev] in Hex. rewrite <- (assoc_L (++)) in Hex. eexists _, t', r'. split_and!; [exact Hex|]. right. injection Hc as -> ->. eauto 10.
  - rewrite Hh1 in Hh2. destruct (ev_one _ b x) as [Hz|(e & He)].
    { rewrite Hz in Hh2. cbn in Hh2. apply (f_equal length) in Hh2. rewrite !app_length in Hh2. cbn in Hh2. lia. }
    rewrite He in Hh2. cbn [map] in Hh2. apply app_inj_2 in Hh2 as [_ Hh2]; [|done]. injection Hh2 as Hen. subst en. cbn [en_task en_thread en_what] in *.
    pose proof (b_thread _ _ _ (reach_basic _ _ _ HR1) _ _ Hth) as HP. rewrite Hp, Hh1 in HP.
    apply (partial_act _ _ _ _ x) in HP; [|done]. rewrite He in HP. destruct (complete (k x) None []) as (t' & r' & Hex & _). apply HP in Hex.
    rewrite <- (assoc_L (++)) in Hex. cbn [app] in Hex. exists e, t', r'. split_and!; [exact Hex|by left].
Qed.
Lemma entry_shape o dir w n en : reach o dir w -> w_hist w !! n = Some en -> is_load (en_task en) = true ->
  exists a e t' r, en_task en = TLoad a /\ exec (api_prog o a) (events_of (en_thread en) (take n (w_hist w)) ++ e :: t') r /\
    (en_what en = Did e \/ exists r c arg x, e = EvCall r c arg x /\ en_what en = Began r c).
Proof.
  intros HR Hn Hl. destruct (entry_trace _ _ _ _ _ HR Hn) as (e & t' & r & Hex & He). destruct (en_task en) as [a| | | | |]; try done.
  apply exec_task_load in Hex as (r' & -> & Hex). exists a, e, t', r'. done.
Qed.
(** what an entry of a load call is: locking, or something between locking and unlocking *)
Lemma entry_cases o dir w n en : reach o dir w -> w_hist w !! n = Some en -> is_load (en_task en) = true ->
  (events_of (en_thread en) (take n (w_hist w)) = [] /\ en_what en = Did EvLock) \/
  (exists u, events_of (en_thread en) (take n (w_hist w)) = EvLock :: u /\ Forall unlocking u /\ en_what en <> Did EvLock).
Proof.
  intros HR Hn Hl. destruct (entry_shape _ _ _ _ _ HR Hn Hl) as (a & e & t' & r & _ & Hex & He).
  destruct (lock_shape _ _ _ _ _ _ _ Hex eq_refl) as [[Hz ->]|[(u & H1 & H2 & Hu & _)|(u & H1 & H2 & Hu & _)]].
  - left. split; [done|]. by destruct He as [He|(? & ? & ? & ? & ? & _)].
  - right. exists u. split_and!; [done|done|]. intros Hw. rewrite Hw in He. destruct He as [He|(? & ? & ? & ? & _ & He)]; [|done]. by injection He as <-.
  - right. exists u. split_and!; [done|done|]. intros Hw. rewrite Hw in He. destruct He as [He|(? & ? & ? & ? & _ & He)]; [|done]. by injection He as <-.
Qed.
(** every entry of a load call is at or after its locking *)
Lemma locked_at o dir w n en : reach o dir w -> w_hist w !! n = Some en -> is_load (en_task en) = true ->
  exists k ek, (k <= n)%nat /\ w_hist w !! k = Some ek /\ en_thread ek = en_thread en /\ en_what ek = Did EvLock.
Proof.
  intros HR Hn Hl. destruct (entry_cases _ _ _ _ _ HR Hn Hl) as [[_ Hw]|(u & Hu & _ & _)]; [by exists n, en|].
  destruct (event_position (en_thread en) (w_hist w) EvLock n) as (k & ek & Hlt & Hk & Hj & Hw); [rewrite Hu; left|]. exists k, ek. split_and!; [lia|done..].
Qed.
(** nothing after unlocking *)
Lemma unlock_last o dir w n1 n2 e1 e2 : reach o dir w -> w_hist w !! n1 = Some e1 -> w_hist w !! n2 = Some e2 -> en_thread e1 = en_thread e2 ->
  is_load (en_task e2) = true -> en_what e1 = Did EvUnlock -> (n2 <= n1)%nat.
Proof.
  intros HR H1 H2 Hj Hl Hw. destruct (decide (n2 <= n1)%nat) as [?|Hgt]; [done|exfalso].
  assert (Hin : EvUnlock ∈ events_of (en_thread e2) (take n2 (w_hist w))). { rewrite <- Hj. eapply position_event; [|exact H1|exact Hw]. lia. }
  destruct (entry_cases _ _ _ _ _ HR H2 Hl) as [[Hz _]|(u & Hu & HF & _)]; [rewrite Hz in Hin; by apply elem_of_nil in Hin|].
  rewrite Hu in Hin. apply elem_of_cons in Hin as [Hin|Hin]; [done|]. rewrite Forall_forall in HF. exact (HF _ Hin).
Qed.
(** when a goroutine locks, the load calls of others are over *)
Lemma others_unlocked o dir w n1 n2 e1 e2 : reach o dir w -> w_hist w !! n1 = Some e1 -> w_hist w !! n2 = Some e2 -> (n1 < n2)%nat ->
  is_load (en_task e1) = true -> en_what e2 = Did EvLock ->
  exists k ek, (n1 <= k < n2)%nat /\ w_hist w !! k = Some ek /\ en_thread ek = en_thread e1 /\ en_what ek = Did EvUnlock.
Proof.
  intros HR H1 H2 Hlt Hl Hw. destruct (step_at _ _ _ _ _ HR H2) as (w1 & w2 & HR1 & Hs & HR2 & _ & Hh1 & Hh2).
  assert (Hlk : me_lock (w_mem w1) = None).
  { destruct Hs as [w1 k Hk|w1 now Hle|w1 j th X b k r c Hth Hp Hc Hcl|w1 j th X b k x Hth Hp Hc Hv Ha Haw]; cbn [w_hist] in Hh2; rewrite Hh1 in Hh2.
    - apply (f_equal length) in Hh2. rewrite app_length in Hh2. cbn in Hh2. lia.
    - apply (f_equal length) in Hh2. rewrite app_length in Hh2. cbn in Hh2. lia.
    - apply app_inj_2 in Hh2 as [_ Hh2]; [|done]. injection Hh2 as Hen. subst e2. done.
    - destruct (ev_one _ b x) as [Hz|(e & He)]; [rewrite Hz in Hh2; apply (f_equal length) in Hh2; rewrite !app_length in Hh2; cbn in Hh2; lia|].
      rewrite He in Hh2. cbn [map] in Hh2. apply app_inj_2 in Hh2 as [_ Hh2]; [|done]. injection Hh2 as Hen. subst e2. cbn [en_what] in Hw. injection Hw as ->.
      destruct b; try done. }
  assert (Hn1 : w_hist w1 !! n1 = Some e1) by (rewrite Hh1; by apply lookup_take_Some).
  destruct (b_index _ _ _ (reach_basic _ _ _ HR1) e1) as (th & Hth & Hta); [by eapply elem_of_list_lookup_2|].
  destruct (en_task e1) as [a| | | | |] eqn:Hea; try done.
  destruct (reach_serial _ _ _ HR1) as (h & HS). destruct (s_idle _ _ _ HS _ _ _ Hth Hta) as [Hz|Hin]; [by rewrite Hlk|..].
  - exfalso. destruct (locked_at _ _ _ _ _ HR1 Hn1) as (k & ek & Hle & Hk & Hj & Hwk); [by rewrite Hea|].
    assert (Hin : EvLock ∈ events_of (en_thread e1) (w_hist w1)). { apply events_of_in. exists ek. split_and!; [by eapply elem_of_list_lookup_2|done|done]. }
    rewrite Hz in Hin. by apply elem_of_nil in Hin.
  - rewrite Hh1 in Hin. destruct (event_position _ _ _ _ Hin) as (k & ek & Hlk2 & Hk & Hj & Hwk). exists k, ek. split_and!; [|done|done|done|done].
    eapply (unlock_last o dir w k n1 ek e1); try done. by rewrite Hea.
Qed.
Definition before_eq (h : list entry) (n1 n2 : nat) : Prop := n1 = n2 \/ before h n1 n2.
Lemma before_eq_l h n1 n2 n3 : before_eq h n1 n2 -> before h n2 n3 -> before h n1 n3.
Proof. intros [->|H1] H2; [done|by eapply before_trans]. Qed.
Lemma before_eq_r h n1 n2 n3 : before h n1 n2 -> before_eq h n2 n3 -> before h n1 n3.
Proof. intros H1 [<-|H2]; [done|by eapply before_trans]. Qed.
Lemma program_eq h n1 n2 e1 e2 : h !! n1 = Some e1 -> h !! n2 = Some e2 -> (n1 <= n2)%nat -> en_thread e1 = en_thread e2 -> before_eq h n1 n2.
Proof. intros H1 H2 Hle Hj. destruct (decide (n1 = n2)) as [->|Hne]; [by left|right]. eapply before_program; [exact H1|exact H2|lia|done]. Qed.

(** ** C75 *)
(** Everything done by load calls, in whatever goroutines, is ordered. *)
Theorem C75_loads_never_race o dir w n1 n2 e1 e2 : reach o dir w -> w_hist w !! n1 = Some e1 -> w_hist w !! n2 = Some e2 -> (n1 < n2)%nat ->
  is_load (en_task e1) = true -> is_load (en_task e2) = true -> before (w_hist w) n1 n2.
Proof.
  intros HR H1 H2 Hlt L1 L2. destruct (decide (en_thread e1 = en_thread e2)) as [Hj|Hj]; [by eapply before_program|].
  destruct (locked_at _ _ _ _ _ HR H2 L2) as (k & ek & Hle & Hk & Hkj & Hkw).
  assert (Hkl : is_load (en_task ek) = true) by (by rewrite (same_task _ _ _ _ _ _ _ HR Hk H2 Hkj)).
  destruct (lt_eq_lt_dec n1 k) as [[Hc| ->]|Hc]; [| |exfalso].
  - destruct (others_unlocked _ _ _ _ _ _ _ HR H1 Hk Hc L1 Hkw) as (u & eu & [Hu1 Hu2] & Hu & Huj & Huw).
    eapply before_eq_l; [exact (program_eq _ _ _ _ _ H1 Hu Hu1 (eq_sym Huj))|]. eapply before_eq_r; [exact (before_lock _ _ _ _ _ Hu Hk Hu2 Huw Hkw)|].
    exact (program_eq _ _ _ _ _ Hk H2 Hle Hkj).
  - exfalso. apply Hj. congruence.
  - destruct (locked_at _ _ _ _ _ HR H1 L1) as (l & el & Hll & Hl & Hlj & Hlw).
    destruct (lt_eq_lt_dec l k) as [[Hd| ->]|Hd].
    + destruct (others_unlocked _ _ _ _ _ _ _ HR Hl Hk Hd) as (u & eu & [Hu1 Hu2] & Hu & Huj & Huw); [|done|].
      { by rewrite (same_task _ _ _ _ _ _ _ HR Hl H1 Hlj). }
      pose proof (unlock_last _ _ _ _ _ _ _ HR Hu H1 ltac:(congruence) L1 Huw). lia.
    + apply Hj. congruence.
    + destruct (others_unlocked _ _ _ _ _ _ _ HR Hk Hl Hd Hkl Hlw) as (u & eu & [Hu1 Hu2] & Hu & Huj & Huw).
      pose proof (unlock_last _ _ _ _ _ _ _ HR Hu H2 ltac:(congruence) L2 Huw). lia.
Qed.

(** *** Publication *)
Lemma after_store h m : after None (events h) = Some m -> exists n, stores_at h n m /\ forall n' m', (n < n')%nat -> ~ stores_at h n' m'.
Proof.
  induction h as [|en h IH] using rev_ind; [done|]. unfold events. rewrite omap_app. fold (events h). rewrite after_app. intros Ha.
  destruct (is_store en) eqn:Hs.
  - unfold is_store in Hs. destruct (en_what en) as [|e] eqn:Hw; [done|]. destruct e; try done. exists (length h). split.
    + exists en. split; [by apply list_lookup_middle|]. cbn [omap list_omap] in Ha. unfold did in Ha. rewrite Hw in Ha. cbn in Ha. congruence.
    + intros n' m' Hlt (en' & Hn' & _). apply lookup_lt_Some in Hn'. rewrite app_length in Hn'. cbn in Hn'. lia.
  - assert (Ha' : after None (events h) = Some m).
    { rewrite <- Ha. symmetry. apply (no_stores_after [en]). by repeat constructor. }
    destruct (IH Ha') as (n & (es & Hn & Hw) & Hno). exists n. split; [exists es; split; [by apply lookup_app_l_Some|done]|].
    intros n' m' Hlt (en' & Hn' & Hw'). apply lookup_app_Some in Hn' as [Hn'|[Hge Hn']]; [apply (Hno n' m' Hlt); by exists en'|].
    apply list_lookup_singleton_Some in Hn' as [_ <-]. unfold is_store in Hs. by rewrite Hw' in Hs.
Qed.
Lemma store_is_load o dir w n m : reach o dir w -> stores_at (w_hist w) n m -> exists en, w_hist w !! n = Some en /\ en_what en = Did (EvStore m) /\ is_load (en_task en) = true.
Proof.
  intros HR (en & Hn & Hw). exists en. split_and!; [done|done|]. destruct (is_load (en_task en)) eqn:Hl; [done|exfalso].
  exact (basic_others _ _ _ _ _ (reach_basic _ _ _ HR) (elem_of_list_lookup_2 _ _ _ Hn) Hl Hw).
Qed.
(** what is read has been stored before *)
Lemma current_stored o dir w n en m : reach o dir w -> w_hist w !! n = Some en -> en_what en = Did (EvLoadCurrent (Some m)) ->
  exists ns, stores_at (w_hist w) ns m /\ before (w_hist w) ns n.
Proof.
  intros HR Hn Hw. destruct (step_at _ _ _ _ _ HR Hn) as (w1 & w2 & HR1 & Hs & HR2 & _ & Hh1 & Hh2).
  pose proof (loaded_current _ _ _ _ _ Hs ltac:(by rewrite Hh1) Hw) as Hcur. rewrite (b_current _ _ _ (reach_basic _ _ _ HR1)), Hh1 in Hcur.
  destruct (after_store _ _ Hcur) as (ns & (es & Hes & Hws) & Hno). apply lookup_take_Some in Hes as [Hes Hlt]. exists ns. split; [by exists es|].
  eapply before_current; [exact Hes|exact Hn|exact Hlt|exact Hws|exact Hw|]. intros k m' [Hk1 Hk2] (ek & Hk & Hwk). apply (Hno k m' Hk1). exists ek. split; [|done]. by apply lookup_take_Some.
Qed.
(** the manager whose release is started has been stored before, by a call that is over *)
Lemma spawn_stored o dir w n en m d : reach o dir w -> w_hist w !! n = Some en -> en_what en = Did (EvSpawnFree m d) ->
  is_load (en_task en) = true /\ exists ns es, (ns < n)%nat /\ w_hist w !! ns = Some es /\ en_what es = Did (EvStore m) /\ en_thread es <> en_thread en.
Proof.
  intros HR Hn Hw. assert (Hl : is_load (en_task en) = true).
  { destruct (is_load (en_task en)) eqn:Hl; [done|exfalso]. exact (basic_others _ _ _ _ _ (reach_basic _ _ _ HR) (elem_of_list_lookup_2 _ _ _ Hn) Hl Hw). }
  split; [done|]. destruct (step_at _ _ _ _ _ HR Hn) as (w1 & w2 & HR1 & Hs & HR2 & _ & Hh1 & Hh2).
  assert (Hn2 : w_hist w2 !! n = Some en). { rewrite Hh2. apply list_lookup_middle. rewrite take_length. apply lookup_lt_Some in Hn. lia. }
  destruct (b_index _ _ _ (reach_basic _ _ _ HR2) en) as (th & Hth & Hta); [by eapply elem_of_list_lookup_2|]. destruct (en_task en) as [a| | | | |] eqn:Hea; try done.
  assert (Hin : EvSpawnFree m d ∈ events_of (en_thread en) (w_hist w2)). { apply events_of_in. exists en. split_and!; [by eapply elem_of_list_lookup_2|done|done]. }
  assert (Hlk : me_lock (w_mem w2) = Some (en_thread en)).
  { destruct (decide (me_lock (w_mem w2) = Some (en_thread en))) as [?|Hne]; [done|exfalso]. destruct (reach_serial _ _ _ HR2) as (h & HS).
    destruct (s_idle _ _ _ HS _ _ _ Hth Hta Hne) as [Hz|Hu]; [rewrite Hz in Hin; by apply elem_of_nil in Hin|].
    apply events_of_in in Hu as (eu & Heu & Huj & Huw). apply elem_of_list_lookup in Heu as (ku & Hku).
    pose proof (unlock_last _ _ _ _ _ _ _ HR2 Hku Hn2 Huj ltac:(by rewrite Hea) Huw) as Hle. apply lookup_lt_Some in Hku as Hlt. rewrite Hh2, app_length in Hlt. cbn in Hlt.
    apply lookup_lt_Some in Hn as Hnl. rewrite take_length in Hlt. assert (ku = n) as -> by lia. congruence. }
  destruct (running_call _ _ _ _ HR2 Hlk) as (th' & a' & t' & r & Hth' & Hta' & _ & HN). simplify_eq.
  pose proof (C24_one_release_per_replacement _ _ _ _ _ _ HN) as Hrel.
  assert (Hr : (m, d) ∈ releases (events_of (en_thread en) (w_hist w2) ++ t')). { unfold releases. apply elem_of_list_omap. exists (EvSpawnFree m d). split; [|done]. apply elem_of_app. by left. }
  rewrite Hrel in Hr. destruct r as [[x|]| |]; try (by apply elem_of_nil in Hr). destruct (o_static o); [by apply elem_of_nil in Hr|].
  destruct (after None _) as [om|] eqn:Haf; [|by apply elem_of_nil in Hr]. apply elem_of_list_singleton in Hr. injection Hr as <- _.
  assert (Hst : EvStore m ∈ calls_of (w_hist w2) (unlockers (w_hist w2))).
  { rewrite after_stores in Haf. destruct (last _) as [m'|] eqn:Hla; [|done]. injection Haf as ->. apply last_Some in Hla as (l & Hla).
    apply stores_in. rewrite Hla. apply elem_of_app. right. left. }
  unfold calls_of in Hst. rewrite elem_of_list_In, in_concat in Hst. destruct Hst as (tt' & Ht' & Hin').
  apply in_map_iff in Ht' as (j & <- & Hju). apply elem_of_list_In in Hju. apply elem_of_list_In in Hin'.
  apply events_of_in in Hin' as (es & Hes & Hej & Hew). apply elem_of_list_lookup in Hes as (ns & Hns).
  assert (Hne : j <> en_thread en).
  { intros ->. apply unlockers_in in Hju. destruct (reach_serial _ _ _ HR2) as (h & HS). destruct (s_held _ _ _ HS _ Hlk) as (th' & b & _ & _ & _ & (t1 & Heq & HF & _)).
    rewrite Heq in Hju. apply elem_of_cons in Hju as [?|Hju]; [done|]. rewrite Forall_forall in HF. exact (HF _ Hju). }
  rewrite Hh2 in Hns. apply lookup_app_Some in Hns as [Hns|[_ Hns]]; [|apply list_lookup_singleton_Some in Hns as [_ <-]; congruence].
  apply lookup_take_Some in Hns as [Hns Hlt]. exists ns, es. split_and!; [done|done|done|congruence].
Qed.
(** the start of a release goroutine *)
Lemma go_before o dir w n en m d : reach o dir w -> w_hist w !! n = Some en -> en_task en = TFree m d ->
  exists k ek, w_hist w !! k = Some ek /\ en_what ek = Did (EvSpawnFree m d) /\ before (w_hist w) k n.
Proof.
  intros HR Hn Hta. destruct (step_at _ _ _ _ _ HR Hn) as (w1 & w2 & HR1 & Hs & HR2 & _ & Hh1 & Hh2).
  destruct (b_index _ _ _ (reach_basic _ _ _ HR2) en) as (th & Hth & Htt); [rewrite Hh2; apply elem_of_app; right; left|].
  destruct (thread_spawned o dir w2 _ th m d HR2 Hth (eq_trans Htt Hta)) as (ek & Hek & Hwk & _). apply elem_of_list_lookup in Hek as (k & Hk).
  rewrite Hh2 in Hk. apply lookup_app_Some in Hk as [Hk|[_ Hk]].
  - apply lookup_take_Some in Hk as [Hk Hlt]. exists k, ek. split_and!; [done|done|]. eapply before_go; [exact Hk|exact Hn|exact Hlt|exact Hwk|exact Hta].
  - apply list_lookup_singleton_Some in Hk as [_ <-]. exfalso.
    pose proof (basic_others _ _ _ en _ (reach_basic _ _ _ HR) (elem_of_list_lookup_2 _ _ _ Hn) ltac:(by rewrite Hta) Hwk). done.
Qed.

(** A goroutine that has the manager [m] does everything after [m] was published, and after everything any load call did up to then:
    so it sees [m] complete, and needs no synchronisation to read it. *)
Theorem C75_managers_are_published_safely o dir w n2 m : reach o dir w -> has_manager (w_hist w) n2 m ->
  exists ns, stores_at (w_hist w) ns m /\ before_eq (w_hist w) ns n2 /\
    forall n1 e1, (n1 <= ns)%nat -> w_hist w !! n1 = Some e1 -> is_load (en_task e1) = true -> before_eq (w_hist w) n1 n2.
Proof.
  intros HR (e2 & H2 & Hhas).
  assert (Hs : exists ns, stores_at (w_hist w) ns m /\ before_eq (w_hist w) ns n2).
  { destruct Hhas as [(d & Hta)|(n & e & Hle & Hn & Hj & Hw)].
    - destruct (go_before _ _ _ _ _ _ _ HR H2 Hta) as (k & ek & Hk & Hwk & Hbk). destruct (spawn_stored _ _ _ _ _ _ _ HR Hk Hwk) as (Hl & ns & es & Hlt & Hes & Hws & _).
      assert (Hst : stores_at (w_hist w) ns m) by (by exists es). exists ns. split; [done|right].
      destruct (store_is_load _ _ _ _ _ HR Hst) as (es' & Hes' & _ & Hls). eapply before_trans; [|exact Hbk]. exact (C75_loads_never_race _ _ _ _ _ _ _ HR Hes' Hk Hlt Hls Hl).
    - destruct (current_stored _ _ _ _ _ _ HR Hn Hw) as (ns & Hns & Hb). exists ns. split; [done|right]. eapply before_eq_r; [exact Hb|]. exact (program_eq _ _ _ _ _ Hn H2 Hle Hj). }
  destruct Hs as (ns & Hns & Hb). exists ns. split_and!; [done|done|]. intros n1 e1 Hle H1 Hl1. destruct (store_is_load _ _ _ _ _ HR Hns) as (es & Hes & _ & Hls).
  destruct (decide (n1 = ns)) as [->|Hne]; [done|]. assert (Hlt : (n1 < ns)%nat) by lia. pose proof (C75_loads_never_race _ _ _ _ _ _ _ HR H1 Hes Hlt Hl1 Hls) as Hb1.
  right. by eapply before_eq_r.
Qed.

(** *** Users of a manager *)
(** What a goroutine of the user does (InvokeEach, InvokeEachBackward, Current, ReloadCounter, ResetPluginDir) happens before nothing that any other goroutine does. *)
Theorem C75_users_are_not_waited_for o dir w n1 n2 e1 e2 : reach o dir w -> before (w_hist w) n1 n2 -> w_hist w !! n1 = Some e1 -> w_hist w !! n2 = Some e2 ->
  is_load (en_task e1) = false -> (forall m d, en_task e1 <> TFree m d) -> en_thread e1 = en_thread e2.
Proof.
  intros HR Hb. revert e1 e2.
  assert (Hoth : forall n en e, w_hist w !! n = Some en -> is_load (en_task en) = false -> en_what en = Did e -> other_event e).
  { intros n en e Hn Hl Hw. exact (basic_others _ _ _ _ _ (reach_basic _ _ _ HR) (elem_of_list_lookup_2 _ _ _ Hn) Hl Hw). }
  induction Hb as [n1 n2 e1 e2 H1 H2 Hlt Hj|n1 n2 e1 e2 H1 H2 Hlt Hw1 Hw2|n1 n2 e1 e2 m H1 H2 Hlt Hw1 Hw2 _|n1 n2 e1 e2 i H1 H2 Hlt Hw1 Hw2|n1 n2 e1 e2 m d' H1 H2 Hlt Hw1 Hw2|n1 n2 n3 Hb1 IH1 Hb2 IH2];
    intros e1' e2' H1' H2' Hl Hf; try (rewrite H1 in H1'; injection H1' as <-; rewrite H2 in H2'; injection H2' as <-).
  - done.
  - by destruct (Hoth _ _ _ H1 Hl Hw1).
  - by destruct (Hoth _ _ _ H1 Hl Hw1).
  - exfalso. unfold counts in Hw1. destruct (en_what e1) as [|e] eqn:Hw; [done|]. destruct e as [| | | | | | |mid i' v|mid i' v| | | | | | | | | | | | | | | | | |]; try done.
    + by destruct (Hoth _ _ _ H1 Hl Hw).
    + destruct (entry_trace _ _ _ _ _ HR H1) as (e & t' & r & Hex & He). apply (refless_task _ _ _ _ i' Hl Hf) in Hex. apply Forall_app in Hex as [_ Hex]. apply Forall_cons in Hex as [Hex _].
      rewrite Hw in He. destruct He as [He|(? & ? & ? & ? & _ & He)]; [|done]. injection He as <-. cbn [weight] in Hex. rewrite decide_True in Hex by done. done.
  - by destruct (Hoth _ _ _ H1 Hl Hw1).
  - assert (exists em, w_hist w !! n2 = Some em) as (em & Hm).
    { apply lookup_lt_is_Some_2. pose proof (before_lt _ _ _ Hb2). apply lookup_lt_Some in H2'. lia. }
    pose proof (IH1 _ _ H1' Hm Hl Hf) as Hj. pose proof (same_task _ _ _ _ _ _ _ HR H1' Hm Hj) as Ht. rewrite Hj. apply IH2; [done|done|by rewrite <- Ht|by rewrite <- Ht].
Qed.

(** *** Giving up a plugin *)
(** the end of the last reference precedes OnFree *)
Lemma last_drop o dir w n en c : reach o dir w -> w_hist w !! n = Some en -> en_what en = Began ROnFree c ->
  exists k ek mid v, (k < n)%nat /\ w_hist w !! k = Some ek /\ en_thread ek = en_thread en /\ en_what ek = Did (EvRefDec mid (c_inst c) v) /\ (v <= 0)%Z.
Proof.
  intros HR Hn Hw. destruct (entry_trace _ _ _ _ _ HR Hn) as (e & t' & r & Hex & He). apply wfp_task in Hex. rewrite Hw in He.
  destruct He as [He|(r' & c' & arg & x & -> & He)]; [done|]. injection He as <- <-.
  destruct (Hex _ _ _ eq_refl) as (t0 & Ht0). rewrite Ht0, <- (assoc_L (++)) in Hex. destruct (Hex t0 _ _ eq_refl) as (t1 & mid & v & -> & Hv).
  destruct (event_position (en_thread en) (w_hist w) (EvRefDec mid (c_inst c) v) n) as (k & ek & Hlt & Hk & Hj & Hwk).
  { rewrite Ht0, !elem_of_app. left. right. left. }
  exists k, ek, mid, v. done.
Qed.
(** nothing is dropped after the last reference *)
Lemma drop_last o dir w n1 n2 e1 e2 mid1 mid2 i v1 v2 : reach o dir w -> distinct_registrations o -> w_hist w !! n1 = Some e1 -> w_hist w !! n2 = Some e2 ->
  en_what e1 = Did (EvRefDec mid1 i v1) -> en_what e2 = Did (EvRefDec mid2 i v2) -> (v1 <= 0)%Z -> (n2 <= n1)%nat.
Proof.
  intros HR HD H1 H2 Hw1 Hw2 Hv. destruct (decide (n2 <= n1)%nat) as [?|Hgt]; [done|exfalso].
  destruct (step_at _ _ _ _ _ HR H2) as (w1 & w2 & HR1 & Hs & HR2 & _ & Hh1 & Hh2).
  assert (Hin : EvRefDec mid1 i v1 ∈ events (w_hist w1)).
  { rewrite Hh1. unfold events. apply elem_of_list_omap. exists e1. split; [apply elem_of_list_lookup; exists n1; apply lookup_take_Some; split; [done|lia]|]. unfold did. by rewrite Hw1. }
  assert (Hne : me_refs (w_mem w1) !! i <> None).
  { intros Hu. apply (b_unborn _ _ _ (reach_basic _ _ _ HR1)) in Hu. rewrite Forall_forall in Hu. by apply (Hu _ Hin). }
  pose proof (proj2 (reach_dropped _ _ _ i HR1 HD Hne) (ex_intro _ mid1 (ex_intro _ v1 (conj Hin Hv)))) as Hle.
  pose proof (refs_nonneg _ _ _ i HR2 HD) as Hge. rewrite (b_refs _ _ _ (reach_basic _ _ _ HR1)) in Hle. rewrite (b_refs _ _ _ (reach_basic _ _ _ HR2)), Hh2 in Hge. rewrite Hh1 in Hle.
  rewrite events_app, wt_app in Hge. unfold events at 2 in Hge. cbn [omap list_omap] in Hge. unfold did in Hge. rewrite Hw2 in Hge. cbn [wt weight] in Hge. rewrite decide_True in Hge by done. lia.
Qed.
(** Whoever gives up a plugin, the new manager of a failed load or the release goroutine of an old manager, does so, and all it did up to then, before OnFree of the plugin. *)
Theorem C75_given_up_before_freed o dir w n1 n2 e1 e2 mid v c : reach o dir w -> w_hist w !! n1 = Some e1 -> w_hist w !! n2 = Some e2 ->
  en_what e1 = Did (EvRefDec mid (c_inst c) v) -> en_what e2 = Began ROnFree c -> before (w_hist w) n1 n2.
Proof.
  intros HR H1 H2 Hw1 Hw2. destruct (last_drop _ _ _ _ _ _ HR H2 Hw2) as (k & ek & mid' & v' & Hlt & Hk & Hj & Hwk & Hv).
  assert (Hle : (n1 <= k)%nat).
  { destruct (o_static o) as [st|] eqn:Hst; [exact (static_dec_once _ _ _ _ _ _ _ _ _ _ _ _ _ HR Hst Hk H1 Hwk Hw1)|exact (drop_last _ _ _ _ _ _ _ _ _ _ _ _ HR (dynamic_distinct _ Hst) Hk H1 Hwk Hw1 Hv)]. }
  eapply before_eq_l; [|exact (before_program _ _ _ _ _ Hk H2 Hlt Hj)].
  destruct (decide (n1 = k)) as [->|Hne]; [by left|right]. eapply (before_count _ n1 k e1 ek (c_inst c)); [done|done|lia|..]; unfold counts; by rewrite ?Hw1, ?Hwk.
Qed.

(** *** Load calls do not overlap *)
Lemma no_overlap o dir w n1 n2 n3 e1 e2 e3 : reach o dir w -> w_hist w !! n1 = Some e1 -> w_hist w !! n2 = Some e2 -> w_hist w !! n3 = Some e3 -> (n1 < n2 < n3)%nat ->
  is_load (en_task e1) = true -> is_load (en_task e2) = true -> en_thread e1 = en_thread e3 -> en_thread e2 = en_thread e1.
Proof.
  intros HR H1 H2 H3 [Hlt1 Hlt2] L1 L2 Hj. destruct (decide (en_thread e2 = en_thread e1)) as [?|Hne]; [done|exfalso].
  destruct (locked_at _ _ _ _ _ HR H1 L1) as (k1 & ek1 & Hle1 & Hk1 & Hj1 & Hw1). destruct (locked_at _ _ _ _ _ HR H2 L2) as (k2 & ek2 & Hle2 & Hk2 & Hj2 & Hw2).
  assert (Lk1 : is_load (en_task ek1) = true) by (by rewrite (same_task _ _ _ _ _ _ _ HR Hk1 H1 Hj1)). assert (Lk2 : is_load (en_task ek2) = true) by (by rewrite (same_task _ _ _ _ _ _ _ HR Hk2 H2 Hj2)).
  assert (L3 : is_load (en_task e3) = true) by (by rewrite <- (same_task _ _ _ _ _ _ _ HR H1 H3 Hj)).
  destruct (lt_eq_lt_dec k1 k2) as [[Hc| ->]|Hc].
  - destruct (others_unlocked _ _ _ _ _ _ _ HR Hk1 Hk2 Hc Lk1 Hw2) as (u & eu & [Hu1 Hu2] & Hu & Huj & Huw). pose proof (unlock_last _ _ _ _ _ _ _ HR Hu H3 ltac:(congruence) L3 Huw). lia.
  - apply Hne. congruence.
  - destruct (others_unlocked _ _ _ _ _ _ _ HR Hk2 Hk1 Hc Lk2 Hw1) as (u & eu & [Hu1 Hu2] & Hu & Huj & Huw). pose proof (unlock_last _ _ _ _ _ _ _ HR Hu H2 ltac:(congruence) L2 Huw). lia.
Qed.
(** the call running at a position *)
Lemma call_at o dir w2 n en : reach o dir w2 -> w_hist w2 !! n = Some en -> length (w_hist w2) = S n -> is_load (en_task en) = true -> en_what en <> Did EvUnlock ->
  me_lock (w_mem w2) = Some (en_thread en).
Proof.
  intros HR Hn Hlen Hl Hw. destruct (b_index _ _ _ (reach_basic _ _ _ HR) en) as (th & Hth & Hta); [by eapply elem_of_list_lookup_2|]. destruct (en_task en) as [a| | | | |] eqn:Hea; try done.
  destruct (decide (me_lock (w_mem w2) = Some (en_thread en))) as [?|Hne]; [done|exfalso]. destruct (reach_serial _ _ _ HR) as (h & HS).
  destruct (s_idle _ _ _ HS _ _ _ Hth Hta Hne) as [Hz|Hu].
  - destruct (locked_at _ _ _ _ _ HR Hn) as (k & ek & _ & Hk & Hj & Hwk); [by rewrite Hea|].
    assert (Hin : EvLock ∈ events_of (en_thread en) (w_hist w2)). { apply events_of_in. exists ek. split_and!; [by eapply elem_of_list_lookup_2|done|done]. }
    rewrite Hz in Hin. by apply elem_of_nil in Hin.
  - apply events_of_in in Hu as (eu & Heu & Huj & Huw). apply elem_of_list_lookup in Heu as (ku & Hku).
    pose proof (unlock_last _ _ _ _ _ _ _ HR Hku Hn Huj ltac:(by rewrite Hea) Huw) as Hle. apply lookup_lt_Some in Hku as Hlt. assert (ku = n) as -> by lia. congruence.
Qed.

(** *** Each manager is published once and released once *)
Definition mgr_new (e : event) : option N := match e with EvNewMgr mid _ => Some mid | _ => None end.
Lemma reach_mgrs o dir w : reach o dir w -> NoDup (omap mgr_new (events (w_hist w))) /\ forall x, x ∈ omap mgr_new (events (w_hist w)) -> x ∈ me_mgrs (w_mem w).
Proof.
  induction 1 as [|w w' HR [IH1 IH2] HS]; [split; [constructor|intros x Hx; by apply elem_of_nil in Hx]|].
  destruct HS as [w k Hk|w now Hn|w j th X a k r c Hth Hp Hc Hcl|w j th X a k x Hth Hp Hc Hv Ha Haw]; cbn [w_hist w_mem] in *; [done|done|..].
  - rewrite events_app. unfold events at 2 4. cbn [omap list_omap did en_what]. rewrite !(right_id_L [] (++)). done.
  - rewrite events_app. assert (He : events (map (fun e => mkEntry (w_now w) j (th_task th) (Did e)) (ev a x)) = ev a x).
    { generalize (ev a x). intros l. induction l as [|e l IHl]; [done|]. cbn. f_equal. exact IHl. }
    rewrite He, omap_app. clear He. destruct a; try (cbn [ev omap list_omap mgr_new update me_mgrs]; rewrite !(right_id_L [] (++)); done).
    destruct x as [mid born]. cbn [ev omap list_omap mgr_new update me_mgrs fst answers] in *. split.
    + apply NoDup_app. split_and!; [done| |apply NoDup_singleton]. intros x Hx Hx'. apply elem_of_list_singleton in Hx' as ->. by apply Ha, IH2.
    + intros x Hx. apply elem_of_app in Hx as [Hx|Hx]; apply elem_of_union; [right; by apply IH2|left]. apply elem_of_list_singleton in Hx as ->. by apply elem_of_singleton.
Qed.
Lemma store_split (P A t' tz : list event) m m' : P ++ EvStore m :: t' = A ++ EvStore m' :: tz -> (forall x, EvStore x ∉ A) -> (forall x, EvStore x ∉ tz) -> P = A /\ m = m' /\ t' = tz.
Proof.
  intros Heq HA Hz. apply app_eq_inv in Heq as [(k & -> & Hk)|(k & -> & Hk)].
  - destruct k as [|e k]; cbn in Hk; [by injection Hk as <- <-; rewrite (right_id_L [] (++))|]. injection Hk as _ Hk. exfalso. apply (Hz m). rewrite Hk. apply elem_of_app. right. left.
  - destruct k as [|e k]; cbn in Hk; [by injection Hk as <- <-; rewrite (right_id_L [] (++))|]. injection Hk as He _. exfalso. apply (HA m). rewrite He. apply elem_of_app. right. left.
Qed.
Lemma published_made o h cur a t r m : next_call o h cur (api_prog o a) t r -> published t m -> exists born, EvNewMgr (pm_id m) born ∈ t.
Proof.
  intros HN Hpub. destruct (o_static o) as [st|] eqn:Hst.
  - destruct (spub_inv _ _ _ _ _ _ _ _ Hst HN Hpub) as (data & sel & s & tn & tl & [_ Ht Hm (Hid & _ & _) _ _ _ _ _]). exists (pm_born s). destruct Hm as (_ & Htn & _).
    rewrite Ht, Htn, Hid. cbn [app]. right. left.
  - destruct (pub_inv _ _ _ _ _ _ _ Hst HN Hpub) as (data & cbs & tp & files & s & tn & tl & add & HP).
    pose proof (pub_trace _ _ _ _ _ _ _ _ _ _ _ _ _ _ _ HP) as Ht. destruct (pub_made _ _ _ _ _ _ _ _ _ _ _ _ _ _ _ HP) as (_ & Htn & _).
    destruct (pub_head _ _ _ _ _ _ _ _ _ _ _ _ _ _ _ HP) as (Hid & _). exists (pm_born s). rewrite Ht, Htn, Hid. apply elem_of_app. right. cbn [app]. right. left.
Qed.
Lemma take_snoc_events j h n en e : h !! n = Some en -> en_thread en = j -> en_what en = Did e -> events_of j (take n h ++ [en]) = events_of j (take n h) ++ [e].
Proof. intros Hn Hj Hw. rewrite events_of_app. f_equal. unfold events_of. cbn [omap list_omap]. rewrite decide_True by done. unfold did. by rewrite Hw. Qed.
Lemma store_call o dir w n en m : reach o dir w -> w_hist w !! n = Some en -> en_what en = Did (EvStore m) ->
  (exists born, EvNewMgr (pm_id m) born ∈ events_of (en_thread en) (take n (w_hist w))) /\ forall m', EvStore m' ∉ events_of (en_thread en) (take n (w_hist w)).
Proof.
  intros HR Hn Hw. destruct (store_is_load o dir w n m HR) as (en' & Hn' & _ & Hl); [by exists en|]. rewrite Hn in Hn'. injection Hn' as <-.
  destruct (step_at _ _ _ _ _ HR Hn) as (w1 & w2 & HR1 & Hs & HR2 & _ & Hh1 & Hh2).
  assert (Hlen : length (take n (w_hist w)) = n). { apply take_length_le. apply lookup_lt_Some in Hn. lia. }
  assert (Hn2 : w_hist w2 !! n = Some en). { rewrite Hh2. by apply list_lookup_middle. }
  assert (Hlk : me_lock (w_mem w2) = Some (en_thread en)). { eapply call_at; [exact HR2|exact Hn2| |done|by rewrite Hw]. rewrite Hh2, app_length, Hlen. cbn. lia. }
  destruct (running_call _ _ _ _ HR2 Hlk) as (th' & a' & t' & r & Hth' & Hta' & _ & HN).
  rewrite Hh2, (take_snoc_events _ _ _ _ _ Hn eq_refl Hw), <- (assoc_L (++)) in HN. cbn [app] in HN. set (P := events_of (en_thread en) (take n (w_hist w))) in *.
  assert (Hpub : published (P ++ EvStore m :: t') m). { unfold published. apply elem_of_app. right. left. }
  destruct (call_shape _ _ _ _ _ _ HN) as [Hnp|(tc & m' & tz & Heq & Hnc & Hez)]; [by destruct (no_publish_not _ _ Hnp Hpub)|].
  destruct (published_made _ _ _ _ _ _ _ HN Hpub) as (born & Hb).
  unfold pubs in Heq. rewrite <- !(assoc_L (++)) in Heq. rewrite (assoc_L (++)) in Heq. cbn [app] in Heq. 
  assert (HA : forall x, EvStore x ∉ tc ++ spawned o (old_seen o (after None (calls_of (take n (w_hist w) ++ [en]) (unlockers (take n (w_hist w) ++ [en])))))).
  { intros x Hx. apply elem_of_app in Hx as [Hx|Hx]; [by eapply no_publish_not|]. unfold spawned in Hx. destruct (old_seen _ _); [|by apply elem_of_nil in Hx]. by apply elem_of_list_singleton in Hx. }
  assert (Hz : forall x, EvStore x ∉ tz). { intros x Hx. rewrite Forall_forall in Hez. exact (Hez _ Hx). }
  destruct (store_split _ _ _ _ _ _ Heq HA Hz) as (HP & _ & ->). split; [|rewrite HP; exact HA]. exists born. apply elem_of_app in Hb as [Hb|Hb]; [done|exfalso].
  apply elem_of_cons in Hb as [Hb|Hb]; [done|]. rewrite Forall_forall in Hez. exact (Hez _ Hb).
Qed.
Theorem C75_published_once o dir w n1 n2 m1 m2 : reach o dir w -> stores_at (w_hist w) n1 m1 -> stores_at (w_hist w) n2 m2 -> pm_id m1 = pm_id m2 -> n1 = n2 /\ m1 = m2.
Proof.
  intros HR (e1 & H1 & W1) (e2 & H2 & W2) Hid.
  destruct (store_call _ _ _ _ _ _ HR H1 W1) as [(b1 & B1) N1]. destruct (store_call _ _ _ _ _ _ HR H2 W2) as [(b2 & B2) N2].
  destruct (event_position _ _ _ _ B1) as (k1 & ek1 & Hlt1 & Hk1 & Hj1 & Hw1). destruct (event_position _ _ _ _ B2) as (k2 & ek2 & Hlt2 & Hk2 & Hj2 & Hw2).
  assert (Hj : en_thread e1 = en_thread e2).
  { eapply (omap_thread mgr_new (w_hist w) _ _ (EvNewMgr (pm_id m1) b1) (EvNewMgr (pm_id m2) b2) (pm_id m1)); [apply (reach_mgrs _ _ _ HR)|..].
    - apply events_of_in. exists ek1. split_and!; [by eapply elem_of_list_lookup_2|done|done].
    - apply events_of_in. exists ek2. split_and!; [by eapply elem_of_list_lookup_2|done|done].
    - done.
    - cbn. by rewrite Hid. }
  assert (n1 = n2) as ->; [|split; [done|congruence]]. destruct (lt_eq_lt_dec n1 n2) as [[Hc|Hc]|Hc]; [exfalso|done|exfalso].
  - apply (N2 m1). rewrite <- Hj. by eapply position_event.
  - apply (N1 m2). rewrite Hj. by eapply position_event.
Qed.

(** the manager whose release is started is the current one; the call that does it has not published its own, and has started no other release *)
Lemma spawn_current o dir w n en m d : reach o dir w -> w_hist w !! n = Some en -> en_what en = Did (EvSpawnFree m d) ->
  (forall e, e ∈ events_of (en_thread en) (take n (w_hist w)) -> (forall x, e <> EvStore x) /\ forall x y, e <> EvSpawnFree x y) /\
  exists p, (p < n)%nat /\ stores_at (w_hist w) p m /\ forall k m', (p < k < n)%nat -> ~ stores_at (w_hist w) k m'.
Proof.
  intros HR Hn Hw. destruct (spawn_stored _ _ _ _ _ _ _ HR Hn Hw) as (Hl & _).
  destruct (step_at _ _ _ _ _ HR Hn) as (w1 & w2 & HR1 & Hs & HR2 & _ & Hh1 & Hh2).
  assert (Hlen : length (take n (w_hist w)) = n). { apply take_length_le. apply lookup_lt_Some in Hn. lia. }
  assert (Hn2 : w_hist w2 !! n = Some en). { rewrite Hh2. by apply list_lookup_middle. }
  assert (Hlk : me_lock (w_mem w2) = Some (en_thread en)). { eapply call_at; [exact HR2|exact Hn2| |done|by rewrite Hw]. rewrite Hh2, app_length, Hlen. cbn. lia. }
  destruct (running_call _ _ _ _ HR2 Hlk) as (th' & a' & t' & r & Hth' & Hta' & _ & HN).
  pose proof (oc_events _ _ (reach_ordered _ _ _ HR2)) as O1. unfold running in O1. rewrite Hlk in O1. set (H := calls_of (w_hist w2) (unlockers (w_hist w2))) in *.
  assert (HP : events_of (en_thread en) (w_hist w2) = events_of (en_thread en) (take n (w_hist w)) ++ [EvSpawnFree m d]). { rewrite Hh2. exact (take_snoc_events _ _ _ _ _ Hn eq_refl Hw). }
  rewrite HP in HN, O1. rewrite <- (assoc_L (++)) in HN. cbn [app] in HN. set (P := events_of (en_thread en) (take n (w_hist w))) in *.
  assert (Hrel : (m, d) ∈ releases (P ++ EvSpawnFree m d :: t')). { unfold releases. apply elem_of_list_omap. exists (EvSpawnFree m d). split; [|done]. apply elem_of_app. right. left. }
  destruct (call_shape _ _ _ _ _ _ HN) as [Hnp|(tc & m' & tz & Heq & Hnc & Hez)]; [destruct (no_publish_stores _ Hnp) as [_ Hz]; rewrite Hz in Hrel; by apply elem_of_nil in Hrel|].
  assert (Hcs : P = tc /\ after None H = Some m).
  { unfold pubs, spawned in Heq. destruct (old_seen o (after None H)) as [om|] eqn:Hos; cbn [app] in Heq.
    - assert (Hts : forall x y, EvSpawnFree x y ∉ tc). { intros x y Hx. unfold no_publish in Hnc. rewrite Forall_forall in Hnc. by apply Hnc in Hx. }
      assert (Htz : forall x y, EvSpawnFree x y ∉ EvStore m' :: tz). { intros x y Hx. apply elem_of_cons in Hx as [?|Hx]; [done|]. rewrite Forall_forall in Hez. by apply Hez in Hx. }
      assert (Hom : after None H = Some om). { unfold old_seen in Hos. by destruct (o_static o). }
      apply app_eq_inv in Heq as [(k & Hk1 & Hk)|(k & Hk1 & Hk)].
      + destruct k as [|e k]; cbn in Hk; [injection Hk as Hk2 _ _; rewrite (right_id_L [] (++)) in Hk1; split; [done|congruence]|]. injection Hk as _ Hk. exfalso. apply (Htz m d). rewrite Hk. apply elem_of_app. right. left.
      + destruct k as [|e k]; cbn in Hk; [injection Hk as Hk2 _ _; rewrite (right_id_L [] (++)) in Hk1; split; [done|congruence]|]. injection Hk as He _. exfalso. apply (Hts m d). rewrite Hk1, He. apply elem_of_app. right. left.
    - exfalso. rewrite Heq in Hrel. unfold releases in Hrel. apply elem_of_list_omap in Hrel as (e & Hin & He). apply elem_of_app in Hin as [Hin|Hin].
      + unfold no_publish in Hnc. rewrite Forall_forall in Hnc. apply Hnc in Hin. by destruct e.
      + apply elem_of_cons in Hin as [->|Hin]; [done|]. rewrite Forall_forall in Hez. apply Hez in Hin. by destruct e. }
  destruct Hcs as [HPc Hcur]. rewrite HPc. split.
  { intros e He. unfold no_publish in Hnc. rewrite Forall_forall in Hnc. apply Hnc in He. by split; intros; destruct e. }
  assert (Hc2 : after None (events (w_hist w2)) = Some m).
  { rewrite <- (b_current _ _ _ (reach_basic _ _ _ HR2)), (after_loads _ _ _ (reach_basic _ _ _ HR2)), O1, HPc, !after_app', (no_publish_after _ _ Hnc). done. }
  destruct (after_store _ _ Hc2) as (p & (ep & Hp & Hwp) & Hno).
  assert (Hlt : (p < n)%nat). { rewrite Hh2 in Hp. apply lookup_app_Some in Hp as [Hp|[_ Hp]]; [apply lookup_lt_Some in Hp; lia|]. apply list_lookup_singleton_Some in Hp as [_ <-]. congruence. }
  assert (Hsame : forall k, (k < n)%nat -> w_hist w2 !! k = w_hist w !! k). { intros k Hk. rewrite Hh2, lookup_app_l by lia. by apply lookup_take. }
  exists p. split_and!; [done|exists ep; by rewrite <- Hsame|]. intros k m2 [Hk1 Hk2] (ek & Hek & Hwk). apply (Hno k m2 Hk1). exists ek. by rewrite Hsame.
Qed.
Theorem C75_released_once o dir w n1 n2 e1 e2 m1 m2 d1 d2 : reach o dir w -> w_hist w !! n1 = Some e1 -> w_hist w !! n2 = Some e2 ->
  en_what e1 = Did (EvSpawnFree m1 d1) -> en_what e2 = Did (EvSpawnFree m2 d2) -> pm_id m1 = pm_id m2 -> n1 = n2.
Proof.
  intros HR. revert n1 n2 e1 e2 m1 m2 d1 d2.
  assert (Hgen : forall n1 n2 e1 e2 m1 m2 d1 d2, w_hist w !! n1 = Some e1 -> w_hist w !! n2 = Some e2 ->
    en_what e1 = Did (EvSpawnFree m1 d1) -> en_what e2 = Did (EvSpawnFree m2 d2) -> pm_id m1 = pm_id m2 -> ~ (n1 < n2)%nat).
  { intros n1 n2 e1 e2 m1 m2 d1 d2 H1 H2 W1 W2 Hid Hlt.
    destruct (spawn_current _ _ _ _ _ _ _ HR H1 W1) as (P1 & p1 & Hp1 & Hs1 & Hno1). destruct (spawn_current _ _ _ _ _ _ _ HR H2 W2) as (P2 & p2 & Hp2 & Hs2 & Hno2).
    destruct (spawn_stored _ _ _ _ _ _ _ HR H1 W1) as (L1 & _). destruct (spawn_stored _ _ _ _ _ _ _ HR H2 W2) as (L2 & _).
    destruct (C75_published_once _ _ _ _ _ _ _ HR Hs1 Hs2 Hid) as [<- <-].
    destruct (decide (en_thread e1 = en_thread e2)) as [Hj|Hj].
    { pose proof (position_event _ _ _ _ _ Hlt H1 W1) as Hin. rewrite Hj in Hin. by apply (proj2 (P2 _ Hin) m1 d1). }
    destruct (locked_at _ _ _ _ _ HR H2 L2) as (k & ek & Hle & Hk & Hkj & Hkw).
    assert (Hlk : (n1 < k)%nat).
    { destruct (lt_eq_lt_dec n1 k) as [[?| ->]|Hc]; [done|exfalso; congruence|]. exfalso. apply Hj. symmetry.
      assert (Lk : is_load (en_task ek) = true) by (by rewrite (same_task _ _ _ _ _ _ _ HR Hk H2 Hkj)).
      rewrite <- Hkj. symmetry. eapply (no_overlap o dir w k n1 n2 ek e1 e2); try done. }
    destruct (others_unlocked _ _ _ _ _ _ _ HR H1 Hk Hlk L1 Hkw) as (u & eu & [Hu1 Hu2] & Hu & Huj & Huw).
    assert (Hul : en_thread e1 ∈ unlockers (w_hist w)). { apply unlockers_in, events_of_in. exists eu. split_and!; [by eapply elem_of_list_lookup_2|done|done]. }
    apply elem_of_list_split in Hul as (l1 & l2 & Heq). destruct (complete_call _ _ _ _ _ _ HR Heq) as (th & a & r & _ & _ & _ & HN).
    assert (Hin1 : EvSpawnFree m1 d1 ∈ events_of (en_thread e1) (w_hist w)). { apply events_of_in. exists e1. split_and!; [by eapply elem_of_list_lookup_2|done|done]. }
    destruct (call_shape _ _ _ _ _ _ HN) as [Hnp|(tc & m' & tz & Hev & _ & _)]; [unfold no_publish in Hnp; rewrite Forall_forall in Hnp; by apply Hnp in Hin1|].
    assert (Hst : EvStore m' ∈ events_of (en_thread e1) (w_hist w)). { rewrite Hev. unfold pubs. rewrite !elem_of_app. right. left. right. left. }
    apply events_of_in in Hst as (es & Hes & Hej & Hew). apply elem_of_list_lookup in Hes as (q & Hq).
    assert (Hq1 : (n1 < q)%nat).
    { destruct (lt_eq_lt_dec n1 q) as [[?| ->]|Hc]; [done|congruence|]. exfalso. pose proof (position_event _ _ _ _ _ Hc Hq Hew) as Hin. rewrite Hej in Hin. by apply (proj1 (P1 _ Hin) m'). }
    assert (Lq : is_load (en_task es) = true) by (by rewrite (same_task _ _ _ _ _ _ _ HR Hq H1 Hej)).
    pose proof (unlock_last _ _ _ _ _ _ _ HR Hu Hq ltac:(congruence) Lq Huw) as Hqu. apply (Hno2 q m'); [lia|]. by exists es. }
  intros n1 n2 e1 e2 m1 m2 d1 d2 H1 H2 W1 W2 Hid. destruct (lt_eq_lt_dec n1 n2) as [[Hc|Hc]|Hc]; [exfalso|done|exfalso].
  - exact (Hgen _ _ _ _ _ _ _ _ H1 H2 W1 W2 Hid Hc).
  - exact (Hgen _ _ _ _ _ _ _ _ H2 H1 W2 W1 (eq_sym Hid) Hc).
Qed.

(** *** Starting and freeing a plugin *)
(** the functions called on a plugin to start it *)
Definition starts_plugin (r : role) : Prop := match r with ROnFree | RLiveFuncs | RLiveTypes => False | _ => True end.
(** the beginning or the end of a call of [r] on the plugin instance [i] *)
Definition calls_on (r : role) (i : inst) (en : entry) : Prop :=
  exists c, c_inst c = i /\ (en_what en = Began r c \/ exists arg x, en_what en = Did (EvCall r c arg x)).

Lemma done_new o dir w n en r c arg x ns m : reach o dir w -> distinct_registrations o -> w_hist w !! n = Some en -> is_load (en_task en) = true ->
  en_what en = Did (EvCall r c arg x) -> starts_plugin r -> (ns < n)%nat -> stores_at (w_hist w) ns m -> c_inst c ∉ insts m.
Proof.
  intros HR HD Hn Hl Hw Hr Hlt Hst Hi.
  destruct (step_at _ _ _ _ _ HR Hn) as (w1 & w2 & HR1 & Hs & HR2 & _ & Hh1 & Hh2).
  assert (Hlen : length (take n (w_hist w)) = n). { apply take_length_le. apply lookup_lt_Some in Hn. lia. }
  assert (Hn2 : w_hist w2 !! n = Some en). { rewrite Hh2. by apply list_lookup_middle. }
  assert (Hlk : me_lock (w_mem w2) = Some (en_thread en)). { eapply call_at; [exact HR2|exact Hn2| |done|by rewrite Hw]. rewrite Hh2, app_length, Hlen. cbn. lia. }
  destruct (running_call _ _ _ _ HR2 Hlk) as (th' & a' & t' & r' & Hth' & Hta' & _ & HN).
  assert (HP : events_of (en_thread en) (w_hist w2) = events_of (en_thread en) (take n (w_hist w)) ++ [EvCall r c arg x]). { rewrite Hh2. exact (take_snoc_events _ _ _ _ _ Hn eq_refl Hw). }
  rewrite HP in HN. rewrite <- (assoc_L (++)) in HN. cbn [app] in HN. set (P := events_of (en_thread en) (take n (w_hist w))) in *. set (H := calls_of (w_hist w2) (unlockers (w_hist w2))) in *.
  assert (Hcr : c_inst c ∈ created (P ++ EvCall r c arg x :: t')).
  { destruct (decide (c_inst c ∈ created (P ++ EvCall r c arg x :: t'))) as [?|Hno]; [done|exfalso].
    destruct (C03_only_created_plugins_are_started _ _ _ _ _ _ (r, c_mid c, c_name c, c_inst c, Some (c_code c), arg) HN) as [H1|[H1|[H1 _]]]; cbn [cs_role cs_inst] in *; [|done|by subst r..].
    unfold call_sigs. apply elem_of_list_omap. exists (EvCall r c arg x). split; [|done]. apply elem_of_app. right. left. }
  destruct (store_is_load _ _ _ _ _ HR Hst) as (es & Hes & Hws & Hls).
  assert (Hes2 : w_hist w2 !! ns = Some es). { rewrite Hh2, lookup_app_l by lia. by rewrite lookup_take. }
  destruct (decide (en_thread es = en_thread en)) as [Hj|Hj].
  - assert (HinP : EvStore m ∈ P). { unfold P. rewrite <- Hj. by eapply position_event. }
    apply elem_of_list_split in HinP as (P1 & P2 & HP12). rewrite HP12, <- (assoc_L (++)) in HN. cbn [app] in HN.
    destruct (call_shape _ _ _ _ _ _ HN) as [Hnp|(tc & m' & tz & Heq & Hnc & Hez)]; [eapply (no_publish_not _ m Hnp); unfold published; apply elem_of_app; right; left|].
    unfold pubs in Heq. rewrite <- !(assoc_L (++)) in Heq. rewrite (assoc_L (++)) in Heq. cbn [app] in Heq.
    apply store_split in Heq as (_ & _ & Hz); [|..].
    + rewrite Forall_forall in Hez. apply (Hez (EvCall r c arg x)). rewrite <- Hz. apply elem_of_app. right. left.
    + intros y Hy. apply elem_of_app in Hy as [Hy|Hy]; [by eapply no_publish_not|]. unfold spawned in Hy. destruct (old_seen _ _); [|by apply elem_of_nil in Hy]. by apply elem_of_list_singleton in Hy.
    + intros y Hy. rewrite Forall_forall in Hez. exact (Hez _ Hy).
  - assert (Hpub : published H m).
    { destruct (b_index _ _ _ (reach_basic _ _ _ HR2) es) as (th & Hth & Hta); [by eapply elem_of_list_lookup_2|]. destruct (en_task es) as [b| | | | |] eqn:Heb; try done.
      assert (Hin : EvStore m ∈ events_of (en_thread es) (w_hist w2)). { apply events_of_in. exists es. split_and!; [by eapply elem_of_list_lookup_2|done|done]. }
      destruct (reach_serial _ _ _ HR2) as (h & HS). destruct (s_idle _ _ _ HS _ _ _ Hth Hta) as [Hz|Hu]; [congruence|rewrite Hz in Hin; by apply elem_of_nil in Hin|].
      unfold published, H, calls_of. apply elem_of_list_In, in_concat. exists (events_of (en_thread es) (w_hist w2)). split; [|by apply elem_of_list_In].
      apply in_map_iff. exists (en_thread es). split; [done|]. by apply elem_of_list_In, unlockers_in. }
    destruct HN as (HH & _ & _ & _ & HF). pose proof (fresh_prefix _ _ HF) as HFH.
    assert (Hhp : exists p, holds m p /\ pl_inst p = c_inst c).
    { destruct (published_origin _ _ _ _ HH HFH Hpub) as (h0 & cur0 & a0 & t0 & r0 & h1 & _ & HN0 & Hp0). destruct (pub_ready _ _ _ _ _ _ _ HN0 Hp0) as (HK & _ & _ & _ & Hperm & _).
      exact (insts_holds _ _ Hperm Hi). }
    destruct Hhp as (p & Hp & Hpi). pose proof (published_admitted _ _ _ _ _ HH HFH Hpub Hp) as Had. rewrite Hpi in Had.
    pose proof (lg_extra _ _ _ (history_ledger _ _ _ HH HFH HD) (c_inst c)) as Hle. apply cnt_in in Had.
    assert (Hc : c_inst c ∈ created H) by (apply cnt_in; lia). unfold fresh_objects in HF. rewrite created_app in HF. apply NoDup_app in HF as (_ & HF & _). exact (HF _ Hc Hcr).
Qed.
Lemma started_new o dir w n en r i ns m : reach o dir w -> distinct_registrations o -> w_hist w !! n = Some en -> is_load (en_task en) = true ->
  calls_on r i en -> starts_plugin r -> (ns < n)%nat -> stores_at (w_hist w) ns m -> i ∉ insts m.
Proof.
  intros HR HD Hn Hl (c & <- & [Hw|(arg & x & Hw)]) Hr Hlt Hst; [|by eapply done_new].
  destruct (step_at _ _ _ _ _ HR Hn) as (w1 & w2 & HR1 & Hs & HR2 & _ & Hh1 & Hh2).
  assert (Hlen : length (take n (w_hist w)) = n). { apply take_length_le. apply lookup_lt_Some in Hn. lia. }
  assert (Hnext : exists w3 en' arg x, step o w2 w3 /\ w_hist w3 = w_hist w2 ++ [en'] /\ en_what en' = Did (EvCall r c arg x) /\ en_task en' = en_task en).
  { destruct Hs as [w1 k Hk|w1 now Hle|w1 j th X b k r' c' Hth Hp Hc Hcl|w1 j th X b k x Hth Hp Hc Hv Ha Haw]; cbn [w_hist] in Hh2; rewrite Hh1 in Hh2.
    - apply (f_equal length) in Hh2. rewrite app_length in Hh2. cbn in Hh2. lia.
    - apply (f_equal length) in Hh2. rewrite app_length in Hh2. cbn in Hh2. lia.
    - apply app_inj_2 in Hh2 as [_ Hh2]; [|done]. injection Hh2 as Hen. subst en. cbn [en_what en_task en_thread] in *. injection Hw as -> ->.
      destruct b; try done. injection Hc as -> ->. set (x := some_answer None [] (ACall r c arg)).
      eexists _, (mkEntry (w_now w1) j (th_task th) (Did (EvCall r c arg x))), arg, x. split; [|split; [|split; reflexivity]].
      + eapply (step_act o _ j _ _ (ACall r c arg) k x); cbn [w_threads w_mem w_now]; [apply list_lookup_insert; by eapply lookup_lt_Some|exact Hp|done|apply some_answer_valid|done|done].
      + cbn [w_hist th_task]. reflexivity.
    - destruct (ev_one _ b x) as [Hz|(e & He)]; [rewrite Hz in Hh2; apply (f_equal length) in Hh2; rewrite !app_length in Hh2; cbn in Hh2; lia|].
      rewrite He in Hh2. cbn [map] in Hh2. apply app_inj_2 in Hh2 as [_ Hh2]; [|done]. injection Hh2 as Hen. subst en. done. }
  destruct Hnext as (w3 & en' & arg & x & Hs3 & Hh3 & Hw3 & Ht3). rewrite Hh2 in Hh3.
  eapply (done_new o dir w3 (S n) en' r c arg x ns m); [by eapply reach_step|done| |by rewrite Ht3|done|done|lia|].
  - rewrite Hh3. apply list_lookup_middle. rewrite app_length, Hlen. cbn. lia.
  - destruct Hst as (es & Hes & Hws). exists es. split; [|done]. rewrite Hh3, <- (assoc_L (++)), lookup_app_l by lia. by rewrite lookup_take.
Qed.
(** OnFree outside load calls is called by the release goroutine of a manager with that plugin *)
Lemma free_task o dir w n en i : reach o dir w -> w_hist w !! n = Some en -> is_load (en_task en) = false -> calls_on ROnFree i en ->
  exists m d, en_task en = TFree m d /\ i ∈ insts m.
Proof.
  intros HR Hn Hl (c & <- & Hc). destruct (entry_trace _ _ _ _ _ HR Hn) as (e & t' & r & Hex & He).
  assert (exists arg x, e = EvCall ROnFree c arg x) as (arg & x & ->).
  { destruct Hc as [Hw|(arg & x & Hw)]; rewrite Hw in He; destruct He as [He|(r' & c' & arg' & x' & -> & He)]; try done; [injection He as <- <-; eauto|injection He as <-; eauto]. }
  pose proof (wfp_task _ _ _ _ Hex) as Hwf. destruct (Hwf _ _ _ eq_refl) as (t0 & Ht0). assert (Hwf' := Hwf). rewrite Ht0, <- (assoc_L (++)) in Hwf'. destruct (Hwf' t0 _ _ eq_refl) as (t1 & mid & v & Ht1 & _).
  assert (Hin : EvRefDec mid (c_inst c) v ∈ events_of (en_thread en) (take n (w_hist w))). { rewrite Ht0, Ht1, !elem_of_app. left. right. left. }
  destruct (b_index _ _ _ (reach_basic _ _ _ HR) en) as (th & Hth & Hta); [by eapply elem_of_list_lookup_2|].
  assert (Hft : exists m d, en_task en = TFree m d).
  { destruct (en_task en) as [a|m d| | |dd|m b name params] eqn:Ht; try done; [by exists m, d|..];
      (exfalso; apply (refless_task _ _ _ _ (c_inst c)) in Hex; [|done|intros; congruence]; apply Forall_app in Hex as [Hex _]; rewrite Forall_forall in Hex; apply Hex in Hin; cbn [weight] in Hin; rewrite decide_True in Hin by done; done). }
  destruct Hft as (m & d & Ht). exists m, d. split; [done|]. rewrite Ht in Hta.
  assert (HD : distinct_registrations o).
  { destruct (o_static o) as [st|] eqn:Hst; [by destruct (no_release_thread _ _ _ _ _ _ m d HR Hst Hth)|by apply dynamic_distinct]. }
  assert (Hready : deps_ready (pm_map m) (pm_ordered m)).
  { destruct (reach_tokens _ _ _ HR HD) as (H & rest & y & HT). apply (lg_ready _ _ _ (tk_ledger _ _ _ _ _ HT)). apply (tk_stores _ _ _ _ _ HT). apply elem_of_app. left.
    apply elem_of_list_fmap. exists (en_thread en, m). split; [done|]. apply frees_in. by exists th, d. }
  assert (Hin' : EvRefDec mid (c_inst c) v ∈ events_of (en_thread en) (w_hist w)).
  { apply events_of_in in Hin as (ed & Hed & Hdj & Hdw). apply events_of_in. exists ed. split_and!; [|done|done]. rewrite <- (take_drop n (w_hist w)). apply elem_of_app. by left. }
  destruct (free_trace _ _ _ _ _ _ _ HR Hth Hta Hready) as [Hz|(t & t2 & Hev & Hrel)]; [rewrite Hz in Hin'; by apply elem_of_nil in Hin'|].
  rewrite Hev in Hin'. apply elem_of_cons in Hin' as [?|Hin']; [done|]. destruct (released_facts _ _ Hrel) as (ps & Hrf & Hperm & _).
  assert (Hd : c_inst c ∈ decrements (t ++ t2)). { apply dec_in. exists mid, v. apply elem_of_app. by left. }
  unfold insts. rewrite <- Hperm. destruct Hrf as [_ _ _ Hdec]. by rewrite Hdec in Hd.
Qed.
(** The functions called to start a plugin (OnLoad, OnInit and the others) run before its OnFree, wherever either runs: the plugin needs no lock to use in OnFree what it made in OnInit. *)
Theorem C75_started_before_freed o dir w n1 n2 e1 e2 r i : reach o dir w -> w_hist w !! n1 = Some e1 -> w_hist w !! n2 = Some e2 -> (n1 < n2)%nat ->
  is_load (en_task e1) = true -> calls_on r i e1 -> starts_plugin r -> calls_on ROnFree i e2 -> before (w_hist w) n1 n2.
Proof.
  intros HR H1 H2 Hlt L1 Hc1 Hr Hc2. destruct (is_load (en_task e2)) eqn:L2; [by eapply C75_loads_never_race|].
  destruct (free_task _ _ _ _ _ _ HR H2 L2 Hc2) as (m & d & Ht & Hi).
  assert (HD : distinct_registrations o).
  { destruct (b_index _ _ _ (reach_basic _ _ _ HR) e2) as (th & Hth & Hta); [by eapply elem_of_list_lookup_2|].
    destruct (o_static o) as [st|] eqn:Hst; [by destruct (no_release_thread _ _ _ _ _ _ m d HR Hst Hth); congruence|by apply dynamic_distinct]. }
  destruct (go_before _ _ _ _ _ _ _ HR H2 Ht) as (k & ek & Hk & Hwk & Hb). destruct (spawn_stored _ _ _ _ _ _ _ HR Hk Hwk) as (Lk & ns & es & Hns & Hes & Hws & _).
  destruct (lt_eq_lt_dec n1 k) as [[Hc|Hc]|Hc].
  - eapply before_trans; [exact (C75_loads_never_race _ _ _ _ _ _ _ HR H1 Hk Hc L1 Lk)|exact Hb].
  - exfalso. subst k. destruct Hc1 as (c & _ & [Hw|(arg & x & Hw)]); congruence.
  - exfalso. eapply (started_new o dir w n1 e1 r i ns m); try done; [lia|]. by exists es.
Qed.

(** *** The plugin directory *)
(** ResetPluginDir is ordered with nothing: no other goroutine's action happens before it or after it. *)
Theorem C75_ResetPluginDir_is_not_ordered o dir w n en d : reach o dir w -> w_hist w !! n = Some en -> en_task en = TResetDir d ->
  en_what en = Did (EvSetDir d) /\ forall k, ~ before (w_hist w) n k /\ ~ before (w_hist w) k n.
Proof.
  intros HR Hn Hta.
  assert (Hone : forall n en d, w_hist w !! n = Some en -> en_task en = TResetDir d -> en_what en = Did (EvSetDir d) /\ events_of (en_thread en) (take n (w_hist w)) = []).
  { clear n en d Hn Hta. intros n en d Hn Hta. destruct (entry_trace _ _ _ _ _ HR Hn) as (e & t' & r & Hex & He). rewrite Hta in Hex. cbn [task_prog] in Hex. unfold ResetPluginDir in Hex.
    apply exec_bind in Hex as (t1 & t2 & r' & Heq & H1 & [-> ->]). apply exec_do in H1 as [_ ->]. cbn [ev app] in Heq.
    destruct (events_of (en_thread en) (take n (w_hist w))) as [|e0 l]; [|destruct l; done]. injection Heq as -> _. split; [|done]. by destruct He as [He|(? & ? & ? & ? & ? & _)]. }
  split; [by apply (Hone n)|].
  assert (Hno : forall n1 n2, before (w_hist w) n1 n2 -> forall e1 e2 d, w_hist w !! n1 = Some e1 -> w_hist w !! n2 = Some e2 -> en_task e1 <> TResetDir d /\ en_task e2 <> TResetDir d).
  { induction 1 as [n1 n2 e1 e2 H1 H2 Hlt Hj|n1 n2 e1 e2 H1 H2 Hlt Hw1 Hw2|n1 n2 e1 e2 m H1 H2 Hlt Hw1 Hw2 _|n1 n2 e1 e2 i H1 H2 Hlt Hw1 Hw2|n1 n2 e1 e2 m d' H1 H2 Hlt Hw1 Hw2|n1 n2 n3 Hb1 IH1 Hb2 IH2];
      intros e1' e2' dd H1' H2'; try (rewrite H1 in H1'; injection H1' as <-; rewrite H2 in H2'; injection H2' as <-).
    - assert (Hcon : en_task e2 <> TResetDir dd).
      { intros Ht. destruct (Hone _ _ _ H2 Ht) as [_ Hz]. pose proof (same_task _ _ _ _ _ _ _ HR H1 H2 Hj) as Hst. rewrite Ht in Hst. destruct (Hone _ _ _ H1 Hst) as [Hw _].
        pose proof (position_event _ _ _ _ _ Hlt H1 Hw) as Hin. rewrite Hj, Hz in Hin. by apply elem_of_nil in Hin. }
      split; [|done]. by rewrite (same_task _ _ _ _ _ _ _ HR H1 H2 Hj).
    - split; intros Ht; [destruct (Hone _ _ _ H1 Ht)|destruct (Hone _ _ _ H2 Ht)]; congruence.
    - split; intros Ht; [destruct (Hone _ _ _ H1 Ht)|destruct (Hone _ _ _ H2 Ht)]; congruence.
    - unfold counts in *. split; intros Ht; [destruct (Hone _ _ _ H1 Ht) as [Hw _]; rewrite Hw in Hw1|destruct (Hone _ _ _ H2 Ht) as [Hw _]; rewrite Hw in Hw2]; done.
    - split; intros Ht; [destruct (Hone _ _ _ H1 Ht)|]; congruence.
    - assert (exists em, w_hist w !! n2 = Some em) as (em & Hm).
      { apply lookup_lt_is_Some_2. pose proof (before_lt _ _ _ Hb2). apply lookup_lt_Some in H2'. lia. }
      split; [by apply (IH1 _ _ dd H1' Hm)|by apply (IH2 _ _ dd Hm H2')]. }
  intros k. split; intros Hb.
  - assert (exists em, w_hist w !! k = Some em) as (em & Hm).
    { clear -Hb. induction Hb; eauto. }
    by destruct (Hno _ _ Hb _ _ d Hn Hm).
  - assert (exists em, w_hist w !! k = Some em) as (em & Hm).
    { clear -Hb. induction Hb; eauto. }
    by destruct (Hno _ _ Hb _ _ d Hm Hn).
Qed.
(** So calling ResetPluginDir while another goroutine loads is a data race on the plugin directory: a write and a read that nothing orders. *)
Definition dir_race (h : list entry) (n1 n2 : nat) : Prop :=
  exists e1 e2 d d', h !! n1 = Some e1 /\ h !! n2 = Some e2 /\ en_thread e1 <> en_thread e2 /\ en_what e1 = Did (EvSetDir d) /\ en_what e2 = Did (EvGetDir d') /\
    ~ before h n1 n2 /\ ~ before h n2 n1.
Theorem C75_plugin_directory_races o dir w n1 n2 e1 e2 d d' : reach o dir w -> w_hist w !! n1 = Some e1 -> w_hist w !! n2 = Some e2 ->
  en_task e1 = TResetDir d -> en_what e2 = Did (EvGetDir d') -> dir_race (w_hist w) n1 n2.
Proof.
  intros HR H1 H2 Ht Hw. destruct (C75_ResetPluginDir_is_not_ordered _ _ _ _ _ _ HR H1 Ht) as [Hw1 Hno]. exists e1, e2, d, d'. split_and!; [done|done| |done|done|apply Hno|apply Hno].
  intros Hj. destruct (lt_eq_lt_dec n1 n2) as [[Hc|Hc]|Hc].
  - apply (proj1 (Hno n2)). by eapply before_program.
  - subst n2. congruence.
  - apply (proj2 (Hno n2)). by eapply before_program.
Qed.
End Props.

(** ** Examples *)
Definition sees (f : entry -> bool) (w : world) (n : nat) : bool := match w_hist w !! n with Some en => f en | None => false end.
Lemma sees_entry f w n : sees f w n = true -> exists en, w_hist w !! n = Some en /\ f en = true.
Proof. unfold sees. destruct (w_hist w !! n) as [en|]; [|done]. eauto. Qed.
Definition begins_on (load : bool) (r : role) (i : inst) (en : entry) : bool :=
  match en_what en with Began r' c => bool_decide (r' = r) && bool_decide (c_inst c = i) && Bool.eqb (is_load (en_task en)) load | _ => false end.
Lemma begins_calls load r i en : begins_on load r i en = true -> calls_on r i en /\ is_load (en_task en) = load.
Proof.
  unfold begins_on. destruct (en_what en) as [r' c|] eqn:Hw; [|done]. intros H. apply andb_true_iff in H as [H H3]. apply andb_true_iff in H as [H1 H2].
  apply bool_decide_eq_true in H1, H2. apply Bool.eqb_prop in H3. subst. split; [|done]. exists c. eauto.
Qed.
(** goroutine 0 called OnInit of plugin c (instance 3); goroutine 3 released the first manager, and called OnFree of c *)
Example C75_started_before_freed_case : reach dyn "/p" busy /\ sees (begins_on true ROnInit 3%N) busy 91 = true /\ sees (begins_on false ROnFree 3%N) busy 239 = true /\ before (w_hist busy) 91 239.
Proof.
  assert (H1 : sees (begins_on true ROnInit 3%N) busy 91 = true) by (vm_compute; reflexivity). assert (H2 : sees (begins_on false ROnFree 3%N) busy 239 = true) by (vm_compute; reflexivity).
  pose proof busy_reach as HR. revert HR H1 H2. generalize busy. intros w HR H1 H2. split_and!; try done.
  destruct (sees_entry _ _ _ H1) as (e1 & E1 & B1). destruct (sees_entry _ _ _ H2) as (e2 & E2 & B2). apply begins_calls in B1 as [B1 L1], B2 as [B2 L2].
  eapply (C75_started_before_freed dyn "/p" w 91 239 e1 e2 ROnInit 3%N); first [done|by apply distinct_dynamic|lia].
Qed.
(** Current() (goroutine 6) has got the manager stored by goroutine 2 *)
Definition gets_current (en : entry) : bool := match en_what en, en_task en with Did (EvLoadCurrent (Some _)), TCurrent => true | _, _ => false end.
Definition stores_some (en : entry) : bool := match en_what en with Did (EvStore _) => true | _ => false end.
Definition spawns_some (en : entry) : bool := match en_what en with Did (EvSpawnFree _ _) => true | _ => false end.
Definition drops_inst (i : inst) (en : entry) : bool := match en_what en with Did (EvRefDec _ i' _) => bool_decide (i' = i) | _ => false end.
Example C75_case : reach dyn "/p" busy /\ distinct_registrations dyn /\ sees gets_current busy 228 = true /\ List.filter (sees stores_some busy) (seq 0 260) = [94; 148; 224]%nat /\
  List.filter (sees spawns_some busy) (seq 0 260) = [147; 223]%nat /\ sees (drops_inst 3%N) busy 230 = true /\ omap (fun n => en_thread <$> w_hist busy !! n) [91; 94; 148; 224; 228; 230; 239] = [0; 0; 1; 2; 6; 3; 3]%nat.
Proof. split_and!; [apply busy_reach|by apply distinct_dynamic|vm_compute; reflexivity..]. Qed.
Definition resets (en : entry) : bool := match en_task en with TResetDir _ => true | _ => false end.
Definition gets_dir (en : entry) : bool := match en_what en with Did (EvGetDir _) => true | _ => false end.
Example C75_race_case : reach dyn "/p" moved /\ dir_race (w_hist moved) 3 1 /\ dir_race (w_hist moved) 3 4.
Proof.
  assert (HR : reach dyn "/p" moved). { apply sched_reach. unfold moved_cmds. repeat apply Forall_cons_2; try exact I; try apply Forall_nil_2; unfold cmd_ok; apply world0_ok. }
  assert (H3 : sees resets moved 3 = true) by (vm_compute; reflexivity). assert (H1 : sees gets_dir moved 1 = true) by (vm_compute; reflexivity). assert (H4 : sees gets_dir moved 4 = true) by (vm_compute; reflexivity).
  revert HR H3 H1 H4. generalize moved. intros w HR H3 H1 H4. split; [done|].
  destruct (sees_entry _ _ _ H3) as (e3 & E3 & B3). destruct (sees_entry _ _ _ H1) as (e1 & E1 & B1). destruct (sees_entry _ _ _ H4) as (e4 & E4 & B4).
  unfold resets in B3. destruct (en_task e3) as [| | | |d|] eqn:Ht; try done. unfold gets_dir in B1, B4.
  destruct (en_what e1) as [|x1] eqn:W1; [done|]. destruct x1; try done. destruct (en_what e4) as [|x4] eqn:W4; [done|]. destruct x4; try done.
  split; by eapply C75_plugin_directory_races.
Qed.

Print Assumptions C75_loads_never_race.
Print Assumptions C75_managers_are_published_safely.
Print Assumptions C75_published_once.
Print Assumptions C75_released_once.
Print Assumptions C75_started_before_freed.
Print Assumptions C75_given_up_before_freed.
Print Assumptions C75_users_are_not_waited_for.
Print Assumptions C75_ResetPluginDir_is_not_ordered.
Print Assumptions C75_plugin_directory_races.
