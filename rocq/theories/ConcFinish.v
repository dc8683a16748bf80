(** All goroutines can always finish *)
From Verif Require Export ConcSerial.

Section Proofs.
Context {E : GoEnv}.

(** answers that agree with the memory *)
Definition mem_answer (s : mem) {X} (a : act X) : X :=
  match a in act X return X with
  | AGetDir => me_dir s
  | ALoadCurrent => me_current s
  | ALoadCounter => me_counter s
  | ANewInst _ _ => fresh (dom (me_refs s) : gset N)
  | ARefInc _ i => (refs_of s i + 1)%Z
  | ARefDec _ i => (refs_of s i - 1)%Z
  | AOnce i => bool_decide (i ∉ me_once s)
  | ANewMgr => (fresh (me_mgrs s), (moment0, 0%N))
  | a => some_answer None [] a
  end.
Lemma mem_answer_valid s X (a : act X) : valid a (mem_answer s a).
Proof. pose proof (some_answer_valid None [] X a) as H. by destruct a. Qed.
Lemma mem_answer_agrees s X (a : act X) : (forall (H : X = unit), eq_rect X act a unit H <> ALock) \/ me_lock s = None -> answers s a (mem_answer s a).
Proof.
  intros Hl. destruct a; try done; cbn.
  - destruct Hl as [Hl|Hl]; [|done]. by specialize (Hl eq_refl).
  - apply not_elem_of_dom. apply is_fresh.
  - apply is_fresh.
Qed.

Definition alone (o : opts) (j : nat) (w w' : world) (th : thread) : Prop :=
  rtc (step o) w w' /\ (exists th', w_threads w' !! j = Some th' /\ finished th' /\ th_task th' = th_task th) /\
  (forall i, i <> j -> (i < length (w_threads w))%nat -> w_threads w' !! i = w_threads w !! i) /\
  (forall i th', (length (w_threads w) <= i)%nat -> w_threads w' !! i = Some th' -> is_load (th_task th') = false) /\
  (length (w_threads w) <= length (w_threads w'))%nat /\
  (is_load (th_task th) = false -> length (w_threads w') = length (w_threads w)) /\
  (me_lock (w_mem w') = None \/ me_lock (w_mem w') = Some j).

Lemma alone_trans o j w w1 w2 th th1 : rtc (step o) w w1 -> w_threads w1 !! j = Some th1 -> th_task th1 = th_task th -> (j < length (w_threads w))%nat ->
  (forall i, i <> j -> (i < length (w_threads w))%nat -> w_threads w1 !! i = w_threads w !! i) ->
  (forall i th', (length (w_threads w) <= i)%nat -> w_threads w1 !! i = Some th' -> is_load (th_task th') = false) ->
  (length (w_threads w) <= length (w_threads w1))%nat -> (is_load (th_task th) = false -> length (w_threads w1) = length (w_threads w)) ->
  alone o j w1 w2 th1 -> alone o j w w2 th.
Proof.
  intros H0 H1 H2 Hj H3 H4 H5 H6 (A0 & (th2 & A1 & A2 & A3) & A4 & A5 & A6 & A7 & A8). unfold alone. split_and!.
  - by etrans.
  - exists th2. split_and!; [done|done|congruence].
  - intros i Hi Hlt. rewrite A4 by (done || lia). by apply H3.
  - intros i th' Hle Hi. destruct (decide (length (w_threads w1) <= i)%nat) as [Hd|Hd]; [by eapply A5|].
    rewrite A4 in Hi by lia. by eapply H4.
  - lia.
  - intros Hl. rewrite A7 by congruence. by apply H6.
  - done.
Qed.

Lemma run_alone o dir p : forall w j th, reach o dir w -> w_threads w !! j = Some th -> th_prog th = p ->
  (me_lock (w_mem w) = None \/ me_lock (w_mem w) = Some j) -> exists w', alone o j w w' th.
Proof.
  induction p as [r|X a k IH]; intros w j th HR Hth Hp Hl.
  { exists w. unfold alone. split_and!; try done.
    - exists th. split_and!; [done|by exists r|done].
    - intros i th' Hle Hi. apply lookup_lt_Some in Hi. lia. }
  (* a plugin call has to begin first *)
  assert (Hbeg : exists w1 th1, rtc (step o) w w1 /\ w_threads w1 !! j = Some th1 /\ th_prog th1 = Act a k /\ th_task th1 = th_task th /\ (calls a <> None -> th_called th1 = true) /\
     w_mem w1 = w_mem w /\ length (w_threads w1) = length (w_threads w) /\ (forall i, i <> j -> w_threads w1 !! i = w_threads w !! i) /\ awake (w_now w1) (th_start th1) a).
  { assert (Htm : exists w0, rtc (step o) w w0 /\ w_threads w0 = w_threads w /\ w_mem w0 = w_mem w /\ awake (w_now w0) (th_start th) a).
    { exists (mkWorld (Z.max (w_now w) (match a with ASleep _ d => th_start th + d | _ => 0 end)) (w_mem w) (w_threads w) (w_hist w)). split_and!; [|done|done|].
      - apply rtc_once. constructor. lia.
      - destruct a; try done. cbn. lia. }
    destruct Htm as (w0 & Hst & Heq & Hm & Haw). rewrite <- Heq in Hth.
    destruct (calls a) as [[r c]|] eqn:Hc; [|exists w0, th; split_and!; try done; rewrite Heq; done].
    destruct (th_called th) eqn:Hcl; [exists w0, th; split_and!; try done; rewrite Heq; done|].
    eexists _, _. split_and!.
    - eapply rtc_r; [exact Hst|]. eapply step_begin; [exact Hth|exact Hp|exact Hc|exact Hcl].
    - cbn. apply list_lookup_insert. by eapply lookup_lt_Some.
    - done.
    - done.
    - done.
    - done.
    - cbn. by rewrite insert_length, Heq.
    - intros i Hi. cbn. by rewrite list_lookup_insert_ne, Heq.
    - done. }
  destruct Hbeg as (w1 & th1 & Hst & Hth1 & Hp1 & Ht1 & Hc1 & Hm1 & Hlen & Hoth & Haw).
  pose proof (reach_steps _ _ _ _ HR Hst) as HR1.
  set (x := mem_answer (w_mem w1) a).
  assert (Hva : valid a x) by apply mem_answer_valid.
  assert (Hans : answers (w_mem w1) a x).
  { apply mem_answer_agrees. rewrite Hm1. destruct Hl as [Hl|Hl]; [by right|left]. intros -> Ha. cbn in Ha. clearbody x. subst a.
    (* the holder does not lock again *)
    destruct (reach_serial _ _ _ HR1) as (h & HS). destruct (s_held _ _ _ HS j) as (th' & b & Hth' & Hb & _ & (t1 & Heq & _)); [by rewrite Hm1|]. rewrite Hth1 in Hth'. injection Hth' as <-.
    pose proof (b_thread _ _ _ (reach_basic _ _ _ HR1) _ _ Hth1) as HP. rewrite Hp1, Hb in HP. apply (partial_act _ _ _ _ x) in HP; [|done].
    destruct (load_prefix _ _ _ _ None [] HP) as (t' & r & Hex & _). rewrite <- (assoc_L (++)) in Hex. cbn [ev app] in Hex.
    destruct (lock_shape _ _ _ _ _ _ _ Hex eq_refl) as [[Hz _]|[(u & _ & _ & Hu & _)|(u & _ & _ & Hu & _)]]; [by rewrite Hz in Heq|done|done]. }
  pose proof (step_act o w1 j th1 X a k x Hth1 Hp1 Hc1 Hva Hans Haw) as Hs. set (w2 := mkWorld _ _ _ _) in Hs.
  assert (Hj1 : (j < length (w_threads w1))%nat) by (by eapply lookup_lt_Some).
  pose proof (reach_step _ _ _ _ HR1 Hs) as HR2.
  assert (Hl2 : me_lock (w_mem w2) = None \/ me_lock (w_mem w2) = Some j).
  { cbn. rewrite <- Hm1 in Hl. destruct a; try done; cbn; by (left + right). }
  set (th2 := mkThread (th_task th1) (th_start th1) (k x) false).
  assert (Hth2 : w_threads w2 !! j = Some th2). { apply lookup_app_l_Some. by apply list_lookup_insert. }
  destruct (IH x w2 j th2 HR2 Hth2 eq_refl Hl2) as (w3 & HA).
  exists w3. eapply (alone_trans o j w w2 w3 th th2); try done.
  - by eapply rtc_r.
  - rewrite <- Hlen. done.
  - intros i Hi Hlt. cbn. rewrite lookup_app_l by (rewrite insert_length; lia). rewrite list_lookup_insert_ne by done. by apply Hoth.
  - intros i th' Hle Hi. cbn in Hi. rewrite lookup_app_r in Hi by (rewrite insert_length; lia). destruct a; try done. cbn in Hi. destruct (_ - _)%nat; [by injection Hi as <-|done].
  - cbn. rewrite app_length, insert_length. lia.
  - intros Hnl. cbn. rewrite app_length, insert_length, Hlen. destruct a; try (cbn; lia). exfalso.
    pose proof (b_thread _ _ _ (reach_basic _ _ _ HR2) _ _ Hth2) as HP. eapply (partial_forall _ _ _ other_event) in HP; [|intros t r; apply other_task; cbn; congruence].
    change (w_hist w2) with (w_hist w1 ++ done_by (w_now w1) j (th_task th1) [EvSpawnFree m delay]) in HP.
    rewrite events_of_app, events_of_done, decide_True in HP by done. apply Forall_app in HP as [_ HP]. by apply Forall_cons in HP as [? _].
Qed.

(** the lock is free after a goroutine that ran alone *)
Lemma alone_unlocked o dir j w w' th : reach o dir w -> alone o j w w' th -> me_lock (w_mem w') = None.
Proof.
  intros HR (A0 & (th2 & A1 & A2 & A3) & _ & _ & _ & _ & [?|Hl]); [done|]. by destruct (finished_lock _ _ _ _ _ (reach_steps _ _ _ _ HR A0) A1 A2).
Qed.

Definition all_finished (w : world) : Prop := forall j th, w_threads w !! j = Some th -> finished th.

Lemma unlock_first o dir w : reach o dir w -> exists w', rtc (step o) w w' /\ me_lock (w_mem w') = None.
Proof.
  intros HR. destruct (me_lock (w_mem w)) as [j|] eqn:Hl; [|by exists w].
  destruct (reach_serial _ _ _ HR) as (h & HS). destruct (s_held _ _ _ HS j Hl) as (th & a & Hth & _).
  destruct (run_alone o dir _ w j th HR Hth eq_refl (or_intror Hl)) as (w' & HA). exists w'. split; [apply HA|by eapply alone_unlocked].
Qed.

Lemma finish_loads o dir w : reach o dir w -> me_lock (w_mem w) = None -> forall n, (n <= length (w_threads w))%nat ->
  exists w', rtc (step o) w w' /\ me_lock (w_mem w') = None /\ (length (w_threads w) <= length (w_threads w'))%nat /\
    (forall j th, (j < n)%nat -> w_threads w' !! j = Some th -> finished th) /\
    (forall j th, (length (w_threads w) <= j)%nat -> w_threads w' !! j = Some th -> is_load (th_task th) = false).
Proof.
  intros HR Hl. induction n as [|n IH]; intros Hn.
  { exists w. split_and!; try done; [lia|]. intros j th Hle Hj. apply lookup_lt_Some in Hj. lia. }
  destruct IH as (w1 & S1 & L1 & N1 & F1 & T1); [lia|]. pose proof (reach_steps _ _ _ _ HR S1) as HR1.
  destruct (lookup_lt_is_Some_2 (w_threads w1) n) as [th Hth]; [lia|].
  destruct (run_alone o dir _ w1 n th HR1 Hth eq_refl (or_introl L1)) as (w2 & HA). exists w2.
  pose proof (alone_unlocked _ _ _ _ _ _ HR1 HA) as L2. destruct HA as (A0 & (th2 & A1 & A2 & A3) & A4 & A5 & A6 & A7 & A8). split_and!.
  - by etrans.
  - done.
  - lia.
  - intros j th' Hlt Hj. destruct (decide (j = n)) as [->|Hne]; [by simplify_eq|]. rewrite A4 in Hj by lia. eapply F1; [|exact Hj]. lia.
  - intros j th' Hle Hj. destruct (decide (length (w_threads w1) <= j)%nat) as [Hd|Hd]; [by eapply A5|].
    rewrite A4 in Hj by lia. by eapply T1.
Qed.

Lemma finish_rest o dir w m : reach o dir w -> me_lock (w_mem w) = None -> (m <= length (w_threads w))%nat ->
  (forall j th, (j < m)%nat -> w_threads w !! j = Some th -> finished th) ->
  (forall j th, (m <= j)%nat -> w_threads w !! j = Some th -> is_load (th_task th) = false) ->
  forall n, (m <= n <= length (w_threads w))%nat ->
  exists w', rtc (step o) w w' /\ me_lock (w_mem w') = None /\ length (w_threads w') = length (w_threads w) /\
    (forall j th, (j < n)%nat -> w_threads w' !! j = Some th -> finished th) /\
    (forall j th, (m <= j)%nat -> w_threads w' !! j = Some th -> is_load (th_task th) = false).
Proof.
  intros HR Hl Hm HF HT. induction n as [|n IH]; intros Hn.
  { exists w. split_and!; try done. intros j th Hle Hj. lia. }
  destruct (decide (m = S n)) as [->|Hne]; [by exists w|].
  destruct IH as (w1 & S1 & L1 & N1 & F1 & T1); [lia|]. pose proof (reach_steps _ _ _ _ HR S1) as HR1.
  destruct (lookup_lt_is_Some_2 (w_threads w1) n) as [th Hth]; [lia|].
  destruct (run_alone o dir _ w1 n th HR1 Hth eq_refl (or_introl L1)) as (w2 & HA). exists w2.
  pose proof (alone_unlocked _ _ _ _ _ _ HR1 HA) as L2. destruct HA as (A0 & (th2 & A1 & A2 & A3) & A4 & A5 & A6 & A7 & A8).
  assert (Hnl : is_load (th_task th) = false) by (apply (T1 n); [lia|done]). specialize (A7 Hnl). split_and!.
  - by etrans.
  - done.
  - lia.
  - intros j th' Hlt Hj. destruct (decide (j = n)) as [->|Hne']; [by simplify_eq|]. rewrite A4 in Hj by lia. eapply F1; [|exact Hj]. lia.
  - intros j th' Hle Hj. destruct (decide (j = n)) as [->|Hne']; [simplify_eq; by rewrite A3|].
    pose proof (lookup_lt_Some _ _ _ Hj). rewrite A4 in Hj by lia. by eapply T1.
Qed.

(** From every reachable world all goroutines can be run to their end. *)
Lemma can_finish o dir w : reach o dir w -> exists w', rtc (step o) w w' /\ all_finished w' /\ me_lock (w_mem w') = None.
Proof.
  intros HR. destruct (unlock_first _ _ _ HR) as (w1 & S1 & L1). pose proof (reach_steps _ _ _ _ HR S1) as HR1.
  destruct (finish_loads _ _ _ HR1 L1 (length (w_threads w1))) as (w2 & S2 & L2 & N2 & F2 & T2); [lia|]. pose proof (reach_steps _ _ _ _ HR1 S2) as HR2.
  destruct (finish_rest _ _ _ (length (w_threads w1)) HR2 L2 N2 F2 T2 (length (w_threads w2))) as (w3 & S3 & L3 & N3 & F3 & _); [lia|].
  exists w3. split_and!; [|intros j th Hj; eapply F3; [|exact Hj]; apply lookup_lt_Some in Hj; lia|done].
  etrans; [exact S1|]. by etrans.
Qed.

End Proofs.
