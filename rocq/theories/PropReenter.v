(** C65: loading from within a load *)
From Verif Require Import PropConc.

(** ** Specification *)
Section Spec.
Context {E : GoEnv}.

(** User code runs at this point of a call: a plugin function (or InvokeFunc, an exported function, ...), the package
    initialisation run by plugin.Open, newExt, or a reload callback. *)
Definition user_code {X} (a : act X) : Prop :=
  match a with ACall _ _ _ | AOpen _ | ANewExt | ACallback _ _ _ => True | _ => False end.
(** LoadPlugins, Reload and ReloadWithCallback, except for Reload in static mode (refused at once). *)
Definition locking (o : opts) (a : api) : Prop := match a with Call_LoadPlugins _ => True | Call_Reload _ _ => o_static o = None end.
(** Goroutine [j] does nothing between [w] and [w']. *)
Definition rests (j : nat) (w w' : world) : Prop := w_threads w' !! j = w_threads w !! j.
(** Goroutine [k] exists and has not returned. *)
Definition pending (k : nat) (w : world) : Prop := exists th, w_threads w !! k = Some th /\ ~ finished th.
(** Steps of a program in which [j] waits for [k] to return: as long as [k] has not returned, [j] does nothing. *)
Definition waiting (o : opts) (j k : nat) : world -> world -> Prop :=
  rtc (fun w w' => step o w w' /\ (pending k w -> rests j w w')).
End Spec.

Section Props.
Context {E : GoEnv}.

(** ** Proofs *)
(** a step of a goroutine changes it *)
Definition sub {A} (q p : prog A) : Prop := match p with Ret _ => False | Act a k => exists x, q = k x end.
Lemma sub_wf {A} (p : prog A) : Acc sub p.
Proof. induction p as [r|X a k IH]; constructor; intros q Hq; [done|]. destruct Hq as (x & ->). apply IH. Qed.
Lemma tc_sub_irrefl {A} (p : prog A) : ~ tc sub p p.
Proof.
  assert (Hw : Acc (tc sub) p). { pose proof (sub_wf p) as Hw. induction Hw as [p _ IH]. constructor. intros q Hq.
    assert (Hd : sub q p \/ exists q', tc sub q q' /\ sub q' p).
    { clear IH. induction Hq as [x y Hs|x y z Hs Hq IH]; [by left|right]. destruct IH as [IH|(q' & IH & Hs')]; [exists y; split; [by apply tc_once|done]|]. exists q'. split; [by eapply tc_l|done]. }
    destruct Hd as [Hs|(q' & Hq' & Hs)]; [by apply IH|]. by apply (Acc_inv (IH q' Hs)). }
  intros Hp. induction Hw as [p _ IH]. by apply (IH p).
Qed.
Definition later (th th' : thread) : Prop :=
  th' = th \/ (th_prog th' = th_prog th /\ th_called th = false /\ th_called th' = true) \/ tc sub (th_prog th') (th_prog th).
Lemma later_trans a b c : later a b -> later b c -> later a c.
Proof.
  intros [->|[(H1 & H2 & H3)|H1]]; [done|..]; intros [->|[(K1 & K2 & K3)|K1]]; unfold later.
  - right; left; done.
  - congruence.
  - right; right. by rewrite <- H1.
  - by right; right.
  - right; right. by rewrite K1.
  - right; right. etrans; done.
Qed.
Lemma later_anti a b : later a b -> later b a -> a = b.
Proof.
  intros [->|[(H1 & H2 & H3)|H1]]; [done|..]; intros [->|[(K1 & K2 & K3)|K1]]; try done.
  - congruence.
  - exfalso. rewrite H1 in K1. by eapply tc_sub_irrefl.
  - exfalso. rewrite K1 in H1. by eapply tc_sub_irrefl.
  - exfalso. eapply tc_sub_irrefl. etrans; done.
Qed.
Lemma step_later o w w' j th : step o w w' -> w_threads w !! j = Some th -> exists th', w_threads w' !! j = Some th' /\ later th th'.
Proof.
  intros Hs Hi. pose proof (lookup_lt_Some _ _ _ Hi) as Hlt. destruct Hs as [w k Hk|w now Hn|w i thj X a k r c Hth Hp Hc Hcl|w i thj X a k x Hth Hp Hc Hv Ha Haw]; cbn [w_threads].
  - exists th. split; [by apply lookup_app_l_Some|by left].
  - exists th. split; [done|by left].
  - destruct (decide (i = j)) as [->|Hij].
    + rewrite Hth in Hi. injection Hi as <-. eexists. split; [by apply list_lookup_insert|]. by right; left.
    + exists th. split; [by rewrite list_lookup_insert_ne|by left].
  - destruct (decide (i = j)) as [->|Hij].
    + rewrite Hth in Hi. injection Hi as <-. eexists. split; [apply lookup_app_l_Some; by apply list_lookup_insert|]. right; right. apply tc_once. cbn [th_prog]. rewrite Hp. by exists x.
    + exists th. split; [|by left]. apply lookup_app_l_Some. by rewrite list_lookup_insert_ne.
Qed.
Lemma steps_later o w w' j th : rtc (step o) w w' -> w_threads w !! j = Some th -> exists th', w_threads w' !! j = Some th' /\ later th th'.
Proof.
  intros HW. revert th. induction HW as [w|w w1 w2 Hs HW IH]; intros th Hj; [exists th; split; [done|by left]|].
  destruct (step_later _ _ _ _ _ Hs Hj) as (th1 & H1 & L1). destruct (IH _ H1) as (th2 & H2 & L2). exists th2. split; [done|by eapply later_trans].
Qed.
Lemma steps_rest o w w' j k th : rtc (step o) w w' -> w_threads w !! j = Some th -> w_threads w' !! j = Some th -> waiting o j k w w'.
Proof.
  intros HW. induction HW as [w|w w1 w2 Hs HW IH]; intros Hj Hj'; [apply rtc_refl|].
  destruct (step_later _ _ _ _ _ Hs Hj) as (th1 & H1 & L1). destruct (steps_later _ _ _ _ _ HW H1) as (th2 & H2 & L2).
  rewrite H2 in Hj'. injection Hj' as ->. assert (th = th1) as <- by (by apply later_anti).
  eapply rtc_l; [|by apply IH]. split; [done|]. intros _. unfold rests. congruence.
Qed.
(** a goroutine that rests does nothing *)
Lemma rests_events o w w' j th : step o w w' -> w_threads w !! j = Some th -> rests j w w' -> events_of j (w_hist w') = events_of j (w_hist w).
Proof.
  intros Hs Hi Hr. unfold rests in Hr. destruct Hs as [w k Hk|w now Hn|w i thj X a k r c Hth Hp Hc Hcl|w i thj X a k x Hth Hp Hc Hv Ha Haw]; cbn [w_threads w_hist] in *.
  - done.
  - done.
  - rewrite events_of_app. cbn. destruct (decide _); by rewrite app_nil_r.
  - change (map _ (ev a x)) with (done_by (w_now w) i (th_task thj) (ev a x)). rewrite events_of_app, events_of_done. destruct (decide (i = j)) as [->|_]; [|apply app_nil_r].
    exfalso. rewrite Hth in Hi. injection Hi as <-. rewrite Hth in Hr. pose proof (lookup_lt_Some _ _ _ Hth) as Hlt.
    rewrite lookup_app_l, list_lookup_insert in Hr by (rewrite ?insert_length; done). injection Hr as Hr. apply (tc_sub_irrefl (th_prog thj)). apply tc_once. rewrite <- Hr at 1. cbn [th_prog]. rewrite Hp. by exists x.
Qed.

Lemma locking_event o a t r : locking o a -> exec (api_prog o a) t r -> t <> [].
Proof.
  intros Hl Hex ->. destruct (api_shape _ _ _ _ Hex) as [[_ Hs]|(t1 & Heq & _)]; [|done].
  destruct a as [d|d ex]; cbn [locking api_prog] in *; [|congruence]. unfold LoadPlugins in Hex.
  apply exec_locked in Hex as (t1 & H & _). by destruct t1.
Qed.

Lemma user_event X (a : act X) x : user_code a -> exists e, ev a x = [e] /\ unlocking e.
Proof. destruct a; try done; intros _; eexists; split; try reflexivity; exact I. Qed.

(** a load that runs user code holds the lock *)
Lemma inside_lock o dir w j th b X (a : act X) k : reach o dir w -> w_threads w !! j = Some th -> th_task th = TLoad b ->
  th_prog th = Act a k -> user_code a -> me_lock (w_mem w) = Some j.
Proof.
  intros HR Hth Hb Hp Hu. destruct (decide (me_lock (w_mem w) = Some j)) as [|Hn]; [done|exfalso].
  destruct (reach_serial _ _ _ HR) as (h & HS). destruct (s_idle _ _ _ HS _ _ _ Hth Hb Hn) as [He|He].
  - pose proof (b_thread _ _ _ (reach_basic _ _ _ HR) _ _ Hth) as HP. rewrite Hp, Hb, He in HP.
    apply (partial_act _ _ _ _ (some_answer None [] a)) in HP; [|apply some_answer_valid]. rewrite app_nil_l in HP.
    destruct (user_event _ a (some_answer None [] a) Hu) as (e & Hev & Hue). rewrite Hev in HP.
    destruct (load_prefix _ _ _ _ None [] HP) as (t' & r & Hex & _). cbn [app] in Hex.
    destruct (lock_shape _ _ _ _ [] _ _ Hex eq_refl) as [[_ ->]|[(u & Hz & _)|(u & Hz & _)]]; done.
  - destruct (reach_unlock _ _ _ HR _ _ _ Hth Hb) as [_ Hf]. destruct (Hf He) as (r & Hr). congruence.
Qed.

(** loads that do not hold the lock do nothing while it is held *)
Lemma idle_event o dir w i th b X (a : act X) k x : reach o dir w -> w_threads w !! i = Some th -> th_task th = TLoad b -> th_prog th = Act a k ->
  valid a x -> me_lock (w_mem w) <> Some i -> ev a x = [] \/ ev a x = [EvLock].
Proof.
  intros HR Hth Hb Hp Hv Hn. destruct (reach_serial _ _ _ HR) as (h & HS). destruct (s_idle _ _ _ HS _ _ _ Hth Hb Hn) as [He|He].
  - pose proof (b_thread _ _ _ (reach_basic _ _ _ HR) _ _ Hth) as HP. rewrite Hp, Hb, He in HP.
    apply (partial_act _ _ _ _ x) in HP; [|done]. rewrite app_nil_l in HP.
    destruct (ev_one _ a x) as [Hev|(e & Hev)]; [by left|right]. rewrite Hev in HP |- *.
    destruct (load_prefix _ _ _ _ None [] HP) as (t' & r & Hex & _). cbn [app] in Hex.
    destruct (lock_shape _ _ _ _ [] _ _ Hex eq_refl) as [[_ ->]|[(u & Hz & _)|(u & Hz & _)]]; done.
  - destruct (reach_unlock _ _ _ HR _ _ _ Hth Hb) as [_ Hf]. destruct (Hf He) as (r & Hr). congruence.
Qed.

Lemma lock_event s X (a : act X) x : answers s a x -> ev a x = [EvLock] -> me_lock s = None.
Proof. destruct a; cbn; try done; try (intros _ H; discriminate H). Qed.

(** one step while the holder of the lock rests *)
Lemma held_step o dir w w' j : reach o dir w -> step o w w' -> me_lock (w_mem w) = Some j -> rests j w w' ->
  me_lock (w_mem w') = Some j /\ load_events (w_hist w') = load_events (w_hist w) /\
  (forall i th b, w_threads w !! i = Some th -> th_task th = TLoad b -> events_of i (w_hist w') = events_of i (w_hist w)).
Proof.
  intros HR Hs Hl Ht.
  assert (He : events_of j (w_hist w') = events_of j (w_hist w)).
  { destruct (reach_serial _ _ _ HR) as (h & HS). destruct (s_held _ _ _ HS _ Hl) as (th & b & Hth & _). by eapply rests_events. }
  clear Ht. destruct Hs as [w k Hk|w now Hn|w i th X a k r c Hth Hp Hc Hcl|w i th X a k x Hth Hp Hc Hv Ha Haw].
  - done.
  - done.
  - cbn [w_mem w_hist]. split_and!; [done|rewrite load_events_app|intros i' th' b _ _; rewrite events_of_app].
    + cbn. destruct (is_load _); by rewrite app_nil_r.
    + cbn. destruct (decide _); by rewrite app_nil_r.
  - cbn [w_mem w_hist w_threads] in *. change (map _ (ev a x)) with (done_by (w_now w) i (th_task th) (ev a x)) in *.
    destruct (decide (i = j)) as [->|Hij].
    { rewrite events_of_app, events_of_done, decide_True in He by done. assert (Hev : ev a x = []). { apply (f_equal length) in He. rewrite app_length in He. destruct (ev a x); [done|cbn in He; lia]. }
      split_and!.
      - rewrite lock_update; [done|]. rewrite Hev. constructor.
      - by rewrite Hev, app_nil_r.
      - intros i th' b _ _. by rewrite Hev, app_nil_r. }
    destruct (th_task th) as [b|m d| | |d|m bw nm ps] eqn:Hta.
    { assert (Hev : ev a x = []).
      { destruct (idle_event _ _ _ _ _ _ _ _ _ _ HR Hth Hta Hp Hv) as [Hev|Hev]; [congruence|done|]. apply (lock_event (w_mem w)) in Hev; [congruence|done]. }
      split_and!.
      - rewrite lock_update; [done|]. rewrite Hev. constructor.
      - by rewrite Hev, app_nil_r.
      - intros i' th' b' _ _. by rewrite Hev, app_nil_r. }
    all: rewrite <- Hta in *; (assert (Hnl : is_load (th_task th) = false) by (rewrite Hta; reflexivity));
      (split_and!;
        [|rewrite load_events_app, load_events_done, Hnl; apply app_nil_r
         |intros i' th' b' Hi' Hb'; rewrite events_of_app, events_of_done; destruct (decide (i = i')) as [<-|_]; [|apply app_nil_r];
          rewrite Hth in Hi'; injection Hi' as <-; rewrite Hb' in Hnl; discriminate Hnl]);
      (rewrite lock_update; [done|]);
      pose proof (b_thread _ _ _ (reach_basic _ _ _ HR) _ _ Hth) as HP; rewrite Hp in HP; (apply (partial_act _ _ _ _ x) in HP; [|done]);
      (eapply (partial_forall _ _ _ other_event) in HP; [|intros t r; by apply other_task]); apply Forall_app in HP as [_ HP];
      (eapply Forall_impl; [exact HP|]); intros e; destruct e; done.
Qed.

(** a load that takes the lock cannot have finished without events *)
Lemma silent_pending o dir w i th b : reach o dir w -> w_threads w !! i = Some th -> th_task th = TLoad b -> locking o b -> events_of i (w_hist w) = [] -> ~ finished th.
Proof.
  intros HR Hth Hb Hl He (x & Hx). destruct (finished_call _ _ _ _ _ _ _ HR Hth Hb Hx) as (r & _ & Hex & _). rewrite He in Hex. by eapply locking_event.
Qed.
Lemma step_keeps o w w' i th : step o w w' -> w_threads w !! i = Some th -> exists th', w_threads w' !! i = Some th' /\ th_task th' = th_task th.
Proof.
  intros Hs Hi. pose proof (lookup_lt_Some _ _ _ Hi) as Hlt. destruct Hs as [w k Hk|w now Hn|w j thj X a k r c Hth Hp Hc Hcl|w j thj X a k x Hth Hp Hc Hv Ha Haw]; cbn [w_threads].
  - exists th. split; [by apply lookup_app_l_Some|done].
  - by exists th.
  - destruct (decide (j = i)) as [->|Hij].
    + rewrite Hth in Hi. injection Hi as <-. eexists. split; [by apply list_lookup_insert|done].
    + exists th. split; [by rewrite list_lookup_insert_ne|done].
  - destruct (decide (j = i)) as [->|Hij].
    + rewrite Hth in Hi. injection Hi as <-. eexists. split; [apply lookup_app_l_Some; by apply list_lookup_insert|done].
    + exists th. split; [|done]. apply lookup_app_l_Some. by rewrite list_lookup_insert_ne.
Qed.

Lemma waiting_inv o dir j k w w' : reach o dir w -> waiting o j k w w' -> j <> k ->
  me_lock (w_mem w) = Some j -> (exists thk b, w_threads w !! k = Some thk /\ th_task thk = TLoad b /\ locking o b /\ ~ finished thk) ->
  reach o dir w' /\ me_lock (w_mem w') = Some j /\ pending k w' /\ rests j w w' /\ load_events (w_hist w') = load_events (w_hist w) /\
  (forall i th b, w_threads w' !! i = Some th -> th_task th = TLoad b -> locking o b -> i <> j -> finished th -> EvUnlock ∈ events_of i (w_hist w)).
Proof.
  intros HR HW Hjk. induction HW as [w|w w1 w2 [Hs Hw] HW IH]; intros Hl Hk.
  - split_and!; try done.
    + destruct Hk as (thk & b & H1 & H2 & H3 & H4). by exists thk.
    + intros i th b Hi Hb Hlo Hij (x & Hx). destruct (finished_call _ _ _ _ _ _ _ HR Hi Hb Hx) as (r & _ & Hex & [[He _]|Hu]); [|by apply unlockers_in].
      exfalso. rewrite He in Hex. by eapply locking_event.
  - destruct Hk as (thk & b & H1 & H2 & H3 & H4). pose proof (reach_step _ _ _ _ HR Hs) as HR1.
    assert (Hre : rests j w w1) by (apply Hw; by exists thk).
    destruct (held_step _ _ _ _ _ HR Hs Hl Hre) as (L1 & L2 & L3).
    destruct (step_keeps _ _ _ _ _ Hs H1) as (thk1 & K1 & K2).
    assert (Hek : events_of k (w_hist w) = []).
    { destruct (reach_serial _ _ _ HR) as (h & HS). destruct (s_idle _ _ _ HS _ _ _ H1 H2) as [He|He]; [congruence|done|].
      exfalso. apply H4. by apply (reach_unlock _ _ _ HR _ _ _ H1 H2). }
    destruct IH as (R0 & R1 & R2 & R3 & R4 & R5); [done|done| |].
    { exists thk1, b. split_and!; [done|congruence|done|]. apply (silent_pending o dir w1 k thk1 b); [done|done|congruence|done|]. by rewrite (L3 _ _ _ H1 H2). }
    split_and!; [done|done|done| |congruence|].
    + unfold rests in *. congruence.
    + intros i th b' Hi Hb' Hlo Hij Hf. pose proof (R5 i th b' Hi Hb' Hlo Hij Hf) as Hin.
      destruct (w_threads w !! i) as [th0|] eqn:H0.
      * destruct (step_keeps _ _ _ _ _ Hs H0) as (th1 & T1 & T2).
        assert (Hb1 : exists b1, th_task th0 = TLoad b1).
        { apply events_of_in in Hin as (en & Hen & Hjn & Hwn). destruct (is_load (th_task th0)) eqn:Hld; [destruct (th_task th0); try done; by eexists|].
          exfalso. pose proof (reach_basic _ _ _ HR1) as HB. destruct (b_index _ _ _ HB _ Hen) as (th2 & I1 & I2). rewrite Hjn, T1 in I1. injection I1 as <-.
          assert (Ho : other_event EvUnlock) by (eapply basic_others; [exact HB|exact Hen|congruence|exact Hwn]). exact Ho. }
        destruct Hb1 as (b1 & Hb1). by rewrite <- (L3 _ _ _ H0 Hb1).
      * exfalso. apply events_of_in in Hin as (en & Hen & Hjn & Hwn). destruct (step_hist _ _ _ Hs) as [Heq|(en' & Heq & _)].
        { rewrite Heq in Hen. destruct (b_index _ _ _ (reach_basic _ _ _ HR) _ Hen) as (th2 & I1 & _). congruence. }
        rewrite Heq in Hen. apply elem_of_app in Hen as [Hen|Hen]; [destruct (b_index _ _ _ (reach_basic _ _ _ HR) _ Hen) as (th2 & I1 & _); congruence|].
        apply elem_of_list_singleton in Hen as <-. assert (HLE : EvUnlock ∈ load_events (w_hist w1)).
        { apply load_events_in. pose proof (reach_basic _ _ _ HR1) as HB. assert (Hin' : en ∈ w_hist w1) by (rewrite Heq; apply elem_of_app; right; by left).
          destruct (is_load (en_task en)) eqn:Hld; [destruct (en_task en) eqn:Htk; try done; by exists en, a|].
          exfalso. assert (Ho : other_event EvUnlock) by (eapply basic_others; [exact HB|exact Hin'|exact Hld|exact Hwn]). exact Ho. }
        rewrite Heq, load_events_app in L2. apply (f_equal length) in L2. rewrite app_length in L2.
        rewrite Heq, load_events_app in HLE. assert (Hnil : load_events [en] = []) by (destruct (load_events [en]); [done|cbn in L2; lia]).
        pose proof (reach_basic _ _ _ HR1) as HB. assert (Hin' : en ∈ w_hist w1) by (rewrite Heq; apply elem_of_app; right; by left).
        rewrite load_events_cons, Hwn in Hnil. destruct (is_load (en_task en)) eqn:Hld; [done|].
        assert (Ho : other_event EvUnlock) by (eapply basic_others; [exact HB|exact Hin'|exact Hld|exact Hwn]). exact Ho.
Qed.

(** goroutines that do not load never wait for the lock *)
Lemma run_other o dir p : forall w i th, reach o dir w -> w_threads w !! i = Some th -> th_prog th = p -> is_load (th_task th) = false ->
  exists w', rtc (step o) w w' /\ (exists th', w_threads w' !! i = Some th' /\ finished th' /\ th_task th' = th_task th) /\
    (forall i', i' <> i -> w_threads w' !! i' = w_threads w !! i') /\ me_lock (w_mem w') = me_lock (w_mem w) /\
    load_events (w_hist w') = load_events (w_hist w).
Proof.
  induction p as [r|X a k IH]; intros w j th HR Hth Hp Hnl.
  { exists w. split_and!; try done. exists th. split_and!; [done|by exists r|done]. }
  assert (Hbeg : exists w1 th1, rtc (step o) w w1 /\ w_threads w1 !! j = Some th1 /\ th_prog th1 = Act a k /\ th_task th1 = th_task th /\ (calls a <> None -> th_called th1 = true) /\
     w_mem w1 = w_mem w /\ length (w_threads w1) = length (w_threads w) /\ (forall i, i <> j -> w_threads w1 !! i = w_threads w !! i) /\ awake (w_now w1) (th_start th1) a /\
     load_events (w_hist w1) = load_events (w_hist w)).
  { assert (Htm : exists w0, rtc (step o) w w0 /\ w_threads w0 = w_threads w /\ w_mem w0 = w_mem w /\ awake (w_now w0) (th_start th) a /\ w_hist w0 = w_hist w).
    { exists (mkWorld (Z.max (w_now w) (match a with ASleep _ d => th_start th + d | _ => 0 end)) (w_mem w) (w_threads w) (w_hist w)). split_and!; [|done|done| |done].
      - apply rtc_once. constructor. lia.
      - destruct a; try done. cbn. lia. }
    destruct Htm as (w0 & Hst & Heq & Hm & Haw & Hhi). rewrite <- Heq in Hth.
    destruct (calls a) as [[r c]|] eqn:Hc; [|exists w0, th; split_and!; try done; rewrite ?Heq, ?Hhi; done].
    destruct (th_called th) eqn:Hcl; [exists w0, th; split_and!; try done; rewrite ?Heq, ?Hhi; done|].
    eexists _, _. split_and!.
    - eapply rtc_r; [exact Hst|]. eapply step_begin; [exact Hth|exact Hp|exact Hc|exact Hcl].
    - cbn. apply list_lookup_insert. by eapply lookup_lt_Some.
    - done.
    - done.
    - done.
    - done.
    - cbn. by rewrite insert_length, Heq.
    - intros i Hi. cbn. by rewrite list_lookup_insert_ne, Heq.
    - done.
    - cbn [w_hist]. rewrite load_events_app, Hhi. cbn. destruct (is_load _); by rewrite app_nil_r. }
  destruct Hbeg as (w1 & th1 & Hst & Hth1 & Hp1 & Ht1 & Hc1 & Hm1 & Hlen & Hoth & Haw & Hle).
  pose proof (reach_steps _ _ _ _ HR Hst) as HR1.
  set (x := mem_answer (w_mem w1) a).
  assert (Hva : valid a x) by apply mem_answer_valid.
  assert (HP : Forall other_event (ev a x)).
  { pose proof (b_thread _ _ _ (reach_basic _ _ _ HR1) _ _ Hth1) as HP. rewrite Hp1 in HP. apply (partial_act _ _ _ _ x) in HP; [|done].
    eapply (partial_forall _ _ _ other_event) in HP; [|intros t r; apply other_task; congruence]. by apply Forall_app in HP as [_ HP]. }
  assert (Hans : answers (w_mem w1) a x).
  { apply mem_answer_agrees. left. intros -> Ha. cbn in Ha. clearbody x. subst a. cbn in HP. by apply Forall_cons in HP as [? _]. }
  pose proof (step_act o w1 j th1 X a k x Hth1 Hp1 Hc1 Hva Hans Haw) as Hs. set (w2 := mkWorld _ _ _ _) in Hs.
  assert (Hj1 : (j < length (w_threads w1))%nat) by (by eapply lookup_lt_Some).
  pose proof (reach_step _ _ _ _ HR1 Hs) as HR2.
  set (th2 := mkThread (th_task th1) (th_start th1) (k x) false).
  assert (Hth2 : w_threads w2 !! j = Some th2). { apply lookup_app_l_Some. by apply list_lookup_insert. }
  destruct (IH x w2 j th2 HR2 Hth2 eq_refl) as (w3 & A1 & (th3 & A2 & A3 & A4) & A5 & A6 & A7); [cbn; congruence|].
  assert (Hsp : spawns o (w_now w1) a = []). { destruct a; try done. cbn in HP. by apply Forall_cons in HP as [? _]. }
  exists w3. split_and!.
  - etrans; [by eapply rtc_r|done].
  - exists th3. split_and!; [done|done|]. rewrite A4. done.
  - intros i Hi. rewrite A5 by done. cbn. rewrite Hsp, app_nil_r, list_lookup_insert_ne by done. by apply Hoth.
  - rewrite A6. cbn [w_mem w2]. rewrite lock_update; [by rewrite Hm1|]. eapply Forall_impl; [exact HP|]. intros e; destruct e; done.
  - rewrite A7. cbn [w_hist w2]. change (map _ (ev a x)) with (done_by (w_now w1) j (th_task th1) (ev a x)). rewrite load_events_app, load_events_done, Ht1, Hnl, app_nil_r. done.
Qed.

(** ** C65 *)
(** A load call [b] (goroutine [j]) is in user code.  That code has called LoadPlugins or Reload of the same swapper
    (goroutine [k], which has not returned), and waits for it.  Then [k] never returns, nor does [j], whatever else happens: no
    other load of this swapper returns any more, nothing is published any more, and the reload counter does not move. *)
Theorem C65_loading_within_a_load_hangs o dir w w' j k th b X (a : act X) rest thk c :
  reach o dir w -> w_threads w !! j = Some th -> th_task th = TLoad b -> th_prog th = Act a rest -> user_code a ->
  j <> k -> w_threads w !! k = Some thk -> th_task thk = TLoad c -> locking o c -> ~ finished thk ->
  waiting o j k w w' ->
  pending k w' /\ pending j w' /\
  (forall i thi d, w_threads w' !! i = Some thi -> th_task thi = TLoad d -> locking o d -> finished thi -> EvUnlock ∈ events_of i (w_hist w)) /\
  me_current (w_mem w') = me_current (w_mem w) /\ me_counter (w_mem w') = me_counter (w_mem w).
Proof.
  intros HR Hth Hb Hp Hu Hjk Hk Hc Hlo Hnf HW. pose proof (inside_lock _ _ _ _ _ _ _ _ _ HR Hth Hb Hp Hu) as Hl.
  destruct (waiting_inv _ _ _ _ _ _ HR HW Hjk Hl) as (R0 & R1 & R2 & R3 & R4 & R5); [by exists thk, c|].
  assert (Hj : ~ finished th) by (intros (r & Hr); congruence).
  split_and!.
  - done.
  - exists th. unfold rests in R3. split; [congruence|done].
  - intros i thi d Hi Hd Hld Hf. destruct (decide (i = j)) as [->|Hij]; [|by eapply R5]. exfalso. apply Hj. unfold rests in R3. rewrite R3, Hth in Hi. by injection Hi as <-.
  - rewrite (after_loads _ _ _ (reach_basic _ _ _ R0)), (after_loads _ _ _ (reach_basic _ _ _ HR)). by rewrite R4.
  - rewrite (counted_loads _ _ _ (reach_basic _ _ _ R0)), (counted_loads _ _ _ (reach_basic _ _ _ HR)). by rewrite R4.
Qed.

(** Everything else goes on: a goroutine that calls Current, ReloadCounter, ResetPluginDir or InvokeEach, or releases an old
    manager, can run to its end, whether or not a load hangs, and without any step of another goroutine. *)
Theorem C65_others_go_on o dir w i th : reach o dir w -> w_threads w !! i = Some th -> is_load (th_task th) = false ->
  exists w', rtc (step o) w w' /\ (exists th', w_threads w' !! i = Some th' /\ finished th') /\ forall i', i' <> i -> w_threads w' !! i' = w_threads w !! i'.
Proof.
  intros HR Hi Hl. destruct (run_other _ _ _ _ _ _ HR Hi eq_refl Hl) as (w' & H1 & (th' & H2 & H3 & _) & H4 & _). exists w'. split_and!; [done|by exists th'|done].
Qed.

(** Loading from user code that runs outside load calls (InvokeFunc called by InvokeEach, OnFree of a released plugin) is fine:
    the load can return while that code waits. *)
Theorem C65_loading_outside_a_load_is_fine o dir w j k th thk : reach o dir w -> w_threads w !! j = Some th -> is_load (th_task th) = false ->
  j <> k -> w_threads w !! k = Some thk ->
  exists w', waiting o j k w w' /\ (exists thk', w_threads w' !! k = Some thk' /\ finished thk') /\ w_threads w' !! j = Some th.
Proof.
  intros HR Hj Hl Hjk Hk. pose proof (lookup_lt_Some _ _ _ Hj) as Hjl. pose proof (lookup_lt_Some _ _ _ Hk) as Hkl.
  (* whoever holds the lock returns first *)
  assert (H1 : exists w1, rtc (step o) w w1 /\ me_lock (w_mem w1) = None /\ w_threads w1 !! j = Some th /\ (length (w_threads w) <= length (w_threads w1))%nat).
  { destruct (me_lock (w_mem w)) as [i|] eqn:Hlk; [|by exists w].
    destruct (reach_serial _ _ _ HR) as (h & HS). destruct (s_held _ _ _ HS _ Hlk) as (thi & b & Hi & Hb & _).
    destruct (run_alone o dir _ w i thi HR Hi eq_refl) as (w1 & HA); [by right|]. exists w1. split_and!.
    - apply HA.
    - by eapply alone_unlocked.
    - destruct HA as (_ & _ & HA & _). rewrite HA; [done| |done]. intros ->. rewrite Hj in Hi. injection Hi as <-. by rewrite Hb in Hl.
    - destruct HA as (_ & _ & _ & _ & HA & _). done. }
  destruct H1 as (w1 & Hst & Hlk & Hj1 & Hlen). destruct (lookup_lt_is_Some_2 (w_threads w1) k) as (thk1 & Hk1); [lia|].
  destruct (run_alone o dir _ w1 k thk1 (reach_steps _ _ _ _ HR Hst) Hk1 eq_refl) as (w2 & HA0 & (th2 & HA1 & HA2 & _) & HA3 & _); [by left|].
  assert (Hj2 : w_threads w2 !! j = Some th). { rewrite HA3; [done|congruence|by eapply lookup_lt_Some]. }
  exists w2. split_and!; [|by exists th2|done]. eapply steps_rest; [by etrans|done|done].
Qed.
End Props.

(** ** A concrete case *)
(** A reload is inside a reload callback (the extra callback 5, called with the new manager); Reload has been called again. *)
Definition inner_cmds (n : nat) : list cmd :=
  [SStart (TLoad (Call_LoadPlugins 77)); SRun world0 0 400; SStart (TLoad (Call_Reload 78 (Some 5%N))); SRun world1 1 n; SStart (TLoad (Call_Reload 79 None)); SRun world1 2 10].
Definition outer_cmds : list cmd := [SStart TCurrent; SRun world1 3 10; SStart (TLoad (Call_LoadPlugins 80)); SRun world1 4 10; STime (400 * second)].
Definition what_next (w : world) (j : nat) : string :=
  match w_threads w !! j with
  | Some th => match th_prog th with
               | Act (ACallback cb _ _) _ => "callback"
               | Act (ACall ROnLoad _ _) _ => "OnLoad" | Act (ACall ROnInit _ _) _ => "OnInit"
               | Act (AOpen _) _ => "Open" | Act ANewExt _ => "newExt" | Act ALock _ => "Lock" | Act _ _ => "other" | Ret _ => "returned" end
  | None => "none" end.
Definition within : world := sched dyn (inner_cmds 56) (initially "/p").
Definition later_on : world := sched dyn outer_cmds within.

Lemma one_other o wd i j w : i <> j -> (j < length (w_threads w))%nat -> w_threads (one o wd i w) !! j = w_threads w !! j /\ (length (w_threads w) <= length (w_threads (one o wd i w)))%nat.
Proof.
  intros Hij Hj. unfold one. destruct (w_threads w !! i) as [th|]; [|done]. destruct (th_prog th) as [r|X a k]; [done|].
  assert (Ha : w_threads (act_step o wd w i th a k) !! j = w_threads w !! j /\ (length (w_threads w) <= length (w_threads (act_step o wd w i th a k)))%nat).
  { unfold act_step. destruct (_ && _); [|done]. cbn [w_threads]. rewrite app_length, lookup_app_l, list_lookup_insert_ne, insert_length by (rewrite ?insert_length; done). split; [done|lia]. }
  destruct (calls a) as [[r c]|]; [|done]. destruct (th_called th); [done|]. cbn [w_threads]. rewrite list_lookup_insert_ne, insert_length by done. done.
Qed.
Lemma perform_other o c j w : (match c with SRun _ i _ => i <> j | _ => True end) -> (j < length (w_threads w))%nat ->
  w_threads (perform o c w) !! j = w_threads w !! j /\ (length (w_threads w) <= length (w_threads (perform o c w)))%nat.
Proof.
  intros Hc Hj. destruct c as [k|now|wd i n]; unfold perform.
  - destruct (user_b k); [|done]. cbn [w_threads]. rewrite app_length, lookup_app_l by done. split; [done|lia].
  - by destruct (_ <=? _)%Z.
  - induction n as [|n [IH1 IH2]]; [done|]. cbn [Nat.iter nat_rect]. change (nat_rect _ w _ n) with (Nat.iter n (one o wd i) w). destruct (one_other o wd i j (Nat.iter n (one o wd i) w) Hc) as [H1 H2]; [lia|]. split; [congruence|lia].
Qed.
Lemma sched_other o j cs : forall w, Forall (fun c => match c with SRun _ i _ => i <> j | _ => True end) cs -> (j < length (w_threads w))%nat -> w_threads (sched o cs w) !! j = w_threads w !! j.
Proof.
  induction cs as [|c cs IH]; intros w Hc Hj; [done|]. apply Forall_cons in Hc as [Hc Hcs]. destruct (perform_other o c j w Hc Hj) as [H1 H2].
  change (sched o (c :: cs) w) with (sched o cs (perform o c w)). rewrite IH; [done|done|lia].
Qed.

Lemma within_reach : reach dyn "/p" within.
Proof.
  apply sched_reach. unfold inner_cmds. repeat apply Forall_cons_2; try exact I; try apply Forall_nil_2; unfold cmd_ok; first [apply world0_ok|apply world1_ok].
Qed.
Lemma later_waiting : waiting dyn 1 2 within later_on.
Proof.
  assert (Hlen : length (w_threads within) = 3%nat) by (vm_compute; reflexivity).
  destruct (lookup_lt_is_Some_2 (w_threads within) 1) as (th & Hth); [lia|].
  assert (Hoth : w_threads later_on !! 1 = w_threads within !! 1).
  { apply sched_other; [|lia]. unfold outer_cmds. repeat apply Forall_cons_2; try exact I; try apply Forall_nil_2; lia. }
  eapply steps_rest; [|exact Hth|by rewrite Hoth].
  apply sched_sound. unfold outer_cmds. repeat apply Forall_cons_2; try exact I; try apply Forall_nil_2; unfold cmd_ok; apply world1_ok.
Qed.
Definition load_task (w : world) (j : nat) : option api := match w_threads w !! j with Some th => match th_task th with TLoad a => Some a | _ => None end | None => None end.
(** The callback waits for the inner Reload; meanwhile Current() is called and returns, and another load is called. *)
Example C65_case : reach dyn "/p" within /\ load_task within 1 = Some (Call_Reload 78 (Some 5%N)) /\ what_next within 1 = "callback" /\
  load_task within 2 = Some (Call_Reload 79 None) /\ what_next within 2 = "Lock" /\ waiting dyn 1 2 within later_on /\
  map (ended later_on) (seq 0 5) = [true; false; false; true; false].
Proof. split_and!; [apply within_reach|vm_compute; reflexivity..|apply later_waiting|vm_compute; reflexivity]. Qed.
Example C65_case_hangs : ended later_on 2 = false /\ exists w', rtc (step dyn) within w' /\ what_next w' 3 = "returned".
Proof. split; [vm_compute; reflexivity|]. exists later_on. split; [|vm_compute; reflexivity]. apply sched_sound. unfold outer_cmds. repeat apply Forall_cons_2; try exact I; try apply Forall_nil_2; unfold cmd_ok; apply world1_ok. Qed.

(** A release goroutine (3) and a further Reload (5) are pending. *)
Definition outside : world := sched dyn (take 8 busy_cmds ++ [STime (400 * second); SRun world1 3 2; SStart (TLoad (Call_Reload 80 None))]) (initially "/p").
Example C65_outside_case : reach dyn "/p" outside /\ load_task outside 3 = None /\ load_task outside 5 = Some (Call_Reload 80 None) /\ map (ended outside) [3; 5]%nat = [false; false].
Proof.
  split_and!; [|vm_compute; reflexivity..]. apply sched_reach. unfold busy_cmds. cbn [take app].
  repeat apply Forall_cons_2; try exact I; try apply Forall_nil_2; unfold cmd_ok; first [apply world0_ok|apply world1_ok|apply world_rebuilt_ok].
Qed.

Print Assumptions C65_loading_within_a_load_hangs.
Print Assumptions C65_others_go_on.
Print Assumptions C65_loading_outside_a_load_is_fine.
