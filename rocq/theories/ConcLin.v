(** Load calls of different goroutines do not overlap *)
From Verif Require Export ConcBase.

Section Proofs.
Context {E : GoEnv}.

(** ** The shape of the events of a load call *)
Definition plain_act : forall X, act X -> Prop := fun X a =>
  match a with ALock | AUnlock | ALoadCurrent => False | _ => True end.
Definition plain (e : event) : Prop := match e with EvLock | EvUnlock | EvLoadCurrent _ => False | _ => True end.
Lemma plain_ev X (a : act X) x : plain_act X a -> Forall plain (ev a x).
Proof. destruct a; cbn; intros H; try done; repeat constructor. Qed.
Lemma private_plain {A} (p : prog A) : only private_act p -> only plain_act p.
Proof. apply only_impl. intros X a. by destruct a. Qed.

Lemma plain_new b : only plain_act (newPluginManager b).
Proof. apply only_bind; [by apply only_do|]. intros [mid dn]. apply only_bind; [destruct b; [by apply only_do|done]|]. by intros []. Qed.
Lemma plain_callbacks cbs new old : only plain_act (invokeReloadCallbacks cbs new old).
Proof.
  induction cbs as [|[cb|] cbs IH]; cbn; [done| |exact IH]. split; [done|]. intros x.
  destruct (match x with Val e => e | Err e => Some e | Pan x0 => Some (EPanic None x0) end); [|exact IH].
  apply only_bind; [apply private_plain, private_free|]. by intros [].
Qed.
Lemma plain_static o st data cbs : only plain_act (swLoadStaticPlugins o st data cbs).
Proof.
  apply only_bind; [apply plain_new|]. intros [s|e|x]; [|done|done].
  destruct (match o_whitelist o with [] => Val st | wl => selectStatic st wl ∅ end); [|done|done].
  apply only_bind; [apply private_plain, private_loadStatic|]. intros [s' [|e|x]]; cbn; [|done|done].
  apply only_bind; [apply plain_callbacks|]. by intros [].
Qed.
(** after the old manager has been read *)
Lemma plain_files o files data cbs : files <> [] -> exists k, loadPluginFiles o files data cbs = Act ALoadCurrent k /\ forall old, only plain_act (k old).
Proof.
  intros Hf. destruct files as [|f files]; [done|]. eexists. split; [reflexivity|]. intros old. cbv beta.
  rewrite bind_ret. apply only_bind; [apply plain_new|]. intros [s|e|x]; [|done|done].
  apply only_bind; [apply private_plain, private_loadPlugins|]. intros [s' [|e|x]]; cbn [fst snd]; [|done|done].
  apply only_bind; [apply plain_callbacks|]. intros [[]|e|x]; [|done|done].
  destruct (buildDetails s' (f :: files) ∅); [|done|done].
  apply only_bind; [destruct old; [by apply only_do|done]|]. intros _. apply only_bind; [by apply only_do|]. done.
Qed.

(** the current manager is read before anything is published *)
Definition reads_first (t : list event) : Prop := forall t1 x t2, t = t1 ++ EvLoadCurrent x :: t2 -> forall m, EvStore m ∉ t1.
Definition unlocking (e : event) : Prop := match e with EvLock | EvUnlock => False | _ => True end.
Lemma plain_unlocking t : Forall plain t -> Forall unlocking t.
Proof. intros H. eapply Forall_impl; [exact H|]. by intros []. Qed.
Lemma plain_reads_first t : Forall plain t -> reads_first t.
Proof. intros H t1 x t2 ->. apply Forall_app in H as [_ H]. by apply Forall_cons in H as [[] _]. Qed.

Definition before (e : event) : Prop := match e with EvLock | EvUnlock | EvLoadCurrent _ | EvStore _ => False | _ => True end.
Lemma read_once ta x tb : Forall before ta -> Forall plain tb -> Forall unlocking (ta ++ EvLoadCurrent x :: tb) /\ reads_first (ta ++ EvLoadCurrent x :: tb).
Proof.
  intros Ha Hb. split.
  - apply Forall_app. split; [|apply Forall_cons; split; [done|by apply plain_unlocking]]. eapply Forall_impl; [exact Ha|]. by intros [].
  - intros t1 y t2 Heq m Hm. assert (Hin : forall e, e ∈ t1 -> before e).
    { clear Hm. intros e He. apply app_eq_inv in Heq as [(k & Hk1 & Hk2)|(k & Hk1 & Hk2)].
      - destruct k as [|e' k]; cbn in Hk2.
        + injection Hk2 as <- <-. rewrite (right_id_L [] (++)) in Hk1. subst. rewrite Forall_forall in Ha. by apply Ha.
        + injection Hk2 as <- Hk2. subst ta. apply Forall_app in Ha as [_ Ha]. by apply Forall_cons in Ha as [[] _].
      - destruct k as [|e' k]; cbn in Hk2.
        + rewrite (right_id_L [] (++)) in Hk1. subst. rewrite Forall_forall in Ha. by apply Ha.
        + injection Hk2 as <- ->. apply Forall_app in Hb as [_ Hb]. by apply Forall_cons in Hb as [[] _]. }
    by apply Hin in Hm.
Qed.

Lemma impl_shape o data cbs t r : exec (loadPluginsImpl o data cbs) t r -> Forall unlocking t /\ reads_first t.
Proof.
  assert (Hplain : forall t, Forall plain t -> Forall unlocking t /\ reads_first t).
  { intros t' H. split; [by apply plain_unlocking|by apply plain_reads_first]. }
  intros H. unfold loadPluginsImpl in H. xinv H. apply exec_bind in H as (t1 & t2 & r1 & -> & H1 & H).
  assert (B1 : Forall before t1).
  { revert H1. apply only_exec with (P := fun X a => match a with AStat _ => True | _ => False end); [intros X [] y; cbn; intros; try done; repeat constructor|].
    unfold FindDirectory. destruct (blank x); [done|]. apply only_bind; [by apply only_do|]. by intros [[]| |]. }
  assert (P1 : Forall plain t1). { eapply Forall_impl; [exact B1|]. by intros []. }
  destruct r1 as [[]|e|y].
  2,3: destruct H as [-> ->]; apply Hplain; constructor; [done|]; by rewrite (right_id_L [] (++)).
  xinv H. xinv H. destruct x1 as [abs|e|y].
  2,3: destruct H as [-> ->]; apply Hplain; constructor; [done|]; apply Forall_app; split; [done|repeat constructor].
  xinv H. destruct x1 as [entries|e|y].
  2,3: destruct H as [-> ->]; apply Hplain; constructor; [done|]; apply Forall_app; split; [done|repeat constructor].
  destruct (selectFiles _ _ _) as [files found]. destruct (negb _).
  { destruct H as [-> ->]; apply Hplain; constructor; [done|]; apply Forall_app; split; [done|repeat constructor]. }
  destruct (decide (files = [])) as [->|Hf].
  { destruct H as [-> ->]; apply Hplain; constructor; [done|]; apply Forall_app; split; [done|repeat constructor]. }
  destruct (plain_files o files data cbs Hf) as (k & Hk & Hok). rewrite Hk in H. apply exec_act in H as (cur & t2 & _ & -> & H).
  assert (Ht2 : Forall plain t2). { revert H. apply only_exec with (P := plain_act); [apply plain_ev|apply Hok]. }
  match goal with |- Forall _ ?T /\ _ => assert (Heq : T = ([EvGetDir x] ++ t1 ++ [EvGetDir x0; EvAbs x0 (Val abs); EvReadDir abs (Val entries)]) ++ EvLoadCurrent cur :: t2) end.
  { cbn. by rewrite <- (assoc_L (++)). }
  rewrite Heq. apply read_once; [|done]. apply Forall_app. split; [repeat constructor|]. apply Forall_app. split; [done|repeat constructor].
Qed.

Lemma api_shape o a t r : exec (api_prog o a) t r ->
  (t = [] /\ o_static o <> None) \/ exists t1, t = EvLock :: t1 ++ [EvUnlock] /\ Forall unlocking t1 /\ reads_first t1.
Proof.
  destruct a as [data|data extra]; cbn [api_prog]; intros H.
  - right. apply exec_locked in H as (tb & -> & H). exists tb. split; [done|].
    destruct (o_static o) as [st|]; [|by apply impl_shape in H].
    assert (Forall plain tb). { revert H. apply only_exec with (P := plain_act); [apply plain_ev|apply plain_static]. }
    split; [by apply plain_unlocking|by apply plain_reads_first].
  - unfold ReloadWithCallback in H. destruct (o_static o) as [st|]; [destruct H as [-> _]; by left|].
    right. apply exec_locked in H as (tb & -> & H). exists tb. split; [done|].
    apply exec_bind in H as (t1 & t2 & r1 & -> & H1 & H). apply impl_shape in H1 as [U R].
    assert (Forall plain t2). { destruct r1; [|by destruct H as [-> _]..]. xinv H. destruct H as [-> _]. repeat constructor. }
    split; [apply Forall_app; split; [done|by apply plain_unlocking]|].
    intros ta x tc Heq m Hm. apply app_eq_inv in Heq as [(k & -> & Hk)|(k & -> & Hk)].
    + destruct k as [|e k]; cbn in Hk; [subst t2; by apply Forall_cons in H0 as [[] _]|]. injection Hk as <- ->. by apply (R ta x k eq_refl m).
    + subst t2. apply Forall_app in H0 as [_ H0]. by apply Forall_cons in H0 as [[] _].
Qed.

(** ** Other goroutines *)
Definition other_event (e : event) : Prop :=
  match e with EvLock | EvUnlock | EvStore _ | EvSpawnFree _ _ | EvAddCounter | EvNewInst _ _ _ | EvRefInc _ _ _ => False | _ => True end.
Lemma other_task o k t r : is_load k = false -> exec (task_prog o k) t r -> Forall other_event t.
Proof.
  intros Hk. apply only_exec with (P := fun X a => match a with ALock | AUnlock | AStoreCurrent _ | ASpawnFree _ _ | AAddCounter | ANewInst _ _ | ARefInc _ _ => False | _ => True end);
    [intros X [] y; cbn; intros; try done; repeat constructor|].
  destruct k as [a|m d| | |d|m b name params]; cbn; try done.
  - split; [done|]. intros _. apply only_bind; [|done]. unfold invokeEveryOnFree.
    assert (Hone : forall k, only (fun X (a : act X) => match a with ALock | AUnlock | AStoreCurrent _ | ASpawnFree _ _ | AAddCounter | ANewInst _ _ | ARefInc _ _ => False | _ => True end) (freeKey m k)).
    { intros k. unfold freeKey. destruct (pm_map m !! k); [|done]. unfold freeOne. apply only_bind; [by apply only_do|]. intros v.
      destruct (0 <? v)%Z; [done|]. apply only_bind; [by apply only_do|]. intros []; [|done]. apply only_bind; [|done]. unfold call. by destruct (get_func _ _). }
    destruct (pm_ordered m); [apply only_bind; [by apply only_do|]; intros it|]; apply only_ofor; intros; apply Hone.
  - apply only_bind; [|done]. destruct b; apply only_ofor; intros p _; apply only_bind; try done; unfold call; by destruct (get_func _ _).
Qed.

Lemma exec_task_load o a t r : exec (task_prog o (TLoad a)) t r -> exists r', r = ReturnedLoad r' /\ exec (api_prog o a) t r'.
Proof. intros H. apply exec_bind in H as (t1 & t2 & r' & -> & H1 & [-> ->]). rewrite (right_id_L [] (++)). eauto. Qed.

(** ** Serialisation *)

(** a load call in progress *)
Definition in_progress (o : opts) (cur : option mgr) (t : list event) : Prop :=
  exists t1, t = EvLock :: t1 /\ Forall unlocking t1 /\ (forall x, saw_current t x -> x = cur).

Record serial (o : opts) (w : world) (h : list event) : Prop := mkSerial {
  s_history : history o h (after None h);
  s_free : me_lock (w_mem w) = None -> load_events (w_hist w) = h;
  s_held : forall j, me_lock (w_mem w) = Some j -> exists th a, w_threads w !! j = Some th /\ th_task th = TLoad a /\
     load_events (w_hist w) = h ++ events_of j (w_hist w) /\ in_progress o (after None h) (events_of j (w_hist w));
  s_idle : forall j th a, w_threads w !! j = Some th -> th_task th = TLoad a -> me_lock (w_mem w) <> Some j ->
     events_of j (w_hist w) = [] \/ EvUnlock ∈ events_of j (w_hist w) }.

(** events that matter here happen only in load calls *)
Definition load_only (e : event) : Prop := ~ other_event e.


Lemma basic_others o dir w en e : basic o dir w -> en ∈ w_hist w -> is_load (en_task en) = false -> en_what en = Did e -> other_event e.
Proof.
  intros HB Hen Hk Hw. destruct (b_index _ _ _ HB en Hen) as (th & Hl & Ht).
  pose proof (b_thread _ _ _ HB _ _ Hl) as Hp. rewrite Ht in Hp.
  assert (HF : Forall other_event (events_of (en_thread en) (w_hist w))).
  { eapply partial_forall; [exact Hp|]. intros t r. by apply other_task. }
  rewrite Forall_forall in HF. apply HF. apply events_of_in. eauto.
Qed.

(** what depends on load calls only *)
Lemma events_cons en h : events (en :: h) = match en_what en with Did e => e :: events h | Began _ _ => events h end.
Proof. unfold events. cbn [omap list_omap]. unfold did at 1. by destruct (en_what en). Qed.
Lemma load_events_cons en h : load_events (en :: h) =
  match en_what en with Did e => if is_load (en_task en) then e :: load_events h else load_events h | Began _ _ => load_events h end.
Proof. unfold load_events. cbn [omap list_omap]. unfold did at 1. by destruct (en_what en), (is_load (en_task en)). Qed.
Lemma load_part {B} (f : B -> event -> B) (h : list entry) :
  (forall en e, en ∈ h -> is_load (en_task en) = false -> en_what en = Did e -> forall b, f b e = b) ->
  forall b, fold_left f (events h) b = fold_left f (load_events h) b.
Proof.
  induction h as [|en h IH]; intros H b; [done|]. rewrite events_cons, load_events_cons.
  assert (IH' := IH (fun en' e Hin => H en' e (elem_of_list_further _ _ _ Hin))). clear IH.
  destruct (en_what en) as [r c|e] eqn:Hw; [apply IH'|].
  destruct (is_load (en_task en)) eqn:Hk; cbn [fold_left]; [apply IH'|]. rewrite (H en e) by (try apply elem_of_list_here; done). apply IH'.
Qed.
Lemma load_omap {B} (f : event -> option B) (h : list entry) :
  (forall en e, en ∈ h -> is_load (en_task en) = false -> en_what en = Did e -> f e = None) ->
  omap f (events h) = omap f (load_events h).
Proof.
  induction h as [|en h IH]; intros H; [done|]. rewrite events_cons, load_events_cons.
  assert (IH' := IH (fun en' e Hin => H en' e (elem_of_list_further _ _ _ Hin))). clear IH.
  destruct (en_what en) as [r c|e] eqn:Hw; [apply IH'|].
  destruct (is_load (en_task en)) eqn:Hk; cbn [omap list_omap].
  - destruct (f e); [f_equal|]; apply IH'.
  - rewrite (H en e) by (try apply elem_of_list_here; done). apply IH'.
Qed.
Lemma after_loads o dir w : basic o dir w -> me_current (w_mem w) = after None (load_events (w_hist w)).
Proof.
  intros HB. rewrite (b_current _ _ _ HB). unfold after. apply load_part.
  intros en e Hen Hk Hw b. pose proof (basic_others _ _ _ _ _ HB Hen Hk Hw) as Ho. by destruct e.
Qed.
Lemma counted_loads o dir w : basic o dir w -> me_counter (w_mem w) = Z.of_nat (counted (load_events (w_hist w))).
Proof.
  intros HB. rewrite (b_counter _ _ _ HB). unfold counted. do 2 f_equal. apply load_omap.
  intros en e Hen Hk Hw. pose proof (basic_others _ _ _ _ _ HB Hen Hk Hw) as Ho. by destruct e.
Qed.
Lemma created_loads o dir w : basic o dir w -> created (events (w_hist w)) = created (load_events (w_hist w)).
Proof.
  intros HB. apply load_omap.
  intros en e Hen Hk Hw. pose proof (basic_others _ _ _ _ _ HB Hen Hk Hw) as Ho. by destruct e.
Qed.

Lemma lock_update j s X (a : act X) x : Forall unlocking (ev a x) -> me_lock (update j s a x) = me_lock s.
Proof. destruct a; cbn; try done; intros H; by apply Forall_cons in H as [[] _]. Qed.
Lemma ev_one X (a : act X) x : ev a x = [] \/ exists e, ev a x = [e].
Proof. destruct a; cbn; eauto. Qed.

(** the traces of load calls *)
Lemma load_prefix o a t q cur (used : list inst) : partial (task_prog o (TLoad a)) t q ->
  exists t' r, exec (api_prog o a) (t ++ t') r /\ (forall x, saw_current t' x -> x = cur) /\ NoDup (created t') /\ (forall i, i ∈ created t' -> i ∉ used).
Proof.
  intros Hp. destruct (complete q cur used) as (t' & r & He & Hs & Hn & Hu). apply Hp in He.
  apply exec_task_load in He as (r' & -> & He). eauto 10.
Qed.

Lemma lock_shape o a t r t1 e t2 : exec (api_prog o a) t r -> t = t1 ++ e :: t2 ->
  (t1 = [] /\ e = EvLock) \/
  (exists u, t1 = EvLock :: u /\ Forall unlocking u /\ unlocking e /\ (forall x, e = EvLoadCurrent x -> forall m, EvStore m ∉ t1)) \/
  (exists u, t1 = EvLock :: u /\ Forall unlocking u /\ e = EvUnlock /\ t2 = []).
Proof.
  intros He Heq. apply api_shape in He as [[-> _]|(tb & -> & HU & HR)]; [by destruct t1|].
  destruct t1 as [|e0 t1]; cbn in Heq; [injection Heq as <- <-; by left|]. injection Heq as <- Heq.
  right. apply app_eq_inv in Heq as [(k & -> & Hk)|(k & -> & Hk)].
  - destruct k as [|e' k]; cbn in Hk.
    + injection Hk as -> ->. right. exists t1. rewrite (right_id_L [] (++)) in HU. done.
    + injection Hk as <- ->. left. exists t1. apply Forall_app in HU as [HU1 HU2]. apply Forall_cons in HU2 as [HU2 _]. split_and!; [done..|].
      intros x -> m Hm. apply elem_of_cons in Hm as [Hm|Hm]; [done|]. by apply (HR t1 x k eq_refl m).
  - destruct k as [|e' k]; cbn in Hk.
    + injection Hk as <- <-. right. exists tb. by rewrite (right_id_L [] (++)).
    + injection Hk as -> Hk. by destruct k.
Qed.

Lemma serial_same o w w' h : serial o w h -> me_lock (w_mem w') = me_lock (w_mem w) -> load_events (w_hist w') = load_events (w_hist w) ->
  (forall j th a, w_threads w !! j = Some th -> th_task th = TLoad a -> exists th', w_threads w' !! j = Some th' /\ th_task th' = TLoad a /\ events_of j (w_hist w') = events_of j (w_hist w)) ->
  (forall j th a, w_threads w' !! j = Some th -> th_task th = TLoad a -> events_of j (w_hist w') = [] \/ exists th', w_threads w !! j = Some th' /\ th_task th' = TLoad a /\ events_of j (w_hist w') = events_of j (w_hist w)) ->
  serial o w' h.
Proof.
  intros [H1 H2 H3 H4] Hlock Hload Hold Hnew. split.
  - done.
  - rewrite Hlock, Hload. done.
  - intros j. rewrite Hlock, Hload. intros Hj. destruct (H3 j Hj) as (th & a & Hl & Ht & Hle & Hip).
    destruct (Hold j th a Hl Ht) as (th' & Hl' & Ht' & Hev). exists th', a. by rewrite Hev.
  - intros j th a Hl Ht. rewrite Hlock. intros Hj. destruct (Hnew j th a Hl Ht) as [Hev|(th' & Hl' & Ht' & Hev)]; [by left|].
    rewrite Hev. by eapply H4.
Qed.

Lemma serial_step o dir w w' h : basic o dir w -> serial o w h -> step o w w' -> exists h', serial o w' h'.
Proof.
  intros HB HS Hs. destruct Hs as [w k Hu|w now Hnow|w j th X a k r c Hj Hp Hc Hnc|w j th X a k x Hj Hp Hc Hv Ha Haw].
  - exists h. eapply serial_same; [exact HS|done|done| |]; cbn [w_mem w_threads w_hist].
    + intros j th a Hl Ht. exists th. split_and!; [by apply lookup_app_l_Some|done..].
    + intros j th a Hl Ht. apply lookup_app_Some in Hl as [Hl|[Hlen Hl]]; [right; by exists th|]. left. apply events_of_none.
      intros en Hen. destruct (b_index _ _ _ HB en Hen) as (th' & Hl' & _). apply lookup_lt_Some in Hl'. lia.
  - exists h. eapply serial_same; [exact HS|done|done| |]; cbn [w_mem w_threads w_hist].
    + intros j th a Hl Ht. by exists th.
    + intros j th a Hl Ht. right. by exists th.
  - exists h. pose proof (lookup_lt_Some _ _ _ Hj) as Hlt.
    assert (Hevi : forall i, events_of i (w_hist w ++ [mkEntry (w_now w) j (th_task th) (Began r c)]) = events_of i (w_hist w)).
    { intros i. rewrite events_of_app. cbn. destruct (decide _); apply (right_id_L [] (++)). }
    eapply serial_same; [exact HS|done| | |]; cbn [w_mem w_threads w_hist].
    + rewrite load_events_app. cbn. destruct (is_load _); apply (right_id_L [] (++)).
    + intros i th' a' Hl Ht. rewrite Hevi. destruct (decide (j = i)) as [<-|Hn].
      * rewrite Hj in Hl. injection Hl as ->. eexists. split; [by apply list_lookup_insert|done].
      * exists th'. split; [by rewrite list_lookup_insert_ne|done].
    + intros i th' a' Hl Ht. rewrite Hevi. right. destruct (decide (j = i)) as [<-|Hn].
      * rewrite list_lookup_insert in Hl by done. injection Hl as <-. by exists th.
      * rewrite list_lookup_insert_ne in Hl by done. by exists th'.
  - pose proof (lookup_lt_Some _ _ _ Hj) as Hlt. fold (done_by (w_now w) j (th_task th) (ev a x)).
    (* nothing visible happened to the load calls *)
    assert (Hquiet : (forall i, events_of i (w_hist w ++ done_by (w_now w) j (th_task th) (ev a x)) = events_of i (w_hist w) \/ is_load (th_task th) = false /\ i = j) ->
      load_events (w_hist w ++ done_by (w_now w) j (th_task th) (ev a x)) = load_events (w_hist w) ->
      Forall unlocking (ev a x) ->
      exists h', serial o (mkWorld (w_now w) (update j (w_mem w) a x) (<[j:=mkThread (th_task th) (th_start th) (k x) false]> (w_threads w) ++ spawns o (w_now w) a)
        (w_hist w ++ done_by (w_now w) j (th_task th) (ev a x))) h').
    { intros He Hle HU. exists h. eapply serial_same; [exact HS|by apply lock_update|done| |]; cbn [w_mem w_threads w_hist].
      - intros i th' a' Hl Ht. destruct (decide (j = i)) as [<-|Hn].
        + rewrite Hj in Hl. injection Hl as <-. eexists. split_and!; [apply lookup_app_l_Some; by apply list_lookup_insert|done|].
          destruct (He j) as [He'|[He' _]]; [done|]. by rewrite Ht in He'.
        + exists th'. split_and!; [apply lookup_app_l_Some; by rewrite list_lookup_insert_ne|done|]. destruct (He i) as [He'|[_ He']]; [done|by subst].
      - intros i th' a' Hl Ht. apply lookup_insert_app in Hl as [[-> ->]|[Hn [Hl|[Hlen Hl]]]]; [| | |done].
        + right. exists th. split_and!; [done..|]. destruct (He j) as [He'|[He' _]]; [done|]. cbn in Ht. by rewrite Ht in He'.
        + right. exists th'. split_and!; [done..|]. destruct (He i) as [He'|[_ He']]; [done|by subst].
        + destruct a; cbn [spawns] in Hl; try (by apply elem_of_nil in Hl). apply elem_of_list_singleton in Hl as ->. done. }
    pose proof (partial_act _ _ _ _ _ (eq_ind _ (fun p => partial _ _ p) (b_thread _ _ _ HB _ _ Hj) _ Hp) Hv) as Hpart.
    destruct (is_load (th_task th)) eqn:Hk; cycle 1.
    { (* another task *)
      assert (Ho : Forall other_event (events_of j (w_hist w) ++ ev a x)).
      { eapply partial_forall; [exact Hpart|]. intros t r. by apply other_task. }
      apply Forall_app in Ho as [_ Ho]. apply Hquiet.
      - intros i. destruct (decide (i = j)) as [->|Hn]; [by right|]. left. rewrite events_of_app, events_of_done, decide_False by done. apply (right_id_L [] (++)).
      - rewrite load_events_app, load_events_done, Hk. apply (right_id_L [] (++)).
      - eapply Forall_impl; [exact Ho|]. by intros []. }
    destruct (th_task th) as [ap| | | | |] eqn:Htask; cbn in Hk; try discriminate Hk.
    destruct (ev_one _ a x) as [Hev|[e Hev]].
    { (* no event *) rewrite Hev in *. apply Hquiet; [|cbn; by rewrite (right_id_L [] (++))|constructor]. intros i. left. cbn. by rewrite (right_id_L [] (++)). }
    clear Hquiet. rewrite Hev in *.
    destruct (load_prefix o ap _ _ (after None h) [] Hpart) as (t' & r & He & Hsaw & _).
    rewrite <- (assoc_L (++)) in He. cbn [app] in He.
    assert (Hothers : forall i th' a', (<[j:=mkThread (TLoad ap) (th_start th) (k x) false]> (w_threads w) ++ spawns o (w_now w) a) !! i = Some th' -> th_task th' = TLoad a' -> i <> j ->
      w_threads w !! i = Some th' /\ events_of i (w_hist w ++ done_by (w_now w) j (TLoad ap) [e]) = events_of i (w_hist w)).
    { intros i th' a' Hl Ht Hn. apply lookup_insert_app in Hl as [[-> ->]|[_ [Hl|[Hlen Hl]]]]; [done| | |done].
      - split; [done|]. rewrite events_of_app, events_of_done, decide_False by done. apply (right_id_L [] (++)).
      - destruct a; cbn [spawns] in Hl; try (by apply elem_of_nil in Hl). apply elem_of_list_singleton in Hl as ->. done. }
    destruct (lock_shape _ _ _ _ _ _ _ He eq_refl) as [[Ht1 ->]|[(u & Ht1 & HU & HUe & HR)|(u & Ht1 & HU & -> & ->)]].
    + (* the lock is taken *)
      assert (HL : me_lock (w_mem w) = None /\ me_lock (update j (w_mem w) a x) = Some j).
      { destruct a; try discriminate Hev. done. } destruct HL as [HL HL'].
      exists h. destruct HS as [S1 S2 S3 S4]. split; cbn [w_mem w_threads w_hist].
      * done.
      * rewrite HL'. done.
      * rewrite HL'. intros i [= <-]. eexists _, ap. split; [apply lookup_app_l_Some; by apply list_lookup_insert|]. split; [done|].
        rewrite load_events_app, load_events_done, events_of_app, events_of_done, decide_True by done. cbn [is_load].
        rewrite Ht1, (S2 HL). split; [done|]. exists []. split_and!; [done|constructor|]. intros y Hy. by apply elem_of_list_singleton in Hy.
      * rewrite HL'. intros i th' a' Hl Ht Hn. destruct (Hothers i th' a' Hl Ht) as [Hl' ->]; [congruence|]. apply (S4 i th' a'); [done..|]. by rewrite HL.
    + (* the holder goes on *)
      assert (HL : me_lock (w_mem w) = Some j).
      { destruct (me_lock (w_mem w)) as [i|] eqn:HL; [destruct (decide (i = j)) as [->|Hn]; [done|]|].
        - destruct (s_idle _ _ _ HS j th ap Hj Htask) as [H0|H0]; [congruence| |]; rewrite Ht1 in H0; [done|]. apply elem_of_cons in H0 as [H0|H0]; [done|]. rewrite Forall_forall in HU. by apply HU in H0.
        - destruct (s_idle _ _ _ HS j th ap Hj Htask) as [H0|H0]; [congruence| |]; rewrite Ht1 in H0; [done|]. apply elem_of_cons in H0 as [H0|H0]; [done|]. rewrite Forall_forall in HU. by apply HU in H0. }
      assert (HL' : me_lock (update j (w_mem w) a x) = Some j).
      { rewrite lock_update; [done|]. rewrite Hev. by repeat constructor. }
      exists h. pose proof HS as [S1 S2 S3 S4]. split; cbn [w_mem w_threads w_hist].
      * done.
      * rewrite HL'. done.
      * rewrite HL'. intros i [= <-]. eexists _, ap. split; [apply lookup_app_l_Some; by apply list_lookup_insert|]. split; [done|].
        rewrite load_events_app, load_events_done, events_of_app, events_of_done, decide_True by done. cbn [is_load].
        destruct (S3 j HL) as (th' & a' & Hl' & Ht' & Hle & (u' & Hu' & HU' & Hsaw')). rewrite Hle, (assoc_L (++)). split; [done|].
        exists (u ++ [e]). split_and!; [by rewrite Ht1|apply Forall_app; split; [done|by repeat constructor]|].
        intros y Hy. apply elem_of_app in Hy as [Hy|Hy]; [by apply Hsaw'|]. apply elem_of_list_singleton in Hy. subst e.
        assert (Hcur : y = me_current (w_mem w)). { clear -Hev Ha. destruct a; try discriminate Hev. cbn in Ha. cbn in Hev. congruence. }
        rewrite Hcur, (after_loads _ _ _ HB), Hle, after_app'. 
        assert (Hns : forall m, EvStore m ∉ events_of j (w_hist w)) by (by eapply HR).
        clear -Hns. generalize (after None h) as cur. unfold after. induction (events_of j (w_hist w)) as [|e' t IH]; intros cur; [done|]. cbn [fold_left].
        assert (Hns' : forall m, EvStore m ∉ t). { intros m Hm. apply (Hns m). by right. }
        destruct e'; try (by apply IH). exfalso. apply (Hns m). left.
      * rewrite HL'. intros i th' a' Hl Ht Hn. destruct (Hothers i th' a' Hl Ht) as [Hl' ->]; [congruence|]. apply (S4 i th' a'); [done..|]. by rewrite HL.
    + (* the lock is released: the call is complete *)
      assert (HL : me_lock (w_mem w) = Some j).
      { destruct (me_lock (w_mem w)) as [i|] eqn:HL; [destruct (decide (i = j)) as [->|Hn]; [done|]|].
        - destruct (s_idle _ _ _ HS j th ap Hj Htask) as [H0|H0]; [congruence| |]; rewrite Ht1 in H0; [done|]. apply elem_of_cons in H0 as [H0|H0]; [done|]. rewrite Forall_forall in HU. by apply HU in H0.
        - destruct (s_idle _ _ _ HS j th ap Hj Htask) as [H0|H0]; [congruence| |]; rewrite Ht1 in H0; [done|]. apply elem_of_cons in H0 as [H0|H0]; [done|]. rewrite Forall_forall in HU. by apply HU in H0. }
      assert (HL' : me_lock (update j (w_mem w) a x) = None).
      { destruct a; try discriminate Hev. done. }
      pose proof HS as [S1 S2 S3 S4]. destruct (S3 j HL) as (th' & a' & Hl' & Ht' & Hle & (u' & Hu' & HU' & Hsaw')).
      exists (h ++ events_of j (w_hist w) ++ [EvUnlock]). split; cbn [w_mem w_threads w_hist].
      * rewrite after_app'. eapply history_call; [exact S1| |exact He|].
        -- apply load_call_api. eauto.
        -- intros y Hy. apply elem_of_app in Hy as [Hy|Hy]; [by apply Hsaw'|]. by apply elem_of_list_singleton in Hy.
      * intros _. rewrite load_events_app, load_events_done. cbn [is_load]. by rewrite Hle, (assoc_L (++)).
      * rewrite HL'. done.
      * intros i th'' a'' Hl Ht _. destruct (decide (i = j)) as [->|Hn].
        -- right. rewrite events_of_app, events_of_done, decide_True by done. apply elem_of_app. right. left.
        -- destruct (Hothers i th'' a'' Hl Ht Hn) as [Hl'' ->]. apply (S4 i th'' a''); [done..|]. rewrite HL. congruence.
Qed.

Lemma serial_init o dir : serial o (initially dir) [].
Proof. split; cbn; [constructor|done|done|]. intros j th a H. by rewrite lookup_nil in H. Qed.
Lemma reach_serial o dir w : reach o dir w -> exists h, serial o w h.
Proof.
  induction 1 as [|w w' Hr [h IH] Hs]; [exists []; apply serial_init|]. eapply serial_step; [by apply reach_basic|done|done].
Qed.

End Proofs.
