(** HeapSim.v, continued: the swapper. *)
From Verif Require Export HistoryProofs PrivateProofs.
From Verif Require Export HeapRun.

Section Swap.
Context {E : GoEnv} {HE : HeapEnv} (h0 : heap) (HW0 : wf h0).
Notation base := (h_next h0).
Notation pm := (h_next h0).
Notation inv := (inv h0 pm).
Notation now := (now pm).
Notation cur := (h_cur h0 ≫= view h0).
Notation sim := (sim h0 pm cur).

(** what a call leaves behind *)
Definition left_behind (h : heap) : Prop := wf h /\ frame h0 h /\ exists l, h_log h = l ++ h_log h0 /\ Forall (fun a => (base <= a)%N) l.
Definition final {A} (x : heap * outcome A) (y : outcome A) : Prop := snd x = y /\ left_behind (fst x).
Lemma inv_left h : inv h -> left_behind h.
Proof. intros [HW HF _ _ HG _]. done. Qed.
Lemma start_left : left_behind h0.
Proof. split_and!; [done|apply frame_refl|by exists []]. Qed.

Lemma see_opt_old {B} h old (f : option mgr -> HM B) : frame h0 h -> (forall l, old = Some l -> is_Some (h_mgr h0 !! l)) -> hbind (see_opt old) f h = f (old_view h0 old) h.
Proof.
  intros HF Hold. destruct old as [l|]; [|done]. destruct (Hold l eq_refl) as [x Hx]. destruct (wf_mgr _ HW0 _ _ Hx) as [Hlt _].
  assert (Hx' : h_mgr h !! l = Some x) by (by rewrite (fr_mgr _ _ HF)). assert (Hv0 : view h0 l = Some (view_mgr h0 x)) by (unfold view; by rewrite Hx).
  cbn [old_view]. pose proof (frame_view h0 h l _ HW0 HF Hv0) as Hv. rewrite Hv0. assert (Hv2 : view_mgr h x = view_mgr h0 x) by (unfold view in Hv; rewrite Hx' in Hv; cbn [fmap option_fmap option_map] in Hv; congruence).
  unfold see_opt, hbind, see_mgr. rewrite Hx'. cbn [bind fst snd hret]. by rewrite Hv2.
Qed.
Lemma rel_callbacks h old cbs : inv h -> (forall l, old = Some l -> is_Some (h_mgr h0 !! l)) ->
  rel cur (fun x y => x = (h, y)) (hinvokeReloadCallbacks cbs pm old h) (invokeReloadCallbacks cbs (now h) (old_view h0 old)).
Proof.
  intros HI Hold. destruct (inv_mgr h0 pm h HI) as (m & Hm & _). induction cbs as [|[cb|] cbs IH]; cbn [hinvokeReloadCallbacks invokeReloadCallbacks]; [by apply rel_ret| |exact IH].
  rewrite (hbind_see_mgr h pm m) by done. rewrite see_opt_old; [|apply HI|done]. rewrite <- (now_mgr pm h m Hm). unfold hbind at 1. unfold hdo, do. cbn [bind]. apply rel_act. intros r _. cbn [fst snd]. cbv zeta.
  destruct (match r with Val e => e | Err e => Some e | Pan x => Some (EPanic None x) end) as [e|]; [|exact IH].
  rewrite (now_mgr pm h m Hm). eapply rel_bind; [apply (rel_free cur h pm m); [apply HI|done]|]. intros a b ->. cbn [fst snd]. destruct b; by apply rel_ret.
Qed.
Lemma details_same h files : inv h -> forall acc, hbuildDetails pm files acc h = Ret (h, buildDetails (now h) files acc).
Proof.
  intros HI. destruct (inv_mgr h0 pm h HI) as (m & Hm & _). induction files as [|f files IH]; intros acc; cbn [hbuildDetails buildDetails]; [done|].
  rewrite (hbind_get_mgr h pm m) by done. unfold FindPlugin. destruct (look h0 pm h m (name2key (pluginName f)) HI Hm) as [[-> ->]|(p & v & -> & Hp & -> & _)]; [done|].
  rewrite (hbind_see_plug h p v) by done. apply IH.
Qed.
Lemma store_same {B} h m (f : unit -> HM B) : h_mgr h !! pm = Some m -> hbind (hstore pm) f h = Act (AStoreCurrent (now h)) (fun _ => f tt (put_cur (Some pm) h)).
Proof. intros Hm. unfold hbind at 1. unfold hstore. rewrite (hbind_see_mgr h pm m) by done. rewrite <- (now_mgr pm h m Hm). done. Qed.
Lemma inv_put_cur h : inv h -> left_behind (put_cur (Some pm) h).
Proof.
  intros [[W1 W2 W3 W4 W5] HF _ _ HG (m & Hm & _)]. split_and!; [|by destruct HF|done]. split; [done..|]. cbn. intros l [= <-]. by eexists.
Qed.

(** the new manager *)
Lemma start_inv mid born ext : let h := put_mgr pm (mkHM mid born ∅ [] 0 ∅ ∅ ∅ ext) (bump h0) in
  inv h /\ pristine h0 pm h /\ now h = mkMgr mid born ∅ [] 0 ∅ ∅ ∅ ext.
Proof.
  intros h. assert (Hm : h_mgr h !! pm = Some (mkHM mid born ∅ [] 0 ∅ ∅ ∅ ext)) by (unfold h; cbn; by rewrite lookup_insert).
  assert (Hown : own h0 h (mkHM mid born ∅ [] 0 ∅ ∅ ∅ ext)).
  { split; cbn; intros.
    - pose proof (wf_plug _ HW0 _ _ H0) as [? _]. lia.
    - pose proof (wf_plug _ HW0 _ _ H1) as [? _]. lia.
    - pose proof (wf_plug _ HW0 _ _ H1) as [? _]. lia.
    - by rewrite lookup_empty in H.
    - by apply elem_of_nil in H. }
  split_and!.
  - split; [split| |done|done|exists [pm]; by split; [|constructor]|by eexists].
    + cbn. intros l m Hl. destruct (decide (l = pm)) as [->|Hn].
      * rewrite lookup_insert in Hl. injection Hl as <-. split; [lia|]. split; cbn; [intros k p; by rewrite lookup_empty|intros p Hp; by apply elem_of_nil in Hp].
      * rewrite lookup_insert_ne in Hl by done. destruct (wf_mgr _ HW0 _ _ Hl) as [Hlt Hmw]. split; [lia|done].
    + cbn. intros l p Hp. destruct (wf_plug _ HW0 _ _ Hp). split; [lia|done].
    + cbn. intros l a Ha. apply (wf_arr _ HW0) in Ha. lia.
    + cbn. intros l a Ha. apply (wf_imp _ HW0) in Ha. lia.
    + cbn. intros l Hl. apply insert_is_some. by apply HW0.
    + split; cbn; [lia|done..|]. intros l Hl. by rewrite lookup_insert_ne by lia.
  - eexists. split; [exact Hm|]. split_and!; [done..|]. intros p v Hb Hp. unfold h in Hp. cbn in Hp. apply (wf_plug _ HW0) in Hp as [? _]. lia.
  - rewrite (now_mgr pm h _ Hm). unfold view_mgr. cbn. f_equal. apply map_eq. intros k. by rewrite lookup_omap, !lookup_empty.
Qed.
Definition created_mgr (x : heap * outcome loc) (y : outcome mgr) : Prop :=
  match snd x, y with
  | Val l, Val m => l = pm /\ inv (fst x) /\ pristine h0 pm (fst x) /\ now (fst x) = m
  | Err e, Err e' => e = e' /\ fst x = h0
  | Pan e, Pan e' => e = e' /\ fst x = h0
  | _, _ => False
  end.
Lemma rel_newManager b : rel cur created_mgr (hnewPluginManager b h0) (newPluginManager b).
Proof.
  unfold hnewPluginManager, newPluginManager. unfold hbind at 1. unfold hdo, do. cbn [bind]. apply rel_act. intros [mid born] _. cbn [fst snd].
  unfold hbind. eapply rel_bind; [apply (rel_lift_o cur h0)|]. intros a o ->. cbn [fst snd]. destruct o as [ext|e|x]; [|by apply rel_ret..].
  destruct (start_inv mid born ext) as (H1 & H2 & H3). by apply rel_ret.
Qed.

Lemma cur_old : forall l, h_cur h0 = Some l -> is_Some (h_mgr h0 !! l).
Proof. intros l Hl. by apply HW0. Qed.
Lemma cur_view : old_view h0 (h_cur h0) = cur.
Proof. by destruct (h_cur h0). Qed.

Lemma sim_cur h files data : inv h -> pristine h0 pm h -> sim (fun _ => True) h (hloadPlugins pm files (h_cur h0) data) (loadPlugins files cur data).
Proof. intros HI HP. pose proof (sim_loadPlugins h0 pm cur h files (h_cur h0) data HW0 cur_old HI HP) as H. rewrite cur_view in H. exact H. Qed.
Lemma rel_files o files data cbs : rel cur final (hloadPluginFiles o files data cbs h0) (loadPluginFiles o files data cbs).
Proof.
  unfold hloadPluginFiles, loadPluginFiles. destruct files as [|f files]; [apply rel_ret; by split; [|apply start_left]|]. set (fs := f :: files).
  unfold hbind at 1. unfold hCurrent, Current, do. cbn [bind]. apply rel_cur. cbn [fst snd].
  unfold hbind at 1. eapply rel_bind; [apply rel_newManager|]. intros [h1 o1] o2 Hnew. unfold created_mgr in Hnew. cbn [fst snd] in *.
  destruct o1 as [l|e|x], o2 as [new0|e'|x']; try done; [|destruct Hnew as [-> ->]; apply rel_ret; by split; [|apply start_left]..].
  destruct Hnew as (-> & HI1 & HP1 & <-). unfold hbind at 1.
  eapply rel_bind; [exact (sim_cur h1 fs data HI1 HP1)|].
  intros [h2 o2] [s2 o3] (He & Hs & HI2 & _). cbn [fst snd] in *. subst o3 s2. destruct o2 as [u|e|x]; [|apply rel_ret; by split; [|apply inv_left]..].
  destruct (inv_mgr h0 pm h2 HI2) as (m & Hm & _).
  unfold hbind at 1. eapply rel_bind; [rewrite <- cur_view; by apply (rel_callbacks h2 (h_cur h0) cbs HI2 cur_old)|]. intros a c ->. cbn [fst snd]. destruct c as [u'|e|x]; [|apply rel_ret; by split; [|apply inv_left]..].
  unfold hbind at 1. rewrite details_same by done. cbn [bind fst snd]. destruct (buildDetails (now h2) fs ∅) as [d|e|x]; [|apply rel_ret; by split; [|apply inv_left]..].
  unfold hbind at 1. eapply (rel_bind cur (fun x (y : unit) => x = (h2, Val tt))).
  - destruct (h_cur h0) as [ol|] eqn:Hcur; [|by apply rel_ret]. destruct (cur_old ol Hcur) as [x Hx].
    assert (Hc : Some ol ≫= view h0 = Some (view_mgr h0 x)) by (cbn; unfold view; by rewrite Hx). rewrite Hc.
    pose proof (see_opt_old h2 (Some ol) (fun v => match v with Some v => hdo (ASpawnFree v (free_delay o)) | None => hret tt end) (in_frame _ _ _ HI2)) as Hsee.
    rewrite Hcur in Hsee || idtac. specialize (Hsee ltac:(intros l [= <-]; by eexists)). cbn [old_view] in Hsee. cbn in Hc. rewrite Hc in Hsee.
    unfold see_opt in Hsee. unfold hbind in Hsee |- *. unfold see_mgr in Hsee |- *. destruct (wf_mgr _ HW0 _ _ Hx) as [Hlt _]. rewrite (fr_mgr _ _ (in_frame _ _ _ HI2) _ Hlt), Hx in Hsee |- *.
    cbn [bind fst snd hret] in Hsee |- *. rewrite Hsee. unfold hdo, do. apply rel_act. intros [] _. by apply rel_ret.
  - intros a [] ->. cbn [fst snd]. rewrite (store_same h2 m) by done. unfold do. cbn [bind]. apply rel_act. intros [] _. apply rel_ret. split; [done|]. by apply inv_put_cur.
Qed.
Lemma rel_statics o statics data cbs : rel cur final (hswLoadStaticPlugins o statics data cbs h0) (swLoadStaticPlugins o statics data cbs).
Proof.
  unfold hswLoadStaticPlugins, swLoadStaticPlugins. unfold hbind at 1. eapply rel_bind; [apply rel_newManager|]. intros [h1 o1] o2 Hnew. unfold created_mgr in Hnew. cbn [fst snd] in *.
  destruct o1 as [l|e|x], o2 as [new0|e'|x']; try done; [|destruct Hnew as [-> ->]; apply rel_ret; by split; [|apply start_left]..].
  destruct Hnew as (-> & HI1 & HP1 & <-). unfold hbind at 1. cbn [bind fst snd].
  destruct (match o_whitelist o with [] => Val statics | wl => selectStatic statics wl ∅ end) as [sel|e|x]; [|apply rel_ret; by split; [|apply inv_left]..].
  unfold hbind at 1. eapply rel_bind; [apply (sim_loadStatics h0 pm _ h1 sel data HI1 HP1)|].
  intros [h2 o2] [s2 o3] (He & Hs & HI2 & _). cbn [fst snd] in *. subst o3 s2. destruct o2 as [u|e|x]; [|apply rel_ret; by split; [|apply inv_left]..].
  destruct (inv_mgr h0 pm h2 HI2) as (m & Hm & _).
  unfold hbind at 1. eapply rel_bind; [apply (rel_callbacks h2 None cbs HI2); by intros|]. intros a c ->. cbn [fst snd]. destruct c as [u'|e|x]; [|apply rel_ret; by split; [|apply inv_left]..].
  rewrite (store_same h2 m) by done. unfold do. cbn [bind]. apply rel_act. intros [] _. apply rel_ret. split; [done|]. by apply inv_put_cur.
Qed.
Lemma rel_impl o data cbs : rel cur final (hloadPluginsImpl o data cbs h0) (loadPluginsImpl o data cbs).
Proof.
  assert (Hf : forall A B (e : outcome A) (f : outcome B), True) by done.
  unfold hloadPluginsImpl, loadPluginsImpl. unfold hbind at 1. unfold hdo at 1. unfold do at 1. cbn [bind]. apply rel_act. intros dir1 _. cbn [fst snd].
  unfold hbind at 1. eapply rel_bind; [apply (rel_lift_o cur h0)|]. intros a r1 ->. cbn [fst snd]. destruct r1 as [[]|e|x]; [|apply rel_ret; by split; [|apply start_left]..].
  unfold hbind at 1. unfold hdo at 1. unfold do at 1. cbn [bind]. apply rel_act. intros dir2 _. cbn [fst snd].
  unfold hbind at 1. eapply rel_bind; [apply (rel_lift_o cur h0)|]. intros a r2 ->. cbn [fst snd]. destruct r2 as [absDir|e|x]; [|apply rel_ret; by split; [|apply start_left]..].
  unfold hbind at 1. eapply rel_bind; [apply (rel_lift_o cur h0)|]. intros a r3 ->. cbn [fst snd]. destruct r3 as [entries|e|x]; [|apply rel_ret; by split; [|apply start_left]..].
  destruct (selectFiles (o_whitelist o) absDir entries) as [files found]. cbn [fst snd]. destruct (negb _); [apply rel_ret; by split; [|apply start_left]|]. apply rel_files.
Qed.
Lemma rel_locked {A} (mh : HM A) m : rel cur final (mh h0) m -> rel cur final (hlocked mh h0) (locked m).
Proof.
  intros H. unfold hlocked, locked, do. cbn [bind]. apply rel_act. intros [] _. eapply rel_bind; [exact H|]. intros a b Hab. cbn [bind]. apply rel_act. intros [] _. by apply rel_ret.
Qed.
(** the calls *)
Lemma rel_api o a : rel cur final (hapi o a h0) (api_prog o a).
Proof.
  destruct a as [data|data extra]; cbn [hapi api_prog]; unfold LoadPlugins, ReloadWithCallback; destruct (o_static o) as [statics|].
  - apply rel_locked, rel_statics.
  - apply rel_locked, rel_impl.
  - apply rel_ret. by split; [|apply start_left].
  - apply rel_locked. unfold hbind at 1. eapply rel_bind; [apply rel_impl|]. intros [h r] r' [Hr Hl]. cbn [fst snd] in *. subst r'. destruct r as [d|e|x]; [|by apply rel_ret..].
    unfold hbind, hdo, do. cbn [bind]. apply rel_act. intros [] _. by apply rel_ret.
Qed.
(** ** What Current() returns afterwards *)
Definition silent_act : forall X, act X -> Prop := fun X a => match a with AStoreCurrent _ => False | _ => True end.
Lemma silent_exec {A} (p : prog A) t r c : only silent_act p -> exec p t r -> after c t = c.
Proof.
  intros Ho H. assert (HF : Forall (fun e => match e with EvStore _ => False | _ => True end) t).
  { eapply only_exec; [|exact Ho|exact H]. intros X a x Ha. destruct a; repeat constructor; done. }
  clear H. revert c. induction HF as [|e t' He _ IH]; intros c; [done|]. destruct e; try done; apply IH.
Qed.
Lemma private_silent {A} (p : prog A) : only private_act p -> only silent_act p.
Proof. apply only_impl. by intros X []. Qed.
Definition cur_ok {A} (p : prog (heap * outcome A)) : Prop :=
  forall t x, exec p t x -> (forall y, saw_current t y -> y = cur) -> h_cur (fst x) ≫= view (fst x) = after cur t.
Lemma saw_app (t1 t2 : list event) (c : option mgr) : (forall y, saw_current (t1 ++ t2) y -> y = c) -> (forall y, saw_current t1 y -> y = c) /\ (forall y, saw_current t2 y -> y = c).
Proof. intros H. split; intros y Hy; apply H; unfold saw_current; apply elem_of_app; [by left|by right]. Qed.
Lemma cur_bind {A B B'} (Q : A -> B -> Prop) (p : prog A) (p' : prog B) (f : A -> prog (heap * outcome B')) : rel cur Q p p' -> only silent_act p' ->
  (forall a b, Q a b -> cur_ok (f a)) -> cur_ok (bind p f).
Proof.
  intros Hr Ho Hf t x H Hs. apply exec_bind in H as (t1 & t2 & a & -> & H1 & H2). apply saw_app in Hs as [Hs1 Hs2].
  destruct (rel_sound _ _ _ _ Hr t1 a H1 Hs1) as (b & Hb & HQ). rewrite after_app, (silent_exec p' t1 b) by done. by apply (Hf a b HQ).
Qed.
Lemma cur_act {A X} (a : act X) (k : X -> prog (heap * outcome A)) : silent_act X a -> (forall x, valid a x -> cur_ok (k x)) -> cur_ok (Act a k).
Proof.
  intros Ha Hk t x (y & t' & Hv & -> & H) Hs. apply saw_app in Hs as [_ Hs]. rewrite after_app. assert (Hc : after cur (ev a y) = cur) by (destruct a; done). rewrite Hc. by eapply Hk.
Qed.
Lemma cur_load {A} (k : option mgr -> prog (heap * outcome A)) : cur_ok (k cur) -> cur_ok (Act ALoadCurrent k).
Proof.
  intros Hk t x (y & t' & Hv & -> & H) Hs. assert (y = cur) as -> by (apply Hs; left). apply saw_app in Hs as [_ Hs]. exact (Hk _ _ H Hs).
Qed.
Lemma cur_ret {A} h (o : outcome A) : inv h -> cur_ok (Ret (h, o)).
Proof.
  intros HI t x [-> ->] _. cbn. rewrite (in_cur _ _ _ HI). destruct (h_cur h0) as [l|] eqn:Hc; [|done]. cbn. destruct (wf_cur _ HW0 l Hc) as [m Hm].
  destruct (view h0 l) as [v|] eqn:Hv; [|unfold view in Hv; by rewrite Hm in Hv]. apply (frame_view h0 h l v HW0); [apply HI|done].
Qed.
Lemma cur_start {A} (o : outcome A) : cur_ok (Ret (h0, o)).
Proof. intros t x [-> ->] _. done. Qed.
Lemma cur_store {A} h m (f : unit -> HM A) r : inv h -> h_mgr h !! pm = Some m -> f tt (put_cur (Some pm) h) = Ret (put_cur (Some pm) h, r) -> cur_ok (hbind (hstore pm) f h).
Proof.
  intros HI Hm Hf. rewrite (store_same h m) by done. intros t x (y & t' & Hv & -> & H) _. rewrite Hf in H. destruct H as [-> ->]. cbn. unfold view. cbn. rewrite Hm. cbn.
  by rewrite (now_mgr pm h m Hm).
Qed.

Lemma silent_new b : only silent_act (newPluginManager b).
Proof. unfold newPluginManager. apply only_bind; [done|]. intros [mid born]. apply only_bind; [by destruct b|]. by intros []. Qed.
Lemma silent_callbacks cbs new old : only silent_act (invokeReloadCallbacks cbs new old).
Proof.
  induction cbs as [|[cb|] cbs IH]; cbn [invokeReloadCallbacks]; [done| |done]. apply only_bind; [done|]. intros r. cbv zeta. destruct (match r with Val e => e | _ => _ end); [|done].
  apply only_bind; [apply private_silent, private_free|]. by intros [].
Qed.
Lemma cur_files o files data cbs : cur_ok (hloadPluginFiles o files data cbs h0).
Proof.
  unfold hloadPluginFiles. destruct files as [|f files]; [apply cur_start|]. set (fs := f :: files).
  unfold hbind at 1. unfold hCurrent. cbn [bind]. apply cur_load. cbn [fst snd].
  unfold hbind at 1. eapply cur_bind; [apply rel_newManager|apply silent_new|]. intros [h1 o1] o2 Hnew. unfold created_mgr in Hnew. cbn [fst snd] in *.
  destruct o1 as [l|e|x], o2 as [new0|e'|x']; try done; [|destruct Hnew as [_ ->]; apply cur_start..].
  destruct Hnew as (-> & HI1 & HP1 & _). unfold hbind at 1.
  eapply cur_bind; [exact (sim_cur h1 fs data HI1 HP1)|apply private_silent, private_loadPlugins|].
  intros [h2 o2] [s2 o3] (_ & _ & HI2 & _). cbn [fst snd] in *. destruct o2 as [u|e|x]; [|by apply cur_ret..].
  destruct (inv_mgr h0 pm h2 HI2) as (m & Hm & _).
  unfold hbind at 1. eapply cur_bind; [by apply (rel_callbacks h2 (h_cur h0) cbs HI2 cur_old)|apply silent_callbacks|]. intros a c ->. cbn [fst snd]. destruct c as [u'|e|x]; [|by apply cur_ret..].
  unfold hbind at 1. rewrite details_same by done. cbn [bind fst snd]. destruct (buildDetails (now h2) fs ∅) as [d|e|x]; [|by apply cur_ret..].
  destruct (h_cur h0) as [ol|] eqn:Hcur; [|unfold hbind at 1; cbn [bind fst snd hret]; by eapply (cur_store h2 m)].
  destruct (cur_old ol Hcur) as [x Hx]. destruct (wf_mgr _ HW0 _ _ Hx) as [Hlt _]. assert (Hx2 : h_mgr h2 !! ol = Some x) by (by rewrite (fr_mgr _ _ (in_frame _ _ _ HI2) _ Hlt)).
  unfold hbind at 1. rewrite (hbind_see_mgr h2 ol x) by done. unfold hdo. cbn [bind]. apply cur_act; [done|]. intros [] _. cbn [fst snd]. by eapply (cur_store h2 m).
Qed.
Lemma cur_statics o statics data cbs : cur_ok (hswLoadStaticPlugins o statics data cbs h0).
Proof.
  unfold hswLoadStaticPlugins. unfold hbind at 1. eapply cur_bind; [apply rel_newManager|apply silent_new|]. intros [h1 o1] o2 Hnew. unfold created_mgr in Hnew. cbn [fst snd] in *.
  destruct o1 as [l|e|x], o2 as [new0|e'|x']; try done; [|destruct Hnew as [_ ->]; apply cur_start..].
  destruct Hnew as (-> & HI1 & HP1 & _). unfold hbind at 1. cbn [bind fst snd].
  destruct (match o_whitelist o with [] => Val statics | wl => selectStatic statics wl ∅ end) as [sel|e|x]; [|by apply cur_ret..].
  unfold hbind at 1. eapply cur_bind; [apply (sim_loadStatics h0 pm _ h1 sel data HI1 HP1)|apply private_silent, private_loadStatic|].
  intros [h2 o2] [s2 o3] (_ & _ & HI2 & _). cbn [fst snd] in *. destruct o2 as [u|e|x]; [|by apply cur_ret..].
  destruct (inv_mgr h0 pm h2 HI2) as (m & Hm & _).
  unfold hbind at 1. eapply cur_bind; [apply (rel_callbacks h2 None cbs HI2); by intros|apply silent_callbacks|]. intros a c ->. cbn [fst snd]. destruct c as [u'|e|x]; [|by apply cur_ret..].
  by eapply (cur_store h2 m).
Qed.
Lemma cur_lift {A B} (p : prog (outcome A)) (f : heap * outcome A -> prog (heap * outcome B)) : only silent_act p -> (forall o, cur_ok (f (h0, o))) -> cur_ok (bind (hlift p h0) f).
Proof. intros Ho Hf. eapply cur_bind; [apply (rel_lift_o cur h0)|exact Ho|]. intros a b ->. apply Hf. Qed.
Lemma cur_impl o data cbs : cur_ok (hloadPluginsImpl o data cbs h0).
Proof.
  unfold hloadPluginsImpl. unfold hbind at 1. unfold hdo at 1. cbn [bind]. apply cur_act; [done|]. intros dir1 _. cbn [fst snd].
  unfold hbind at 1. apply cur_lift.
  { unfold FindDirectory. destruct (blank dir1); [done|]. apply only_bind; [done|]. intros [[]|e|x]; done. }
  intros [[]|e|x]; cbn [fst snd]; [|apply cur_start..]. unfold hbind at 1. unfold hdo at 1. cbn [bind]. apply cur_act; [done|]. intros dir2 _. cbn [fst snd].
  unfold hbind at 1. apply cur_lift; [done|]. intros [absDir|e|x]; cbn [fst snd]; [|apply cur_start..].
  unfold hbind at 1. apply cur_lift; [done|]. intros [entries|e|x]; cbn [fst snd]; [|apply cur_start..].
  destruct (negb _); [apply cur_start|]. apply cur_files.
Qed.
Lemma cur_then {A B} (p : prog (heap * outcome A)) (f : heap * outcome A -> prog (heap * outcome B)) : cur_ok p ->
  (forall x t y, exec (f x) t y -> (forall c, after c t = c) /\ fst y = fst x) -> cur_ok (bind p f).
Proof.
  intros Hp Hf t x H Hs. apply exec_bind in H as (t1 & t2 & a & -> & H1 & H2). apply saw_app in Hs as [Hs1 _]. destruct (Hf a t2 x H2) as [Ha ->].
  rewrite after_app, Ha. by apply Hp.
Qed.
Lemma cur_locked {A} (mh : HM A) : cur_ok (mh h0) -> cur_ok (hlocked mh h0).
Proof.
  intros H. unfold hlocked. apply cur_act; [done|]. intros [] _. apply cur_then; [exact H|]. intros x t y (u & t' & _ & -> & [-> ->]). done.
Qed.
Lemma cur_api o a : cur_ok (hapi o a h0).
Proof.
  destruct a as [data|data extra]; cbn [hapi]; destruct (o_static o) as [statics|].
  - apply cur_locked, cur_statics.
  - apply cur_locked, cur_impl.
  - apply cur_start.
  - apply cur_locked. unfold hbind at 1. apply cur_then; [apply cur_impl|]. intros [h r] t y Hy. cbn [fst snd] in *. destruct r as [d|e|x]; [|destruct Hy as [-> ->]; done..].
    destruct Hy as (u & t' & _ & -> & [-> ->]). done.
Qed.
End Swap.
