(** HeapSim.v, continued: opening plugins and taking over old ones. *)
From Verif Require Export HeapSim.

Section Load.
Context {E : GoEnv} {HE : HeapEnv} (h0 : heap) (pm : loc) (cur : option mgr).
Notation base := (h_next h0).
Notation inv := (inv h0 pm).
Notation now := (now pm).
Notation sim := (sim h0 pm cur).

Definition unwired (h : heap) : Prop := forall p v, (base <= p)%N -> h_plug h !! p = Some v -> hp_unchanged v = false -> hp_imp v = None.
(** while plugins are being opened *)
Definition loading (h : heap) : Prop := (exists m, h_mgr h !! pm = Some m /\ hm_ordered m = []) /\ unwired h.

Lemma sim_step {A} (J : heap -> Prop) h h' (mh mh' : HM A) m m' : mh h = mh' h' -> m' (now h') = m (now h) -> sim J h' mh' m' -> sim J h mh m.
Proof. intros H1 H2 H. unfold HeapSim.sim. by rewrite H1, <- H2. Qed.

Lemma view_insert h m k p v : h_plug h !! p = Some v -> view_mgr h (hm_set_map <[k := p]> m) = upd_map <[k := view_plugin h v]> (view_mgr h m).
Proof.
  intros Hp. unfold view_mgr, upd_map. cbn. f_equal. apply map_eq. intros k'. rewrite lookup_omap. destruct (decide (k' = k)) as [->|Hn].
  - rewrite !lookup_insert. cbn. unfold view_ptr. by rewrite Hp.
  - rewrite !lookup_insert_ne by done. by rewrite lookup_omap.
Qed.
Lemma own_insert h m p v : own h0 h m -> hm_ordered m = [] -> (base <= p)%N -> h_plug h !! p = Some v -> own h0 h (hm_set_map <[name2key (hp_name v) := p]> m).
Proof.
  intros [O1 O2 O3 O4 O5] Ho Hb Hp. split; [done..| |].
  - intros k q. cbn. destruct (decide (k = name2key (hp_name v))) as [->|Hn]; [rewrite lookup_insert; intros [= <-]; split; [done|by exists v]|].
    rewrite lookup_insert_ne by done. apply O4.
  - cbn. rewrite Ho. intros q Hq. by apply elem_of_nil in Hq.
Qed.

(** a store into the map of the manager *)
Lemma sim_enter h m p v k P : inv h -> loading h -> h_mgr h !! pm = Some m -> (base <= p)%N -> h_plug h !! p = Some v -> k = name2key (hp_name v) -> P = view_plugin h v ->
  sim loading h (set_mgr pm (hm_set_map <[k := p]>)) (smod (upd_map <[k := P]>)).
Proof.
  intros HI [(m1 & Hm1 & Ho) Hu] Hm Hb Hp -> ->. assert (m1 = m) as -> by congruence. clear Hm1. eapply sim_set_mgr; [exact HI|exact Hm| | |].
  - intros HO. by apply own_insert.
  - by apply view_insert.
  - intros _. split; [|exact Hu]. eexists. cbn. rewrite lookup_insert. done.
Qed.

(** taking over a plugin of the old manager *)
Lemma sim_addUnchanged h oldP note : wf h0 -> inv h -> loading h -> (forall l, oldP = Some l -> is_Some (h_plug h0 !! l)) ->
  sim loading h (haddUnchanged pm oldP note) (addUnchanged (oldP ≫= view_ptr h0) note).
Proof.
  intros HW0 HI HL Hold. destruct oldP as [l|]; [|by apply sim_pan]. destruct (Hold l eq_refl) as [p Hp0]. pose proof HI as [HW HF HC HP HG (m & Hm & HO)].
  destruct (wf_plug _ HW0 _ _ Hp0) as [Hl Hwf0]. assert (Hp : h_plug h !! l = Some p) by (by rewrite (fr_plug _ _ HF)).
  assert (Hview : view_plugin h p = view_plugin h0 p) by (by apply frame_view_plugin).
  destruct (wf_plug _ HW _ _ Hp) as [_ Hwf]. set (v := hp_set_unchanged note p).
  destruct (inv_new_plug h0 pm h v HI) as [HI1 Hn1].
  { exact Hwf. }
  { unfold placed, v. cbn. destruct Hwf0 as [Hs Hi]. split.
    - intros a Ha. destruct (Hs a Ha) as (xs & Hx & _). by eapply wf_arr.
    - intros i Ha. destruct (Hi i Ha) as [x Hx]. by eapply wf_imp. }
  { by left. }
  set (h1 := put_plug (h_next h) v (bump h)) in *.
  assert (Hm1 : h_mgr h1 !! pm = Some m) by exact Hm.
  assert (HL1 : loading h1).
  { destruct HL as [(m1 & Hm2 & Ho) Hu]. split; [by exists m1|]. intros q w Hq Hw Huw. unfold h1 in Hw. cbn in Hw. destruct (decide (q = h_next h)) as [->|Hn].
    - rewrite lookup_insert in Hw. injection Hw as <-. done.
    - rewrite lookup_insert_ne in Hw by done. by eapply Hu. }
  assert (Hle : (base <= h_next h)%N) by apply HF.
  cbn [option_bind mbind haddUnchanged addUnchanged]. unfold mbind, option_bind. unfold view_ptr at 1. rewrite Hp0. cbn [fmap option_fmap option_map].
  eapply (sim_step _ h h1 _ (let^ _ := hdo (ARefInc (hm_id m) (hp_inst p)) in set_mgr pm (hm_set_map <[name2key (hp_name p) := h_next h]>)) _
    (let! _ := sdo (ARefInc (hm_id m) (hp_inst p)) in smod (upd_map <[name2key (hp_name p) := set_unchanged note (view_plugin h0 p)]>))).
  - unfold haddUnchanged. rewrite (hbind_get_plug h l p) by done. rewrite hbind_new_plug. by rewrite (hbind_get_mgr _ pm m).
  - rewrite Hn1. unfold addUnchanged. cbv zeta. rewrite sbind_sget. rewrite (now_id pm h m Hm). done.
  - apply sim_do. intros x _. eapply sim_enter; [done|done|exact Hm1|exact Hle|unfold h1; cbn; by rewrite lookup_insert|done|].
    rewrite <- Hview. done.
Qed.

(** ** A plugin object that is not in the map yet *)
Record loose (h : heap) (p : loc) (v : hplugin) : Prop := mkLoose {
  lo_plug : h_plug h !! p = Some v; lo_base : (base <= p)%N; lo_new : hp_unchanged v = false; lo_deps : hp_deps v = mkSlice None 0; lo_imp : hp_imp v = None;
  lo_out : forall m k, h_mgr h !! pm = Some m -> hm_map m !! k <> Some p }.
Lemma loose_set h p v v' : inv h -> loading h -> loose h p v -> hp_name v' = hp_name v -> hp_unchanged v' = false -> hp_deps v' = mkSlice None 0 -> hp_imp v' = None ->
  inv (put_plug p v' h) /\ now (put_plug p v' h) = now h /\ loading (put_plug p v' h) /\ loose (put_plug p v' h) p v'.
Proof.
  intros HI [(m & Hm & Ho) Hu] [L1 L2 L3 L4 L5 L6] Hn Hun Hd Hi. split_and!.
  - eapply inv_put_plug; [exact HI|exact L2|exact L1|done|congruence| | | |].
    + split; [intros a Ha; by rewrite Hd in Ha|intros i Hx; by rewrite Hi in Hx].
    + unfold placed. rewrite Hun, Hd, Hi. by split.
    + left. by rewrite Hd, L4.
    + left. by rewrite Hi, L5.
  - eapply now_same; [exact Hm|exact Hm| |by rewrite Ho; intros q Hq; apply elem_of_nil in Hq].
    intros k q Hq. apply view_ptr_plug. intros ->. by eapply L6.
  - split; [by exists m|]. intros q w Hq Hw Huw. cbn in Hw. destruct (decide (q = p)) as [->|Hne]; [rewrite lookup_insert in Hw; by injection Hw as <-|].
    rewrite lookup_insert_ne in Hw by done. by eapply Hu.
  - split; [cbn; by rewrite lookup_insert|done..|exact L6].
Qed.
Lemma loose_new h v : inv h -> loading h -> hp_unchanged v = false -> hp_deps v = mkSlice None 0 -> hp_imp v = None ->
  inv (put_plug (h_next h) v (bump h)) /\ now (put_plug (h_next h) v (bump h)) = now h /\ loading (put_plug (h_next h) v (bump h)) /\ loose (put_plug (h_next h) v (bump h)) (h_next h) v.
Proof.
  intros HI [(m & Hm & Ho) Hu] Hun Hd Hi. pose proof HI as [HW HF HC HP HG (m1 & Hm1 & HO)]. simplify_eq.
  destruct (inv_new_plug h0 pm h v HI) as [HI1 Hn1].
  - split; [intros a Ha; by rewrite Hd in Ha|intros i Hx; by rewrite Hi in Hx].
  - unfold placed. rewrite Hun, Hd, Hi. by split.
  - right. by rewrite Hd, Hi.
  - split_and!; [done|done| |].
    + split; [by exists m|]. intros q w Hq Hw Huw. cbn in Hw. destruct (decide (q = h_next h)) as [->|Hne]; [rewrite lookup_insert in Hw; by injection Hw as <-|].
      rewrite lookup_insert_ne in Hw by done. by eapply Hu.
    + split; [cbn; by rewrite lookup_insert|apply HF|done..|].
      intros m' k Hm' Hk. cbn in Hm'. simplify_eq. destruct (ow_map _ _ _ HO k _ Hk) as (_ & w & Hw & _). apply (wf_plug _ HW) in Hw as [Hw _]. lia.
Qed.

Lemma sim_admit h p v P : inv h -> loading h -> loose h p v -> P = view_plugin h v -> sim loading h (hadmitPlugin pm p) (admitPlugin P).
Proof.
  intros HI HL Hlo ->. destruct (inv_mgr h0 pm h HI) as (m & Hm & HO).
  eapply (sim_step _ h h _ (let^ b := hlift (invokeReloadable (hm_id m) (view_plugin h v)) in
    (let^ _ := set_plug p (hp_set_reloadable b) in
     let^ v := see_plug p in
     let^ x := hlift (invokeExport (hm_id m) v) in
     let^ _ := set_plug p (hp_set_exported x) in
     set_mgr pm (hm_set_map <[name2key (pl_name v) := p]>))) _
    (let! b := slift (invokeReloadable (hm_id m) (view_plugin h v)) in
     let! x := slift (invokeExport (hm_id m) (set_reloadable b (view_plugin h v))) in
     smod (upd_map <[name2key (hp_name v) := set_exported x (set_reloadable b (view_plugin h v))]>))).
  { unfold hadmitPlugin. rewrite (hbind_get_mgr h pm m) by done. rewrite (hbind_see_plug h p v) by apply Hlo. done. }
  { unfold admitPlugin. rewrite sbind_sget, (now_id pm h m Hm). done. }
  apply sim_lift; [done|]. intros b.
  destruct (loose_set h p v (hp_set_reloadable b v) HI HL Hlo) as (HI1 & Hn1 & HL1 & Hlo1); [done|apply Hlo..|].
  set (v1 := hp_set_reloadable b v) in *. set (h1 := put_plug p v1 h) in *.
  eapply (sim_step _ h h1 _ (let^ x := hlift (invokeExport (hm_id m) (view_plugin h1 v1)) in
     let^ _ := set_plug p (hp_set_exported x) in
     set_mgr pm (hm_set_map <[name2key (hp_name v) := p]>)) _ _).
  { rewrite (hbind_set_plug h p v) by apply Hlo. fold v1. fold h1. rewrite (hbind_see_plug h1 p v1) by apply Hlo1. reflexivity. }
  { by rewrite Hn1. }
  change (view_plugin h1 v1) with (set_reloadable b (view_plugin h v)). apply sim_lift; [done|]. intros x.
  destruct (loose_set h1 p v1 (hp_set_exported x v1) HI1 HL1 Hlo1) as (HI2 & Hn2 & HL2 & Hlo2); [done|apply Hlo1..|].
  set (v2 := hp_set_exported x v1) in *. set (h2 := put_plug p v2 h1) in *.
  eapply (sim_step _ h1 h2 _ (set_mgr pm (hm_set_map <[name2key (hp_name v) := p]>)) _ _).
  { rewrite (hbind_set_plug h1 p v1) by apply Hlo1. done. }
  { by rewrite Hn2. }
  eapply (sim_enter h2 m p v2); [done|done|exact Hm|apply Hlo2|apply Hlo2|done|done].
Qed.

Lemma rel_map {A B} (f : A -> B) (p : prog A) : rel cur (fun x y => x = f y) (bind p (fun a => Ret (f a))) p.
Proof. induction p as [a|X a k IH]; cbn [bind]; [by apply rel_ret|]. apply rel_act. intros x _. apply IH. Qed.
Lemma rel_map_r {A B C} (Q : A -> B -> Prop) (Q' : A -> C -> Prop) (f : B -> C) p p' : rel cur Q p p' -> (forall a b, Q a b -> Q' a (f b)) ->
  rel cur Q' p (bind p' (fun b => Ret (f b))).
Proof.
  intros H Hf. induction H as [a b HQ|X a k k' _ IH|l l' k k' Hl _ IH|k k' _ IH]; cbn [bind].
  - apply rel_ret. by apply Hf.
  - by apply rel_act.
  - by apply rel_iter.
  - by apply rel_cur.
Qed.
(** the Lookup loop *)
Definition looked (h : heap) (p : loc) (x : heap * outcome (list string)) (y : outcome (plugin * list string)) : Prop :=
  inv (fst x) /\ now (fst x) = now h /\
  match snd x, y with
  | Val miss, Val (P, miss') => miss = miss' /\ loading (fst x) /\ exists v, loose (fst x) p v /\ P = view_plugin (fst x) v
  | Err e, Err e' => e = e'
  | Pan e, Pan e' => e = e'
  | _, _ => False
  end.
Lemma rel_lookupAll items : forall h p v miss P, inv h -> loading h -> loose h p v -> P = view_plugin h v ->
  rel cur (looked h p) (hlookupAll items p miss h) (lookupAll items P miss).
Proof.
  induction items as [|r items IH]; intros h p v miss P HI HL Hlo ->; cbn [hlookupAll lookupAll].
  - apply rel_ret. split_and!; [done..|]. cbn. split; [done|]. split; [done|]. by exists v.
  - rewrite (hbind_see_plug h p v) by apply Hlo. unfold hbind, hrun.
    eapply (rel_bind cur (fun x o => x = (h, Val o))); [apply rel_map|]. intros x o ->. cbn [fst snd]. destruct o as [x|e|x].
    + destruct (loose_set h p v (hp_set_funcs (set_func r (code_of x)) v) HI HL Hlo) as (HI1 & Hn1 & HL1 & Hlo1); [done|apply Hlo..|].
      change (rel cur (looked h p) (hbind (set_plug p (hp_set_funcs (set_func r (code_of x)))) (fun _ => hlookupAll items p miss) h)
        (lookupAll items (set_funcs (set_func r (code_of x) (pl_funcs (view_plugin h v))) (view_plugin h v)) miss)).
      rewrite (hbind_set_plug h p v) by apply Hlo. eapply rel_mono; [by eapply (IH _ p _ miss _ HI1 HL1 Hlo1)|].
      intros a b (A1 & A2 & A3). split; [done|]. split; [by rewrite A2, Hn1|done].
    + destruct e; try (apply rel_ret; by split_and!). by eapply IH.
    + apply rel_ret. by split_and!.
Qed.
Lemma sim_copyPlugin h info : inv h -> sim (fun h' => h' = h) h (hcopyPlugin pm info) (copyPlugin info).
Proof.
  intros HI. destruct (inv_mgr h0 pm h HI) as (m & Hm & HO).
  assert (Hd : pm_dirName (now h) = dir_name (hm_born m)) by (rewrite (now_mgr pm h m Hm); done).
  unfold HeapSim.sim, hcopyPlugin, copyPlugin. rewrite (hbind_get_mgr h pm m) by done. rewrite sbind_sget, Hd.
  apply sim_do. intros [e|] _; [by apply sim_err|]. apply sim_do. intros [e|] _; [by apply sim_err|by apply sim_ret].
Qed.
Lemma sim_loadPlugin h info : inv h -> loading h -> sim loading h (hloadPlugin pm info) (loadPlugin info).
Proof.
  intros HI HL. destruct info as [info|]; [|by apply sim_pan]. cbn [hloadPlugin loadPlugin].
  apply (sim_bind _ _ _ (fun h' => h' = h)); [by apply sim_copyPlugin|]. intros actual h' _ ->.
  destruct (inv_mgr h0 pm h HI) as (m & Hm & HO). assert (Hw : pm_when (now h) = hm_when m) by (by rewrite (now_mgr pm h m Hm)).
  unfold HeapSim.sim. rewrite (hbind_get_mgr h pm m) by done. rewrite sbind_sget, (now_id pm h m Hm), Hw.
  apply sim_do. intros i _. set (v := mkHP _ _ _ _ _ _ _ _ _ _ _ _ _).
  destruct (loose_new h v HI HL eq_refl eq_refl eq_refl) as (HI1 & Hn1 & HL1 & Hlo1). set (h1 := put_plug (h_next h) v (bump h)) in *.
  unfold HeapSim.sim. rewrite hbind_new_plug. fold h1. rewrite <- Hn1. apply sim_lift; [done|]. intros x.
  destruct (loose_set h1 _ v (hp_set_P (Some x) v) HI1 HL1 Hlo1) as (HI2 & Hn2 & HL2 & Hlo2); [done..|].
  unfold HeapSim.sim. rewrite (hbind_set_plug h1 _ v) by apply Hlo1. set (h2 := put_plug (h_next h) (hp_set_P (Some x) v) h1) in *. rewrite <- Hn2.
  unfold hbind, sbind, slift.
  eapply (rel_bind cur (fun X Y => fst Y = now h2 /\ looked h2 (h_next h) X (snd Y))).
  - eapply rel_map_r; [eapply (rel_lookupAll funcItems h2 (h_next h) _ [] _ HI2 HL2 Hlo2); reflexivity|].
    intros a b Hab. by split.
  - intros [h3 o3] [s o4] [Hs (HI3 & Hn3 & Hl3)]. cbn [fst snd] in *. subst s. rewrite <- Hn3.
    destruct o3 as [miss|e|y], o4 as [[P miss']|e'|y']; try done.
    + destruct Hl3 as (<- & HL3 & w & Hlow & ->). destruct miss as [|s miss].
      * by apply (sim_admit h3 (h_next h) w).
      * by apply sim_err.
    + rewrite Hl3. by apply (sim_err h0 pm cur loading h3).
    + rewrite Hl3. by apply (sim_pan h0 pm cur loading h3).
Qed.
Lemma sim_loadStatic h sp : inv h -> loading h -> sim loading h (hloadStaticPlugin pm sp) (loadStaticPlugin sp).
Proof.
  intros HI HL. destruct (inv_mgr h0 pm h HI) as (m & Hm & HO). assert (Hw : pm_when (now h) = hm_when m) by (by rewrite (now_mgr pm h m Hm)).
  unfold HeapSim.sim, hloadStaticPlugin, loadStaticPlugin. rewrite (hbind_get_mgr h pm m) by done. rewrite sbind_sget, (now_id pm h m Hm), Hw.
  apply sim_do. intros i _. destruct sp as [sp|]; [|by apply sim_pan]. set (v := mkHP _ _ _ _ _ _ _ _ _ _ _ _ _).
  destruct (loose_new h v HI HL eq_refl eq_refl eq_refl) as (HI1 & Hn1 & HL1 & Hlo1). set (h1 := put_plug (h_next h) v (bump h)) in *.
  unfold HeapSim.sim. rewrite hbind_new_plug. fold h1. rewrite <- Hn1. cbv zeta. destruct (missing_funcs (sp_funcs sp)) as [|s l].
  - by apply (sim_admit h1 (h_next h) v).
  - by apply sim_err.
Qed.
End Load.
