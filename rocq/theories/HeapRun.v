(** HeapSim.v, continued: the calls into plugins, and the loads. *)
From Verif Require Export HeapDeps.

(** ** Releasing a manager: any manager of a heap *)
Section Free.
Context {E : GoEnv} {HE : HeapEnv} (cur : option mgr).
Lemma wf_look h l m k : wf h -> h_mgr h !! l = Some m ->
  (hm_map m !! k = None /\ pm_map (view_mgr h m) !! k = None) \/
  (exists p v, hm_map m !! k = Some p /\ h_plug h !! p = Some v /\ pm_map (view_mgr h m) !! k = Some (view_plugin h v)).
Proof.
  intros HW Hm. destruct (wf_mgr _ HW _ _ Hm) as [_ [H1 _]]. cbn. rewrite lookup_omap. destruct (hm_map m !! k) as [p|] eqn:Hk; [|by left].
  right. destruct (H1 k p Hk) as (v & Hv & _). exists p, v. split_and!; [done..|]. cbn. unfold view_ptr. by rewrite Hv.
Qed.
Lemma wf_keys h l m : wf h -> h_mgr h !! l = Some m -> Permutation (map_keys (hm_map m)) (map_keys (pm_map (view_mgr h m))).
Proof.
  intros HW Hm. apply map_keys_perm. intros k. destruct (wf_look h l m k HW Hm) as [[-> ->]|(p & v & -> & _ & ->)]; split; intros [x Hx]; try done; by eexists.
Qed.
Lemma wf_ordered h l m : wf h -> h_mgr h !! l = Some m -> Forall2 (fun p k => hm_map m !! k = Some p) (hm_ordered m) (pm_ordered (view_mgr h m)).
Proof.
  intros HW Hm. destruct (wf_mgr _ HW _ _ Hm) as [_ [_ H2]]. cbn [view_mgr pm_ordered]. induction (hm_ordered m) as [|p o IH]; [constructor|].
  destruct (H2 p ltac:(left)) as (v & Hv & Hk). change (omap (key_ptr h) (p :: o)) with (match key_ptr h p with Some y => y :: omap (key_ptr h) o | None => omap (key_ptr h) o end).
  unfold key_ptr at 1. rewrite Hv. cbn [fmap option_fmap option_map]. constructor; [exact Hk|]. apply IH. intros q Hq. apply H2. by right.
Qed.
Lemma rel_lift_o {A} h (p : prog (outcome A)) : rel cur (fun x y => x = (h, y)) (hlift p h) p.
Proof. unfold hlift. apply (rel_map cur (fun y => (h, y))). Qed.
Lemma rel_ofor {A B} (R : A -> B -> Prop) h (body : A -> HM unit) body' l l' : Forall2 R l l' ->
  (forall x y, R x y -> rel cur (fun a b => a = (h, b)) (body x h) (body' y)) -> rel cur (fun a b => a = (h, b)) (hfor l body h) (ofor l' body').
Proof.
  intros HF Hb. induction HF as [|x y l l' Hx _ IH]; cbn [hfor ofor]; [by apply rel_ret|]. unfold hbind. eapply rel_bind; [by apply Hb|].
  intros a b ->. cbn [fst snd]. destruct b; [exact IH|by apply rel_ret..].
Qed.
Lemma Forall2_rev {A B} (R : A -> B -> Prop) l l' : Forall2 R l l' -> Forall2 R (rev l) (rev l').
Proof. induction 1 as [|x y l l' Hx _ IH]; cbn [rev]; [constructor|]. apply Forall2_app; [done|]. by constructor. Qed.
Lemma rel_free h l m : wf h -> h_mgr h !! l = Some m -> rel cur (fun a b => a = (h, b)) (hinvokeEveryOnFree l h) (invokeEveryOnFree (view_mgr h m)).
Proof.
  intros HW Hm. unfold hinvokeEveryOnFree, invokeEveryOnFree. rewrite (hbind_get_mgr h l m) by done. pose proof (wf_ordered h l m HW Hm) as HF.
  destruct (hm_ordered m) as [|p o]; destruct (pm_ordered (view_mgr h m)) as [|k o']; [|by inversion HF..|].
  - unfold hbind at 1. unfold hdo, do. cbn [bind]. apply rel_iter; [by eapply wf_keys|]. intros it _. cbn [fst snd].
    apply (rel_ofor eq); [by apply Forall_Forall2_diag, Forall_forall|]. intros k ? <-. unfold freeKey.
    destruct (wf_look h l m k HW Hm) as [[-> ->]|(p & v & -> & Hv & ->)]; [by apply rel_ret|]. rewrite (hbind_see_plug h p v) by done. apply rel_lift_o.
  - apply (rel_ofor (fun p k => hm_map m !! k = Some p)).
    + apply Forall2_rev. exact HF.
    + intros q k' Hq. unfold freeKey. destruct (wf_look h l m k' HW Hm) as [[Hx _]|(p1 & v & Hp1 & Hv & ->)]; [congruence|].
      assert (p1 = q) as -> by congruence. rewrite (hbind_see_plug h q v) by done. apply rel_lift_o.
Qed.
End Free.

Section Run.
Context {E : GoEnv} {HE : HeapEnv} (h0 : heap) (pm : loc) (cur : option mgr).
Notation base := (h_next h0).
Notation inv := (inv h0 pm).
Notation now := (now pm).
Notation sim := (sim h0 pm cur).

Lemma now_ordered h m : inv h -> h_mgr h !! pm = Some m -> Forall2 (fun p k => hm_map m !! k = Some p) (hm_ordered m) (pm_ordered (now h)).
Proof. intros HI Hm. rewrite (now_mgr pm h m Hm). apply (wf_ordered h pm); [apply HI|done]. Qed.
Definition same_map (M : gmap string N) (h : heap) : Prop := exists m, h_mgr h !! pm = Some m /\ hm_map m = M.

Lemma sim_onLoad h data : inv h -> sim (fun _ => True) h (hinvokeEveryOnLoad pm data) (invokeEveryOnLoad data).
Proof.
  intros HI. destruct (inv_mgr h0 pm h HI) as (m & Hm & HO). unfold HeapSim.sim, hinvokeEveryOnLoad, invokeEveryOnLoad. rewrite (hbind_get_mgr h pm m) by done. rewrite sbind_sget.
  apply (sim_mono _ _ _ (same_map (hm_map m))); [|done]. eapply sim_for2; [by apply now_ordered|done|by exists m|].
  intros p k h' Hk HI' (m' & Hm' & HM). rewrite <- HM in Hk. unfold HeapSim.sim, honLoadOne, onLoadOne. rewrite (hbind_get_mgr h' pm m') by done. rewrite sbind_sget, (now_id pm h' m') by done.
  destruct (look h0 pm h' m' k HI' Hm') as [[Hx _]|(p1 & v & Hk1 & Hp & -> & _)]; [congruence|]. assert (p1 = p) as -> by congruence. rewrite (hbind_see_plug h' p v) by done.
  destruct (pl_unchanged (view_plugin h' v)); [apply sim_ret; [done|by exists m']|]. apply sim_lift; [done|]. intros [e|]; [by apply sim_err|apply sim_ret; [done|by exists m']].
Qed.
Lemma sim_onInit h : inv h -> sim (fun _ => True) h (hinvokeEveryOnInit pm) invokeEveryOnInit.
Proof.
  intros HI. destruct (inv_mgr h0 pm h HI) as (m & Hm & HO). unfold HeapSim.sim, hinvokeEveryOnInit, invokeEveryOnInit. rewrite (hbind_get_mgr h pm m) by done. rewrite sbind_sget.
  apply (sim_mono _ _ _ (same_map (hm_map m))); [|done]. eapply sim_for2; [by apply now_ordered|done|by exists m|].
  intros p k h' Hk HI' (m' & Hm' & HM). rewrite <- HM in Hk. unfold HeapSim.sim, honInitOne, onInitOne. rewrite (hbind_get_mgr h' pm m') by done. rewrite sbind_sget, (now_id pm h' m') by done.
  destruct (look h0 pm h' m' k HI' Hm') as [[Hx _]|(p1 & v & Hk1 & Hp & -> & _)]; [congruence|]. assert (p1 = p) as -> by congruence. rewrite (hbind_see_plug h' p v) by done.
  destruct (pl_unchanged (view_plugin h' v)); [apply sim_ret; [done|by exists m']|]. apply sim_lift; [done|]. intros [writes e]. cbn [fst snd].
  apply (sim_bind _ _ _ (same_map (hm_map m))).
  - eapply sim_set_mgr; [exact HI'|exact Hm'| |done|].
    + by apply own_same.
    + intros _. eexists. cbn. rewrite lookup_insert. done.
  - intros _ h2 HI2 HJ2. destruct e; [by apply sim_err|by apply sim_ret].
Qed.

(** ** setupVault *)
Definition vaulting (hs : heap) (mid : N) (h : heap) : Prop :=
  h_plug h = h_plug hs /\ h_arr h = h_arr hs /\ h_imp h = h_imp hs /\ exists m, h_mgr h !! pm = Some m /\ hm_id m = mid.
Definition seen (hs : heap) (p : loc) (P : plugin) : Prop := exists v, h_plug hs !! p = Some v /\ P = view_plugin hs v.
Lemma hbind_seen {B} hs mid h p P (f : plugin -> HM B) : vaulting hs mid h -> seen hs p P -> hbind (see_plug p) f h = f P h.
Proof.
  intros (H1 & H2 & H3 & _) (v & Hv & ->). rewrite (hbind_see_plug h p v) by (by rewrite H1). f_equal. apply view_plugin_eq; intros; congruence.
Qed.
Lemma rel_findAnother hs mid h tbl earlier earlier' name r : vaulting hs mid h -> Forall2 (seen hs) earlier earlier' ->
  rel cur (fun x y => x = (h, y)) (hfindAnother tbl earlier name h) (findAnother r mid tbl earlier' name).
Proof.
  intros HV HF. induction HF as [|q Q earlier earlier' Hq _ IH]; cbn [hfindAnother findAnother]; [by apply rel_ret|].
  rewrite (hbind_seen hs mid h q Q) by done. unfold hbind. eapply rel_bind; [apply rel_lift_o|]. intros a b ->. cbn [fst snd]. destruct b as [t|e|x]; [|by apply rel_ret..].
  destruct t as [l|]; [|exact IH]. destruct (bool_decide _); [by apply rel_ret|exact IH].
Qed.
Lemma sim_of_rel {A} (J : heap -> Prop) h (mh : HM A) (p : prog (outcome A)) : inv h -> J h -> rel cur (fun x y => x = (h, y)) (mh h) p -> sim J h mh (slift p).
Proof. intros HI HJ H. unfold HeapSim.sim, slift. eapply rel_map_r; [exact H|]. intros a b ->. by split_and!. Qed.

Lemma sim_addLiveFuncs hs mid earlier earlier' p P l : Forall2 (seen hs) earlier earlier' -> seen hs p P -> forall h, inv h -> vaulting hs mid h ->
  sim (vaulting hs mid) h (haddLiveFuncs pm earlier p l) (addLiveFuncs earlier' P l).
Proof.
  intros HF HP. induction l as [|[name x] l IH]; intros h HI HV; cbn [haddLiveFuncs addLiveFuncs]; [by apply sim_ret|].
  pose proof HV as (V1 & V2 & V3 & m & Hm & Hid). unfold HeapSim.sim. rewrite (hbind_get_mgr h pm m) by done. rewrite sbind_sget.
  assert (Hl : pm_livefuncs (now h) = hm_livefuncs m) by (by rewrite (now_mgr pm h m Hm)). rewrite Hl, (now_id pm h m Hm), Hid. destruct (hm_livefuncs m !! name).
  - apply (sim_bind _ _ _ (vaulting hs mid)).
    + apply sim_of_rel; [done..|]. by eapply rel_findAnother.
    + intros another h' HI' HV'. unfold HeapSim.sim. rewrite (hbind_seen hs mid h' p P) by done. by apply sim_err.
  - apply (sim_bind _ _ _ (vaulting hs mid)).
    + eapply sim_set_mgr; [exact HI|exact Hm|by apply own_same|done|]. intros _. split_and!; [done..|]. eexists. cbn. rewrite lookup_insert. done.
    + intros _ h' HI' HV'. by apply IH.
Qed.
Lemma sim_addLiveTypes hs mid earlier earlier' p P l : Forall2 (seen hs) earlier earlier' -> seen hs p P -> forall h, inv h -> vaulting hs mid h ->
  sim (vaulting hs mid) h (haddLiveTypes pm earlier p l) (addLiveTypes earlier' P l).
Proof.
  intros HF HP. induction l as [|[name x] l IH]; intros h HI HV; cbn [haddLiveTypes addLiveTypes]; [by apply sim_ret|].
  pose proof HV as (V1 & V2 & V3 & m & Hm & Hid). unfold HeapSim.sim. rewrite (hbind_get_mgr h pm m) by done. rewrite sbind_sget.
  assert (Hl : pm_livetypes (now h) = hm_livetypes m) by (by rewrite (now_mgr pm h m Hm)). rewrite Hl, (now_id pm h m Hm), Hid. destruct (hm_livetypes m !! name).
  - apply (sim_bind _ _ _ (vaulting hs mid)).
    + apply sim_of_rel; [done..|]. by eapply rel_findAnother.
    + intros another h' HI' HV'. unfold HeapSim.sim. rewrite (hbind_seen hs mid h' p P) by done. by apply sim_err.
  - apply (sim_bind _ _ _ (vaulting hs mid)).
    + eapply sim_set_mgr; [exact HI|exact Hm|by apply own_same|done|]. intros _. split_and!; [done..|]. eexists. cbn. rewrite lookup_insert. done.
    + intros _ h' HI' HV'. by apply IH.
Qed.
Lemma sim_vaultFuncs hs mid rest rest' : Forall2 (seen hs) rest rest' -> forall earlier earlier' h, Forall2 (seen hs) earlier earlier' -> inv h -> vaulting hs mid h ->
  sim (vaulting hs mid) h (hvaultFuncs pm earlier rest) (vaultFuncs earlier' rest').
Proof.
  induction 1 as [|p P rest rest' HP _ IH]; intros earlier earlier' h HF HI HV; cbn [hvaultFuncs vaultFuncs]; [by apply sim_ret|].
  pose proof HV as (V1 & V2 & V3 & m & Hm & Hid). unfold HeapSim.sim. rewrite (hbind_get_mgr h pm m) by done. rewrite sbind_sget, (hbind_seen hs mid h p P), (now_id pm h m) by done.
  apply sim_lift; [done|]. intros [l|]; [|by apply sim_err]. apply (sim_bind _ _ _ (vaulting hs mid)); [by apply sim_addLiveFuncs|]. intros _ h' HI' HV'. apply IH; [|done..].
  apply Forall2_app; [done|]. by constructor.
Qed.
Lemma sim_vaultTypes hs mid rest rest' : Forall2 (seen hs) rest rest' -> forall earlier earlier' h, Forall2 (seen hs) earlier earlier' -> inv h -> vaulting hs mid h ->
  sim (vaulting hs mid) h (hvaultTypes pm earlier rest) (vaultTypes earlier' rest').
Proof.
  induction 1 as [|p P rest rest' HP _ IH]; intros earlier earlier' h HF HI HV; cbn [hvaultTypes vaultTypes]; [by apply sim_ret|].
  pose proof HV as (V1 & V2 & V3 & m & Hm & Hid). unfold HeapSim.sim. rewrite (hbind_get_mgr h pm m) by done. rewrite sbind_sget, (hbind_seen hs mid h p P), (now_id pm h m) by done.
  apply sim_lift; [done|]. intros [l|]; [|by apply sim_err]. apply (sim_bind _ _ _ (vaulting hs mid)); [by apply sim_addLiveTypes|]. intros _ h' HI' HV'. apply IH; [|done..].
  apply Forall2_app; [done|]. by constructor.
Qed.
Lemma sim_setupVault h : inv h -> sim (fun _ => True) h (hsetupVault pm) setupVault.
Proof.
  intros HI. destruct (inv_mgr h0 pm h HI) as (m & Hm & HO). unfold HeapSim.sim, hsetupVault, setupVault. rewrite (hbind_get_mgr h pm m) by done. rewrite sbind_sget. cbv zeta.
  assert (HF : Forall2 (seen h) (hm_ordered m) (plugins_of (pm_map (now h)) (pm_ordered (now h)))).
  { pose proof (now_ordered h m HI Hm) as HF. induction HF as [|p k l l' Hk _ IH]; cbn [plugins_of]; [constructor|].
    destruct (look h0 pm h m k HI Hm) as [[Hx _]|(p1 & v & Hk1 & Hp & -> & _)]; [congruence|]. assert (p1 = p) as -> by congruence. constructor; [by exists v|exact IH]. }
  assert (HV : vaulting h (hm_id m) h) by (split_and!; [done..|by exists m]).
  apply (sim_bind _ _ _ (vaulting h (hm_id m))); [by apply sim_vaultFuncs|]. intros _ h' HI' HV'. apply (sim_mono _ _ _ (vaulting h (hm_id m))); [by apply sim_vaultTypes|done].
Qed.

Lemma sim_cleanup (J : heap -> Prop) h body body' : sim J h body body' -> sim J h (hwith_cleanup pm body) (with_cleanup body').
Proof.
  intros H. unfold HeapSim.sim, hwith_cleanup, with_cleanup. eapply rel_bind; [exact H|]. intros [h1 o1] [s1 o2] (He & Hs & HI1 & HJ). cbn [fst snd] in *. subst o2 s1.
  destruct (inv_mgr h0 pm h1 HI1) as (m & Hm & HO). destruct o1 as [a|e|x]; [apply rel_ret; by split_and!|..];
    rewrite (now_mgr pm h1 m Hm); (eapply rel_bind; [apply (rel_free cur h1 pm m); [apply HI1|done]|]); intros a b ->; cbn [fst snd];
    rewrite <- (now_mgr pm h1 m Hm); destruct b; apply rel_ret; by split_and!.
Qed.

(** ** The loads.  The old manager is an object of [h0]. *)
Definition old_view (old : option loc) : option mgr := match old with None => None | Some l => view h0 l end.
Definition pristine (h : heap) : Prop := exists m, h_mgr h !! pm = Some m /\ hm_map m = ∅ /\ hm_ordered m = [] /\ unwired h0 h.
Lemma pristine_loading h : pristine h -> loading h0 pm h.
Proof. intros (m & Hm & _ & Ho & Hu). split; [by exists m|done]. Qed.
Lemma loading_when h w : inv h -> loading h0 pm h -> sim (loading h0 pm) h (set_mgr pm (hm_set_when w)) (smod (upd_when w)).
Proof.
  intros HI [(m & Hm & Ho) Hu]. eapply sim_set_mgr; [exact HI|exact Hm|by apply own_same|done|]. intros _. split; [|exact Hu]. eexists. cbn. rewrite lookup_insert. done.
Qed.
Lemma sim_tail h data : inv h -> loading h0 pm h ->
  sim (fun _ => True) h (let^ _ := hinitDeps pm in let^ _ := hinvokeEveryOnLoad pm data in let^ _ := hsetupVault pm in hinvokeEveryOnInit pm)
    (let! _ := initDeps in let! _ := invokeEveryOnLoad data in let! _ := setupVault in invokeEveryOnInit).
Proof.
  intros HI HL. apply (sim_bind _ _ _ (fun _ => True)); [by apply sim_initDeps|]. intros _ h1 HI1 _. apply (sim_bind _ _ _ (fun _ => True)); [by apply sim_onLoad|]. intros _ h2 HI2 _.
  apply (sim_bind _ _ _ (fun _ => True)); [by apply sim_setupVault|]. intros _ h3 HI3 _. by apply sim_onInit.
Qed.
Lemma sim_outputStats1 h : inv h -> sim (fun h' => h' = h) h (houtputStats1 pm) outputStats1.
Proof.
  intros HI. destruct (inv_mgr h0 pm h HI) as (m & Hm & HO). unfold HeapSim.sim, houtputStats1, outputStats1. rewrite (hbind_see_mgr h pm m) by done. rewrite sbind_sget, <- (now_mgr pm h m Hm).
  destruct (forallb _ _); [by apply sim_ret|by apply sim_pan].
Qed.
Lemma sim_body h files old data : wf h0 -> (forall l, old = Some l -> is_Some (h_mgr h0 !! l)) -> inv h -> pristine h ->
  sim (fun _ => True) h (hloadPlugins_body pm files old data) (loadPlugins_body files (old_view old) data).
Proof.
  intros HW0 Hold HI HP. pose proof (pristine_loading h HP) as HL. destruct HP as (m & Hm & Hmap & Hord & _). pose proof (now_size h0 pm h m HI Hm) as Hsz.
  unfold HeapSim.sim, hloadPlugins_body, loadPlugins_body. rewrite (hbind_get_mgr h pm m) by done. rewrite sbind_sget, <- Hsz.
  destruct (negb (size (hm_map m) =? 0)%nat); [by apply sim_err|]. apply sim_iter; [done|]. intros [|k dups] _; [|by apply sim_err].
  apply sim_lift; [done|]. intros infos.
  set (oldMap := match old with None => ∅ | Some l => match h_mgr h0 !! l with Some x => hm_map x | None => ∅ end end : gmap string N).
  assert (Holdmap : forall k, oldMap !! k ≫= view_ptr h0 = match old_view old with None => None | Some om => pm_map om !! k end).
  { intros k. unfold oldMap, old_view. destruct old as [l|]; [|by rewrite lookup_empty]. destruct (Hold l eq_refl) as [x Hx]. unfold view. rewrite Hx. cbn. by rewrite lookup_omap. }
  assert (Hexist : forall k l, oldMap !! k = Some l -> is_Some (h_plug h0 !! l)).
  { intros k l. unfold oldMap. destruct old as [ol|]; [|by rewrite lookup_empty]. destruct (Hold ol eq_refl) as [x Hx]. rewrite Hx. intros Hk.
    destruct (wf_mgr _ HW0 _ _ Hx) as [_ [H1 _]]. destruct (H1 k l Hk) as (v & Hv & _). by eexists. }
  match goal with |- HeapSim.sim _ _ _ _ _ (hbind _ ?f) _ => eapply (sim_step h0 pm cur _ h h _ (let^ oldMap0 := hret oldMap in
        let^ it1 := hdo (AIter (map_keys (notReloadable_of (old_view old) infos))) in
        let^ _ := hfor it1 (fun k => haddUnchanged pm (oldMap0 !! k) "not reloadable") in
        let^ it2 := hdo (AIter (map_keys (unchanged_of (old_view old) (without_notReloadable (old_view old) infos)))) in
        let^ _ := hfor it2 (fun k => haddUnchanged pm (oldMap0 !! k) "unchanged") in
        let^ m := get_mgr pm in
        if negb (size (without_unchanged (old_view old) (without_notReloadable (old_view old) infos)) + size (hm_map m) =? length files)%nat then herr ECount
        else
          let^ _ := houtputStats1 pm in
          let^ now := hdo ANow in
          let^ _ := set_mgr pm (hm_set_when now) in
          let^ _ := hfor (info_names (without_unchanged (old_view old) (without_notReloadable (old_view old) infos))) (fun name h =>
            bind (hloadPlugin pm (without_unchanged (old_view old) (without_notReloadable (old_view old) infos) !! name) h) (fun so =>
              Ret (fst so, open_outcome (without_unchanged (old_view old) (without_notReloadable (old_view old) infos) !! name) name (snd so)))) in
          let^ _ := hinitDeps pm in
          let^ _ := hinvokeEveryOnLoad pm data in
          let^ _ := hsetupVault pm in
          hinvokeEveryOnInit pm)) end.
  { unfold oldMap, old_view. destruct old as [ol|]; [|done]. destruct (Hold ol eq_refl) as [x Hx]. pose proof (in_frame _ _ _ HI) as HF.
    destruct (wf_mgr _ HW0 _ _ Hx) as [Hlt _]. assert (Hx' : h_mgr h !! ol = Some x) by (by rewrite (fr_mgr _ _ HF)).
    assert (Hv : view h0 ol = Some (view_mgr h x)).
    { unfold view. rewrite Hx. cbn. f_equal. assert (Hv0 : view h0 ol = Some (view_mgr h0 x)) by (unfold view; by rewrite Hx).
      apply (frame_view h0 h ol _ HW0 HF) in Hv0. unfold view in Hv0. rewrite Hx' in Hv0. cbn in Hv0. congruence. }
    rewrite Hv, Hx. unfold hbind at 1 2. unfold see_mgr. rewrite Hx'. cbn [bind fst snd hret]. unfold hbind at 1 2. unfold get_mgr at 1. rewrite Hx'. cbn [bind fst snd hret]. reflexivity. }
  { reflexivity. }
  unfold HeapSim.sim. rewrite hbind_ret. apply sim_do. intros it1 _. apply (sim_bind _ _ _ (loading h0 pm)).
  { apply sim_for; [done..|]. intros k h1 _ HI1 HL1. rewrite <- Holdmap. apply sim_addUnchanged; [done..|]. apply Hexist. }
  intros _ h1 HI1 HL1. apply sim_do. intros it2 _. apply (sim_bind _ _ _ (loading h0 pm)).
  { apply sim_for; [done..|]. intros k h2 _ HI2 HL2. rewrite <- Holdmap. apply sim_addUnchanged; [done..|]. apply Hexist. }
  intros _ h2 HI2 HL2. destruct (inv_mgr h0 pm h2 HI2) as (m2 & Hm2 & HO2). unfold HeapSim.sim. rewrite (hbind_get_mgr h2 pm m2) by done. rewrite sbind_sget, <- (now_size h0 pm h2 m2) by done.
  destruct (negb _); [by apply sim_err|]. apply (sim_bind _ _ _ (fun h' => h' = h2)); [by apply sim_outputStats1|]. intros _ h' _ ->.
  apply sim_do. intros w _. apply (sim_bind _ _ _ (loading h0 pm)); [by apply loading_when|]. intros _ h3 HI3 HL3.
  apply (sim_bind _ _ _ (loading h0 pm)).
  { apply sim_for; [done..|]. intros name h4 _ HI4 HL4. unfold HeapSim.sim. eapply rel_bind; [by apply sim_loadPlugin|]. intros [h5 o5] [s5 o6] (He & Hs & HI5 & HJ5). cbn [fst snd] in *. subst.
    apply rel_ret. split_and!; [done..|]. cbn. destruct o6 as [[]|e|x]; [done|done|]. cbn. by destruct (without_unchanged _ _ !! name). }
  intros _ h4 HI4 HL4. by apply sim_tail.
Qed.
Lemma sim_loadPlugins h files old data : wf h0 -> (forall l, old = Some l -> is_Some (h_mgr h0 !! l)) -> inv h -> pristine h ->
  sim (fun _ => True) h (hloadPlugins pm files old data) (loadPlugins files (old_view old) data).
Proof. intros. apply sim_cleanup. by apply sim_body. Qed.
Lemma sim_loadStatics h statics data : inv h -> pristine h -> sim (fun _ => True) h (hloadStaticPlugins pm statics data) (loadStaticPlugins statics data).
Proof.
  intros HI HP. pose proof (pristine_loading h HP) as HL. destruct HP as (m & Hm & Hmap & Hord & _). pose proof (now_size h0 pm h m HI Hm) as Hsz.
  apply sim_cleanup. unfold HeapSim.sim, hloadStaticPlugins_body, loadStaticPlugins_body. rewrite (hbind_get_mgr h pm m) by done. rewrite sbind_sget, <- Hsz.
  destruct (negb (size (hm_map m) =? 0)%nat); [by apply sim_err|]. apply sim_do. intros w _. apply (sim_bind _ _ _ (loading h0 pm)); [by apply loading_when|]. intros _ h3 HI3 HL3.
  apply (sim_bind _ _ _ (loading h0 pm)).
  { apply sim_for; [done..|]. intros name h4 _ HI4 HL4. unfold HeapSim.sim. eapply rel_bind; [by apply sim_loadStatic|]. intros [h5 o5] [s5 o6] (He & Hs & HI5 & HJ5). cbn [fst snd] in *. subst.
    destruct o6 as [[]|e|x]; apply rel_ret; by split_and!. }
  intros _ h4 HI4 HL4. by apply sim_tail.
Qed.
End Run.
