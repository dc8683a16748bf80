(** C60: what Current() reports about a plugin is what was really opened. *)
From Verif Require Export PropWire PropVault PropLoad PropTool Worlds.

Section Spec.
Context {E : GoEnv}.
(** The bytes [data], read from [file] before, were written to the file [copy] in the directory [dir], just made sure to
    exist; that copy was then opened, with result [hd], as plugin object [j]. *)
Definition copied_and_opened (h : list event) (file data dir copy : string) (mid : N) (name : string) (j : inst) (hd : handle) : Prop :=
  exists before after, h = before ++ [EvMkdir dir None; EvWriteFile (path_join dir copy) data None; EvNewInst mid name j; EvOpen (path_join dir copy) (Val hd)] ++ after /\
    EvReadFile file (Val data) ∈ before.
(** What the extension constructor did in a call. *)
Definition extensions (t : list event) : list (outcome iface) := omap (fun e => match e with EvNewExt r => Some r | _ => None end) t.
End Spec.

Section Props.
Context {E : GoEnv}.

(** For every plugin of Current(), after any history, newly loaded or carried over any number of times: its Name is the
    base name of its File, the bytes read from File have the hash FileSha1, the very same bytes were written to the private
    copy, the copy was opened next, and P is what opening it gave. *)
Theorem C60_reported_identity_is_true o h m p : history o h (Some m) -> o_static o = None -> holds m p ->
  exists data dir copy mid hd, copied_and_opened h (pl_file p) data dir copy mid (pl_name p) (pl_inst p) hd /\
    pl_name p = plugin_of (path_base (pl_file p)) /\ pl_sha1 p = sha1 data /\ pl_P p = Some hd /\ has_suffix ".so" copy = true.
Proof.
  intros HH Hst Hp. pose proof (history_sound _ _ _ Hst HH _ eq_refl) as [_ Hs]. apply Plugins_lookup in Hp as [k Hk].
  destruct (Hs _ _ Hk) as (Hn & _ & Hfile & _ & _ & _ & Ho & _).
  destruct Ho as (s0 & p1 & d & hd & ans & c1 & c2 & ta & tz & Ht & Hi & Hn1 & _ & _ & Hsha & HP & _ & _ & _ & Hrd).
  assert (Hname : pl_name p = pluginName (pl_file p)) by congruence.
  exists d. eexists _, _, (pm_id s0), hd. split_and!; [|exact Hname|done|done|].
  - eexists ta, _. split; [|exact Hrd]. rewrite Ht. unfold open_trace. rewrite Hi. unfold copy_dst. cbn [app].
    cbn [fi_name info_of fi_data]. rewrite <- Hname. reflexivity.
  - rewrite !str_app_assoc. exact (proj1 (ListProofs.suffix_app _ _)).
Qed.

(** ** The extension *)
Lemma extensions_app t1 t2 : extensions (t1 ++ t2) = extensions t1 ++ extensions t2.
Proof. apply omap_app. Qed.
Lemma extensions_private t : Forall private_event t -> extensions t = [].
Proof. induction 1 as [|e t He _ IH]; [done|]. destruct e; try done. Qed.
Lemma extensions_accepted new old l : extensions (map (accepted new old) l) = [].
Proof. induction l; done. Qed.
Lemma extensions_made b tn s : made b tn s -> extensions tn = if b then [Val (pm_ext s)] else [].
Proof. intros (_ & -> & _). by destruct b. Qed.
Lemma extensions_callback cbs new old tc e : callback_failed cbs new old tc e -> extensions tc = [].
Proof.
  intros (c1 & cb & c2 & r & tf & _ & -> & _ & (ps & ts & -> & HF & _)). rewrite extensions_app, extensions_accepted.
  change (extensions (concat ts) = []). apply extensions_private. by eapply freed_private.
Qed.
Lemma extensions_chosen o tp files : chosen o tp files -> extensions tp = [].
Proof. by intros (d1 & d2 & abs & entries & found & -> & _). Qed.
Lemma extensions_refused o tp e : refused o tp e -> extensions tp = [].
Proof. by intros []. Qed.

(** The extension of the vault of every manager is what the constructor returned in the call that made the manager,
    before any plugin was opened or called; without a constructor there is none. *)
Theorem C61_extension_is_from_its_own_load o h cur a t r m : next_call o h cur (api_prog o a) t r -> published t m ->
  (o_newExt o = true -> extensions t = [Val (pm_ext m)] /\
     exists before after, t = before ++ EvNewExt (Val (pm_ext m)) :: after /\ call_sigs before = [] /\ created before = [] /\ increments before = []) /\
  (o_newExt o = false -> extensions t = [] /\ pm_ext m = None).
Proof.
  intros HN Hpub. destruct (o_static o) as [st|] eqn:Hst.
  - destruct (spub_inv _ _ _ _ _ _ _ _ Hst HN Hpub) as (data & sel & s & tn & tl & [_ Ht Hm (_ & _ & Hx) _ _ Hpr _ _]). rewrite Hx.
    assert (He : extensions t = extensions tn).
    { rewrite Ht. change (extensions (tn ++ tl ++ map (accepted m None) (somes [o_reloadCallback o]) ++ [EvStore m; EvUnlock]) = extensions tn).
      rewrite !extensions_app, extensions_accepted, (extensions_private tl) by done. change (extensions tn ++ [] = extensions tn). by rewrite app_nil_r. }
    rewrite He, (extensions_made _ _ _ Hm). destruct Hm as (_ & Htn & Hno). split; intros Hb; rewrite Hb in *; [|auto]. split; [done|].
    eexists [EvLock; EvNewMgr (pm_id s) (pm_born s)], _. split_and!; [rewrite Ht, Htn; cbn [app]; reflexivity|done..].
  - destruct (pub_inv _ _ _ _ _ _ _ Hst HN Hpub) as (data & cbs & tp & files & s & tn & tl & add & HP).
    pose proof (pub_trace _ _ _ _ _ _ _ _ _ _ _ _ _ _ _ HP) as Ht. pose proof (pub_made _ _ _ _ _ _ _ _ _ _ _ _ _ _ _ HP) as Hm.
    pose proof (pub_chosen _ _ _ _ _ _ _ _ _ _ _ _ _ _ _ HP) as Hc. pose proof (pub_private _ _ _ _ _ _ _ _ _ _ _ _ _ _ _ HP) as Hpr.
    destruct (pub_head _ _ _ _ _ _ _ _ _ _ _ _ _ _ _ HP) as (_ & _ & Hx). rewrite Hx.
    assert (He : extensions t = extensions tn).
    { rewrite Ht. change (EvLock :: tp) with ([EvLock] ++ tp). change (EvLoadCurrent cur :: tn) with ([EvLoadCurrent cur] ++ tn).
      rewrite !extensions_app, extensions_accepted, (extensions_private tl) by done. rewrite (extensions_chosen _ _ _ Hc).
      assert (extensions (spawned o cur) = []) as -> by (by destruct cur).
      assert (extensions add = []) as -> by (by destruct (pub_add _ _ _ _ _ _ _ _ _ _ _ _ _ _ _ HP) as [-> | ->]).
      change (extensions tn ++ [] = extensions tn). by rewrite app_nil_r. }
    rewrite He, (extensions_made _ _ _ Hm). destruct Hm as (_ & Htn & Hno). split; intros Hb; rewrite Hb in *; [|auto]. split; [done|].
    pose proof (silent_chosen _ _ _ Hc) as (S1 & S2 & S3 & S4 & S5).
    eexists ((EvLock :: tp) ++ [EvLoadCurrent cur; EvNewMgr (pm_id s) (pm_born s)]), _. split_and!.
    + rewrite Ht, Htn. rewrite <- (assoc_L (++)). cbn [app]. reflexivity.
    + rewrite call_sigs_app. change (call_sigs tp ++ [] = []). by rewrite S1.
    + rewrite created_app. change (created tp ++ [] = []). by rewrite S4.
    + rewrite increments_app. change (increments tp ++ [] = []). by rewrite S2.
Qed.

(** Whatever the outcome, a call runs the constructor at most once, and only if there is one. *)
Theorem C61_extension_at_most_once o h cur a t r : next_call o h cur (api_prog o a) t r ->
  (length (extensions t) <= 1)%nat /\ (o_newExt o = false -> extensions t = []).
Proof.
  intros HN. destruct (o_static o) as [st|] eqn:Hst.
  - destruct (next_static _ _ _ _ _ _ _ HN Hst) as [(data & tb & _ & -> & HR)|(data & extra & _ & -> & _)]; [|split; cbn; [lia|done]].
    change (EvLock :: tb ++ [EvUnlock]) with ([EvLock] ++ tb ++ [EvUnlock]). rewrite !extensions_app. match goal with |- context [extensions [EvLock] ++ extensions ?x ++ ?y] => change (extensions [EvLock] ++ extensions x ++ y) with (extensions x ++ []) end. rewrite app_nil_r.
    assert (Hmm : forall tn s tl, made (o_newExt o) tn s -> extensions tl = [] -> (length (extensions (tn ++ tl)) <= 1)%nat /\ (o_newExt o = false -> extensions (tn ++ tl) = [])).
    { intros tn s tl Hm Hl. rewrite extensions_app, Hl, (extensions_made _ _ _ Hm). destruct (o_newExt o); split; cbn; [lia|try done|lia|try done]. }
    destruct HR as [mid dn x Hb _|tn s name Hm|tn s sel tl s' e Hm _ _ _ Hp|tn s sel tl new tc e Hm _ _ _ Hp _ Hc|tn s sel tl new Hm _ _ _ Hp].
    + rewrite Hb. cbn. split; [lia|done].
    + specialize (Hmm tn s [] Hm eq_refl). by rewrite app_nil_r in Hmm.
    + eapply Hmm; [exact Hm|]. by apply extensions_private.
    + eapply Hmm; [exact Hm|]. rewrite extensions_app, (extensions_private tl) by done. by eapply extensions_callback.
    + eapply Hmm; [exact Hm|]. rewrite !extensions_app, (extensions_private tl), extensions_accepted by done. done.
  - destruct (next_dir _ _ _ _ _ _ HN Hst) as (tb & add & -> & HR & Hadd).
    assert (extensions add = []) as Ha by (destruct a; [by subst|]; destruct (decide _); by subst).
    change (EvLock :: tb ++ add ++ [EvUnlock]) with ([EvLock] ++ tb ++ add ++ [EvUnlock]). rewrite !extensions_app, Ha. match goal with |- context [extensions [EvLock] ++ extensions ?x ++ ?y] => change (extensions [EvLock] ++ extensions x ++ y) with (extensions x ++ []) end. rewrite app_nil_r.
    destruct HR as [tp e Hr|tp Hc|tp files tl0 r Hc _ HR].
    + rewrite (extensions_refused _ _ _ Hr). cbn. split; [lia|done].
    + rewrite (extensions_chosen _ _ _ Hc). cbn. split; [lia|done].
    + rewrite extensions_app, (extensions_chosen _ _ _ Hc). cbn [app].
      assert (Hmm : forall old tn s tl, made (o_newExt o) tn s -> extensions tl = [] -> (length (extensions (EvLoadCurrent old :: tn ++ tl)) <= 1)%nat /\ (o_newExt o = false -> extensions (EvLoadCurrent old :: tn ++ tl) = [])).
      { intros old tn s tl Hm Hl. change (extensions (EvLoadCurrent old :: tn ++ tl)) with (extensions (tn ++ tl)). rewrite extensions_app, Hl, (extensions_made _ _ _ Hm). destruct (o_newExt o); split; cbn; [lia|try done|lia|try done]. }
      destruct HR as [old mid dn x Hb _|old tn s tl s' e Hm _ Hp|old tn s tl new tc e Hm _ Hp _ Hcb|old tn s tl new Hm _ Hp].
      * rewrite Hb. cbn. split; [lia|done].
      * eapply Hmm; [exact Hm|]. by apply extensions_private.
      * eapply Hmm; [exact Hm|]. rewrite extensions_app, (extensions_private tl) by done. by eapply extensions_callback.
      * eapply Hmm; [exact Hm|]. rewrite !extensions_app, (extensions_private tl), extensions_accepted by done. by destruct old.
Qed.
End Props.

(** ** Concrete cases *)
(** a, b and c after a reload that rebuilt c: the carried-over plugin a and the rebuilt plugin c *)
Example C60_case : history dyn (t0 ++ t1) (Some m1) /\ o_static dyn = None /\ holds m1 (plug m1 "a") /\ holds m1 (plug m1 "c") /\
  pl_unchanged (plug m1 "a") = true /\ pl_unchanged (plug m1 "c") = false.
Proof.
  split_and!; [apply history1|done|apply elem_of_list_In; vm_compute; tauto|apply elem_of_list_In; vm_compute; tauto|vm_compute; reflexivity..].
Qed.
Definition world_extval : demo_world := world_ext (Val (Some (val_export 9))) world0.
Lemma world_extval_ok : demo_ok world_extval.
Proof. split_and!; try done; [apply world_listing|intros; apply good_call_valid]. Qed.
Definition t_ext := fst (demo_run 0 world_extval dyn_ext (Call_LoadPlugins 77)).
Definition m_ext : mgr := default m0 (after None t_ext).
Example C61_case : next_call dyn_ext [] None (api_prog dyn_ext (Call_LoadPlugins 77)) t_ext (snd (demo_run 0 world_extval dyn_ext (Call_LoadPlugins 77))) /\
  published t_ext m_ext /\ extensions t_ext = [Val (Some (val_export 9))].
Proof.
  split_and!; [apply demo_first; [done|apply world_extval_ok|reflexivity]| |vm_compute; reflexivity].
  destruct (stored t_ext m_ext None) as [H|H]; [vm_compute; reflexivity|discriminate|exact H].
Qed.
Print Assumptions C60_reported_identity_is_true.
Print Assumptions C61_extension_is_from_its_own_load.
Print Assumptions C61_extension_at_most_once.
