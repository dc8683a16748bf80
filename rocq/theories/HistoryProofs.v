(** What holds of every manager in every history *)
From Verif Require Export SwapperProofs.

Section Proofs.
Context {E : GoEnv}.

(** ** The plugins of the manager after a successful dynamic load *)
Definition newly (old : option mgr) (s new : mgr) (t : list event) (f d k : string) (p : plugin) : Prop :=
  exists p1 imp h ans c1 c2 ta tz, pluginName f = k /\ fresh_from new (info_of f d) p1 /\
    (forall r, exists sym v, ans r = Some sym /\ sym_value r sym = Some v /\ get_func r (pl_funcs p) = code_of v) /\
    get_func RReloadable (pl_funcs p) = Some c1 /\ get_func RExport (pl_funcs p) = Some c2 /\
    pl_P p = Some h /\ t = ta ++ open_trace s (info_of f d) p1 h ans c1 c2 ++ tz /\
    answered RImport (pm_id s) ArgNone p (Val imp) t /\ wired (core_map new) p1 imp p /\ EvReadFile f (Val d) ∈ ta.

Lemma load_ok_lookup files old data s t new : blank_mgr s -> load_ok files old data s t new ->
  exists fds, map fst fds = files /\ NoDup (map file_key files) /\
    (forall f d, (f, d) ∈ fds -> EvReadFile f (Val d) ∈ t) /\
    (forall f, f ∈ files -> is_Some (pm_map new !! file_key f)) /\
    deps_ready (pm_map new) (pm_ordered new) /\ same_head s new /\
    (forall k p, pm_map new !! k = Some p -> exists f d, (f, d) ∈ fds /\ file_key f = k /\
       match keep old k (sha1 d) with
       | Some q => p = q
       | None => newly old s new t f d k p
       end).
Proof.
  intros Hb (t1 & t2 & s1 & -> & Hg & Hl).
  pose proof (gathered_facts _ _ _ _ _ Hb Hg) as (G1 & G2 & G3 & _ & Hsh & _).
  apply gathered_lookup in Hg as (fds & Hfds & Hnd & Hread & Hin & Hlook).
  apply exec_lifecycle in Hl; [|done..].
  destruct Hl as (ti & tl & tf & tt' & tini & -> & _ & _ & _ & _ & _ & Hh & Hwhen & Hcm & _ & _ & _ & _ & Himp & _).
  destruct (Himp (or_intror eq_refl)) as (_ & Hready & Hmap). clear Himp.
  exists fds. split_and!; [done|done| | |done|by eapply same_head_trans|].
  - intros f d Hfd. apply elem_of_app; left. eauto.
  - intros f Hf. destruct (Hin f Hf) as [p Hp]. destruct (Hmap _ _ Hp) as (p' & Hp' & _). eauto.
  - intros k p Hp.
    assert (exists p1, pm_map s1 !! k = Some p1) as [p1 Hp1].
    { apply core_map_lookup in Hp. rewrite Hcm in Hp. apply core_map_lookup_inv in Hp as (p1 & ? & _). eauto. }
    destruct (Hmap _ _ Hp1) as (p' & Hp' & Hcase). assert (p' = p) as -> by congruence.
    destruct (Hlook _ _ Hp1) as (f & d & Hfd & Hk & Hcf). exists f, d. split; [done|]. split; [done|].
    unfold comes_from in Hcf. destruct (keep old k (sha1 d)) as [q|] eqn:Ek.
    + subst q. apply keep_note in Ek as (q & note & _ & -> & _). simpl in Hcase. done.
    + destruct Hcf as (Hname & Hfresh & h & ans & c1 & c2 & HP & Hans & Hc1 & Hc2 & ta & tz & -> & Hrd).
      assert (Hun : pl_unchanged p1 = false) by apply Hfresh. rewrite Hun in Hcase.
      destruct Hcase as (imp & Ha & Hw).
      destruct Hw as (fields & qs & Hdf & Hqs & ->).
      exists p1, imp, h, ans, c1, c2, ta. eexists. split; [done|]. split.
      { unfold fresh_from in *. by rewrite Hwhen. }
      split; [exact Hans|]. split; [exact Hc1|]. split; [exact Hc2|]. split; [exact HP|].
      split; [by rewrite <- !app_assoc|]. split.
      { apply answered_app_r, answered_app_l. rewrite <- (proj1 Hsh). exact Ha. }
      split; [|exact Hrd]. exists fields, qs. split; [done|]. split; [|done]. by rewrite Hcm.
Qed.

Lemma elem_Plugins m k p : Permutation (pm_ordered m) (map_keys (pm_map m)) -> pm_map m !! k = Some p -> p ∈ Plugins m.
Proof.
  intros Hperm Hp. unfold Plugins. apply elem_plugins_of. exists k. split; [|done].
  rewrite Hperm. apply map_keys_elem. eauto.
Qed.
Lemma Plugins_lookup m p : p ∈ Plugins m -> exists k, pm_map m !! k = Some p.
Proof. unfold Plugins. intros (k & _ & ?)%elem_plugins_of. eauto. Qed.

(** OnLoad and OnInit of [p] have succeeded. *)
Definition started (h : list event) (p : plugin) : Prop :=
  exists mid d w, answered ROnLoad mid (ArgData d) p (Val None) h /\ answered ROnInit mid (ArgVault mid) p (Val (w, None)) h.

Lemma lifecycle_started data s t new :
  pm_ordered s = [] -> pm_livefuncs s = ∅ -> pm_livetypes s = ∅ ->
  exec (lifecycle data s) t (new, Val tt) ->
  Permutation (pm_ordered new) (map_keys (pm_map new)) /\
  forall k p, pm_map new !! k = Some p -> pl_unchanged p = false -> started t p.
Proof.
  intros H1 H2 H3 Hl. apply exec_lifecycle in Hl; [|done..].
  destruct Hl as (ti & tl & tf & tt' & tini & -> & _ & _ & _ & _ & _ & Hh & Hwhen & Hcm & _ & _ & _ & _ & Himp & Hld & _ & Hini & _).
  destruct (Himp (or_intror eq_refl)) as (_ & (_ & _ & _ & Hperm & _) & _). split; [done|].
  intros k p Hp Hun. assert (Hin : p ∈ new_ordered new).
  { unfold new_ordered. apply elem_of_list_In, filter_In. split; [|unfold is_new; by rewrite Hun].
    apply elem_of_list_In. by eapply elem_Plugins. }
  destruct (Hld (or_intror eq_refl)) as [_ Hall]. rewrite Forall_forall in Hall. specialize (Hall p Hin).
  destruct (Hini eq_refl) as (_ & ws & Hws & _).
  apply elem_of_list_lookup in Hin as [i Hi]. destruct (Forall2_lookup_l _ _ _ _ _ Hws Hi) as (w & _ & Hw).
  exists (pm_id new), data, w. split.
  - by apply answered_app_r, answered_app_l.
  - by apply answered_app_r, answered_app_r, answered_app_r, answered_app_r.
Qed.

(** [p] is wired according to what its Import() returned, to the plugins of manager [m]. *)
Definition wired_in (h : list event) (m : mgr) (p : plugin) : Prop :=
  exists mid imp fields qs, answered RImport mid ArgNone p (Val imp) h /\ dep_fields imp = Some fields /\
    Forall2 (dep_ok (pm_map m) p) fields qs /\ pl_deps p = map pl_name qs /\
    pl_imports p = omap (fun x => x) (zip_with field_value fields qs).

(** where a plugin was opened: the functions, the export value and reloadability come from its own file *)
Definition opened_in (h : list event) (p : plugin) : Prop :=
  exists s p1 d hd ans c1 c2 ta tz, h = ta ++ open_trace s (info_of (pl_file p) d) p1 hd ans c1 c2 ++ tz /\
    pl_inst p1 = pl_inst p /\ pl_name p1 = pl_name p /\ pl_exported p1 = pl_exported p /\ pl_reloadable p1 = pl_reloadable p /\
    pl_sha1 p = sha1 d /\ pl_P p = Some hd /\
    (forall r, exists sym v, ans r = Some sym /\ sym_value r sym = Some v /\ get_func r (pl_funcs p) = code_of v) /\
    get_func RReloadable (pl_funcs p) = Some c1 /\ get_func RExport (pl_funcs p) = Some c2 /\
    EvReadFile (pl_file p) (Val d) ∈ ta.

(** the invariant of a published manager (dynamic mode) *)
Definition sound_plugin (h : list event) (m : mgr) (k : string) (p : plugin) : Prop :=
  pl_name p = k /\ to_lower k = k /\ pluginName (pl_file p) = k /\
  pl_inst p ∈ created h /\ started h p /\ wired_in h m p /\ opened_in h p /\
  (pl_unchanged p = false -> pl_note p = "") /\
  (pl_unchanged p = true -> pl_note p = if pl_reloadable p then "unchanged" else "not reloadable").
Definition sound (h : list event) (m : mgr) : Prop :=
  deps_ready (pm_map m) (pm_ordered m) /\
  (forall k p, pm_map m !! k = Some p -> sound_plugin h m k p).

Lemma answered_mono_l r mid arg p x t1 t2 : answered r mid arg p x t1 -> answered r mid arg p x (t1 ++ t2).
Proof. apply answered_app_l. Qed.
Lemma started_mono h t p : started h p -> started (h ++ t) p.
Proof. intros (mid & d & w & ? & ?). exists mid, d, w. split; by apply answered_app_l. Qed.
Lemma wired_in_mono h t m p : wired_in h m p -> wired_in (h ++ t) m p.
Proof. intros (mid & imp & fs & qs & ? & ?). exists mid, imp, fs, qs. split; [by apply answered_app_l|done]. Qed.
Lemma opened_in_mono h t p : opened_in h p -> opened_in (h ++ t) p.
Proof.
  intros (s & p1 & d & hd & ans & c1 & c2 & ta & tz & -> & ?). exists s, p1, d, hd, ans, c1, c2, ta, (tz ++ t).
  split; [|done]. by rewrite <- !app_assoc.
Qed.
Lemma sound_mono h t m : sound h m -> sound (h ++ t) m.
Proof.
  intros [Hr Hp]. split; [done|]. intros k p Hk.
  destruct (Hp k p Hk) as (A1 & A2 & A3 & A4 & A5 & A6 & A7 & A8 & A9). split_and!; try done.
  - rewrite created_app. apply elem_of_app; by left.
  - by apply started_mono.
  - by apply wired_in_mono.
  - by apply opened_in_mono.
Qed.

Lemma keep_inv old k h q' : keep old k h = Some q' ->
  exists q, old_map old !! k = Some q /\ q' = set_unchanged (if pl_reloadable q then "unchanged" else "not reloadable") q /\
    (pl_reloadable q = true -> h = pl_sha1 q).
Proof.
  unfold keep. destruct (old_map old !! k) as [q|]; [|done]. destruct (pl_reloadable q) eqn:Er.
  - destruct (String.eqb_spec h (pl_sha1 q)); [|done]. intros [= <-]. exists q. rewrite Er. done.
  - intros [= <-]. exists q. rewrite Er. done.
Qed.

Lemma newly_unchanged old s new t f d k p : newly old s new t f d k p -> pl_unchanged p = false.
Proof.
  intros (p1 & imp & hd & ans & c1 & c2 & ta & tz & _ & Hf & _ & _ & _ & _ & _ & _ & (fs & qs & _ & _ & ->) & _).
  simpl. apply Hf.
Qed.

Lemma Forall2_impl_ex {A B B'} (P : A -> B -> Prop) (Q : A -> B' -> Prop) (f : B -> B' -> Prop) l k :
  Forall2 P l k -> (forall x y, P x y -> exists y', f y y' /\ Q x y') -> exists k', Forall2 Q l k' /\ Forall2 f k k'.
Proof.
  intros H Hi. induction H as [|x y l k Hxy _ (k' & H1 & H2)]; [exists []; split; constructor|].
  destruct (Hi _ _ Hxy) as (y' & ? & ?). exists (y' :: k'). split; by constructor.
Qed.

Lemma field_value_same f q q' : pl_exported q = pl_exported q' -> field_value f q = field_value f q'.
Proof. unfold field_value. by intros ->. Qed.

(** plugins agreeing on what wiring looks at *)
Definition alike (q q' : plugin) : Prop :=
  pl_name q = pl_name q' /\ pl_reloadable q = pl_reloadable q' /\ pl_exported q = pl_exported q'.
Lemma dep_ok_alike M p f q (M' : gmap string plugin) q' : dep_ok M p f q -> M' !! name2key (sf_name f) = Some q' -> alike q q' -> dep_ok M' p f q'.
Proof.
  intros (H1 & H2 & H3 & H4) Hq (A1 & A2 & A3). split_and!; [done|done| |].
  - by rewrite <- A2.
  - intros x. by rewrite <- (field_value_same f q q' A3); apply H4.
Qed.
Lemma alike_wires fields qs qs' : Forall2 alike qs qs' ->
  map pl_name qs = map pl_name qs' /\ zip_with field_value fields qs = zip_with field_value fields qs'.
Proof.
  intros H. revert fields. induction H as [|q q' qs qs' (A1 & A2 & A3) _ IH]; intros fields; [done|].
  destruct (IH (tail fields)) as [I1 I2]. split; simpl; [by f_equal|].
  destruct fields as [|f fields]; [done|]. simpl in *. f_equal; [by apply field_value_same|done].
Qed.

(** one successful load keeps the invariant *)
Lemma load_ok_sound h th files old data s t new :
  (forall om, old = Some om -> sound h om) -> blank_mgr s -> load_ok files old data s t new -> sound (h ++ th ++ t) new.
Proof.
  intros Hold Hb Hok. pose proof Hok as Hok'.
  apply load_ok_lookup in Hok' as (fds & Hfds & Hnd & Hread & Hin & Hready & Hsh & Hlook); [|done].
  destruct Hok as (t1 & t2 & s1 & -> & Hg & Hl).
  pose proof (gathered_facts _ _ _ _ _ Hb Hg) as (G1 & G2 & G3 & _).
  apply lifecycle_started in Hl as [_ Hst]; [|done..].
  split; [done|]. intros k p Hp. destruct (Hlook k p Hp) as (f & d & Hfd & Hk & Hcase).
  destruct (keep old k (sha1 d)) as [q'|] eqn:Ek.
  - subst q'. apply keep_inv in Ek as (q & Hq & -> & Hsha).
    destruct old as [om|]; [|done]. simpl in Hq. destruct (Hold om eq_refl) as [Hro Hpo].
    destruct (Hpo k q Hq) as (A1 & A2 & A3 & A4 & A5 & A6 & A7 & A8 & A9).
    assert (Hw : wired_in h new (set_unchanged (if pl_reloadable q then "unchanged" else "not reloadable") q)).
    { destruct A6 as (mid & imp & fields & qs & Ha & Hdf & Hqs & Hd & Hi).
      destruct Hready as (_ & _ & Hreb & _).
      assert (Hdeps : forall q0, q0 ∈ qs -> pl_name q0 ∈ pl_deps q).
      { intros q0 Hq0. rewrite Hd. by apply elem_of_list_fmap_1. }
      assert (exists qs', Forall2 (dep_ok (pm_map new) q) fields qs' /\ Forall2 alike qs qs') as (qs' & Hqs' & Hal).
      { clear Ha Hdf Hi Hd. induction Hqs as [|f0 q0 fs qs0 Hok0 _ IH]; [exists []; split; constructor|].
        destruct IH as (qs' & I1 & I2); [intros; apply Hdeps; by right|].
        pose proof Hok0 as (B1 & _).
        destruct (Hpo _ _ B1) as (N1 & N2 & _).
        destruct (Hreb k _ Hp eq_refl (pl_name q0)) as (q0' & Hq0' & Hu); [apply Hdeps; by left|].
        assert (Hkey : name2key (pl_name q0) = name2key (sf_name f0)) by (rewrite N1; done).
        rewrite Hkey in Hq0'.
        destruct (Hlook _ _ Hq0') as (f1 & d1 & _ & _ & Hc1).
        destruct (keep (Some om) (name2key (sf_name f0)) (sha1 d1)) as [q1'|] eqn:Ek1.
        2:{ apply newly_unchanged in Hc1. congruence. }
        subst q1'. apply keep_inv in Ek1 as (q1 & Hq1 & -> & _). simpl in Hq1.
        assert (q1 = q0) as -> by congruence.
        exists (set_unchanged (if pl_reloadable q0 then "unchanged" else "not reloadable") q0 :: qs').
        split; constructor; try done. eapply dep_ok_alike; done. }
      destruct (alike_wires fields _ _ Hal) as [W1 W2].
      exists mid, imp, fields, qs'. split_and!; [exact Ha|done|done| |].
      + simpl. by rewrite Hd.
      + simpl. by rewrite Hi, W2. }
    split_and!; try done.
    + rewrite created_app. apply elem_of_app; by left.
    + by apply started_mono.
    + by apply wired_in_mono.
    + by apply opened_in_mono.
  - pose proof (newly_unchanged _ _ _ _ _ _ _ _ Hcase) as Hun.
    destruct Hcase as (p1 & imp & hd & ans & c1 & c2 & ta & tz & Hname & Hf & Hans & Hc1 & Hc2 & HP & Ht & Hai & Hw & Hrd).
    destruct Hw as (fields & qs & Hdf & Hqs & Hpe).
    destruct Hf as (F1 & F2 & F3 & F4 & F5 & F6 & F7 & F8).
    assert (pl_name p = k) as Hpn by (rewrite Hpe; simpl; rewrite F1; done).
    split_and!.
    + done.
    + rewrite <- Hk. unfold file_key, name2key. apply to_lower_idem.
    + rewrite Hpe. simpl. rewrite F2. done.
    + rewrite Ht, !created_app. apply elem_of_app; right. apply elem_of_app; right. apply elem_of_app; right. apply elem_of_app; left.
      assert (pl_inst p = pl_inst p1) as -> by (by rewrite Hpe).
      unfold open_trace. rewrite !created_app. apply elem_of_app; left. simpl. by left.
    + destruct (Hst k p Hp Hun) as (mid & dd & w & S1 & S2). exists mid, dd, w.
      split; apply answered_app_r; apply answered_app_r; by apply answered_app_r.
    + exists (pm_id s), imp, fields.
      assert (exists qs', Forall2 (dep_ok (pm_map new) p) fields qs' /\ Forall2 alike qs qs') as (qs' & Hqs' & Hal).
      { eapply Forall2_impl_ex; [exact Hqs|]. intros f0 q0 H0. pose proof H0 as (B1 & _).
        apply core_map_lookup_inv in B1 as (q0' & Hq0' & ->). exists q0'. split; [done|].
        rewrite Hpe. exact (dep_ok_alike _ _ _ _ (pm_map new) q0' H0 Hq0' ltac:(done)). }
      destruct (alike_wires fields _ _ Hal) as [W1 W2].
      exists qs'. split_and!; [apply answered_app_r; by apply answered_app_r|done|done| |].
      * rewrite Hpe. simpl. rewrite F7. simpl. done.
      * rewrite Hpe. simpl. rewrite F8. simpl. by rewrite W2.
    + exists s, p1, d, hd, ans, c1, c2, (h ++ th ++ ta), tz.
      assert (pl_file p = f) as -> by (rewrite Hpe; simpl; by rewrite F2).
      split; [by rewrite Ht, <- !app_assoc|]. rewrite Hpe in *. simpl in *. rewrite F3. split_and!; try done.
      rewrite !elem_of_app. by right; right.
    + intros _. rewrite Hpe. simpl. done.
    + congruence.
Qed.

(** ** Calls *)
Definition no_publish (t : list event) : Prop :=
  Forall (fun e => match e with EvStore _ | EvSpawnFree _ _ => False | _ => True end) t.
Lemma no_publish_app t1 t2 : no_publish t1 -> no_publish t2 -> no_publish (t1 ++ t2).
Proof. intros; by apply Forall_app. Qed.
Lemma private_no_publish t : Forall private_event t -> no_publish t.
Proof. intros H. eapply Forall_impl; [exact H|]. by intros []. Qed.
Lemma after_app cur t1 t2 : after cur (t1 ++ t2) = after (after cur t1) t2.
Proof. unfold after. by rewrite fold_left_app. Qed.
Lemma after_no_publish cur t : no_publish t -> after cur t = cur.
Proof. induction 1 as [|e t He _ IH]; [done|]. destruct e; done. Qed.
Lemma made_no_publish b tn s : made b tn s -> no_publish tn.
Proof. intros (_ & -> & _). destruct b; repeat constructor. Qed.
Lemma callbacks_no_publish new old l : no_publish (map (accepted new old) l).
Proof. induction l; by constructor. Qed.
Lemma callback_failed_no_publish cbs new old tc e : callback_failed cbs new old tc e -> no_publish tc.
Proof.
  intros (c1 & cb & c2 & r & tf & _ & -> & _ & (ps & ts & -> & Hps & _)).
  apply no_publish_app; [apply callbacks_no_publish|]. constructor; [done|].
  apply private_no_publish. by eapply freed_private.
Qed.

(** a successful publication, dynamic mode *)
Definition file_ok (o : opts) (files : list string) (data : N) (cbs : list (option N)) (t : list event)
  (old : option mgr) (s new : mgr) (tl : list event) (d : Details) : Prop :=
  exists tn, made (o_newExt o) tn s /\ same_head s new /\ Forall private_event tl /\ load_ok files old data s tl new /\
    t = EvLoadCurrent old :: tn ++ tl ++ map (accepted new old) (somes cbs) ++ spawned o old ++ [EvStore new] /\
    d = details_of new files ∅.

Lemma file_run_cases o files data cbs t r : file_run o files data cbs t r ->
  (no_publish t /\ ~ is_val r) \/ (exists old s new tl d, file_ok o files data cbs t old s new tl d /\ r = Val (Some d)).
Proof.
  intros H. destruct H as [old mid dn x Hb Hx|old tn s tl s' e Hm Hh Hp Hl|old tn s tl new tc e Hm Hh Hp Hl Hc|old tn s tl new Hm Hh Hp Hl].
  - left. split; [|intros []]. repeat constructor.
  - left. split; [|intros []]. constructor; [done|]. apply no_publish_app; [by eapply made_no_publish|by apply private_no_publish].
  - left. split; [|intros []]. constructor; [done|].
    apply no_publish_app; [by eapply made_no_publish|]. apply no_publish_app; [by apply private_no_publish|].
    by eapply callback_failed_no_publish.
  - right. exists old, s, new, tl. eexists. split; [|done]. exists tn. done.
Qed.

Lemma dir_run_cases o data cbs t r : dir_run o data cbs t r ->
  (no_publish t /\ (r = Val None \/ ~ is_val r)) \/
  (exists tp files tf old s new tl d, t = tp ++ tf /\ no_publish tp /\ chosen o tp files /\ files <> [] /\
     file_ok o files data cbs tf old s new tl d /\ r = Val (Some d)).
Proof.
  intros H. destruct H as [tp e Hr|tp Hc|tp files tl r Hc Hne Hf].
  - left. split; [|right; intros []]. destruct Hr; repeat constructor.
  - left. split; [|by left]. destruct Hc as (d1 & d2 & abs & entries & found & -> & _). repeat constructor.
  - assert (Hnp : no_publish tp) by (destruct Hc as (d1 & d2 & abs & entries & found & -> & _); repeat constructor).
    apply file_run_cases in Hf as [[H1 H2]|(old & s & new & tl' & d & Hok & ->)].
    + left. split; [by apply no_publish_app|by right].
    + right. exists tp, files, tl, old, s, new, tl', d. done.
Qed.

(** what a load call does, dynamic mode *)
Definition call_cbs (o : opts) (p : prog (outcome (option Details))) (cbs : list (option N)) (data : N) : Prop :=
  (p = LoadPlugins o data /\ cbs = [o_reloadCallback o]) \/
  (exists extra, p = ReloadWithCallback o data extra /\ cbs = reload_cbs o extra).

Lemma load_call_run o p t r :
  o_static o = None -> load_call o p -> (forall x, saw_current t x -> keyed (old_map x)) -> exec p t r ->
  exists data cbs tb add, call_cbs o p cbs data /\ t = EvLock :: tb ++ add ++ [EvUnlock] /\
    (add = [] \/ add = [EvAddCounter]) /\ dir_run o data cbs tb r.
Proof.
  intros Hs Hp Hk H. destruct Hp as [data|data extra].
  - apply exec_LoadPlugins in H as (tb & -> & H); [|done]. rewrite Hs in H.
    exists data, [o_reloadCallback o], tb, []. split_and!; try done; [by left|by left].
  - apply exec_ReloadWithCallback in H; [|done]. rewrite Hs in H. destruct H as (tb & -> & H).
    exists data, (reload_cbs o extra), tb. eexists. split_and!; [|done| |done].
    + right. by exists extra.
    + destruct (decide (is_val r)); auto.
Qed.

Lemma call_cases o p t r :
  o_static o = None -> load_call o p -> (forall x, saw_current t x -> keyed (old_map x)) -> exec p t r ->
  (no_publish t /\ (r = Val None \/ ~ is_val r)) \/
  (exists data cbs ta files tf tz old s new tl d, call_cbs o p cbs data /\
     t = ta ++ tf ++ tz /\ no_publish ta /\ no_publish tz /\
     chosen o (tail ta) files /\ files <> [] /\ file_ok o files data cbs tf old s new tl d /\ r = Val (Some d)).
Proof.
  intros Hs Hp Hk H. destruct (load_call_run o p t r Hs Hp Hk H) as (data & cbs & tb & add & Hcbs & -> & Hadd & Hd).
  assert (Hz : no_publish (add ++ [EvUnlock])) by (destruct Hadd as [->| ->]; repeat constructor).
  apply dir_run_cases in Hd as [[Hn Hr]|(tp & files & tf & old & s & new & tl & d & -> & Hn & Hc & Hne & Hok & ->)].
  - left. split; [|done]. constructor; [done|]. by apply no_publish_app.
  - right. exists data, cbs, (EvLock :: tp), files, tf, (add ++ [EvUnlock]), old, s, new, tl, d.
    split_and!; try done; [|by constructor]. simpl. by rewrite <- !app_assoc.
Qed.

Lemma file_ok_saw o files data cbs t old s new tl d : file_ok o files data cbs t old s new tl d -> saw_current t old.
Proof. intros (tn & _ & _ & _ & _ & -> & _). by left. Qed.
Lemma file_ok_after o files data cbs t old s new tl d cur : file_ok o files data cbs t old s new tl d -> after cur t = Some new.
Proof. intros (tn & _ & _ & _ & _ & -> & _). unfold after. simpl. by rewrite !fold_left_app. Qed.
Lemma saw_app_l t1 t2 x : saw_current t1 x -> saw_current (t1 ++ t2) x.
Proof. unfold saw_current. rewrite elem_of_app. auto. Qed.
Lemma saw_app_r t1 t2 x : saw_current t2 x -> saw_current (t1 ++ t2) x.
Proof. unfold saw_current. rewrite elem_of_app. auto. Qed.

Lemma sound_keyed h m : sound h m -> keyed (pm_map m).
Proof. intros [_ H] k q Hq. destruct (H k q Hq) as (-> & ? & _). done. Qed.

(** every published manager is sound *)
Lemma history_sound o h cur : o_static o = None -> history o h cur -> forall m, cur = Some m -> sound h m.
Proof.
  intros Hs Hh. induction Hh as [|h cur p t r Hh IH Hp He Hsaw]; intros m Hm; [done|].
  assert (Hk : forall x, saw_current t x -> keyed (old_map x)).
  { intros x Hx. rewrite (Hsaw x Hx). destruct cur as [om|]; [|done]. eapply sound_keyed. by apply IH. }
  destruct (call_cases o p t r Hs Hp Hk He) as [[Hn _]|(data & cbs & ta & files & tf & tz & old & s & new & tl & d & _ & -> & Ha & Hz & Hc & Hne & Hok & _)].
  - rewrite after_no_publish in Hm by done. apply sound_mono. by apply IH.
  - rewrite !after_app in Hm. rewrite (after_no_publish _ ta) in Hm by done.
    rewrite (file_ok_after _ _ _ _ _ _ _ _ _ _ _ Hok) in Hm. rewrite after_no_publish in Hm by done.
    injection Hm as <-. assert (Hold : old = cur). { apply Hsaw. apply saw_app_r, saw_app_l. by eapply file_ok_saw. }
    subst old. destruct Hok as (tn & Hm & Hsh & Hpr & Hl & -> & _).
    assert (Hsnd : sound (h ++ (ta ++ EvLoadCurrent cur :: tn) ++ tl) new).
    { eapply load_ok_sound; [|apply Hm|exact Hl]. intros om ->. by apply IH. }
    apply (sound_mono _ (map (accepted new cur) (somes cbs) ++ spawned o cur ++ [EvStore new] ++ tz)) in Hsnd.
    replace (h ++ ta ++ (EvLoadCurrent cur :: tn ++ tl ++ map (accepted new cur) (somes cbs) ++ spawned o cur ++ [EvStore new]) ++ tz)
      with ((h ++ (ta ++ EvLoadCurrent cur :: tn) ++ tl) ++ map (accepted new cur) (somes cbs) ++ spawned o cur ++ [EvStore new] ++ tz); [done|].
    repeat (rewrite <- ?app_assoc; simpl). done.
Qed.

End Proofs.
