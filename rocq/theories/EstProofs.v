(** How every plugin of a published manager came about, in both modes *)
From Verif Require Export StageProofs Worlds PropOrder.

Section Proofs.
Context {E : GoEnv}.

Lemma core_lookup m s k q : core_map m = core_map s -> pm_map m !! k = Some q -> exists q1, pm_map s !! k = Some q1 /\ core q = core q1.
Proof.
  intros Hcm Hk. assert (He : core_map m !! k = core_map s !! k) by (by rewrite Hcm). unfold core_map in He. rewrite !lookup_fmap, Hk in He.
  destruct (pm_map s !! k) as [q1|]; [|done]. exists q1. split; [done|]. by apply (inj Some) in He.
Qed.

(** the functions of [p] have run successfully, on behalf of manager [mid], in the events [t] *)
Definition born (mid : N) (t : list event) (m : mgr) (p : plugin) : Prop :=
  pl_inst p ∈ created t /\
  answered RReloadable mid ArgNone p (Val (pl_reloadable p)) t /\ answered RExport mid ArgNone p (Val (pl_exported p)) t /\
  (exists imp, answered RImport mid ArgNone p (Val imp) t /\ wired_to m p imp) /\
  (exists d, answered ROnLoad mid (ArgData d) p (Val None) t) /\
  (exists w, answered ROnInit mid (ArgVault mid) p (Val (w, None)) t).

Lemma born_app mid ta t tz m p : born mid t m p -> born mid (ta ++ t ++ tz) m p.
Proof.
  intros (H1 & H2 & H3 & (imp & H4 & H4') & (d & H5) & (w & H6)). split_and!.
  - rewrite !created_app. rewrite !elem_of_app. tauto.
  - by apply answered_app_r, answered_app_l.
  - by apply answered_app_r, answered_app_l.
  - exists imp. split; [by apply answered_app_r, answered_app_l|done].
  - exists d. by apply answered_app_r, answered_app_l.
  - exists w. by apply answered_app_r, answered_app_l.
Qed.

Lemma dep_ok_wired m p fields qs : Forall2 (dep_ok (pm_map m) p) fields qs ->
  Forall2 (fun f q => FindPlugin m (sf_name f) = Some q /\ sf_anon f = false /\
    forall x, field_value f q = Some x -> assignable (gv_type (snd x)) (sf_type f) = true) fields qs.
Proof.
  intros H. eapply Forall2_impl; [exact H|]. intros f q (A1 & A2 & A3 & A4). split_and!; [done|done|]. intros x Hx. by apply A4.
Qed.

Lemma wired_core m p1 imp p : wired (core_map m) p1 imp p -> pl_deps p1 = [] -> pl_imports p1 = [] ->
  wired_to m p imp /\ core p = core p1 /\ forall q d, d ∈ pl_deps p -> FindPlugin m d = Some q -> keyed (pm_map m) -> pl_reloadable p = false -> pl_reloadable q = false.
Proof.
  intros (fields & qs & Hdf & Hqs & ->) Hd Hi.
  assert (exists qs', Forall2 (dep_ok (pm_map m) p1) fields qs' /\ Forall2 alike qs qs') as (qs' & Hqs' & Hal).
  { eapply Forall2_impl_ex; [exact Hqs|]. intros f0 q0 H0. pose proof H0 as (B1 & _).
    apply core_map_lookup_inv in B1 as (q0' & Hq0' & ->). exists q0'. split; [done|].
    exact (dep_ok_alike _ _ _ _ (pm_map m) q0' H0 Hq0' ltac:(done)). }
  destruct (alike_wires fields _ _ Hal) as [W1 W2]. split_and!.
  - exists fields, qs'. split_and!; [done| | |].
    + by eapply dep_ok_wired.
    + simpl. by rewrite Hd, W1.
    + simpl. by rewrite Hi, W2.
  - by rewrite core_set_wires.
  - intros q d Hin Hf Hk Hr. simpl in Hin, Hr. rewrite Hd in Hin. simpl in Hin. rewrite W1 in Hin.
    apply elem_of_list_fmap in Hin as (q0 & -> & Hq0). apply elem_of_list_lookup in Hq0 as [i Hi0].
    destruct (Forall2_lookup_r _ _ _ _ _ Hqs' Hi0) as (f & _ & (B1 & _ & B3 & _)).
    unfold FindPlugin in Hf. pose proof (Hk _ _ B1) as Hkq. rewrite Hkq in Hf. assert (q0 = q) as -> by congruence. by apply B3.
Qed.

(** wiring of a sound manager *)
Lemma sound_wired h m k p : sound h m -> pm_map m !! k = Some p ->
  (exists mid imp, answered RImport mid ArgNone p (Val imp) h /\ wired_to m p imp) /\
  (forall q d, d ∈ pl_deps p -> FindPlugin m d = Some q -> pl_reloadable p = false -> pl_reloadable q = false).
Proof.
  intros Hs Hp. pose proof (sound_keyed _ _ Hs) as Hk. destruct Hs as [_ Hs].
  destruct (Hs k p Hp) as (_ & _ & _ & _ & _ & (mid & imp & fields & qs & Ha & Hdf & Hqs & Hd & Hi) & _). split.
  - exists mid, imp. split; [done|]. exists fields, qs. split_and!; try done. by eapply dep_ok_wired.
  - intros q d Hin Hf Hr. rewrite Hd in Hin. apply elem_of_list_fmap in Hin as (q0 & -> & Hq0). apply elem_of_list_lookup in Hq0 as [i Hi0].
    destruct (Forall2_lookup_r _ _ _ _ _ Hqs Hi0) as (f & _ & (B1 & _ & B3 & _)).
    unfold FindPlugin in Hf. pose proof (Hk _ _ B1) as Hkq. rewrite Hkq in Hf. assert (q0 = q) as -> by congruence. by apply B3.
Qed.

Lemma lifecycle_born data s1 t2 m k p p1 : pm_ordered s1 = [] -> pm_livefuncs s1 = ∅ -> pm_livetypes s1 = ∅ ->
  exec (lifecycle data s1) t2 (m, Val tt) -> pm_map m !! k = Some p -> pl_unchanged p = false -> pm_map s1 !! k = Some p1 -> pl_deps p1 = [] -> pl_imports p1 = [] ->
  pm_id m = pm_id s1 /\ core p = core p1 /\
  (exists imp, answered RImport (pm_id m) ArgNone p (Val imp) t2 /\ wired_to m p imp) /\
  answered ROnLoad (pm_id m) (ArgData data) p (Val None) t2 /\
  (exists w, answered ROnInit (pm_id m) (ArgVault (pm_id m)) p (Val (w, None)) t2) /\
  (forall q d, d ∈ pl_deps p -> FindPlugin m d = Some q -> keyed (pm_map m) -> pl_reloadable p = false -> pl_reloadable q = false).
Proof.
  intros H1 H2 H3 Hl Hp Hun Hp1 Hd Hi. apply exec_lifecycle in Hl; [|done..].
  destruct Hl as (ti & tl & tf & tt' & tini & -> & _ & _ & _ & _ & _ & Hh & Hwhen & Hcm & _ & _ & _ & _ & Himp & Hld & _ & Hini & _).
  destruct (Himp (or_intror eq_refl)) as (_ & (_ & _ & _ & Hperm & _) & Hw).
  assert (Hin : p ∈ new_ordered m).
  { unfold new_ordered. apply elem_of_list_In, filter_In. split; [|unfold is_new; by rewrite Hun]. apply elem_of_list_In. by eapply elem_Plugins. }
  destruct (Hw k p1 Hp1) as (p' & Hp' & Hx). assert (p' = p) as -> by congruence.
  assert (Hc : core p = core p1).
  { destruct (core_lookup m s1 k p Hcm Hp) as (q1 & Hq1 & Hc). congruence. }
  assert (Hu1 : pl_unchanged p1 = false). { destruct (core_inst _ _ Hc) as (_ & Hu & _). congruence. }
  rewrite Hu1 in Hx. destruct Hx as (imp & Ha & Hx). rewrite <- Hcm in Hx.
  destruct (wired_core _ _ _ _ Hx Hd Hi) as (Hwt & _ & Hrel).
  destruct (Hld (or_intror eq_refl)) as [_ Hall]. rewrite Forall_forall in Hall. specialize (Hall p Hin).
  destruct (Hini eq_refl) as (_ & ws & Hws & _).
  apply elem_of_list_lookup in Hin as [i Hi0]. destruct (Forall2_lookup_l _ _ _ _ _ Hws Hi0) as (w & _ & Hw').
  assert (Hid : pm_id m = pm_id s1) by apply Hh.
  split_and!; [done|done| | | |done].
  - exists imp. split; [|done]. apply answered_app_l. destruct Hx as (fields & qs & _ & _ & ->). rewrite Hid. exact Ha.
  - by apply answered_app_r, answered_app_l.
  - exists w. by apply answered_app_r, answered_app_r, answered_app_r, answered_app_r.
Qed.

Lemma core_answered r mid arg p q x t : core p = core q -> answered r mid arg q x t -> answered r mid arg p x t.
Proof.
  intros Hc (code & H1 & H2). exists code.
  assert (Hf : pl_funcs p = pl_funcs q) by exact (f_equal pl_funcs Hc). assert (Hn : pl_name p = pl_name q) by exact (f_equal pl_name Hc).
  assert (Hi : pl_inst p = pl_inst q) by exact (f_equal pl_inst Hc). rewrite Hf, Hn, Hi. done.
Qed.

(** Every plugin of a published manager was born in the call, or was carried over. *)
Lemma published_plugins o h cur p t r m q : next_call o h cur p t r -> published t m -> holds m q ->
  (pl_unchanged q = false /\ born (pm_id m) t m q) \/
  (pl_unchanged q = true /\ o_static o = None /\ pl_inst q ∉ created t /\ exists om q0, cur = Some om /\ holds om q0 /\ same_plugin q q0 /\
     pl_note q = (if pl_reloadable q0 then "unchanged" else "not reloadable")).
Proof.
  intros Hn Hpub Hq. destruct (Plugins_lookup _ _ Hq) as [k Hk]. destruct (o_static o) as [statics|] eqn:Hs.
  - left. destruct (spub_inv _ _ _ _ _ _ _ _ Hs Hn Hpub) as (data & sel & s & tn & tl & P).
    destruct (spub_ok _ _ _ _ _ _ _ _ _ _ _ P) as (t1 & t2 & s1 & Htl & Hg & Hl).
    pose proof (sgathered_facts _ _ _ _ (proj1 (spub_made _ _ _ _ _ _ _ _ _ _ _ P)) Hg) as (G1 & G2 & G3 & G4 & G5 & _).
    pose proof Hl as Hl'. apply exec_lifecycle in Hl'; [|done..].
    destruct Hl' as (t3 & t4 & t5 & t6 & t7 & _ & _ & _ & _ & _ & _ & Hh & _ & Hcm & _).
    destruct (sgathered_lookup _ _ _ _ Hg) as [_ Hlook].
    assert (exists q1, pm_map s1 !! k = Some q1 /\ core q = core q1) as (q1 & Hq1 & Hc) by exact (core_lookup m s1 k q Hcm Hk).
    destruct (Hlook k q1 Hq1) as (name & sp & c1 & c2 & Hst & Hkk & Hfr & Hfun & Hc1 & Hc2 & ta & tz & Ht1).
    destruct Hfr as (F1 & F2 & F3 & F4 & F5 & F6 & F7 & F8 & F9 & F10).
    destruct (core_inst _ _ Hc) as (_ & Hu & _). rewrite F6 in Hu. split; [done|].
    destruct (lifecycle_born _ _ _ _ _ _ _ G1 G2 G3 Hl Hk Hu Hq1 F9 F10) as (Hid & _ & HI & HO & HN & _).
    rewrite (spub_trace _ _ _ _ _ _ _ _ _ _ _ P), Htl, Ht1.
    assert (Hids : pm_id s = pm_id m) by (rewrite Hid; symmetry; apply G5).
    assert (Hb : born (pm_id m) (static_trace s sp q1 c1 c2 ++ tz ++ t2) m q).
    { assert (Hex : pl_exported q = pl_exported q1) by exact (f_equal pl_exported Hc).
      assert (Hre : pl_reloadable q = pl_reloadable q1) by exact (f_equal pl_reloadable Hc).
      split_and!.
      - assert (pl_inst q = pl_inst q1) as -> by exact (f_equal pl_inst Hc). rewrite created_app. apply elem_of_app. left. simpl. left.
      - apply answered_app_l. eapply core_answered; [exact Hc|]. rewrite Hre, <- Hids. exists c1. split; [done|]. right. left.
      - apply answered_app_l. eapply core_answered; [exact Hc|]. rewrite Hex, <- Hids. exists c2. split; [done|]. right. right. left.
      - destruct HI as (imp & HI & HW). exists imp. split; [|done]. by apply answered_app_r, answered_app_r.
      - exists data. by apply answered_app_r, answered_app_r.
      - destruct HN as [w HN]. exists w. by apply answered_app_r, answered_app_r. }
    match goal with |- born _ ?x _ _ => assert (x = (EvLock :: tn ++ ta) ++ (static_trace s sp q1 c1 c2 ++ tz ++ t2) ++ (map (accepted m None) (somes [o_reloadCallback o]) ++ [EvStore m; EvUnlock])) as -> end.
    { simpl. by rewrite <- !(assoc_L (++)). }
    by apply born_app.
  - destruct (pub_inv _ _ _ _ _ _ _ Hs Hn Hpub) as (data & cbs & tp & files & s & tn & tl & add & P).
    pose proof (pub_ok _ _ _ _ _ _ _ _ _ _ _ _ _ _ _ P) as Hok. pose proof (proj1 (pub_made _ _ _ _ _ _ _ _ _ _ _ _ _ _ _ P)) as Hb.
    pose proof (load_ok_lookup _ _ _ _ _ _ Hb Hok) as (fds & Hfds & Hnd & Hread & Hin & Hready & Hsh & Hlook).
    destruct (Hlook k q Hk) as (f & d & Hfd & Hkf & Hcase). destruct (keep cur k (sha1 d)) as [q'|] eqn:Ek.
    + right. subst q'. apply keep_inv in Ek as (q0 & Hq0 & -> & Hsha). destruct cur as [om|]; [|done]. simpl in Hq0.
      pose proof (pub_old _ _ _ _ _ _ _ _ _ _ _ _ _ _ _ P om eq_refl) as Hso. split_and!; [done|done| |].
      * simpl. destruct Hn as (_ & _ & _ & _ & HF). unfold fresh_objects in HF. rewrite created_app in HF. apply NoDup_app in HF as (_ & HD & _).
        intros Hc. apply (HD (pl_inst q0)); [|done]. apply (proj2 Hso k q0 Hq0).
      * exists om, q0. split_and!; try done. eapply elem_Plugins; [apply (proj1 Hso)|done].
    + left. pose proof (newly_unchanged _ _ _ _ _ _ _ _ Hcase) as Hun. split; [done|].
      destruct Hok as (t1 & t2 & s1 & Htl & Hg & Hl).
      pose proof (gathered_facts _ _ _ _ _ Hb Hg) as (G1 & G2 & G3 & G4 & G5 & _).
      destruct (gathered_lookup _ _ _ _ _ Hg) as (fds' & Hfds' & _ & _ & _ & Hlook').
      pose proof Hl as Hl'. apply exec_lifecycle in Hl'; [|done..].
      destruct Hl' as (t3 & t4 & t5 & t6 & t7 & _ & _ & _ & _ & _ & _ & Hh & _ & Hcm & _).
      assert (exists q1, pm_map s1 !! k = Some q1 /\ core q = core q1) as (q1 & Hq1 & Hc) by exact (core_lookup m s1 k q Hcm Hk).
      destruct (core_inst _ _ Hc) as (_ & Hu & _). rewrite Hun in Hu.
      destruct (Hlook' k q1 Hq1) as (f' & d' & _ & _ & Hcf). unfold comes_from in Hcf.
      destruct (keep cur k (sha1 d')) as [q'|] eqn:Ek'.
      { subst q'. apply keep_inv in Ek' as (q0 & _ & -> & _). done. }
      destruct Hcf as (_ & Hfr & hd & ans & c1 & c2 & HP & _ & Hc1 & Hc2 & ta & tz & Ht1 & _).
      destruct Hfr as (F1 & F2 & F3 & F4 & F5 & F6 & F7 & F8).
      destruct (lifecycle_born _ _ _ _ _ _ _ G1 G2 G3 Hl Hk Hun Hq1 F7 F8) as (Hid & _ & HI & HO & HN & _).
      assert (Hids : pm_id s = pm_id m) by (rewrite Hid; symmetry; apply G5).
      assert (Hbb : born (pm_id m) (open_trace s (info_of f' d') q1 hd ans c1 c2 ++ tz ++ t2) m q).
      { assert (Hex : pl_exported q = pl_exported q1) by exact (f_equal pl_exported Hc).
        assert (Hre : pl_reloadable q = pl_reloadable q1) by exact (f_equal pl_reloadable Hc).
        split_and!.
        - assert (pl_inst q = pl_inst q1) as -> by exact (f_equal pl_inst Hc). rewrite created_app. apply elem_of_app. left.
          unfold open_trace. rewrite created_app. apply elem_of_app. left. simpl. left.
        - apply answered_app_l. eapply core_answered; [exact Hc|]. rewrite Hre, <- Hids. exists c1. split; [done|].
          unfold open_trace. apply elem_of_app. right. apply elem_of_app. right. left.
        - apply answered_app_l. eapply core_answered; [exact Hc|]. rewrite Hex, <- Hids. exists c2. split; [done|].
          unfold open_trace. apply elem_of_app. right. apply elem_of_app. right. right. left.
        - destruct HI as (imp & HI & HW). exists imp. split; [|done]. by apply answered_app_r, answered_app_r.
        - exists data. by apply answered_app_r, answered_app_r.
        - destruct HN as [w HN]. exists w. by apply answered_app_r, answered_app_r. }
      rewrite (pub_trace _ _ _ _ _ _ _ _ _ _ _ _ _ _ _ P), Htl, Ht1.
      match goal with |- born _ ?x _ _ => assert (x = ((EvLock :: tp) ++ (EvLoadCurrent cur :: tn) ++ ta) ++ (open_trace s (info_of f' d') q1 hd ans c1 c2 ++ tz ++ t2) ++ (map (accepted m cur) (somes cbs) ++ spawned o cur ++ [EvStore m] ++ add ++ [EvUnlock])) as -> end.
      { by rewrite <- !(assoc_L (++)). }
      by apply born_app.
Qed.

(** In every manager, at any time. *)
Lemma published_wiring o h cur p t r m q : next_call o h cur p t r -> published t m -> holds m q ->
  (exists mid imp, answered RImport mid ArgNone q (Val imp) (h ++ t) /\ wired_to m q imp) /\
  (exists mid, answered RExport mid ArgNone q (Val (pl_exported q)) (h ++ t)) /\
  (forall q' d, d ∈ pl_deps q -> FindPlugin m d = Some q' -> pl_reloadable q = false -> pl_reloadable q' = false).
Proof.
  intros Hn Hpub Hq. pose proof (published_plugins _ _ _ _ _ _ _ _ Hn Hpub Hq) as HP. destruct (Plugins_lookup _ _ Hq) as [k Hk].
  destruct (o_static o) as [statics|] eqn:Hs.
  - destruct HP as [[Hu Hb]|(_ & ? & _)]; [|done]. pose proof (born_app _ h _ [] _ _ Hb) as Hb'. rewrite app_nil_r in Hb'.
    destruct Hb' as (_ & _ & HX & (imp & HI & HW) & _). split_and!; [eauto|eauto|].
    destruct (spub_inv _ _ _ _ _ _ _ _ Hs Hn Hpub) as (data & sel & s & tn & tl & P).
    destruct (spub_ok _ _ _ _ _ _ _ _ _ _ _ P) as (t1 & t2 & s1 & Htl & Hg & Hl).
    pose proof (sgathered_facts _ _ _ _ (proj1 (spub_made _ _ _ _ _ _ _ _ _ _ _ P)) Hg) as (G1 & G2 & G3 & G4 & G5 & _).
    pose proof Hl as Hl'. apply exec_lifecycle in Hl'; [|done..].
    destruct Hl' as (t3 & t4 & t5 & t6 & t7 & _ & _ & _ & _ & _ & _ & Hh & _ & Hcm & _).
    destruct (sgathered_lookup _ _ _ _ Hg) as [_ Hlook].
    assert (exists q1, pm_map s1 !! k = Some q1 /\ core q = core q1) as (q1 & Hq1 & Hc) by exact (core_lookup m s1 k q Hcm Hk).
    destruct (Hlook k q1 Hq1) as (name & sp & c1 & c2 & Hst & Hkk & Hfr & _).
    destruct Hfr as (F1 & F2 & F3 & F4 & F5 & F6 & F7 & F8 & F9 & F10).
    destruct (lifecycle_born _ _ _ _ _ _ _ G1 G2 G3 Hl Hk Hu Hq1 F9 F10) as (_ & _ & _ & _ & _ & HR).
    intros q' d Hd Hf. apply (HR q' d Hd Hf). by destruct (pub_life _ _ _ _ _ _ _ Hn Hpub) as [? _].
  - destruct (pub_inv _ _ _ _ _ _ _ Hs Hn Hpub) as (data & cbs & tp & files & s & tn & tl & add & P).
    pose proof (pub_sound _ _ _ _ _ _ _ _ _ _ _ _ _ _ _ P) as Hso. destruct (sound_wired _ _ _ _ Hso Hk) as [H1 H2]. split_and!; [done| |done].
    destruct (proj2 Hso k q Hk) as (_ & _ & _ & _ & _ & _ & (s0 & p1 & d & hd & ans & c1 & c2 & ta & tz & Hh & O1 & O2 & O3 & O4 & O5 & O6 & O7 & O8 & O9 & _) & _).
    exists (pm_id s0), c2. split; [done|]. rewrite Hh, <- O1, <- O2, <- O3. apply elem_of_app. right. apply elem_of_app. left.
    unfold open_trace. apply elem_of_app. right. apply elem_of_app. right. right. left.
Qed.
End Proofs.
