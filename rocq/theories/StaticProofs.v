(** PluginManager.loadStaticPlugins *)
From Verif Require Export LoadProofs.

Section Proofs.
Context {E : GoEnv}.

Definition openStatic (statics : gmap string (option StaticPlugin)) (name : string) : SM unit := fun pm =>
  bind (loadStaticPlugin (default None (statics !! name)) pm) (fun so =>
    match snd so with
    | Err e => Ret (fst so, Err (ELoad name e))
    | _ => Ret so
    end).

(** the fields of a plugin made from a registration *)
Definition fresh_static (s : mgr) (sp : StaticPlugin) (p : plugin) : Prop :=
  pl_name p = sp_name sp /\ pl_file p = "" /\ pl_sha1 p = "" /\ pl_when p = pm_when s /\
  pl_note p = "ok" /\ pl_unchanged p = false /\ pl_P p = None /\ pl_funcs p = sp_funcs sp /\
  pl_deps p = [] /\ pl_imports p = [].

Definition static_trace (s : mgr) (sp : StaticPlugin) (p : plugin) (c1 c2 : N) : list event :=
  [EvNewInst (pm_id s) (sp_name sp) (pl_inst p);
   EvCall RReloadable (mkCallee (pm_id s) (pl_name p) (pl_inst p) c1) ArgNone (Val (pl_reloadable p));
   EvCall RExport (mkCallee (pm_id s) (pl_name p) (pl_inst p) c2) ArgNone (Val (pl_exported p))].

Definition sopened (statics : gmap string (option StaticPlugin)) (s : mgr) (name : string) (p : plugin) (t : list event) : Prop :=
  exists sp c1 c2, statics !! name = Some (Some sp) /\ fresh_static s sp p /\
    (forall r, get_func r (sp_funcs sp) <> None) /\
    get_func RReloadable (pl_funcs p) = Some c1 /\ get_func RExport (pl_funcs p) = Some c2 /\
    t = static_trace s sp p c1 c2.

Lemma missing_funcs_nil f : missing_funcs f = [] <-> forall r, get_func r f <> None.
Proof.
  unfold missing_funcs. split.
  - intros H r Hr. apply map_eq_nil in H.
    assert (In r (List.filter (fun r => bool_decide (get_func r f = None)) funcItems)) as Hin.
    { apply filter_In. split; [apply elem_of_list_In, funcItems_all|by apply bool_decide_eq_true]. }
    by rewrite H in Hin.
  - intros H. destruct (List.filter _ funcItems) as [|r l] eqn:El; [done|].
    assert (In r (List.filter (fun r => bool_decide (get_func r f = None)) funcItems)) as Hin by (rewrite El; by left).
    apply filter_In in Hin as [_ Hin]. apply bool_decide_eq_true in Hin. by destruct (H r).
Qed.

(** why opening a registration failed *)
Definition static_open_error (statics : gmap string (option StaticPlugin)) (s : mgr) (name : string) (tl : list event) (o : outcome unit) : Prop :=
  (exists sp e, statics !! name = Some (Some sp) /\ o = Err (ELoad name e) /\
     ((exists miss, e = EMissingFuncs miss /\ miss = missing_funcs (sp_funcs sp) /\ miss <> [] /\ call_sigs tl = []) \/
      (missing_funcs (sp_funcs sp) = [] /\ exists x, e = EPanic (Some (sp_name sp)) x /\ exists r c, (r = RReloadable \/ r = RExport) /\ EvCall r c ArgNone (Pan x) ∈ tl))) \/
  (o = Pan PNil /\ call_sigs tl = [] /\ default None (statics !! name) = None).

Lemma exec_openStatic statics name s t s' o :
  exec (openStatic statics name s) t (s', o) ->
  (exists p, o = Val tt /\ sopened statics s name p t /\ s' = upd_map <[name2key (pl_name p) := p]> s) \/
  (~ is_val o /\ s' = s /\ open_failed (pm_id s) t /\ static_open_error statics s name t o).
Proof.
  unfold openStatic. intros H. apply exec_bind in H as (t1 & t2 & [s1 o1] & -> & H1 & H2). simpl in H2.
  unfold loadStaticPlugin in H1. do 2 xinv H1. rename x into i0.
  destruct (default None (statics !! name)) as [sp|] eqn:Esp.
  2:{ xinv H1. xinv H2. right. split; [simpl; tauto|]. split; [done|]. split; [split_and!; try done; by left|]. right. done. }
  assert (Hst : statics !! name = Some (Some sp)).
  { destruct (statics !! name) as [[sp'|]|]; simpl in Esp; congruence. }
  destruct (missing_funcs (sp_funcs sp)) as [|m0 miss] eqn:Em.
  - match type of H1 with exec (admitPlugin ?p _) _ _ => set (p0 := p) in H1 end.
    assert (Hex := H1). apply exec_admitPlugin in H1 as [(b & v & c1 & c2 & -> & -> & Hc1 & Hc2 & ->)|(-> & (e & ->) & Ha & Hi & Hd & Hcr & Hcs)].
    + xinv H2. left. rewrite app_nil_r. exists (set_exported v (set_reloadable b p0)). split; [done|]. split; [|done].
      exists sp, c1, c2. split_and!; try done. by apply missing_funcs_nil.
    + assert (Hp : exists x, e = EPanic (Some (sp_name sp)) x /\ exists r c, (r = RReloadable \/ r = RExport) /\ EvCall r c ArgNone (Pan x) ∈ t).
      { assert (Hm : forall r, get_func r (pl_funcs p0) <> None) by (by apply missing_funcs_nil). clear -Hex Hm. change (sp_name sp) with (pl_name p0). unfold admitPlugin in Hex. xinv Hex.
        apply exec_sbind in Hex as [(t1 & t2 & s1 & b & -> & H1 & H)|(o1 & H1 & Hf)].
        - apply exec_sbind in H as [(t1' & t3 & s2 & v & -> & H2 & H)|(o1 & H2 & Hf)].
          + by xinv H.
          + xinv H2. unfold invokeExport in H2. apply (exec_recovered_call RExport) in H2 as [(v' & -> & _)|(x & -> & H2)]; [done|].
            simpl in Hf. subst e. exists x. split; [done|]. destruct H2 as [[_ H2]|(code & _ & ->)]; [by apply (Hm RExport) in H2|].
            eexists RExport, _. split; [by right|]. apply elem_of_app. right. left.
        - xinv H1. unfold invokeReloadable in H1. apply (exec_recovered_call RReloadable) in H1 as [(v' & -> & _)|(x & -> & H2)]; [done|].
            simpl in Hf. subst e. exists x. split; [done|]. destruct H2 as [[_ H2]|(code & _ & ->)]; [by apply (Hm RReloadable) in H2|].
            eexists RReloadable, _. split; [by left|]. left. }
      destruct Hp as (x & -> & rr & cc & Hrr & Hpin). right. xinv H2. rewrite app_nil_r. split; [simpl; tauto|]. split; [done|]. split.
      * unfold open_failed. rewrite !admitted_app, !increments_app, !decrements_app, !call_sigs_app, !created_app, Ha, Hi, Hd, Hcr.
        split_and!; try done. simpl. destruct Hcs as [Hcs|Hcs]; [by left|right]. eexists; split; [|exact Hcs]. done.
      * left. exists sp, (EPanic (Some (sp_name sp)) x). split_and!; try done. right. split; [done|]. exists x. split; [done|]. exists rr, cc. split; [done|]. apply elem_of_app. by right.
  - xinv H1. xinv H2. right. split; [simpl; tauto|]. split; [done|]. split; [split_and!; try done; by left|].
    left. exists sp, (EMissingFuncs (m0 :: miss)). split_and!; try done. left. exists (m0 :: miss). done.
Qed.

Lemma exec_openStatics statics names s t s' o :
  exec (sfor names (openStatic statics) s) t (s', o) ->
  exists n1 n2 ps ts tl, names = n1 ++ n2 /\ t = concat ts ++ tl /\
    Forall3 (sopened statics s) n1 ps ts /\ s' = with_map (insert_all ps (pm_map s)) s /\
    (o = Val tt -> n2 = [] /\ tl = []) /\
    (~ is_val o -> open_failed (pm_id s) tl /\ exists name n2', n2 = name :: n2' /\ static_open_error statics s name tl o).
Proof.
  revert s t; induction names as [|name names IH]; intros s t H; cbn [sfor] in H.
  - xinv H. assert (Hid : s = with_map (pm_map s) s) by (by destruct s).
    exists [], [], [], [], []. split_and!; try done; try (by constructor); simpl; tauto.
  - apply exec_sbind in H as [(t1 & t2 & s1 & [] & -> & H1 & H)|(o1 & H1 & Hf)].
    + apply exec_openStatic in H1 as [(p & _ & Hop & ->)|(Hn & _)]; [|simpl in Hn; tauto].
      apply IH in H as (n1 & n2 & ps & ts & tl & -> & -> & Hall & -> & Hok & Hfail).
      exists (name :: n1), n2, (p :: ps), (t1 :: ts), tl. simpl. rewrite app_assoc. split_and!; try done.
      constructor; [done|]. done.
    + apply exec_openStatic in H1 as [(p & -> & _)|(Hn & -> & Hof & Herr)]; [by destruct o|].
      assert (Hid : s = with_map (pm_map s) s) by (by destruct s).
      exists [], (name :: names), [], [], t. split_and!; try done; [constructor|intros ->; by destruct o1|].
      intros _. split; [done|]. exists name, names. split_and!; try done.
      destruct o1, o; try done; simpl in Hf; by subst.
Qed.

Lemma sopened_facts statics s name p t : sopened statics s name p t ->
  admitted t = [pl_inst p] /\ created t = [pl_inst p] /\ increments t = [] /\ decrements t = [] /\
  call_sigs t = [called RReloadable (pm_id s) ArgNone p; called RExport (pm_id s) ArgNone p].
Proof.
  intros (sp & c1 & c2 & _ & _ & _ & Hc1 & Hc2 & ->). unfold called. simpl in *. by rewrite Hc1, Hc2.
Qed.
Lemma sopened_all_facts statics s ns ps ts : Forall3 (sopened statics s) ns ps ts ->
  admitted (concat ts) = map pl_inst ps /\ created (concat ts) = map pl_inst ps /\
  increments (concat ts) = [] /\ decrements (concat ts) = [] /\
  call_sigs (concat ts) = flat_map (fun p => [called RReloadable (pm_id s) ArgNone p; called RExport (pm_id s) ArgNone p]) ps.
Proof.
  induction 1 as [|n p t ns ps ts Hp _ IH]; [done|]. simpl.
  apply sopened_facts in Hp as (H1 & H2 & H3 & H4 & H5). destruct IH as (I1 & I2 & I3 & I4 & I5).
  rewrite admitted_app, created_app, increments_app, decrements_app, call_sigs_app, H1, H2, H3, H4, H5, I1, I2, I3, I4, I5.
  done.
Qed.

(** everything is registered; ready for initDeps *)
Definition sgathered (statics : gmap string (option StaticPlugin)) (s : mgr) (t : list event) (s' : mgr) : Prop :=
  exists now ps ts, Forall3 (sopened statics (upd_when now s)) (sort_strings (map_keys statics)) ps ts /\
    t = EvNow now :: concat ts /\ s' = upd_when now (with_map (insert_all ps ∅) s).

Definition sgather_failed (statics : gmap string (option StaticPlugin)) (s : mgr) (t : list event) (s' : mgr) (o : outcome unit) : Prop :=
  exists now n1 name n2 ps ts tl, sort_strings (map_keys statics) = n1 ++ name :: n2 /\
    Forall3 (sopened statics (upd_when now s)) n1 ps ts /\ t = EvNow now :: concat ts ++ tl /\
    s' = upd_when now (with_map (insert_all ps ∅) s) /\ ~ is_val o /\
    open_failed (pm_id s) tl /\ static_open_error statics s name tl o.

Definition sbody_ran (statics : gmap string (option StaticPlugin)) (data : N) (s : mgr) (t : list event) (s' : mgr) (o : outcome unit) : Prop :=
  sgather_failed statics s t s' o \/
  exists t1 t2 s1, t = t1 ++ t2 /\ sgathered statics s t1 s1 /\ exec (lifecycle data s1) t2 (s', o).

Lemma exec_static_body statics data s t s' o :
  pm_map s = ∅ -> exec (loadStaticPlugins_body statics data s) t (s', o) -> sbody_ran statics data s t s' o.
Proof.
  intros Hempty H. unfold loadStaticPlugins_body in H. xinv H. rewrite Hempty in H.
  change (negb (size (∅ : gmap string plugin) =? 0)%nat) with false in H. cbv iota in H.
  xinv H. rename x into now. xinv H.
  change (fun (name : string) (pm : mgr) => _) with (openStatic statics) in H.
  apply exec_sbind in H as [(t5 & t6' & s1 & [] & -> & H1 & H)|(o1 & H1 & Hf)].
  - right. apply exec_openStatics in H1 as (n1 & n2 & ps & ts & tl & Hn & -> & Hall & -> & Hok & _).
    destruct (Hok eq_refl) as [-> ->]. rewrite app_nil_r in *. subst n1.
    simpl in H. rewrite Hempty in H. eexists (EvNow now :: concat ts), t6', _. split_and!; [done| |exact H].
    exists now, ps, ts. split_and!; done.
  - left. apply exec_openStatics in H1 as (n1 & n2 & ps & ts & tl & Hn & -> & Hall & -> & _ & Hfail).
    assert (o1 = o) as <- by (destruct o1, o; try done; simpl in Hf; by subst).
    assert (Hnv : ~ is_val o1) by (destruct o1; simpl in *; tauto).
    destruct (Hfail Hnv) as (Hof & name & n2' & -> & Herr).
    simpl. rewrite Hempty. exists now, n1, name, n2', ps, ts, tl. split_and!; done.
Qed.

Lemma sgathered_facts statics s t s1 : blank_mgr s -> sgathered statics s t s1 ->
  pm_ordered s1 = [] /\ pm_livefuncs s1 = ∅ /\ pm_livetypes s1 = ∅ /\ pm_databag s1 = ∅ /\ same_head s s1 /\
  increments t = [] /\ decrements t = [].
Proof.
  intros (Hm & Ho & Hlf & Hlt & Hdb) (now & ps & ts & Hall & -> & ->).
  apply sopened_all_facts in Hall as (A1 & A2 & A3 & A4 & A5). done.
Qed.

Lemma sbody_facts statics data s t s' o : blank_mgr s -> sbody_ran statics data s t s' o ->
  (pm_ordered s' = [] \/ Permutation (pm_ordered s') (map_keys (pm_map s'))) /\ same_head s s' /\
  increments t = [] /\ decrements t = [] /\ (~ is_val o -> True).
Proof.
  intros Hb [Hg|(t1 & t2 & s1 & -> & Hg & Hl)].
  - destruct Hg as (now & n1 & name & n2 & ps & ts & tl & _ & Hall & -> & -> & _ & (B1 & B2 & B3 & _) & _).
    apply sopened_all_facts in Hall as (A1 & A2 & A3 & A4 & A5). destruct Hb as (Hm & Ho & _).
    change (increments (EvNow now :: concat ts ++ tl)) with (increments (concat ts ++ tl)). change (decrements (EvNow now :: concat ts ++ tl)) with (decrements (concat ts ++ tl)).
    rewrite increments_app, decrements_app, A3, A4, B2, B3. split_and!; try done. by left.
  - apply sgathered_facts in Hg as (G1 & G2 & G3 & G4 & G5 & G6 & G7); [|done].
    apply lifecycle_noref in Hl as ((L1 & L2 & L3 & L4) & L5 & L6 & L7); [|done..].
    rewrite increments_app, decrements_app, L2, L3, G6, G7. split_and!; try done. by eapply same_head_trans.
Qed.

Lemma exec_loadStaticPlugins statics data s t s' o :
  blank_mgr s -> exec (loadStaticPlugins statics data s) t (s', o) ->
  same_head s s' /\
  ((o = Val tt /\ sbody_ran statics data s t s' (Val tt)) \/
   (exists tb ob ps ts, t = tb ++ concat ts /\ o = Err (as_error ob) /\ ~ is_val ob /\
     sbody_ran statics data s tb s' ob /\
     Forall2 (freed_one (pm_id s)) ps ts /\ Permutation ps (mplugins (pm_map s')) /\
     (pm_ordered s' <> [] -> ps = rev (Plugins s')) /\
     decrements tb = [] /\ increments tb = [] /\ increments (concat ts) = [] /\ admitted (concat ts) = [] /\ created (concat ts) = [] /\
     Forall (fun e => match e with EvCall r _ _ _ => r = ROnFree | _ => True end) (concat ts))).
Proof.
  intros Hb H. assert (Hb' := Hb). destruct Hb' as (Hm & _).
  assert (Hran : forall t s' o, exec (loadStaticPlugins_body statics data s) t (s', o) -> sbody_ran statics data s t s' o).
  { intros. by apply exec_static_body. }
  apply exec_with_cleanup in H as [(-> & H)|(tb & tf & ob & ps & ts & -> & H & Hnv & -> & -> & Hps & Hperm & Hrev)].
  - apply Hran in H. destruct (sbody_facts _ _ _ _ _ _ Hb H) as (_ & ? & _). eauto.
  - apply Hran in H. destruct (sbody_facts _ _ _ _ _ _ Hb H) as (_ & Hh & Hinc & Hdec & _).
    split; [done|]. right. exists tb, ob, ps, ts. rewrite (proj1 Hh) in Hps.
    pose proof (freed_all _ _ _ Hps) as (F1 & F2 & F3 & F4 & F5 & _). split_and!; done.
  - intros t0 s0 o0 H0 _. apply Hran in H0. by destruct (sbody_facts _ _ _ _ _ _ Hb H0) as (? & _).
Qed.

(** the plugins after static loading *)
Lemma insert_all_elem ps m k p : insert_all ps m !! k = Some p ->
  (p ∈ ps /\ name2key (pl_name p) = k) \/ m !! k = Some p.
Proof.
  revert m; induction ps as [|q ps IH]; intros m H; [by right|].
  change (insert_all (q :: ps) m) with (insert_all ps (<[name2key (pl_name q) := q]> m)) in H.
  apply IH in H as [[Hp Hk]|H]; [left; split; [by right|done]|].
  destruct (decide (k = name2key (pl_name q))) as [->|Hne].
  - rewrite lookup_insert in H. injection H as ->. left. split; [by left|done].
  - rewrite lookup_insert_ne in H by done. by right.
Qed.
Lemma insert_all_some ps m p : p ∈ ps -> is_Some (insert_all ps m !! name2key (pl_name p)).
Proof.
  revert m p; induction ps as [|q ps IH]; intros m p H; [by apply elem_of_nil in H|].
  change (insert_all (q :: ps) m) with (insert_all ps (<[name2key (pl_name q) := q]> m)).
  destruct (decide (name2key (pl_name p) ∈ map (fun p => name2key (pl_name p)) ps)) as [Hin|Hn].
  - apply elem_of_list_fmap in Hin as (p' & -> & Hp'). by apply IH.
  - rewrite insert_all_lookup_ne by done. apply elem_of_cons in H as [->|H].
    + rewrite lookup_insert. eauto.
    + destruct Hn. apply elem_of_list_fmap. eauto.
Qed.

Lemma sgathered_lookup statics s t s1 :
  sgathered statics s t s1 ->
  (forall name osp, statics !! name = Some osp -> exists sp, osp = Some sp /\ is_Some (pm_map s1 !! name2key (sp_name sp))) /\
  (forall k p, pm_map s1 !! k = Some p -> exists name sp c1 c2, statics !! name = Some (Some sp) /\ name2key (sp_name sp) = k /\
     fresh_static s1 sp p /\ (forall r, get_func r (sp_funcs sp) <> None) /\
     get_func RReloadable (pl_funcs p) = Some c1 /\ get_func RExport (pl_funcs p) = Some c2 /\
     exists ta tz, t = ta ++ static_trace s sp p c1 c2 ++ tz).
Proof.
  intros (now & ps & ts & Hall & -> & ->). split.
  - intros name osp Hn.
    assert (Hin : name ∈ sort_strings (map_keys statics)) by (apply elem_of_sort_strings, map_keys_elem; eauto).
    assert (exists p tp, p ∈ ps /\ sopened statics (upd_when now s) name p tp) as (p & tp & Hp & sp & c1 & c2 & Hsp & Hfr & _).
    { clear -Hall Hin. induction Hall as [|n q tq ns ps ts Hq _ IH]; [by apply elem_of_nil in Hin|].
      apply elem_of_cons in Hin as [->|Hin]; [exists q, tq; split; [by left|done]|].
      destruct (IH Hin) as (p & tp & ? & ?). exists p, tp. split; [by right|done]. }
    exists sp. rewrite Hsp in Hn. injection Hn as <-. split; [done|]. destruct Hfr as [<- _]. simpl. by apply insert_all_some.
  - intros k p Hp. apply insert_all_elem in Hp as [[Hp Hk]|Hp]; [|by rewrite lookup_empty in Hp].
    assert (exists n tp, tp ∈ ts /\ sopened statics (upd_when now s) n p tp) as (n & tp & Htp & sp & c1 & c2 & Hsp & Hfr & Hall' & Hc1 & Hc2 & ->).
    { clear -Hall Hp. induction Hall as [|n q tq ns ps ts Hq _ IH]; [by apply elem_of_nil in Hp|].
      apply elem_of_cons in Hp as [->|Hp]; [exists n, tq; split; [by left|done]|].
      destruct (IH Hp) as (n' & tp & ? & ?). exists n', tp. split; [by right|done]. }
    exists n, sp, c1, c2. split_and!; try done.
    + destruct Hfr as [<- _]. done.
    + apply elem_concat_split in Htp as (ta & tz & ->). by exists (EvNow now :: ta), tz.
Qed.

(** of the registrations whose names are equal up to case the last one in name order is in the manager *)
Lemma insert_all_split ps m k p : insert_all ps m !! k = Some p ->
  (exists l1 l2, ps = l1 ++ p :: l2 /\ name2key (pl_name p) = k /\ Forall (fun q => name2key (pl_name q) <> k) l2) \/ m !! k = Some p.
Proof.
  induction ps as [|x ps IH] using rev_ind; [by right|]. intros H.
  assert (He : insert_all (ps ++ [x]) m = <[name2key (pl_name x) := x]> (insert_all ps m)) by (unfold insert_all; by rewrite fold_left_app).
  rewrite He in H. apply lookup_insert_Some in H as [[Hk ->]|[Hk H]].
  - left. exists ps, []. split_and!; [done|done|constructor].
  - destruct (IH H) as [(l1 & l2 & -> & Hp & HF)|Hm]; [left|by right].
    exists l1, (l2 ++ [x]). split_and!; [by rewrite <- (assoc_L (++))|done|]. apply Forall_app. split; [done|]. by constructor.
Qed.
Lemma sgathered_last statics s t s1 k p : sgathered statics s t s1 -> pm_map s1 !! k = Some p ->
  exists n sp, statics !! n = Some (Some sp) /\ fresh_static s1 sp p /\ name2key (sp_name sp) = k /\
    forall n' sp', statics !! n' = Some (Some sp') -> name2key (sp_name sp') = k -> str_le n' n.
Proof.
  intros (now & ps & ts & Hall & -> & ->) Hp. apply insert_all_split in Hp as [(l1 & l2 & -> & Hk & HF)|Hp]; [|by rewrite lookup_empty in Hp].
  pose proof (sort_strings_ssorted (map_keys statics)) as HS. remember (sort_strings (map_keys statics)) as names eqn:Hn.
  apply Forall3_app_inv_m in Hall as (n1 & n2 & t1 & t2 & -> & -> & H1 & H2). inversion H2 as [|n q tq n2' l2' t2' Hq Hrest]; subst.
  destruct Hq as (sp & c1 & c2 & Hsp & Hfr & _). exists n, sp. split_and!; [done|done|by destruct Hfr as [<- _]|].
  intros n' sp' Hn' Hk'.
  assert (Hin : n' ∈ n1 ++ n :: n2') by (rewrite Hn; apply elem_of_sort_strings, map_keys_elem; eauto).
  apply elem_of_app in Hin as [Hin|Hin].
  - clear -HS Hin. induction n1 as [|x n1 IH]; [by apply elem_of_nil in Hin|]. inversion HS as [|? ? HS' Hx]; subst.
    apply elem_of_cons in Hin as [->|Hin]; [|by apply IH]. rewrite Forall_forall in Hx. apply Hx. apply elem_of_app. right. left.
  - apply elem_of_cons in Hin as [->|Hin]; [by destruct (total str_le n n)|]. exfalso.
    clear -Hrest Hin HF Hn' Hk'. induction Hrest as [|x q tq ns ps ts (sp & c1 & c2 & Hsp & Hfr & _) _ IH]; [by apply elem_of_nil in Hin|].
    apply Forall_cons in HF as [Hq HF]. apply elem_of_cons in Hin as [<-|Hin]; [|by apply IH].
    apply Hq. destruct Hfr as [-> _]. congruence.
Qed.

End Proofs.
