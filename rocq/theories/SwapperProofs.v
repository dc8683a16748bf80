(** The swapper: callbacks, details, LoadPlugins, Reload *)
From Verif Require Export PrivateProofs.

Section Proofs.
Context {E : GoEnv}.

(** ** newPluginManager *)
Lemma exec_newPluginManager b t o :
  exec (newPluginManager b) t o ->
  exists mid dn te, t = EvNewMgr mid dn :: te /\
    ((exists s, o = Val s /\ blank_mgr s /\ pm_id s = mid /\ pm_born s = dn /\
        (b = false /\ te = [] /\ pm_ext s = None \/ b = true /\ te = [EvNewExt (Val (pm_ext s))])) \/
     (exists x, o = Pan x /\ b = true /\ te = [EvNewExt (Pan x)] /\ outside_panic x)).
Proof.
  unfold newPluginManager. intros H. xinv H. destruct x as [mid dn]. exists mid, dn. simpl.
  apply exec_bind in H as (t1 & t2 & ext & -> & H1 & H). exists (t1 ++ t2). split; [done|].
  destruct b.
  - xinv H1. simpl in Hv0. destruct ext as [e|e|x]; [| done |].
    + destruct H as [-> ->]. left. eexists. split; [done|]. split; [done|]. split; [done|]. split; [done|]. by right.
    + destruct H as [-> ->]. right. exists x. done.
  - destruct H1 as [-> ->]. destruct H as [-> ->]. left. eexists. split; [done|]. split; [done|]. split; [done|]. split; [done|]. by left.
Qed.

(** ** Reload callbacks *)
Definition somes {A} (l : list (option A)) : list A := omap (fun x => x) l.
Definition accepted (new : mgr) (old : option mgr) (cb : N) : event := EvCallback cb new old (Val None).

Lemma exec_callbacks cbs new old t o :
  (pm_ordered new = [] \/ Permutation (pm_ordered new) (map_keys (pm_map new))) ->
  exec (invokeReloadCallbacks cbs new old) t o ->
  (o = Val tt /\ t = map (accepted new old) (somes cbs)) \/
  (exists cbs1 cb cbs2 r e ps ts, somes cbs = cbs1 ++ cb :: cbs2 /\ o = Err e /\
     t = map (accepted new old) cbs1 ++ EvCallback cb new old r :: concat ts /\
     (r = Val (Some e) /\ outside e \/ (exists x, r = Pan x /\ e = EPanic None x /\ outside_panic x)) /\
     Forall2 (freed_one (pm_id new)) ps ts /\ Permutation ps (mplugins (pm_map new)) /\
     (pm_ordered new <> [] -> ps = rev (Plugins new))).
Proof.
  intros Hord. revert t; induction cbs as [|[cb|] cbs IH]; intros t H; cbn [invokeReloadCallbacks] in H.
  - destruct H as [-> ->]. left. done.
  - xinv H. simpl in Hv. destruct x as [e|e|x]; [|done|].
    + destruct e as [e|].
      * right. apply exec_bind in H as (t1 & t2 & c & -> & Hc & H).
        apply exec_invokeEveryOnFree in Hc as (-> & ps & ts & -> & Hps & Hperm & Hrev); [|done].
        destruct H as [-> ->]. rewrite app_nil_r.
        exists [], cb, (somes cbs), (Val (Some e)), e, ps, ts. split_and!; try done. by left.
      * apply IH in H as [(-> & ->)|(cbs1 & cb' & cbs2 & r & e & ps & ts & Hs & -> & -> & Hr & Hps & Hperm & Hrev)]; [by left|].
        right. exists (cb :: cbs1), cb', cbs2, r, e, ps, ts. split_and!; try done. unfold somes in *. simpl. simpl in Hs. f_equal. exact Hs.
    + right. apply exec_bind in H as (t1 & t2 & c & -> & Hc & H).
        apply exec_invokeEveryOnFree in Hc as (-> & ps & ts & -> & Hps & Hperm & Hrev); [|done].
        destruct H as [-> ->]. rewrite app_nil_r.
        exists [], cb, (somes cbs), (Pan x), (EPanic None x), ps, ts. split_and!; try done. right. eauto.
  - apply IH in H as [(-> & ->)|H]; [by left|by right].
Qed.

(** ** Details *)
Definition details_of (new : mgr) (files : list string) (acc : Details) : Details :=
  fold_left (fun d f => match FindPlugin new (pluginName f) with Some p => <[pl_file p := detail_of p]> d | None => d end) files acc.
Lemma buildDetails_ok new files acc :
  (forall f, f ∈ files -> is_Some (pm_map new !! file_key f)) -> buildDetails new files acc = Val (details_of new files acc).
Proof.
  revert acc; induction files as [|f files IH]; intros acc H; simpl; [done|].
  destruct (H f) as [p Hp]; [by left|]. change (pm_map new !! file_key f) with (FindPlugin new (pluginName f)) in Hp.
  rewrite Hp. rewrite IH by (intros; apply H; by right). done.
Qed.
Lemma details_of_lookup new files acc file note :
  (forall f, f ∈ files -> is_Some (pm_map new !! file_key f)) ->
  (forall f1 f2 p1 p2, f1 ∈ files -> f2 ∈ files -> pm_map new !! file_key f1 = Some p1 -> pm_map new !! file_key f2 = Some p2 ->
     pl_file p1 = pl_file p2 -> detail_of p1 = detail_of p2) ->
  details_of new files acc !! file = Some note <->
  (exists f p, f ∈ files /\ pm_map new !! file_key f = Some p /\ pl_file p = file /\ detail_of p = note) \/
  ((forall f p, f ∈ files -> pm_map new !! file_key f = Some p -> pl_file p <> file) /\ acc !! file = Some note).
Proof.
  revert acc; induction files as [|f files IH]; intros acc Hin Huniq.
  - unfold details_of; simpl. split.
    + intros H. right. split; [|done]. intros f p Hf. by apply elem_of_nil in Hf.
    + intros [(f & p & Hf & _)|[_ H]]; [by apply elem_of_nil in Hf|done].
  - destruct (Hin f) as [p Hp]; [by left|].
    assert (Heq : details_of new (f :: files) acc = details_of new files (<[pl_file p := detail_of p]> acc)).
    { unfold details_of. simpl. unfold FindPlugin. unfold file_key in Hp. by rewrite Hp. }
    rewrite Heq, IH; [|intros; apply Hin; by right|intros f1 f2 p1 p2 ? ? ? ? ?; apply (Huniq f1 f2); [by right|by right|done..]].
    split.
    + intros [(f' & p' & Hf' & Hr)|[Hn Hl]]; [left; exists f', p'; split; [by right|done]|].
      destruct (decide (file = pl_file p)) as [->|Hne].
      * rewrite lookup_insert in Hl. injection Hl as <-. left. exists f, p. split; [by left|done].
      * rewrite lookup_insert_ne in Hl by done. right. split; [|done].
        intros f' p' Hf' Hp'. apply elem_of_cons in Hf' as [->|Hf']; [congruence|]. by eapply Hn.
    + intros [(f' & p' & Hf' & Hp' & Hr & Hd)|[Hn Hl]].
      * apply elem_of_cons in Hf' as [->|Hf']; [|left; eauto 10].
        assert (p' = p) as -> by congruence.
        destruct (decide (Exists (fun f2 => pl_file <$> (pm_map new !! file_key f2) = Some file) files)) as [Hex|Hno].
        -- apply Exists_exists in Hex as (f2 & Hf2 & Hx). apply fmap_Some in Hx as (p2 & Hp2 & Hr2). left. exists f2, p2. split_and!; try done. rewrite <- Hd.
           eapply (Huniq f2 f); [by right|by left|done|done|congruence].
        -- right. split.
           ++ intros f2 p2 Hf2 Hp2 Hr2. apply Hno, Exists_exists. exists f2. split; [done|]. by rewrite Hp2, <- Hr2.
           ++ rewrite <- Hr, lookup_insert. by f_equal.
      * right. split; [intros f' p' Hf' Hp'; eapply Hn; [by right|done]|].
        rewrite lookup_insert_ne; [done|]. eapply Hn; [by left|done].
Qed.

(** ** Loading the files of a directory *)

(** a manager object made by newPluginManager, with trace [tn] *)
Definition made (b : bool) (tn : list event) (s : mgr) : Prop :=
  blank_mgr s /\ tn = EvNewMgr (pm_id s) (pm_born s) :: (if b then [EvNewExt (Val (pm_ext s))] else []) /\
  (b = false -> pm_ext s = None).

(** the successful load of [files] by manager [s], becoming [new] *)
Definition load_ok (files : list string) (old : option mgr) (data : N) (s : mgr) (t : list event) (new : mgr) : Prop :=
  exists t1 t2 s1, t = t1 ++ t2 /\ gathered files old s t1 s1 /\ exec (lifecycle data s1) t2 (new, Val tt).
(** the release of manager [m] *)
Definition released (m : mgr) (t : list event) : Prop :=
  exists ps ts, t = concat ts /\ Forall2 (freed_one (pm_id m)) ps ts /\ Permutation ps (mplugins (pm_map m)) /\
    (pm_ordered m <> [] -> ps = rev (Plugins m)).
Lemma freed_private mid ps ts : Forall2 (freed_one mid) ps ts -> Forall private_event (concat ts).
Proof.
  induction 1 as [|p t ps ts Hp _ IH]; simpl; [constructor|]. apply Forall_app; split; [|done].
  destruct Hp as (v & t' & -> & [[_ ->]|[_ [->|(t'' & -> & [[_ ->]|(c & x & _ & ->)])]]]); repeat constructor.
Qed.
Definition load_failed (files : list string) (old : option mgr) (data : N) (s : mgr) (t : list event) (s' : mgr) (e : gerror) : Prop :=
  exists tb tf ob, t = tb ++ tf /\ e = as_error ob /\ ~ is_val ob /\ body_ran files old data s tb s' ob /\ released s' tf /\
    decrements tb = [] /\ increments tf = [] /\ admitted tf = [] /\ created tf = [] /\
    Permutation (decrements tf) (increments tb ++ admitted tb) /\
    Forall (fun e => match e with EvCall r _ _ _ => r = ROnFree | _ => True end) tf.

Definition spawned (o : opts) (old : option mgr) : list event :=
  match old with Some om => [EvSpawnFree om (free_delay o)] | None => [] end.
Definition callback_failed (cbs : list (option N)) (new : mgr) (old : option mgr) (t : list event) (e : gerror) : Prop :=
  exists cbs1 cb cbs2 r tf, somes cbs = cbs1 ++ cb :: cbs2 /\
     t = map (accepted new old) cbs1 ++ EvCallback cb new old r :: tf /\
     (r = Val (Some e) /\ outside e \/ (exists x, r = Pan x /\ e = EPanic None x /\ outside_panic x)) /\ released new tf.

Inductive file_run (o : opts) (files : list string) (data : N) (cbs : list (option N)) : list event -> outcome (option Details) -> Prop :=
  | fr_ext old mid dn x : o_newExt o = true -> outside_panic x ->
      file_run o files data cbs [EvLoadCurrent old; EvNewMgr mid dn; EvNewExt (Pan x)] (Pan x)
  | fr_load old tn s tl s' e : made (o_newExt o) tn s -> same_head s s' -> Forall private_event tl -> load_failed files old data s tl s' e ->
      file_run o files data cbs (EvLoadCurrent old :: tn ++ tl) (Err e)
  | fr_callback old tn s tl new tc e : made (o_newExt o) tn s -> same_head s new -> Forall private_event tl -> load_ok files old data s tl new ->
      callback_failed cbs new old tc e ->
      file_run o files data cbs (EvLoadCurrent old :: tn ++ tl ++ tc) (Err e)
  | fr_ok old tn s tl new : made (o_newExt o) tn s -> same_head s new -> Forall private_event tl -> load_ok files old data s tl new ->
      file_run o files data cbs
        (EvLoadCurrent old :: tn ++ tl ++ map (accepted new old) (somes cbs) ++ spawned o old ++ [EvStore new])
        (Val (Some (details_of new files ∅))).

Lemma load_ok_files files old data s t new : load_ok files old data s t new -> blank_mgr s ->
  (pm_ordered new = [] \/ Permutation (pm_ordered new) (map_keys (pm_map new))) /\
  (forall f, f ∈ files -> is_Some (pm_map new !! file_key f)).
Proof.
  intros (t1 & t2 & s1 & -> & Hg & Hl) Hb. pose proof (gathered_facts _ _ _ _ _ Hb Hg) as (G1 & G2 & G3 & _).
  pose proof Hl as Hl'. apply lifecycle_noref in Hl' as (_ & _ & Hord & _); [|done..]. split; [done|].
  apply gathered_lookup in Hg as (fds & _ & _ & _ & Hin & _).
  apply exec_lifecycle in Hl; [|done..].
  destruct Hl as (t3 & t4 & t5 & t6 & t7 & _ & _ & _ & _ & _ & _ & _ & _ & Hcm & _).
  intros f Hf. destruct (Hin f Hf) as [p Hp]. apply core_map_lookup in Hp. rewrite <- Hcm in Hp.
  apply core_map_lookup_inv in Hp as (p' & ? & _). eauto.
Qed.

Lemma exec_loadPluginFiles o files data cbs t r :
  files <> [] -> (forall x, saw_current t x -> keyed (old_map x)) ->
  exec (loadPluginFiles o files data cbs) t r -> file_run o files data cbs t r.
Proof.
  intros Hne Hkey H. unfold loadPluginFiles in H. destruct files as [|f0 files0]; [done|].
  set (files := f0 :: files0) in *. clearbody files. clear f0 files0.
  unfold Current in H. xinv H. rename x into old.
  assert (Hk : keyed (old_map old)) by (apply Hkey; by left). clear Hkey.
  apply exec_bind in H as (tn & t1 & n & -> & Hn & H).
  apply exec_newPluginManager in Hn as (mid & dn & te & -> & [(s & -> & Hb & Hid & Hdn & Hext)|(x & -> & Hb & -> & Hx)]).
  2:{ destruct H as [-> ->]. by constructor. }
  assert (Hmade : made (o_newExt o) (EvNewMgr mid dn :: te) s).
  { split; [done|]. rewrite Hid, Hdn. destruct Hext as [(-> & -> & ->)|(-> & ->)]; done. }
  clear Hext Hid Hdn. set (tn := EvNewMgr mid dn :: te) in *. clearbody tn.
  apply exec_bind in H as (tl & t2 & [new oc] & -> & Hl & H). simpl in H.
  assert (Hpriv : Forall private_event tl) by (eapply sonly_exec; [apply private_ev|apply private_loadPlugins|exact Hl]).
  apply exec_loadPlugins in Hl as [Hh [(-> & Hl)|(tb & ob & ps & ts & -> & -> & Hnv & Hran & Hps & Hperm & Hrev & F1 & F2 & F3 & F4 & F5 & F6)]]; [| |done|done].
  2:{ destruct H as [-> ->]. rewrite app_nil_r. apply (fr_load _ _ _ _ old tn s _ new); [done|done|done|].
      exists tb, (concat ts), ob. split_and!; try done.
      exists ps, ts. split_and!; try done. by rewrite (proj1 Hh). }
  destruct Hl as [Hl|Hl]; [by apply gather_failed_facts in Hl as (Hl & _); [destruct Hl|]|].
  assert (Hok : load_ok files old data s tl new) by exact Hl. clear Hl.
  destruct (load_ok_files _ _ _ _ _ _ Hok Hb) as [Hord Hfiles].
  apply exec_bind in H as (tc & t3 & c & -> & Hc & H).
  apply exec_callbacks in Hc as [(-> & ->)|(cbs1 & cb & cbs2 & rr & e & ps & ts & Hs & -> & -> & Hr & Hps & Hperm & Hrev)]; [| |done].
  2:{ destruct H as [-> ->]. rewrite app_nil_r.
      apply (fr_callback _ _ _ _ old tn s tl new); [done|done|done|done|]. exists cbs1, cb, cbs2, rr, (concat ts). split_and!; try done.
      exists ps, ts. done. }
  rewrite (buildDetails_ok _ _ _ Hfiles) in H.
  apply exec_bind in H as (t4 & t5 & u & -> & H4 & H).
  assert (t4 = spawned o old) as ->.
  { destruct old as [om|]; [by xinv H4|by destruct H4 as [-> _]]. }
  xinv H. destruct H as [-> ->]. rewrite app_nil_r. by econstructor.
Qed.

(** ** Choosing the files *)
Definition chosen (o : opts) (tp : list event) (files : list string) : Prop :=
  exists d1 d2 abs entries found,
    tp = [EvGetDir d1; EvStat d1 (Val true); EvGetDir d2; EvAbs d2 (Val abs); EvReadDir abs (Val entries)] /\
    blank d1 = false /\ valid_listing entries /\
    selectFiles (o_whitelist o) abs entries = (files, found) /\ whitelist_ok (o_whitelist o) found = true.

Inductive refused (o : opts) : list event -> gerror -> Prop :=
  | rf_blank d1 : blank d1 = true -> refused o [EvGetDir d1] (EDirEmpty "pluginDir")
  | rf_stat d1 e : blank d1 = false -> outside e -> refused o [EvGetDir d1; EvStat d1 (Err e)] e
  | rf_notdir d1 : blank d1 = false -> refused o [EvGetDir d1; EvStat d1 (Val false)] (ENotDir d1)
  | rf_abs d1 d2 e : blank d1 = false -> outside e ->
      refused o [EvGetDir d1; EvStat d1 (Val true); EvGetDir d2; EvAbs d2 (Err e)] e
  | rf_readdir d1 d2 abs e : blank d1 = false -> outside e ->
      refused o [EvGetDir d1; EvStat d1 (Val true); EvGetDir d2; EvAbs d2 (Val abs); EvReadDir abs (Err e)] e
  | rf_missing d1 d2 abs entries files found : blank d1 = false -> valid_listing entries ->
      selectFiles (o_whitelist o) abs entries = (files, found) -> whitelist_ok (o_whitelist o) found = false ->
      refused o [EvGetDir d1; EvStat d1 (Val true); EvGetDir d2; EvAbs d2 (Val abs); EvReadDir abs (Val entries)]
        (EMissingPlugins (missing_plugins (o_whitelist o) found)).

Inductive dir_run (o : opts) (data : N) (cbs : list (option N)) : list event -> outcome (option Details) -> Prop :=
  | dr_refused tp e : refused o tp e -> dir_run o data cbs tp (Err e)
  | dr_empty tp : chosen o tp [] -> dir_run o data cbs tp (Val None)
  | dr_load tp files tl r : chosen o tp files -> files <> [] -> file_run o files data cbs tl r -> dir_run o data cbs (tp ++ tl) r.

Lemma exec_loadPluginsImpl o data cbs t r :
  (forall x, saw_current t x -> keyed (old_map x)) ->
  exec (loadPluginsImpl o data cbs) t r -> dir_run o data cbs t r.
Proof.
  intros Hkey H. unfold loadPluginsImpl in H. xinv H. rename x into d1.
  apply exec_bind in H as (t1 & t2 & r1 & -> & H1 & H). unfold FindDirectory in H1.
  destruct (blank d1) eqn:Eb.
  { destruct H1 as [-> ->]. destruct H as [-> ->]. apply dr_refused. by constructor. }
  xinv H1. simpl in Hv0. destruct x as [isdir|e|x]; [| |done].
  2:{ destruct H1 as [-> ->]. destruct H as [-> ->]. apply dr_refused. by constructor. }
  destruct isdir.
  2:{ destruct H1 as [-> ->]. destruct H as [-> ->]. apply dr_refused. by constructor. }
  destruct H1 as [-> ->]. xinv H. rename x into d2. xinv H. simpl in Hv2. destruct x as [abs|e|x]; [| |done].
  2:{ destruct H as [-> ->]. apply dr_refused. by constructor. }
  xinv H. simpl in Hv3. destruct x as [entries|e|x]; [| |done].
  2:{ destruct H as [-> ->]. apply dr_refused. by constructor. }
  destruct (selectFiles (o_whitelist o) abs entries) as [files found] eqn:Es.
  destruct (whitelist_ok (o_whitelist o) found) eqn:Ew; simpl in H.
  2:{ destruct H as [-> ->]. apply dr_refused. simpl. by econstructor. }
  assert (Hch : chosen o [EvGetDir d1; EvStat d1 (Val true); EvGetDir d2; EvAbs d2 (Val abs); EvReadDir abs (Val entries)] files).
  { exists d1, d2, abs, entries, found. done. }
  destruct files as [|f0 files].
  - destruct H as [-> ->]. by apply dr_empty.
  - change (dir_run o data cbs
      ([EvGetDir d1; EvStat d1 (Val true); EvGetDir d2; EvAbs d2 (Val abs); EvReadDir abs (Val entries)] ++ t) r).
    eapply dr_load; [done|done|]. apply exec_loadPluginFiles; [done| |done].
    intros x Hx. apply Hkey. unfold saw_current in *. simpl. rewrite !elem_of_cons. tauto.
Qed.

(** ** Static mode *)
Definition static_ok (sel : gmap string (option StaticPlugin)) (data : N) (s : mgr) (t : list event) (new : mgr) : Prop :=
  exists t1 t2 s1, t = t1 ++ t2 /\ sgathered sel s t1 s1 /\ exec (lifecycle data s1) t2 (new, Val tt).
Definition static_failed (sel : gmap string (option StaticPlugin)) (data : N) (s : mgr) (t : list event) (s' : mgr) (e : gerror) : Prop :=
  exists tb tf ob, t = tb ++ tf /\ e = as_error ob /\ ~ is_val ob /\ sbody_ran sel data s tb s' ob /\ released s' tf /\
    decrements tb = [] /\ increments tb = [] /\ increments tf = [] /\ admitted tf = [] /\ created tf = [] /\
    Forall (fun e => match e with EvCall r _ _ _ => r = ROnFree | _ => True end) tf.
(** the registrations selected by the whitelist *)
Definition selected (o : opts) (statics sel : gmap string (option StaticPlugin)) : Prop :=
  match o_whitelist o with
  | [] => sel = statics
  | wl => forall name, sel !! name = if decide (name ∈ wl) then statics !! name else None
  end.

Inductive static_run (o : opts) (statics : gmap string (option StaticPlugin)) (data : N) (cbs : list (option N))
  : list event -> outcome (option Details) -> Prop :=
  | sr_ext mid dn x : o_newExt o = true -> outside_panic x ->
      static_run o statics data cbs [EvNewMgr mid dn; EvNewExt (Pan x)] (Pan x)
  | sr_missing tn s name : made (o_newExt o) tn s -> o_whitelist o <> [] -> name ∈ o_whitelist o -> statics !! name = None ->
      (exists l1 l2, o_whitelist o = l1 ++ name :: l2 /\ forall n, n ∈ l1 -> statics !! n <> None) ->
      static_run o statics data cbs tn (Err (ENoStatic name))
  | sr_load tn s sel tl s' e : made (o_newExt o) tn s -> same_head s s' ->
      selected o statics sel -> (forall n, n ∈ o_whitelist o -> statics !! n <> None) ->
      Forall private_event tl -> static_failed sel data s tl s' e ->
      static_run o statics data cbs (tn ++ tl) (Err e)
  | sr_callback tn s sel tl new tc e : made (o_newExt o) tn s -> same_head s new ->
      selected o statics sel -> (forall n, n ∈ o_whitelist o -> statics !! n <> None) ->
      Forall private_event tl -> static_ok sel data s tl new ->
      callback_failed cbs new None tc e ->
      static_run o statics data cbs (tn ++ tl ++ tc) (Err e)
  | sr_ok tn s sel tl new : made (o_newExt o) tn s -> same_head s new ->
      selected o statics sel -> (forall n, n ∈ o_whitelist o -> statics !! n <> None) ->
      Forall private_event tl -> static_ok sel data s tl new ->
      static_run o statics data cbs (tn ++ tl ++ map (accepted new None) (somes cbs) ++ [EvStore new])
        (Val (Some ((fun _ => "ok") <$> sel))).

Lemma selectStatic_spec statics wl acc :
  match selectStatic statics wl acc with
  | Val sel => (forall n, n ∈ wl -> statics !! n <> None) /\
               forall n, sel !! n = if decide (n ∈ wl) then statics !! n else acc !! n
  | Err e => exists name l1 l2, e = ENoStatic name /\ wl = l1 ++ name :: l2 /\ statics !! name = None /\
                               forall n, n ∈ l1 -> statics !! n <> None
  | Pan _ => False
  end.
Proof.
  revert acc; induction wl as [|n wl IH]; intros acc; simpl.
  - split; [intros n Hn; by apply elem_of_nil in Hn|]. intros n. destruct (decide (n ∈ [])) as [Hn|Hn]; [by apply elem_of_nil in Hn|done].
  - destruct (statics !! n) as [p|] eqn:En.
    + specialize (IH (<[n:=p]> acc)). destruct (selectStatic statics wl _) as [sel|e|x]; [| |done].
      * destruct IH as [H1 H2]. split.
        -- intros m Hm. apply elem_of_cons in Hm as [->|Hm]; [congruence|by apply H1].
        -- intros m. rewrite H2. destruct (decide (m ∈ wl)) as [Hm|Hm].
           ++ rewrite decide_True; [done|by right].
           ++ destruct (decide (m = n)) as [->|Hne].
              ** rewrite decide_True by (by left). by rewrite lookup_insert.
              ** rewrite decide_False; [by rewrite lookup_insert_ne|]. rewrite elem_of_cons. tauto.
      * destruct IH as (name & l1 & l2 & -> & -> & Hno & Hall). exists name, (n :: l1), l2. split_and!; try done.
        intros m Hm. apply elem_of_cons in Hm as [->|Hm]; [congruence|by apply Hall].
    + exists n, [], wl. split_and!; try done. intros m Hm. by apply elem_of_nil in Hm.
Qed.

Lemma exec_swLoadStaticPlugins o statics data cbs t r :
  exec (swLoadStaticPlugins o statics data cbs) t r -> static_run o statics data cbs t r.
Proof.
  unfold swLoadStaticPlugins. intros H.
  apply exec_bind in H as (tn & t1 & n & -> & Hn & H).
  apply exec_newPluginManager in Hn as (mid & dn & te & -> & [(s & -> & Hb & Hid & Hdn & Hext)|(x & -> & Hb & -> & Hx)]).
  2:{ destruct H as [-> ->]. by constructor. }
  assert (Hmade : made (o_newExt o) (EvNewMgr mid dn :: te) s).
  { split; [done|]. rewrite Hid, Hdn. destruct Hext as [(-> & -> & ->)|(-> & ->)]; done. }
  clear Hext Hid Hdn. set (tn := EvNewMgr mid dn :: te) in *. clearbody tn.
  assert (Hsel : match (match o_whitelist o with [] => Val statics | wl => selectStatic statics wl ∅ end) with
    | Val sel => selected o statics sel /\ forall n, n ∈ o_whitelist o -> statics !! n <> None
    | Err e => exists name l1 l2, e = ENoStatic name /\ o_whitelist o = l1 ++ name :: l2 /\ statics !! name = None /\
                               forall n, n ∈ l1 -> statics !! n <> None
    | Pan _ => False end).
  { unfold selected. destruct (o_whitelist o) as [|w wl]; [split; [done|]; intros n Hn; by apply elem_of_nil in Hn|].
    pose proof (selectStatic_spec statics (w :: wl) ∅) as Hs.
    destruct (selectStatic statics (w :: wl) ∅) as [sel|e|x]; [|done|done].
    destruct Hs as [H1 H2]. split; [|done]. intros name. rewrite H2. by rewrite lookup_empty. }
  destruct (match o_whitelist o with [] => Val statics | wl => selectStatic statics wl ∅ end) as [sel|e|x]; [| |done].
  2:{ destruct H as [-> ->]. rewrite app_nil_r. destruct Hsel as (name & l1 & l2 & -> & Hw & Hno & Hall).
      eapply sr_missing; [done| | |done|by exists l1, l2]; rewrite Hw; [by destruct l1|]. apply elem_of_app; right; by left. }
  destruct Hsel as [Hsel Hall].
  apply exec_bind in H as (tl & t2 & [new oc] & -> & Hl & H). simpl in H.
  assert (Hpriv : Forall private_event tl) by (eapply sonly_exec; [apply private_ev|apply private_loadStatic|exact Hl]).
  apply exec_loadStaticPlugins in Hl as [Hh [(-> & Hl)|(tb & ob & ps & ts & -> & -> & Hnv & Hran & Hps & Hperm & Hrev & F1 & F2 & F3 & F4 & F5 & F6)]]; [| |done].
  2:{ destruct H as [-> ->]. rewrite app_nil_r. apply (sr_load _ _ _ _ tn s sel _ new); [done..|].
      exists tb, (concat ts), ob. split_and!; try done.
      exists ps, ts. split_and!; try done. by rewrite (proj1 Hh). }
  destruct Hl as [(now & n1 & name & n2 & ps & ts & tl' & _ & _ & _ & _ & Hnv & _)|Hl]; [by destruct Hnv|].
  assert (Hok : static_ok sel data s tl new) by exact Hl. clear Hl.
  assert (Hord : pm_ordered new = [] \/ Permutation (pm_ordered new) (map_keys (pm_map new))).
  { destruct Hok as (t3 & t4 & s1 & -> & Hg & Hl). pose proof (sgathered_facts _ _ _ _ Hb Hg) as (G1 & G2 & G3 & _).
    by apply lifecycle_noref in Hl as (_ & _ & Hord & _). }
  apply exec_bind in H as (tc & t3 & c & -> & Hc & H).
  apply exec_callbacks in Hc as [(-> & ->)|(cbs1 & cb & cbs2 & rr & e & ps & ts & Hs & -> & -> & Hr & Hps & Hperm & Hrev)]; [| |done].
  2:{ destruct H as [-> ->]. rewrite app_nil_r.
      apply (sr_callback _ _ _ _ tn s sel tl new); [done..|]. exists cbs1, cb, cbs2, rr, (concat ts). split_and!; try done.
      exists ps, ts. done. }
  xinv H. destruct H as [-> ->]. rewrite app_nil_r. by eapply sr_ok.
Qed.

(** ** The API calls *)
Lemma exec_locked {A} (p : prog A) t r :
  exec (locked p) t r <-> exists tb, t = EvLock :: tb ++ [EvUnlock] /\ exec p tb r.
Proof.
  unfold locked. split.
  - intros H. xinv H. apply exec_bind in H as (tb & t2 & r' & -> & Hp & H). xinv H. destruct H as [-> ->]. exists tb. done.
  - intros (tb & -> & H). rewrite bind_do. exists tt, (tb ++ [EvUnlock]). split_and!; [done|done|].
    apply exec_bind. exists tb, [EvUnlock], r. split_and!; [done|done|]. rewrite bind_do. exists tt, []. done.
Qed.

Lemma exec_LoadPlugins o data t r :
  (forall x, saw_current t x -> keyed (old_map x)) ->
  exec (LoadPlugins o data) t r ->
  exists tb, t = EvLock :: tb ++ [EvUnlock] /\
    match o_static o with
    | Some statics => static_run o statics data [o_reloadCallback o] tb r
    | None => dir_run o data [o_reloadCallback o] tb r
    end.
Proof.
  intros Hk H. unfold LoadPlugins in H. apply exec_locked in H as (tb & -> & H). exists tb. split; [done|].
  destruct (o_static o) as [statics|].
  - by apply exec_swLoadStaticPlugins.
  - apply exec_loadPluginsImpl; [|done]. intros x Hx. apply Hk. unfold saw_current in *.
    rewrite elem_of_cons, elem_of_app. auto.
Qed.

Global Instance is_val_dec {A} (o : outcome A) : Decision (is_val o).
Proof. destruct o; simpl; apply _. Defined.

Definition reload_cbs (o : opts) (extra : option N) : list (option N) :=
  match extra with None => [o_reloadCallback o] | Some e => [o_reloadCallback o; Some e] end.

Lemma exec_ReloadWithCallback o data extra t r :
  (forall x, saw_current t x -> keyed (old_map x)) ->
  exec (ReloadWithCallback o data extra) t r ->
  match o_static o with
  | Some _ => t = [] /\ r = Err EStaticMode
  | None => exists tb, t = EvLock :: tb ++ (if decide (is_val r) then [EvAddCounter] else []) ++ [EvUnlock] /\
              dir_run o data (reload_cbs o extra) tb r
  end.
Proof.
  intros Hk H. unfold ReloadWithCallback in H. destruct (o_static o) as [statics|]; [done|].
  apply exec_locked in H as (tb & -> & H). apply exec_bind in H as (t1 & t2 & r1 & -> & H1 & H).
  apply exec_loadPluginsImpl in H1.
  - destruct r1 as [d|e|x].
    + xinv H. destruct H as [-> ->]. exists t1. split; [|done]. simpl. by rewrite <- app_assoc.
    + destruct H as [-> ->]. exists t1. split; [|done]. simpl. by rewrite app_nil_r.
    + destruct H as [-> ->]. exists t1. split; [|done]. simpl. by rewrite app_nil_r.
  - intros x Hx. apply Hk. unfold saw_current in *. rewrite elem_of_cons, !elem_of_app. auto.
Qed.

End Proofs.
