(** HeapSim.v, continued: wiring and ordering. *)
From Verif Require Export HeapLoad.

Section Deps.
Context {E : GoEnv} {HE : HeapEnv} (h0 : heap) (pm : loc) (cur : option mgr).
Notation base := (h_next h0).
Notation inv := (inv h0 pm).
Notation now := (now pm).
Notation sim := (sim h0 pm cur).

Lemma key_of h m k k' p : inv h -> h_mgr h !! pm = Some m -> hm_map m !! k = Some p -> hm_map m !! k' = Some p -> k = k'.
Proof.
  intros HI Hm Hk Hk'. destruct (inv_mgr h0 pm h HI) as (m1 & Hm1 & HO). assert (m1 = m) as -> by congruence.
  destruct (ow_map _ _ _ HO _ _ Hk) as (_ & v & Hv & <-). destruct (ow_map _ _ _ HO _ _ Hk') as (_ & v' & Hv' & <-). by simplify_eq.
Qed.

(** a store into the Import() object of a plugin *)
Lemma hset_import_spec h m k p v i f x : inv h -> h_mgr h !! pm = Some m -> hm_map m !! k = Some p -> h_plug h !! p = Some v -> hp_unchanged v = false -> hp_imp v = Some i ->
  exists h', hset_import p f x h = Ret (h', Val tt) /\ inv h' /\ h_mgr h' !! pm = Some m /\ h_plug h' = h_plug h /\
    view_plugin h' v = add_import f x (view_plugin h v) /\ now h' = upd_map <[k := view_plugin h' v]> (now h).
Proof.
  intros HI Hm Hk Hp Hu Hi. pose proof HI as [HW HF HC HP HG (m1 & Hm1 & HO)]. assert (m1 = m) as -> by congruence. clear Hm1. pose proof HO as [O1 O2 O3 O4 O5].
  destruct (O4 k p Hk) as (Hb & v1 & Hv1 & Hkey). assert (v1 = v) as -> by congruence. clear Hv1. pose proof (wf_plug _ HW _ _ Hp) as [Hlt [Hs Hwi]].
  pose proof (O1 p v Hb Hp) as Hpl. unfold placed in Hpl. rewrite Hu in Hpl. destruct Hpl as [Hpa Hpi].
  unfold hset_import. rewrite Hp, Hi. eexists. split; [reflexivity|]. set (h' := put_imp i _ h).
  assert (Hview : view_plugin h' v = add_import f x (view_plugin h v)).
  { unfold view_plugin, add_import. cbn. f_equal. unfold import_view. rewrite Hi. unfold h'. cbn. by rewrite lookup_insert. }
  split_and!; [|done|done|exact Hview|].
  - apply inv_put_imp; [done|by apply Hpi|by apply Hwi].
  - eapply now_change; [exact Hm|exact Hm|exact Hk| |done|unfold view_ptr; cbn; by rewrite Hp].
    intros k' q Hq Hn. unfold view_ptr. cbn. destruct (h_plug h !! q) as [w|] eqn:Hw; [|done]. cbn. f_equal. apply view_plugin_eq; [done|].
    intros a Ha. unfold h'. cbn. rewrite lookup_insert_ne; [done|]. intros <-. destruct (O4 k' q Hq) as (Hqb & w' & Hw' & Hkw). assert (w' = w) as -> by congruence.
    destruct (hp_unchanged w) eqn:Huw.
    + pose proof (O1 q w Hqb Hw) as Hplw. unfold placed in Hplw. rewrite Huw in Hplw. destruct Hplw as [_ Hplw]. specialize (Hplw i Ha). specialize (Hpi i Hi). lia.
    + apply Hn. assert (q = p) as -> by exact (O3 _ _ _ _ _ Hqb Hb Hw Hp Huw Hu Ha Hi). by eapply key_of.
Qed.

(** while the fields of plugin [p] are being set *)
Definition wiring (m : hmgr) (k : string) (p i : loc) (plugs : gmap N hplugin) (h : heap) : Prop :=
  h_mgr h !! pm = Some m /\ hm_map m !! k = Some p /\ (exists v, h_plug h !! p = Some v /\ hp_unchanged v = false /\ hp_imp v = Some i) /\
  forall q, q <> p -> h_plug h !! q = plugs !! q.
Lemma sim_add_dep h m k p i plugs v d : inv h -> wiring m k p i plugs h -> h_plug h !! p = Some v ->
  sim (wiring m k p i plugs) h (hadd_dep p d) (smod (upd_map <[k := add_dep d (view_plugin h v)]>)).
Proof.
  intros HI (Hm & Hk & (v1 & Hp & Hu & Hi) & Hq) Hp'. assert (v1 = v) as -> by congruence.
  destruct (hadd_dep_spec h0 pm h m k p v d HI Hm Hk Hp Hu) as (h' & He & HI' & Hm' & (s & Hpl) & Hn).
  unfold HeapSim.sim, smod. rewrite He. apply rel_ret. split_and!; [done|done|done|]. intros _. split_and!; [done|done| |].
  - exists (hp_set_deps s v). cbn [fst]. by rewrite Hpl, lookup_insert.
  - intros q Hqp. cbn [fst]. rewrite Hpl, lookup_insert_ne by done. by apply Hq.
Qed.
Lemma sim_initField h m k p i plugs f : inv h -> wiring m k p i plugs h -> sim (wiring m k p i plugs) h (hinitField pm p f) (initField k f).
Proof.
  intros HI HJ. pose proof HJ as (Hm & Hk & (v & Hp & Hu & Hi) & Hq).
  unfold HeapSim.sim, hinitField, initField. rewrite (hbind_see_plug h p v) by done. rewrite sbind_sget.
  destruct (look h0 pm h m k HI Hm) as [[Hx _]|(p1 & v1 & Hk1 & Hp1 & Hl & _)]; [congruence|]. assert (p1 = p) as -> by congruence. assert (v1 = v) as -> by congruence. rewrite Hl.
  destruct (sf_name f) as [|ch rest] eqn:Hf; [by apply sim_pan|].
  destruct (negb (is_upper_byte ch)); [by apply sim_ret|]. destruct (String.eqb (sf_tag f) "-"); [by apply sim_ret|].
  destruct (sf_anon f); [by apply sim_err|]. rewrite (hbind_get_mgr h pm m) by done.
  destruct (look h0 pm h m (name2key (String ch rest)) HI Hm) as [[-> ->]|(dep & d & -> & Hd & -> & _)]; [by apply sim_err|].
  rewrite (hbind_see_plug h dep d) by done.
  destruct (negb (pl_reloadable (view_plugin h v)) && pl_reloadable (view_plugin h d)); [by apply sim_err|].
  destruct (pl_exported (view_plugin h d)) as [g|]; [|by apply sim_add_dep].
  destruct (is_nil (Some g)); [by apply sim_add_dep|]. destruct (negb (assignable (gv_type g) (sf_type f))); [by apply sim_err|].
  destruct (negb (sf_exported f)); [by apply sim_pan|].
  destruct (hset_import_spec h m k p v i (String ch rest) g HI Hm Hk Hp Hu Hi) as (h1 & He & HI1 & Hm1 & Hpl1 & Hv1 & Hn1).
  assert (HJ1 : wiring m k p i plugs h1) by (split_and!; rewrite ?Hpl1; eauto).
  assert (Hp1' : h_plug h1 !! p = Some v) by (by rewrite Hpl1).
  pose proof (sim_add_dep h1 m k p i plugs v (pl_name (view_plugin h d)) HI1 HJ1 Hp1') as Hsim.
  unfold HeapSim.sim in Hsim. unfold hbind. rewrite He. cbn [bind fst snd].
  match goal with |- rel _ _ ?a ?b => replace b with (smod (upd_map <[k:=add_dep (pl_name (view_plugin h d)) (view_plugin h1 v)]>) (now h1)); [exact Hsim|] end.
  unfold smod. rewrite Hn1, Hv1. f_equal. f_equal. unfold upd_map. cbn. by rewrite insert_insert.
Qed.

(** plugins that have not been wired *)
Definition pending (l : list string) (h : heap) : Prop := forall k p v m, k ∈ l -> h_mgr h !! pm = Some m -> hm_map m !! k = Some p -> h_plug h !! p = Some v -> hp_unchanged v = false -> hp_imp v = None.
Definition touched (k : string) (h h' : heap) : Prop :=
  h_mgr h' !! pm = h_mgr h !! pm /\ forall m q, h_mgr h !! pm = Some m -> hm_map m !! k <> Some q -> h_plug h' !! q = h_plug h !! q.
Lemma sim_initPlugin h k : inv h -> pending [k] h -> sim (touched k h) h (hinitPlugin pm k) (initPlugin k).
Proof.
  intros HI HP. destruct (inv_mgr h0 pm h HI) as (m & Hm & HO). pose proof HI as [HW HF HC _ HG _]. pose proof HO as [O1 O2 O3 O4 O5].
  assert (Hsame : touched k h h) by (by split).
  unfold HeapSim.sim, hinitPlugin, initPlugin. rewrite (hbind_get_mgr h pm m) by done. rewrite sbind_sget.
  destruct (look h0 pm h m k HI Hm) as [[-> ->]|(p & v & Hk & Hp & -> & Hb & Hkey)]; [by apply sim_pan|]. rewrite Hk.
  rewrite (hbind_see_plug h p v) by done. change (pl_unchanged (view_plugin h v)) with (hp_unchanged v). destruct (hp_unchanged v) eqn:Hu; [by apply sim_ret|].
  rewrite (now_id pm h m Hm). apply sim_lift; [done|]. intros [g|]; [|by apply sim_ret]. destruct (is_nil (Some g)); [by apply sim_ret|].
  destruct (gv_type g) as [z y|z fs|z kk]; [|by apply sim_err..]. destruct y as [z1 y1|z2 fields|z2 kk]; [by apply sim_err| |by apply sim_err].
  pose proof (HP k p v m ltac:(left) Hm Hk Hp Hu) as Hnone.
  destruct (inv_new_imp h0 pm h HI) as [HI1 Hfree]. set (i := h_next h) in *. set (h1 := put_imp i [] (bump h)) in *.
  assert (Hbi : (base <= i)%N) by apply HF.
  assert (HI2 : inv (put_plug p (hp_set_imp (Some i) v) h1)).
  { eapply inv_put_plug; [exact HI1|exact Hb|exact Hp|done|done| | |by left|].
    - destruct (wf_plug _ HW _ _ Hp) as [_ [Hs _]]. split; [exact Hs|]. cbn. intros j [= <-]. rewrite lookup_insert. by eexists.
    - pose proof (O1 p v Hb Hp) as Hpl. unfold placed in Hpl |- *. cbn. rewrite Hu in Hpl |- *. split; [apply Hpl|]. by intros j [= <-].
    - right. cbn. intros q w a _ Hw _ Ha [= <-]. destruct (wf_plug _ HW _ _ Hw) as [_ [_ Hwi]]. destruct (Hwi _ Ha) as [y Hy]. congruence. }
  set (v2 := hp_set_imp (Some i) v) in *. set (h2 := put_plug p v2 h1) in *.
  assert (Hview : view_plugin h2 v2 = view_plugin h v).
  { unfold view_plugin. cbn. f_equal. unfold import_view. cbn. unfold h1. cbn. rewrite lookup_insert, Hnone. done. }
  assert (Hn2 : now h2 = now h).
  { eapply now_same; [exact Hm|exact Hm| |].
    - intros k' q Hq. destruct (decide (q = p)) as [->|Hne].
      + unfold view_ptr. cbn. rewrite lookup_insert, Hp. cbn. by rewrite Hview.
      + unfold h2. rewrite view_ptr_plug by done. unfold view_ptr. cbn. destruct (h_plug h !! q) as [w|] eqn:Hw; [|done]. cbn. f_equal. apply view_plugin_eq; [done|].
        intros a Ha. unfold h1. cbn. rewrite lookup_insert_ne; [done|]. intros <-. destruct (wf_plug _ HW _ _ Hw) as [_ [_ Hwi]]. destruct (Hwi _ Ha) as [y Hy]. congruence.
    - intros q Hq. destruct (decide (q = p)) as [->|Hne].
      + unfold key_ptr. cbn. by rewrite lookup_insert, Hp.
      + unfold h2. by rewrite key_ptr_plug. }
  eapply (sim_step h0 pm cur _ h h2 _ (hfor fields (hinitField pm p)) _ (sfor fields (initField k))).
  { change (hbind (set_plug p (hp_set_imp (Some i))) (fun _ => hfor fields (hinitField pm p)) h1 = hfor fields (hinitField pm p) h2).
    by rewrite (hbind_set_plug h1 p v). }
  { by rewrite Hn2. }
  apply (sim_mono _ _ _ (wiring m k p i (h_plug h))).
  - apply sim_for; [done| |intros f h' _ HI' HJ'; by apply sim_initField].
    split_and!; [exact Hm|exact Hk| |].
    + exists v2. unfold h2. cbn. by rewrite lookup_insert.
    + intros q Hq. unfold h2. cbn. by rewrite lookup_insert_ne.
  - intros h' _ (Hm' & _ & _ & Hq). split; [by rewrite Hm', Hm|]. intros m1 q Hm1 Hq1. assert (m1 = m) as -> by congruence. apply Hq. intros ->. by apply Hq1.
Qed.
Lemma sim_initAll l : forall h, NoDup l -> inv h -> pending l h -> sim (fun _ => True) h (hfor l (hinitPlugin pm)) (sfor l initPlugin).
Proof.
  induction l as [|k l IH]; intros h Hnd HI HP; cbn [hfor sfor]; [by apply sim_ret|]. apply NoDup_cons in Hnd as [Hk Hnd].
  apply (sim_bind _ _ _ (touched k h)).
  - apply sim_initPlugin; [done|]. intros k' p v m Hk' . apply elem_of_list_singleton in Hk' as ->. apply HP. left.
  - intros _ h' HI' (Hm & Hq). apply IH; [done..|]. intros k' p v m Hk' Hm' Hp Hv Hu. rewrite Hm in Hm'. rewrite (Hq m p Hm') in Hv.
    + eapply HP; [by right|done..].
    + intros Hp'. apply Hk. by rewrite (key_of h m k k' p HI Hm' Hp' Hp).
Qed.
(** ** Cycles *)
Definition at_key (m : hmgr) (p : loc) (k : string) : Prop := hm_map m !! k = Some p.
Lemma at_key_inj h m p k p' k' : inv h -> h_mgr h !! pm = Some m -> at_key m p k -> at_key m p' k' -> (p = p' <-> k = k').
Proof.
  intros HI Hm H1 H2. unfold at_key in *. split; [intros <-; by eapply key_of|intros <-; congruence].
Qed.
Lemma at_key_elem h m p k l l' : inv h -> h_mgr h !! pm = Some m -> at_key m p k -> Forall2 (at_key m) l l' -> p ∈ l <-> k ∈ l'.
Proof.
  intros HI Hm Hp HF. induction HF as [|q k' l l' Hq _ IH]; [split; by intros ?%elem_of_nil|]. rewrite !elem_of_cons, IH.
  pose proof (at_key_inj h m p k q k' HI Hm Hp Hq). tauto.
Qed.
Definition cyc_same (m : hmgr) (x : outcome (list loc)) (y : outcome (list string)) : Prop :=
  match x, y with
  | Val l, Val l' => Forall2 (at_key m) l l'
  | Err e, Err e' => e = e'
  | Pan e, Pan e' => e = e'
  | _, _ => False
  end.
Lemma cyc_deps_same h m p k rec rec' deps : inv h -> h_mgr h !! pm = Some m -> at_key m p k -> (forall k', cyc_same m (rec k') (rec' k')) ->
  cyc_same m (hcyc_deps rec p deps) (cyc_deps rec' k deps).
Proof.
  intros HI Hm Hk Hrec. induction deps as [|d deps IH]; cbn [hcyc_deps cyc_deps]; [constructor|].
  specialize (Hrec (name2key d)). destruct (rec (name2key d)) as [l|e|x], (rec' (name2key d)) as [l'|e'|x']; cbn in Hrec; try done.
  destruct Hrec as [|q k' l l' Hq HF]; [done|]. cbn. constructor; [done|]. by constructor.
Qed.
Lemma checkCyclic_same h m fuel : inv h -> h_mgr h !! pm = Some m -> forall visited (visited' : gset string) k,
  (forall p k, at_key m p k -> p ∈ visited <-> k ∈ visited') -> (forall k, k ∈ visited' -> is_Some (hm_map m !! k)) ->
  cyc_same m (hcheckCyclic h (hm_map m) fuel visited (hm_map m !! k)) (checkCyclic (pm_map (now h)) fuel visited' k).
Proof.
  intros HI Hm. induction fuel as [|fuel IH]; intros visited visited' k Hv Hd; cbn [hcheckCyclic checkCyclic]; [done|].
  destruct (look h0 pm h m k HI Hm) as [[Hk Hl]|(p & v & Hk & Hp & Hl & _)]; rewrite Hk, Hl.
  - rewrite decide_False; [done|]. intros Hin. destruct (Hd k Hin) as [x Hx]. congruence.
  - destruct (decide (p ∈ visited)) as [Hin|Hin].
    + rewrite decide_True by (by apply (Hv p k)). constructor; [done|constructor].
    + rewrite decide_False by (by rewrite <- (Hv p k)). rewrite Hp. apply (cyc_deps_same h); [done..|]. intros k'. apply IH.
      * intros q k1 Hq. rewrite !elem_of_union, !elem_of_singleton. rewrite (Hv q k1 Hq). pose proof (at_key_inj h m q k1 p k HI Hm Hq Hk). tauto.
      * intros k1 [->%elem_of_singleton|Hk1]%elem_of_union; [by eexists|by apply Hd].
Qed.
Lemma names_same h m l l' : inv h -> h_mgr h !! pm = Some m -> Forall2 (at_key m) l l' -> map (hname_of h) l = map (name_of (pm_map (now h))) l'.
Proof.
  intros HI Hm. induction 1 as [|p k l l' Hk _ IH]; [done|]. cbn [map]. f_equal; [|exact IH]. unfold hname_of, name_of.
  destruct (look h0 pm h m k HI Hm) as [[Hx _]|(p1 & v & Hk1 & Hp & Hl & _)]; [unfold at_key in Hk; congruence|]. rewrite Hl.
  unfold at_key in Hk. assert (p1 = p) as -> by congruence. by rewrite Hp.
Qed.
Lemma sim_checkOne h k : inv h -> sim (fun h' => h' = h) h (hcheckOne pm k) (checkOne k).
Proof.
  intros HI. destruct (inv_mgr h0 pm h HI) as (m & Hm & HO). unfold HeapSim.sim, hcheckOne, checkOne. rewrite (hbind_get_mgr h pm m) by done. rewrite sbind_sget.
  destruct (look h0 pm h m k HI Hm) as [[-> ->]|(p & v & Hk & Hp & -> & _)]; [by apply sim_pan|]. rewrite Hk. rewrite (hbind_see_plug h p v) by done.
  destruct (pl_deps (view_plugin h v)) as [|d deps]; [by apply sim_ret|]. rewrite sbind_spure, <- (now_size h0 pm h m) by done. unfold hbind. cbn [bind fst snd].
  pose proof (checkCyclic_same h m (S (size (hm_map m))) HI Hm ∅ ∅ k) as Hc. rewrite Hk in Hc.
  destruct (hcheckCyclic h (hm_map m) (S (size (hm_map m))) ∅ (Some p)) as [l|e|x], (checkCyclic (pm_map (now h)) (S (size (hm_map m))) ∅ k) as [l'|e'|x']; cbn in Hc;
    specialize (Hc ltac:(intros ? ? _; split; intros Hx; by apply elem_of_empty in Hx) ltac:(intros ? Hx; by apply elem_of_empty in Hx)); try done.
  - pose proof (names_same h m l l' HI Hm Hc) as Hnames. destruct Hc as [|q k' l l' Hq HF]; [by apply sim_ret|]. rewrite <- Hnames. cbn [map]. by apply sim_err.
  - subst. by apply sim_err.
  - subst. by apply sim_pan.
Qed.
Lemma sim_checkRebuilt h k : inv h -> sim (fun h' => h' = h) h (hcheckRebuilt pm k) (checkRebuilt k).
Proof.
  intros HI. destruct (inv_mgr h0 pm h HI) as (m & Hm & HO). unfold HeapSim.sim, hcheckRebuilt, checkRebuilt. rewrite (hbind_get_mgr h pm m) by done. rewrite sbind_sget.
  destruct (look h0 pm h m k HI Hm) as [[-> ->]|(p & v & Hk & Hp & -> & _)]; [by apply sim_pan|]. rewrite Hk. rewrite (hbind_see_plug h p v) by done.
  destruct (pl_unchanged (view_plugin h v)); [|by apply sim_ret]. apply sim_for; [done|done|]. intros d h' _ _ ->. unfold HeapSim.sim.
  destruct (look h0 pm h m (name2key d) HI Hm) as [[-> ->]|(q & w & Hq & Hw & -> & _)]; [by apply sim_pan|]. rewrite Hq. rewrite (hbind_see_plug h q w) by done.
  destruct (pl_unchanged (view_plugin h w)); [by apply sim_ret|by apply sim_err].
Qed.

(** ** Order *)
Lemma deps_placed_same h m a a' deps : inv h -> h_mgr h !! pm = Some m -> Forall2 (at_key m) a a' ->
  hdeps_placed (hm_map m) a deps = forallb (fun d => bool_decide (name2key d ∈ a')) deps.
Proof.
  intros HI Hm HF. unfold hdeps_placed. induction deps as [|d deps IH]; [done|]. cbn [forallb]. f_equal; [|exact IH].
  destruct (hm_map m !! name2key d) as [p|] eqn:Hd.
  - apply bool_decide_ext. by apply (at_key_elem h m).
  - symmetry. apply bool_decide_eq_false. intros Hin. clear IH. induction HF as [|q k' l l' Hq _ IH]; [by apply elem_of_nil in Hin|].
    apply elem_of_cons in Hin as [Hin|Hin]; [unfold at_key in Hq; congruence|by apply IH].
Qed.
Lemma orderRound_same h m keys : inv h -> h_mgr h !! pm = Some m -> forall a a', Forall2 (at_key m) a a' ->
  Forall2 (at_key m) (horderRound h (hm_map m) keys a) (orderRound (pm_map (now h)) keys a').
Proof.
  intros HI Hm. induction keys as [|k keys IH]; intros a a' HF; cbn [horderRound orderRound]; [done|].
  destruct (look h0 pm h m k HI Hm) as [[-> ->]|(p & v & Hk & Hp & -> & _)].
  - destruct (decide (k ∈ a')); by apply IH.
  - rewrite Hk. pose proof (at_key_elem h m p k a a' HI Hm Hk HF) as He.
    destruct (decide (p ∈ a)) as [Hin|Hin]; [rewrite decide_True by tauto; by apply IH|]. rewrite decide_False by tauto. rewrite Hp.
    unfold deps_placed. change (pl_deps (view_plugin h v)) with (slice_view h (hp_deps v)). rewrite (deps_placed_same h m a a') by done.
    destruct (forallb _ _); apply IH; [|done]. apply Forall2_app; [done|]. by constructor.
Qed.
Lemma orderRounds_same h m n keys rounds : inv h -> h_mgr h !! pm = Some m -> forall a a', Forall2 (at_key m) a a' ->
  match horderRounds h (hm_map m) n keys a rounds, orderRounds (pm_map (now h)) n keys a' rounds with
  | Some l, Some l' => Forall2 (at_key m) l l'
  | None, None => True
  | _, _ => False
  end.
Proof.
  intros HI Hm. induction rounds as [|r IH]; intros a a' HF; cbn [horderRounds orderRounds]; [done|].
  rewrite (Forall2_length _ _ _ HF). destruct (length a' =? n)%nat; [done|]. apply IH. by apply orderRound_same.
Qed.
Lemma has_deps_same h m k : inv h -> h_mgr h !! pm = Some m -> hhas_deps h (hm_map m) k = has_deps (pm_map (now h)) k.
Proof.
  intros HI Hm. unfold hhas_deps, has_deps. destruct (look h0 pm h m k HI Hm) as [[-> ->]|(p & v & -> & -> & -> & _)]; done.
Qed.
Lemma filter_ext_in' {A} (f g : A -> bool) l : (forall x, f x = g x) -> List.filter f l = List.filter g l.
Proof. intros H. induction l as [|x l IH]; [done|]. cbn [List.filter]. rewrite H, IH. done. Qed.
Lemma omap_keys m it : (forall k, k ∈ it -> is_Some (hm_map m !! k)) -> Forall2 (at_key m) (omap (fun k => hm_map m !! k) it) it.
Proof.
  induction it as [|k it IH]; intros H; [constructor|]. destruct (H k ltac:(left)) as [p Hp].
  assert (Hc : omap (fun k => hm_map m !! k) (k :: it) = match hm_map m !! k with Some y => y :: omap (fun k => hm_map m !! k) it | None => omap (fun k => hm_map m !! k) it end) by done.
  rewrite Hc, Hp. constructor; [done|]. apply IH. intros k' Hk'. apply H. by right.
Qed.
Lemma sim_orderPlugins h : inv h -> sim (fun _ => True) h (horderPlugins pm) orderPlugins.
Proof.
  intros HI. destruct (inv_mgr h0 pm h HI) as (m & Hm & HO). unfold HeapSim.sim, horderPlugins, orderPlugins. rewrite (hbind_get_mgr h pm m) by done. rewrite sbind_sget. cbv zeta.
  apply sim_iter; [exact (now_keys h0 pm h m HI Hm)|]. intros it Hit. unfold HeapSim.sim. unfold hbind. cbn [bind fst snd].
  rewrite <- (now_size h0 pm h m) by done.
  rewrite (filter_ext_in' (fun k => negb (hhas_deps h (hm_map m) k)) (fun k => negb (has_deps (pm_map (now h)) k))) by (intros k; by rewrite (has_deps_same h m k)).
  rewrite (filter_ext_in' (hhas_deps h (hm_map m)) (has_deps (pm_map (now h)))) by (intros k; by apply has_deps_same).
  set (l := List.filter (fun k => negb (has_deps (pm_map (now h)) k)) it).
  assert (Hl : Forall2 (at_key m) (omap (fun k => hm_map m !! k) l) l).
  { apply omap_keys. intros k Hk. unfold l in Hk. apply elem_of_list_In, filter_In in Hk as [Hk _]. apply elem_of_list_In in Hk. rewrite Hit in Hk.
    unfold map_keys in Hk. change (map fst (map_to_list (hm_map m))) with ((map_to_list (hm_map m)).*1) in Hk. apply elem_of_list_fmap in Hk as ([k' x] & -> & Hx).
    apply elem_of_map_to_list in Hx. by eexists. }
  pose proof (orderRounds_same h m (size (hm_map m)) (sort_strings (List.filter (has_deps (pm_map (now h))) it)) (S (size (hm_map m))) HI Hm _ _ Hl) as Hr.
  destruct (horderRounds _ _ _ _ _ _) as [o|], (orderRounds _ _ _ _ _) as [o'|]; try done; [|by apply sim_pan].
  eapply sim_set_mgr; [exact HI|exact Hm| | |done].
  - intros [O1 O2 O3 O4 O5]. split; [done..|]. cbn. intros p Hp. clear -Hr Hp O4. induction Hr as [|q k l l' Hq _ IH]; [by apply elem_of_nil in Hp|].
    apply elem_of_cons in Hp as [->|Hp]; [|by apply IH]. destruct (O4 k q Hq) as (_ & v & Hv & <-). by exists v.
  - unfold view_mgr, upd_ordered. cbn. f_equal. clear -Hr HO. induction Hr as [|q k l l' Hq _ IH]; [done|].
    destruct (ow_map _ _ _ HO k q Hq) as (_ & v & Hv & <-). change (omap (key_ptr h) (q :: l)) with (match key_ptr h q with Some y => y :: omap (key_ptr h) l | None => omap (key_ptr h) l end).
    unfold key_ptr at 1. rewrite Hv. cbn [fmap option_fmap option_map]. by rewrite IH.
Qed.
Lemma sim_initDeps h : inv h -> loading h0 pm h -> sim (fun _ => True) h (hinitDeps pm) initDeps.
Proof.
  intros HI [_ Hun]. destruct (inv_mgr h0 pm h HI) as (m & Hm & HO). pose proof (now_keys h0 pm h m HI Hm) as Hkeys.
  unfold HeapSim.sim, hinitDeps, initDeps. rewrite (hbind_get_mgr h pm m) by done. rewrite sbind_sget, <- (sort_strings_eq _ _ Hkeys).
  apply (sim_bind _ _ _ (fun _ => True)).
  - apply sim_initAll; [|done|].
    + apply sort_strings_nodup, NoDup_fst_map_to_list.
    + intros k p v m' _ Hm' Hk Hp Hu. assert (m' = m) as -> by congruence. destruct (ow_map _ _ _ HO k p Hk) as (Hb & _). by eapply Hun.
  - intros _ h1 HI1 _. apply sim_iter; [done|]. intros it _. apply (sim_bind _ _ _ (fun h' => h' = h1)).
    { apply sim_for; [done|done|]. intros k h' _ _ ->. by apply sim_checkOne. }
    intros _ h' _ ->. apply sim_iter; [done|]. intros it3 _. apply (sim_bind _ _ _ (fun h' => h' = h1)).
    { apply sim_for; [done|done|]. intros k h' _ _ ->. by apply sim_checkRebuilt. }
    intros _ h' _ ->. by apply sim_orderPlugins.
Qed.
End Deps.
