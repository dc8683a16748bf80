(** C59: what the dependency errors say is true. *)
From Verif Require Export PropGraph PropVault.

(** ** What can be seen in a call *)
Section Spec.
Context {E : GoEnv}.
(** Import() of the plugin named [n] returned [imp]. *)
Definition imported (t : list event) (n : string) (imp : iface) : Prop :=
  exists c, EvCall RImport c ArgNone (Val imp) ∈ t /\ c_name c = n.
(** ... a pointer to a struct one of whose dependency fields is [f]. *)
Definition wants (t : list event) (n : string) (f : sfield) : Prop :=
  exists imp fields, imported t n imp /\ dep_fields imp = Some fields /\ f ∈ fields.
(** A plugin named [n] was opened (linked) by this call, as instance [i]. *)
Definition brought_up (t : list event) (n : string) (i : inst) : Prop := exists mid, EvNewInst mid n i ∈ t.
(** The call took the plugin [q] of the manager before over. *)
Definition taken_over (cur : option mgr) (t : list event) (q : plugin) : Prop :=
  exists om mid v, cur = Some om /\ holds om q /\ EvRefInc mid (pl_inst q) v ∈ t.
(** There is a plugin of that name among those of the load. *)
Definition present (cur : option mgr) (t : list event) (n : string) : Prop :=
  (exists n' i, brought_up t n' i /\ same_name n' n) \/ (exists q, taken_over cur t q /\ same_name (pl_name q) n).
(** Reloadable() of the plugin named [n] has returned [b], in this call or earlier. *)
Definition says_reloadable (cur : option mgr) (t : list event) (n : string) (b : bool) : Prop :=
  (exists c, EvCall RReloadable c ArgNone (Val b) ∈ t /\ c_name c = n) \/
  (exists q, taken_over cur t q /\ pl_name q = n /\ pl_reloadable q = b).
(** Export() of the plugin named [n] has returned [v], in this call or earlier. *)
Definition exports (cur : option mgr) (t : list event) (n : string) (v : iface) : Prop :=
  (exists c, EvCall RExport c ArgNone (Val v) ∈ t /\ c_name c = n) \/
  (exists q, taken_over cur t q /\ pl_name q = n /\ pl_exported q = v).
(** What an error about dependencies says. *)
Definition truth (cur : option mgr) (t : list event) (e : gerror) : Prop :=
  match e with
  | EImportShape p => exists imp, imported t p imp /\ dep_fields imp = None
  | EAnonField f p => exists fd, wants t p fd /\ sf_name fd = f /\ sf_anon fd = true
  | EUnknownDep f p => exists fd, wants t p fd /\ sf_name fd = f /\ ~ present cur t f
  | ENotReloadableDep p q => exists fd, wants t p fd /\ same_name (sf_name fd) q /\ says_reloadable cur t p false /\ says_reloadable cur t q true
  | ENotAssignable q p f => exists fd v, wants t p fd /\ sf_name fd = f /\ same_name f q /\ exports cur t q (Some v) /\
      assignable (gv_type v) (sf_type fd) = false
  | ERebuilt q p => exists p0 d i, taken_over cur t p0 /\ pl_name p0 = p /\ d ∈ pl_deps p0 /\ same_name d q /\ brought_up t q i
  | _ => False
  end.
End Spec.

Section Props.
Context {E : GoEnv}.

Definition dep_error (e : gerror) : bool :=
  match e with EImportShape _ | EAnonField _ _ | EUnknownDep _ _ | ENotReloadableDep _ _ | ENotAssignable _ _ _ | ECyclic _ | ERebuilt _ _ => true | _ => false end.

(** a call that ends with such an error has gathered its plugins and failed in initDeps *)
Lemma deps_stage o h cur a t e : next_call o h cur (api_prog o a) t (Err e) -> dep_error e = true ->
  exists s t1 s1 t2 s' ps ks, gath (source o) (old_seen o cur) s t1 s1 ps ks /\ deps_failure s1 s' t2 (Err e) /\ core_map s' = core_map s1 /\
    pm_id s1 = pm_id s /\ (forall x, x ∈ t1 ++ t2 -> x ∈ t) /\ created t = map pl_inst ps /\ increments t = increments t1.
Proof.
  intros HN Hde. pose proof (next_stages _ _ _ _ _ _ HN) as [Hsil Hnp Hr|s t1 tl s' ps ks tf e' Hb HG HO HR He Hge Hnp Hin Hcs Rf|s t1 s1 t2 s' ob ps ks tf Hb HG HE Hres Hin Hcs Rf].
  - exfalso. destruct Hr as [?|[(e' & He & Hee)|(x & ? & _)]]; try done. injection He as <-. by destruct e.
  - exfalso. injection He as <-. by destruct e.
  - destruct Hres as [(e' & He & _ & _ & Hc)|(d & ? & _)]; [|done]. injection He as <-.
    destruct Hc as [[He Hv]|[Hcb _]]; [|by destruct e].
    destruct ob as [[]|e'|x]; [by destruct Hv| |]; simpl in He; subst e; [|done].
    destruct (exec_lifecycle _ _ _ _ _ (g_ordered _ _ _ _ _ _ _ HG) (g_funcs _ _ _ _ _ _ _ HG) (g_types _ _ _ _ _ _ _ HG) HE)
      as (a1 & a2 & a3 & a4 & a5 & Ht2 & _ & _ & _ & _ & _ & _ & _ & Hcore & _ & _ & _ & _ & _ & _ & _ & _ & _ & Herr).
    destruct (Herr _ eq_refl) as [(Hx & Hta)|Hlate].
    2:{ exfalso. destruct Hlate as [([n ->] & _)|[(p & x & _ & ->)|[(p & _ & [[-> _]|[-> _]])|[(l1 & p & l2 & q & nm & an & _ & _ & -> & _)|(l1 & p & l2 & q & nm & an & _ & _ & -> & _)]]]]; done. }
    apply exec_initDeps_fail in Hx; [|by intros []]. destruct Rf as [R1 R2 R3 R4].
    exists s, t1, s1, a1, s', ps, ks. split_and!; try done.
    + pose proof (g_head _ _ _ _ _ _ _ HG) as Hh. by destruct Hh as (Hh & _).
    + intros x Hx'. apply Hin. apply elem_of_app in Hx' as [Hx'|Hx']; rewrite !elem_of_app; [by left|]. right. left. by rewrite <- Hta in Hx'.
Qed.

Section Gathered.
Variables (o : opts) (h : list event) (cur : option mgr) (a : api) (t : list event) (r : outcome (option Details)).
Variables (s s1 : mgr) (t1 : list event) (ps ks : list plugin).
Hypothesis HN : next_call o h cur (api_prog o a) t r.
Hypothesis HG : gath (source o) (old_seen o cur) s t1 s1 ps ks.
Hypothesis Hsub : forall x, x ∈ t1 -> x ∈ t.
Hypothesis Hcr : created t = map pl_inst ps.
Hypothesis Hinc : increments t = increments t1.

Lemma member k p : pm_map s1 !! k = Some p -> p ∈ ps /\ pl_unchanged p = false \/ p ∈ ks /\ pl_unchanged p = true.
Proof.
  intros Hp. assert (Hin : p ∈ ps ++ ks) by (eapply elem_of_submseteq; [apply elem_mplugins; by exists k|exact (g_sub _ _ _ _ _ _ _ HG)]).
  apply elem_of_app in Hin as [Hin|Hin]; [left|right]; (split; [done|]); [by apply (g_new _ _ _ _ _ _ _ HG)|by apply (g_kept _ _ _ _ _ _ _ HG)].
Qed.
Lemma kept_taken p : p ∈ ks -> exists q note, taken_over cur t q /\ p = set_unchanged note q.
Proof.
  intros Hp. destruct (g_kept _ _ _ _ _ _ _ HG _ Hp) as (_ & om & q & note & Ho & Hq & ->). exists q, note. split; [|done].
  unfold old_seen in Ho. destruct (o_static o) eqn:Hst; [done|]. pose proof HN as (HH & _).
  assert (Hi : pl_inst q ∈ increments t).
  { rewrite Hinc, (g_inc _ _ _ _ _ _ _ HG). apply elem_of_list_fmap. exists (set_unchanged note q). done. }
  apply elem_of_list_omap in Hi as (ev & Hev & Hx). destruct ev; try done. injection Hx as ->.
  exists om, mid, v. split_and!; [done| |done]. subst cur.
  pose proof (history_sound _ _ _ Hst HH _ eq_refl) as ((_ & _ & _ & Hperm & _) & _). apply elem_mplugins in Hq as (k0 & Hk0). by eapply elem_Plugins.
Qed.
Lemma new_named n i : brought_up t n i -> exists p, p ∈ ps /\ pl_name p = n /\ pl_inst p = i.
Proof.
  intros (mid & Hin). assert (Hc : i ∈ created t) by (apply elem_of_list_omap; by exists (EvNewInst mid n i)).
  pose proof Hc as Hc'. rewrite Hcr in Hc'. apply elem_of_list_fmap in Hc' as (p & -> & Hp). exists p. split_and!; [done| |done].
  destruct (g_vals _ _ _ _ _ _ _ HG _ Hp) as (Hnew & _). apply Hsub in Hnew.
  pose proof HN as (_ & _ & _ & _ & Hnd). unfold fresh_objects, created in Hnd. rewrite omap_app in Hnd. apply NoDup_app in Hnd as (_ & _ & Hnd).
  pose proof (nodup_omap_eq _ _ _ _ _ Hnd Hin Hnew eq_refl eq_refl) as Heq. by injection Heq.
Qed.
Lemma taken_kept q : taken_over cur t q -> exists note, set_unchanged note q ∈ ks.
Proof.
  intros (om & mid & v & -> & Hq & Hin). assert (Hi : pl_inst q ∈ increments t) by (apply elem_of_list_omap; by exists (EvRefInc mid (pl_inst q) v)).
  rewrite Hinc, (g_inc _ _ _ _ _ _ _ HG) in Hi. apply elem_of_list_fmap in Hi as (p & Hpi & Hp).
  destruct (g_kept _ _ _ _ _ _ _ HG _ Hp) as (_ & om' & q' & note & Ho & Hq' & ->). unfold old_seen in Ho. destruct (o_static o) eqn:Hst; [done|]. injection Ho as <-.
  exists note. replace q with q'; [done|]. pose proof HN as (HH & _ & _ & _ & HF).
  pose proof (history_sound _ _ _ Hst HH _ eq_refl) as Hs. apply elem_mplugins in Hq' as (k1 & Hk1). destruct (Plugins_lookup _ _ Hq) as [k2 Hk2].
  assert (HF' : fresh_objects h) by (unfold fresh_objects, created in HF |- *; rewrite omap_app in HF; by apply NoDup_app in HF as (HF & _)).
  pose proof (sound_insts _ _ _ _ _ _ Hs HF' Hk1 Hk2 (eq_sym Hpi)) as ->. congruence.
Qed.
Lemma absent f : pm_map s1 !! name2key f = None -> keyed (pm_map s1) -> ~ present cur t f.
Proof.
  intros Hn HK Hpr. assert (Hex : exists p, p ∈ ps ++ ks /\ same_name (pl_name p) f).
  { destruct Hpr as [(n & i & Hb & Hs)|(q & Hq & Hs)].
    - destruct (new_named _ _ Hb) as (p & Hp & <- & _). exists p. split; [apply elem_of_app; by left|done].
    - destruct (taken_kept _ Hq) as (note & Hk). exists (set_unchanged note q). split; [apply elem_of_app; by right|done]. }
  destruct Hex as (p & Hp & Hs). destruct (g_cover _ _ _ _ _ _ _ HG _ Hp) as (q & Hq & Hqp). apply elem_mplugins in Hq as (k & Hk).
  pose proof (HK _ _ Hk) as Hkk. unfold same_name in Hs. unfold name2key in *. congruence.
Qed.
Lemma member_reloadable k p : pm_map s1 !! k = Some p -> says_reloadable cur t (pl_name p) (pl_reloadable p).
Proof.
  intros Hp. destruct (member _ _ Hp) as [[Hin _]|[Hin _]].
  - left. destruct (g_vals _ _ _ _ _ _ _ HG _ Hin) as (_ & (c & _ & Hc) & _). eexists. split; [by apply Hsub|done].
  - right. destruct (kept_taken _ Hin) as (q & note & Hq & ->). by exists q.
Qed.
Lemma member_exports k p : pm_map s1 !! k = Some p -> exports cur t (pl_name p) (pl_exported p).
Proof.
  intros Hp. destruct (member _ _ Hp) as [[Hin _]|[Hin _]].
  - left. destruct (g_vals _ _ _ _ _ _ _ HG _ Hin) as (_ & _ & (c & _ & Hc)). eexists. split; [by apply Hsub|done].
  - right. destruct (kept_taken _ Hin) as (q & note & Hq & ->). by exists q.
Qed.
End Gathered.

Theorem C59_dependency_errors_are_true o h cur a t e : next_call o h cur (api_prog o a) t (Err e) ->
  dep_error e = true -> (forall chain, e <> ECyclic chain) -> truth cur t e.
Proof.
  intros HN Hde Hcyc. destruct (deps_stage _ _ _ _ _ _ HN Hde) as (s & t1 & s1 & t2 & s' & ps & ks & HG & HF & Hcore & Hid & Hsub & Hcr & Hinc).
  assert (Hsub1 : forall x, x ∈ t1 -> x ∈ t) by (intros x Hx; apply Hsub, elem_of_app; by left).
  assert (Hsub2 : forall x, x ∈ t2 -> x ∈ t) by (intros x Hx; apply Hsub, elem_of_app; by right).
  pose proof HN as (HH & _). assert (HK : keyed (pm_map s1)) by (by eapply gath_keyed).
  assert (Himp : forall p imp, answered RImport (pm_id s1) ArgNone p (Val imp) t2 -> imported t (pl_name p) imp).
  { intros p imp (c & _ & Hin). eexists. split; [by apply Hsub2|done]. }
  assert (Hname : forall k q, pm_map s1 !! name2key k = Some q -> same_name k (pl_name q)).
  { intros k q Hq. symmetry. exact (HK _ _ Hq). }
  destruct HF as [(k & p & Hp & Hu & Hi)|(Hw & [(l & z & Heq & _)|[(? & _)|(k & p & d & q & Hp & Heq & Hu & Hd & Hq & Hqu)]])].
  - destruct Hi as [(x & Heq & _)|(imp & Ha & [[Hn Heq]|(fields & f & Hf & Hin & Hb)])].
    + injection Heq as ->. done.
    + injection Heq as ->. cbn [truth]. exists imp. split; [by apply Himp|done].
    + assert (Hwants : wants t (pl_name p) f) by (exists imp, fields; split_and!; [by apply Himp|done|done]).
      destruct Hb as [[H1 Heq]|[[H1 Heq]|(q & Hq & [(H1 & H2 & Heq)|(x & Hx & [[H1 Heq]|[_ Heq]])])]]; try done; injection Heq as ->; cbn [truth].
      * by exists f.
      * exists f. split_and!; [done|done|]. eapply absent; try done. unfold core_map in H1. rewrite lookup_fmap in H1. by destruct (pm_map s1 !! name2key (sf_name f)).
      * apply core_map_lookup_inv in Hq as (q0 & Hq & ->). exists f. split_and!; [done|exact (Hname _ _ Hq)| |].
        -- rewrite <- H1. by eapply (member_reloadable o h cur a t (Err _) s s1 t1 ps ks HN HG Hsub1 Hinc _ p).
        -- change (pl_name (core q0)) with (pl_name q0). rewrite <- H2. by eapply (member_reloadable o h cur a t (Err _) s s1 t1 ps ks HN HG Hsub1 Hinc _ q0).
      * apply core_map_lookup_inv in Hq as (q0 & Hq & ->). unfold field_value in Hx. change (pl_exported (core q0)) with (pl_exported q0) in Hx.
        destruct (pl_exported q0) as [g|] eqn:Hg; [|done]. destruct (is_nil (Some g)); [done|]. injection Hx as <-.
        exists f, g. split_and!; [done|done|exact (Hname _ _ Hq)| |done].
        change (pl_name (core q0)) with (pl_name q0). rewrite <- Hg. by eapply (member_exports o h cur a t (Err _) s s1 t1 ps ks HN HG Hsub1 Hinc _ q0).
  - injection Heq as ->. by destruct (Hcyc _ eq_refl).
  - done.
  - injection Heq as ->. destruct (core_lookup _ _ _ _ Hcore Hp) as (p1 & Hp1 & Hcp). destruct (core_lookup _ _ _ _ Hcore Hq) as (q1 & Hq1 & Hcq).
    destruct (core_inst _ _ Hcp) as (_ & Hup & Hnp). destruct (core_inst _ _ Hcq) as (_ & Huq & Hnq).
    destruct (Hw _ _ Hp1) as (p' & Hp' & Hcase). rewrite <- Hup, Hu in Hcase. assert (p = p1) as <- by congruence.
    destruct (member o cur s s1 t1 ps ks HG _ _ Hp1) as [[_ ?]|[Hk _]]; [congruence|].
    destruct (member o cur s s1 t1 ps ks HG _ _ Hq1) as [[Hk2 _]|[_ ?]]; [|congruence].
    destruct (kept_taken o h cur a t (Err _) s s1 t1 ps ks HN HG Hinc _ Hk) as (p0 & note & Ht & ->).
    destruct (g_vals _ _ _ _ _ _ _ HG _ Hk2) as (Hnew & _).
    cbn [truth]. exists p0, d, (pl_inst q1). split_and!; [done|done|done| |].
    + rewrite Hnq. exact (Hname _ _ Hq1).
    + exists (pm_id s). rewrite Hnq. by apply Hsub1.
Qed.

(** the errors of initDeps, OnLoad, the vault and OnInit *)
Definition life_error (e : gerror) : bool :=
  dep_error e || match e with EOpaque _ | EPanic _ _ | ENilLiveFuncs _ | ENilLiveTypes _ | EDupLiveFunc _ _ _ | EDupLiveType _ _ _ => true | _ => false end.
Lemma lifecycle_errors data s t s' e : pm_ordered s = [] -> pm_livefuncs s = ∅ -> pm_livetypes s = ∅ -> exec (lifecycle data s) t (s', Err e) -> life_error e = true.
Proof.
  intros G1 G2 G3 HE. destruct (exec_lifecycle _ _ _ _ _ G1 G2 G3 HE)
      as (a1 & a2 & a3 & a4 & a5 & Ht2 & _ & _ & _ & _ & _ & _ & _ & Hcore & _ & _ & _ & _ & _ & _ & _ & _ & _ & Herr).
  destruct (Herr _ eq_refl) as [(Hx & Hta)|Hlate].
  - apply exec_initDeps_fail in Hx; [|by intros []]. destruct Hx as [(k & p & _ & _ & Hi)|(Hw & Hi)].
    + destruct Hi as [(y & Heq & _)|(imp & _ & [[_ Heq]|(fields & f & _ & _ & Hb')])]; try by injection Heq as ->.
      destruct Hb' as [[_ Heq]|[[_ Heq]|(q & _ & [(_ & _ & Heq)|(y & _ & [[_ Heq]|[_ Heq]])])]]; try discriminate Heq; by injection Heq as ->.
    + destruct Hi as [(l & z & Heq & Hch & Hz)|[(? & _)|(k & p & d & q & _ & Heq & _)]]; try done; by injection Heq as ->.
  - by destruct Hlate as [([n ->] & _)|[(p & x & _ & ->)|[(p & _ & [[-> _]|[-> _]])|[(l1 & p & l2 & q & nm & an & _ & _ & -> & _)|(l1 & p & l2 & q & nm & an & _ & _ & -> & _)]]]].
Qed.
(** the errors a load call can end with *)
Lemma call_errors o h cur a t e : next_call o h cur (api_prog o a) t (Err e) ->
  early_error e \/ gather_error e \/ life_error e = true.
Proof.
  intros HN. pose proof (next_stages _ _ _ _ _ _ HN) as [Hsil Hnp Hr|s t1 tl s' ps ks tf e' Hb HG HO HR He Hge Hnp Hin Hcs Rf|s t1 s1 t2 s' ob ps ks tf Hb HG HE Hres Hin Hcs Rf].
  - destruct Hr as [?|[(e' & He & Hee)|(x & ? & _)]]; try done. injection He as <-. by left.
  - injection He as <-. by right; left.
  - destruct Hres as [(e' & He & _ & _ & Hc)|(d & ? & _)]; [|done]. injection He as <-. right. right.
    destruct Hc as [[He Hv]|[Hcb _]]; [|by destruct e].
    destruct ob as [[]|e'|x]; [by destruct Hv| |]; simpl in He; subst e; [|done].
    eapply (lifecycle_errors _ s1); [apply HG..|done].
Qed.

(** Some errors the code can return in principle are never returned: "never call loadPlugins twice", the count check,
    and the errors of Plugin.Lookup except as reason why a plugin could not be loaded. *)
Theorem C59_no_other_errors o h cur a t e : next_call o h cur (api_prog o a) t (Err e) ->
  match e with
  | ETwice | ECount | EMissingFuncs _ | ESymEmpty | EOutNil | EOutNotPtr | ENotExist | ECannotAssign _ => False
  | _ => True
  end.
Proof. intros HN. destruct (call_errors _ _ _ _ _ _ HN) as [H|[H|H]]; by destruct e. Qed.

(** The error about the plugin directory. *)
Lemma file_errors o files data cbs t e : file_run o files data cbs t (Err e) -> gather_error e \/ life_error e = true.
Proof.
  intros HR. inversion HR as [|old tn s tl s' e' Hm Hh Hp HL|old tn s tl new tc e' Hm Hh Hp HL HC|]; subst.
  - destruct HL as (tb & tf & ob & -> & -> & Hv & Hbr & _). destruct Hbr as [Hg|(t1 & t2 & s1 & -> & HG & HE)].
    + left. by eapply gather_failed_error.
    + right. assert (Hb : blank_mgr s) by (apply Hm). destruct (gath_dyn _ _ _ _ _ Hb HG) as (ps & ks & HG').
      destruct ob as [[]|e'|x]; [by destruct Hv| |done]. eapply (lifecycle_errors _ s1); [apply HG'..|done].
  - right. destruct HC as (c1 & cb & c2 & r & tf & _ & _ & [[_ [n ->]]|(x & _ & -> & _)] & _); done.
Qed.
Theorem C59_not_a_directory o h cur a t d : next_call o h cur (api_prog o a) t (Err (ENotDir d)) -> o_static o = None -> EvStat d (Val false) ∈ t.
Proof.
  intros HN Hs. destruct (next_dir _ _ _ _ _ _ HN Hs) as (tb & add & -> & HR & _). right. apply elem_of_app. left.
  inversion HR as [tp e Hr|tp Hc|tp files tl r Hc Hne Hf]; subst.
  - inversion Hr as [|? ? ? [? ?]|d1 Hb|? ? ? ? [? ?]|? ? ? ? ? [? ?]|]; subst; try done. right. left.
  - by destruct (file_errors _ _ _ _ _ _ Hf).
Qed.
Theorem C59_empty_directory_name o h cur a t what : next_call o h cur (api_prog o a) t (Err (EDirEmpty what)) -> o_static o = None ->
  exists d, EvGetDir d ∈ t /\ blank d = true.
Proof.
  intros HN Hs. destruct (next_dir _ _ _ _ _ _ HN Hs) as (tb & add & -> & HR & _).
  inversion HR as [tp e Hr|tp Hc|tp files tl r Hc Hne Hf]; subst.
  - inversion Hr as [d1 Hb|? ? ? [? ?]| |? ? ? ? [? ?]|? ? ? ? ? [? ?]|]; subst; try done. exists d1. split; [|done]. right. left.
  - by destruct (file_errors _ _ _ _ _ _ Hf).
Qed.
End Props.

(** ** Concrete cases *)
(** a, b and c, where b's Import() returns [v], a's Export() returns [x], and [rl] tells who is reloadable *)
Definition calls_ex (v x : iface) (rl : string -> bool) (r : role) (c : callee) : outcome (role_resp r) :=
  match r return outcome (role_resp r) -> outcome (role_resp r) with
  | RImport => fun y => if String.eqb (c_name c) "b" then Val v else y
  | RExport => fun y => if String.eqb (c_name c) "a" then Val x else y
  | _ => fun y => y
  end (good_call rl r c).
Definition world_ex (v x : iface) (rl : string -> bool) : demo_world := world_calls (calls_ex v x rl) world0.
Lemma world_ex_ok v x rl : valid_iface v -> demo_ok (world_ex v x rl).
Proof.
  intros Hv. split_and!; try done; [apply world_listing|]. intros r c. destruct r; try apply good_call_valid.
  - cbn. by destruct (String.eqb _ _).
  - cbn [d_call world_ex world_calls calls_ex]. destruct (String.eqb _ _); [done|apply (good_call_valid rl RImport c)].
Qed.
Definition world_no_a : demo_world := world_listing_is [("b.so", false); ("c.so", false)] world0.
Lemma world_no_a_ok : demo_ok world_no_a.
Proof. split_and!; try done; [by apply listing_ok; vm_compute|intros; apply good_call_valid]. Qed.
Definition ex_run (w : demo_world) := demo_run 0 w dyn (Call_LoadPlugins 77).

Example C59_unknown_case : next_call dyn [] None (api_prog dyn (Call_LoadPlugins 77)) (fst (ex_run world_no_a)) (Err (EUnknownDep "A" "b")).
Proof. apply demo_first; [done|apply world_no_a_ok|vm_compute; reflexivity]. Qed.
Example C59_shape_case : next_call dyn [] None (api_prog dyn (Call_LoadPlugins 77)) (fst (ex_run (world_ex (Some (val_export 5)) None (fun _ => true)))) (Err (EImportShape "b")).
Proof. apply demo_first; [done| |vm_compute; reflexivity]. apply world_ex_ok. repeat constructor; intros; vm_compute; done. Qed.
Definition imp_anon : iface := Some (GV (TPtr 301 (TStruct 302 [SField "A" "" true true (ty_export 1)])) false 1 None).
Example C59_anonymous_case : next_call dyn [] None (api_prog dyn (Call_LoadPlugins 77)) (fst (ex_run (world_ex imp_anon None (fun _ => true)))) (Err (EAnonField "A" "b")).
Proof. apply demo_first; [done| |vm_compute; reflexivity]. apply world_ex_ok. repeat constructor; intros; vm_compute; done. Qed.
Example C59_not_reloadable_case : next_call dyn [] None (api_prog dyn (Call_LoadPlugins 77))
  (fst (ex_run (world_ex (imports "b") None (fun n => negb (String.eqb n "b"))))) (Err (ENotReloadableDep "b" "a")).
Proof. apply demo_first; [done| |vm_compute; reflexivity]. apply world_ex_ok. apply (good_call_valid (fun _ => true) RImport (mkCallee 0%N "b" 0%N 0%N)). Qed.
Example C59_not_assignable_case : next_call dyn [] None (api_prog dyn (Call_LoadPlugins 77))
  (fst (ex_run (world_ex (imports "b") (Some (val_export 7)) (fun _ => true)))) (Err (ENotAssignable "a" "b" "A")).
Proof. apply demo_first; [done| |vm_compute; reflexivity]. apply world_ex_ok. apply (good_call_valid (fun _ => true) RImport (mkCallee 0%N "b" 0%N 0%N)). Qed.
Example C59_rebuilt_case : next_call dyn t0 (Some m0) (api_prog dyn (Call_Reload 7 None)) t_rebuilt (Err (ERebuilt "b" "c")) /\ distinct_registrations dyn.
Proof. split; [apply C11_rebuilt_case|by apply distinct_dynamic]. Qed.
Print Assumptions C59_dependency_errors_are_true.
Print Assumptions C59_no_other_errors.
Print Assumptions C59_not_a_directory.
Print Assumptions C59_empty_directory_name.
