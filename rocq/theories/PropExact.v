(** C55, C70: a load in an environment where nothing fails succeeds exactly when the rules are obeyed, and so its verdict is reproducible *)
From Verif Require Export RuleExact PropRules.

Section Proofs.
Context {E : GoEnv}.

Lemma tc_first {A} (R : A -> A -> Prop) a b : tc R a b -> exists c, R a c.
Proof. by destruct 1; eauto. Qed.

Section W.
Context (D : string -> described) (entries : list (string * bool)) (content : string -> string).
Notation W := (Forall (well_behaved D entries content)).

Lemma file_run_rules o h cur dir data cbs t d : o_static o = None -> history o h cur -> fresh_objects h -> valid_listing entries ->
  (forall x, saw_current t x -> x = cur) -> W t ->
  file_run o (map (path_join dir) (plugin_files (o_whitelist o) entries)) data cbs t (Val d) ->
  rules D (kept_among cur content (plugin_files (o_whitelist o) entries)) (names_of (plugin_files (o_whitelist o) entries)) /\
  NoDup (names_of (plugin_files (o_whitelist o) entries)) /\
  (forall f, f ∈ plugin_files (o_whitelist o) entries -> to_lower (plugin_of f) = plugin_of f \/ kept_for cur content f <> None).
Proof.
  intros Hst HH HF HV Hsaw HW Hrun. inversion Hrun as [| | |old tn s tl new Hmd Hh Hp Hok Ht]. subst. clear Hrun.
  assert (old = cur) as -> by (apply Hsaw; left).
  apply Forall_cons in HW as [_ HW]. apply Forall_app in HW as [_ HW]. apply Forall_app in HW as [HW _].
  destruct Hok as (t1 & t2 & s1 & -> & Hg & Hl). apply Forall_app in HW as [HW1 HW2]. destruct Hmd as (Hb & _).
  destruct (gathered_facts _ _ _ _ _ Hb Hg) as (G0 & G1 & G2 & _). apply (gathered_view D entries content o h cur dir) in Hg as (Hg & Hnd & Hlo); try done.
  split; [by eapply lifecycle_rules|done].
Qed.
End W.

(** ** C55 *)
(** In an environment where nothing fails, a load succeeds if and only if the files obey the rules for files (no two names equal up
    to case, none with capitals unless its plugin is kept, a whitelist without duplicates of names that have a file), and the plugins
    obey the rules for plugins. *)
Theorem C55_load_succeeds_exactly_when o h cur a t r D entries content :
  next_call o h cur (api_prog o a) t r -> o_static o = None ->
  Forall (well_behaved D entries content) t ->
  (exists details, r = Val details) <->
  (file_rules cur content (o_whitelist o) entries /\
   rules D (kept_among cur content (plugin_files (o_whitelist o) entries)) (names_of (plugin_files (o_whitelist o) entries))).
Proof.
  intros Hn Hst HW. split.
  2:{ intros [Hfr HR]. destruct (C55_well_behaved_load_succeeds o h cur a t r D entries content Hn Hst HW Hfr HR) as [(_ & -> & _)|(d & m & -> & _)]; eauto. }
  intros [d ->]. destruct (next_dir _ _ _ _ _ _ Hn Hst) as (tb & add & Ht & Hrun & _).
  assert (HWb : Forall (well_behaved D entries content) tb). { rewrite Ht in HW. apply Forall_cons in HW as [_ HW]. by apply Forall_app in HW as [HW _]. }
  destruct (good_listed D entries content _ _ _ _ _ Hrun HWb) as [dir Hd].
  assert (Hd' : listed t dir entries). { unfold listed. rewrite Ht. right. apply elem_of_app. by left. }
  destruct (listed_run _ _ _ _ _ _ _ _ Hn Hst Hd') as (HV & [(_ & _ & _ & _ & Hr)|[(Hg & Hnil & _)|(Hg & Hne & ta & tl & tz & -> & _ & _ & Hfr)]]); [done| |].
  - split. { unfold file_rules. rewrite Hnil. split_and!; [constructor|by intros f Hf; apply elem_of_nil in Hf|intros Hw; by destruct Hg]. } rewrite Hnil. constructor; cbn; [by intros n Hn'; apply elem_of_nil in Hn'|by intros n p dd Hn'; apply elem_of_nil in Hn'| |constructor|constructor].
    intros n Hc. assert (exists b, needs D (kept_among cur content []) [] n b) as (b & Hb & _); [|by apply elem_of_nil in Hb].
    by eapply tc_first.
  - pose proof Hn as (HH & _ & _ & Hsaw & Hfresh).
    assert (Hf2 : fresh_objects h). { unfold fresh_objects in *. rewrite created_app in Hfresh. by apply NoDup_app in Hfresh as (? & _). }
    apply Forall_app in HW as [_ HW]. apply Forall_app in HW as [HW _].
    destruct (file_run_rules D entries content o h cur dir (api_data a) (api_cbs o a) tl d) as (HR & Hnd & Hlo); try done.
    { intros x Hx. apply Hsaw. apply elem_of_app. right. apply elem_of_app. by left. }
    split; [|exact HR]. split_and!; [done|done|]. intros Hw. by destruct Hg.
Qed.

(** ** C70 *)
(** Two loads, by the same kind of call or by different ones, at different times, with different histories, different data,
    callbacks, answers of the clock and orders of map iterations - only the options, the current manager, the directory,
    its files and the answers of the plugins are the same: both succeed or both fail. *)
Theorem C70_same_plugins_same_verdict o cur h a t r h' a' t' r' D entries content :
  o_static o = None ->
  next_call o h cur (api_prog o a) t r -> Forall (well_behaved D entries content) t ->
  next_call o h' cur (api_prog o a') t' r' -> Forall (well_behaved D entries content) t' ->
  (exists details, r = Val details) <-> (exists details, r' = Val details).
Proof.
  intros Hst HN HW HN' HW'.
  rewrite (C55_load_succeeds_exactly_when o h cur a t r D entries content HN Hst HW).
  rewrite (C55_load_succeeds_exactly_when o h' cur a' t' r' D entries content HN' Hst HW'). done.
Qed.

(** [p] and [p'] are made from the same bytes, and look the same to the outside: name, checksum, note, dependencies, exported value,
    reloadability, and the values their import fields received. *)
Definition equivalent (p p' : plugin) : Prop :=
  pl_name p = pl_name p' /\ pl_sha1 p = pl_sha1 p' /\ pl_note p = pl_note p' /\ pl_deps p = pl_deps p' /\ pl_exported p = pl_exported p' /\
  pl_reloadable p = pl_reloadable p' /\ pl_imports p = pl_imports p'.

Section Two.
Context (D : string -> described) (entries : list (string * bool)) (content : string -> string).
Notation W := (Forall (well_behaved D entries content)).

Lemma good_listed_call o h cur a t r : next_call o h cur (api_prog o a) t r -> o_static o = None -> W t -> exists dir, listed t dir entries.
Proof.
  intros Hn Hst HW. destruct (next_dir _ _ _ _ _ _ Hn Hst) as (tb & add & Ht & Hrun & _).
  assert (HWb : W tb). { rewrite Ht in HW. apply Forall_cons in HW as [_ HW]. by apply Forall_app in HW as [HW _]. }
  destruct (good_listed D entries content _ _ _ _ _ Hrun HWb) as [dir Hd]. exists dir. unfold listed. rewrite Ht. right. apply elem_of_app. by left.
Qed.

(** the plugin of a file *)
Lemma plugin_from o h cur a t r m n p : next_call o h cur (api_prog o a) t r -> o_static o = None -> W t -> published t m ->
  FindPlugin m n = Some p ->
  pl_name p = to_lower n /\ exists f, f ∈ plugin_files (o_whitelist o) entries /\ same_name (plugin_of f) n /\
  match plugin_of_current cur n with
  | Some q => if negb (pl_reloadable q) then same_plugin p q /\ pl_note p = "not reloadable"
              else if String.eqb (sha1 (content f)) (pl_sha1 q) then same_plugin p q /\ pl_note p = "unchanged"
              else pl_inst p ∈ created t /\ pl_note p = "" /\ pl_sha1 p = sha1 (content f)
  | None => pl_inst p ∈ created t /\ pl_note p = "" /\ pl_sha1 p = sha1 (content f)
  end.
Proof.
  intros Hn Hst HW Hpub Hp. destruct (good_listed_call _ _ _ _ _ _ Hn Hst HW) as [dir Hl].
  destruct (pub_ready _ _ _ _ _ _ _ Hn Hpub) as [Hk (_ & _ & _ & Hperm & _)].
  assert (Hh : holds m p) by (eapply elem_Plugins; [exact Hperm|exact Hp]).
  destruct (C26_loads_exactly_the_plugin_files _ _ _ _ _ _ _ _ _ Hn Hst Hpub Hl) as [_ HP]. destruct (listed_run _ _ _ _ _ _ _ _ Hn Hst Hl) as [HV _].
  assert (Hin : pl_name p ∈ map pl_name (Plugins m)) by by apply elem_of_list_fmap_1. rewrite HP in Hin.
  apply elem_of_list_fmap in Hin as (f & Hf & Hin). pose proof (Hk _ _ Hp) as Hkp. unfold name2key in Hkp.
  assert (Hnm : pl_name p = to_lower n). { rewrite <- Hkp, Hf. by rewrite to_lower_idem. }
  split; [done|]. exists f. assert (Hs : to_lower (plugin_of f) = to_lower n) by congruence. split_and!; [done|exact Hs|].
  destruct (C13_keep_or_replace _ _ _ _ _ _ _ _ _ _ Hn Hst Hpub Hl Hin) as (c & p0 & Hrd & Hp0 & Hc).
  assert (p0 = p) as ->. { unfold FindPlugin, name2key in Hp, Hp0. rewrite Hs in Hp0. congruence. }
  rewrite Forall_forall in HW. pose proof (HW _ Hrd) as Hcc. cbn in Hcc. injection Hcc as ->.
  rewrite path_base_join in Hc.
  2,3: apply elem_plugin_files in Hin as (He & _); destruct HV as [_ HV]; rewrite Forall_forall in HV; by apply (HV _ He).
  assert (plugin_of_current cur (plugin_of f) = plugin_of_current cur n) as Hcn.
  { unfold plugin_of_current, FindPlugin, name2key. by rewrite Hs. }
  rewrite Hcn in Hc. unfold made_from in Hc. destruct (plugin_of_current cur n) as [q|]; [|tauto]. destruct (negb _); [done|]. destruct (String.eqb _ _); tauto.
Qed.

Lemma same_base o cur h a t r m h' a' t' r' m' n p : o_static o = None ->
  next_call o h cur (api_prog o a) t r -> W t -> published t m -> next_call o h' cur (api_prog o a') t' r' -> W t' -> published t' m' ->
  FindPlugin m n = Some p -> exists p', FindPlugin m' n = Some p' /\ pl_name p = pl_name p' /\ pl_sha1 p = pl_sha1 p' /\ pl_note p = pl_note p' /\
    pl_exported p = pl_exported p' /\ pl_reloadable p = pl_reloadable p' /\
    ((exists q, same_plugin p q /\ same_plugin p' q) \/
     exists imp, wired_to m p imp /\ wired_to m' p' imp).
Proof.
  intros Hst HN HW HP HN' HW' HP' Hp. destruct (plugin_from _ _ _ _ _ _ _ _ _ HN Hst HW HP Hp) as (Hnm & f & Hf & Hsn & Hc).
  destruct (good_listed_call _ _ _ _ _ _ HN' Hst HW') as [dir' Hl'].
  destruct (C13_keep_or_replace _ _ _ _ _ _ _ _ _ _ HN' Hst HP' Hl' Hf) as (c' & p' & _ & Hp' & _).
  assert (Hp2 : FindPlugin m' n = Some p') by (unfold FindPlugin, name2key in *; by rewrite <- Hsn). clear Hp' c'.
  destruct (plugin_from _ _ _ _ _ _ _ _ _ HN' Hst HW' HP' Hp2) as (Hnm' & f' & Hf' & Hsn' & Hc').
  assert (f' = f) as ->.
  { destruct (good_listed_call _ _ _ _ _ _ HN Hst HW) as [dir Hl]. destruct (pub_ready _ _ _ _ _ _ _ HN HP) as [_ (_ & _ & _ & Hperm & _)].
    destruct (C26_loads_exactly_the_plugin_files _ _ _ _ _ _ _ _ _ HN Hst HP Hl) as [_ HPm].
    assert (HND : NoDup (map pl_name (Plugins m))).
    { destruct (C01_plugins_in_dependency_order _ _ _ _ _ _ _ HN HP) as (HC & _). 
      apply (NoDup_fmap_1 to_lower). change (to_lower <$> map pl_name (Plugins m)) with (map to_lower (map pl_name (Plugins m))). rewrite map_map.
      destruct (pub_ready _ _ _ _ _ _ _ HN HP) as [Hk _].
      assert (Hkk : forall l, (forall k, k ∈ l -> is_Some (pm_map m !! k)) -> map (fun p => to_lower (pl_name p)) (plugins_of (pm_map m) l) = l).
      { induction l as [|k l IH]; intros Hl0; [done|]. cbn [plugins_of]. destruct (Hl0 k) as [q Hq]; [left|]. rewrite Hq. cbn [map].
        rewrite IH by (intros k' Hk'; apply Hl0; by right). f_equal. exact (Hk _ _ Hq). }
      unfold Plugins. rewrite Hkk; [rewrite Hperm; apply map_keys_nodup|]. intros k Hin. apply map_keys_elem. by rewrite <- Hperm. }
    rewrite HPm in HND. eapply (nodup_map_inj (fun f => to_lower (plugin_of f))); [exact HND|done|done|]. unfold same_name in *. congruence. }
  exists p'. split; [done|].
  assert (Hnew : pl_inst p ∈ created t /\ pl_note p = "" /\ pl_sha1 p = sha1 (content f) -> pl_inst p' ∈ created t' /\ pl_note p' = "" /\ pl_sha1 p' = sha1 (content f) ->
     pl_name p = pl_name p' /\ pl_sha1 p = pl_sha1 p' /\ pl_note p = pl_note p' /\ pl_exported p = pl_exported p' /\ pl_reloadable p = pl_reloadable p' /\
     ((exists q, same_plugin p q /\ same_plugin p' q) \/ exists imp, wired_to m p imp /\ wired_to m' p' imp)).
  { intros (C1 & N1 & S1) (C2 & N2 & S2).
    assert (B1 : born (pm_id m) t m p).
    { destruct (pub_ready _ _ _ _ _ _ _ HN HP) as [_ (_ & _ & _ & Hperm & _)]. assert (Hh : holds m p) by (by eapply elem_Plugins).
      by destruct (published_plugins _ _ _ _ _ _ _ _ HN HP Hh) as [[_ ?]|(_ & _ & ? & _)]. }
    assert (B2 : born (pm_id m') t' m' p').
    { destruct (pub_ready _ _ _ _ _ _ _ HN' HP') as [_ (_ & _ & _ & Hperm & _)]. assert (Hh : holds m' p') by (by eapply elem_Plugins).
      by destruct (published_plugins _ _ _ _ _ _ _ _ HN' HP' Hh) as [[_ ?]|(_ & _ & ? & _)]. }
    destruct B1 as (_ & R1 & E1 & (i1 & I1 & W1) & _). destruct B2 as (_ & R2 & E2 & (i2 & I2 & W2) & _).
    assert (Hnn : pl_name p = pl_name p') by congruence.
    apply (good_answered D entries content) in R1, E1, I1; [|done..]. apply (good_answered D entries content) in R2, E2, I2; [|done..].
    cbn in R1, E1, I1, R2, E2, I2. injection R1 as R1. injection E1 as E1. injection I1 as I1. injection R2 as R2. injection E2 as E2. injection I2 as I2.
    rewrite <- Hnn in R2, E2, I2. split_and!; [done|congruence|congruence|congruence|congruence|]. right. exists i1. split; [done|]. by replace i1 with i2 by congruence. }
  assert (Hold : forall q, same_plugin p q -> same_plugin p' q -> pl_note p = pl_note p' ->
     pl_name p = pl_name p' /\ pl_sha1 p = pl_sha1 p' /\ pl_note p = pl_note p' /\ pl_exported p = pl_exported p' /\ pl_reloadable p = pl_reloadable p' /\
     ((exists q, same_plugin p q /\ same_plugin p' q) \/ exists imp, wired_to m p imp /\ wired_to m' p' imp)).
  { intros q S1 S2 Hno. pose proof S1 as (A1 & _ & A3 & _ & _ & _ & _ & _ & A9 & A10 & _). pose proof S2 as (Z1 & _ & Z3 & _ & _ & _ & _ & _ & Z9 & Z10 & _).
    split_and!; [congruence..|]. left. eauto. }
  destruct (plugin_of_current cur n) as [q|]; [|by apply Hnew].
  destruct (negb (pl_reloadable q)); [|destruct (String.eqb (sha1 (content f)) (pl_sha1 q)); [|by apply Hnew]];
    destruct Hc as [S1 N1], Hc' as [S2 N2]; apply (Hold q); [done|done|congruence|done|done|congruence].
Qed.

Lemma equal_wires m m' p p' imp :
  (forall n q, FindPlugin m n = Some q -> exists q', FindPlugin m' n = Some q' /\ pl_name q = pl_name q' /\ pl_exported q = pl_exported q') ->
  wired_to m p imp -> wired_to m' p' imp -> pl_deps p = pl_deps p' /\ pl_imports p = pl_imports p'.
Proof.
  intros Hb (fs & qs & F1 & Q1 & -> & ->) (fs' & qs' & F2 & Q2 & -> & ->). rewrite F1 in F2. injection F2 as <-. clear F1.
  revert qs' Q2. induction Q1 as [|f q fs qs (Hq & _) _ IH]; intros qs' Q2; inversion Q2 as [|? q' ? qs2 (Hq' & _) Q2']; subst; [done|].
  destruct (IH _ Q2') as [I1 I2]. destruct (Hb _ _ Hq) as (q2 & Hq2 & N & X). assert (q2 = q') as -> by congruence.
  cbn [map zip_with omap list_omap]. split; [by rewrite N, I1|]. assert (field_value f q = field_value f q') as -> by (unfold field_value; by rewrite X).
  destruct (field_value f q'); [by rewrite I2|exact I2].
Qed.

End Two.
Lemma same_tables D entries content entries' content' o cur h a t r m h' cur' a' t' r' m' :
  next_call o h cur (api_prog o a) t r -> Forall (well_behaved D entries content) t -> published t m -> next_call o h' cur' (api_prog o a') t' r' -> Forall (well_behaved D entries' content') t' -> published t' m' ->
  (forall x, x ∈ map pl_name (Plugins m) <-> x ∈ map pl_name (Plugins m')) ->
  pm_livefuncs m = pm_livefuncs m' /\ pm_livetypes m = pm_livetypes m'.
Proof.
  intros HN HW HP HN' HW' HP' Hn.
    destruct (C15_live_tables _ _ _ _ _ _ _ HN HP) as (fs & ts & F1 & [_ U1] & F2 & [_ U2]).
    destruct (C15_live_tables _ _ _ _ _ _ _ HN' HP') as (fs' & ts' & F1' & [_ U1'] & F2' & [_ U2']).
    assert (Htab : forall (f : described -> list (string * N)) m fs l, Forall2 (fun q l => l = f (D (pl_name q))) (Plugins m) fs ->
       l ∈ fs <-> exists x, x ∈ map pl_name (Plugins m) /\ l = f (D x)).
    { clear. intros f m fs l HF. induction HF as [|q l0 ps ls -> _ IH]; [split; [intros H|intros (x & H & _)]; by apply elem_of_nil in H|].
      cbn [map]. rewrite elem_of_cons, IH. split.
      - intros [-> |(x & ? & ->)]; [exists (pl_name q); split; [left|done]|exists x; split; [by right|done]].
      - intros (x & Hx & ->). apply elem_of_cons in Hx as [-> |Hx]; [by left|right; eauto]. }
    assert (G1 : forall entries content m t fs, Forall (well_behaved D entries content) t -> Forall2 (fun q l => answered RLiveFuncs (pm_id m) ArgNone q (Val (Some l)) t) (Plugins m) fs ->
       Forall2 (fun q l => l = d_funcs (D (pl_name q))) (Plugins m) fs).
    { clear. intros en co m t fs HW HF. eapply Forall2_impl; [exact HF|]. intros q l Ha. apply (good_answered D en co) in Ha; [|done]. cbn in Ha. by injection Ha as ->. }
    assert (G2 : forall entries content m t fs, Forall (well_behaved D entries content) t -> Forall2 (fun q l => answered RLiveTypes (pm_id m) ArgNone q (Val (Some l)) t) (Plugins m) fs ->
       Forall2 (fun q l => l = d_types (D (pl_name q))) (Plugins m) fs).
    { clear. intros en co m t fs HW HF. eapply Forall2_impl; [exact HF|]. intros q l Ha. apply (good_answered D en co) in Ha; [|done]. cbn in Ha. by injection Ha as ->. }
    apply (G1 _ _ _ _ _ HW) in F1. apply (G1 _ _ _ _ _ HW') in F1'. apply (G2 _ _ _ _ _ HW) in F2. apply (G2 _ _ _ _ _ HW') in F2'.  split; apply map_eq; intros n; apply option_eq; intros v.
    + rewrite U1, U1'. split; intros (l & Hl & Hv); exists l; (split; [|done]); [apply (Htab _ _ _ _ F1) in Hl as (x & Hx & ->)|apply (Htab _ _ _ _ F1') in Hl as (x & Hx & ->)].
      * apply (Htab _ _ _ _ F1'). exists x. split; [by apply Hn|done].
      * apply (Htab _ _ _ _ F1). exists x. split; [by apply Hn|done].
    + rewrite U2, U2'. split; intros (l & Hl & Hv); exists l; (split; [|done]); [apply (Htab _ _ _ _ F2) in Hl as (x & Hx & ->)|apply (Htab _ _ _ _ F2') in Hl as (x & Hx & ->)].
      * apply (Htab _ _ _ _ F2'). exists x. split; [by apply Hn|done].
      * apply (Htab _ _ _ _ F2). exists x. split; [by apply Hn|done].
Qed.

(** If they succeed the new managers are the same as far as the plugins can tell: for each plugin of one there is an equivalent
    plugin in the other, and the live functions and types are the same. *)
Theorem C70_same_plugins_same_manager o cur h a t r m h' a' t' r' m' D entries content :
  o_static o = None ->
  next_call o h cur (api_prog o a) t r -> Forall (well_behaved D entries content) t -> published t m ->
  next_call o h' cur (api_prog o a') t' r' -> Forall (well_behaved D entries content) t' -> published t' m' ->
  (forall n p, FindPlugin m n = Some p -> exists p', FindPlugin m' n = Some p' /\ equivalent p p') /\
  pm_livefuncs m = pm_livefuncs m' /\ pm_livetypes m = pm_livetypes m'.
Proof.
  intros Hst HN HW HP HN' HW' HP'. split.
  - intros n p Hp. destruct (same_base D entries content _ _ _ _ _ _ _ _ _ _ _ _ _ _ Hst HN HW HP HN' HW' HP' Hp) as (p' & Hp' & H1 & H2 & H3 & H4 & H5 & Hc).
    exists p'. split; [done|]. assert (pl_deps p = pl_deps p' /\ pl_imports p = pl_imports p') as [H6 H7]; [|by split_and!].
    destruct Hc as [(q & (_ & _ & _ & _ & _ & _ & A1 & _ & _ & _ & A2) & (_ & _ & _ & _ & _ & _ & B1 & _ & _ & _ & B2))|(imp & W1 & W2)]; [split; congruence|].
    eapply equal_wires; [|done|done]. intros n0 q Hq.
    destruct (same_base D entries content _ _ _ _ _ _ _ _ _ _ _ _ _ _ Hst HN HW HP HN' HW' HP' Hq) as (q' & ? & ? & _ & _ & ? & _). eauto.
  - assert (Hn : forall x, x ∈ map pl_name (Plugins m) <-> x ∈ map pl_name (Plugins m')).
    { destruct (good_listed_call D entries content _ _ _ _ _ _ HN Hst HW) as [dir Hl]. destruct (good_listed_call D entries content _ _ _ _ _ _ HN' Hst HW') as [dir' Hl'].
      destruct (C26_loads_exactly_the_plugin_files _ _ _ _ _ _ _ _ _ HN Hst HP Hl) as [_ P1].
      destruct (C26_loads_exactly_the_plugin_files _ _ _ _ _ _ _ _ _ HN' Hst HP' Hl') as [_ P2]. intros x. by rewrite P1, P2. }
    by apply (same_tables D entries content entries content o cur h a t r m h' cur a' t' r' m').
Qed.

(** ** Static mode *)
(** [names]: the names of the plugins registered (of those on the whitelist, if there is one; of names that differ in case only the last).  In an environment where nothing
    fails the load succeeds if and only if every name of the whitelist is registered, every registration taken is complete, and the
    plugins obey the rules. *)
Theorem C55_static_load_succeeds_exactly_when o st h cur data t r D entries content names :
  next_call o h cur (api_prog o (Call_LoadPlugins data)) t r -> o_static o = Some st ->
  Forall (well_behaved D entries content) t ->
  NoDup names -> (forall x, x ∈ names <-> exists n sp, registered o st n sp /\ sp_name sp = x) ->
  (exists details, r = Val details) <->
  (forall n, n ∈ o_whitelist o -> st !! n <> None) /\
  (forall n osp, o_whitelist o = [] \/ n ∈ o_whitelist o -> st !! n = Some osp ->
     exists sp, osp = Some sp /\ forall rl, get_func rl (sp_funcs sp) <> None) /\
  rules D (fun _ => None) names.
Proof.
  intros Hn Hst HW Hnd Hnames. split.
  2:{ intros (H1 & H2 & H3). destruct (C55_well_behaved_static_load_succeeds o st h cur data t r D entries content names Hn Hst HW H1 H2 Hnd Hnames H3) as (d & m & -> & _). eauto. }
  intros [d ->]. destruct (next_static _ _ _ _ _ _ _ Hn Hst) as [(data' & tb & [= <-] & Ht & Hrun)|(? & ? & [=] & _)].
  rewrite Ht in HW. apply Forall_cons in HW as [_ HWb]. apply Forall_app in HWb as [HWb _].
  inversion Hrun as [| | | |tn s sel tl new Hm Hh Hsel Hal Hp Hok Hq]. subst. clear Hrun.
  assert (Hsl : forall n, sel !! n = if decide (taken o n) then st !! n else None) by (intros n; exact (selected_lookup _ _ _ _ Hsel)).
  apply Forall_app in HWb as [_ HWb]. apply Forall_app in HWb as [HWb _]. destruct Hok as (t1 & t2 & s1 & -> & Hg & Hl).
  apply Forall_app in HWb as [HW1 HW2]. destruct Hm as (Hb & _). destruct (sgathered_facts _ _ _ _ Hb Hg) as (G0 & G1 & G2 & _).
  assert (Hfull : forall n osp, sel !! n = Some osp -> exists sp, osp = Some sp /\ forall rl, get_func rl (sp_funcs sp) <> None).
  { intros n osp Hl0. destruct Hg as (now & ps & ts & Hall & _).
    assert (Hin : n ∈ sort_strings (map_keys sel)) by (apply elem_of_sort_strings, map_keys_elem; eauto).
    clear -Hall Hin Hl0. induction Hall as [|x q tq ns ps ts Hq _ IH]; [by apply elem_of_nil in Hin|].
    apply elem_of_cons in Hin as [<- |Hin]; [|by apply IH]. destruct Hq as (sp & c1 & c2 & Hsp & _ & Hf & _). exists sp. split; [congruence|done]. }
  split_and!; [done| |].
  - intros n osp Htk Hs. apply (Hfull n). rewrite Hsl. by rewrite decide_True.
  - eapply lifecycle_rules; [exact HW2| |done..|exact Hl].
    eapply (sgathered_view D entries content sel names); [exact Hnd| |exact Hg|exact HW1].
    intros x. rewrite Hnames. by apply registered_selected.
Qed.
(** Two loads in static mode of the same registrations with the same whitelist, whatever the histories, data, callbacks, clock and
    orders of map iterations: both succeed or both fail. *)
Lemma registered_names o st : exists names, NoDup names /\ forall x, x ∈ names <-> exists n sp, registered o st n sp /\ sp_name sp = x.
Proof.
  set (last := fun n sp => forall n' sp', taken o n' -> st !! n' = Some (Some sp') -> same_name (sp_name sp') (sp_name sp) -> str_le n' n).
  assert (Hdec : forall n sp, Decision (last n sp)).
  { intros n sp.
    set (P := fun n' osp => match osp with Some sp' => taken o n' -> to_lower (sp_name sp') = to_lower (sp_name sp) -> str_le n' n | None => True end : Prop).
    assert (Hd : forall n' osp, Decision (P n' osp)) by (intros n' [sp'|]; unfold P, taken; apply _).
    destruct (decide (map_Forall P st)) as [H|H].
    - left. intros n' sp' Ht Hn' Hs. exact (H n' (Some sp') Hn' Ht Hs).
    - right. intros Hl. apply H. intros n' [sp'|] Hn'; [|done]. intros Ht Hs. by apply (Hl n' sp'). }
  exists (remove_dups (omap (fun x => match snd x with Some sp => if decide (taken o (fst x)) then if Hdec (fst x) sp then Some (sp_name sp) else None else None | None => None end) (map_to_list st))).
  split; [apply NoDup_remove_dups|]. intros x. rewrite elem_of_remove_dups, elem_of_list_omap. split.
  - intros ([n [sp|]] & Hin & Hx); [|done]. cbn in Hx. apply elem_of_map_to_list in Hin. destruct (decide (taken o n)); [|done].
    destruct (Hdec n sp); [|done]. injection Hx as <-. exists n, sp. by split_and!.
  - intros (n & sp & (H1 & H2 & H3) & <-). exists (n, Some sp). split; [by apply elem_of_map_to_list|]. cbn. rewrite decide_True by done.
    by destruct (Hdec n sp).
Qed.
Theorem C70_static_same_verdict o st cur h data t r h' cur' data' t' r' D entries content entries' content' :
  o_static o = Some st ->
  next_call o h cur (api_prog o (Call_LoadPlugins data)) t r -> Forall (well_behaved D entries content) t ->
  next_call o h' cur' (api_prog o (Call_LoadPlugins data')) t' r' -> Forall (well_behaved D entries' content') t' ->
  (exists details, r = Val details) <-> (exists details, r' = Val details).
Proof.
  intros Hst HN HW HN' HW'. destruct (registered_names o st) as (names & Hnd & Hnames).
  rewrite (C55_static_load_succeeds_exactly_when o st h cur data t r D entries content names HN Hst HW Hnd Hnames).
  by rewrite (C55_static_load_succeeds_exactly_when o st h' cur' data' t' r' D entries' content' names HN' Hst HW' Hnd Hnames).
Qed.

Lemma static_base o st cur h a t r m h' cur' a' t' r' m' D entries content entries' content' n p : o_static o = Some st ->
  next_call o h cur (api_prog o a) t r -> Forall (well_behaved D entries content) t -> published t m ->
  next_call o h' cur' (api_prog o a') t' r' -> Forall (well_behaved D entries' content') t' -> published t' m' ->
  FindPlugin m n = Some p -> exists p', FindPlugin m' n = Some p' /\ pl_name p = pl_name p' /\ pl_sha1 p = pl_sha1 p' /\ pl_note p = pl_note p' /\
    pl_exported p = pl_exported p' /\ pl_reloadable p = pl_reloadable p' /\ exists imp, wired_to m p imp /\ wired_to m' p' imp.
Proof.
  intros Hst HN HW HP HN' HW' HP' Hp.
  destruct (pub_ready _ _ _ _ _ _ _ HN HP) as [Hk (_ & _ & _ & Hperm & _)]. destruct (pub_ready _ _ _ _ _ _ _ HN' HP') as [Hk' (_ & _ & _ & Hperm' & _)].
  assert (Hh : holds m p) by (eapply elem_Plugins; [exact Hperm|exact Hp]).
  destruct (C31_static_load _ _ _ _ _ _ _ _ HN Hst HP) as (_ & _ & _ & _ & _ & A & _). destruct (C31_static_load _ _ _ _ _ _ _ _ HN' Hst HP') as (_ & _ & _ & _ & _ & A' & B').
  destruct (A p Hh) as (C1 & n1 & sp1 & T1 & S1 & N1 & _ & G1 & O1 & L1). destruct (B' n1 T1) as (spx & p' & Hspx & Hh' & Hsame); [eauto|].
  assert (spx = sp1) as -> by congruence. destruct (A' p' Hh') as (C2 & n2 & sp2 & T2 & S2 & N2 & _ & G2 & O2 & L2).
  assert (n2 = n1) as ->.
  { unfold same_name in *. apply (anti_symm str_le).
    - apply (L1 n2 sp2 T2 S2). congruence.
    - apply (L2 n1 sp1 T1 S1). congruence. }
  assert (sp2 = sp1) as -> by congruence. assert (Hnn : pl_name p = pl_name p') by congruence.
  assert (Hp' : FindPlugin m' n = Some p').
  { apply Plugins_lookup in Hh' as [k' Hk'2]. unfold FindPlugin in *. pose proof (Hk _ _ Hp) as K1. pose proof (Hk' _ _ Hk'2) as K2.
    rewrite <- K1, Hnn, K2. exact Hk'2. }
  exists p'. split; [done|].
  assert (B1 : born (pm_id m) t m p) by (by destruct (published_plugins _ _ _ _ _ _ _ _ HN HP Hh) as [[_ ?]|(_ & _ & ? & _)]).
  assert (B2 : born (pm_id m') t' m' p') by (by destruct (published_plugins _ _ _ _ _ _ _ _ HN' HP' Hh') as [[_ ?]|(_ & _ & ? & _)]).
  destruct B1 as (_ & R1 & E1 & (i1 & I1 & W1) & _). destruct B2 as (_ & R2 & E2 & (i2 & I2 & W2) & _).
  apply (good_answered D entries content) in R1, E1, I1; [|done..]. apply (good_answered D entries' content') in R2, E2, I2; [|done..].
  cbn in R1, E1, I1, R2, E2, I2. injection R1 as R1. injection E1 as E1. injection I1 as I1. injection R2 as R2. injection E2 as E2. injection I2 as I2.
  rewrite <- Hnn in R2, E2, I2. split_and!; [done|congruence..|]. exists i1. split; [done|]. by replace i1 with i2 by congruence.
Qed.
(** ... and, if they succeed, the new managers are the same as far as the plugins can tell. *)
Theorem C70_static_same_manager o st cur h a t r m h' cur' a' t' r' m' D entries content entries' content' : o_static o = Some st ->
  next_call o h cur (api_prog o a) t r -> Forall (well_behaved D entries content) t -> published t m ->
  next_call o h' cur' (api_prog o a') t' r' -> Forall (well_behaved D entries' content') t' -> published t' m' ->
  (forall n p, FindPlugin m n = Some p -> exists p', FindPlugin m' n = Some p' /\ equivalent p p') /\
  pm_livefuncs m = pm_livefuncs m' /\ pm_livetypes m = pm_livetypes m'.
Proof.
  intros Hst HN HW HP HN' HW' HP'. split.
  - intros n p Hp. destruct (static_base _ _ _ _ _ _ _ _ _ _ _ _ _ _ _ _ _ _ _ _ _ Hst HN HW HP HN' HW' HP' Hp) as (p' & Hp' & H1 & H2 & H3 & H4 & H5 & imp & W1 & W2).
    exists p'. split; [done|]. assert (pl_deps p = pl_deps p' /\ pl_imports p = pl_imports p') as [H6 H7]; [|by split_and!].
    eapply equal_wires; [|done|done]. intros n0 q Hq.
    destruct (static_base _ _ _ _ _ _ _ _ _ _ _ _ _ _ _ _ _ _ _ _ _ Hst HN HW HP HN' HW' HP' Hq) as (q' & ? & ? & _ & _ & ? & _). eauto.
  - apply (same_tables D entries content entries' content' o cur h a t r m h' cur' a' t' r' m'); [done..|].
    assert (Hsub : forall h cur a t r m h' cur' a' t' r' m' entries content entries' content',
       next_call o h cur (api_prog o a) t r -> Forall (well_behaved D entries content) t -> published t m ->
       next_call o h' cur' (api_prog o a') t' r' -> Forall (well_behaved D entries' content') t' -> published t' m' ->
       forall x, x ∈ map pl_name (Plugins m) -> x ∈ map pl_name (Plugins m')).
    { clear -Hst. intros h cur a t r m h' cur' a' t' r' m' en co en' co' HN HW HP HN' HW' HP' x Hx. apply elem_of_list_fmap in Hx as (p & -> & Hh).
      destruct (pub_ready _ _ _ _ _ _ _ HN HP) as [Hk _]. destruct (pub_ready _ _ _ _ _ _ _ HN' HP') as [_ (_ & _ & _ & Hperm' & _)].
      apply Plugins_lookup in Hh as [k Hkp]. assert (Hp : FindPlugin m (pl_name p) = Some p) by (unfold FindPlugin; by rewrite (Hk _ _ Hkp)).
      destruct (static_base _ _ _ _ _ _ _ _ _ _ _ _ _ _ _ _ _ _ _ _ _ Hst HN HW HP HN' HW' HP' Hp) as (p' & Hp' & -> & _).
      apply elem_of_list_fmap_1. eapply elem_Plugins; [exact Hperm'|exact Hp']. }
    intros x. split.
    + by apply (Hsub h cur a t r m h' cur' a' t' r' m' entries content entries' content').
    + by apply (Hsub h' cur' a' t' r' m' h cur a t r m entries' content' entries content).
Qed.
End Proofs.

(** ** The hypotheses are met *)
(** The same load as C55_case with other data, no callback and other objects. *)
Definition t1' := fst (demo_run 9 world1 dyn (Call_Reload 11 None)).
Definition m1' : mgr := match after (Some m0) t1' with Some m => m | None => m0 end.
Lemma t1'_well : Forall (well_behaved D_abc entries_abc content1) t1'.
Proof.
  apply demo_well_all.
  - exact (demo_well 9 world1 content1 (ReloadWithCallback dyn 11 None) eq_refl eq_refl eq_refl eq_refl eq_refl eq_refl eq_refl []).
  - replace (omap reads_file t1') with [("/p/a.so", Val "a2"); ("/p/b.so", Val "/p/b.so"); ("/p/c.so", Val "c2")] by (vm_compute; reflexivity).
    repeat constructor.
Qed.
Example C70_case : next_call dyn t0 (Some m0) (api_prog dyn (Call_Reload 78 (Some 5%N))) t1 (snd run1) /\
  next_call dyn t0 (Some m0) (api_prog dyn (Call_Reload 11 None)) t1' (snd (demo_run 9 world1 dyn (Call_Reload 11 None))) /\
  Forall (well_behaved D_abc entries_abc content1) t1 /\ Forall (well_behaved D_abc entries_abc content1) t1' /\
  map pl_inst (Plugins m1) = [1; 2; 4]%N /\ map pl_inst (Plugins m1') = [1; 2; 10]%N /\
  map pl_note (Plugins m1') = ["not reloadable"; "unchanged"; ""].
Proof.
  split_and!; [apply second_load| |apply t1_well|apply t1'_well|vm_compute; reflexivity..].
  apply demo_next; [apply history0|done|apply fresh0| |apply world1_ok].
  assert (Hc : created t0 = [1; 2; 3]%N) by apply run0_ok. intros i. rewrite Hc. rewrite !elem_of_cons, elem_of_nil. lia.
Qed.
(** Static mode: loads of two programs, the second with other data, in another environment. *)
Definition world_again : demo_world := match world0 with mkDemo c d l n _ cl cb e s op => mkDemo c d l n 7 cl cb e s op end.
Lemma world_again_ok : demo_ok world_again.
Proof. split_and!; try done; [apply world_listing|intros; apply good_call_valid]. Qed.
Definition t_stat' := fst (demo_run 0 world_again stat (Call_LoadPlugins 2)).
Lemma t_stat'_well : Forall (well_behaved D_abc entries_abc content1) t_stat'.
Proof.
  apply demo_well_all.
  - exact (demo_well 0 world_again content1 (LoadPlugins stat 2) eq_refl eq_refl eq_refl eq_refl eq_refl eq_refl eq_refl []).
  - replace (omap reads_file t_stat') with (@nil (string * outcome string)) by (vm_compute; reflexivity). constructor.
Qed.
Example C70_static_case : o_static stat = Some statics_abc /\
  next_call stat [] None (api_prog stat (Call_LoadPlugins 1)) t_stat (snd (demo_run 0 world0 stat (Call_LoadPlugins 1))) /\
  next_call stat [] None (api_prog stat (Call_LoadPlugins 2)) t_stat' (snd (demo_run 0 world_again stat (Call_LoadPlugins 2))) /\
  Forall (well_behaved D_abc entries_abc content1) t_stat /\ Forall (well_behaved D_abc entries_abc content1) t_stat' /\
  omap (fun e => match e with EvStore m => Some (map (fun p => (pl_name p, pl_inst p)) (Plugins m)) | _ => None end) t_stat = [[("a", 1%N); ("b", 2%N); ("c", 3%N)]] /\
  omap (fun e => match e with EvStore m => Some (map (fun p => (pl_name p, pl_inst p)) (Plugins m)) | _ => None end) t_stat' = [[("a", 1%N); ("b", 2%N); ("c", 3%N)]].
Proof.
  split_and!; [apply C31_case|apply C31_case|apply demo_first; [done|apply world_again_ok|vm_compute; reflexivity]|apply t_stat_well|apply t_stat'_well|vm_compute; reflexivity..].
Qed.
(** Only b is rebuilt, although c depends on b: nothing in the environment fails, the load is refused, and indeed a rule is broken. *)
Definition world_refused : demo_world := world_listing_is entries_abc world_rebuilt.
Definition content_refused (f : string) : string := if String.eqb f "b.so" then "b2" else ("/p/" +:+ f)%string.
Definition t_refused := fst (demo_run 3 world_refused dyn (Call_Reload 7 None)).
Lemma t_refused_well : Forall (well_behaved D_abc entries_abc content_refused) t_refused.
Proof.
  apply demo_well_all.
  - exact (demo_well 3 world_refused content_refused (ReloadWithCallback dyn 7 None) eq_refl eq_refl eq_refl eq_refl eq_refl eq_refl eq_refl []).
  - replace (omap reads_file t_refused) with [("/p/a.so", Val "/p/a.so"); ("/p/b.so", Val "b2"); ("/p/c.so", Val "/p/c.so")] by (vm_compute; reflexivity).
    repeat constructor.
Qed.
Example C55_refused_case : next_call dyn t0 (Some m0) (api_prog dyn (Call_Reload 7 None)) t_refused (Err (ERebuilt "b" "c")) /\
  Forall (well_behaved D_abc entries_abc content_refused) t_refused /\
  file_rules (Some m0) content_refused (o_whitelist dyn) entries_abc /\
  ~ rules D_abc (kept_among (Some m0) content_refused (plugin_files (o_whitelist dyn) entries_abc)) (names_of (plugin_files (o_whitelist dyn) entries_abc)).
Proof.
  assert (HN : next_call dyn t0 (Some m0) (api_prog dyn (Call_Reload 7 None)) t_refused (Err (ERebuilt "b" "c"))).
  { apply demo_second; [done| |vm_compute; reflexivity]. split_and!; try done; [by apply listing_ok; vm_compute|intros; apply good_call_valid]. }
  assert (HF : file_rules (Some m0) content_refused (o_whitelist dyn) entries_abc).
  { destruct C55_rules_case as [(H1 & _ & H3) _]. split_and!; [exact H1| |exact H3].
    assert (Hf : plugin_files (o_whitelist dyn) entries_abc = ["a.so"; "b.so"; "c.so"]) by (vm_compute; reflexivity). rewrite Hf.
    intros f Hin. left. rewrite !elem_of_cons, elem_of_nil in Hin. destruct Hin as [-> |[-> |[-> |[]]]]; vm_compute; reflexivity. }
  split_and!; [done|apply t_refused_well|exact HF|]. intros HR.
  destruct (proj2 (C55_load_succeeds_exactly_when _ _ _ _ _ _ D_abc entries_abc content_refused HN eq_refl t_refused_well)) as [d Hd]; [|done].
  by split.
Qed.
(** A file with a capital: A.so, for which the plugin a is kept (it is not reloadable), and the load succeeds. *)
Definition entries_upper : list (string * bool) := [("A.so", false); ("b.so", false); ("c.so", false)].
Definition world_upper : demo_world := world_listing_is entries_upper world1.
Definition run_upper := demo_run 3 world_upper dyn (Call_Reload 78 (Some 5%N)).
Example C55_capital_case : next_call dyn t0 (Some m0) (api_prog dyn (Call_Reload 78 (Some 5%N))) (fst run_upper) (Val (Some (result_of (snd run_upper)))) /\
  file_rules (Some m0) content1 (o_whitelist dyn) entries_upper /\ to_lower (plugin_of "A.so") <> plugin_of "A.so".
Proof.
  split_and!.
  - apply demo_second; [done| |vm_compute; reflexivity]. split_and!; try done; [by apply listing_ok; vm_compute|intros; apply good_call_valid].
  - assert (Hf : plugin_files (o_whitelist dyn) entries_upper = ["A.so"; "b.so"; "c.so"]) by (vm_compute; reflexivity).
    unfold file_rules. rewrite Hf. split_and!; [apply (bool_decide_unpack _); vm_compute; exact I| |by intros []].
    intros f Hin. rewrite !elem_of_cons, elem_of_nil in Hin. destruct Hin as [-> |[-> |[-> |[]]]]; [right|left; vm_compute; reflexivity..].
    assert (H : (pl_name <$> kept_for (Some m0) content1 "A.so") = Some "a") by (vm_compute; reflexivity).
    revert H. generalize (kept_for (Some m0) content1 "A.so"). intros x H ->. discriminate H.
  - vm_compute. discriminate.
Qed.
Print Assumptions C55_load_succeeds_exactly_when.
Print Assumptions C55_static_load_succeeds_exactly_when.
Print Assumptions C70_same_plugins_same_verdict.
Print Assumptions C70_same_plugins_same_manager.
Print Assumptions C70_static_same_verdict.
Print Assumptions C70_static_same_manager.
