(** C55: a load by plugins that obey the rules, in an environment where nothing fails, succeeds *)
From Verif Require Export RuleProofs ListProofs PropVault PropOrder ConcDeps PropStatic.

Section Proofs.
Context {E : GoEnv}.

Lemma good_sym_value r sym : good_symbol r sym -> exists v, sym_value r sym = Some v /\ code_of v <> None.
Proof.
  unfold good_symbol, sym_value, code_of. destruct (assignable (gv_type sym) (role_type r)).
  - intros Hn. exists sym. rewrite Hn. done.
  - intros (x & ty & f & -> & -> & Hp & Hn). exists f. rewrite Hp, Hn. done.
Qed.

Section W.
Context (D : string -> described) (entries : list (string * bool)) (content : string -> string).
Notation W := (Forall (well_behaved D entries content)).

Lemma good_lookups h ans rs : W (lookups h ans rs) -> forall r, r ∈ rs -> exists sym v, ans r = Some sym /\ sym_value r sym = Some v /\ code_of v <> None.
Proof.
  intros HW r Hr. unfold lookups in HW. rewrite Forall_map in HW. rewrite Forall_forall in HW. destruct (HW r Hr) as (v & -> & Hv).
  destruct (good_sym_value r v (Hv r eq_refl)) as (w & ? & ?). eauto.
Qed.

Lemma good_open s i t o : W t -> ~ open_error s i t o.
Proof.
  intros HW Ho. destruct Ho as [e He|e He|j e He|j x Hx|j h ans rs r rs' sym o Hrs Ha Hs _ _|j h ans r Ha _|j h ans f x t Hf Hc|j h ans f c b x t Hf _ Hc].
  - rewrite Forall_singleton in HW. done.
  - apply Forall_cons in HW as [_ HW]. rewrite Forall_singleton in HW. done.
  - unfold open_head in HW. do 3 apply Forall_cons in HW as [_ HW]. rewrite Forall_singleton in HW. by destruct HW.
  - unfold open_head in HW. do 3 apply Forall_cons in HW as [_ HW]. rewrite Forall_singleton in HW. by destruct HW.
  - apply Forall_app in HW as [_ HW]. destruct (good_lookups _ _ _ HW r) as (sy & v & Hsy & Hv & _); [apply elem_of_app; right; by left|]. congruence.
  - apply Forall_app in HW as [_ HW]. destruct (good_lookups _ _ _ HW r) as (sy & v & Hsy & Hv & _); [apply funcItems_all|]. congruence.
  - apply Forall_app in HW as [_ HW]. apply Forall_app in HW as [HL HW]. destruct Hc as [(Hn & _)|(c & _ & -> & _)].
    + destruct (Hf RReloadable) as (sy & v & H1 & H2 & H3). destruct (good_lookups _ _ _ HL RReloadable) as (sy' & v' & K1 & K2 & K3); [apply funcItems_all|]. congruence.
    + rewrite Forall_singleton in HW. done.
  - apply Forall_app in HW as [_ HW]. apply Forall_app in HW as [HL HW]. apply Forall_cons in HW as [_ HW]. destruct Hc as [(Hn & _)|(c' & _ & -> & _)].
    + destruct (Hf RExport) as (sy & v & H1 & H2 & H3). destruct (good_lookups _ _ _ HL RExport) as (sy' & v' & K1 & K2 & K3); [apply funcItems_all|]. congruence.
    + rewrite Forall_singleton in HW. done.
Qed.

Lemma good_listed o data cbs t r : dir_run o data cbs t r -> W t -> exists dir, listed t dir entries.
Proof.
  assert (Hch : forall tp files, chosen o tp files -> W tp -> exists dir, listed tp dir entries).
  { intros tp files (d1 & d2 & abs & en & fo & -> & _) HW. exists abs. do 4 apply Forall_cons in HW as [_ HW]. rewrite Forall_singleton in HW.
    cbn in HW. injection HW as ->. do 4 right. left. }
  intros [tp e Hr|tp Hc|tp files tl r0 Hc _ _] HW.
  - destruct Hr as [d1 H|d1 e H Ho|d1 H|d1 d2 e H Ho|d1 d2 abs e H Ho|d1 d2 abs en fi fo H HV HS HO].
    + rewrite Forall_singleton in HW. cbn in HW. congruence.
    + apply Forall_cons in HW as [_ HW]. rewrite Forall_singleton in HW. done.
    + apply Forall_cons in HW as [_ HW]. rewrite Forall_singleton in HW. done.
    + do 3 apply Forall_cons in HW as [_ HW]. rewrite Forall_singleton in HW. by destruct HW.
    + do 4 apply Forall_cons in HW as [_ HW]. rewrite Forall_singleton in HW. done.
    + do 4 apply Forall_cons in HW as [_ HW]. rewrite Forall_singleton in HW. cbn in HW. injection HW as ->. exists abs. do 4 right. left.
  - eauto.
  - apply Forall_app in HW as [HW _]. destruct (Hch _ _ Hc HW) as [dir Hd]. exists dir. apply elem_of_app. by left.
Qed.

Lemma good_callback cbs new old t e : W t -> ~ callback_failed cbs new old t e.
Proof.
  intros HW (c1 & cb & c2 & r & tf & _ & -> & Hr & _). apply Forall_app in HW as [_ HW]. apply Forall_cons in HW as [HW _]. cbn in HW. subst r.
  by destruct Hr as [[? _]|(x & ? & _)].
Qed.


(** the plugins of the current manager have live tables *)
Lemma kept_live o h m k q r : o_static o = None -> history o h (Some m) -> fresh_objects h -> pm_map m !! k = Some q ->
  r = RLiveFuncs \/ r = RLiveTypes -> get_func r (pl_funcs q) <> None.
Proof.
  intros Hs HH HF Hq Hr. destruct (history_sound _ _ _ Hs HH m eq_refl) as ((_ & _ & _ & Hp & _) & _).
  assert (Hin : q ∈ Plugins m) by (by eapply elem_Plugins).
  destruct (history_origin _ _ _ _ HH HF eq_refl) as (h0 & cur0 & p & t & rr & h1 & _ & HN & HP).
  destruct (C15_live_tables _ _ _ _ _ _ _ HN HP) as (fs & ts & F1 & _ & F2 & _). apply elem_of_list_lookup in Hin as [i Hi].
  destruct Hr as [-> | ->].
  - destruct (Forall2_lookup_l _ _ _ _ _ F1 Hi) as (l & _ & code & -> & _). done.
  - destruct (Forall2_lookup_l _ _ _ _ _ F2 Hi) as (l & _ & code & -> & _). done.
Qed.

Lemma key_of_file wl dir f : valid_listing entries ->
  f ∈ plugin_files wl entries -> pluginName (path_join dir f) = plugin_of f /\ file_key (path_join dir f) = to_lower (plugin_of f) /\
  path_base (path_join dir f) = f.
Proof.
  intros [_ HV] Hf. apply elem_plugin_files in Hf as (Hin & Hs & _). rewrite Forall_forall in HV.
  destruct (HV _ Hin) as [H1 H2]. cbn [fst] in *. assert (Hpn : pluginName (path_join dir f) = plugin_of f) by (by apply pluginName_join).
  split_and!; [done|unfold file_key; by rewrite Hpn|]. by rewrite path_base_join.
Qed.

Lemma file_keys_names wl dir : valid_listing entries ->
  map file_key (map (path_join dir) (plugin_files wl entries)) = names_of (plugin_files wl entries).
Proof.
  intros HV. rewrite map_map. unfold names_of. apply map_ext_in. intros f Hf. apply elem_of_list_In in Hf.
  by destruct (key_of_file wl dir f HV Hf) as (_ & ? & _).
Qed.

Lemma kept_among_file cur files f : NoDup (names_of files) -> f ∈ files ->
  kept_among cur content files (to_lower (plugin_of f)) = kept_for cur content f.
Proof.
  unfold kept_among. induction files as [|g files IH]; [intros _ H; by apply elem_of_nil in H|]. unfold names_of. cbn [map List.filter].
  intros Hnd Hf. apply NoDup_cons in Hnd as [Hg Hnd]. destruct (String.eqb_spec (to_lower (plugin_of g)) (to_lower (plugin_of f))) as [He|He].
  - apply elem_of_cons in Hf as [-> |Hf]; [done|]. exfalso. apply Hg. rewrite He. by apply (elem_of_list_fmap_1 (fun f => to_lower (plugin_of f))).
  - apply elem_of_cons in Hf as [-> |Hf]; [done|]. by apply IH.
Qed.
Lemma keep_none cur f : keep cur (to_lower (plugin_of f)) (sha1 (content f)) = None <-> kept_for cur content f = None.
Proof.
  unfold keep, kept_for, old_map. destruct cur as [m|]; [|by rewrite lookup_empty]. unfold FindPlugin, name2key.
  destruct (pm_map m !! _) as [q|]; [|done]. destruct (pl_reloadable q); cbn [negb orb]; [by destruct (String.eqb _ _)|done].
Qed.
Lemma keep_some cur f q' : keep cur (to_lower (plugin_of f)) (sha1 (content f)) = Some q' ->
  exists q note, q' = set_unchanged note q /\ kept_for cur content f = Some q /\ old_map cur !! to_lower (plugin_of f) = Some q.
Proof.
  unfold keep, kept_for, old_map. destruct cur as [m|]; [|by rewrite lookup_empty]. unfold FindPlugin, name2key.
  destruct (pm_map m !! _) as [q|]; [|done]. destruct (pl_reloadable q); cbn [negb orb].
  - destruct (String.eqb _ _); [|done]. intros [= <-]. eauto.
  - intros [= <-]. eauto.
Qed.

Lemma in_open_trace s i p h ans c1 c2 : W (open_trace s i p h ans c1 c2) ->
  (forall r, exists sym v, ans r = Some sym /\ sym_value r sym = Some v /\ code_of v <> None) /\
  pl_reloadable p = d_reloadable (D (pl_name p)) /\ pl_exported p = d_export (D (pl_name p)).
Proof.
  intros HW. unfold open_trace in HW. apply Forall_app in HW as [_ HW]. apply Forall_app in HW as [HL HW].
  apply Forall_cons in HW as [H1 HW]. rewrite Forall_singleton in HW. cbn in H1, HW. split_and!; [|congruence|congruence].
  intros r. apply (good_lookups _ _ _ HL). apply funcItems_all.
Qed.

Lemma gathered_view o h cur dir s t s1 : o_static o = None -> history o h cur -> fresh_objects h -> valid_listing entries ->
  gathered (map (path_join dir) (plugin_files (o_whitelist o) entries)) cur s t s1 -> W t ->
  view D (kept_among cur content (plugin_files (o_whitelist o) entries)) (names_of (plugin_files (o_whitelist o) entries)) s1 /\
  NoDup (names_of (plugin_files (o_whitelist o) entries)) /\
  forall f, f ∈ plugin_files (o_whitelist o) entries -> to_lower (plugin_of f) = plugin_of f \/ kept_for cur content f <> None.
Proof.
  intros Hst HH HF HV HG HW. set (wl := o_whitelist o) in *.
  apply gathered_lookup in HG as (fds & Hfds & Hnd & Hrd & Hall & Hcome). rewrite file_keys_names in Hnd by done.
  assert (Hfile : forall f d, (f, d) ∈ fds -> exists f0, f0 ∈ plugin_files wl entries /\ f = path_join dir f0 /\ d = content f0 /\
     file_key f = to_lower (plugin_of f0) /\ pluginName f = plugin_of f0).
  { intros f d Hin. assert (Hf : f ∈ map (path_join dir) (plugin_files wl entries)) by (rewrite <- Hfds; apply elem_of_list_fmap; by exists (f, d)).
    apply elem_of_list_fmap in Hf as (f0 & -> & Hf0). destruct (key_of_file wl dir f0 HV Hf0) as (K1 & K2 & K3). exists f0. split_and!; [done|done| |done|done].
    rewrite Forall_forall in HW. pose proof (HW _ (Hrd _ _ Hin)) as Hc. cbn in Hc. injection Hc as ->. by rewrite K3. }
  assert (Hlook : forall k p, pm_map s1 !! k = Some p -> exists f0, f0 ∈ plugin_files wl entries /\ k = to_lower (plugin_of f0) /\ to_lower k = k /\ pl_name p = k /\
     ((exists q, kept_for cur content f0 = Some q /\ pm_map (default s1 cur) !! k = Some q /\ is_Some cur /\ exists note, p = set_unchanged note q) \/
      (kept_for cur content f0 = None /\ plugin_of f0 = k /\ pl_unchanged p = false /\ pl_deps p = [] /\ pl_exported p = d_export (D k) /\ pl_reloadable p = d_reloadable (D k) /\
       forall r, get_func r (pl_funcs p) <> None))).
  { intros k p Hp. destruct (Hcome k p Hp) as (f & d & Hin & Hk & Hc). destruct (Hfile f d Hin) as (f0 & Hf0 & -> & -> & K1 & K2). exists f0.
    assert (k = to_lower (plugin_of f0)) as -> by congruence. pose proof (to_lower_idem (plugin_of f0)) as Hl. unfold comes_from in Hc.
    destruct (keep cur (to_lower (plugin_of f0)) (sha1 (content f0))) as [q'|] eqn:Hkp.
    - subst p. apply keep_some in Hkp as (q & note & -> & Hk2 & Hq).
      destruct cur as [m|]; [|done]. cbn [old_map] in Hq.
      assert (pl_name q = to_lower (plugin_of f0)) as Hnm. { destruct (history_sound _ _ _ Hst HH m eq_refl) as (_ & Hsp). by destruct (Hsp _ _ Hq). }
      split_and!; [done|done|done|exact Hnm|]. left. exists q. split_and!; [done|exact Hq|eauto|eauto].
    - apply keep_none in Hkp as Hk2.
      destruct Hc as (Hpn & (F1 & F2 & F3 & F4 & F5 & F6 & F7 & F8) & hd & ans & c1 & c2 & _ & Hfun & _ & _ & ta & tz & -> & _).
      cbn [info_of fi_name] in F1. rewrite Hpn in F1. rewrite K2 in Hpn.
      apply Forall_app in HW as [_ HW]. apply Forall_app in HW as [HW _]. apply in_open_trace in HW as (HL & R1 & R2). rewrite F1 in R1, R2.
      split_and!; [done|done|done|done|]. right. split_and!; [done|done|done|done|done|done|]. intros r. destruct (Hfun r) as (sy & v & X1 & X2 & ->).
      destruct (HL r) as (sy' & v' & Y1 & Y2 & Y3). congruence. }
  split_and!; [|done|].
  2:{ intros f0 Hf0. destruct (key_of_file wl dir f0 HV Hf0) as (_ & K2 & _).
      destruct (Hall (path_join dir f0)) as [p Hp]; [apply elem_of_list_fmap; eauto|]. rewrite K2 in Hp.
      destruct (Hlook _ _ Hp) as (f1 & Hf1 & Hk & _ & _ & Hc).
      assert (f1 = f0) as ->. { eapply (nodup_map_inj (fun f => to_lower (plugin_of f))); [exact Hnd|done|done|]. by symmetry. }
      destruct Hc as [(q & -> & _)|(_ & Hc & _)]; [by right|by left]. }
  constructor.
  - intros k p Hp. destruct (Hlook k p Hp) as (f0 & Hf0 & Hk & Hl & -> & _). split; [|done]. rewrite Hk. unfold names_of. apply elem_of_list_fmap. eauto.
  - intros n Hn. apply elem_of_list_fmap in Hn as (f0 & -> & Hf0). destruct (key_of_file wl dir f0 HV Hf0) as (_ & K2 & _).
    destruct (Hall (path_join dir f0)) as [p Hp]; [apply elem_of_list_fmap; eauto|]. rewrite K2 in Hp. rewrite to_lower_idem.
    destruct (Hlook _ _ Hp) as (_ & _ & _ & _ & Hnm & _). eauto.
  - done.
  - intros k p Hp Hu. destruct (Hlook k p Hp) as (f0 & Hf0 & Hk & Hl & -> & [(q & Hq & _ & _ & note & ->)|(_ & _ & Hu' & _)]); [|congruence].
    exists q. split_and!; [|done..]. rewrite Hk. by rewrite kept_among_file.
  - intros k p Hp Hu. destruct (Hlook k p Hp) as (f0 & Hf0 & Hk & Hl & -> & [(q & _ & _ & _ & note & ->)|(? & _ & _ & ? & ? & ? & ?)]); [done|].
    split_and!; [|done..]. rewrite Hk. by rewrite kept_among_file.
  - intros k p r Hp Hr. destruct (Hlook k p Hp) as (f0 & Hf0 & Hk & Hl & _ & [(q & _ & Hq & [m Hm] & note & ->)|(_ & _ & _ & _ & _ & _ & Hg)]); [|apply Hg].
    subst cur. cbn [default] in Hq. exact (kept_live _ _ _ _ _ _ Hst HH HF Hq Hr).
Qed.

Lemma file_run_ok o h cur dir data cbs t r : o_static o = None -> history o h cur -> fresh_objects h -> valid_listing entries ->
  NoDup (names_of (plugin_files (o_whitelist o) entries)) ->
  (forall f, f ∈ plugin_files (o_whitelist o) entries -> to_lower (plugin_of f) = plugin_of f \/ kept_for cur content f <> None) ->
  rules D (kept_among cur content (plugin_files (o_whitelist o) entries)) (names_of (plugin_files (o_whitelist o) entries)) ->
  (forall x, saw_current t x -> x = cur) -> W t ->
  file_run o (map (path_join dir) (plugin_files (o_whitelist o) entries)) data cbs t r ->
  exists d m, r = Val (Some d) /\ published t m /\ Permutation (map pl_name (Plugins m)) (names_of (plugin_files (o_whitelist o) entries)).
Proof.
  intros Hst HH HF HV Hnd0 Hlo HR Hsaw HW Hrun.
  destruct Hrun as [old mid dn x He Hx|old tn s tl s' e Hmd Hh Hp Hf|old tn s tl new tc e Hmd Hh Hp Hok Hc|old tn s tl new Hmd Hh Hp Hok].
  - do 2 apply Forall_cons in HW as [_ HW]. rewrite Forall_singleton in HW. by destruct HW.
  - exfalso. assert (old = cur) as -> by (apply Hsaw; left). apply Forall_cons in HW as [_ HW]. apply Forall_app in HW as [_ HW].
    destruct Hf as (tb & tf & ob & -> & _ & Hnv & [Hg|(t1 & t2 & s1 & -> & Hg & Hl)] & _); apply Forall_app in HW as [HW _].
    + destruct Hg as [k Hk|fds f rest e0 Hfi Hnd Ho|fds ti now n1 name n2 ps ts tl s' oo o' Hfi Hg Hin Hs Hof Hx Ho' Hnv'].
      * assert (Hn : NoDup (map file_key (map (path_join dir) (plugin_files (o_whitelist o) entries)))).
        { by rewrite file_keys_names. }
        apply key_count_nodup with (k := k) in Hn. lia.
      * apply Forall_app in HW as [_ HW]. rewrite Forall_singleton in HW. done.
      * assert (~ is_val oo) as Hno. { intros Hv. apply Hnv'. subst o'. destruct oo; [done|by destruct Hv|done]. }
        destruct (to_open cur (infos_of fds) !! name) as [i|] eqn:Hi.
        -- apply exec_loadPlugin_fail in Hx; [|done]. apply good_open in Hx; [done|]. by do 3 apply Forall_app in HW as [_ HW].
        -- destruct Hg as (Hnd & _). assert (Hna : name ∈ info_names (to_open cur (infos_of fds))) by (rewrite Hin; apply elem_of_app; right; left).
           apply info_names_elem in Hna as (k & i & Hk & Hn). pose proof Hk as Hk2. apply to_open_lookup in Hk as [Hk Hkeep].
           apply infos_lookup in Hk as (f & d & Hfd & Hfk & ->); [|done]. cbn [info_of fi_sha1] in Hkeep.
           assert (Hff : f ∈ map (path_join dir) (plugin_files (o_whitelist o) entries)) by (rewrite <- Hfi; apply elem_of_list_fmap; by exists (f, d)).
           apply elem_of_list_fmap in Hff as (f0 & -> & Hf0). destruct (key_of_file (o_whitelist o) dir f0 HV Hf0) as (K1 & K2 & K3).
           cbn [info_of fi_name] in Hn. destruct (Hlo f0 Hf0) as [Hl|Hl]; [congruence|]. apply Hl, keep_none. apply Forall_app in HW as [HW _].
           rewrite Forall_forall in HW. assert (Hrd : EvReadFile (path_join dir f0) (Val d) ∈ reads fds) by (unfold reads; apply elem_of_list_fmap; by exists (path_join dir f0, d)).
           pose proof (HW _ Hrd) as Hcc. cbn in Hcc. injection Hcc as ->. rewrite K3 in Hkeep. by rewrite <- K2, Hfk.
    + apply Forall_app in HW as [HW1 HW2]. destruct Hmd as (Hb & _).
      destruct (gathered_facts _ _ _ _ _ Hb Hg) as (_ & G1 & G2 & _). apply (gathered_view o h cur dir) in Hg as (Hg & _); try done.
      apply (lifecycle_ok D entries content _ _ HR) in Hl; try done. subst ob. by apply Hnv.
  - exfalso. apply Forall_cons in HW as [_ HW]. do 2 apply Forall_app in HW as [_ HW]. by eapply good_callback.
  - assert (old = cur) as -> by (apply Hsaw; left). eexists _, new. split; [done|].
    split. { unfold published. right. do 4 (apply elem_of_app; right). left. }
    apply Forall_cons in HW as [_ HW]. apply Forall_app in HW as [_ HW]. apply Forall_app in HW as [HW _].
    destruct Hok as (t1 & t2 & s1 & -> & Hg & Hl). apply Forall_app in HW as [HW1 HW2]. destruct Hmd as (Hb & _).
    destruct (gathered_facts _ _ _ _ _ Hb Hg) as (G0 & G1 & G2 & _). apply (gathered_view o h cur dir) in Hg as (Hg & _); try done.
    eapply view_plugin_names; [exact Hg| |].
    + pose proof (exec_lifecycle _ _ _ _ _ G0 G1 G2 Hl) as Hx. destruct Hx as (? & ? & ? & ? & ? & _ & _ & _ & _ & _ & _ & _ & _ & Hcore & _). exact Hcore.
    + by apply lifecycle_started in Hl as [? _].
Qed.

End W.

Lemma after_some t : forall cur, (exists m, published t m) -> exists m, after cur t = Some m /\ published t m.
Proof.
  induction t as [|e t IH] using rev_ind; intros cur [m Hm]; [by apply elem_of_nil in Hm|]. rewrite after_app. unfold published in *. apply elem_of_app in Hm as [Hm|Hm].
  - destruct (IH cur) as (m' & Ha & Hp); [eauto|]. rewrite Ha. destruct e; cbn [after fold_left]; try (exists m'; split; [done|apply elem_of_app; by left]).
    eexists; split; [done|]. apply elem_of_app. right. left.
  - apply elem_of_list_singleton in Hm as <-. exists m. split; [done|]. apply elem_of_app. right. left.
Qed.
Lemma published_becomes o h cur a t r m : next_call o h cur (api_prog o a) t r -> published t m -> after cur t = Some m.
Proof.
  intros HN Hm. destruct (after_some t cur) as (m' & Ha & Hp); [eauto|]. rewrite Ha. f_equal. by eapply published_one.
Qed.

(** ** C55 *)
(** The call is made when nothing in the environment fails, the plugin directory contains files that obey the rules for
    files, and the plugins obey the rules for plugins.  Then it succeeds: there is nothing to load, or a manager with
    exactly the plugins of the directory becomes the current one. *)
Theorem C55_well_behaved_load_succeeds o h cur a t r D entries content :
  next_call o h cur (api_prog o a) t r -> o_static o = None ->
  Forall (well_behaved D entries content) t -> file_rules cur content (o_whitelist o) entries ->
  rules D (kept_among cur content (plugin_files (o_whitelist o) entries)) (names_of (plugin_files (o_whitelist o) entries)) ->
  (plugin_files (o_whitelist o) entries = [] /\ r = Val None /\ after cur t = cur) \/
  exists details m, r = Val (Some details) /\ after cur t = Some m /\
    Permutation (map pl_name (Plugins m)) (names_of (plugin_files (o_whitelist o) entries)).
Proof.
  intros Hn Hst HW (Hnd & Hlo & Hwl) HR.
  destruct (next_dir _ _ _ _ _ _ Hn Hst) as (tb & add & Ht & Hrun & _).
  assert (HWb : Forall (well_behaved D entries content) tb). { rewrite Ht in HW. apply Forall_cons in HW as [_ HW]. by apply Forall_app in HW as [HW _]. }
  destruct (good_listed D entries content _ _ _ _ _ Hrun HWb) as [dir Hd].
  assert (Hd' : listed t dir entries). { unfold listed. rewrite Ht. right. apply elem_of_app. by left. }
  destruct (listed_run _ _ _ _ _ _ _ _ Hn Hst Hd') as (HV & [(Hw & Hg & _)|[(_ & Hnil & -> & _ & Hnp)|(_ & Hne & ta & tl & tz & -> & _ & _ & Hfr)]]).
  - exfalso. by apply Hg, Hwl.
  - left. split_and!; [done|done|]. by apply after_no_publish.
  - right. pose proof Hn as (HH & _ & _ & Hsaw & Hfresh).
    assert (Hf2 : fresh_objects h). { unfold fresh_objects in *. rewrite created_app in Hfresh. by apply NoDup_app in Hfresh as (? & _). }
    apply Forall_app in HW as [_ HW]. apply Forall_app in HW as [HW _].
    destruct (file_run_ok D entries content o h cur dir (api_data a) (api_cbs o a) tl r) as (d & m & -> & Hp & Hperm); try done.
    { intros x Hx. apply Hsaw. apply elem_of_app. right. apply elem_of_app. by left. }
    assert (Hpub : published (ta ++ tl ++ tz) m) by (apply elem_of_app; right; apply elem_of_app; by left).
    exists d, m. split_and!; [done| |done]. by eapply published_becomes.
Qed.

(** ** Static mode *)
Section Static.
Context (D : string -> described) (entries : list (string * bool)) (content : string -> string).
Notation W := (Forall (well_behaved D entries content)).
Context (sel : gmap string (option StaticPlugin)) (names : list string).
Context (Hfull : forall n osp, sel !! n = Some osp -> exists sp, osp = Some sp /\ forall r, get_func r (sp_funcs sp) <> None).
Context (Hnd : NoDup names) (Hnames : forall x, x ∈ names <-> exists n sp, sel !! n = Some (Some sp) /\ sp_name sp = x /\
  forall n' sp', sel !! n' = Some (Some sp') -> same_name (sp_name sp') x -> str_le n' n).

Lemma sgathered_view s t s1 : sgathered sel s t s1 -> W t -> view D (fun _ => None) names s1.
Proof.
  intros HG HW. destruct (sgathered_lookup _ _ _ _ HG) as [L1 L2].
  assert (Hlook : forall k p, pm_map s1 !! k = Some p -> pl_name p ∈ names /\ k = to_lower (pl_name p) /\ pl_unchanged p = false /\ pl_deps p = [] /\
     pl_exported p = d_export (D (pl_name p)) /\ pl_reloadable p = d_reloadable (D (pl_name p)) /\ forall r, get_func r (pl_funcs p) <> None).
  { intros k p Hp. destruct (L2 k p Hp) as (n & sp & c1 & c2 & Hn & Hk & (F1 & _ & _ & _ & _ & F6 & _ & F8 & F9 & _) & Hg & _ & _ & ta & tz & ->).
    apply Forall_app in HW as [_ HW]. apply Forall_app in HW as [HW _]. unfold static_trace in HW. apply Forall_cons in HW as [_ HW].
    apply Forall_cons in HW as [H1 HW]. rewrite Forall_singleton in HW. cbn in H1, HW.
    assert (Hin : pl_name p ∈ names).
    { destruct (sgathered_last _ _ _ _ _ _ HG Hp) as (n0 & sp0 & Hn0 & (G1 & _) & Hk0 & Hmax). apply Hnames. exists n0, sp0. split_and!; [done|done|].
      intros n' sp' Hn' Hsame. apply (Hmax _ _ Hn'). unfold name2key in *. rewrite Hsame. congruence. }
    rewrite F1 in *. split_and!; try done; try congruence. }
  constructor.
  - intros k p Hp. by destruct (Hlook k p Hp) as (? & ? & _).
  - intros x Hx. apply Hnames in Hx as (n & sp & Hn & <- & Hmax). destruct (L1 n _ Hn) as (sp' & [= <-] & p & Hp). exists p. split; [done|].
    destruct (sgathered_last _ _ _ _ _ _ HG Hp) as (n' & sp' & Hn' & (F1 & _) & Hk & Hmax'). rewrite F1.
    assert (n' = n) as ->; [|congruence]. apply (anti_symm str_le); [by apply (Hmax _ _ Hn')|]. by apply (Hmax' _ _ Hn).
  - done.
  - intros k p Hp Hu. destruct (Hlook k p Hp) as (_ & _ & ? & _). congruence.
  - intros k p Hp Hu. destruct (Hlook k p Hp) as (_ & _ & _ & ? & ? & ? & ?). by split_and!.
  - intros k p r Hp _. destruct (Hlook k p Hp) as (_ & _ & _ & _ & _ & _ & Hg). apply Hg.
Qed.

Lemma good_sgather s t s' o : sgather_failed sel s t s' o -> ~ W t.
Proof.
  intros (now & n1 & name & n2 & ps & ts & tl & Hs & _ & -> & _ & _ & _ & Herr) HW. apply Forall_cons in HW as [_ HW]. apply Forall_app in HW as [_ HW].
  assert (Hin : name ∈ map_keys sel) by (rewrite <- (sort_strings_perm (map_keys sel)), Hs; apply elem_of_app; right; left).
  apply map_keys_elem in Hin as [osp Hosp]. destruct (Hfull _ _ Hosp) as (sp & -> & Hg).
  destruct Herr as [(sp' & e & Hsp & _ & [(miss & _ & Hm & Hne & _)|(_ & x & _ & r & c & Hr & Hin)])|(_ & _ & Hd)].
  - assert (sp' = sp) as -> by congruence. apply Hne. rewrite Hm. by apply missing_funcs_nil.
  - rewrite Forall_forall in HW. apply HW in Hin. cbn in Hin. by destruct Hr as [-> | ->].
  - by rewrite Hosp in Hd.
Qed.
End Static.


(** Static mode.  The registrations taken: those of the whitelist if there is one, else all.  If several are taken for names that
    differ in case only, the last one in name order is the plugin of that name. *)
Definition registered (o : opts) (st : gmap string (option StaticPlugin)) (n : string) (sp : StaticPlugin) : Prop :=
  taken o n /\ st !! n = Some (Some sp) /\
  forall n' sp', taken o n' -> st !! n' = Some (Some sp') -> same_name (sp_name sp') (sp_name sp) -> str_le n' n.
Lemma registered_selected o st sel x : selected o st sel ->
  (exists n sp, registered o st n sp /\ sp_name sp = x) <->
  exists n sp, sel !! n = Some (Some sp) /\ sp_name sp = x /\ forall n' sp', sel !! n' = Some (Some sp') -> same_name (sp_name sp') x -> str_le n' n.
Proof.
  intros Hs. assert (Hl : forall n osp, sel !! n = Some osp <-> taken o n /\ st !! n = Some osp).
  { intros n osp. rewrite (selected_lookup _ _ _ _ Hs). destruct (decide (taken o n)); [tauto|]. by split; [|intros [? _]]. }
  split; intros (n & sp & H).
  - destruct H as [(H1 & H2 & H3) <-]. exists n, sp. split_and!; [by apply Hl|done|]. intros n' sp' Hn'. apply Hl in Hn' as [? ?]. by apply H3.
  - destruct H as (H1 & <- & H3). apply Hl in H1 as [H1 H2]. exists n, sp. split; [|done]. split_and!; [done|done|]. intros n' sp' T' Hn'. apply H3. by apply Hl.
Qed.
Theorem C55_well_behaved_static_load_succeeds o st h cur data t r D entries content names :
  next_call o h cur (api_prog o (Call_LoadPlugins data)) t r -> o_static o = Some st ->
  Forall (well_behaved D entries content) t ->
  (forall n, n ∈ o_whitelist o -> st !! n <> None) ->
  (forall n osp, o_whitelist o = [] \/ n ∈ o_whitelist o -> st !! n = Some osp ->
     exists sp, osp = Some sp /\ forall rl, get_func rl (sp_funcs sp) <> None) ->
  NoDup names -> (forall x, x ∈ names <-> exists n sp, registered o st n sp /\ sp_name sp = x) ->
  rules D (fun _ => None) names ->
  exists details m, r = Val (Some details) /\ after cur t = Some m /\ Permutation (map pl_name (Plugins m)) names.
Proof.
  intros Hn Hst HW Hwl Hfull Hnd Hnames HR.
  destruct (next_static _ _ _ _ _ _ _ Hn Hst) as [(data' & tb & [= <-] & Ht & Hrun)|(? & ? & [=] & _)].
  assert (HWb : Forall (well_behaved D entries content) tb). { rewrite Ht in HW. apply Forall_cons in HW as [_ HW]. by apply Forall_app in HW as [HW _]. }
  assert (Hsf : forall sel, selected o st sel -> forall n osp, sel !! n = Some osp -> (o_whitelist o = [] \/ n ∈ o_whitelist o) /\ st !! n = Some osp).
  { intros sel Hs n osp Hl. rewrite (selected_lookup _ _ _ _ Hs) in Hl. destruct (decide (taken o n)); [|done]. by split. }
  assert (Hfs : forall sel, selected o st sel -> forall n osp, sel !! n = Some osp -> exists sp, osp = Some sp /\ forall rl, get_func rl (sp_funcs sp) <> None).
  { intros sel Hs n osp Hl. destruct (Hsf _ Hs _ _ Hl) as [H1 H2]. by eapply Hfull. }
  assert (Hns : forall sel, selected o st sel -> forall x, x ∈ names <-> exists n sp, sel !! n = Some (Some sp) /\ sp_name sp = x /\
     forall n' sp', sel !! n' = Some (Some sp') -> same_name (sp_name sp') x -> str_le n' n).
  { intros sel Hs x. rewrite Hnames. by apply registered_selected. }
  destruct Hrun as [mid dn x He Hx|tn s name Hm Hne Hin Hno _|tn s sel tl s' e Hm Hh Hsel Hal Hp Hf|tn s sel tl new tc e Hm Hh Hsel Hal Hp Hok Hcb|tn s sel tl new Hm Hh Hsel Hal Hp Hok].
  - apply Forall_cons in HWb as [_ HWb]. rewrite Forall_singleton in HWb. by destruct HWb.
  - by destruct (Hwl name).
  - exfalso. apply Forall_app in HWb as [_ HWb]. destruct Hf as (tb & tf & ob & -> & _ & Hnv & [Hg|(t1 & t2 & s1 & -> & Hg & Hl)] & _); apply Forall_app in HWb as [HWb _].
    + eapply good_sgather; [exact (Hfs _ Hsel)|exact Hg|exact HWb].
    + apply Forall_app in HWb as [HW1 HW2]. destruct Hm as (Hb & _). destruct (sgathered_facts _ _ _ _ Hb Hg) as (_ & G1 & G2 & _).
      eapply sgathered_view in Hg; [|exact Hnd|exact (Hns _ Hsel)|exact HW1].
      apply (lifecycle_ok D entries content _ _ HR) in Hl; try done. subst ob. by apply Hnv.
  - exfalso. do 2 apply Forall_app in HWb as [_ HWb]. by eapply good_callback.
  - eexists _, new. split; [done|]. split.
    + eapply published_becomes; [exact Hn|]. rewrite Ht. right. apply elem_of_app. left. do 3 (apply elem_of_app; right). left.
    + apply Forall_app in HWb as [_ HWb]. apply Forall_app in HWb as [HWb _]. destruct Hok as (t1 & t2 & s1 & -> & Hg & Hl).
      apply Forall_app in HWb as [HW1 HW2]. destruct Hm as (Hb & _). destruct (sgathered_facts _ _ _ _ Hb Hg) as (G0 & G1 & G2 & _).
      eapply sgathered_view in Hg; [|exact Hnd|exact (Hns _ Hsel)|exact HW1].
      eapply view_plugin_names; [exact Hg| |].
      * pose proof (exec_lifecycle _ _ _ _ _ G0 G1 G2 Hl) as Hx. destruct Hx as (? & ? & ? & ? & ? & _ & _ & _ & _ & _ & _ & _ & _ & Hcore & _). exact Hcore.
      * by apply lifecycle_started in Hl as [? _].
Qed.
End Proofs.

(** ** The hypotheses are met *)
Definition D_abc (n : string) : described :=
  mkDesc (reloadable_abc n) (Some (val_export (num n))) (imports n) [(("live_" +:+ n)%string, num n)] [].
Definition entries_abc : list (string * bool) := [("a.so", false); ("b.so", false); ("c.so", false); ("note.txt", false)].
(** everything but the contents of the files *)
Definition reads_file (e : event) : option (string * outcome string) := match e with EvReadFile f r => Some (f, r) | _ => None end.
Lemma demo_well {A} base w content (p : prog A) :
  d_call w = Demo.good_call reloadable_abc -> d_listing w = entries_abc -> d_dir w = "/p" -> d_cb w = (fun _ => Val None) -> d_ext w = Val None -> d_sym w = demo_sym -> d_open w = (fun _ => Val 5%N) ->
  forall h, Forall (fun e => well_behaved D_abc entries_abc content e \/ is_Some (reads_file e)) (fst (run (demo base w) h p)).
Proof.
  intros H1 H2 H3 H4 H5 H6 H7. induction p as [a|X a k IH]; intros h; [constructor|]. cbn [run fst]. apply Forall_app. split; [|apply IH]. clear IH.
  destruct a; cbn [ev demo]; rewrite ?H1, ?H2, ?H3, ?H4, ?H5, ?H6, ?H7; try (by constructor); (constructor; [|constructor]);
    try (left; cbn [well_behaved]; done); try (left; cbn [well_behaved]; eauto; fail).
  - right. by eexists.
  - left. cbn [well_behaved]. eexists. split; [done|]. intros rl _. unfold good_symbol. cbn. done.
  - left. cbn [well_behaved]. destruct r; cbn; eauto.
Qed.
Lemma demo_well_all (content : string -> string) t :
  Forall (fun e => well_behaved D_abc entries_abc content e \/ is_Some (reads_file e)) t ->
  Forall (fun fr => snd fr = Val (content (path_base (fst fr)))) (omap reads_file t) -> Forall (well_behaved D_abc entries_abc content) t.
Proof.
  intros H HF. rewrite Forall_forall in HF. rewrite Forall_forall in H. rewrite Forall_forall. intros e He. destruct (H e He) as [?|[[f r] Hf]]; [done|].
  assert (Hin : (f, r) ∈ omap reads_file t) by (apply elem_of_list_omap; eauto). apply HF in Hin. destruct e; try done. cbn in Hf, Hin. by injection Hf as <- <-.
Qed.

Definition content1 (f : string) : string := if String.eqb f "c.so" then "c2" else if String.eqb f "a.so" then "a2" else ("/p/" +:+ f)%string.
Lemma t1_well : Forall (well_behaved D_abc entries_abc content1) t1.
Proof.
  apply demo_well_all.
  - exact (demo_well 3 world1 content1 (ReloadWithCallback dyn 78 (Some 5%N)) eq_refl eq_refl eq_refl eq_refl eq_refl eq_refl eq_refl []).
  - replace (omap reads_file t1) with [("/p/a.so", Val "a2"); ("/p/b.so", Val "/p/b.so"); ("/p/c.so", Val "c2")] by (vm_compute; reflexivity).
    repeat constructor.
Qed.
Lemma rank_acyclic (needs : string -> string -> Prop) (rank : string -> N) : (forall a b, needs a b -> (rank b < rank a)%N) -> forall n, ~ tc needs n n.
Proof.
  intros H. assert (Hl : forall a b, tc needs a b -> (rank b < rank a)%N). { induction 1 as [a b Hab|a b c Hab _ IH]; [auto|]. apply H in Hab. lia. }
  intros n Hn. apply Hl in Hn. lia.
Qed.
Example C55_rules_case : file_rules (Some m0) content1 (o_whitelist dyn) entries_abc /\
  rules D_abc (kept_among (Some m0) content1 (plugin_files (o_whitelist dyn) entries_abc)) (names_of (plugin_files (o_whitelist dyn) entries_abc)).
Proof.
  assert (Hn : names_of (plugin_files (o_whitelist dyn) entries_abc) = ["a"; "b"; "c"]) by (vm_compute; reflexivity).
  assert (Hf : plugin_files (o_whitelist dyn) entries_abc = ["a.so"; "b.so"; "c.so"]) by (vm_compute; reflexivity).
  split.
  { split_and!; [rewrite Hn; apply (bool_decide_unpack _); vm_compute; exact I| |by intros []]. rewrite Hf. intros f Hin. left. rewrite !elem_of_cons, elem_of_nil in Hin. destruct Hin as [-> |[-> |[-> |[]]]]; vm_compute; reflexivity. }
  rewrite Hn, Hf. clear Hn Hf. remember (kept_among (Some m0) content1 ["a.so"; "b.so"; "c.so"]) as kept eqn:Hk.
  assert (Hkd : map (fun n => pl_deps <$> kept n) ["a"; "b"; "c"] = [Some []; Some ["a"]; None]) by (subst kept; vm_compute; reflexivity).
  assert (Hdo : map (deps_of D_abc kept) ["a"; "b"; "c"] = [[]; ["a"]; ["B"]]) by (subst kept; vm_compute; reflexivity).
  assert (Hex : exports_of D_abc kept "b" = Some (val_export 2)) by (subst kept; vm_compute; reflexivity).
  clear Hk. cbn [map] in Hkd, Hdo. injection Hkd as Ka Kb Kc. injection Hdo as Da Db Dc.
  assert (Hall : forall n, n ∈ ["a"; "b"; "c"] -> n = "a" \/ n = "b" \/ n = "c").
  { intros n H. rewrite !elem_of_cons, elem_of_nil in H. tauto. }
  constructor.
  - intros n Hn Hnone. apply Hall in Hn as [-> |[-> | ->]]; [by rewrite Hnone in Ka|by rewrite Hnone in Kb|].
    eexists. split; [vm_compute; reflexivity|]. intros f Hf. apply elem_of_list_singleton in Hf as ->. exists "b". split_and!; [set_solver|vm_compute; reflexivity|].
    split_and!; [done|done|]. intros g Hg _. rewrite Hex in Hg. injection Hg as <-. split; vm_compute; reflexivity.
  - intros n p d Hn Hp Hd. apply Hall in Hn as [-> |[-> | ->]]; [| |by rewrite Hp in Kc].
    + rewrite Hp in Ka. cbn in Ka. injection Ka as Ka. rewrite Ka in Hd. by apply elem_of_nil in Hd.
    + rewrite Hp in Kb. cbn in Kb. injection Kb as Kb. rewrite Kb in Hd. apply elem_of_list_singleton in Hd as ->. exists "a". split_and!; [set_solver|done|].
      intros Hz. by rewrite Hz in Ka.
  - apply (rank_acyclic _ num). intros x y (Hx & Hy & d & Hd & Hs). apply Hall in Hx as [-> |[-> | ->]].
    + rewrite Da in Hd. by apply elem_of_nil in Hd.
    + rewrite Db in Hd. apply elem_of_list_singleton in Hd as ->. apply Hall in Hy as [-> |[-> | ->]]; [vm_compute; reflexivity|vm_compute in Hs; discriminate..].
    + rewrite Dc in Hd. apply elem_of_list_singleton in Hd as ->. apply Hall in Hy as [-> |[-> | ->]]; [vm_compute in Hs; discriminate|vm_compute; reflexivity|vm_compute in Hs; discriminate].
  - apply (bool_decide_unpack _). vm_compute. exact I.
  - apply (bool_decide_unpack _). vm_compute. exact I.
Qed.
Example C55_case : next_call dyn t0 (Some m0) (api_prog dyn (Call_Reload 78 (Some 5%N))) t1 (snd run1) /\ o_static dyn = None /\
  Forall (well_behaved D_abc entries_abc content1) t1 /\ after (Some m0) t1 = Some m1 /\ map pl_name (Plugins m1) = ["a"; "b"; "c"].
Proof. split_and!; [apply second_load|done|apply t1_well|apply t1_after|vm_compute; reflexivity]. Qed.

Lemma t_stat_well : Forall (well_behaved D_abc entries_abc content1) t_stat.
Proof.
  apply demo_well_all.
  - exact (demo_well 0 world0 content1 (LoadPlugins stat 1) eq_refl eq_refl eq_refl eq_refl eq_refl eq_refl eq_refl []).
  - replace (omap reads_file t_stat) with (@nil (string * outcome string)) by (vm_compute; reflexivity). constructor.
Qed.
Example C55_static_case : next_call stat [] None (api_prog stat (Call_LoadPlugins 1)) t_stat (snd (demo_run 0 world0 stat (Call_LoadPlugins 1))) /\
  o_static stat = Some statics_abc /\ Forall (well_behaved D_abc entries_abc content1) t_stat /\
  rules D_abc (fun _ => None) ["a"; "b"; "c"].
Proof.
  split_and!; [apply C31_case|apply C31_case|apply t_stat_well|].
  assert (Hall : forall n, n ∈ ["a"; "b"; "c"] -> n = "a" \/ n = "b" \/ n = "c").
  { intros n H. rewrite !elem_of_cons, elem_of_nil in H. tauto. }
  constructor; [| |apply (rank_acyclic _ num)|apply (bool_decide_unpack _); vm_compute; exact I..].
  - intros n Hn _. apply Hall in Hn as [-> |[-> | ->]]; (eexists; split; [vm_compute; reflexivity|]); intros f Hf; rewrite ?elem_of_nil, ?elem_of_list_singleton in Hf; [done|subst f..].
    + exists "a". split_and!; [set_solver|vm_compute; reflexivity|]. split_and!; [done|done|]. intros g Hg _. injection Hg as <-. split; vm_compute; reflexivity.
    + exists "b". split_and!; [set_solver|vm_compute; reflexivity|]. split_and!; [done|done|]. intros g Hg _. injection Hg as <-. split; vm_compute; reflexivity.
  - done.
  - intros x y (Hx & Hy & d & Hd & Hs). apply Hall in Hx as [-> |[-> | ->]]; cbn in Hd.
    + by apply elem_of_nil in Hd.
    + apply elem_of_list_singleton in Hd as ->. apply Hall in Hy as [-> |[-> | ->]]; [vm_compute; reflexivity|vm_compute in Hs; discriminate..].
    + apply elem_of_list_singleton in Hd as ->. apply Hall in Hy as [-> |[-> | ->]]; [vm_compute in Hs; discriminate|vm_compute; reflexivity|vm_compute in Hs; discriminate].
Qed.

(** Of two registrations "A" and "a" only the second counts. *)
Example C55_variants_case : exists st, o_static stat_variants = Some st /\
  (forall x, x ∈ ["a"; "b"] <-> exists n sp, registered stat_variants st n sp /\ sp_name sp = x) /\ st !! "A" = Some (Some (reg "A")).
Proof.
  eexists. split; [reflexivity|]. split; [|vm_compute; reflexivity].
  assert (Hall : forall n sp, (list_to_map [("A", Some (reg "A")); ("a", Some (reg "a")); ("b", Some (reg "b"))] : gmap string (option StaticPlugin)) !! n = Some (Some sp) ->
    (n = "A" \/ n = "a" \/ n = "b") /\ sp = reg n).
  { intros n sp H. apply elem_of_list_to_map_2 in H. rewrite !elem_of_cons, elem_of_nil in H.
    destruct H as [[= -> ->]|[[= -> ->]|[[= -> ->]|[]]]]; tauto. }
  assert (Ht : forall n, taken stat_variants n) by (intros n; left; reflexivity).
  assert (Hn : forall n, sp_name (reg n) = n) by reflexivity.
  intros x. rewrite !elem_of_cons, elem_of_nil. split.
  - intros [-> |[-> |[]]]; [exists "a", (reg "a")|exists "b", (reg "b")]; (split; [|apply Hn]); split_and!; try done.
    + intros n' sp' _ H Hs. apply Hall in H as [[-> |[-> | ->]] ->]; rewrite !Hn in Hs; vm_compute in Hs; try discriminate; vm_compute; reflexivity.
    + intros n' sp' _ H Hs. apply Hall in H as [[-> |[-> | ->]] ->]; rewrite !Hn in Hs; vm_compute in Hs; try discriminate; vm_compute; reflexivity.
  - intros (n & sp & (_ & Hs & Hl) & <-). apply Hall in Hs as [[-> |[-> | ->]] ->]; rewrite ?Hn; [|tauto|tauto]. exfalso.
    assert (H : str_le "a" "A"); [|vm_compute in H; discriminate].
    apply (Hl "a" (reg "a")); [apply Ht|vm_compute; reflexivity|rewrite !Hn; vm_compute; reflexivity].
Qed.

Print Assumptions C55_well_behaved_load_succeeds.
Print Assumptions C55_well_behaved_static_load_succeeds.
