(** C25 - C29: which plugin files a load takes, and how it refuses unsuitable ones. *)
From Verif Require Import ListProofs Worlds.

Section Props.
Context {E : GoEnv}.

Lemma files_read_app t1 t2 : files_read (t1 ++ t2) = files_read t1 ++ files_read t2.
Proof. unfold files_read. apply omap_app. Qed.
Lemma files_read_none t : Forall (fun e => match e with EvReadFile _ _ => False | _ => True end) t -> files_read t = [].
Proof. unfold files_read. induction 1 as [|e t He _ IH]; [done|]. by destruct e. Qed.
Lemma files_read_reads fds : files_read (reads fds) = map fst fds.
Proof. unfold files_read, reads. induction fds as [|fd fds IH]; [done|]. simpl. f_equal. exact IH. Qed.
Lemma files_read_opened infos s ns ps ts : Forall3 (opened infos s) ns ps ts -> files_read (concat ts) = [].
Proof.
  induction 1 as [|n p t ns ps ts Ho HF IH]; [done|]. cbn [concat]. rewrite files_read_app, IH, app_nil_r.
  destruct Ho as (i & h & ans & c1 & c2 & _ & _ & _ & _ & _ & _ & ->). unfold open_trace. rewrite !files_read_app. done.
Qed.
Lemma files_read_calls Q t : Forall (call_in Q) t -> files_read t = [].
Proof. intros H. apply files_read_none. eapply Forall_impl; [exact H|]. by intros []. Qed.
Lemma files_read_lifecycle data s t s' o : pm_ordered s = [] -> pm_livefuncs s = ∅ -> pm_livetypes s = ∅ ->
  exec (lifecycle data s) t (s', o) -> files_read t = [].
Proof.
  intros H1 H2 H3 Hx. apply exec_lifecycle in Hx as (u1 & u2 & u3 & u4 & u5 & -> & F1 & F2 & F3 & F4 & F5 & _); [|done..].
  rewrite !files_read_app. by rewrite !(files_read_calls _ _ F1), !(files_read_calls _ _ F2), !(files_read_calls _ _ F3), !(files_read_calls _ _ F4), !(files_read_calls _ _ F5).
Qed.
Lemma load_ok_reads files old data s t new : blank_mgr s -> load_ok files old data s t new -> files_read t = files.
Proof.
  intros Hb (t1 & t2 & s1 & -> & HG & Hx). destruct (gathered_facts _ _ _ _ _ Hb HG) as (H1 & H2 & H3 & _).
  rewrite files_read_app, (files_read_lifecycle _ _ _ _ _ H1 H2 H3 Hx), app_nil_r.
  destruct HG as (fds & ti & now & ps & ts & <- & (_ & _ & Hc & _ & HF) & -> & _).
  rewrite !files_read_app, files_read_reads, (files_read_opened _ _ _ _ _ HF), app_nil_r.
  rewrite files_read_none; [by rewrite app_nil_r|]. eapply Forall_impl; [exact Hc|]. by intros e [(i & v & ->)|(w & ->)].
Qed.

(** the listing behind a publication *)
Lemma pub_listed o h cur p t r m data cbs tp files s tn tl add dir entries :
  pub o h cur p t r m data cbs tp files s tn tl add -> listed t dir entries ->
  valid_listing entries /\ files = map (path_join dir) (plugin_files (o_whitelist o) entries) /\
  tp = tp /\ (o_whitelist o = [] \/ wl_good (o_whitelist o) entries).
Proof.
  intros HP HL. assert (HLp : listed tp dir entries).
  { unfold listed in *. rewrite (pub_trace _ _ _ _ _ _ _ _ _ _ _ _ _ _ _ HP) in HL. rewrite !elem_of_app in HL.
    pose proof (pub_private _ _ _ _ _ _ _ _ _ _ _ _ _ _ _ HP) as Hpr. pose proof (pub_add _ _ _ _ _ _ _ _ _ _ _ _ _ _ _ HP) as Hadd.
    pose proof (pub_made _ _ _ _ _ _ _ _ _ _ _ _ _ _ _ HP) as (_ & Htn & _).
    destruct HL as [Hin|[Hin|[Hin|[Hin|[Hin|[Hin|[Hin|Hin]]]]]]].
    - by apply elem_of_cons in Hin as [|Hin].
    - apply elem_of_cons in Hin as [|Hin]; [done|]. rewrite Htn in Hin. apply elem_of_cons in Hin as [|Hin]; [done|].
      destruct (o_newExt o); [by apply elem_of_list_singleton in Hin|by apply elem_of_nil in Hin].
    - rewrite Forall_forall in Hpr. by apply Hpr in Hin.
    - apply elem_of_list_fmap in Hin as (x & Hx & _). discriminate.
    - destruct cur; [by apply elem_of_list_singleton in Hin|by apply elem_of_nil in Hin].
    - by apply elem_of_list_singleton in Hin.
    - destruct Hadd as [-> | ->]; [by apply elem_of_nil in Hin|by apply elem_of_list_singleton in Hin].
    - by apply elem_of_list_singleton in Hin. }
  pose proof (pub_chosen _ _ _ _ _ _ _ _ _ _ _ _ _ _ _ HP) as Hc.
  destruct (chosen_files _ _ _ Hc) as (dir' & es & _ & Huniq & Hv & Hfiles). destruct (Huniq _ _ HLp) as [<- <-]. split_and!; [done..|].
  destruct Hc as (d1 & d2 & abs & es & found & -> & _ & Hv' & Hsel & Hok).
  destruct (decide (o_whitelist o = [])) as [|Hw]; [by left|right].
  unfold listed in HLp. repeat (apply elem_of_cons in HLp as [HLp|HLp]; [try discriminate HLp|]); try (by apply elem_of_nil in HLp). injection HLp as -> ->.
  apply (wl_size _ found); [|destruct (o_whitelist o); [done|by apply Nat.eqb_eq in Hok]]. destruct Hv' as [_ HF].
  intros n. replace found with (snd (selectFiles (o_whitelist o) abs es)) by (by rewrite Hsel). by apply found_spec.
Qed.

Lemma pub_reads o h cur p t r m data cbs tp files s tn tl add :
  pub o h cur p t r m data cbs tp files s tn tl add -> files_read t = files.
Proof.
  intros HP. rewrite (pub_trace _ _ _ _ _ _ _ _ _ _ _ _ _ _ _ HP).
  pose proof (pub_chosen _ _ _ _ _ _ _ _ _ _ _ _ _ _ _ HP) as (d1 & d2 & abs & es & found & -> & _).
  pose proof (pub_made _ _ _ _ _ _ _ _ _ _ _ _ _ _ _ HP) as Hmd. pose proof (pub_add _ _ _ _ _ _ _ _ _ _ _ _ _ _ _ HP) as Hadd.
  change (EvLoadCurrent cur :: tn) with ([EvLoadCurrent cur] ++ tn). rewrite !files_read_app.
  rewrite (load_ok_reads _ _ _ _ _ _ (proj1 Hmd) (pub_ok _ _ _ _ _ _ _ _ _ _ _ _ _ _ _ HP)).
  rewrite (files_read_none tn) by (destruct Hmd as (_ & -> & _); destruct (o_newExt o); repeat constructor).
  rewrite (files_read_none (map _ _)) by (apply Forall_fmap, Forall_true; done).
  rewrite (files_read_none (spawned _ _)) by (destruct cur; repeat constructor).
  rewrite (files_read_none add) by (destruct Hadd as [-> | ->]; repeat constructor).
  simpl. by rewrite !app_nil_r.
Qed.

Lemma sound_names h m : sound h m -> map pl_name (Plugins m) = pm_ordered m.
Proof.
  intros Hsd. pose proof (sound_keyed _ _ Hsd) as HK. destruct Hsd as [(_ & _ & _ & Hperm & _) Hs].
  rewrite <- (map_key_Plugins m HK Hperm).
  apply map_ext_in. intros p Hp. apply elem_of_list_In, Plugins_lookup in Hp as [k Hk]. destruct (Hs _ _ Hk) as (-> & Hl & _). by symmetry.
Qed.

Lemma plugins_per_file o h cur p t r m data cbs tp files s tn tl add :
  pub o h cur p t r m data cbs tp files s tn tl add -> NoDup (map file_key files) /\ Permutation (map pl_name (Plugins m)) (map file_key files).
Proof.
  intros HP. pose proof (pub_sound _ _ _ _ _ _ _ _ _ _ _ _ _ _ _ HP) as Hs. rewrite (sound_names _ _ Hs).
  pose proof (pub_made _ _ _ _ _ _ _ _ _ _ _ _ _ _ _ HP) as Hmd.
  destruct (load_ok_lookup _ _ _ _ _ _ (proj1 Hmd) (pub_ok _ _ _ _ _ _ _ _ _ _ _ _ _ _ _ HP)) as (fds & Hfst & Hnd & _ & Hall & (_ & _ & _ & Hperm & _) & _ & Hsrc).
  split; [done|]. rewrite Hperm. apply NoDup_Permutation; [|done|].
  - unfold map_keys. apply NoDup_fst_map_to_list.
  - intros k. unfold map_keys. rewrite !elem_of_list_fmap. split.
    + intros ([k' q] & -> & Hin). apply elem_of_map_to_list in Hin. destruct (Hsrc _ _ Hin) as (f & d & Hfd & <- & _). exists f. split; [done|].
      rewrite <- Hfst. apply elem_of_list_fmap. by exists (f, d).
    + intros (f & -> & Hf). destruct (Hall f Hf) as [q Hq]. exists (file_key f, q). split; [done|]. by apply elem_of_map_to_list.
Qed.

Lemma file_keys dir wl entries : valid_listing entries ->
  map file_key (map (path_join dir) (plugin_files wl entries)) = map (fun f => to_lower (plugin_of f)) (plugin_files wl entries).
Proof.
  intros [_ HF]. rewrite map_map. apply map_ext_in. intros f Hf. apply elem_of_list_In, elem_plugin_files in Hf as (Hf & _).
  rewrite Forall_forall in HF. destruct (HF _ Hf) as [H1 H2]. unfold file_key. by rewrite pluginName_join.
Qed.

(** ** C26 *)
(** Every successful call has listed the directory. *)
Theorem C26_success_lists_the_directory o h cur a t d : next_call o h cur (api_prog o a) t (Val d) -> o_static o = None -> exists dir entries, listed t dir entries.
Proof.
  intros HN Hst. destruct (next_dir _ _ _ _ _ _ HN Hst) as (tb & add & -> & Hd & _). unfold listed.
  inversion Hd as [| tp Hc Ht Hr|tp files tl r' Hc Hne Hf Ht Hr]; subst; destruct (chosen_files _ _ _ Hc) as (dir & es & Hl & _); exists dir, es; right; rewrite !elem_of_app; auto.
Qed.
(** A load that publishes a manager has read exactly the plugin files of the directory it listed, in listing order,
    and the manager has exactly one plugin per file, named after it. *)
Theorem C26_loads_exactly_the_plugin_files o h cur a t r m dir entries :
  next_call o h cur (api_prog o a) t r -> o_static o = None -> published t m -> listed t dir entries ->
  files_read t = map (path_join dir) (plugin_files (o_whitelist o) entries) /\
  Permutation (map pl_name (Plugins m)) (map (fun f => to_lower (plugin_of f)) (plugin_files (o_whitelist o) entries)).
Proof.
  intros HN Hst Hpub HL. destruct (pub_inv _ _ _ _ _ _ _ Hst HN Hpub) as (data & cbs & tp & files & s & tn & tlp & add & HP).
  destruct (pub_listed _ _ _ _ _ _ _ _ _ _ _ _ _ _ _ _ _ HP HL) as (Hv & Hfiles & _). rewrite <- Hfiles, (pub_reads _ _ _ _ _ _ _ _ _ _ _ _ _ _ _ HP).
  split; [done|]. destruct (plugins_per_file _ _ _ _ _ _ _ _ _ _ _ _ _ _ _ HP) as [_ Hp]. by rewrite Hp, Hfiles, file_keys.
Qed.
(** An empty selection: success with nil details, nothing touched, Current() stays. *)
Theorem C26_empty_directory o h cur a t r dir entries :
  next_call o h cur (api_prog o a) t r -> o_static o = None -> o_whitelist o = [] -> listed t dir entries ->
  (forall f, (f, false) ∈ entries -> has_suffix ".so" f = false) ->
  r = Val None /\ after cur t = cur /\ untouched t.
Proof.
  intros HN Hst Hw HL Hno. assert (Hnil : plugin_files (o_whitelist o) entries = []).
  { destruct (plugin_files (o_whitelist o) entries) as [|f l] eqn:Hf; [done|]. exfalso.
    assert (Hin : f ∈ plugin_files (o_whitelist o) entries) by (rewrite Hf; by left). apply elem_plugin_files in Hin as (H1 & H2 & _). by rewrite Hno in H2. }
  destruct (listed_run _ _ _ _ _ _ _ _ HN Hst HL) as (_ & [(? & _)|[(_ & _ & -> & Hu & Hnp)|(_ & ? & _)]]); [done| |done].
  split_and!; [done|by apply after_no_publish|done].
Qed.

(** ** C25 *)
(** A whitelist with a repeated name or a name without a file is refused before any plugin is touched; the error lists
    the missing names in whitelist order (none, if the only problem is a repetition). *)
Theorem C25_bad_whitelist_is_refused o h cur a t r dir entries :
  next_call o h cur (api_prog o a) t r -> o_static o = None -> o_whitelist o <> [] -> listed t dir entries ->
  (~ NoDup (o_whitelist o) \/ exists n, n ∈ o_whitelist o /\ ~ has_file entries n) ->
  r = Err (EMissingPlugins (List.filter (fun n => bool_decide (~ has_file entries n)) (o_whitelist o))) /\ untouched t.
Proof.
  intros HN Hst Hw HL Hbad. assert (Hng : ~ wl_good (o_whitelist o) entries).
  { intros [H1 H2]. destruct Hbad as [?|(n & Hn & Hf)]; [done|]. by apply Hf, H2. }
  destruct (listed_run _ _ _ _ _ _ _ _ HN Hst HL) as (_ & [(_ & _ & Hu & _ & ->)|[([?|?] & _)|([?|?] & _)]]); done.
Qed.
(** That error is raised only for such a whitelist. *)
Theorem C25_missing_plugins_error_is_true o h cur a t names :
  next_call o h cur (api_prog o a) t (Err (EMissingPlugins names)) -> o_static o = None ->
  exists dir entries, listed t dir entries /\ names = List.filter (fun n => bool_decide (~ has_file entries n)) (o_whitelist o) /\
    (~ NoDup (o_whitelist o) \/ exists n, n ∈ o_whitelist o /\ ~ has_file entries n).
Proof.
  intros HN Hst. destruct (next_dir _ _ _ _ _ _ HN Hst) as (tb & add & Heq & Hd & _).
  assert (exists dir entries, listed t dir entries) as (dir & entries & HL).
  { subst t. inversion Hd as [tp e Hr Ht He|tp Hc Ht Hr|tp files tl r' Hc Hne Hf Ht Hr]; subst.
    - inversion Hr as [d1 Hb|d1 e Hb Ho|d1 Hb|d1 d2 e Hb Ho|d1 d2 abs e Hb Ho|d1 d2 abs entries files found Hb Hv Hsel Hok]; subst;
        try (by match goal with H : outside (EMissingPlugins _) |- _ => destruct H as [? ?] end); [].
      exists abs, entries. unfold listed. right. apply elem_of_app. left. do 4 right. by left.
    - destruct (chosen_files _ _ _ Hc) as (dir & es & Hl & _). exists dir, es. unfold listed. right. rewrite !elem_of_app. auto. }
  clear Hd Heq. exists dir, entries. split; [done|].
  destruct (listed_run _ _ _ _ _ _ _ _ HN Hst HL) as (_ & [(_ & Hg & _ & _ & [= ->])|[(_ & _ & ? & _)|(_ & _ & ta & tl & tz & _ & _ & _ & Hf)]]); [|done|].
  - split; [done|]. destruct (decide (NoDup (o_whitelist o))) as [Hnd|]; [right|by left].
    destruct (decide (Forall (has_file entries) (o_whitelist o))) as [HF|HF].
    + exfalso. apply Hg. split; [done|]. by rewrite <- Forall_forall.
    + apply not_Forall_Exists in HF; [|apply _]. apply Exists_exists in HF as (n & Hn & Hf). eauto.
  - exfalso. assert (HC : load_run o cur (api_data a) (api_cbs o a) t (Err (EMissingPlugins names))) by (by eapply next_run).
    inversion Hf as [|old tn s tl' s' e Hm Hh Hp Hlf|old tn s tl' new tc e Hm Hh Hp Hok Hcb|]; subst.
    + destruct Hlf as (tb' & tf & ob & _ & He & Hnv & Hb & _). destruct Hb as [Hgf|(t1 & t2 & s1 & _ & HG & Hx)].
      * apply gather_failed_error in Hgf. by rewrite <- He in Hgf.
      * destruct (gathered_facts _ _ _ _ _ (proj1 Hm) HG) as (H1 & H2 & H3 & _).
        destruct ob as [|e|x]; simpl in He; [by destruct Hnv|subst e|done].
        by apply (lifecycle_errors _ _ _ _ _ H1 H2 H3) in Hx.
    + destruct Hcb as (? & ? & ? & ? & ? & _ & _ & [[_ [? ?]]|(x & _ & ? & _)] & _); done.
Qed.
(** With a whitelist, a published manager has exactly the listed plugins. *)
Theorem C25_loads_exactly_the_whitelist o h cur a t r m :
  next_call o h cur (api_prog o a) t r -> o_static o = None -> o_whitelist o <> [] -> published t m ->
  Permutation (map pl_name (Plugins m)) (map to_lower (o_whitelist o)) /\
  (forall dir entries, listed t dir entries -> Permutation (files_read t) (map (fun n => path_join dir (n +:+ ".so")) (o_whitelist o))).
Proof.
  intros HN Hst Hw Hpub. destruct (pub_inv _ _ _ _ _ _ _ Hst HN Hpub) as (data & cbs & tp & files & s & tn & tlp & add & HP).
  assert (Hkey : forall dir entries, listed t dir entries -> Permutation (plugin_files (o_whitelist o) entries) (map (fun n => n +:+ ".so") (o_whitelist o))).
  { intros dir entries HL. destruct (pub_listed _ _ _ _ _ _ _ _ _ _ _ _ _ _ _ _ _ HP HL) as (Hv & Hfiles & _ & [?|[Hnd Hall]]); [done|].
    apply NoDup_Permutation; [apply plugin_files_nodup; by destruct Hv| |].
    - apply NoDup_fmap_2_strong; [|done]. intros x y _ _ Hxy. cbv beta in Hxy.
      rewrite <- (proj2 (ListProofs.suffix_app x ".so")), <- (proj2 (ListProofs.suffix_app y ".so")). by rewrite Hxy.
    - intros f. rewrite elem_plugin_files, elem_of_list_fmap. split.
      + intros (H1 & H2 & [?|H3]); [done|]. exists (plugin_of f). split; [|done]. by apply suffix_inv.
      + intros (n & -> & Hn). destruct (ListProofs.suffix_app n ".so") as [Hs Ht]. split_and!; [by apply Hall|done|]. right. unfold plugin_of. by rewrite Ht. }
  split.
  - assert (HV : exists dd, r = Val dd) by (rewrite (pub_res _ _ _ _ _ _ _ _ _ _ _ _ _ _ _ HP); eauto). destruct HV as [dd ->].
    destruct (C26_success_lists_the_directory _ _ _ _ _ _ HN Hst) as (dir & entries & HL).
    destruct (C26_loads_exactly_the_plugin_files _ _ _ _ _ _ _ _ _ HN Hst Hpub HL) as [_ Hp]. rewrite Hp, (Hkey dir entries HL), map_map.
    apply Permutation_refl'. apply map_ext. intros n. f_equal. apply (proj2 (ListProofs.suffix_app n ".so")).
  - intros dir entries HL. destruct (C26_loads_exactly_the_plugin_files _ _ _ _ _ _ _ _ _ HN Hst Hpub HL) as [-> _].
    by rewrite (Hkey dir entries HL), map_map.
Qed.

End Props.

(** ** Concrete cases *)
Example C26_case : next_call dyn t0 (Some m0) (api_prog dyn (Call_Reload 78 (Some 5%N))) t1 (snd run1) /\ o_static dyn = None /\ published t1 m1 /\
  listed t1 "/p" [("a.so", false); ("b.so", false); ("c.so", false); ("note.txt", false)] /\ is_val (snd run1).
Proof.
  split_and!; [apply second_load|done|apply published1| |vm_compute; done].
  apply elem_of_list_In. vm_compute. tauto.
Qed.
Definition t_empty := fst (demo_run 0 world_empty dyn (Call_Reload 1 None)).
Example C26_empty_case : next_call dyn [] None (api_prog dyn (Call_Reload 1 None)) t_empty (Val None) /\ o_whitelist dyn = [] /\
  listed t_empty "/p" [("note.txt", false); ("sub.so", true)] /\ counted t_empty = 1%nat.
Proof.
  split_and!; [apply demo_first; [done|apply world_empty_ok|vm_compute; reflexivity]|done| |vm_compute; reflexivity].
  apply elem_of_list_In. vm_compute. tauto.
Qed.
(** "b" twice: the list of missing plugins is empty; "z": it is missing *)
Example C25_repeated_case : next_call (dyn_wl ["b"; "a"; "b"]) [] None (api_prog (dyn_wl ["b"; "a"; "b"]) (Call_LoadPlugins 1))
  (fst (demo_run 0 world0 (dyn_wl ["b"; "a"; "b"]) (Call_LoadPlugins 1))) (Err (EMissingPlugins [])).
Proof. apply demo_first; [done|apply world0_ok|vm_compute; reflexivity]. Qed.
Example C25_missing_case : next_call (dyn_wl ["z"; "a"; "A"]) [] None (api_prog (dyn_wl ["z"; "a"; "A"]) (Call_LoadPlugins 1))
  (fst (demo_run 0 world0 (dyn_wl ["z"; "a"; "A"]) (Call_LoadPlugins 1))) (Err (EMissingPlugins ["z"; "A"])).
Proof. apply demo_first; [done|apply world0_ok|vm_compute; reflexivity]. Qed.
(** a whitelist that is met *)
Definition t_wl := fst (demo_run 0 world0 (dyn_wl ["b"; "a"]) (Call_LoadPlugins 1)).
Example C25_met_case : (exists d, next_call (dyn_wl ["b"; "a"]) [] None (api_prog (dyn_wl ["b"; "a"]) (Call_LoadPlugins 1)) t_wl (Val (Some d))) /\
  exists m, published t_wl m /\ map pl_name (Plugins m) = ["a"; "b"].
Proof.
  split.
  - destruct (snd (demo_run 0 world0 (dyn_wl ["b"; "a"]) (Call_LoadPlugins 1))) as [[d|]|e|x] eqn:Hr.
    + exists d. apply demo_first; [done|apply world0_ok|done].
    + vm_compute in Hr. discriminate Hr.
    + vm_compute in Hr. discriminate Hr.
    + vm_compute in Hr. discriminate Hr.
  - destruct (after None t_wl) as [m|] eqn:Ha; [|vm_compute in Ha; discriminate Ha].
    exists m. split; [by destruct (stored _ _ _ Ha)|]. vm_compute in Ha. injection Ha as <-. vm_compute. reflexivity.
Qed.

Print Assumptions C26_success_lists_the_directory.
Print Assumptions C26_loads_exactly_the_plugin_files.
Print Assumptions C26_empty_directory.
Print Assumptions C25_bad_whitelist_is_refused.
Print Assumptions C25_missing_plugins_error_is_true.
Print Assumptions C25_loads_exactly_the_whitelist.
