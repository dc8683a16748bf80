(** C27 - C29: how unsuitable plugin files are refused. *)
From Verif Require Import ListProofs Worlds PropLoad PropFiles.

Section Props.
Context {E : GoEnv}.

Lemma released_blank s t : blank_mgr s -> released s t -> t = [].
Proof.
  intros (Hm & _) (ps & ts & -> & HF & Hp & _). rewrite Hm in Hp. unfold mplugins in Hp. rewrite map_to_list_empty in Hp.
  symmetry in Hp. apply Permutation_nil in Hp as ->. by inversion HF.
Qed.
Lemma made_untouched b tn s : made b tn s -> untouched tn.
Proof. intros (_ & -> & _). apply untouched_forall. destruct b; repeat constructor. Qed.

(** the loading part with duplicate names *)
Lemma dup_run o files data cbs t r : file_run o files data cbs t r -> ~ NoDup (map file_key files) ->
  untouched t /\ ((exists x, r = Pan x /\ EvNewExt (Pan x) ∈ t) \/ exists k, r = Err (EDup k files) /\ (1 < key_count k files)%nat).
Proof.
  intros Hf Hnd. inversion Hf as [old mid dn x Hx Hy|old tn s tl s' e Hm Hh Hp Hlf|old tn s tl new tc e Hm Hh Hp Hok Hcb|old tn s tl new Hm Hh Hp Hok]; subst.
  - split; [apply untouched_forall; repeat constructor|]. left. exists x. split; [done|]. do 2 right. by left.
  - destruct Hlf as (tb & tf & ob & -> & -> & Hnv & [Hg|(t1 & t2 & s1 & _ & HG & _)] & Hrel & _).
    + inversion Hg as [k Hk|fds f rest e' Hfs Hnd'|fds ti now n1 name n2 ps ts tl s2 ob1 ob' Hfs Hgw]; subst; [|done|by destruct Hgw].
      rewrite (released_blank _ _ (proj1 Hm) Hrel). split.
      * change (EvLoadCurrent old :: tn ++ [] ++ []) with ([EvLoadCurrent old] ++ tn ++ []). rewrite app_nil_r.
        apply untouched_app; [apply untouched_forall; repeat constructor|by eapply made_untouched].
      * right. eauto.
    + destruct HG as (fds & ti & now & ps & ts & <- & (Hnd' & _) & _). done.
  - destruct Hok as (t1 & t2 & s1 & _ & (fds & ti & now & ps & ts & <- & (Hnd' & _) & _) & _). done.
  - destruct Hok as (t1 & t2 & s1 & _ & (fds & ti & now & ps & ts & <- & (Hnd' & _) & _) & _). done.
Qed.

Lemma key_count_two k files : (1 < key_count k files)%nat -> NoDup files -> exists f1 f2, f1 <> f2 /\ f1 ∈ files /\ f2 ∈ files /\ file_key f1 = k /\ file_key f2 = k.
Proof.
  unfold key_count. intros Hlt Hnd.
  assert (Hnd' : NoDup (List.filter (fun f => String.eqb (file_key f) k) files)). { apply NoDup_ListNoDup, List.NoDup_filter, NoDup_ListNoDup, Hnd. }
  destruct (List.filter (fun f => String.eqb (file_key f) k) files) as [|f1 [|f2 l]] eqn:Hl; simpl in Hlt; [lia|lia|].
  assert (Hin : forall f, f ∈ f1 :: f2 :: l -> f ∈ files /\ file_key f = k).
  { intros f Hf. rewrite <- Hl in Hf. apply elem_of_list_In, filter_In in Hf as [Hf Hk]. split; [by apply elem_of_list_In|by apply String.eqb_eq in Hk]. }
  exists f1, f2. apply NoDup_cons in Hnd' as [Hn _]. destruct (Hin f1) as [? ?]; [by left|]. destruct (Hin f2) as [? ?]; [right; by left|].
  split_and!; try done. intros ->. apply Hn. by left.
Qed.

(** ** C27 *)
(** Two plugin files with the same name up to case: the load fails before any plugin is touched.  The error is the
    duplicate-name error (unless the whitelist is refused first or the extension constructor panics). *)
Theorem C27_duplicate_names_are_refused o h cur a t r dir entries f1 f2 :
  next_call o h cur (api_prog o a) t r -> o_static o = None -> listed t dir entries ->
  f1 ∈ plugin_files (o_whitelist o) entries -> f2 ∈ plugin_files (o_whitelist o) entries -> f1 <> f2 ->
  same_name (plugin_of f1) (plugin_of f2) ->
  untouched t /\ after cur t = cur /\
  ((exists k, r = Err (EDup k (map (path_join dir) (plugin_files (o_whitelist o) entries)))) \/
   (exists names, r = Err (EMissingPlugins names) /\ o_whitelist o <> []) \/
   (exists x, r = Pan x /\ EvNewExt (Pan x) ∈ t)).
Proof.
  intros HN Hst HL H1 H2 Hne Hsame.
  destruct (listed_run _ _ _ _ _ _ _ _ HN Hst HL) as (Hv & [(Hw & _ & Hu & Hnp & ->)|[(_ & Hnil & _)|(Hg & _ & ta & tl & tz & -> & Hua & Huz & Hf)]]).
  - split_and!; [done|by apply after_no_publish|]. right. left. eauto.
  - rewrite Hnil in H1. by apply elem_of_nil in H1.
  - assert (Hnd : ~ NoDup (map file_key (map (path_join dir) (plugin_files (o_whitelist o) entries)))).
    { rewrite (file_keys _ _ _ Hv). intros Hnd. apply Hne.
      pose proof (plugin_files_nodup (o_whitelist o) entries (proj1 Hv)) as Hnf.
      apply elem_of_list_lookup in H1 as [i Hi]. apply elem_of_list_lookup in H2 as [j Hj].
      assert (i = j) as ->. { eapply (NoDup_lookup _ i j _ Hnd); rewrite list_lookup_fmap; [rewrite Hi|rewrite Hj]; simpl; [done|]. by rewrite Hsame. }
      congruence. }
    destruct (dup_run _ _ _ _ _ _ Hf Hnd) as [Hu Hr]. split_and!.
    + by repeat apply untouched_app.
    + apply (C08_failed_call_changes_nothing _ _ _ _ _ _ HN). by destruct Hr as [(x & -> & _)|(k & -> & _)]; intros [].
    + destruct Hr as [(x & -> & Hx)|(k & -> & _)]; [right; right|left; eauto]. exists x. split; [done|]. rewrite !elem_of_app. auto.
Qed.
(** The duplicate-name error is true. *)
Theorem C27_duplicate_error_is_true o h cur a t k files :
  next_call o h cur (api_prog o a) t (Err (EDup k files)) ->
  exists dir entries f1 f2, listed t dir entries /\ files = map (path_join dir) (plugin_files (o_whitelist o) entries) /\
    f1 <> f2 /\ f1 ∈ plugin_files (o_whitelist o) entries /\ f2 ∈ plugin_files (o_whitelist o) entries /\
    to_lower (plugin_of f1) = k /\ to_lower (plugin_of f2) = k.
Proof.
  intros HN. destruct (o_static o) as [st|] eqn:Hst.
  { exfalso. destruct (next_static _ _ _ _ _ _ _ HN Hst) as [(data & tb & -> & -> & Hr)|(data & extra & _ & _ & Hr)]; [|done].
    inversion Hr as [|tn s name Hm Hw Hin Hno| tn s sel tl s' e Hm Hh Hsel Hal Hp Hsf|tn s sel tl new tc e Hm Hh Hsel Hal Hp Hok Hcb|]; subst.
    - destruct Hsf as (tb' & tf & ob & _ & He & Hnv & Hb & _). destruct Hb as [Hgf|(t1 & t2 & s1 & _ & HG & Hx)].
      + destruct Hgf as (now & n1 & name & n2 & ps & ts & tl' & _ & _ & _ & _ & _ & _ & [(sp & e & _ & -> & _)|(-> & _)]); done.
      + destruct (sgathered_facts _ _ _ _ (proj1 Hm) HG) as (H1 & H2 & H3 & _).
        destruct ob as [|e|x]; simpl in He; [by destruct Hnv|subst e|done]. by apply (lifecycle_errors _ _ _ _ _ H1 H2 H3) in Hx.
    - destruct Hcb as (? & ? & ? & ? & ? & _ & _ & [[_ [? ?]]|(x & _ & ? & _)] & _); done. }
  assert (exists dir entries, listed t dir entries) as (dir & entries & HL).
  { destruct (next_dir _ _ _ _ _ _ HN Hst) as (tb & add & -> & Hd & _).
    inversion Hd as [tp e Hr Ht He|tp Hc Ht Hr|tp files' tl r' Hc Hne Hf Ht Hr]; subst.
    - inversion Hr; subst; by match goal with H : outside (EDup _ _) |- _ => destruct H as [? ?] end.
    - destruct (chosen_files _ _ _ Hc) as (dir & es & Hl & _). exists dir, es. unfold listed. right. rewrite !elem_of_app. auto. }
  exists dir, entries.
  destruct (listed_run _ _ _ _ _ _ _ _ HN Hst HL) as (Hv & [(_ & _ & _ & _ & ?)|[(_ & _ & ? & _)|(Hg & _ & ta & tl & tz & -> & Hua & Huz & Hf)]]); [done..|].
  assert (files = map (path_join dir) (plugin_files (o_whitelist o) entries) /\ (1 < key_count k files)%nat) as [-> Hk].
  { inversion Hf as [|old tn s tl' s' e Hm Hh Hp Hlf|old tn s tl' new tc e Hm Hh Hp Hok Hcb|]; subst.
    - destruct Hlf as (tb & tf & ob & -> & He & Hnv & [Hgf|(t1 & t2 & s1 & _ & HG & Hx)] & Hrel & _).
      + inversion Hgf as [k' Hk'|fds f rest e' Hfs Hnd' Ho|fds ti now n1 name n2 ps ts tl s2 ob1 ob' Hfs Hgw Hn Hs Hof Hex Ho Hnv']; subst; simpl in He.
        * by injection He as -> ->.
        * subst e'. by destruct Ho.
        * destruct ob1; simpl in He; try done. by destruct (to_open old (infos_of fds) !! name).
      + destruct (gathered_facts _ _ _ _ _ (proj1 Hm) HG) as (H1 & H2 & H3 & _).
        destruct ob as [|e|x]; simpl in He; [by destruct Hnv|subst e|done]. by apply (lifecycle_errors _ _ _ _ _ H1 H2 H3) in Hx.
    - destruct Hcb as (? & ? & ? & ? & ? & _ & _ & [[_ [? ?]]|(x & _ & ? & _)] & _); done. }
  apply key_count_two in Hk as (g1 & g2 & Hne & Hg1 & Hg2 & Hk1 & Hk2).
  2:{ apply NoDup_fmap_2_strong; [|apply plugin_files_nodup; apply Hv]. intros x y _ _. apply path_join_inj. }
  apply elem_of_list_fmap in Hg1 as (f1 & -> & Hf1). apply elem_of_list_fmap in Hg2 as (f2 & -> & Hf2).
  exists f1, f2. split_and!; try done; [congruence| |].
  - rewrite <- Hk1. unfold file_key. apply elem_plugin_files in Hf1 as (Hf1 & _). destruct Hv as [_ HF]. rewrite Forall_forall in HF. destruct (HF _ Hf1). by rewrite pluginName_join.
  - rewrite <- Hk2. unfold file_key. apply elem_plugin_files in Hf2 as (Hf2 & _). destruct Hv as [_ HF]. rewrite Forall_forall in HF. destruct (HF _ Hf2). by rewrite pluginName_join.
Qed.

(** ** C28 *)
(** Every plugin of a dynamically loaded manager has a lower-case name. *)
Theorem C28_loaded_names_are_lower_case o h cur a t r m p :
  next_call o h cur (api_prog o a) t r -> o_static o = None -> published t m -> holds m p -> to_lower (pl_name p) = pl_name p.
Proof.
  intros HN Hst Hpub Hp. destruct (pub_inv _ _ _ _ _ _ _ Hst HN Hpub) as (data & cbs & tp & files & s & tn & tlp & add & HP).
  destruct (pub_sound _ _ _ _ _ _ _ _ _ _ _ _ _ _ _ HP) as [_ Hs]. apply Plugins_lookup in Hp as [k Hk]. by destruct (Hs _ _ Hk) as (-> & ? & _).
Qed.

(** The load has to open the file: the current manager has no plugin of that name that it would keep. *)
Definition must_open (cur : option mgr) (t : list event) (dir f : string) : Prop :=
  forall om p, cur = Some om -> FindPlugin om (plugin_of f) = Some p ->
    pl_reloadable p = true /\ forall d, EvReadFile (path_join dir f) (Val d) ∈ t -> sha1 d <> pl_sha1 p.

(** A file with an upper-case letter in its name that has to be opened makes the load fail, during the opening of the
    plugins: no Import, OnLoad, OnInit or live table runs, and Current() stays. *)
Lemma mixed_run o files data cbs t r cur f : file_run o files data cbs t r -> (forall x, saw_current t x -> x = cur) ->
  f ∈ files -> to_lower (pluginName f) <> pluginName f ->
  (forall d, EvReadFile f (Val d) ∈ t -> keep cur (file_key f) (sha1 d) = None) ->
  ~ is_val r /\ no_publish t /\ (forall c, c ∈ call_sigs t -> cs_role c = RReloadable \/ cs_role c = RExport \/ cs_role c = ROnFree).
Proof.
  intros Hf Hcur Hin Hmix Hkeep.
  assert (HG : forall old s t1 s1, old = cur -> (forall e, e ∈ t1 -> e ∈ t) -> gathered files old s t1 s1 -> False).
  { intros old s t1 s1 -> Ht HG. apply gathered_lookup in HG as (fds & Hfst & Hnd & Hrd & Hall & Hsrc).
    destruct (Hall f Hin) as [p Hp]. destruct (Hsrc _ _ Hp) as (f' & d & Hfd & Hk & Hc).
    assert (f' = f) as ->.
    { subst files. apply elem_of_list_fmap in Hin as ([f2 d2] & -> & Hfd2). simpl in *.
      apply elem_of_list_lookup in Hfd as [i Hi]. apply elem_of_list_lookup in Hfd2 as [j Hj].
      assert (i = j) as ->; [|congruence]. eapply (NoDup_lookup _ i j _ Hnd); rewrite !list_lookup_fmap; [rewrite Hi|rewrite Hj]; simpl; [done|by rewrite Hk]. }
    unfold comes_from in Hc. rewrite Hkeep in Hc by (by apply Ht, Hrd). destruct Hc as [Hn _].
    apply Hmix. unfold file_key, name2key in Hn. by symmetry. }
  inversion Hf as [old mid dn x Hx Hy|old tn s tl s' e Hm Hh Hp Hlf|old tn s tl new tc e Hm Hh Hp Hok Hcb|old tn s tl new Hm Hh Hp Hok]; subst.
  - split_and!; [by intros []|nopub|]. intros c Hc. by apply elem_of_nil in Hc.
  - assert (Hold : old = cur) by (apply Hcur; by left).
    destruct Hlf as (tb & tf & ob & -> & -> & Hnv & [Hg|(t1 & t2 & s1 & -> & Hg & _)] & Hrel & _).
    2:{ exfalso. apply (HG old s t1 s1); [done| |done]. intros e He. right. rewrite !elem_of_app. auto. }
    split_and!; [by intros []| |].
    + apply no_publish_app with (t1 := [EvLoadCurrent old]); [nopub|]. apply no_publish_app; [by eapply made_no_publish|]. by apply private_no_publish.
    + intros c. change (EvLoadCurrent old :: tn ++ tb ++ tf) with ([EvLoadCurrent old] ++ tn ++ tb ++ tf). rewrite !call_sigs_app.
      rewrite (proj1 (silent_made _ _ _ Hm)). rewrite !elem_of_app. intros [Hc|[Hc|[Hc|Hc]]]; try by apply elem_of_nil in Hc.
      * destruct (gath_dyn_failed _ _ _ _ _ _ (proj1 Hm) Hg) as (t1 & tl & ps & ks & -> & HGa & Hof & _). rewrite call_sigs_app in Hc.
        apply elem_of_app in Hc as [Hc|Hc].
        -- rewrite (g_calls _ _ _ _ _ _ _ HGa) in Hc. unfold opens in Hc. apply elem_of_list_In, in_flat_map in Hc as (p & _ & [<-|[<-|[]]]); auto.
        -- destruct Hof as (_ & _ & _ & [Hcs|(p & _ & [Hcs|Hcs])]); rewrite Hcs in Hc.
           ++ by apply elem_of_nil in Hc.
           ++ apply elem_of_list_singleton in Hc as ->. auto.
           ++ apply elem_of_cons in Hc as [->|Hc]; [auto|]. apply elem_of_list_singleton in Hc as ->. auto.
      * destruct (released_facts _ _ Hrel) as (ps & _ & _ & _ & Hfr & _). right. right. by apply Hfr.
  - exfalso. destruct Hok as (t1 & t2 & s1 & -> & Hg & _). apply (HG old s t1 s1); [apply Hcur; by left| |done]. intros e0 He. right. rewrite !elem_of_app. auto.
  - exfalso. destruct Hok as (t1 & t2 & s1 & -> & Hg & _). apply (HG old s t1 s1); [apply Hcur; by left| |done]. intros e He. right. rewrite !elem_of_app. auto.
Qed.

Theorem C28_mixed_case_file_is_refused o h cur a t r dir entries f :
  next_call o h cur (api_prog o a) t r -> o_static o = None -> listed t dir entries ->
  f ∈ plugin_files (o_whitelist o) entries -> to_lower (plugin_of f) <> plugin_of f -> must_open cur t dir f ->
  ~ is_val r /\ after cur t = cur /\ (forall c, c ∈ call_sigs t -> cs_role c = RReloadable \/ cs_role c = RExport \/ cs_role c = ROnFree).
Proof.
  intros HN Hst HL Hf Hmix Hopen.
  destruct (listed_run _ _ _ _ _ _ _ _ HN Hst HL) as (Hv & [(Hw & _ & Hu & Hnp & ->)|[(_ & Hnil & _)|(Hg & _ & ta & tl & tz & -> & Hua & Huz & Hr)]]).
  - split_and!; [by intros []|by apply after_no_publish|]. intros c Hc. exfalso. unfold call_sigs in Hc. apply elem_of_list_omap in Hc as (e & He & Hc). apply Hu in He. by destruct e.
  - rewrite Hnil in Hf. by apply elem_of_nil in Hf.
  - assert (Hname : pluginName (path_join dir f) = plugin_of f).
    { apply elem_plugin_files in Hf as (Hf & _). destruct Hv as [_ HF]. rewrite Forall_forall in HF. destruct (HF _ Hf). by rewrite pluginName_join. }
    assert (Hno : forall tu, untouched tu -> call_sigs tu = []).
    { intros tu Hu. destruct (call_sigs tu) as [|c l] eqn:Hc; [done|]. exfalso. assert (Hin : c ∈ call_sigs tu) by (rewrite Hc; by left).
      unfold call_sigs in Hin. apply elem_of_list_omap in Hin as (e & He & Hin). apply Hu in He. by destruct e. }
    destruct (mixed_run _ _ _ _ _ _ cur (path_join dir f) Hr) as (Hnv & Hnp & Hcs).
    + destruct HN as (_ & _ & _ & Hsaw & _). intros x Hx. apply Hsaw. unfold saw_current in *. rewrite !elem_of_app. auto.
    + apply elem_of_list_fmap. by exists f.
    + by rewrite Hname.
    + intros d Hd. unfold keep, old_map, file_key. rewrite Hname. destruct cur as [om|]; [|by rewrite lookup_empty].
      destruct (pm_map om !! name2key (plugin_of f)) as [p|] eqn:Hp; [|done].
      destruct (Hopen om p eq_refl Hp) as [-> Hd']. specialize (Hd' d). rewrite !elem_of_app in Hd'. destruct (String.eqb_spec (sha1 d) (pl_sha1 p)); [|done]. exfalso. apply Hd'; auto.
    + split_and!; [done| |].
      * by apply (C08_failed_call_changes_nothing _ _ _ _ _ _ HN).
      * intros c. rewrite !call_sigs_app, (Hno ta Hua), (Hno tz Huz), app_nil_r. apply Hcs.
Qed.

(** ** C29 *)

(** The private copy [copy] of plugin [name] was opened (handle [hd]) as the new plugin object [j], and the symbols
    [syms] were looked up with the answers [table]. *)
Definition looked_up (mid : N) (name copy : string) (j : inst) (hd : handle) (table : string -> option gvalue) (syms : list string) : list event :=
  EvNewInst mid name j :: EvOpen copy (Val hd) :: map (fun sym => EvLookupSym hd sym (table sym)) syms.

Definition role_named (sym : string) : option role := List.find (fun r => String.eqb (role_symbol r) sym) funcItems.
Lemma role_named_symbol r : role_named (role_symbol r) = Some r.
Proof. by destruct r. Qed.
Definition table_of (ans : role -> option gvalue) (sym : string) : option gvalue := match role_named sym with Some r => ans r | None => None end.
Lemma table_of_symbol ans r : table_of ans (role_symbol r) = ans r.
Proof. unfold table_of. by rewrite role_named_symbol. Qed.
Lemma required_items : required_symbols = map role_symbol funcItems.
Proof. done. Qed.
Lemma lookups_table h ans rs : lookups h ans rs = map (fun sym => EvLookupSym h sym (table_of ans sym)) (map role_symbol rs).
Proof. unfold lookups. rewrite map_map. apply map_ext. intros r. by rewrite table_of_symbol. Qed.
Lemma filter_table ans : map role_symbol (List.filter (fun r => bool_decide (ans r = None)) funcItems) =
  List.filter (fun sym => bool_decide (table_of ans sym = None)) required_symbols.
Proof.
  rewrite required_items. induction funcItems as [|r l IH]; [done|]. cbn [map List.filter]. rewrite table_of_symbol.
  destruct (bool_decide (ans r = None)); cbn [map]; by rewrite IH.
Qed.

(** a failure to open plugin [name] *)
Lemma open_failure o h cur a t r : next_call o h cur (api_prog o a) t r -> o_static o = None ->
  forall files old s fds ti now n1 name n2 ps ts tl s' ob tf ta tz,
  blank_mgr s -> old = cur -> map fst fds = files -> gathered_with old s fds ti now n1 ps ts ->
  info_names (to_open old (infos_of fds)) = n1 ++ name :: n2 ->
  s' = upd_when now (with_map (insert_all ps (kept_map old (infos_of fds))) s) -> released s' tf ->
  t = ta ++ (reads fds ++ ti ++ concat ts ++ tl) ++ tf ++ tz -> silent ta -> silent tz ->
  exec (loadPlugin (to_open old (infos_of fds) !! name) s') tl (s', ob) -> ~ is_val ob ->
  (to_open old (infos_of fds) !! name = None /\ ob = Pan PNil /\ tl = []) \/
  exists i, fi_name i = name /\ fi_file i ∈ files_read t /\ open_error s' i tl ob /\
    (forall c, c ∈ call_sigs t -> c ∈ call_sigs tl \/ cs_inst c ∉ created tl).
Proof.
  intros HN Hst files old s fds ti now n1 name n2 ps ts tl s' ob tf ta tz Hb Hold Hfst Hgw Hnames Hs' Hrel Ht Hsa Hsz Hex Hnv. subst old.
  destruct (to_open cur (infos_of fds) !! name) as [i|] eqn:Hi.
  2:{ left. by destruct Hex as [-> [= ->]]. }
  right. exists i. apply to_open_lookup in Hi as [Hi Hkeep].
  pose proof (proj1 Hgw) as Hnd. pose proof (proj1 (infos_lookup _ _ _ Hnd) Hi) as (f & d & Hfd & Hfk & ->).
  split_and!.
  - assert (Hin : name ∈ info_names (to_open cur (infos_of fds))) by (rewrite Hnames; apply elem_of_app; right; by left).
    apply info_names_elem in Hin as (k & i' & Hk & Hn). apply to_open_lookup in Hk as [Hk _].
    pose proof (infos_key _ _ _ Hnd Hk) as Hkk. pose proof (infos_key _ _ _ Hnd Hi) as Hkn.
    assert (k = name) as ->. { rewrite <- Hkk, Hn. rewrite <- Hkn. unfold name2key. by rewrite to_lower_idem. }
    rewrite Hk in Hi. injection Hi as ->. done.
  - rewrite Ht, !files_read_app, files_read_reads. rewrite !elem_of_app. right. left. left. apply elem_of_list_fmap. by exists (f, d).
  - by apply exec_loadPlugin_fail in Hex.
  - destruct HN as (HH & _ & _ & _ & Hfresh).
    pose proof (gath_dyn_with files cur s fds ti now n1 (name :: n2) ps ts Hb Hfst Hgw Hnames) as HG.
    assert (Hcr : created t = map pl_inst ps ++ created tl).
    { rewrite Ht, !created_app. destruct Hsa as (_ & _ & _ & -> & _). destruct Hsz as (_ & _ & _ & -> & _).
      destruct (released_facts _ _ Hrel) as (psf & Hrf & _). rewrite (rf_created _ _ _ _ _ Hrf), !app_nil_r, app_nil_l.
      pose proof (g_created _ _ _ _ _ _ _ HG) as Hc. rewrite !created_app in Hc. rewrite !(assoc_L (++)). by rewrite !(assoc_L (++)) in Hc; rewrite Hc. }
    assert (Hnd' : NoDup (created t)). { unfold fresh_objects in Hfresh. rewrite created_app in Hfresh. by apply NoDup_app in Hfresh as (_ & _ & ?). }
    rewrite Hcr in Hnd'. apply NoDup_app in Hnd' as (_ & Hdis & _).
    assert (Hps : forall p, p ∈ ps -> pl_inst p ∉ created tl). { intros p Hp. apply Hdis. apply elem_of_list_fmap. by exists p. }
    assert (Hks : forall p, p ∈ mplugins (kept_map cur (infos_of fds)) -> pl_inst p ∉ created tl).
    { intros p Hp Hin. assert (HG' : gath (source o) (old_seen o cur) s (reads fds ++ ti ++ concat ts)
          (upd_when now (with_map (insert_all ps (kept_map cur (infos_of fds))) s)) ps (mplugins (kept_map cur (infos_of fds)))).
      { unfold source, old_seen. rewrite Hst. exact HG. }
      apply (kept_old o h cur t _ _ _ _ _ HH Hfresh) with (p := p) in HG'; [|intros x|done].
      - apply HG'. rewrite Hcr. apply elem_of_app. by right.
      - rewrite (g_created _ _ _ _ _ _ _ HG), Hcr. intros Hx. apply elem_of_app. by left. }
    intros c Hc. rewrite Ht, !call_sigs_app in Hc. destruct Hsa as (Hca & _). destruct Hsz as (Hcz & _). rewrite Hca, Hcz, app_nil_r, app_nil_l in Hc.
    rewrite !elem_of_app in Hc. destruct Hc as [[Hc|[Hc|[Hc|Hc]]]|Hc]; [| | |by left|]; right.
    + pose proof (g_calls _ _ _ _ _ _ _ HG) as Hcs. assert (Hin : c ∈ opens (pm_id s) ps) by (rewrite <- Hcs, !call_sigs_app, !elem_of_app; auto).
      unfold opens in Hin. apply elem_of_list_In, in_flat_map in Hin as (p & Hp & Hin). apply elem_of_list_In in Hp. destruct Hin as [<-|[<-|[]]]; by apply Hps.
    + pose proof (g_calls _ _ _ _ _ _ _ HG) as Hcs. assert (Hin : c ∈ opens (pm_id s) ps) by (rewrite <- Hcs, !call_sigs_app, !elem_of_app; auto).
      unfold opens in Hin. apply elem_of_list_In, in_flat_map in Hin as (p & Hp & Hin). apply elem_of_list_In in Hp. destruct Hin as [<-|[<-|[]]]; by apply Hps.
    + pose proof (g_calls _ _ _ _ _ _ _ HG) as Hcs. assert (Hin : c ∈ opens (pm_id s) ps) by (rewrite <- Hcs, !call_sigs_app, !elem_of_app; auto).
      unfold opens in Hin. apply elem_of_list_In, in_flat_map in Hin as (p & Hp & Hin). apply elem_of_list_In in Hp. destruct Hin as [<-|[<-|[]]]; by apply Hps.
    + destruct (released_facts _ _ Hrel) as (psf & _ & Hperm & _ & _ & Hsub).
      apply (sublist_in _ _ Hsub) in Hc. apply elem_of_list_fmap in Hc as (p & -> & Hp). rewrite Hperm in Hp. subst s'.
      destruct (gathered_map _ _ _ _ _ _ _ _ _ Hgw Hnames) as (Hpm & _ & _). cbn [upd_when with_map pm_map] in Hp. rewrite Hpm in Hp. apply elem_of_app in Hp as [Hp|Hp]; [by apply Hps|by apply Hks].
Qed.

(** an error "failed to load the plugin [name]" *)
Lemma load_error o h cur a t name e : next_call o h cur (api_prog o a) t (Err (ELoad name e)) -> o_static o = None ->
  exists ta s' i tl tz, t = ta ++ tl ++ tz /\ fi_name i = name /\ fi_file i ∈ files_read t /\ open_error s' i tl (Err e) /\
    (forall c, c ∈ call_sigs t -> c ∈ call_sigs tl \/ cs_inst c ∉ created tl).
Proof.
  intros HN Hst. destruct (next_dir _ _ _ _ _ _ HN Hst) as (tb & add & Ht & Hd & Hadd).
  assert (silent add) as Hsadd. { subst add. destruct a; [apply silent_nil|]. case_decide; [by apply silent_one|apply silent_nil]. }
  clear Hadd.
  inversion Hd as [tp e0 Hr Htp He|tp Hc Htp Hr|tp files tl r' Hc Hne Hf Htp Hr]; subst tb; try done.
  - exfalso. subst e0. inversion Hr; by match goal with H : outside (ELoad _ _) |- _ => destruct H as [? ?] end.
  - subst r'. inversion Hf as [|old tn s tl' s' e0 Hm Hh Hp Hlf Hx Hy|old tn s tl' new tc e0 Hm Hh Hp Hok Hcb|]; subst.
    + assert (Hold : old = cur). { destruct HN as (_ & _ & _ & Hsaw & _). apply Hsaw. unfold saw_current. right. rewrite !elem_of_app. left. right. by left. }
      destruct Hlf as (tb & tf & ob & -> & He & Hnv & [Hgf|(t1 & t2 & s1 & _ & HG & Hx)] & Hrel & _).
      * inversion Hgf as [k' Hk'|fds f rest e' Hfs Hnd' Ho|fds ti now n1 name' n2 ps ts tl s2 ob1 ob' Hfs Hgw Hn Hs Hof Hex Ho Hnv']; subst; simpl in He; [done| |].
        { subst e'. by destruct Ho. }
        destruct ob1 as [|e1|x]; simpl in He; [done| |by destruct (to_open cur (infos_of fds) !! name')]. injection He as <- <-.
        destruct (open_failure _ _ _ _ _ _ HN Hst _ cur s fds ti now n1 name n2 ps ts tl _ (Err e) tf
                   (EvLock :: tp ++ (EvLoadCurrent cur :: tn)) (add ++ [EvUnlock]) (proj1 Hm) eq_refl eq_refl Hgw Hn eq_refl Hrel) as [(? & ? & _)|(i & Hni & Hfi & Hoe & Hcs)];
          [| | |exact Hex|by intros []|done|].
        -- simpl. rewrite <- !(assoc_L (++)). simpl. by rewrite <- !(assoc_L (++)).
        -- apply (silent_app [EvLock]); [by apply silent_one|]. apply silent_app; [by eapply silent_chosen|]. apply (silent_app [_]); [by apply silent_one|by eapply silent_made].
        -- apply silent_app; [done|by apply silent_one].
        -- eexists (EvLock :: tp ++ (EvLoadCurrent cur :: tn) ++ reads fds ++ ti ++ concat ts), _, i, tl, (tf ++ add ++ [EvUnlock]).
           split; [|split_and!; [exact Hni|exact Hfi|exact Hoe|exact Hcs]].
           simpl. rewrite <- !(assoc_L (++)). simpl. by rewrite <- !(assoc_L (++)).
      * destruct (gathered_facts _ _ _ _ _ (proj1 Hm) HG) as (H1 & H2 & H3 & _).
        destruct ob as [|e1|x]; simpl in He; [by destruct Hnv|subst e1|done]. by apply (lifecycle_errors _ _ _ _ _ H1 H2 H3) in Hx.
    + destruct Hcb as (? & ? & ? & ? & ? & _ & _ & [[_ [? ?]]|(x & _ & ? & _)] & _); done.
Qed.

Lemma no_calls_on tl (j : inst) t : (forall c, c ∈ call_sigs t -> c ∈ call_sigs tl \/ cs_inst c ∉ created tl) ->
  call_sigs tl = [] -> j ∈ created tl -> forall c, c ∈ call_sigs t -> cs_inst c <> j.
Proof. intros H Hn Hj c Hc <-. apply H in Hc as [Hc|Hc]; [|done]. rewrite Hn in Hc. by apply elem_of_nil in Hc. Qed.
Lemma lookups_silent h ans rs : call_sigs (lookups h ans rs) = [] /\ created (lookups h ans rs) = [].
Proof. destruct (lookups_facts h ans rs) as (H1 & _ & _ & _ & H2). done. Qed.

(** The error listing missing functions is exact: all nine symbols were looked up, the list has exactly those that do
    not exist, in the fixed order, and no function of this plugin ran. *)
Theorem C29_missing_functions_are_listed o h cur a t name missing :
  next_call o h cur (api_prog o a) t (Err (ELoad name (EMissingFuncs missing))) -> o_static o = None ->
  exists ta tz mid copy j hd table, t = ta ++ looked_up mid name copy j hd table required_symbols ++ tz /\
    missing = List.filter (fun sym => bool_decide (table sym = None)) required_symbols /\ missing <> [] /\
    (forall c, c ∈ call_sigs t -> cs_inst c <> j).
Proof.
  intros HN Hst. destruct (load_error _ _ _ _ _ _ _ HN Hst) as (ta & s' & i & tl & tz & Ht & Hn & _ & Hoe & Hcs).
  remember (Err (EMissingFuncs missing)) as ob eqn:Hob.
  destruct Hoe as [e Ho|e Ho|j e Ho|j x Ho|j hd ans rs r rs' sym ob Hf Ha Hs Hbef Hob'|j hd ans r Hr Hty|j hd ans f x tc Hall Hp|j hd ans f c b x tc Hall Hc Hp]; try done.
  1-3: injection Hob as ->; by destruct Ho.
  { destruct Hob' as [-> | ->]; done. }
  apply (f_equal (fun x => match x with Err (EMissingFuncs l) => l | _ => [] end)) in Hob. cbv beta iota in Hob. subst missing.
  exists (ta ++ take 2 (open_head s' i j (Val hd))), tz, (pm_id s'), (copy_dst (pm_dirName s') i), j, hd, (table_of ans). split_and!.
  - rewrite Ht, lookups_table, <- required_items. unfold looked_up, open_head. rewrite Hn. rewrite <- !(assoc_L (++)). f_equal.
  - apply filter_table.
  - rewrite filter_table. intros Hnil. assert (Hin : role_symbol r ∈ List.filter (fun sym => bool_decide (table_of ans sym = None)) required_symbols).
    { apply elem_of_list_In, filter_In. split; [|apply bool_decide_eq_true; by rewrite table_of_symbol].
      apply elem_of_list_In. rewrite required_items. apply elem_of_list_fmap. exists r. split; [done|apply funcItems_all]. }
    rewrite Hnil in Hin. by apply elem_of_nil in Hin.
  - destruct (lookups_silent hd ans funcItems) as [H1 H2]. eapply no_calls_on; [exact Hcs| |].
    + by rewrite call_sigs_app, H1.
    + rewrite created_app, H2. simpl. by left.
Qed.

(** The error for a mistyped symbol is exact: the symbol exists but neither it nor what it points to is assignable to
    the function type, and no function of this plugin ran. *)
Theorem C29_mistyped_function_is_named o h cur a t name sym :
  next_call o h cur (api_prog o a) t (Err (ELoad name (ECannotAssign sym))) -> o_static o = None ->
  exists ta tz mid copy j hd table before r v, t = ta ++ looked_up mid name copy j hd table (before ++ [sym]) ++ tz /\
    sym = role_symbol r /\ table sym = Some v /\ assignable (gv_type v) (role_type r) = false /\
    (forall id e, gv_type v = TPtr id e -> assignable e (role_type r) = true -> gv_pointee v = None) /\
    (forall c, c ∈ call_sigs t -> cs_inst c <> j).
Proof.
  intros HN Hst. destruct (load_error _ _ _ _ _ _ _ HN Hst) as (ta & s' & i & tl & tz & Ht & Hn & _ & Hoe & Hcs).
  remember (Err (ECannotAssign sym)) as ob eqn:Hob.
  destruct Hoe as [e Ho|e Ho|j e Ho|j x Ho|j hd ans rs r rs' v ob Hf Ha Hs Hbef Hob'|j hd ans r Hr Hty|j hd ans f x tc Hall Hp|j hd ans f c b x tc Hall Hc Hp]; try done.
  1-3: injection Hob as ->; by destruct Ho.
  destruct Hob' as [-> | ->]; [|done]. injection Hob as <-.
  exists (ta ++ take 2 (open_head s' i j (Val hd))), tz, (pm_id s'), (copy_dst (pm_dirName s') i), j, hd, (table_of ans), (map role_symbol rs), r, v.
  unfold sym_value in Hs. destruct (assignable (gv_type v) (role_type r)) eqn:Has; [done|]. split_and!; try done.
  - rewrite Ht, lookups_table, map_app. unfold looked_up, open_head. rewrite Hn. rewrite <- !(assoc_L (++)). f_equal.
  - by rewrite table_of_symbol.
  - intros id e Hty He. rewrite Hty, He in Hs. done.
  - destruct (lookups_silent hd ans (rs ++ [r])) as [H1 H2]. eapply no_calls_on; [exact Hcs| |].
    + by rewrite call_sigs_app, H1.
    + rewrite created_app, H2. simpl. by left.
Qed.

(** Static mode: the error lists exactly the nil functions of the registration, in the fixed order. *)
Theorem C29_missing_static_functions_are_listed o st h cur a t name missing :
  next_call o h cur (api_prog o a) t (Err (ELoad name (EMissingFuncs missing))) -> o_static o = Some st ->
  exists sp, st !! name = Some (Some sp) /\ missing <> [] /\ missing `sublist_of` required_symbols /\
    (forall r, role_symbol r ∈ missing <-> get_func r (sp_funcs sp) = None).
Proof.
  intros HN Hst. destruct (next_static _ _ _ _ _ _ _ HN Hst) as [(data & tb & -> & -> & Hr)|(data & extra & _ & _ & Hr)]; [|done].
  inversion Hr as [|tn s n Hm Hw Hin Hno| tn s sel tl s' e Hm Hh Hsel Hal Hp Hsf|tn s sel tl new tc e Hm Hh Hsel Hal Hp Hok Hcb|]; subst.
  - destruct Hsf as (tb' & tf & ob & _ & He & Hnv & Hb & _). destruct Hb as [Hgf|(t1 & t2 & s1 & _ & HG & Hx)].
    + destruct Hgf as (now & n1 & name' & n2 & ps & ts & tl' & _ & _ & _ & _ & _ & _ & [(sp & e & Hsp & -> & Hcase)|(-> & _)]); [|done].
      simpl in He. injection He as <- <-. destruct Hcase as [(miss & [= <-] & -> & Hne & _)|(_ & x & ? & _)]; [|done].
      exists sp. split_and!; [by eapply selected_sub|done| |].
      * unfold missing_funcs. rewrite required_items. clear. induction funcItems as [|r l IH]; [constructor|]. cbn [List.filter].
        destruct (bool_decide _); cbn [map]; by constructor.
      * intros r. unfold missing_funcs. rewrite elem_of_list_fmap. split.
        -- intros (r' & Hrr & Hin). apply elem_of_list_In, filter_In in Hin as [_ Hb]. apply bool_decide_eq_true in Hb. by destruct r, r'.
        -- intros Hg. exists r. split; [done|]. apply elem_of_list_In, filter_In. split; [apply elem_of_list_In, funcItems_all|by apply bool_decide_eq_true].
    + destruct (sgathered_facts _ _ _ _ (proj1 Hm) HG) as (H1 & H2 & H3 & _).
      destruct ob as [|e|x]; simpl in He; [by destruct Hnv|subst e|done]. by apply (lifecycle_errors _ _ _ _ _ H1 H2 H3) in Hx.
  - destruct Hcb as (? & ? & ? & ? & ? & _ & _ & [[_ [? ?]]|(x & _ & ? & _)] & _); done.
Qed.

(** The function in a value; a nil function is [None]. *)
Definition function_in (v : gvalue) : option N := if gv_nil v then None else Some (gv_payload v).
(** The symbols looked up for the nine functions. *)
Theorem C29_symbols_mean : map role_symbol [ROnLoad; ROnInit; ROnFree; RExport; RImport; RInvokeFunc; RReloadable; RLiveFuncs; RLiveTypes] =
  ["OnLoad"; "OnInit"; "OnFree"; "Export"; "Import"; "InvokeFunc"; "Reloadable"; "HotswapLiveFuncs"; "HotswapLiveTypes"].
Proof. reflexivity. Qed.
(** After a successful load every function of every plugin (newly opened or kept) is the symbol of that name - or what
    it points to - of the file the plugin was opened from. *)
Theorem C29_functions_are_own_symbols o h cur a t r m p :
  next_call o h cur (api_prog o a) t r -> o_static o = None -> published t m -> holds m p ->
  exists ta tz mid copy hd table, h ++ t = ta ++ looked_up mid (pl_name p) copy (pl_inst p) hd table required_symbols ++ tz /\
    pl_P p = Some hd /\
    forall f, exists v, table (role_symbol f) = Some v /\
      ((assignable (gv_type v) (role_type f) = true /\ get_func f (pl_funcs p) = function_in v) \/
       (assignable (gv_type v) (role_type f) = false /\ exists id e w, gv_type v = TPtr id e /\ assignable e (role_type f) = true /\
          gv_pointee v = Some w /\ get_func f (pl_funcs p) = function_in w)).
Proof.
  intros HN Hst Hpub Hp. destruct (pub_inv _ _ _ _ _ _ _ Hst HN Hpub) as (data & cbs & tp & files & s & tn & tlp & add & HP).
  destruct (pub_sound _ _ _ _ _ _ _ _ _ _ _ _ _ _ _ HP) as [_ Hs]. apply Plugins_lookup in Hp as [k Hk].
  destruct (Hs _ _ Hk) as (Hn & _ & Hfile & _ & _ & _ & Ho & _).
  destruct Ho as (s0 & p1 & d & hd & ans & c1 & c2 & ta & tz & Ht & Hi & Hn1 & _ & _ & _ & HPp & Hfun).
  eexists (ta ++ [_; _]), _, (pm_id s0), _, hd, (table_of ans). split_and!; [|done|].
  - rewrite Ht. unfold open_trace, looked_up. rewrite Hi, Hn. rewrite <- (app_assoc ta). f_equal. simpl fi_name. rewrite Hfile.
    cbn [app]. do 4 f_equal; rewrite <- app_assoc; done.
  - intros f. destruct (proj1 Hfun f) as (sym & v & Ha & Hv & Hg). exists sym. rewrite table_of_symbol. split; [done|]. unfold sym_value in Hv.
    destruct (assignable (gv_type sym) (role_type f)); [left; by injection Hv as ->|right]. split; [done|].
    destruct (gv_type sym) as [id e| |] eqn:Hty; try done. destruct (assignable e (role_type f)) eqn:Hae; [|done]. eauto 10.
Qed.

End Props.

(** ** Concrete cases *)
Definition t_dup := fst (demo_run 0 world_dup dyn (Call_LoadPlugins 1)).
Example C27_case : next_call dyn [] None (api_prog dyn (Call_LoadPlugins 1)) t_dup (Err (EDup "a" ["/p/A.so"; "/p/a.so"; "/p/b.so"])) /\
  listed t_dup "/p" [("A.so", false); ("a.so", false); ("b.so", false)] /\ same_name (plugin_of "A.so") (plugin_of "a.so").
Proof.
  split_and!; [apply demo_first; [done|apply world_dup_ok|vm_compute; reflexivity]| |vm_compute; reflexivity].
  apply elem_of_list_In. vm_compute. tauto.
Qed.
Definition t_mixed := fst (demo_run 0 world_mixed dyn (Call_LoadPlugins 1)).
Example C28_case : next_call dyn [] None (api_prog dyn (Call_LoadPlugins 1)) t_mixed (Err (EPanic None PNil)) /\
  listed t_mixed "/p" [("Foo.so", false); ("a.so", false); ("b.so", false)] /\ "Foo.so" ∈ plugin_files [] [("Foo.so", false); ("a.so", false); ("b.so", false)] /\
  to_lower (plugin_of "Foo.so") <> plugin_of "Foo.so" /\ must_open None t_mixed "/p" "Foo.so".
Proof.
  split_and!; [apply demo_first; [done|apply world_mixed_ok|vm_compute; reflexivity]| | |vm_compute; discriminate|].
  - apply elem_of_list_In. vm_compute. tauto.
  - apply elem_of_list_In. vm_compute. tauto.
  - intros om p H. discriminate H.
Qed.
Example C29_missing_case : next_call dyn [] None (api_prog dyn (Call_LoadPlugins 1)) (fst (demo_run 0 world_missing dyn (Call_LoadPlugins 1)))
  (Err (ELoad "a" (EMissingFuncs ["OnFree"; "Import"]))).
Proof. apply demo_first; [done|apply world_missing_ok|vm_compute; reflexivity]. Qed.
Example C29_mistyped_case : next_call dyn [] None (api_prog dyn (Call_LoadPlugins 1)) (fst (demo_run 0 world_mistyped dyn (Call_LoadPlugins 1)))
  (Err (ELoad "a" (ECannotAssign "OnFree"))).
Proof. apply demo_first; [done|apply world_mistyped_ok|vm_compute; reflexivity]. Qed.
Definition stat_bad : opts := NewPluginManagerSwapper [WithStaticPlugins (Some {["a" := Some (mkStatic "a" (mkFuncs (Some 1) (Some 2) None (Some 4) (Some 5) (Some 6) (Some 7) None (Some 9))%N)]})].
Example C29_static_case : next_call stat_bad [] None (api_prog stat_bad (Call_LoadPlugins 1)) (fst (demo_run 0 world0 stat_bad (Call_LoadPlugins 1)))
  (Err (ELoad "a" (EMissingFuncs ["OnFree"; "HotswapLiveFuncs"]))).
Proof. apply demo_first; [done|apply world0_ok|vm_compute; reflexivity]. Qed.
Example C28_C29_success_case : next_call dyn t0 (Some m0) (api_prog dyn (Call_Reload 78 (Some 5%N))) t1 (snd run1) /\ o_static dyn = None /\ published t1 m1 /\
  length (Plugins m1) = 3%nat.
Proof. split_and!; [apply second_load|done|apply published1|vm_compute; reflexivity]. Qed.

Print Assumptions C27_duplicate_names_are_refused.
Print Assumptions C27_duplicate_error_is_true.
Print Assumptions C28_loaded_names_are_lower_case.
Print Assumptions C28_mixed_case_file_is_refused.
Print Assumptions C29_missing_functions_are_listed.
Print Assumptions C29_mistyped_function_is_named.
Print Assumptions C29_missing_static_functions_are_listed.
Print Assumptions C29_functions_are_own_symbols.
