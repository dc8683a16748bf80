(** C09 - C15, C39: dependencies, what a reload keeps, the vault. *)
From Verif Require Export EstProofs ListProofs PropLoad PropFiles PropOpen.

Section Props.
Context {E : GoEnv}.

Lemma new_iff o h cur p t r m q : next_call o h cur p t r -> published t m -> holds m q -> (pl_inst q ∈ created t <-> pl_unchanged q = false).
Proof.
  intros Hn Hpub Hq. destruct (published_plugins _ _ _ _ _ _ _ _ Hn Hpub Hq) as [[Hu (Hb & _)]|(Hu & _ & Hb & _)].
  - done.
  - split; [done|congruence].
Qed.

(** ** C10 *)
(** Every plugin created by a load that publishes a manager had its Import() called by that load, and what it returned
    is served by the new manager. *)
Theorem C10_imports_are_served o h cur a t r m p :
  next_call o h cur (api_prog o a) t r -> published t m -> holds m p -> pl_inst p ∈ created t ->
  exists imp, answered RImport (pm_id m) ArgNone p (Val imp) t /\ wired_to m p imp.
Proof.
  intros Hn Hpub Hq Hc. destruct (published_plugins _ _ _ _ _ _ _ _ Hn Hpub Hq) as [[_ Hb]|(_ & _ & Hb & _)]; [|done]. apply Hb.
Qed.

(** ** C09 *)
(** In every manager Current() ever returns, the wiring of every plugin - carried over any number of times or not - is
    that of its Import() with the plugins of this very manager; every value it received is the one that the plugin
    held by this manager returned from Export(). *)
Theorem C09_no_stale_dependency o h m p : history o h (Some m) -> fresh_objects h -> holds m p ->
  (exists mid imp, answered RImport mid ArgNone p (Val imp) h /\ wired_to m p imp) /\
  (forall field v, (field, v) ∈ pl_imports p -> exists q mid, FindPlugin m field = Some q /\ pl_exported q = Some v /\
     answered RExport mid ArgNone q (Val (Some v)) h).
Proof.
  intros HH HF Hp. destruct (history_origin _ _ _ _ HH HF eq_refl) as (h0 & cur0 & pr & t & r & h1 & -> & Hn & Hpub).
  assert (Hw : forall q, holds m q -> (exists mid imp, answered RImport mid ArgNone q (Val imp) (h0 ++ t ++ h1) /\ wired_to m q imp) /\
     exists mid, answered RExport mid ArgNone q (Val (pl_exported q)) (h0 ++ t ++ h1)).
  { intros q Hq. destruct (published_wiring _ _ _ _ _ _ _ _ Hn Hpub Hq) as ((mid & imp & H1 & H2) & (mid' & H3) & _). rewrite (assoc_L (++)). split.
    - exists mid, imp. split; [by apply answered_app_l|done].
    - exists mid'. by apply answered_app_l. }
  destruct (Hw p Hp) as [H1 _]. split; [done|]. destruct H1 as (mid & imp & _ & fields & qs & _ & Hqs & _ & ->).
  intros field v Hin. apply elem_of_list_omap in Hin as (x & Hx & Hxe). subst x. apply elem_of_list_lookup in Hx as [i Hi].
  apply lookup_zip_with_Some in Hi as (f & q & Hfv & Hf & Hq). destruct (Forall2_lookup_lr _ _ _ _ _ _ Hqs Hf Hq) as (B1 & _).
  symmetry in Hfv. unfold field_value in Hfv. destruct (pl_exported q) as [g|] eqn:He; [|done]. destruct (is_nil (Some g)); [done|]. injection Hfv as <- <-.
  destruct (Hw q) as [_ (mid' & Hx)].
  { destruct (pub_ready _ _ _ _ _ _ _ Hn Hpub) as [_ Hr]. eapply elem_Plugins; [apply Hr|exact B1]. }
  rewrite He in Hx. exists q, mid'. done.
Qed.

(** ** C12 *)
Theorem C12_nonreloadable_closed o h m p q : history o h (Some m) -> fresh_objects h -> depends m p q ->
  pl_reloadable p = false -> pl_reloadable q = false.
Proof.
  intros HH HF (Hp & Hq & d & Hd & Hs) Hr. destruct (history_origin _ _ _ _ HH HF eq_refl) as (h0 & cur0 & pr & t & r & h1 & -> & Hn & Hpub).
  destruct (published_wiring _ _ _ _ _ _ _ _ Hn Hpub Hp) as (_ & _ & H). apply (H q d Hd); [|done].
  destruct (C01_plugins_in_dependency_order _ _ _ _ _ _ _ Hn Hpub) as (HC & _). by apply HC.
Qed.

(** ** C13 *)
Definition plugin_of_current (cur : option mgr) (name : string) : option plugin :=
  match cur with Some m => FindPlugin m name | None => None end.
(** [p] was made from the file [file] with content [content] during the events [t]. *)
Definition made_from (t : list event) (file content : string) (p : plugin) : Prop :=
  pl_inst p ∈ created t /\ pl_note p = "" /\ pl_file p = file /\ pl_sha1 p = sha1 content.

Theorem C13_keep_or_replace o h cur a t r m dir entries f :
  next_call o h cur (api_prog o a) t r -> o_static o = None -> published t m -> listed t dir entries ->
  f ∈ plugin_files (o_whitelist o) entries ->
  exists content p, EvReadFile (path_join dir f) (Val content) ∈ t /\ FindPlugin m (plugin_of f) = Some p /\
    match plugin_of_current cur (plugin_of f) with
    | Some q => if negb (pl_reloadable q) then same_plugin p q /\ pl_note p = "not reloadable"
                else if String.eqb (sha1 content) (pl_sha1 q) then same_plugin p q /\ pl_note p = "unchanged"
                else made_from t (path_join dir f) content p
    | None => made_from t (path_join dir f) content p
    end.
Proof.
  intros Hn Hs Hpub Hl Hf. destruct (pub_inv _ _ _ _ _ _ _ Hs Hn Hpub) as (data & cbs & tp & files & s & tn & tl & add & P).
  destruct (pub_listed _ _ _ _ _ _ _ _ _ _ _ _ _ _ _ _ _ P Hl) as (Hval & Hfiles & _).
  pose proof (pub_ok _ _ _ _ _ _ _ _ _ _ _ _ _ _ _ P) as Hok. pose proof (proj1 (pub_made _ _ _ _ _ _ _ _ _ _ _ _ _ _ _ P)) as Hb.
  pose proof (load_ok_lookup _ _ _ _ _ _ Hb Hok) as (fds & Hfds & Hnd & Hread & Hin & Hready & Hsh & Hlook).
  assert (Hfin : path_join dir f ∈ files) by (rewrite Hfiles; by apply elem_of_list_fmap_1).
  destruct (Hin _ Hfin) as [p Hp]. destruct (Hlook _ _ Hp) as (f' & d & Hfd & Hk & Hcase).
  assert (f' = path_join dir f) as ->.
  { assert (f' ∈ files) by (rewrite <- Hfds; apply elem_of_list_fmap; by exists (f', d)). by eapply (nodup_map_inj file_key files). }
  assert (Hkey : file_key (path_join dir f) = name2key (plugin_of f)).
  { assert (Hm : map file_key (map (path_join dir) (plugin_files (o_whitelist o) entries)) = map (fun f => to_lower (plugin_of f)) (plugin_files (o_whitelist o) entries)) by by apply file_keys.
    rewrite map_map in Hm. clear -Hm Hf. induction (plugin_files (o_whitelist o) entries) as [|g l IH]; [by apply elem_of_nil in Hf|].
    simpl in Hm. injection Hm as H1 H2. apply elem_of_cons in Hf as [->|Hf]; [done|by apply IH]. }
  rewrite Hkey in *. exists d, p. split_and!.
  - eapply pub_in; [exact P|]. by apply Hread.
  - exact Hp.
  - assert (Hnew : newly cur s m tl (path_join dir f) d (name2key (plugin_of f)) p -> made_from t (path_join dir f) d p).
    { intros HN. pose proof (newly_unchanged _ _ _ _ _ _ _ _ HN) as Hun.
      assert (Hh : holds m p) by (eapply elem_Plugins; [apply Hready|exact Hp]).
      destruct HN as (p1 & imp & hd & ans & c1 & c2 & ta & tz & _ & (F1 & F2 & F3 & F4 & F5 & F6 & _) & _ & _ & _ & _ & _ & _ & (fields & qs & _ & _ & He) & _).
      split_and!; [by eapply new_iff|rewrite He; by simpl..]. }
    unfold keep in Hcase. unfold plugin_of_current. destruct cur as [om|]; [|by apply Hnew]. unfold old_map in Hcase. unfold FindPlugin.
    destruct (pm_map om !! name2key (plugin_of f)) as [q|]; [|by apply Hnew].
    destruct (pl_reloadable q) eqn:Hr; simpl; [|subst p; done].
    destruct (String.eqb (sha1 d) (pl_sha1 q)); [subst p; done|by apply Hnew].
Qed.

(** A plugin without a file is dropped: the new manager has plugins for the files only. *)
Theorem C13_no_file_no_plugin o h cur a t r m dir entries p :
  next_call o h cur (api_prog o a) t r -> o_static o = None -> published t m -> listed t dir entries -> holds m p ->
  exists f, f ∈ plugin_files (o_whitelist o) entries /\ same_name (plugin_of f) (pl_name p).
Proof.
  intros Hn Hs Hpub Hl Hp. destruct (C26_loads_exactly_the_plugin_files _ _ _ _ _ _ _ _ _ Hn Hs Hpub Hl) as [_ HP].
  assert (Hin : pl_name p ∈ map pl_name (Plugins m)) by by apply elem_of_list_fmap_1. rewrite HP in Hin.
  apply elem_of_list_fmap in Hin as (f & Hf & Hin). exists f. split; [done|]. unfold same_name. rewrite Hf. symmetry. apply to_lower_idem.
Qed.

(** ** C11 *)
(** After a successful reload the dependencies of a carried-over plugin are carried over, too: the new manager holds the
    same objects as the old one. *)
Theorem C11_carried_over_with_dependencies o h cur a t r m p d :
  next_call o h cur (api_prog o a) t r -> published t m -> holds m p -> pl_inst p ∉ created t -> d ∈ pl_deps p ->
  exists om q q0, cur = Some om /\ FindPlugin m d = Some q /\ FindPlugin om d = Some q0 /\ same_plugin q q0 /\ pl_inst q ∉ created t.
Proof.
  intros Hn Hpub Hp Hnc Hd. destruct (published_plugins _ _ _ _ _ _ _ _ Hn Hpub Hp) as [[_ Hb]|(Hu & Hs & _)]; [destruct Hb as [? _]; done|].
  destruct (Plugins_lookup _ _ Hp) as [k Hk]. destruct (pub_ready _ _ _ _ _ _ _ Hn Hpub) as [Hkeyed Hr].
  destruct Hr as (_ & _ & Hreb & Hperm & _). destruct (Hreb k p Hk Hu d Hd) as (q & Hq & Hqu).
  assert (Hh : holds m q) by by eapply elem_Plugins.
  destruct (published_plugins _ _ _ _ _ _ _ _ Hn Hpub Hh) as [[Hqu' _]|(_ & _ & Hnc' & om & q0 & -> & Hq0 & Hsame & _)]; [congruence|].
  exists om, q, q0. split_and!; try done. destruct (Plugins_lookup _ _ Hq0) as [k0 Hk0].
  destruct Hn as (HH & _ & _ & _ & HF). pose proof (history_sound _ _ _ Hs HH om eq_refl) as Hso.
  pose proof (sound_keyed _ _ Hso k0 q0 Hk0) as Hkey. unfold FindPlugin.
  assert (name2key d = k0) as ->; [|done]. rewrite <- Hkey. destruct Hsame as (<- & _). symmetry. by apply Hkeyed.
Qed.

(** A reload cannot succeed if it would keep a plugin but replace or drop one of its dependencies. *)
Theorem C11_rebuilt_or_removed_dependency o h om a t r dir entries p q f :
  next_call o h (Some om) (api_prog o a) t r -> o_static o = None -> listed t dir entries -> depends om p q ->
  (* p's file is there and p is kept *)
  f ∈ plugin_files (o_whitelist o) entries -> same_name (plugin_of f) (pl_name p) ->
  (pl_reloadable p = false \/ forall content, EvReadFile (path_join dir f) (Val content) ∈ t -> sha1 content = pl_sha1 p) ->
  (* q has no file, or is reloadable and has a new content *)
  (forall g, g ∈ plugin_files (o_whitelist o) entries -> same_name (plugin_of g) (pl_name q) ->
     pl_reloadable q = true /\ forall content, EvReadFile (path_join dir g) (Val content) ∈ t -> sha1 content <> pl_sha1 q) ->
  ~ is_val r /\ after (Some om) t = Some om.
Proof.
  intros Hn Hs Hl (Hp & Hq & d & Hd & Hdq) Hf Hfp Hkp Hrq.
  enough (Hv : ~ is_val r) by (split; [done|by apply (C08_failed_call_changes_nothing _ _ _ _ _ _ Hn)]).
  intros Hv. destruct (listed_run _ _ _ _ _ _ _ _ Hn Hs Hl) as (_ & [(_ & _ & _ & _ & ->)|[(_ & H0 & _)|(_ & _ & ta & tl & tz & Ht & _ & _ & HR)]]).
  { by destruct Hv. }
  { rewrite H0 in Hf. by apply elem_of_nil in Hf. }
  destruct (file_shape _ _ _ _ _ _ HR) as (ti & tz' & Htl & _ & [[_ Hnv]|(m & old & dt & Hz & -> & _)]); [done|].
  assert (Hpub : published t m).
  { unfold published. rewrite Ht, Htl, Hz. rewrite !elem_of_app. right. left. right. right. by apply elem_of_list_singleton. }
  pose proof Hn as (HH & _ & _ & _ & HF). pose proof (history_sound _ _ _ Hs HH om eq_refl) as Hso.
  assert (Hfind : forall n x, holds om x -> same_name n (pl_name x) -> FindPlugin om n = Some x).
  { intros n x Hx Hnx. destruct (Plugins_lookup _ _ Hx) as [k Hk]. unfold FindPlugin, name2key. rewrite Hnx. pose proof (sound_keyed _ _ Hso k x Hk) as Hkey.
    unfold name2key in Hkey. by rewrite Hkey. }
  destruct (C13_keep_or_replace _ _ _ _ _ _ _ _ _ _ Hn Hs Hpub Hl Hf) as (cf & p' & Hrf & Hp' & Hcase).
  unfold plugin_of_current in Hcase. rewrite (Hfind _ _ Hp Hfp) in Hcase.
  assert (Hsame : same_plugin p' p).
  { destruct (pl_reloadable p) eqn:Hrel; simpl in Hcase; [|by destruct Hcase]. destruct Hkp as [?|Hkp]; [done|].
    rewrite (Hkp _ Hrf), String.eqb_refl in Hcase. by destruct Hcase. }
  clear Hcase. destruct (pub_ready _ _ _ _ _ _ _ Hn Hpub) as [Hkeyed Hr].
  assert (Hh : holds m p') by (eapply elem_Plugins; [apply Hr|exact Hp']).
  assert (Hold : forall x, holds om x -> pl_inst x ∉ created t).
  { intros x Hx Hin. destruct (Plugins_lookup _ _ Hx) as [k Hk]. destruct (proj2 Hso _ _ Hk) as (_ & _ & _ & Hc & _).
    unfold fresh_objects in HF. rewrite created_app in HF. apply NoDup_app in HF as (_ & HF & _). apply (HF _ Hc Hin). }
  assert (Hnc : pl_inst p' ∉ created t).
  { assert (pl_inst p' = pl_inst p) as -> by apply Hsame. by apply Hold. }
  assert (Hd' : d ∈ pl_deps p') by (assert (pl_deps p' = pl_deps p) as -> by apply Hsame; done).
  destruct (C11_carried_over_with_dependencies _ _ _ _ _ _ _ _ _ Hn Hpub Hh Hnc Hd') as (om' & q' & q0 & Hom & Hq' & Hq0 & Hqs & Hqn).
  injection Hom as <-. rewrite (Hfind _ _ Hq Hdq) in Hq0. injection Hq0 as <-.
  assert (Hhq : holds m q') by (eapply elem_Plugins; [apply Hr|exact Hq']).
  destruct (C13_no_file_no_plugin _ _ _ _ _ _ _ _ _ _ Hn Hs Hpub Hl Hhq) as (g & Hg & Hgq).
  assert (Hgq' : same_name (plugin_of g) (pl_name q)) by (assert (pl_name q' = pl_name q) as <- by apply Hqs; done).
  destruct (Hrq g Hg Hgq') as [Hrel Hnew].
  destruct (C13_keep_or_replace _ _ _ _ _ _ _ _ _ _ Hn Hs Hpub Hl Hg) as (cg & q2 & Hrg & Hq2 & Hcase).
  unfold plugin_of_current in Hcase. rewrite (Hfind _ _ Hq Hgq'), Hrel in Hcase. simpl in Hcase.
  assert (q2 = q') as ->.
  { unfold FindPlugin, name2key in Hq2. rewrite Hgq in Hq2. destruct (Plugins_lookup _ _ Hhq) as [k Hk]. pose proof (Hkeyed k q' Hk) as Hkey.
    unfold name2key in Hkey. rewrite Hkey in Hq2. congruence. }
  destruct (String.eqb (sha1 cg) (pl_sha1 q)) eqn:He; [apply String.eqb_eq in He; by apply (Hnew cg Hrg)|]. by apply Hqn, Hcase.
Qed.
End Props.

(** ** Concrete cases *)
Example C09_C12_case : history dyn (t0 ++ t1) (Some m1) /\ fresh_objects (t0 ++ t1) /\ holds m1 (plug m1 "c") /\ holds m1 (plug m1 "b") /\
  pl_imports (plug m1 "b") = [("A", val_export 1)] /\ pl_imports (plug m1 "c") = [("B", val_export 2)] /\
  (pl_inst (plug m1 "b") ∈ created t0) /\ pl_reloadable (plug m1 "a") = false.
Proof.
  split_and!; [apply history1|apply fresh1| | |vm_compute; reflexivity..| |vm_compute; reflexivity]; apply elem_of_list_In; vm_compute; tauto.
Qed.
Example C12_case : depends m1 (plug m1 "c") (plug m1 "b") /\ depends m1 (plug m1 "b") (plug m1 "a").
Proof.
  split; (split; [apply elem_of_list_In; vm_compute; tauto|split; [apply elem_of_list_In; vm_compute; tauto|]]).
  - exists "b". split; [apply elem_of_list_In; vm_compute; tauto|vm_compute; reflexivity].
  - exists "a". split; [apply elem_of_list_In; vm_compute; tauto|vm_compute; reflexivity].
Qed.
Example C10_case : next_call dyn t0 (Some m0) (api_prog dyn (Call_Reload 78 (Some 5%N))) t1 (snd run1) /\ published t1 m1 /\
  holds m1 (plug m1 "c") /\ pl_inst (plug m1 "c") ∈ created t1 /\ length (default [] (dep_fields (imports "c"))) = 1%nat /\
  wired_to m1 (plug m1 "c") (imports "c").
Proof.
  split_and!; [apply second_load|apply published1| | |vm_compute; reflexivity|]; [apply elem_of_list_In; vm_compute; tauto..|].
  exists [fld "B" "" 2], [plug m1 "b"]. split_and!; [vm_compute; reflexivity| |vm_compute; reflexivity..].
  constructor; [|constructor]. split_and!; [vm_compute; reflexivity..|]. intros x. vm_compute. intros [= <-]. reflexivity.
Qed.
Example C11_case : next_call dyn t0 (Some m0) (api_prog dyn (Call_Reload 78 (Some 5%N))) t1 (snd run1) /\ published t1 m1 /\
  holds m1 (plug m1 "b") /\ pl_inst (plug m1 "b") ∉ created t1 /\ "a" ∈ pl_deps (plug m1 "b").
Proof.
  split_and!; [apply second_load|apply published1| | |]; [apply elem_of_list_In; vm_compute; tauto| |apply elem_of_list_In; vm_compute; tauto].
  apply (bool_decide_unpack _). vm_compute. exact I.
Qed.
Definition t_rebuilt := fst (demo_run 3 world_rebuilt dyn (Call_Reload 7 None)).
Example C11_rebuilt_case : next_call dyn t0 (Some m0) (api_prog dyn (Call_Reload 7 None)) t_rebuilt (Err (ERebuilt "b" "c")) /\
  listed t_rebuilt "/p" [("a.so", false); ("b.so", false); ("c.so", false)] /\ depends m0 (plug m0 "c") (plug m0 "b") /\
  EvReadFile "/p/c.so" (Val (pl_sha1 (plug m0 "c"))) ∈ t_rebuilt /\ EvReadFile "/p/b.so" (Val "b2") ∈ t_rebuilt /\
  sha1 "b2" <> pl_sha1 (plug m0 "b") /\ pl_reloadable (plug m0 "b") = true.
Proof.
  split_and!; [apply demo_second; [done|apply world_rebuilt_ok|vm_compute; reflexivity]| | | | |vm_compute; discriminate|vm_compute; reflexivity].
  - apply elem_of_list_In; vm_compute; tauto.
  - split; [apply elem_of_list_In; vm_compute; tauto|split; [apply elem_of_list_In; vm_compute; tauto|]].
    exists "b". split; [apply elem_of_list_In; vm_compute; tauto|vm_compute; reflexivity].
  - apply elem_of_list_In; vm_compute; tauto.
  - apply elem_of_list_In; vm_compute; tauto.
Qed.
Example C11_removed_case : next_call dyn t0 (Some m0) (api_prog dyn (Call_Reload 7 None)) (fst (demo_run 3 world_removed dyn (Call_Reload 7 None)))
  (Err (EPanic None PNil)).
Proof. apply demo_second; [done|apply world_removed_ok|vm_compute; reflexivity]. Qed.
Example C13_case : next_call dyn t0 (Some m0) (api_prog dyn (Call_Reload 78 (Some 5%N))) t1 (snd run1) /\ o_static dyn = None /\ published t1 m1 /\
  listed t1 "/p" [("a.so", false); ("b.so", false); ("c.so", false); ("note.txt", false)] /\
  plugin_files (o_whitelist dyn) [("a.so", false); ("b.so", false); ("c.so", false); ("note.txt", false)] = ["a.so"; "b.so"; "c.so"] /\
  (* a is not reloadable and has a new content, b is unchanged, c has a new content *)
  map (fun n => (sha1 (d_content world1 (path_join "/p" (n +:+ ".so"))), pl_sha1 (plug m0 n), pl_inst (plug m0 n), pl_inst (plug m1 n))) ["a"; "b"; "c"] =
    [("a2", "/p/a.so", 1, 1); ("/p/b.so", "/p/b.so", 2, 2); ("c2", "/p/c.so", 3, 4)]%N.
Proof.
  split_and!; [apply second_load|done|apply published1| |vm_compute; reflexivity..]. apply elem_of_list_In; vm_compute; tauto.
Qed.

Print Assumptions C09_no_stale_dependency.
Print Assumptions C10_imports_are_served.
Print Assumptions C11_carried_over_with_dependencies.
Print Assumptions C11_rebuilt_or_removed_dependency.
Print Assumptions C12_nonreloadable_closed.
Print Assumptions C13_keep_or_replace.
Print Assumptions C13_no_file_no_plugin.
