(** C76: a reload when nothing has changed. *)
From Verif Require Import PropGraph.
From Verif Require Export PropExact.

Section Proofs.
Context {E : GoEnv}.
Section Again.
Context (D : string -> described) (entries : list (string * bool)) (content : string -> string).
Notation W := (Forall (well_behaved D entries content)).

Lemma pub_value o h cur a t r m : next_call o h cur (api_prog o a) t r -> o_static o = None -> published t m -> exists d, r = Val (Some d).
Proof.
  intros HN Hst Hpub. destruct (pub_inv _ _ _ _ _ _ _ Hst HN Hpub) as (data & cbs & tp & files & s & tn & tlp & add & HP).
  rewrite (pub_res _ _ _ _ _ _ _ _ _ _ _ _ _ _ _ HP). eauto.
Qed.
Lemma pub_files_some o h cur a t r m dir : next_call o h cur (api_prog o a) t r -> o_static o = None -> published t m -> listed t dir entries ->
  plugin_files (o_whitelist o) entries <> [].
Proof.
  intros HN Hst Hpub HL Hnil. destruct (listed_run _ _ _ _ _ _ _ _ HN Hst HL) as (HV & [(_ & _ & _ & Hnp & _)|[(_ & _ & _ & _ & Hnp)|(_ & Hne & _)]]); [exact (proj1 (Forall_forall _ _) Hnp _ Hpub)|exact (proj1 (Forall_forall _ _) Hnp _ Hpub)|done].
Qed.

(** the plugin of each file is in the manager, and a load with the same files would keep it *)
Lemma kept_again o h cur a t r m f : next_call o h cur (api_prog o a) t r -> o_static o = None -> W t -> published t m ->
  NoDup (names_of (plugin_files (o_whitelist o) entries)) -> f ∈ plugin_files (o_whitelist o) entries ->
  exists p, FindPlugin m (plugin_of f) = Some p /\ pl_name p = to_lower (plugin_of f) /\ kept_for (Some m) content f = Some p.
Proof.
  intros HN Hst HW HP Hnd Hf. destruct (good_listed_call D entries content _ _ _ _ _ _ HN Hst HW) as [dir Hl].
  destruct (C13_keep_or_replace _ _ _ _ _ _ _ _ _ _ HN Hst HP Hl Hf) as (_ & p & _ & Hp & _). exists p. split; [done|].
  destruct (plugin_from D entries content _ _ _ _ _ _ _ _ _ HN Hst HW HP Hp) as (Hnm & f1 & Hf1 & Hs1 & Hc). split; [done|].
  assert (f1 = f) as -> by (by eapply (nodup_map_inj (fun f => to_lower (plugin_of f)))).
  unfold kept_for. rewrite Hp.
  assert (Hk : negb (pl_reloadable p) = true \/ String.eqb (sha1 (content f)) (pl_sha1 p) = true).
  { destruct (plugin_of_current cur (plugin_of f)) as [q|]; [|right; destruct Hc as (_ & _ & ->); apply String.eqb_refl].
    destruct (negb (pl_reloadable q)) eqn:Hq; [left; destruct Hc as ((_ & _ & _ & _ & _ & _ & _ & _ & _ & -> & _) & _); exact Hq|right].
    destruct (String.eqb (sha1 (content f)) (pl_sha1 q)) eqn:Hs; [destruct Hc as ((_ & _ & -> & _) & _); exact Hs|destruct Hc as (_ & _ & ->); apply String.eqb_refl]. }
  destruct Hk as [-> | ->]; [done|]. by rewrite orb_true_r.
Qed.

Lemma rules_again o h cur a t r m : next_call o h cur (api_prog o a) t r -> o_static o = None -> W t -> published t m ->
  file_rules (Some m) content (o_whitelist o) entries /\
  rules D (kept_among (Some m) content (plugin_files (o_whitelist o) entries)) (names_of (plugin_files (o_whitelist o) entries)).
Proof.
  intros HN Hst HW HP. destruct (pub_value _ _ _ _ _ _ _ HN Hst HP) as [d ->].
  destruct (proj1 (C55_load_succeeds_exactly_when o h cur a t _ D entries content HN Hst HW)) as [(Hnd & _ & Hwl) HR]; [eauto|].
  pose proof (fun f => kept_again o h cur a t _ m f HN Hst HW HP Hnd) as Hkept.
  destruct (good_listed_call D entries content _ _ _ _ _ _ HN Hst HW) as [dir Hl].
  destruct (C26_loads_exactly_the_plugin_files _ _ _ _ _ _ _ _ _ HN Hst HP Hl) as [_ Hperm]. fold (names_of (plugin_files (o_whitelist o) entries)) in Hperm.
  destruct (C01_plugins_in_dependency_order _ _ _ _ _ _ _ HN HP) as (Hfind & _ & Hdeps).
  destruct (pub_ready _ _ _ _ _ _ _ HN HP) as [HK (Hac & _)].
  assert (Hname : forall n, n ∈ names_of (plugin_files (o_whitelist o) entries) ->
    exists p, kept_among (Some m) content (plugin_files (o_whitelist o) entries) n = Some p /\ pm_map m !! n = Some p /\ pl_name p = n /\ holds m p /\ to_lower n = n).
  { intros n Hn. apply elem_of_list_fmap in Hn as (f & -> & Hf). destruct (Hkept f Hf) as (p & Hp & Hnm & Hk). exists p.
    split_and!; [rewrite kept_among_file by done; exact Hk|exact Hp|exact Hnm| |apply to_lower_idem]. by apply Hfind in Hp as [? _]. }
  split; [split_and!; [done| |done]|].
  - intros f Hf. right. destruct (Hkept f Hf) as (p & _ & _ & ->). done.
  - constructor.
    + intros n Hn Hk. destruct (Hname n Hn) as (p & Hp & _). congruence.
    + intros n p d0 Hn Hk Hd. destruct (Hname n Hn) as (p' & Hp' & _ & _ & Hh & _). assert (p' = p) as -> by congruence.
      apply elem_of_list_split in Hh as (l1 & l2 & Hl12). destruct (Hdeps l1 p l2 d0 Hl12 Hd) as (q & Hq & Hs). exists (pl_name q).
      assert (Hin : pl_name q ∈ names_of (plugin_files (o_whitelist o) entries)).
      { rewrite <- Hperm. apply elem_of_list_fmap_1. rewrite Hl12. apply elem_of_app. by left. }
      split_and!; [done|done|]. destruct (Hname _ Hin) as (q' & -> & _). done.
    + intros n Hn. apply (Hac n). revert Hn. generalize n at 1 3. intros b Hn.
      assert (Hedge : forall x y, needs D (kept_among (Some m) content (plugin_files (o_whitelist o) entries)) (names_of (plugin_files (o_whitelist o) entries)) x y -> edge (pm_map m) x y).
      { intros x y (Hx & Hy & d0 & Hd & Hs). destruct (Hname x Hx) as (p & Hk & Hp & _). destruct (Hname y Hy) as (_ & _ & _ & _ & _ & Hly).
        unfold deps_of in Hd. rewrite Hk in Hd. exists p, d0. split_and!; [done|done|]. unfold name2key. unfold same_name in Hs. congruence. }
      clear -Hn Hedge. induction Hn as [x y Hxy|x y z Hxy _ IH]; [by apply tc_once, Hedge|]. eapply tc_l; [by apply Hedge|done].
    + apply HR.
    + apply HR.
Qed.
End Again.

(** [m] is the manager of a load in an environment where nothing fails, and the next load, by whatever call, finds the same
    directory with the same files.  Then it succeeds, and nothing is opened or started: it asks every plugin for its live functions
    and types, and that is all.  The new manager has the same plugins and the same tables. *)
Lemma Forall2_of_map {A B} (f : A -> B) (R : A -> A -> Prop) l1 l2 :
  map f l1 = map f l2 -> (forall x y, x ∈ l1 -> y ∈ l2 -> f x = f y -> R x y) -> Forall2 R l1 l2.
Proof.
  revert l2. induction l1 as [|x l1 IH]; intros [|y l2] Em H; try done; constructor.
  - injection Em as Em _. apply H; [left|left|done].
  - injection Em as _ Em. apply IH; [done|]. intros; apply H; [by right|by right|done].
Qed.
Theorem C76_reload_without_changes o cur h a t r m h' a' t' r' D entries content :
  o_static o = None ->
  next_call o h cur (api_prog o a) t r -> Forall (well_behaved D entries content) t -> published t m ->
  next_call o h' (Some m) (api_prog o a') t' r' -> Forall (well_behaved D entries content) t' ->
  exists d m', r' = Val (Some d) /\ published t' m' /\ created t' = [] /\
    call_sigs t' = map (called RLiveFuncs (pm_id m') ArgNone) (Plugins m') ++ map (called RLiveTypes (pm_id m') ArgNone) (Plugins m') /\
    Permutation (map pl_name (Plugins m')) (map pl_name (Plugins m)) /\ Forall2 same_plugin (with_deps m') (with_deps m) /\
    (forall n p, FindPlugin m n = Some p -> exists p', FindPlugin m' n = Some p' /\ same_plugin p' p /\
       pl_note p' = if pl_reloadable p then "unchanged" else "not reloadable") /\
    pm_livefuncs m = pm_livefuncs m' /\ pm_livetypes m = pm_livetypes m'.
Proof.
  intros Hst HN HW HP HN' HW'. destruct (rules_again D entries content _ _ _ _ _ _ _ HN Hst HW HP) as [HFR HR].
  destruct (good_listed_call D entries content _ _ _ _ _ _ HN Hst HW) as [dir Hl]. destruct (good_listed_call D entries content _ _ _ _ _ _ HN' Hst HW') as [dir' Hl'].
  pose proof (pub_files_some entries _ _ _ _ _ _ _ _ HN Hst HP Hl) as Hne.
  assert (HP' : exists d m', r' = Val (Some d) /\ published t' m').
  { destruct (proj2 (C55_load_succeeds_exactly_when o h' (Some m) a' t' r' D entries content HN' Hst HW')) as [d ->]; [by split|].
    destruct (listed_run _ _ _ _ _ _ _ _ HN' Hst Hl') as (HV & [(_ & _ & _ & _ & Hr)|[(_ & Hnil & _)|(_ & _ & ta & tl & tz & -> & _ & _ & Hfr)]]); [done|done|].
    inversion Hfr; subst. eexists _, _. split; [reflexivity|]. apply elem_of_app. right. apply elem_of_app. left.
    right. do 4 (apply elem_of_app; right). left. }
  destruct HP' as (d & m' & -> & HP'). exists d, m'. split; [done|]. split; [done|].
  destruct (C26_loads_exactly_the_plugin_files _ _ _ _ _ _ _ _ _ HN Hst HP Hl) as [_ P1].
  destruct (C26_loads_exactly_the_plugin_files _ _ _ _ _ _ _ _ _ HN' Hst HP' Hl') as [_ P2].
  destruct HFR as (Hnd & _ & _).
  assert (Hsame : forall n p', FindPlugin m' n = Some p' -> exists p, FindPlugin m n = Some p /\ same_plugin p' p /\ pl_note p' = if pl_reloadable p then "unchanged" else "not reloadable").
  { intros n p' Hp'. destruct (plugin_from D entries content _ _ _ _ _ _ _ _ _ HN' Hst HW' HP' Hp') as (Hnm & f & Hf & Hs & Hc).
    destruct (kept_again D entries content _ _ _ _ _ _ _ _ HN Hst HW HP Hnd Hf) as (p & Hp & Hpn & Hk).
    assert (Hpn' : FindPlugin m n = Some p) by (unfold FindPlugin, name2key in *; by rewrite <- Hs). exists p. split; [done|].
    unfold kept_for in Hk. rewrite Hp in Hk. unfold plugin_of_current in Hc. rewrite Hpn' in Hc.
    destruct (pl_reloadable p); cbn [negb orb] in *; [|done]. destruct (String.eqb _ _); done. }
  assert (Hno : new_in t' m' = []).
  { unfold new_in. assert (Hall : forall l, (forall p, p ∈ l -> holds m' p) -> List.filter (fun p => bool_decide (pl_inst p ∈ created t')) l = []); [|by apply Hall].
    induction l as [|p l IH]; intros Hh; [done|]. cbn [List.filter]. rewrite IH by (intros q Hq; apply Hh; by right).
    rewrite bool_decide_eq_false_2; [done|]. intros Hi.
    destruct (C01_plugins_in_dependency_order _ _ _ _ _ _ _ HN' HP') as (Hfind & _ & _).
    destruct (Hsame (pl_name p) p) as (q & Hq & (_ & _ & _ & _ & _ & _ & _ & Hi' & _) & _); [apply Hfind; split; [apply Hh; left|done]|].
    rewrite Hi' in Hi. pose proof HN' as (HH' & _ & _ & _ & HF'). pose proof (history_sound _ _ _ Hst HH' _ eq_refl) as (_ & HS).
    destruct (HS _ _ Hq) as (_ & _ & _ & Hcr & _). unfold fresh_objects in HF'. rewrite created_app in HF'. apply NoDup_app in HF' as (_ & HF' & _). exact (HF' _ Hcr Hi). }
  destruct (C02_successful_load_calls _ _ _ _ _ _ _ HN' HP') as (opened & byname & _ & Hop & _ & Hby & Hcr & _ & _ & Hcalls).
  assert (Hdist : distinct_registrations o) by (intros st Hs; congruence). specialize (Hop Hdist). rewrite Hno in Hop, Hby, Hcalls. symmetry in Hby. apply Permutation_nil in Hby as ->.
  symmetry in Hop. apply Permutation_nil in Hop as ->. cbn [map flat_map app lifecycle_calls] in *. rewrite app_nil_r in Hcalls.
  split; [done|]. split; [exact Hcalls|]. split; [by rewrite P1, P2|].
  destruct (C01_plugins_in_dependency_order _ _ _ _ _ _ _ HN HP) as (HfindA & _ & _).
  destruct (C01_plugins_in_dependency_order _ _ _ _ _ _ _ HN' HP') as (HfindB & _ & _).
  assert (Hkeep : forall n p, FindPlugin m n = Some p -> exists p', FindPlugin m' n = Some p' /\ same_plugin p' p /\
       pl_note p' = if pl_reloadable p then "unchanged" else "not reloadable"); [|split; [|split; [exact Hkeep|]]].
  2: { apply Forall2_of_map with (f := fun p => to_lower (pl_name p)).
    - symmetry. apply (C42_dependents_in_fixed_order _ _ _ _ _ _ _ _ _ _ _ _ _ _ HN HP HN' HP'). intros n.
      destruct (FindPlugin m n) as [p|] eqn:E1.
      + destruct (Hkeep n p E1) as (p' & -> & (_ & _ & _ & _ & _ & _ & Hd & _) & _). cbn. by rewrite Hd.
      + destruct (FindPlugin m' n) as [p'|] eqn:E'; [|done]. destruct (Hsame n p' E') as (p & Hp & _). congruence.
    - intros p' p Hp' Hp Hlow. unfold with_deps in *. apply elem_of_list_In, filter_In in Hp' as [Hp' _]. apply elem_of_list_In, filter_In in Hp as [Hp _].
      rewrite <- elem_of_list_In in Hp, Hp'.
      assert (F1 : FindPlugin m (pl_name p) = Some p) by (apply HfindA; by split).
      destruct (Hkeep _ _ F1) as (q & Hq & Hs & _).
      assert (F2 : FindPlugin m' (pl_name p) = Some p') by (apply HfindB; by split). by assert (q = p') as <- by congruence. }
  - intros n p Hp. destruct (C01_plugins_in_dependency_order _ _ _ _ _ _ _ HN HP) as (Hfind & _ & _). apply Hfind in Hp as Hp2. destruct Hp2 as [Hh Hs].
    assert (Hin : pl_name p ∈ map pl_name (Plugins m')) by (rewrite P2, <- P1; by apply elem_of_list_fmap_1).
    apply elem_of_list_fmap in Hin as (p' & Hpp & Hh').
    destruct (C01_plugins_in_dependency_order _ _ _ _ _ _ _ HN' HP') as (Hfind' & _ & _).
    assert (Hp' : FindPlugin m' n = Some p') by (apply Hfind'; split; [done|]; unfold same_name in *; congruence).
    exists p'. split; [done|]. destruct (Hsame n p' Hp') as (p0 & Hp0 & H1 & H2). by assert (p0 = p) as -> by congruence.
  - apply (same_tables D entries content entries content o cur h a t r m h' (Some m) a' t' (Val (Some d)) m'); [done..|]. intros x. by rewrite P1, P2.
Qed.
End Proofs.

(** ** The hypotheses are met *)
(** After the load of C55_case the files stay as they are, and there is one more reload. *)
Definition world2 : demo_world := match world1 with mkDemo _ d l c _ cl cb e s op => mkDemo (Some m1) d l c 9 cl cb e s op end.
Definition run2 := demo_run 9 world2 dyn (Call_Reload 5 None).
Definition t2 := fst run2.
Lemma world2_ok : demo_ok world2.
Proof. split_and!; try done; [apply world_listing|intros; apply good_call_valid]. Qed.
Lemma t2_well : Forall (well_behaved D_abc entries_abc content1) t2.
Proof.
  apply demo_well_all.
  - exact (demo_well 9 world2 content1 (ReloadWithCallback dyn 5 None) eq_refl eq_refl eq_refl eq_refl eq_refl eq_refl eq_refl []).
  - replace (omap reads_file t2) with [("/p/a.so", Val "a2"); ("/p/b.so", Val "/p/b.so"); ("/p/c.so", Val "c2")] by (vm_compute; reflexivity).
    repeat constructor.
Qed.
Example C76_case : o_static dyn = None /\
  next_call dyn t0 (Some m0) (api_prog dyn (Call_Reload 78 (Some 5%N))) t1 (snd run1) /\ Forall (well_behaved D_abc entries_abc content1) t1 /\ published t1 m1 /\
  next_call dyn (t0 ++ t1) (Some m1) (api_prog dyn (Call_Reload 5 None)) t2 (snd run2) /\ Forall (well_behaved D_abc entries_abc content1) t2 /\
  map pl_inst (Plugins m1) = [1; 2; 4]%N /\ map pl_inst (with_deps m1) = [2; 4]%N /\ length (call_sigs t2) = 6%nat.
Proof.
  split_and!; [done|apply second_load|apply t1_well|apply published1| |apply t2_well|vm_compute; reflexivity..].
  apply demo_next; [apply history1|done|apply fresh1| |apply world2_ok].
  assert (Hc : created (t0 ++ t1) = [1; 2; 3; 4]%N) by (vm_compute; reflexivity). intros i. rewrite Hc. rewrite !elem_of_cons, elem_of_nil. lia.
Qed.
Print Assumptions C76_reload_without_changes.
