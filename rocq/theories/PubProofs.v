(** A successful dynamic load, seen from outside *)
From Verif Require Export HistoryProofs.

Section Proofs.
Context {E : GoEnv}.

(** events that are neither plugin calls nor reference operations *)
Definition silent (t : list event) : Prop :=
  call_sigs t = [] /\ increments t = [] /\ decrements t = [] /\ created t = [] /\ admitted t = [].
Lemma silent_app t1 t2 : silent t1 -> silent t2 -> silent (t1 ++ t2).
Proof.
  intros (A1 & A2 & A3 & A4 & A5) (B1 & B2 & B3 & B4 & B5). unfold silent.
  rewrite call_sigs_app, increments_app, decrements_app, created_app, admitted_app. by rewrite A1, A2, A3, A4, A5.
Qed.
Lemma silent_cons e t : silent [e] -> silent t -> silent (e :: t).
Proof. intros. by apply (silent_app [e] t). Qed.
Lemma silent_nil : silent [].
Proof. done. Qed.
Lemma silent_made b tn s : made b tn s -> silent tn.
Proof. intros (_ & -> & _). by destruct b. Qed.
Lemma silent_accepted new old l : silent (map (accepted new old) l).
Proof. induction l; [done|]. by apply silent_cons. Qed.
Lemma silent_spawned o old : silent (spawned o old).
Proof. by destruct old. Qed.
Lemma silent_chosen o tp files : chosen o tp files -> silent tp.
Proof. by intros (d1 & d2 & abs & entries & found & -> & _). Qed.
Lemma silent_refused o tp e : refused o tp e -> silent tp.
Proof. by intros []. Qed.

Record pub (o : opts) (h : list event) (cur : option mgr) (p : prog (outcome (option Details))) (t : list event)
  (r : outcome (option Details)) (m : mgr) (data : N) (cbs : list (option N)) (tp : list event) (files : list string)
  (s : mgr) (tn tl add : list event) : Prop := mkPub {
  pub_cbs : call_cbs o p cbs data;
  pub_trace : t = (EvLock :: tp) ++ (EvLoadCurrent cur :: tn) ++ tl ++
     (map (accepted m cur) (somes cbs) ++ spawned o cur ++ [EvStore m] ++ add ++ [EvUnlock]);
  pub_add : add = [] \/ add = [EvAddCounter];
  pub_chosen : chosen o tp files;
  pub_files : files <> [];
  pub_made : made (o_newExt o) tn s;
  pub_head : same_head s m;
  pub_private : Forall private_event tl;
  pub_ok : load_ok files cur data s tl m;
  pub_res : r = Val (Some (details_of m files ∅));
  pub_sound : sound (h ++ t) m;
  pub_old : forall om, cur = Some om -> sound h om;
}.

Lemma in_private_store tl m : Forall private_event tl -> EvStore m ∉ tl.
Proof. intros H Hin. rewrite Forall_forall in H. by apply H in Hin. Qed.

Lemma next_keyed o h cur p t r : o_static o = None -> next_call o h cur p t r ->
  (forall x, saw_current t x -> keyed (old_map x)) /\ (forall om, cur = Some om -> sound h om).
Proof.
  intros Hs (Hh & Hp & He & Hsaw & Hfr). pose proof (history_sound _ _ _ Hs Hh) as Hsound. split; [|done].
  intros x Hx. rewrite (Hsaw x Hx). destruct cur as [om|]; [|done]. eapply sound_keyed. by apply Hsound.
Qed.

Lemma no_publish_not t m : no_publish t -> ~ published t m.
Proof. intros H Hin. unfold no_publish in H. rewrite Forall_forall in H. by apply H in Hin. Qed.

Lemma pub_inv o h cur p t r m :
  o_static o = None -> next_call o h cur p t r -> published t m ->
  exists data cbs tp files s tn tl add, pub o h cur p t r m data cbs tp files s tn tl add.
Proof.
  intros Hs Hn Hpub. pose proof (next_keyed _ _ _ _ _ _ Hs Hn) as [Hk Hsound].
  destruct Hn as (Hh & Hp & He & Hsaw & Hfr).
  destruct (load_call_run o p t r Hs Hp Hk He) as (data & cbs & tb & add & Hcbs & Ht & Hadd & Hd).
  assert (Hz : no_publish (add ++ [EvUnlock])) by (destruct Hadd as [->| ->]; repeat constructor).
  apply dir_run_cases in Hd as [[Hn Hr]|(tp & files & tf & old & s & new & tl & d & Htb & Hn & Hc & Hne & Hok & Hres)].
  { exfalso. eapply no_publish_not; [|exact Hpub]. subst t. constructor; [done|]. by apply no_publish_app. }
  assert (Hold : old = cur).
  { apply Hsaw. rewrite Ht, Htb. apply (saw_app_r [EvLock]). apply saw_app_l, saw_app_r. by eapply file_ok_saw. }
  subst old. destruct Hok as (tn & Hm & Hsh & Hpr & Hl & Htf & Hdet).
  assert (m = new) as ->.
  { unfold published in Hpub. rewrite Ht, Htb, Htf in Hpub.
    change (EvStore m ∈ (EvLock :: tp ++ (EvLoadCurrent cur :: tn ++ tl ++ map (accepted new cur) (somes cbs) ++ spawned o cur ++ [EvStore new])) ++ add ++ [EvUnlock]) in Hpub.
    apply elem_of_app in Hpub as [Hpub|Hpub]; [|by destruct (no_publish_not _ m Hz)].
    apply elem_of_cons in Hpub as [Hpub|Hpub]; [done|].
    apply elem_of_app in Hpub as [Hpub|Hpub]; [by destruct (no_publish_not _ m Hn)|].
    apply elem_of_cons in Hpub as [Hpub|Hpub]; [done|].
    apply elem_of_app in Hpub as [Hpub|Hpub]; [by destruct (no_publish_not _ m (made_no_publish _ _ _ Hm))|].
    apply elem_of_app in Hpub as [Hpub|Hpub]; [by destruct (in_private_store _ m Hpr)|].
    apply elem_of_app in Hpub as [Hpub|Hpub]; [by destruct (no_publish_not _ m (callbacks_no_publish new cur (somes cbs)))|].
    apply elem_of_app in Hpub as [Hpub|Hpub].
    - destruct cur; [|by apply elem_of_nil in Hpub]. by apply elem_of_list_singleton in Hpub.
    - apply elem_of_list_singleton in Hpub. congruence. }
  exists data, cbs, tp, files, s, tn, tl, add. split; try done.
  - rewrite Ht, Htb, Htf. repeat (rewrite <- ?app_assoc; simpl). done.
  - by rewrite Hres, Hdet.
  - eapply (history_sound o (h ++ t) (after cur t)); [done|by econstructor|].
    rewrite Ht, Htb, Htf. change (EvLock :: ?x) with ([EvLock] ++ x). rewrite !after_app.
    rewrite (after_no_publish _ (add)); [|destruct Hadd as [->| ->]; repeat constructor].
    change (after ?c [EvUnlock]) with c.
    by eapply (file_ok_after o files data cbs _ cur s new tl d); exists tn.
Qed.


Lemma pub_in o h cur p t r m data cbs tp files s tn tl add e : pub o h cur p t r m data cbs tp files s tn tl add -> e ∈ tl -> e ∈ t.
Proof.
  intros P Hin. rewrite (pub_trace _ _ _ _ _ _ _ _ _ _ _ _ _ _ _ P).
  apply elem_of_app; right. apply elem_of_app; right. apply elem_of_app; by left.
Qed.

(** Plugins() of a keyed manager *)
Lemma map_key_Plugins m : keyed (pm_map m) -> Permutation (pm_ordered m) (map_keys (pm_map m)) ->
  map (fun p => name2key (pl_name p)) (Plugins m) = pm_ordered m.
Proof.
  intros Hk Hperm. unfold Plugins.
  assert (Hall : forall k, k ∈ pm_ordered m -> is_Some (pm_map m !! k)).
  { intros k Hin. rewrite Hperm in Hin. by apply map_keys_elem. }
  clear Hperm. induction (pm_ordered m) as [|k l IH]; simpl; [done|].
  destruct (Hall k) as [p Hp]; [by left|]. rewrite Hp. simpl. rewrite (Hk _ _ Hp). f_equal. apply IH. intros; apply Hall; by right.
Qed.

(** ** Static mode *)
Record spub (o : opts) (statics : gmap string (option StaticPlugin)) (p : prog (outcome (option Details))) (t : list event)
  (r : outcome (option Details)) (m : mgr) (data : N) (sel : gmap string (option StaticPlugin))
  (s : mgr) (tn tl : list event) : Prop := mkSpub {
  spub_call : p = LoadPlugins o data;
  spub_trace : t = (EvLock :: tn) ++ tl ++ (map (accepted m None) (somes [o_reloadCallback o]) ++ [EvStore m; EvUnlock]);
  spub_made : made (o_newExt o) tn s;
  spub_head : same_head s m;
  spub_sel : selected o statics sel;
  spub_found : forall n, n ∈ o_whitelist o -> statics !! n <> None;
  spub_private : Forall private_event tl;
  spub_ok : static_ok sel data s tl m;
  spub_res : r = Val (Some ((fun _ => "ok") <$> sel)) }.

Lemma static_load_run o statics data t r : o_static o = Some statics -> exec (LoadPlugins o data) t r ->
  exists tb, t = EvLock :: tb ++ [EvUnlock] /\ static_run o statics data [o_reloadCallback o] tb r.
Proof.
  intros Hs H. unfold LoadPlugins in H. apply exec_locked in H as (tb & -> & H). exists tb. split; [done|].
  rewrite Hs in H. by apply exec_swLoadStaticPlugins.
Qed.
Lemma static_reload_run o statics data extra t r : o_static o = Some statics -> exec (ReloadWithCallback o data extra) t r ->
  t = [] /\ r = Err EStaticMode.
Proof. intros Hs H. unfold ReloadWithCallback in H. by rewrite Hs in H. Qed.

Definition sfile_ok (o : opts) (statics : gmap string (option StaticPlugin)) (data : N) (t : list event) (m : mgr)
  (sel : gmap string (option StaticPlugin)) (s : mgr) (tn tl : list event) : Prop :=
  made (o_newExt o) tn s /\ same_head s m /\ selected o statics sel /\ (forall n, n ∈ o_whitelist o -> statics !! n <> None) /\
  Forall private_event tl /\ static_ok sel data s tl m /\
  t = tn ++ tl ++ map (accepted m None) (somes [o_reloadCallback o]) ++ [EvStore m].
Lemma static_run_cases o statics data t r : static_run o statics data [o_reloadCallback o] t r ->
  (no_publish t /\ ~ is_val r) \/
  (exists m sel s tn tl, sfile_ok o statics data t m sel s tn tl /\ r = Val (Some ((fun _ => "ok") <$> sel))).
Proof.
  intros H. destruct H as [mid dn x Hb Hx|tn s name Hm Hw Hin Hno Hl|tn s sel tl s' e Hm Hh Hsel Hf Hp Hl|tn s sel tl new tc e Hm Hh Hsel Hf Hp Hl Hc|tn s sel tl new Hm Hh Hsel Hf Hp Hl].
  - left. split; [|intros []]. repeat constructor.
  - left. split; [|intros []]. by eapply made_no_publish.
  - left. split; [|intros []]. apply no_publish_app; [by eapply made_no_publish|by apply private_no_publish].
  - left. split; [|intros []].
    apply no_publish_app; [by eapply made_no_publish|]. apply no_publish_app; [by apply private_no_publish|].
    by eapply callback_failed_no_publish.
  - right. exists new, sel, s, tn, tl. split; [|done]. split_and!; done.
Qed.

Lemma spub_inv o statics h cur p t r m :
  o_static o = Some statics -> next_call o h cur p t r -> published t m ->
  exists data sel s tn tl, spub o statics p t r m data sel s tn tl.
Proof.
  intros Hs (Hh & Hp & He & Hsaw & Hfr) Hpub. destruct Hp as [data|data extra].
  2:{ apply (static_reload_run _ statics) in He as [-> _]; [|done]. by apply elem_of_nil in Hpub. }
  apply (static_load_run _ statics) in He as (tb & -> & Hr); [|done].
  apply static_run_cases in Hr as [[Hn _]|(m' & sel & s & tn & tl & Hok & Hres)].
  { exfalso. eapply no_publish_not; [|exact Hpub]. constructor; [done|]. apply no_publish_app; [done|repeat constructor]. }
  destruct Hok as (Hm & Hsh & Hsel & Hf & Hpr & Hl & ->).
  assert (m = m') as ->.
  { unfold published in Hpub. apply elem_of_cons in Hpub as [Hpub|Hpub]; [done|].
    apply elem_of_app in Hpub as [Hpub|Hpub]; [|by apply elem_of_list_singleton in Hpub].
    apply elem_of_app in Hpub as [Hpub|Hpub]; [by destruct (no_publish_not _ m (made_no_publish _ _ _ Hm))|].
    apply elem_of_app in Hpub as [Hpub|Hpub]; [by destruct (in_private_store _ m Hpr)|].
    apply elem_of_app in Hpub as [Hpub|Hpub]; [by destruct (no_publish_not _ m (callbacks_no_publish m' None (somes [o_reloadCallback o])))|].
    apply elem_of_list_singleton in Hpub. congruence. }
  exists data, sel, s, tn, tl. split; try done. repeat (rewrite <- ?app_assoc; simpl). done.
Qed.
Lemma spub_events o statics p t r m data sel s tn tl : spub o statics p t r m data sel s tn tl ->
  call_sigs t = call_sigs tl /\ increments t = increments tl /\ decrements t = decrements tl /\
  created t = created tl /\ admitted t = admitted tl.
Proof.
  intros P. rewrite (spub_trace _ _ _ _ _ _ _ _ _ _ _ P).
  assert (S1 : silent (EvLock :: tn)) by (apply silent_cons; [done|by eapply silent_made; apply P]).
  assert (S3 : silent (map (accepted m None) (somes [o_reloadCallback o]) ++ [EvStore m; EvUnlock])).
  { apply silent_app; [apply silent_accepted|done]. }
  destruct S1 as (A1 & A2 & A3 & A4 & A5), S3 as (C1 & C2 & C3 & C4 & C5).
  rewrite !call_sigs_app, !increments_app, !decrements_app, !created_app, !admitted_app in *.
  set (x := EvLock :: tn) in *. clearbody x.
  rewrite A1, A2, A3, A4, A5, C1, C2, C3, C4, C5. by rewrite !app_nil_r.
Qed.

(** the lifecycle of the manager, in both modes *)
Lemma sgathered_keyed statics s t s1 : sgathered statics s t s1 -> keyed (pm_map s1).
Proof.
  intros Hg k p Hp. apply sgathered_lookup in Hg as [_ H]. destruct (H k p Hp) as (name & sp & c1 & c2 & _ & Hk & Hf & _).
  destruct Hf as (-> & _). done.
Qed.
Lemma keyed_core s s' : core_map s' = core_map s -> keyed (pm_map s) -> keyed (pm_map s').
Proof.
  intros Hcm Hk k p Hp. apply core_map_lookup in Hp. rewrite Hcm in Hp. apply core_map_lookup_inv in Hp as (q & Hq & He).
  apply (f_equal pl_name) in He. simpl in He. rewrite He. by apply Hk.
Qed.

Lemma pub_life o h cur p t r m : next_call o h cur p t r -> published t m ->
  keyed (pm_map m) /\
  exists data s1 ta t2 tz, t = ta ++ t2 ++ tz /\ pm_ordered s1 = [] /\ pm_livefuncs s1 = ∅ /\ pm_livetypes s1 = ∅ /\ pm_databag s1 = ∅ /\
    pm_id s1 = pm_id m /\ (p = LoadPlugins o data \/ exists extra, p = ReloadWithCallback o data extra) /\
    exec (lifecycle data s1) t2 (m, Val tt).
Proof.
  intros Hn Hpub. destruct (o_static o) as [statics|] eqn:Hs.
  - destruct (spub_inv _ _ _ _ _ _ _ _ Hs Hn Hpub) as (data & sel & s & tn & tl & P).
    destruct (spub_ok _ _ _ _ _ _ _ _ _ _ _ P) as (t1 & t2 & s1 & Htl & Hg & Hl).
    pose proof (sgathered_facts _ _ _ _ (proj1 (spub_made _ _ _ _ _ _ _ _ _ _ _ P)) Hg) as (G1 & G2 & G3 & G4 & G5 & _).
    split.
    + pose proof Hl as Hl'. apply exec_lifecycle in Hl'; [|done..].
      destruct Hl' as (t3 & t4 & t5 & t6 & t7 & _ & _ & _ & _ & _ & _ & _ & _ & Hcm & _).
      eapply keyed_core; [exact Hcm|]. by eapply sgathered_keyed.
    + exists data, s1. rewrite (spub_trace _ _ _ _ _ _ _ _ _ _ _ P), Htl.
      exists ((EvLock :: tn) ++ t1), t2. eexists. split; [by rewrite <- !app_assoc|]. split_and!; try done.
      * rewrite (proj1 G5). by rewrite (proj1 (spub_head _ _ _ _ _ _ _ _ _ _ _ P)).
      * left. apply P.
  - destruct (pub_inv _ _ _ _ _ _ _ Hs Hn Hpub) as (data & cbs & tp & files & s & tn & tl & add & P).
    destruct (pub_ok _ _ _ _ _ _ _ _ _ _ _ _ _ _ _ P) as (t1 & t2 & s1 & Htl & Hg & Hl).
    pose proof (gathered_facts _ _ _ _ _ (proj1 (pub_made _ _ _ _ _ _ _ _ _ _ _ _ _ _ _ P)) Hg) as (G1 & G2 & G3 & G4 & G5 & _).
    split; [eapply sound_keyed; apply P|].
    exists data, s1. rewrite (pub_trace _ _ _ _ _ _ _ _ _ _ _ _ _ _ _ P), Htl.
    exists ((EvLock :: tp) ++ (EvLoadCurrent cur :: tn) ++ t1), t2. eexists.
    split; [by rewrite <- !app_assoc|]. split_and!; try done.
    + rewrite (proj1 G5). by rewrite (proj1 (pub_head _ _ _ _ _ _ _ _ _ _ _ _ _ _ _ P)).
    + destruct (pub_cbs _ _ _ _ _ _ _ _ _ _ _ _ _ _ _ P) as [[-> _]|(extra & -> & _)]; [by left|right; by exists extra].
Qed.

Lemma pub_ready o h cur p t r m : next_call o h cur p t r -> published t m ->
  keyed (pm_map m) /\ deps_ready (pm_map m) (pm_ordered m).
Proof.
  intros Hn Hpub. destruct (pub_life _ _ _ _ _ _ _ Hn Hpub) as (Hk & data & s1 & ta & t2 & tz & _ & G1 & G2 & G3 & G4 & _ & _ & Hl).
  split; [done|]. apply exec_lifecycle in Hl; [|done..].
  destruct Hl as (ti & tl & tf & tt' & tini & -> & _ & _ & _ & _ & _ & Hh & Hwhen & Hcm & _ & _ & _ & _ & Himp & _).
  by destruct (Himp (or_intror eq_refl)) as (_ & Hready & _).
Qed.

End Proofs.
