(** Gathering files, carrying plugins over, opening new ones (first half of loadPlugins) *)
From Verif Require Export FreeProofs.

Section Proofs.
Context {E : GoEnv}.

(** ** Duplicate names *)
Definition key_count (k : string) (files : list string) : nat :=
  length (List.filter (fun f => String.eqb (file_key f) k) files).
Lemma key_count_cons k f files :
  key_count k (f :: files) = ((if decide (file_key f = k) then 1 else 0) + key_count k files)%nat.
Proof.
  unfold key_count. simpl. destruct (String.eqb_spec (file_key f) k); destruct (decide _); try done.
Qed.
Lemma key_count_0 k files : key_count k files = 0%nat <-> k ∉ map file_key files.
Proof.
  induction files as [|f files IH]; [split; [intros _ H; by apply elem_of_nil in H|done]|].
  rewrite key_count_cons. simpl. rewrite not_elem_of_cons, <- IH. destruct (decide _); split; intros; [lia|naive_solver| |].
  - split; [congruence|lia].
  - lia.
Qed.
Lemma key_count_nodup files : (forall k, (key_count k files <= 1)%nat) <-> NoDup (map file_key files).
Proof.
  induction files as [|f files IH]; [split; [constructor|intros _ k; unfold key_count; simpl; lia]|].
  simpl. rewrite NoDup_cons, <- IH. split.
  - intros H. split.
    + apply key_count_0. specialize (H (file_key f)). rewrite key_count_cons in H.
      rewrite decide_True in H by done. lia.
    + intros k. specialize (H k). rewrite key_count_cons in H. lia.
  - intros [Hn H] k. rewrite key_count_cons. destruct (decide _) as [<-|Hne]; [|apply H].
    apply key_count_0 in Hn. lia.
Qed.
Lemma elem_dup_keys files k : k ∈ dup_keys files <-> (1 < key_count k files)%nat.
Proof.
  unfold dup_keys. rewrite elem_of_list_In, filter_In, <- elem_of_list_In, elem_of_remove_dups.
  rewrite Nat.ltb_lt. fold (key_count k files). split; [tauto|]. intros H. split; [|done].
  destruct (decide (k ∈ map file_key files)) as [|Hn]; [done|]. apply key_count_0 in Hn. lia.
Qed.
Lemma dup_keys_nil files : dup_keys files = [] <-> NoDup (map file_key files).
Proof.
  rewrite <- key_count_nodup. split.
  - intros H k. destruct (decide (1 < key_count k files)%nat) as [Hk|]; [|lia].
    apply elem_dup_keys in Hk. rewrite H in Hk. by apply elem_of_nil in Hk.
  - intros H. destruct (dup_keys files) as [|k l] eqn:Ek; [done|].
    assert (k ∈ dup_keys files) as Hk by (rewrite Ek; by left). apply elem_dup_keys in Hk. specialize (H k). lia.
Qed.

(** ** The file info map *)
Definition info_of (f data : string) : fileInfo := mkInfo (pluginName f) f data (sha1 data).
Definition infos_of (fds : list (string * string)) : gmap string fileInfo :=
  list_to_map (map (fun fd => (file_key (fst fd), info_of (fst fd) (snd fd))) fds).

Lemma fold_info_add fds m0 :
  NoDup (map file_key (map fst fds)) -> (forall fd, fd ∈ fds -> m0 !! file_key (fst fd) = None) ->
  fold_left (fun m fd => info_add m (fst fd) (snd fd)) fds m0 = infos_of fds ∪ m0.
Proof.
  revert m0; induction fds as [|[f d] fds IH]; intros m0 Hnd Hm0; simpl.
  - unfold infos_of. simpl. by rewrite (left_id_L ∅ (∪)).
  - simpl in Hnd. apply NoDup_cons in Hnd as [Hf Hnd]. rewrite IH; [|done|].
    + unfold infos_of, info_add. simpl. rewrite <- insert_union_r; [by rewrite <- insert_union_l|].
      apply not_elem_of_list_to_map_1. rewrite map_map. simpl. rewrite map_map in Hf. done.
    + intros fd Hfd. unfold info_add. rewrite lookup_insert_ne; [apply Hm0; by right|].
      intros Heq. apply Hf. rewrite map_map. apply elem_of_list_fmap. exists fd. split; [done|done].
Qed.

Lemma infos_lookup fds k i :
  NoDup (map file_key (map fst fds)) ->
  infos_of fds !! k = Some i <-> exists f d, (f, d) ∈ fds /\ file_key f = k /\ i = info_of f d.
Proof.
  intros Hnd. unfold infos_of. rewrite <- elem_of_list_to_map.
  - rewrite elem_of_list_fmap. split.
    + intros ([f d] & [= -> ->] & Hin). eauto.
    + intros (f & d & Hin & <- & ->). exists (f, d). done.
  - rewrite map_map in *. simpl. done.
Qed.
Lemma infos_size fds : NoDup (map file_key (map fst fds)) -> size (infos_of fds) = length fds.
Proof.
  induction fds as [|[f d] fds IH]; [done|]. simpl. intros Hnd. apply NoDup_cons in Hnd as [Hf Hnd].
  unfold infos_of. simpl. rewrite map_size_insert_None; [by rewrite <- IH|].
  apply not_elem_of_list_to_map_1. rewrite map_map. simpl. rewrite map_map in Hf. done.
Qed.
Lemma infos_key fds k i : NoDup (map file_key (map fst fds)) -> infos_of fds !! k = Some i -> name2key (fi_name i) = k.
Proof. intros Hnd H. apply infos_lookup in H as (f & d & _ & <- & ->); [done|done]. Qed.

(** ** Carrying plugins over *)
(** In a manager, a plugin is filed under its own (lower-cased) name. *)
Definition keyed (m : gmap string plugin) : Prop := forall k q, m !! k = Some q -> name2key (pl_name q) = k.

Definition old_map (old : option mgr) : gmap string plugin :=
  match old with None => ∅ | Some om => pm_map om end.

Lemma exec_carryOver old note it s t s' o :
  keyed (old_map old) -> NoDup it -> (forall k, k ∈ it -> is_Some (old_map old !! k)) ->
  exec (sfor it (fun k => addUnchanged (match old with None => None | Some om => pm_map om !! k end) note) s) t (s', o) ->
  o = Val tt /\ (exists m', s' = with_map m' s) /\ call_sigs t = [] /\
  Forall2 (fun k e => exists q v, old_map old !! k = Some q /\ e = EvRefInc (pm_id s) (pl_inst q) v) it t /\
  forall k, pm_map s' !! k = if decide (k ∈ it) then set_unchanged note <$> (old_map old !! k) else pm_map s !! k.
Proof.
  intros Hk. revert s t; induction it as [|k it IH]; intros s t Hnd Hin H; cbn [sfor] in H.
  - xinv H. assert (Hid : s = with_map (pm_map s) s) by (by destruct s). split_and!; try done; eauto.
  - apply NoDup_cons in Hnd as [Hkit Hnd]. destruct (Hin k) as [q Hq]; [by left|].
    assert (Hq' : match old with None => None | Some om => pm_map om !! k end = Some q).
    { destruct old; [done|]. simpl in Hq. by rewrite lookup_empty in Hq. }
    rewrite Hq' in H.
    apply exec_sbind in H as [(t1 & t2 & s1 & [] & -> & H1 & H)|(o1 & H1 & Hf)].
    2:{ apply exec_addUnchanged in H1 as (-> & _). by destruct o. }
    apply exec_addUnchanged in H1 as (_ & (v & ->) & ->).
    apply IH in H as (-> & (m' & ->) & Hc & Hall & Hmap); [|done|intros; apply Hin; by right].
    simpl in *. split_and!; try done; [by exists m'| |].
    + constructor; [eauto|done].
    + intros k'. rewrite Hmap. rewrite (Hk k q Hq). destruct (decide (k' ∈ it)) as [Hi|Hi].
      * rewrite decide_True by (by right). done.
      * destruct (decide (k' = k)) as [->|Hne].
        -- rewrite decide_True by (by left). by rewrite lookup_insert, Hq.
        -- rewrite decide_False by (rewrite not_elem_of_cons; done). by rewrite lookup_insert_ne.
Qed.

(** ** Opening plugins *)
Definition openOne (infos : gmap string fileInfo) (name : string) : SM unit := fun pm =>
  bind (loadPlugin (infos !! name) pm) (fun so => Ret (fst so, open_outcome (infos !! name) name (snd so))).

(** plugin [p] was opened from the info [infos !! name] by manager [s], with trace [t] *)
Definition opened (infos : gmap string fileInfo) (s : mgr) (name : string) (p : plugin) (t : list event) : Prop :=
  exists i h ans c1 c2, infos !! name = Some i /\ fresh_from s i p /\ pl_P p = Some h /\
    (forall r, exists sym v, ans r = Some sym /\ sym_value r sym = Some v /\ get_func r (pl_funcs p) = code_of v) /\
    get_func RReloadable (pl_funcs p) = Some c1 /\ get_func RExport (pl_funcs p) = Some c2 /\
    t = open_trace s i p h ans c1 c2.

Lemma lookups_facts h ans l :
  let tl := map (fun r => EvLookupSym h (role_symbol r) (ans r)) l in
  call_sigs tl = [] /\ admitted tl = [] /\ increments tl = [] /\ decrements tl = [] /\ created tl = [].
Proof. induction l as [|r l IH]; simpl in *; [done|]. done. Qed.

Lemma opened_facts infos s name p t : opened infos s name p t ->
  admitted t = [pl_inst p] /\ created t = [pl_inst p] /\ increments t = [] /\ decrements t = [] /\
  call_sigs t = [called RReloadable (pm_id s) ArgNone p; called RExport (pm_id s) ArgNone p].
Proof.
  intros (i & h & ans & c1 & c2 & _ & _ & _ & _ & Hc1 & Hc2 & ->). unfold open_trace.
  destruct (lookups_facts h ans funcItems) as (L1 & L2 & L3 & L4 & L5).
  rewrite !admitted_app, !created_app, !increments_app, !decrements_app, !call_sigs_app, L1, L2, L3, L4, L5.
  simpl. unfold called. simpl in *. by rewrite Hc1, Hc2.
Qed.

(** what an attempt to open that fails may have called *)
Definition open_failed (mid : N) (t : list event) : Prop :=
  admitted t = [] /\ increments t = [] /\ decrements t = [] /\
  (call_sigs t = [] \/ exists p, created t = [pl_inst p] /\
      (call_sigs t = [called RReloadable mid ArgNone p] \/
       call_sigs t = [called RReloadable mid ArgNone p; called RExport mid ArgNone p])).

Lemma exec_openOne infos name s t s' o :
  exec (openOne infos name s) t (s', o) ->
  (exists p, o = Val tt /\ opened infos s name p t /\ s' = upd_map <[name2key (pl_name p) := p]> s) \/
  (~ is_val o /\ s' = s /\ open_failed (pm_id s) t /\
   exists o0, ~ is_val o0 /\ o = open_outcome (infos !! name) name o0 /\ exec (loadPlugin (infos !! name) s) t (s, o0)).
Proof.
  unfold openOne. intros H. apply exec_bind in H as (t1 & t2 & [s1 o1] & -> & H1 & H2). simpl in H2.
  pose proof H1 as H1'.
  apply exec_loadPlugin in H1 as [(i & p & h & ans & c1 & c2 & Hi & -> & Hfr & HP & -> & Hf & Hc1 & Hc2 & ->)|(-> & Hn & Ha & Hin & Hd & Hcs)].
  - left. destruct H2 as [-> [= -> ->]]. rewrite app_nil_r. exists p. split_and!; [done| |].
    + exists i, h, ans, c1, c2. done.
    + destruct Hfr as (-> & _). done.
  - right. assert (Hof : open_failed (pm_id s) t1).
    { split_and!; try done. destruct Hcs as [?|(i & p & _ & _ & ? & ?)]; [by left|right; eauto]. }
    xinv H2. rewrite app_nil_r. split_and!; try done; [|by exists o1].
    destruct o1 as [[]|e|x]; [simpl in Hn; tauto|by intros []|]. simpl. destruct (infos !! name); by intros [].
Qed.


Definition insert_all (ps : list plugin) (m : gmap string plugin) : gmap string plugin :=
  fold_left (fun m p => <[name2key (pl_name p) := p]> m) ps m.

Lemma exec_openAll infos names s t s' o :
  exec (sfor names (openOne infos) s) t (s', o) ->
  exists n1 n2 ps ts tl, names = n1 ++ n2 /\ t = concat ts ++ tl /\
    Forall3 (opened infos s) n1 ps ts /\ s' = with_map (insert_all ps (pm_map s)) s /\
    (o = Val tt -> n2 = [] /\ tl = []) /\
    (~ is_val o -> open_failed (pm_id s) tl /\ exists name n2', n2 = name :: n2' /\
       exists o0, ~ is_val o0 /\ o = open_outcome (infos !! name) name o0 /\ exec (loadPlugin (infos !! name) s') tl (s', o0)).
Proof.
  revert s t; induction names as [|name names IH]; intros s t H; cbn [sfor] in H.
  - xinv H. assert (Hid : s = with_map (pm_map s) s) by (by destruct s).
    exists [], [], [], [], []. split_and!; try done; try (by constructor); simpl; tauto.
  - apply exec_sbind in H as [(t1 & t2 & s1 & [] & -> & H1 & H)|(o1 & H1 & Hf)].
    + apply exec_openOne in H1 as [(p & _ & Hop & ->)|(Hn & _)]; [|simpl in Hn; tauto].
      apply IH in H as (n1 & n2 & ps & ts & tl & -> & -> & Hall & -> & Hok & Hfail).
      exists (name :: n1), n2, (p :: ps), (t1 :: ts), tl. simpl. rewrite app_assoc. split_and!; try done.
      constructor; [done|]. done.
    + apply exec_openOne in H1 as [(p & -> & _)|(Hn & -> & Hof & o0 & Hn0 & Ho0 & Hx0)]; [by destruct o|].
      assert (Hid : s = with_map (pm_map s) s) by (by destruct s).
      exists [], (name :: names), [], [], t. split_and!; try done; [constructor|intros ->; by destruct o1|].
      intros _. split; [done|]. exists name, names. split; [done|]. exists o0. split_and!; try done.
      assert (o = o1) as -> by (destruct o1 as [[]|e|x], o as [[]|e'|x']; try done; simpl in Hf; by subst). done.
Qed.

Lemma opened_all_facts infos s ns ps ts : Forall3 (opened infos s) ns ps ts ->
  admitted (concat ts) = map pl_inst ps /\ created (concat ts) = map pl_inst ps /\
  increments (concat ts) = [] /\ decrements (concat ts) = [] /\
  call_sigs (concat ts) = flat_map (fun p => [called RReloadable (pm_id s) ArgNone p; called RExport (pm_id s) ArgNone p]) ps.
Proof.
  induction 1 as [|n p t ns ps ts Hp _ IH]; [done|]. simpl.
  apply opened_facts in Hp as (H1 & H2 & H3 & H4 & H5). destruct IH as (I1 & I2 & I3 & I4 & I5).
  rewrite admitted_app, created_app, increments_app, decrements_app, call_sigs_app, H1, H2, H3, H4, H5, I1, I2, I3, I4, I5.
  done.
Qed.

End Proofs.
