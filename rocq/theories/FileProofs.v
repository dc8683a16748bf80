(** File names, directory listings *)
From Verif Require Export CleanProofs.

Section Proofs.
Context {E : GoEnv}.

Lemma las_app a b : list_ascii_of_string (a +:+ b) = list_ascii_of_string a ++ list_ascii_of_string b.
Proof. induction a as [|c a IH]; [done|]. change (String c a +:+ b) with (String c (a +:+ b)). cbn [list_ascii_of_string app]. f_equal. exact IH. Qed.

Lemma take_until_slash_app l r : ~ In slash l -> take_until_slash (l ++ slash :: r) = l.
Proof.
  induction l as [|c l IH]; intros Hl; [done|]. simpl. destruct (Ascii.eqb_spec c slash) as [->|]; [by destruct Hl; left|].
  f_equal. apply IH. intros H. apply Hl. by right.
Qed.
Lemma drop_slashes_no l r : l <> [] -> ~ In slash l -> drop_slashes (l ++ r) = l ++ r.
Proof. destruct l as [|c l]; [done|]. intros _ Hl. simpl. destruct (Ascii.eqb_spec c slash) as [->|]; [by destruct Hl; left|done]. Qed.
Lemma path_base_slash d n : n <> "" -> no_slash n -> path_base (d +:+ String slash n) = n.
Proof.
  intros Hn Hs. unfold path_base. assert (Hne : String.eqb (d +:+ String slash n) "" = false) by (apply String.eqb_neq; by destruct d).
  rewrite Hne, las_app. simpl list_ascii_of_string. rewrite rev_app_distr. simpl rev. rewrite <- !app_assoc. simpl app.
  assert (Hr : ~ In slash (rev (list_ascii_of_string n))) by (by rewrite <- in_rev).
  assert (Hz : rev (list_ascii_of_string n) <> []).
  { intros H. apply (f_equal (@length _)) in H. rewrite rev_length in H. destruct n; [done|]. done. }
  rewrite drop_slashes_no by done. destruct (rev (list_ascii_of_string n) ++ slash :: rev (list_ascii_of_string d)) eqn:Hd.
  { by destruct (rev (list_ascii_of_string n)). }
  rewrite <- Hd, take_until_slash_app, rev_involutive by done. apply string_of_list_ascii_of_string.
Qed.
Lemma path_base_join dir n : n <> "" -> no_slash n -> path_base (path_join dir n) = n.
Proof.
  intros Hn Hs. unfold path_join. destruct (String.eqb_spec dir "/") as [->|].
  - by apply (path_base_slash "").
  - by apply path_base_slash.
Qed.
Lemma no_slash_base n : n <> "" -> no_slash n -> path_base n = n.
Proof.
  intros Hn Hs. unfold path_base. rewrite (proj2 (String.eqb_neq n "")) by done.
  assert (Hr : ~ In slash (rev (list_ascii_of_string n))) by (by rewrite <- in_rev).
  assert (Hz : rev (list_ascii_of_string n) <> []).
  { intros H. apply (f_equal (@length _)) in H. rewrite rev_length in H. destruct n; [done|]. done. }
  rewrite <- (app_nil_r (rev (list_ascii_of_string n))), drop_slashes_no, app_nil_r by done.
  assert (Ht : forall l, ~ In slash l -> take_until_slash l = l).
  { induction l as [|c l IH]; intros Hl; [done|]. simpl. destruct (Ascii.eqb_spec c slash) as [->|]; [by destruct Hl; left|].
    f_equal. apply IH. intros H. apply Hl. by right. }
  rewrite Ht by done. destruct (rev _) eqn:Hd; [done|]. rewrite <- Hd, rev_involutive. apply string_of_list_ascii_of_string.
Qed.

Lemma pluginName_join dir n : n <> "" -> no_slash n -> pluginName (path_join dir n) = plugin_of n.
Proof. intros Hn Hs. unfold pluginName. by rewrite path_base_join. Qed.
Lemma pluginName_simple n : n <> "" -> no_slash n -> pluginName n = plugin_of n.
Proof. intros Hn Hs. unfold pluginName. by rewrite no_slash_base. Qed.

Lemma str_app_inj a b c : a +:+ b = a +:+ c -> b = c.
Proof. induction a as [|x a IH]; [done|]. change (String x (a +:+ b) = String x (a +:+ c) -> b = c). intros H. injection H as H. auto. Qed.
Lemma path_join_inj dir n1 n2 : path_join dir n1 = path_join dir n2 -> n1 = n2.
Proof.
  unfold path_join. destruct (String.eqb dir "/"); intros H; [by apply str_app_inj in H|].
  apply str_app_inj in H. by apply (str_app_inj "/") in H.
Qed.

Lemma contains_spec wl n : Contains wl n = bool_decide (n ∈ wl).
Proof.
  unfold Contains. apply eq_true_iff_eq. rewrite existsb_exists, bool_decide_eq_true. split.
  - intros (x & Hx & He). apply String.eqb_eq in He as ->. by apply elem_of_list_In.
  - intros H. exists n. split; [by apply elem_of_list_In|apply String.eqb_refl].
Qed.

(** the files of a listing *)
Lemma selectFiles_spec wl dir entries : Forall (fun e => fst e <> "" /\ no_slash (fst e)) entries ->
  fst (selectFiles wl dir entries) = map (path_join dir) (plugin_files wl entries) /\
  (forall n, n ∈ snd (selectFiles wl dir entries) <-> wl <> [] /\ exists f, f ∈ plugin_files wl entries /\ plugin_of f = n).
Proof.
  induction entries as [|[n isDir] entries IH]; intros HF.
  { split; [done|]. intros n. simpl. split; [by intros ?%elem_of_empty|intros (_ & f & Hf & _); by apply elem_of_nil in Hf]. }
  apply Forall_cons in HF as [[Hn Hs] HF]. destruct (IH HF) as [IH1 IH2]. clear IH. cbn [selectFiles]. simpl fst in Hn, Hs.
  destruct (selectFiles wl dir entries) as [files found]. simpl in IH1, IH2. unfold plugin_files. cbn [List.filter]. fold (plugin_files wl entries) in *.
  destruct (loadable wl (n, isDir)) eqn:HL; unfold loadable in HL; simpl in HL; destruct isDir; try done; change ".so" with FileNameExt in HL;
    destruct (has_suffix FileNameExt n) eqn:Hsuf; try done; simpl in HL; rewrite contains_spec, (pluginName_simple n) by done; change (trim_suffix FileNameExt n) with (plugin_of n) in HL.
  - destruct wl as [|w wl].
    + simpl. split; [by rewrite IH1|]. intros x. rewrite IH2. split; by intros [? _].
    + simpl in HL. rewrite HL. apply bool_decide_eq_true in HL. simpl. split; [by rewrite IH1|]. intros x. rewrite elem_of_union, elem_of_singleton, IH2. split.
      * intros [->|(Hw & f & Hf & Hx)]; split; [done|exists n; split; [by left|done]|done|exists f; split; [by right|done]].
      * intros (Hw & f & Hf & Hx). apply elem_of_cons in Hf as [->|Hf]; [by left|right; split; [done|by exists f]].
  - destruct wl as [|w wl]; [done|]. simpl in HL. by rewrite HL.
Qed.

Lemma elem_plugin_files wl entries f : f ∈ plugin_files wl entries <-> (f, false) ∈ entries /\ has_suffix ".so" f = true /\ (wl = [] \/ plugin_of f ∈ wl).
Proof.
  unfold plugin_files. rewrite elem_of_list_fmap. split.
  - intros ([n b] & -> & H). apply elem_of_list_In, filter_In in H as [H1 H2]. apply elem_of_list_In in H1. unfold loadable in H2. simpl in *.
    destruct b; [done|]. simpl in H2. apply andb_true_iff in H2 as [H2 H3]. split_and!; [done|done|]. apply orb_true_iff in H3 as [H3|H3]; apply bool_decide_eq_true in H3; tauto.
  - intros (H1 & H2 & H3). exists (f, false). split; [done|]. apply elem_of_list_In, filter_In. split; [by apply elem_of_list_In|].
    unfold loadable. simpl. rewrite H2. simpl. apply orb_true_iff. destruct H3 as [->|H3]; [by left|right; by apply bool_decide_eq_true].
Qed.
Lemma plugin_files_nodup wl entries : NoDup (map fst entries) -> NoDup (plugin_files wl entries).
Proof.
  unfold plugin_files. induction entries as [|e entries IH]; [done|]. intros H. apply NoDup_cons in H as [H1 H2]. cbn [List.filter].
  destruct (loadable wl e); [|by apply IH]. simpl. apply NoDup_cons. split; [|by apply IH].
  intros Hin. apply H1. apply elem_of_list_fmap in Hin as (x & Hx & Hin). apply elem_of_list_In, filter_In in Hin as [Hin _].
  apply elem_of_list_fmap. exists x. split; [done|by apply elem_of_list_In].
Qed.

Lemma chosen_files o tp files : chosen o tp files -> exists dir entries, listed tp dir entries /\
  (forall d es, listed tp d es -> d = dir /\ es = entries) /\ valid_listing entries /\
  files = map (path_join dir) (plugin_files (o_whitelist o) entries).
Proof.
  intros (d1 & d2 & abs & entries & found & -> & _ & [Hnd Hns] & Hsel & _). exists abs, entries. split; [unfold listed; by do 4 right; left|]. split; [|split; [done|]].
  - intros d es Hin. unfold listed in Hin. repeat (apply elem_of_cons in Hin as [He|Hin]; [first [discriminate He|injection He as -> ->; done]|]). by apply elem_of_nil in Hin.
  - pose proof (selectFiles_spec (o_whitelist o) abs entries Hns) as [H _]. by rewrite Hsel in H.
Qed.

(** one call, dynamic mode *)
Lemma next_dir o h cur a t r : next_call o h cur (api_prog o a) t r -> o_static o = None ->
  exists tb add, t = EvLock :: tb ++ add ++ [EvUnlock] /\ dir_run o (api_data a) (api_cbs o a) tb r /\
    add = match a with Call_Reload _ _ => if decide (is_val r) then [EvAddCounter] else [] | Call_LoadPlugins _ => [] end.
Proof.
  intros HN Hst. destruct (next_keyed _ _ _ _ _ _ Hst HN) as [Hk _]. destruct HN as (_ & _ & Hx & _).
  destruct a as [data|data extra]; simpl api_prog in Hx.
  - apply exec_LoadPlugins in Hx as (tb & -> & Hr); [|done]. rewrite Hst in Hr. by exists tb, [].
  - apply exec_ReloadWithCallback in Hx; [|done]. rewrite Hst in Hx. destruct Hx as (tb & -> & Hr). eauto.
Qed.
(** one call, static mode *)
Lemma next_static o st h cur a t r : next_call o h cur (api_prog o a) t r -> o_static o = Some st ->
  (exists data tb, a = Call_LoadPlugins data /\ t = EvLock :: tb ++ [EvUnlock] /\ static_run o st data [o_reloadCallback o] tb r) \/
  (exists data extra, a = Call_Reload data extra /\ t = [] /\ r = Err EStaticMode).
Proof.
  intros (_ & _ & Hx & _) Hst. destruct a as [data|data extra]; simpl api_prog in Hx.
  - left. destruct (static_load_run _ _ _ _ _ Hst Hx) as (tb & -> & Hr). by exists data, tb.
  - right. destruct (static_reload_run _ _ _ _ _ _ Hst Hx) as [-> ->]. by exists data, extra.
Qed.

(** events that neither publish nor schedule a release nor count nor lock *)
Definition inner (e : event) : Prop :=
  match e with EvStore _ | EvSpawnFree _ _ | EvAddCounter | EvLock | EvUnlock => False | _ => True end.
Lemma inner_app t1 t2 : Forall inner t1 -> Forall inner t2 -> Forall inner (t1 ++ t2).
Proof. intros. by apply Forall_app_2. Qed.
Lemma inner_private t : Forall private_event t -> Forall inner t.
Proof. intros H. eapply Forall_impl; [exact H|]. by intros []. Qed.
Lemma inner_made b tn s : made b tn s -> Forall inner tn.
Proof. intros (_ & -> & _). destruct b; repeat constructor. Qed.
Lemma inner_accepted new old l : Forall inner (map (accepted new old) l).
Proof. induction l; by constructor. Qed.
Lemma inner_released m t : released m t -> Forall inner t.
Proof. intros (ps & ts & -> & H & _). apply inner_private. by eapply freed_private. Qed.
Lemma inner_callback cbs new old t e : callback_failed cbs new old t e -> Forall inner t.
Proof.
  intros (c1 & cb & c2 & r & tf & _ & -> & _ & HR). apply inner_app; [apply inner_accepted|]. constructor; [done|]. by eapply inner_released.
Qed.
Lemma inner_chosen o tp files : chosen o tp files -> Forall inner tp.
Proof. intros (d1 & d2 & abs & es & found & -> & _). repeat constructor. Qed.
Lemma inner_refused o tp e : refused o tp e -> Forall inner tp.
Proof. intros []; repeat constructor. Qed.

Lemma file_shape o files data cbs t r : file_run o files data cbs t r -> exists ti tz, t = ti ++ tz /\ Forall inner ti /\
  ((tz = [] /\ ~ is_val r) \/ exists new old d, tz = spawned o old ++ [EvStore new] /\ r = Val (Some d) /\ saw_current ti old).
Proof.
  intros [old mid dn x He Hx|old tn s tl s' e Hm Hh Hp Hf|old tn s tl new tc e Hm Hh Hp Hok Hc|old tn s tl new Hm Hh Hp Hok].
  - exists [EvLoadCurrent old; EvNewMgr mid dn; EvNewExt (Pan x)], []. split_and!; [done|repeat constructor|]. left. split; [done|by intros []].
  - exists (EvLoadCurrent old :: tn ++ tl), []. rewrite app_nil_r. split_and!; [done| |left; split; [done|by intros []]].
    constructor; [done|]. apply inner_app; [by eapply inner_made|by apply inner_private].
  - exists (EvLoadCurrent old :: tn ++ tl ++ tc), []. rewrite app_nil_r. split_and!; [done| |left; split; [done|by intros []]].
    constructor; [done|]. apply inner_app; [by eapply inner_made|]. apply inner_app; [by apply inner_private|by eapply inner_callback].
  - exists (EvLoadCurrent old :: tn ++ tl ++ map (accepted new old) (somes cbs)), (spawned o old ++ [EvStore new]). split_and!.
    + simpl. by rewrite <- !(assoc_L (++)).
    + constructor; [done|]. apply inner_app; [by eapply inner_made|]. apply inner_app; [by apply inner_private|apply inner_accepted].
    + right. exists new, old, (details_of new files ∅). split_and!; [done..|]. left.
Qed.

Lemma dir_shape o data cbs t r : dir_run o data cbs t r -> exists ti tz, t = ti ++ tz /\ Forall inner ti /\
  ((tz = [] /\ (r = Val None \/ ~ is_val r)) \/ exists new old d, tz = spawned o old ++ [EvStore new] /\ r = Val (Some d) /\ saw_current ti old).
Proof.
  intros [tp e Hr|tp Hc|tp files tl r' Hc Hne Hf].
  - exists tp, []. rewrite app_nil_r. split_and!; [done|by eapply inner_refused|]. left. split; [done|right; by intros []].
  - exists tp, []. rewrite app_nil_r. split_and!; [done|by eapply inner_chosen|]. left. split; [done|by left].
  - destruct (file_shape _ _ _ _ _ _ Hf) as (ti & tz & -> & Hi & Hz). exists (tp ++ ti), tz. split_and!; [by rewrite (assoc_L (++))| |].
    + apply inner_app; [by eapply inner_chosen|done].
    + destruct Hz as [[? ?]|(new & old & d & ? & ? & ?)]; [left; split; [done|by right]|right]. exists new, old, d. split_and!; [done..|by apply saw_app_r].
Qed.

Lemma static_shape o st data cbs t r : static_run o st data cbs t r -> exists ti tz, t = ti ++ tz /\ Forall inner ti /\
  ((tz = [] /\ ~ is_val r) \/ exists new d, tz = [EvStore new] /\ r = Val (Some d)).
Proof.
  intros [mid dn x He Hx|tn s name Hm Hw Hn Hs Hf|tn s sel tl s' e Hm Hh Hs Hw Hp Hf|tn s sel tl new tc e Hm Hh Hs Hw Hp Hok Hc|tn s sel tl new Hm Hh Hs Hw Hp Hok].
  - exists [EvNewMgr mid dn; EvNewExt (Pan x)], []. split_and!; [done|repeat constructor|]. left. split; [done|by intros []].
  - exists tn, []. rewrite app_nil_r. split_and!; [done|by eapply inner_made|]. left. split; [done|by intros []].
  - exists (tn ++ tl), []. rewrite app_nil_r. split_and!; [done| |left; split; [done|by intros []]].
    apply inner_app; [by eapply inner_made|by apply inner_private].
  - exists (tn ++ tl ++ tc), []. rewrite app_nil_r. split_and!; [done| |left; split; [done|by intros []]].
    apply inner_app; [by eapply inner_made|]. apply inner_app; [by apply inner_private|by eapply inner_callback].
  - exists (tn ++ tl ++ map (accepted new None) (somes cbs)), [EvStore new]. split_and!.
    + by rewrite <- !(assoc_L (++)).
    + apply inner_app; [by eapply inner_made|]. apply inner_app; [by apply inner_private|apply inner_accepted].
    + right. by exists new, ((fun _ => "ok") <$> sel).
Qed.

End Proofs.
