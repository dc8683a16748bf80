(** loadPlugins: gathering, opening, lifecycle, cleanup *)
From Verif Require Export LifeProofs.

Section Proofs.
Context {E : GoEnv}.

(** The plugin of the old manager that is kept for a file with key [k] and content hash [h], with its new note. *)
Definition keep (old : option mgr) (k h : string) : option plugin :=
  match old_map old !! k with
  | Some q => if pl_reloadable q
              then if String.eqb h (pl_sha1 q) then Some (set_unchanged "unchanged" q) else None
              else Some (set_unchanged "not reloadable" q)
  | None => None
  end.

Definition old_of (old : option mgr) (k : string) : option plugin :=
  match old with None => None | Some om => pm_map om !! k end.

(** the infos that have to be opened *)
Definition to_open (old : option mgr) (infos : gmap string fileInfo) : gmap string fileInfo :=
  without_unchanged old (without_notReloadable old infos).
(** the plugins kept *)
Definition kept_map (old : option mgr) (infos : gmap string fileInfo) : gmap string plugin :=
  map_imap (fun k i => keep old k (fi_sha1 i)) infos.

Lemma isNotReloadable_spec old k : isNotReloadable old k = true <-> exists q, old_map old !! k = Some q /\ pl_reloadable q = false.
Proof.
  unfold isNotReloadable. destruct old as [om|]; simpl.
  - destruct (pm_map om !! k) as [q|].
    + rewrite negb_true_iff. split; [eauto|]. intros (q' & [= <-] & ?). done.
    + split; [done|]. intros (q' & ? & _). done.
  - split; [done|]. intros (q & Hq & _). by rewrite lookup_empty in Hq.
Qed.
Lemma isUnchanged_spec old k i : isUnchanged old k i = true <-> exists q, old_map old !! k = Some q /\ fi_sha1 i = pl_sha1 q.
Proof.
  unfold isUnchanged. destruct old as [om|]; simpl.
  - destruct (pm_map om !! k) as [q|].
    + rewrite String.eqb_eq. split; [eauto|]. intros (q' & [= <-] & ?). done.
    + split; [done|]. intros (q' & ? & _). done.
  - split; [done|]. intros (q & Hq & _). by rewrite lookup_empty in Hq.
Qed.

Lemma to_open_lookup old infos k i :
  to_open old infos !! k = Some i <-> infos !! k = Some i /\ keep old k (fi_sha1 i) = None.
Proof.
  unfold to_open, without_unchanged, without_notReloadable. rewrite !map_filter_lookup_Some. simpl.
  assert (Hk : keep old k (fi_sha1 i) = None <-> isNotReloadable old k = false /\ isUnchanged old k i = false).
  { rewrite <- !not_true_iff_false, isNotReloadable_spec, isUnchanged_spec. unfold keep.
    destruct (old_map old !! k) as [q|] eqn:Eq.
    - destruct (pl_reloadable q) eqn:Er.
      + destruct (String.eqb_spec (fi_sha1 i) (pl_sha1 q)) as [He|He]; split; try done.
        * intros [_ Hu]. destruct Hu. eauto.
        * intros _. split; intros (q' & [= <-] & ?); congruence.
      + split; [done|]. intros [Hn _]. destruct Hn. eauto.
    - split; [|done]. intros _. split; intros (q' & ? & _); done. }
  rewrite Hk. tauto.
Qed.
Lemma kept_lookup old infos k q' :
  kept_map old infos !! k = Some q' <-> exists i, infos !! k = Some i /\ keep old k (fi_sha1 i) = Some q'.
Proof.
  unfold kept_map. rewrite map_lookup_imap. destruct (infos !! k) as [i|]; simpl.
  - split; [eauto|]. by intros (i' & [= <-] & ?).
  - split; [done|]. by intros (i' & ? & _).
Qed.

Lemma sizes old infos : (size (to_open old infos) + size (kept_map old infos) = size infos)%nat.
Proof.
  induction infos as [|k i infos Hk IH] using map_ind.
  - unfold to_open, without_unchanged, without_notReloadable, kept_map.
    rewrite !map_filter_empty, map_imap_empty. by rewrite !map_size_empty.
  - rewrite map_size_insert_None by done. rewrite <- IH. clear IH.
    assert (H1 : forall k', kept_map old (<[k:=i]> infos) !! k' = if decide (k' = k) then keep old k (fi_sha1 i) else kept_map old infos !! k').
    { intros k'. unfold kept_map. rewrite !map_lookup_imap. destruct (decide _) as [->|Hne].
      - by rewrite lookup_insert.
      - by rewrite lookup_insert_ne. }
    assert (H2 : forall k', to_open old (<[k:=i]> infos) !! k' =
       if decide (k' = k) then if keep old k (fi_sha1 i) then None else Some i else to_open old infos !! k').
    { intros k'. apply option_eq. intros i'. rewrite to_open_lookup. destruct (decide _) as [->|Hne].
      - rewrite lookup_insert. destruct (keep old k (fi_sha1 i)) eqn:Ek; split; try done.
        + intros [[= <-] ?]. congruence.
        + intros [[= <-] ?]. done.
        + intros [= <-]. done.
      - rewrite lookup_insert_ne by done. by rewrite to_open_lookup. }
    assert (Hkn : kept_map old infos !! k = None).
    { unfold kept_map. rewrite map_lookup_imap, Hk. done. }
    assert (Hon : to_open old infos !! k = None).
    { destruct (to_open old infos !! k) eqn:Eo; [|done]. apply to_open_lookup in Eo as [? _]. congruence. }
    destruct (keep old k (fi_sha1 i)) as [q|] eqn:Ek.
    + assert (kept_map old (<[k:=i]> infos) = <[k:=q]> (kept_map old infos)) as ->.
      { apply map_eq. intros k'. rewrite H1. destruct (decide _) as [->|]; [by rewrite lookup_insert|by rewrite lookup_insert_ne]. }
      assert (to_open old (<[k:=i]> infos) = to_open old infos) as ->.
      { apply map_eq. intros k'. rewrite H2. destruct (decide _) as [->|]; done. }
      rewrite map_size_insert_None by done. lia.
    + assert (kept_map old (<[k:=i]> infos) = kept_map old infos) as ->.
      { apply map_eq. intros k'. rewrite H1. destruct (decide _) as [->|]; done. }
      assert (to_open old (<[k:=i]> infos) = <[k:=i]> (to_open old infos)) as ->.
      { apply map_eq. intros k'. rewrite H2. destruct (decide _) as [->|]; [by rewrite lookup_insert|by rewrite lookup_insert_ne]. }
      rewrite map_size_insert_None by done. lia.
Qed.

Lemma keep_note old k h q' : keep old k h = Some q' ->
  exists q note, old_map old !! k = Some q /\ q' = set_unchanged note q /\ (note = "not reloadable" \/ note = "unchanged").
Proof.
  unfold keep. destruct (old_map old !! k) as [q|]; [|done].
  destruct (pl_reloadable q); [destruct (String.eqb _ _); [|done]|]; intros [= <-]; exists q; eauto.
Qed.

(** Names of infos filed under their own key are different even up to case. *)
Lemma info_names_elem infos n : n ∈ info_names infos <-> exists k i, infos !! k = Some i /\ fi_name i = n.
Proof.
  unfold info_names. rewrite elem_of_sort_strings, elem_of_list_fmap. split.
  - intros ([k i] & -> & Hin). apply elem_of_map_to_list in Hin. eauto.
  - intros (k & i & Hki & <-). exists (k, i). split; [done|]. by apply elem_of_map_to_list.
Qed.
Lemma info_names_nodup (infos : gmap string fileInfo) :
  (forall k i, infos !! k = Some i -> name2key (fi_name i) = k) -> NoDup (map name2key (info_names infos)).
Proof.
  intros Hk. unfold info_names.
  assert (Hp : Permutation (map name2key (sort_strings (map (fun ki => fi_name (snd ki)) (map_to_list infos))))
                           (map fst (map_to_list infos))).
  { rewrite sort_strings_perm, map_map.
    assert (Heq : map (fun x => name2key (fi_name (snd x))) (map_to_list infos) = map fst (map_to_list infos)).
    { apply list_fmap_ext. intros j [k i] Hin. apply elem_of_list_lookup_2 in Hin. apply elem_of_map_to_list in Hin. by apply Hk. }
    by rewrite Heq. }
  rewrite Hp. apply NoDup_fst_map_to_list.
Qed.

Lemma insert_all_lookup_ne ps m k : k ∉ map (fun p => name2key (pl_name p)) ps -> insert_all ps m !! k = m !! k.
Proof.
  revert m; induction ps as [|p ps IH]; intros m Hn; simpl in *; [done|].
  apply not_elem_of_cons in Hn as [H1 H2]. unfold insert_all in *. simpl. rewrite IH by done. by rewrite lookup_insert_ne.
Qed.
Lemma insert_all_lookup ps m k p :
  NoDup (map (fun p => name2key (pl_name p)) ps) ->
  insert_all ps m !! k = Some p <->
  (p ∈ ps /\ name2key (pl_name p) = k) \/ (k ∉ map (fun p => name2key (pl_name p)) ps /\ m !! k = Some p).
Proof.
  revert m; induction ps as [|q ps IH]; intros m Hnd.
  - unfold insert_all; simpl. split; [intros; right; split; [apply not_elem_of_nil|done]|].
    intros [[H _]|[_ H]]; [by apply elem_of_nil in H|done].
  - simpl in Hnd. apply NoDup_cons in Hnd as [Hq Hnd].
    change (insert_all (q :: ps) m) with (insert_all ps (<[name2key (pl_name q) := q]> m)).
    rewrite IH by done. cbn [map]. rewrite elem_of_cons, not_elem_of_cons. split.
    + intros [[Hp Hk]|[Hn Hm]]; [left; tauto|].
      destruct (decide (k = name2key (pl_name q))) as [->|Hne].
      * rewrite lookup_insert in Hm. injection Hm as ->. left. split; [by left|done].
      * rewrite lookup_insert_ne in Hm by done. right. done.
    + intros [[[->|Hp] Hk]|[[Hne Hn] Hm]].
      * right. rewrite <- Hk. split; [done|]. by rewrite lookup_insert.
      * left; done.
      * right. split; [done|]. by rewrite lookup_insert_ne.
Qed.
Lemma mplugins_insert (m : gmap string plugin) k p :
  m !! k = None -> Permutation (mplugins (<[k:=p]> m)) (p :: mplugins m).
Proof. intros H. unfold mplugins. by rewrite map_to_list_insert. Qed.
Lemma mplugins_insert_all ps m :
  NoDup (map (fun p => name2key (pl_name p)) ps) ->
  (forall p, p ∈ ps -> m !! name2key (pl_name p) = None) ->
  Permutation (mplugins (insert_all ps m)) (ps ++ mplugins m).
Proof.
  revert m; induction ps as [|q ps IH]; intros m Hnd Hm; [done|].
  simpl in Hnd. apply NoDup_cons in Hnd as [Hq Hnd].
  change (insert_all (q :: ps) m) with (insert_all ps (<[name2key (pl_name q) := q]> m)).
  rewrite IH; [|done|].
  - rewrite mplugins_insert by (apply Hm; by left). simpl. symmetry. apply Permutation_middle.
  - intros p Hp. rewrite lookup_insert_ne; [apply Hm; by right|].
    intros He. apply Hq. rewrite He. apply elem_of_list_fmap. eauto.
Qed.

Lemma elem_mplugins (m : gmap string plugin) p : p ∈ mplugins m <-> exists k, m !! k = Some p.
Proof.
  unfold mplugins. rewrite elem_of_list_fmap. split.
  - intros ([k q] & -> & H). apply elem_of_map_to_list in H. eauto.
  - intros (k & H). exists (k, p). split; [done|]. by apply elem_of_map_to_list.
Qed.

(** ** Reading the files *)
Definition reads (fds : list (string * string)) : list event :=
  map (fun fd => EvReadFile (fst fd) (Val (snd fd))) fds.

Lemma exec_readFiles files m0 t o :
  exec (buildFileInfoMap files m0) t o ->
  (exists fds, map fst fds = files /\ t = reads fds /\ o = Val (fold_left (fun m fd => info_add m (fst fd) (snd fd)) fds m0)) \/
  (exists fds f rest e, files = map fst fds ++ f :: rest /\ t = reads fds ++ [EvReadFile f (Err e)] /\ o = Err e /\ outside e).
Proof.
  revert m0 t; induction files as [|f files IH]; intros m0 t H; cbn [buildFileInfoMap] in H.
  - destruct H as [-> ->]. left. by exists [].
  - xinv H. destruct x as [d|e|x]; [| |done].
    + apply IH in H as [(fds & <- & -> & ->)|(fds & f' & rest & e & -> & -> & -> & He)].
      * left. exists ((f, d) :: fds). done.
      * right. exists ((f, d) :: fds), f', rest, e. done.
    + destruct H as [-> ->]. right. exists [], f, files, e. done.
Qed.

Lemma reads_quiet fds : Forall quiet (reads fds).
Proof. unfold reads. induction fds; simpl; constructor; done. Qed.
Lemma created_quiet_reads fds : created (reads fds) = [].
Proof. unfold reads. induction fds; simpl; done. Qed.

(** ** Both carry-over loops *)
Definition carry_events (mid : N) (t : list event) : Prop :=
  Forall (fun e => (exists i v, e = EvRefInc mid i v) \/ exists w, e = EvNow w) t.
Lemma carry_facts mid t : carry_events mid t ->
  call_sigs t = [] /\ admitted t = [] /\ decrements t = [] /\ created t = [].
Proof.
  induction 1 as [|e t [(i & v & ->)|(w & ->)] _ IH]; done.
Qed.
Lemma carry_forall2 mid old (it : list string) t :
  Forall2 (fun k e => exists q v, old_map old !! k = Some q /\ e = EvRefInc mid (pl_inst q) v) it t ->
  carry_events mid t /\ increments t = map pl_inst (plugins_of (old_map old) it).
Proof.
  induction 1 as [|k e it t (q & v & Hq & ->) _ [IH1 IH2]]; [split; [constructor|done]|].
  split; [constructor; eauto|]. cbn [plugins_of]. rewrite Hq. simpl. by rewrite <- IH2.
Qed.

Lemma notReloadable_keys old infos k :
  k ∈ map_keys (notReloadable_of old infos) <-> exists i q, infos !! k = Some i /\ old_map old !! k = Some q /\ pl_reloadable q = false.
Proof.
  rewrite map_keys_elem. unfold notReloadable_of. split.
  - intros [i Hi]. apply map_filter_lookup_Some in Hi as [Hi Hn]. simpl in Hn.
    apply isNotReloadable_spec in Hn as (q & Hq & Hr). eauto.
  - intros (i & q & Hi & Hq & Hr). exists i. apply map_filter_lookup_Some. split; [done|].
    apply isNotReloadable_spec. eauto.
Qed.
Lemma unchanged_keys old infos k :
  k ∈ map_keys (unchanged_of old (without_notReloadable old infos)) <->
  exists i q, infos !! k = Some i /\ old_map old !! k = Some q /\ pl_reloadable q = true /\ fi_sha1 i = pl_sha1 q.
Proof.
  rewrite map_keys_elem. unfold unchanged_of, without_notReloadable. split.
  - intros [i Hi]. apply map_filter_lookup_Some in Hi as [Hi Hn]. simpl in Hn.
    apply map_filter_lookup_Some in Hi as [Hi Hr]. simpl in Hr.
    apply isUnchanged_spec in Hn as (q & Hq & Hs). exists i, q. split_and!; try done.
    apply not_true_iff_false in Hr. destruct (pl_reloadable q) eqn:Er; [done|]. destruct Hr. apply isNotReloadable_spec. eauto.
  - intros (i & q & Hi & Hq & Hr & Hs). exists i. apply map_filter_lookup_Some. split.
    + apply map_filter_lookup_Some. split; [done|]. simpl. apply not_true_iff_false. intros Hn.
      apply isNotReloadable_spec in Hn as (q' & Hq' & Hr'). congruence.
    + apply isUnchanged_spec. eauto.
Qed.

Lemma carried old infos it1 it2 s (m1 m2 : gmap string plugin) :
  pm_map s = ∅ ->
  Permutation it1 (map_keys (notReloadable_of old infos)) ->
  Permutation it2 (map_keys (unchanged_of old (without_notReloadable old infos))) ->
  (forall k, m1 !! k = if decide (k ∈ it1) then set_unchanged "not reloadable" <$> (old_map old !! k) else pm_map s !! k) ->
  (forall k, m2 !! k = if decide (k ∈ it2) then set_unchanged "unchanged" <$> (old_map old !! k) else m1 !! k) ->
  m2 = kept_map old infos /\
  Permutation (map pl_inst (plugins_of (old_map old) (it1 ++ it2))) (map pl_inst (mplugins (kept_map old infos))).
Proof.
  intros Hs Hp1 Hp2 H1 H2.
  assert (E1 : forall k, k ∈ it1 <-> exists i q, infos !! k = Some i /\ old_map old !! k = Some q /\ pl_reloadable q = false).
  { intros k. rewrite Hp1. apply notReloadable_keys. }
  assert (E2 : forall k, k ∈ it2 <-> exists i q, infos !! k = Some i /\ old_map old !! k = Some q /\ pl_reloadable q = true /\ fi_sha1 i = pl_sha1 q).
  { intros k. rewrite Hp2. apply unchanged_keys. }
  assert (Hm : m2 = kept_map old infos).
  { apply map_eq. intros k. rewrite H2, H1, Hs. unfold kept_map. rewrite map_lookup_imap.
    destruct (decide (k ∈ it2)) as [Hk2|Hk2].
    - apply E2 in Hk2 as (i & q & Hi & Hq & Hr & Hsh). rewrite Hi, Hq. simpl. unfold keep. rewrite Hq, Hr.
      by rewrite (proj2 (String.eqb_eq _ _) Hsh).
    - destruct (decide (k ∈ it1)) as [Hk1|Hk1].
      + apply E1 in Hk1 as (i & q & Hi & Hq & Hr). rewrite Hi, Hq. simpl. unfold keep. by rewrite Hq, Hr.
      + rewrite lookup_empty. destruct (infos !! k) as [i|] eqn:Ei; [|done]. simpl. unfold keep.
        destruct (old_map old !! k) as [q|] eqn:Eq; [|done]. destruct (pl_reloadable q) eqn:Er.
        * destruct (String.eqb_spec (fi_sha1 i) (pl_sha1 q)); [|done]. destruct Hk2. apply E2. eauto 10.
        * destruct Hk1. apply E1. eauto. }
  split; [done|].
  assert (Hin : forall k, k ∈ it1 ++ it2 <-> is_Some (kept_map old infos !! k)).
  { intros k. rewrite elem_of_app, <- Hm, H2, H1, Hs. destruct (decide (k ∈ it2)) as [Hk2|Hk2].
    - split; [|by right]. intros _. apply E2 in Hk2 as (i & q & _ & -> & _). eauto.
    - destruct (decide (k ∈ it1)) as [Hk1|Hk1].
      + split; [|by left]. intros _. apply E1 in Hk1 as (i & q & _ & -> & _). eauto.
      + rewrite lookup_empty. split; [tauto|]. by intros [? ?]. }
  assert (Hnd : NoDup (it1 ++ it2)).
  { apply NoDup_app. split_and!.
    - rewrite Hp1. apply map_keys_nodup.
    - intros k Hk1 Hk2. apply E1 in Hk1 as (i & q & _ & Hq & Hr). apply E2 in Hk2 as (i' & q' & _ & Hq' & Hr' & _). congruence.
    - rewrite Hp2. apply map_keys_nodup. }
  assert (Hperm : Permutation (it1 ++ it2) (map_keys (kept_map old infos))).
  { apply NoDup_Permutation; [done|apply map_keys_nodup|]. intros k. rewrite Hin. by rewrite map_keys_elem. }
  rewrite <- plugins_of_keys. rewrite (plugins_of_perm _ _ _ (symmetry Hperm)).
  assert (Heq : forall l, (forall k, k ∈ l -> is_Some (kept_map old infos !! k)) ->
     map pl_inst (plugins_of (old_map old) l) = map pl_inst (plugins_of (kept_map old infos) l)).
  { induction l as [|k l IH]; intros Hl; [done|]. destruct (Hl k) as [q' Hq']; [by left|].
    cbn [plugins_of]. rewrite Hq'. apply kept_lookup in Hq' as (i & _ & Hkp).
    apply keep_note in Hkp as (q & note & Hq & -> & _). rewrite Hq. simpl. f_equal. apply IH. intros; apply Hl; by right. }
  rewrite Heq; [done|]. intros k Hk. by apply Hin.
Qed.

(** ** The first half of loadPlugins *)
Definition gathered_with (old : option mgr) (s : mgr) (fds : list (string * string)) (ti : list event) (now : N)
  (n1 : list string) (ps : list plugin) (ts : list (list event)) : Prop :=
  let infos := infos_of fds in
  NoDup (map file_key (map fst fds)) /\
  EvNow now ∈ ti /\ carry_events (pm_id s) ti /\ Permutation (increments ti) (map pl_inst (mplugins (kept_map old infos))) /\
  Forall3 (opened (to_open old infos) (upd_when now s)) n1 ps ts.

(** everything is read, carried over and opened; [s'] is ready for initDeps *)
Definition gathered (files : list string) (old : option mgr) (s : mgr) (t : list event) (s' : mgr) : Prop :=
  exists fds ti now ps ts, map fst fds = files /\
    gathered_with old s fds ti now (info_names (to_open old (infos_of fds))) ps ts /\
    t = reads fds ++ ti ++ concat ts /\
    s' = upd_when now (with_map (insert_all ps (kept_map old (infos_of fds))) s).

(** how the first half can fail *)
Inductive gather_failed (files : list string) (old : option mgr) (s : mgr) : list event -> mgr -> outcome unit -> Prop :=
  | gf_dup k : (1 < key_count k files)%nat -> gather_failed files old s [] s (Err (EDup k files))
  | gf_read fds f rest e : files = map fst fds ++ f :: rest -> NoDup (map file_key files) -> outside e ->
      gather_failed files old s (reads fds ++ [EvReadFile f (Err e)]) s (Err e)
  | gf_open fds ti now n1 name n2 ps ts tl s' o o' :
      map fst fds = files -> gathered_with old s fds ti now n1 ps ts ->
      info_names (to_open old (infos_of fds)) = n1 ++ name :: n2 ->
      s' = upd_when now (with_map (insert_all ps (kept_map old (infos_of fds))) s) ->
      open_failed (pm_id s) tl ->
      exec (loadPlugin (to_open old (infos_of fds) !! name) s') tl (s', o) ->
      o' = open_outcome (to_open old (infos_of fds) !! name) name o -> ~ is_val o -> ~ is_val o' ->
      gather_failed files old s (reads fds ++ ti ++ concat ts ++ tl) s' o'.

Lemma known_notes old infos s :
  pm_map s = kept_map old infos -> forall t s' o, exec (outputStats1 s) t (s', o) -> t = [] /\ s' = s /\ o = Val tt.
Proof.
  intros Hm t s' o H. unfold outputStats1 in H. xinv H.
  match type of H with exec ((if ?b then _ else _) _) _ _ => assert (Hb : b = true) end.
  { apply forallb_forall. intros [k q] Hin. apply elem_of_list_In, elem_of_map_to_list in Hin. rewrite Hm in Hin.
    apply kept_lookup in Hin as (i & _ & Hkp). apply keep_note in Hkp as (q0 & note & _ & -> & [-> | ->]); done. }
  rewrite Hb in H. xinv H. done.
Qed.

Lemma exec_body files old data s t s' o :
  keyed (old_map old) -> pm_map s = ∅ ->
  exec (loadPlugins_body files old data s) t (s', o) ->
  gather_failed files old s t s' o \/
  exists t1 t2 s1, t = t1 ++ t2 /\ gathered files old s t1 s1 /\ exec (lifecycle data s1) t2 (s', o).
Proof.
  intros Hkey Hempty H. unfold loadPlugins_body in H. xinv H. rewrite Hempty in H.
  change (negb (size (∅ : gmap string plugin) =? 0)%nat) with false in H. cbv iota in H.
  xinv H. rename x into dups. simpl in Hv. destruct dups as [|k dups].
  2:{ xinv H. left. simpl. constructor. apply elem_dup_keys. rewrite <- Hv. by left. }
  apply Permutation_nil in Hv. apply dup_keys_nil in Hv. rename Hv into Hnd. rewrite app_nil_l.
  apply exec_sbind in H as [(t1 & t2 & s1 & infos & -> & H1 & H)|(o1 & H1 & Hf)].
  2:{ xinv H1. apply exec_readFiles in H1 as [(fds & _ & _ & ->)|(fds & f & rest & e & -> & -> & -> & He)]; [by destruct o|].
      destruct o; try done. simpl in Hf; subst. left. by econstructor. }
  xinv H1. apply exec_readFiles in H1 as [(fds & <- & -> & [= ->])|(fds & f & rest & e & _ & _ & ? & _)]; [|done].
  rewrite fold_info_add in H by (done || (intros; by rewrite lookup_empty)).
  rewrite (right_id_L ∅ (∪)) in H. set (infos := infos_of fds) in *.
  xinv H. rename x into it1. simpl in Hv. rename Hv into Hit1.
  apply exec_sbind in H as [(t1 & t2 & s1 & [] & -> & H1 & H)|(o1 & H1 & Hf)].
  2:{ apply exec_carryOver in H1 as (-> & _); [by destruct o|done|rewrite Hit1; apply map_keys_nodup|].
      intros k Hk. rewrite Hit1 in Hk. apply notReloadable_keys in Hk as (? & q & _ & ? & _). eauto. }
  apply exec_carryOver in H1 as (_ & (m1 & ->) & _ & Hinc1 & Hm1); [|done|rewrite Hit1; apply map_keys_nodup|].
  2:{ intros k Hk. rewrite Hit1 in Hk. apply notReloadable_keys in Hk as (? & q & _ & ? & _). eauto. }
  xinv H. rename x into it2. simpl in Hv. rename Hv into Hit2.
  apply exec_sbind in H as [(t3 & t4 & s1 & [] & -> & H1 & H)|(o1 & H1 & Hf)].
  2:{ apply exec_carryOver in H1 as (-> & _); [by destruct o|done|rewrite Hit2; apply map_keys_nodup|].
      intros k Hk. rewrite Hit2 in Hk. apply unchanged_keys in Hk as (? & q & _ & ? & _). eauto. }
  apply exec_carryOver in H1 as (_ & (m2 & ->) & _ & Hinc2 & Hm2); [|done|rewrite Hit2; apply map_keys_nodup|].
  2:{ intros k Hk. rewrite Hit2 in Hk. apply unchanged_keys in Hk as (? & q & _ & ? & _). eauto. }
  simpl in Hm1, Hm2, Hinc2.
  destruct (carried old infos it1 it2 s m1 m2 Hempty Hit1 Hit2 Hm1 Hm2) as [-> Hinst]. clear Hm1 Hm2.
  apply carry_forall2 in Hinc1 as [Hc1 Hi1]. apply carry_forall2 in Hinc2 as [Hc2 Hi2].
  assert (Hti : forall now, carry_events (pm_id s) (t1 ++ t3 ++ [EvNow now])).
  { intros now. apply Forall_app. split; [done|]. apply Forall_app. split; [done|]. apply Forall_singleton. right. by exists now. }
  assert (Hii : forall now, Permutation (increments (t1 ++ t3 ++ [EvNow now])) (map pl_inst (mplugins (kept_map old infos)))).
  { intros now. rewrite !increments_app, Hi1, Hi2. cbn [increments omap list_omap inc_inst]. rewrite app_nil_r, <- map_app, <- plugins_of_app. done. }
  xinv H. simpl pm_map in H.
  change (without_unchanged old (without_notReloadable old infos)) with (to_open old infos) in H.
  rewrite sizes in H. assert (Hsz : size infos = length (map fst fds)).
  { rewrite map_length. by apply infos_size. }
  rewrite Hsz, Nat.eqb_refl in H. cbv iota beta delta [negb] in H.
  apply exec_sbind in H as [(t5 & t6 & s1 & [] & -> & H1 & H)|(o1 & H1 & Hf)].
  2:{ eapply known_notes in H1 as (_ & _ & ->); [by destruct o|done]. }
  eapply known_notes in H1 as (-> & -> & _); [|done].
  xinv H. rename x into now. xinv H. rewrite !app_nil_l.
  change (with_map (kept_map old infos) (with_map m1 s)) with (with_map (kept_map old infos) s) in H.
  change (upd_when now (with_map (kept_map old infos) s)) with (with_map (kept_map old infos) (upd_when now s)) in H.
  change (fun (name : string) (pm : mgr) => _) with (openOne (to_open old infos)) in H.
  assert (Hgw : forall n1 ps ts, Forall3 (opened (to_open old infos) (upd_when now s)) n1 ps ts -> gathered_with old s fds (t1 ++ t3 ++ [EvNow now]) now n1 ps ts).
  { intros n1 ps ts HF. split_and!; [done| |apply Hti|apply Hii|done]. rewrite !elem_of_app. right. right. by left. }
  apply exec_sbind in H as [(t5 & t6' & s1 & [] & -> & H1 & H)|(o1 & H1 & Hf)].
  - right. apply exec_openAll in H1 as (n1 & n2 & ps & ts & tl & Hn & -> & Hall & -> & Hok & _).
    destruct (Hok eq_refl) as [-> ->]. rewrite app_nil_r in *. subst n1.
    exists (reads fds ++ (t1 ++ t3 ++ [EvNow now]) ++ concat ts), t6'. eexists. split_and!; [by rewrite <- !app_assoc| |exact H].
    exists fds, (t1 ++ t3 ++ [EvNow now]), now, ps, ts. split_and!; try done. by apply Hgw.
  - left. apply exec_openAll in H1 as (n1 & n2 & ps & ts & tl & Hn & -> & Hall & -> & _ & Hfail).
    assert (Hnv : ~ is_val o1) by (destruct o1; simpl in *; [by destruct o|tauto..]).
    destruct (Hfail Hnv) as (Hof & name & n2' & -> & o0 & Hn0 & Ho0 & Hex).
    replace (reads fds ++ t1 ++ t3 ++ [EvNow now] ++ concat ts ++ tl) with (reads fds ++ (t1 ++ t3 ++ [EvNow now]) ++ concat ts ++ tl) by (by rewrite <- !app_assoc).
    assert (o = o1) as -> by (destruct o1 as [[]|e|x], o as [[]|e'|x']; try done; simpl in Hf; by subst).
    eapply (gf_open _ _ _ fds (t1 ++ t3 ++ [EvNow now]) now n1 name n2' ps ts tl _ o0); try done. by apply Hgw.
Qed.

(** names of plugins that could be opened are lower-case *)
Lemma opened_names old s fds now n1 n2 ps ts :
  NoDup (map file_key (map fst fds)) ->
  info_names (to_open old (infos_of fds)) = n1 ++ n2 ->
  Forall3 (opened (to_open old (infos_of fds)) (upd_when now s)) n1 ps ts ->
  map pl_name ps = n1 /\ map (fun p => name2key (pl_name p)) ps = n1 /\ NoDup n1 /\
  Forall (fun p => exists f d, (f, d) ∈ fds /\ pluginName f = pl_name p /\ file_key f = pl_name p /\
     keep old (file_key f) (sha1 d) = None /\ fresh_from (upd_when now s) (info_of f d) p) ps.
Proof.
  intros Hnd Hn Hall.
  assert (Hk : forall k i, to_open old (infos_of fds) !! k = Some i -> name2key (fi_name i) = k).
  { intros k i Hi. apply to_open_lookup in Hi as [Hi _]. by eapply infos_key. }
  pose proof (info_names_nodup _ Hk) as Hndn. rewrite Hn, map_app in Hndn. apply NoDup_app in Hndn as (Hndn & _ & _).
  assert (Hone : forall n p t, n ∈ n1 -> opened (to_open old (infos_of fds)) (upd_when now s) n p t ->
    pl_name p = n /\ name2key n = n /\
    exists f d, (f, d) ∈ fds /\ pluginName f = pl_name p /\ file_key f = pl_name p /\
     keep old (file_key f) (sha1 d) = None /\ fresh_from (upd_when now s) (info_of f d) p).
  { intros n p t Hin (i & h & ans & c1 & c2 & Hi & Hfr & _).
    assert (Hlow : name2key n = n).
    { rewrite <- (Hk n i Hi). unfold name2key. apply to_lower_idem. }
    assert (n ∈ info_names (to_open old (infos_of fds))) as Hin' by (rewrite Hn; apply elem_of_app; by left).
    apply info_names_elem in Hin' as (k & i0 & Hi0 & Hn0).
    assert (k = n) as -> by (rewrite <- (Hk k i0 Hi0), Hn0; done).
    assert (i0 = i) as -> by congruence.
    assert (Hpn : pl_name p = n) by (destruct Hfr as [-> _]; done).
    split_and!; [done..|]. apply to_open_lookup in Hi as [Hi Hkp].
    apply infos_lookup in Hi as (f & d & Hfd & Hfk & ->); [|done].
    exists f, d. rewrite Hpn. split_and!; try done. by rewrite Hfk. }
  clear Hk.
  assert (Hres : map pl_name ps = n1 /\ map (fun p => name2key (pl_name p)) ps = n1 /\ map name2key n1 = n1 /\
    Forall (fun p => exists f d, (f, d) ∈ fds /\ pluginName f = pl_name p /\ file_key f = pl_name p /\
     keep old (file_key f) (sha1 d) = None /\ fresh_from (upd_when now s) (info_of f d) p) ps).
  { clear Hn Hndn. induction Hall as [|n p t n1 ps ts Hp _ IH]; [split_and!; constructor|].
    destruct (Hone n p t) as (Hp1 & Hp2 & Hp3); [by left|done|].
    destruct IH as (I1 & I2 & I3 & I4); [intros; eapply Hone; [by right|done]|].
    simpl. rewrite I1, I2, I3, Hp1, Hp2. split_and!; try done. by constructor. }
  destruct Hres as (R1 & R2 & R3 & R4). rewrite R3 in Hndn. done.
Qed.

Lemma gathered_map old s fds ti now n1 n2 ps ts :
  gathered_with old s fds ti now n1 ps ts ->
  info_names (to_open old (infos_of fds)) = n1 ++ n2 ->
  Permutation (mplugins (insert_all ps (kept_map old (infos_of fds)))) (ps ++ mplugins (kept_map old (infos_of fds))) /\
  (forall p, p ∈ ps -> kept_map old (infos_of fds) !! name2key (pl_name p) = None) /\
  NoDup (map (fun p => name2key (pl_name p)) ps).
Proof.
  intros (Hnd & _ & Hti & Hinc & Hall) Hn.
  destruct (opened_names _ _ _ _ _ _ _ _ Hnd Hn Hall) as (R1 & R2 & R3 & R4).
  assert (Hk : forall p, p ∈ ps -> kept_map old (infos_of fds) !! name2key (pl_name p) = None).
  { intros p Hp. rewrite Forall_forall in R4. destruct (R4 p Hp) as (f & d & Hfd & _ & Hfk & Hkp & _).
    assert (Hnp : name2key (pl_name p) = pl_name p) by (rewrite <- Hfk; unfold file_key, name2key; apply to_lower_idem).
    rewrite Hnp, <- Hfk. destruct (kept_map old (infos_of fds) !! file_key f) as [q|] eqn:Eq; [|done].
    apply kept_lookup in Eq as (i & Hi & Hkq). apply infos_lookup in Hi as (f' & d' & Hfd' & Hff & ->); [|done].
    assert ((f', d') = (f, d)) as [= -> ->].
    { clear -Hnd Hfd Hfd' Hff. rewrite map_map in Hnd. induction fds as [|[a b] fds IH]; [by apply elem_of_nil in Hfd|].
      simpl in Hnd. apply NoDup_cons in Hnd as [Hn Hnd].
      apply elem_of_cons in Hfd as [Hfd|Hfd], Hfd' as [Hfd'|Hfd']; [congruence| | |by apply IH].
      - exfalso. apply Hn. apply elem_of_list_fmap. exists (f', d'). split; [simpl; injection Hfd as -> ->; done|done].
      - exfalso. apply Hn. apply elem_of_list_fmap. exists (f, d). split; [simpl; injection Hfd' as -> ->; done|done]. }
    simpl in Hkq. congruence. }
  split_and!; [|done|by rewrite R2]. apply mplugins_insert_all; [by rewrite R2|done].
Qed.

(** ** The deferred cleanup *)
Definition as_error (o : outcome unit) : gerror :=
  match o with Err e => e | Pan x => EPanic None x | Val _ => ECount end.

Lemma exec_with_cleanup body s t s' o :
  (forall t s' o, exec (body s) t (s', o) -> ~ is_val o ->
     pm_ordered s' = [] \/ Permutation (pm_ordered s') (map_keys (pm_map s'))) ->
  exec (with_cleanup body s) t (s', o) ->
  (o = Val tt /\ exec (body s) t (s', Val tt)) \/
  (exists tb tf ob ps ts, t = tb ++ tf /\ exec (body s) tb (s', ob) /\ ~ is_val ob /\ o = Err (as_error ob) /\
     tf = concat ts /\ Forall2 (freed_one (pm_id s')) ps ts /\ Permutation ps (mplugins (pm_map s')) /\
     (pm_ordered s' <> [] -> ps = rev (Plugins s'))).
Proof.
  intros Hord H. unfold with_cleanup in H. apply exec_bind in H as (tb & tf & [s1 ob] & -> & Hb & H). simpl in H.
  destruct ob as [[]|e|x].
  - xinv H. left. rewrite app_nil_r. done.
  - right. apply exec_bind in H as (t1 & t2 & c & -> & Hc & H).
    assert (Hs : s1 = s') by (destruct c; by destruct H as [_ [= -> _]]). subst s1.
    apply exec_invokeEveryOnFree in Hc as (-> & ps & ts & -> & Hps & Hperm & Hrev); [|apply (Hord _ _ _ Hb); simpl; tauto].
    xinv H. rewrite app_nil_r. exists tb, (concat ts), (Err e), ps, ts. split_and!; try done; simpl; tauto.
  - right. apply exec_bind in H as (t1 & t2 & c & -> & Hc & H).
    assert (Hs : s1 = s') by (destruct c; by destruct H as [_ [= -> _]]). subst s1.
    apply exec_invokeEveryOnFree in Hc as (-> & ps & ts & -> & Hps & Hperm & Hrev); [|apply (Hord _ _ _ Hb); simpl; tauto].
    xinv H. rewrite app_nil_r. exists tb, (concat ts), (Pan x), ps, ts. split_and!; try done; simpl; tauto.
Qed.

(** a manager just made by newPluginManager *)
Definition blank_mgr (s : mgr) : Prop :=
  pm_map s = ∅ /\ pm_ordered s = [] /\ pm_livefuncs s = ∅ /\ pm_livetypes s = ∅ /\ pm_databag s = ∅.

Lemma gather_failed_facts files old s t s' o : blank_mgr s -> gather_failed files old s t s' o ->
  ~ is_val o /\ pm_ordered s' = [] /\ same_head s s' /\
  Permutation (increments t ++ admitted t) (map pl_inst (mplugins (pm_map s'))) /\ decrements t = [].
Proof.
  intros (Hm & Ho & Hlf & Hlt & Hdb) [k Hk|fds f rest e Hf Hnd He|fds ti now n1 name n2 ps ts tl s1 o1 o' Hf Hg Hn Hs1 Hof Hex -> Hnv].
  - split_and!; try done; [simpl; tauto|]. rewrite Hm. unfold mplugins. by rewrite map_to_list_empty.
  - pose proof (reads_quiet fds) as Hq.
    rewrite !increments_app, !admitted_app, !decrements_app, (quiet_incs _ Hq), (quiet_admitted _ Hq), (quiet_decs _ Hq).
    split_and!; try done; [simpl; tauto|]. rewrite Hm. unfold mplugins. by rewrite map_to_list_empty.
  - pose proof (reads_quiet fds) as Hq. destruct (gathered_map _ _ _ _ _ _ _ _ _ Hg Hn) as (Hperm & _ & _).
    destruct Hg as (Hnd & _ & Hti & Hinc & Hall).
    apply opened_all_facts in Hall as (A1 & A2 & A3 & A4 & A5). destruct Hof as (B1 & B2 & B3 & _).
    apply carry_facts in Hti as (C1 & C2 & C3 & C4).
    rewrite !increments_app, !admitted_app, !decrements_app, (quiet_incs _ Hq), (quiet_admitted _ Hq), (quiet_decs _ Hq).
    rewrite A1, A3, A4, B1, B2, B3, C2, C3, Hs1. simpl. rewrite !app_nil_r. split_and!; try done.
    rewrite Hperm, Hinc, map_app. apply Permutation_app_comm.
Qed.

Lemma mplugins_core s s' : core_map s' = core_map s -> Permutation (map pl_inst (mplugins (pm_map s'))) (map pl_inst (mplugins (pm_map s))).
Proof.
  intros H. unfold core_map in H.
  assert (Hx : forall m : gmap string plugin, Permutation (map pl_inst (mplugins m)) (map pl_inst (mplugins (core <$> m)))).
  { intros m. unfold mplugins. rewrite map_to_list_fmap. rewrite !map_map. apply reflexive_eq, map_ext. by intros [k p]. }
  rewrite (Hx (pm_map s')), H, <- Hx. done.
Qed.

Lemma gathered_facts files old s t s1 : blank_mgr s -> gathered files old s t s1 ->
  pm_ordered s1 = [] /\ pm_livefuncs s1 = ∅ /\ pm_livetypes s1 = ∅ /\ pm_databag s1 = ∅ /\ same_head s s1 /\
  Permutation (increments t ++ admitted t) (map pl_inst (mplugins (pm_map s1))) /\ decrements t = [].
Proof.
  intros (Hm & Ho & Hlf & Hlt & Hdb) (fds & ti & now & ps & ts & Hf & Hg & -> & ->).
  destruct (gathered_map _ _ _ _ _ _ [] _ _ Hg (eq_sym (app_nil_r _))) as (Hperm & _ & _).
  pose proof (reads_quiet fds) as Hq. destruct Hg as (Hnd & _ & Hti & Hinc & Hall).
  apply opened_all_facts in Hall as (A1 & A2 & A3 & A4 & A5).
  apply carry_facts in Hti as (C1 & C2 & C3 & C4).
  rewrite !increments_app, !admitted_app, !decrements_app, (quiet_incs _ Hq), (quiet_admitted _ Hq), (quiet_decs _ Hq).
  rewrite A1, A3, A4, C2, C3. simpl. rewrite !app_nil_r. split_and!; try done.
  rewrite Hperm, Hinc, map_app. apply Permutation_app_comm.
Qed.

Lemma lifecycle_noref data s t s' o :
  pm_ordered s = [] -> pm_livefuncs s = ∅ -> pm_livetypes s = ∅ ->
  exec (lifecycle data s) t (s', o) -> noref t /\ same_head s s' /\
  (pm_ordered s' = [] \/ Permutation (pm_ordered s') (map_keys (pm_map s'))) /\
  Permutation (map pl_inst (mplugins (pm_map s'))) (map pl_inst (mplugins (pm_map s))).
Proof.
  intros H1 H2 H3 H. apply exec_lifecycle in H; [|done..].
  destruct H as (t1 & t2 & t3 & t4 & t5 & -> & E1 & E2 & E3 & E4 & E5 & Hh & _ & Hcm & Hord & _).
  split_and!; try done; [|by apply mplugins_core].
  repeat apply noref_app; (eapply calls_noref; [eassumption|by intros ? <-]).
Qed.

(** one load by a fresh manager *)
Definition body_ran (files : list string) (old : option mgr) (data : N) (s : mgr) (t : list event) (s' : mgr) (o : outcome unit) : Prop :=
  gather_failed files old s t s' o \/
  exists t1 t2 s1, t = t1 ++ t2 /\ gathered files old s t1 s1 /\ exec (lifecycle data s1) t2 (s', o).

Lemma body_facts files old data s t s' o : blank_mgr s -> body_ran files old data s t s' o ->
  (pm_ordered s' = [] \/ Permutation (pm_ordered s') (map_keys (pm_map s'))) /\ same_head s s' /\
  Permutation (increments t ++ admitted t) (map pl_inst (mplugins (pm_map s'))) /\ decrements t = [].
Proof.
  intros Hb [Hg|(t1 & t2 & s1 & -> & Hg & Hl)].
  - apply gather_failed_facts in Hg as (_ & ? & ? & ? & ?); [|done]. split_and!; try done. by left.
  - apply gathered_facts in Hg as (G1 & G2 & G3 & G4 & G5 & G6 & G7); [|done].
    apply lifecycle_noref in Hl as ((L1 & L2 & L3 & L4) & L5 & L6 & L7); [|done..].
    rewrite increments_app, admitted_app, decrements_app, L1, L2, L3, !app_nil_r. split_and!; try done.
    + by eapply same_head_trans.
    + by rewrite L7.
Qed.

Lemma exec_loadPlugins files old data s t s' o :
  keyed (old_map old) -> blank_mgr s -> exec (loadPlugins files old data s) t (s', o) ->
  same_head s s' /\
  ((o = Val tt /\ body_ran files old data s t s' (Val tt)) \/
   (exists tb ob ps ts, t = tb ++ concat ts /\ o = Err (as_error ob) /\ ~ is_val ob /\
     body_ran files old data s tb s' ob /\
     Forall2 (freed_one (pm_id s)) ps ts /\ Permutation ps (mplugins (pm_map s')) /\
     (pm_ordered s' <> [] -> ps = rev (Plugins s')) /\
     decrements tb = [] /\ increments (concat ts) = [] /\ admitted (concat ts) = [] /\ created (concat ts) = [] /\
     Permutation (decrements (concat ts)) (increments tb ++ admitted tb) /\
     Forall (fun e => match e with EvCall r _ _ _ => r = ROnFree | _ => True end) (concat ts))).
Proof.
  intros Hkey Hb H. assert (Hb' := Hb). destruct Hb' as (Hm & _).
  assert (Hran : forall t s' o, exec (loadPlugins_body files old data s) t (s', o) -> body_ran files old data s t s' o).
  { intros. by apply exec_body. }
  apply exec_with_cleanup in H as [(-> & H)|(tb & tf & ob & ps & ts & -> & H & Hnv & -> & -> & Hps & Hperm & Hrev)].
  - apply Hran in H. destruct (body_facts _ _ _ _ _ _ _ Hb H) as (_ & ? & _). eauto.
  - apply Hran in H. destruct (body_facts _ _ _ _ _ _ _ Hb H) as (_ & Hh & Hinst & Hdec).
    split; [done|]. right. exists tb, ob, ps, ts. rewrite (proj1 Hh) in Hps.
    pose proof (freed_all _ _ _ Hps) as (F1 & F2 & F3 & F4 & F5 & _). split_and!; try done.
    rewrite F1, Hinst, Hperm. done.
  - intros t0 s0 o0 H0 _. apply Hran in H0. by destruct (body_facts _ _ _ _ _ _ _ Hb H0) as (? & _).
Qed.

(** ** The plugins of a manager after a successful load *)

(** [p], filed under [k], comes from file [f] with content [d] *)
Definition comes_from (old : option mgr) (s s1 : mgr) (t : list event) (f d k : string) (p : plugin) : Prop :=
  match keep old k (sha1 d) with
  | Some q => p = q
  | None => pluginName f = k /\ fresh_from s1 (info_of f d) p /\
            exists h ans c1 c2, pl_P p = Some h /\
              (forall r, exists sym v, ans r = Some sym /\ sym_value r sym = Some v /\ get_func r (pl_funcs p) = code_of v) /\
              get_func RReloadable (pl_funcs p) = Some c1 /\ get_func RExport (pl_funcs p) = Some c2 /\
              exists ta tz, t = ta ++ open_trace s (info_of f d) p h ans c1 c2 ++ tz /\ EvReadFile f (Val d) ∈ ta
  end.

Lemma elem_concat_split {A} (ts : list (list A)) t : t ∈ ts -> exists ta tz, concat ts = ta ++ t ++ tz.
Proof.
  intros (i & Hi)%elem_of_list_lookup. apply elem_of_list_split_length in Hi as (l1 & l2 & -> & _).
  exists (concat l1), (concat l2). by rewrite concat_app.
Qed.

(** where each plugin of the new manager comes from *)
Lemma gathered_lookup files old s t s1 :
  gathered files old s t s1 ->
  exists fds, map fst fds = files /\ NoDup (map file_key files) /\
  (forall f d, (f, d) ∈ fds -> EvReadFile f (Val d) ∈ t) /\
  (forall f, f ∈ files -> is_Some (pm_map s1 !! file_key f)) /\
  (forall k p, pm_map s1 !! k = Some p -> exists f d, (f, d) ∈ fds /\ file_key f = k /\ comes_from old s s1 t f d k p).
Proof.
  intros (fds & ti & now & ps & ts & Hf & Hg & -> & ->).
  destruct (gathered_map _ _ _ _ _ _ [] _ _ Hg (eq_sym (app_nil_r _))) as (_ & Hdisj & Hndp).
  destruct Hg as (Hnd & _ & Hti & Hinc & Hall).
  destruct (opened_names _ _ _ _ _ _ _ _ Hnd (eq_sym (app_nil_r _)) Hall) as (R1 & R2 & R3 & R4).
  exists fds. rewrite <- Hf in *. clear Hf files. split_and!; try done.
  - intros f d Hfd. apply elem_of_app. left. unfold reads. apply elem_of_list_fmap. by exists (f, d).
  - intros f Hin. apply elem_of_list_fmap in Hin as ([f' d] & -> & Hfd). simpl. simpl in *.
    destruct (keep old (file_key f') (sha1 d)) as [q|] eqn:Ek.
    + exists q. apply insert_all_lookup; [done|]. right.
      assert (Hq : kept_map old (infos_of fds) !! file_key f' = Some q).
      { apply kept_lookup. exists (info_of f' d). split; [apply infos_lookup; eauto|done]. }
      split; [|done]. intros Hk. apply elem_of_list_fmap in Hk as (p & Hp1 & Hp2). rewrite Hp1 in Hq.
      rewrite (Hdisj p Hp2) in Hq. done.
    + assert (Ho : to_open old (infos_of fds) !! file_key f' = Some (info_of f' d)).
      { apply to_open_lookup. split; [apply infos_lookup; eauto|done]. }
      assert (Hin : pluginName f' ∈ map pl_name ps).
      { rewrite R1. apply info_names_elem. eauto. }
      apply elem_of_list_fmap in Hin as (p & Hp1 & Hp2). exists p. apply insert_all_lookup; [done|]. left.
      split; [done|]. unfold file_key. by rewrite Hp1.
  - intros k p Hp. apply insert_all_lookup in Hp as [[Hp Hk]|[_ Hp]]; [| |done].
    + rewrite Forall_forall in R4. destruct (R4 p Hp) as (f & d & Hfd & Hpn & Hfk & Hkp & Hfr).
      assert (Hkey : file_key f = k).
      { rewrite Hfk, <- Hk, <- Hfk. unfold file_key, name2key. by rewrite to_lower_idem. }
      exists f, d. split_and!; [done..|]. unfold comes_from. rewrite <- Hkey, Hkp.
      split_and!; [by rewrite Hpn, Hfk|done|].
      assert (Hop : exists n tp, tp ∈ ts /\ opened (to_open old (infos_of fds)) (upd_when now s) n p tp).
      { clear -Hall Hp. induction Hall as [|n q tq ns ps ts Hq _ IH]; [by apply elem_of_nil in Hp|].
        apply elem_of_cons in Hp as [->|Hp]; [exists n, tq; split; [by left|done]|].
        destruct (IH Hp) as (n' & tp & ? & ?). exists n', tp. split; [by right|done]. }
      destruct Hop as (n & tp & Htp & i & h & ans & c1 & c2 & Hi & Hfr' & HP & Hfun & Hc1 & Hc2 & ->).
      assert (i = info_of f d) as ->.
      { apply to_open_lookup in Hi as [Hi _]. pose proof Hi as Hi'. apply infos_key in Hi'; [|done].
        assert (infos_of fds !! file_key f = Some (info_of f d)) as Hj by (apply infos_lookup; eauto).
        assert (file_key f = n) as Hfn.
        { rewrite <- Hi', Hfk. destruct Hfr' as [<- _]. by rewrite <- Hfk; unfold file_key, name2key; rewrite to_lower_idem. }
        congruence. }
      exists h, ans, c1, c2. split_and!; try done.
      apply elem_concat_split in Htp as (ta & tz & Hc). exists (reads fds ++ ti ++ ta), tz.
      rewrite Hc. split; [by rewrite <- !app_assoc|].
      apply elem_of_app. left. unfold reads. apply elem_of_list_fmap. by exists (f, d).
    + apply kept_lookup in Hp as (i & Hi & Hkp). apply infos_lookup in Hi as (f & d & Hfd & Hfk & ->); [|done].
      exists f, d. split_and!; try done. unfold comes_from. simpl in Hkp. by rewrite Hkp.
Qed.

End Proofs.
