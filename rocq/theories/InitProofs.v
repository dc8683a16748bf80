(** initDeps (checks, order, whole function) *)
From Verif Require Export WireProofs.

Section Proofs.
Context {E : GoEnv}.

Lemma map_keys_elem {A} (m : gmap string A) k : k ∈ map_keys m <-> is_Some (m !! k).
Proof.
  unfold map_keys. rewrite elem_of_list_fmap. split.
  - intros ([k' a] & -> & H). apply elem_of_map_to_list in H. eauto.
  - intros [a H]. exists (k, a). split; [done|]. by apply elem_of_map_to_list.
Qed.
Lemma map_keys_nodup {A} (m : gmap string A) : NoDup (map_keys m).
Proof. apply NoDup_fst_map_to_list. Qed.
Lemma map_keys_length {A} (m : gmap string A) : length (map_keys m) = size m.
Proof. unfold map_keys. by rewrite map_length. Qed.
Lemma map_keys_core s : Permutation (map_keys (core_map s)) (map_keys (pm_map s)).
Proof.
  apply NoDup_Permutation; [apply map_keys_nodup..|]. intros k. rewrite !map_keys_elem.
  unfold core_map. by rewrite lookup_fmap, fmap_is_Some.
Qed.

(** ** checkOne *)
Lemma exec_checkOne k s t s' o p :
  pm_map s !! k = Some p -> exec (checkOne k s) t (s', o) ->
  t = [] /\ s' = s /\
  (o = Val tt -> forall y, tc (edge (pm_map s)) k y -> y <> k /\ is_Some (pm_map s !! y)) /\
  (forall e, o = Err e -> exists l z, e = ECyclic (map (name_of (pm_map s)) (l ++ [z])) /\
      is_chain (pm_map s) (l ++ [z]) /\ z ∈ l) /\
  (forall x, o = Pan x -> x = PNil /\ exists y, rtc (edge (pm_map s)) k y /\ pm_map s !! y = None).
Proof.
  intros Hp. unfold checkOne. intros H. xinv H. rewrite Hp in H.
  destruct (pl_deps p) as [|d deps] eqn:Ed.
  { xinv H. split_and!; try done. intros _ y Hy. exfalso.
    assert (exists b, edge (pm_map s) k b) as (b & p' & d & Hp' & Hd & _) by (inversion Hy; eauto).
    rewrite Hp in Hp'; simplify_eq. rewrite Ed in Hd. by apply elem_of_nil in Hd. }
  rewrite sbind_spure in H.
  destruct (checkCyclic (pm_map s) (S (size (pm_map s))) ∅ k) as [l|e|x] eqn:Ec.
  - destruct l as [|x l].
    + xinv H. split_and!; try done. intros _ y Hy. apply check_none in Ec as (_ & _ & Hn).
      destruct (Hn y Hy) as (_ & ? & ?). done.
    + xinv H. split_and!; try done. intros e [= <-].
      apply check_chain in Ec as (l' & z & El & Hch & _ & Hz); [|done]. rewrite El in *.
      exists l', z. split_and!; [by rewrite <- El|done|]. destruct Hz as [Hz|Hz]; [|done]. by apply elem_of_empty in Hz.
  - by apply check_not_err in Ec.
  - xinv H. split_and!; try done. intros x' [= <-]. apply (check_panic _ _ _ _ _ Ec).
    intros ->. eapply check_fuel; [| |exact Ec]; [set_solver|]. rewrite size_empty. lia.
Qed.

Lemma exec_checkAll keys s t s' o :
  (forall k, k ∈ keys -> is_Some (pm_map s !! k)) ->
  exec (sfor keys checkOne s) t (s', o) ->
  t = [] /\ s' = s /\
  (o = Val tt -> forall k, k ∈ keys -> forall y, tc (edge (pm_map s)) k y -> y <> k /\ is_Some (pm_map s !! y)) /\
  (forall e, o = Err e -> exists l z, e = ECyclic (map (name_of (pm_map s)) (l ++ [z])) /\
      is_chain (pm_map s) (l ++ [z]) /\ z ∈ l) /\
  (forall x, o = Pan x -> x = PNil /\ exists k y, k ∈ keys /\ rtc (edge (pm_map s)) k y /\ pm_map s !! y = None).
Proof.
  revert t; induction keys as [|k keys IH]; intros t Hin; cbn [sfor].
  - intros H. xinv H. split_and!; try done. intros _ k Hk. by apply elem_of_nil in Hk.
  - intros H. destruct (Hin k) as [p Hp]; [by left|].
    apply exec_sbind in H as [(t1 & t2 & s1 & [] & -> & H1 & H)|(o1 & H1 & Hf)].
    + eapply exec_checkOne in H1 as (-> & -> & Hok1 & _); [|done].
      apply IH in H as (-> & -> & Hok & Herr & Hpan); [|intros; apply Hin; by right].
      split_and!; try done.
      * intros -> k' Hk' y Hy. apply elem_of_cons in Hk' as [->|Hk']; [by apply Hok1|]. by eapply Hok.
      * intros x Hx. destruct (Hpan x Hx) as (-> & k' & y & Hk' & ?). split; [done|]. exists k', y.
        split; [by right|done].
    + eapply exec_checkOne in H1 as (-> & -> & _ & Herr & Hpan); [|done]. split_and!; try done.
      * intros ->. by destruct o1.
      * intros e ->. destruct o1; try done. simpl in Hf; subst. by apply Herr.
      * intros x ->. destruct o1; try done. simpl in Hf; subst. destruct (Hpan x eq_refl) as (-> & y & ?).
        split; [done|]. exists k, y. split; [by left|done].
Qed.

(** ** checkRebuilt *)
Definition rebuilt_ok (m : gmap string plugin) (k : string) : Prop :=
  forall p, m !! k = Some p -> pl_unchanged p = true ->
    forall d, d ∈ pl_deps p -> exists q, m !! name2key d = Some q /\ pl_unchanged q = true.

Lemma exec_checkRebuilt k s t s' o p :
  pm_map s !! k = Some p -> exec (checkRebuilt k s) t (s', o) ->
  t = [] /\ s' = s /\ (o = Val tt -> rebuilt_ok (pm_map s) k) /\
  (forall e, o = Err e -> exists d q, e = ERebuilt (pl_name q) (pl_name p) /\ pl_unchanged p = true /\
     d ∈ pl_deps p /\ pm_map s !! name2key d = Some q /\ pl_unchanged q = false) /\
  (forall x, o = Pan x -> x = PNil /\ exists d, d ∈ pl_deps p /\ pm_map s !! name2key d = None).
Proof.
  intros Hp. unfold checkRebuilt. intros H. xinv H. rewrite Hp in H.
  destruct (pl_unchanged p) eqn:Eu.
  2:{ xinv H. split_and!; try done. intros _ p' Hp' Hu. congruence. }
  assert (Hgen : forall deps t, deps ⊆ pl_deps p -> exec (sfor deps (fun depName =>
          match pm_map s !! name2key depName with
          | None => span PNil
          | Some dep => if pl_unchanged dep then sret tt
                        else serr (ERebuilt (pl_name dep) (pl_name p))
          end) s) t (s', o) -> t = [] /\ s' = s /\ (o = Val tt -> forall d, d ∈ deps -> exists q, pm_map s !! name2key d = Some q /\ pl_unchanged q = true) /\
     (forall e, o = Err e -> exists d q, e = ERebuilt (pl_name q) (pl_name p) /\ true = true /\
     d ∈ pl_deps p /\ pm_map s !! name2key d = Some q /\ pl_unchanged q = false) /\
  (forall x, o = Pan x -> x = PNil /\ exists d, d ∈ pl_deps p /\ pm_map s !! name2key d = None)).
  { clear H t. intros deps. induction deps as [|d deps IH]; intros t Hsub; cbn [sfor].
    - intros H. xinv H. split_and!; try done. intros _ d Hd. by apply elem_of_nil in Hd.
    - intros H. assert (Hd : d ∈ pl_deps p) by (apply Hsub; by left).
      apply exec_sbind in H as [(t1 & t2 & s1 & [] & -> & H1 & H)|(o1 & H1 & Hf)].
      + destruct (pm_map s !! name2key d) as [q|] eqn:Eq; [|by xinv H1].
        destruct (pl_unchanged q) eqn:Euq; [|by xinv H1]. xinv H1.
        apply IH in H as (-> & -> & Hok & Herr & Hpan); [|intros z Hz; apply Hsub; by right].
        split_and!; try done. intros -> d' Hd'. apply elem_of_cons in Hd' as [->|Hd']; [eauto|]. by apply Hok.
      + destruct (pm_map s !! name2key d) as [q|] eqn:Eq.
        2:{ xinv H1. split_and!; try done; [intros ->; done|intros e ->; done|].
            intros x ->. simpl in Hf. subst. eauto. }
        destruct (pl_unchanged q) eqn:Euq; [xinv H1; by destruct o|].
        xinv H1. split_and!; try done; [intros ->; done| |intros x ->; done].
        intros e ->. simpl in Hf. subst. exists d, q. done. }
  apply Hgen in H as (-> & -> & Hok & Herr & Hpan); [|done]. split_and!; try done.
  intros -> p' Hp' _. rewrite Hp in Hp'. simplify_eq. by apply Hok.
Qed.

Lemma exec_checkRebuiltAll keys s t s' o :
  (forall k, k ∈ keys -> is_Some (pm_map s !! k)) ->
  exec (sfor keys checkRebuilt s) t (s', o) ->
  t = [] /\ s' = s /\ (o = Val tt -> forall k, k ∈ keys -> rebuilt_ok (pm_map s) k) /\
  (forall e, o = Err e -> exists k p d q, k ∈ keys /\ pm_map s !! k = Some p /\
     e = ERebuilt (pl_name q) (pl_name p) /\ pl_unchanged p = true /\
     d ∈ pl_deps p /\ pm_map s !! name2key d = Some q /\ pl_unchanged q = false) /\
  (forall x, o = Pan x -> x = PNil /\ exists k b, edge (pm_map s) k b /\ pm_map s !! b = None).
Proof.
  revert t; induction keys as [|k keys IH]; intros t Hin; cbn [sfor].
  - intros H. xinv H. split_and!; try done. intros _ k Hk. by apply elem_of_nil in Hk.
  - intros H. destruct (Hin k) as [p Hp]; [by left|].
    apply exec_sbind in H as [(t1 & t2 & s1 & [] & -> & H1 & H)|(o1 & H1 & Hf)].
    + eapply exec_checkRebuilt in H1 as (-> & -> & Hok1 & _); [|done].
      apply IH in H as (-> & -> & Hok & Herr & Hpan); [|intros; apply Hin; by right].
      split_and!; try done.
      * intros -> k' Hk'. apply elem_of_cons in Hk' as [->|Hk']; [by apply Hok1|]. by eapply Hok.
      * intros e He. destruct (Herr e He) as (k' & p' & d & q & Hk' & ?). exists k', p', d, q.
        split; [by right|done].
    + eapply exec_checkRebuilt in H1 as (-> & -> & _ & Herr & Hpan); [|done]. split_and!; try done.
      * intros ->. by destruct o1.
      * intros e ->. destruct o1; try done. simpl in Hf; subst.
        destruct (Herr e eq_refl) as (d & q & ?). exists k, p, d, q. split; [by left|done].
      * intros x ->. destruct o1; try done. simpl in Hf; subst. destruct (Hpan x eq_refl) as (-> & d & Hd & Hn).
        split; [done|]. exists k, (name2key d). split; [|done]. exists p, d. auto.
Qed.

(** ** orderPlugins *)
Lemma has_deps_spec m k p : m !! k = Some p -> has_deps m k = false <-> pl_deps p = [].
Proof.
  intros H. unfold has_deps. rewrite H. rewrite negb_false_iff, bool_decide_eq_true. done.
Qed.

Lemma deps_first_leaves m l : (forall k, k ∈ l -> forall b, ~ edge m k b) -> deps_first m l.
Proof. intros H l1 k l2 -> b Hb. exfalso. eapply H; [|exact Hb]. set_solver. Qed.

Lemma filter_partition {A} (f : A -> bool) l :
  Permutation (List.filter (fun x => negb (f x)) l ++ List.filter f l) l.
Proof.
  induction l as [|x l IH]; simpl; [done|]. destruct (f x); simpl; [|by rewrite IH].
  rewrite <- Permutation_middle. by rewrite IH.
Qed.

(** [l] is the order computed for some iteration order of the map *)
Definition ordered_by (m : gmap string plugin) (l : list string) : Prop :=
  exists it, Permutation it (map_keys m) /\
    orderRounds m (size m) (sort_strings (List.filter (has_deps m) it)) (List.filter (fun k => negb (has_deps m k)) it) (S (size m)) = Some l.

Lemma exec_orderPlugins s t s' o :
  exec (orderPlugins s) t (s', o) ->
  t = [] /\
  ((exists l, o = Val tt /\ s' = upd_ordered l s /\ Permutation l (map_keys (pm_map s)) /\ deps_first (pm_map s) l /\ ordered_by (pm_map s) l) \/
   (o = Pan POrder /\ s' = s /\ ~ (acyclic (pm_map s) /\ closed (pm_map s)))).
Proof.
  unfold orderPlugins. intros H. xinv H. xinv H. rename x into it.
  set (m := pm_map s) in *. simpl in Hv.
  set (a := List.filter (fun k => negb (has_deps m k)) it) in *.
  set (keys := sort_strings (List.filter (has_deps m) it)) in *.
  assert (Hak : Permutation (a ++ keys) (map_keys m)).
  { unfold keys. rewrite sort_strings_perm. unfold a. rewrite filter_partition. done. }
  assert (Hnd : NoDup (a ++ keys)) by (rewrite Hak; apply map_keys_nodup).
  apply NoDup_app in Hnd as (Hnda & Hdis & Hndk).
  assert (Hleaf : deps_first m a).
  { apply deps_first_leaves. intros k Hk b (p & d & Hp & Hd & _).
    unfold a in Hk. apply elem_of_list_In, filter_In in Hk as [_ Hk]. apply negb_true_iff in Hk.
    eapply has_deps_spec in Hk; [|done]. rewrite Hk in Hd. by apply elem_of_nil in Hd. }
  destruct (orderRounds m (size m) keys a (S (size m))) as [l|] eqn:Eo.
  - xinv H. split; [done|]. left. exists l.
    assert (Hob : ordered_by m l) by (by exists it).
    apply orderRounds_spec in Eo as (Hlen & x & -> & Hx & Hnd & Hdf). split_and!; auto.
    apply submseteq_Permutation_length_le.
    + rewrite map_keys_length. lia.
    + apply NoDup_submseteq; [auto|]. intros k Hk. rewrite <- Hak.
      apply elem_of_app in Hk as [Hk|Hk]; apply elem_of_app; [by left|right; by apply Hx].
  - xinv H. split; [done|]. right. split_and!; try done. intros [Hac Hcl].
    assert (is_Some (orderRounds m (size m) keys a (S (size m)))) as [l Hl]; [|congruence].
    apply orderRounds_total; try done.
    + intros k Hk. apply map_keys_elem. rewrite <- Hak. set_solver.
    + intros k Hk. apply map_keys_elem in Hk. rewrite <- Hak in Hk. by apply elem_of_app.
    + intros k Hk. apply map_keys_elem. rewrite <- Hak. set_solver.
    + lia.
Qed.

(** ** initDeps *)
Definition with_map (m : gmap string plugin) (s : mgr) : mgr := upd_map (fun _ => m) s.

(** What initDeps establishes about the final plugin map [m'] and order [l]. *)
Definition deps_ready (m' : gmap string plugin) (l : list string) : Prop :=
  acyclic m' /\ closed m' /\ (forall k, rebuilt_ok m' k) /\ Permutation l (map_keys m') /\ deps_first m' l /\ ordered_by m' l.

(** Errors of initDeps other than those of the wiring loop. *)
Definition deps_error (m' : gmap string plugin) (e : gerror) : Prop :=
  (exists l z, e = ECyclic (map (name_of m') (l ++ [z])) /\ is_chain m' (l ++ [z]) /\ z ∈ l) \/
  (exists k p d q, m' !! k = Some p /\ e = ERebuilt (pl_name q) (pl_name p) /\ pl_unchanged p = true /\
     d ∈ pl_deps p /\ m' !! name2key d = Some q /\ pl_unchanged q = false).

Lemma exec_initDeps s t s' o :
  exec (initDeps s) t (s', o) ->
  let keys := sort_strings (map_keys (pm_map s)) in
  let news := List.filter is_new (plugins_of (core_map s) keys) in
  admitted t = [] /\ increments t = [] /\ decrements t = [] /\ created t = [] /\
  (exists rest, map (called RImport (pm_id s) ArgNone) news = call_sigs t ++ rest) /\
  core_map s' = core_map s /\
  exists l, s' = upd_ordered l (with_map (pm_map s') s) /\
  (~ is_val o -> l = pm_ordered s) /\
  (o = Val tt ->
     call_sigs t = map (called RImport (pm_id s) ArgNone) news /\
     deps_ready (pm_map s') l /\
     forall k p, pm_map s !! k = Some p -> exists p', pm_map s' !! k = Some p' /\
       if pl_unchanged p then p' = p else exists imp,
         answered RImport (pm_id s) ArgNone p (Val imp) t /\ wired (core_map s) p imp p') /\
  (forall x, o = Pan x -> x <> POrder) /\
  (forall names, o = Err (ECyclic names) -> deps_error (pm_map s') (ECyclic names)) /\
  (forall a b, o = Err (ERebuilt a b) -> deps_error (pm_map s') (ERebuilt a b)).
Proof.
  intros H keys news. unfold initDeps in H. xinv H. fold keys in H.
  assert (Hkeys : forall k, k ∈ keys <-> is_Some (pm_map s !! k)).
  { intros k. unfold keys. rewrite elem_of_sort_strings. apply map_keys_elem. }
  assert (Hnd : NoDup keys) by (apply sort_strings_nodup, map_keys_nodup).
  (* initPlugin never reports a cyclic dependency or a rebuilt dependency, nor POrder *)
  assert (Hnot : forall ks s t s' o, exec (sfor ks initPlugin s) t (s', o) ->
     (forall x, o = Pan x -> x <> POrder) /\ (forall names, o <> Err (ECyclic names)) /\ (forall a b, o <> Err (ERebuilt a b))).
  { clear. intros ks s t s' o H. destruct o as [[]|e|x]; [done| |].
    - apply exec_sfor_fail in H as (l1 & k & l2 & ts & s1 & t2 & _ & _ & _ & H); [|simpl; tauto].
      unfold initPlugin in H. xinv H. destruct (pm_map s1 !! k) as [p|]; [|by xinv H].
      destruct (pl_unchanged p); [by xinv H|].
      apply exec_sbind in H as [(t1 & t3 & s2 & imp & -> & H1 & H)|(o1 & H1 & Hf)].
      2:{ xinv H1. unfold invokeImport in H1.
          apply (exec_recovered_call RImport) in H1 as [(v & -> & _)|(x & -> & H1)]; [done|].
          simpl in Hf. subst. done. }
      destruct imp as [g|]; [|by xinv H]. destruct (is_nil (Some g)); [by xinv H|].
      destruct (gv_type g) as [id [id' el|id' fields|id' kd]|id fs|id kd]; try (xinv H; done).
      apply exec_sfor_fail in H as (l3 & f & l4 & ts' & s3 & t4 & _ & _ & _ & H); [|simpl; tauto].
      unfold initField in H. xinv H. destruct (pm_map s3 !! k) as [p'|]; [|by xinv H].
      destruct (sf_name f) as [|c nm] eqn:En; [by xinv H|]. rewrite <- En in H.
      repeat (match type of H with exec ((if ?b then _ else _) _) _ _ => destruct b end; [by xinv H|]).
      destruct (pm_map s3 !! name2key (sf_name f)) as [dep|]; [|by xinv H].
      match type of H with exec ((if ?b then _ else _) _) _ _ => destruct b end; [by xinv H|].
      destruct (pl_exported dep) as [g'|]; [|by xinv H].
      destruct (is_nil (Some g')); [by xinv H|].
      repeat (match type of H with exec ((if ?b then _ else _) _) _ _ => destruct b end; [by xinv H|]).
      by xinv H.
    - apply exec_sfor_fail in H as (l1 & k & l2 & ts & s1 & t2 & _ & _ & _ & H); [|simpl; tauto].
      split_and!; try done. intros x' [= <-] ->.
      unfold initPlugin in H. xinv H. destruct (pm_map s1 !! k) as [p|]; [|by xinv H].
      destruct (pl_unchanged p); [by xinv H|].
      apply exec_sbind in H as [(t1 & t3 & s2 & imp & -> & H1 & H)|(o1 & H1 & Hf)].
      2:{ xinv H1. unfold invokeImport in H1.
          apply (exec_recovered_call RImport) in H1 as [(v & -> & _)|(x & -> & H1)]; done. }
      destruct imp as [g|]; [|by xinv H]. destruct (is_nil (Some g)); [by xinv H|].
      destruct (gv_type g) as [id [id' el|id' fields|id' kd]|id fs|id kd]; try (xinv H; done).
      apply exec_sfor_fail in H as (l3 & f & l4 & ts' & s3 & t4 & _ & _ & _ & H); [|simpl; tauto].
      unfold initField in H. xinv H. destruct (pm_map s3 !! k) as [p'|]; [|by xinv H].
      destruct (sf_name f) as [|c nm] eqn:En; [by xinv H|]. rewrite <- En in H.
      repeat (match type of H with exec ((if ?b then _ else _) _) _ _ => destruct b end; [by xinv H|]).
      destruct (pm_map s3 !! name2key (sf_name f)) as [dep|]; [|by xinv H].
      match type of H with exec ((if ?b then _ else _) _) _ _ => destruct b end; [by xinv H|].
      destruct (pl_exported dep) as [g'|]; [|by xinv H].
      destruct (is_nil (Some g')); [by xinv H|].
      repeat (match type of H with exec ((if ?b then _ else _) _) _ _ => destruct b end; [by xinv H|]).
      by xinv H. }
  apply exec_sbind in H as [(t1 & t2 & s1 & [] & -> & H1 & H)|(o1 & H1 & Hf)].
  2:{ pose proof (Hnot _ _ _ _ _ H1) as (Hn1 & Hn2 & Hn3).
      apply exec_initPlugins in H1 as (Hfr & _ & Ha & Hi & Hd & Hc & Hcs & _); [|done|intros k Hk; by apply Hkeys].
      split_and!; try done; [apply Hfr|]. exists (pm_ordered s). split_and!; try done.
      - destruct Hfr as [-> _]. by destruct s.
      - intros ->. by destruct o1.
      - intros x -> ->. destruct o1; try done. simpl in Hf; subst. by apply (Hn1 POrder).
      - intros names ->. destruct o1; try done. simpl in Hf; subst. by destruct (Hn2 names).
      - intros a b ->. destruct o1; try done. simpl in Hf; subst. by destruct (Hn3 a b). }
  clear Hnot.
  apply exec_initPlugins in H1 as (Hfr & _ & Ha & Hi & Hd & Hc & _ & Hok); [|done|intros k Hk; by apply Hkeys].
  destruct (Hok eq_refl) as [Hcs Hw]. clear Hok.
  assert (Hdom : forall k, is_Some (pm_map s1 !! k) <-> is_Some (pm_map s !! k)).
  { intros k. destruct Hfr as [_ Hcm]. unfold core_map in Hcm.
    assert (((core <$> pm_map s1) !! k) = ((core <$> pm_map s) !! k)) as He by (by rewrite Hcm).
    rewrite !lookup_fmap in He. split; intros [p Hp]; rewrite Hp in He; simpl in He.
    - destruct (pm_map s !! k); [eauto|done].
    - destruct (pm_map s1 !! k); [eauto|done]. }
  assert (Hwk : forall k p, pm_map s !! k = Some p -> exists p', pm_map s1 !! k = Some p' /\
       if pl_unchanged p then p' = p else exists imp,
         answered RImport (pm_id s) ArgNone p (Val imp) t1 /\ wired (core_map s) p imp p').
  { intros k p Hp. apply Hw; [apply Hkeys; eauto|done]. }
  rewrite !admitted_app, !increments_app, !decrements_app, !call_sigs_app, !created_app, Ha, Hi, Hd, Hc, Hcs.
  xinv H. rename x into it2. simpl in Hv. rewrite !app_nil_l.
  assert (Hs1 : s1 = upd_ordered (pm_ordered s) (with_map (pm_map s1) s)).
  { destruct Hfr as [-> _]. by destruct s. }
  assert (Hcm1 : core_map s1 = core_map s) by apply Hfr.
  assert (Hcsx : exists rest, map (called RImport (pm_id s) ArgNone) news = map (called RImport (pm_id s) ArgNone) news ++ rest).
  { exists []. by rewrite app_nil_r. }
  apply exec_sbind in H as [(t1' & t2' & s2 & [] & -> & H1 & H)|(o1 & H1 & Hf)].
  2:{ apply exec_checkAll in H1 as (-> & -> & _ & Herr & Hpan).
      2:{ intros k Hk. rewrite Hv in Hk. apply map_keys_elem in Hk. by apply Hdom. }
      rewrite !app_nil_r. split_and!; try done. exists (pm_ordered s). split_and!; try done.
      - intros ->. by destruct o1.
      - intros x -> ->. destruct o1; try done. simpl in Hf; subst. by destruct (Hpan POrder eq_refl).
      - intros names ->. destruct o1; try done. simpl in Hf; subst. left. by apply Herr.
      - intros a b ->. destruct o1; try done. simpl in Hf; subst. left. by apply Herr. }
  apply exec_checkAll in H1 as (-> & -> & Hchk & _).
  2:{ intros k Hk. rewrite Hv in Hk. apply map_keys_elem in Hk. by apply Hdom. }
  specialize (Hchk eq_refl).
  assert (Hchk' : forall k y, tc (edge (pm_map s1)) k y -> y <> k /\ is_Some (pm_map s1 !! y)).
  { intros k y Hy. eapply Hchk; [|done]. rewrite Hv. apply map_keys_elem, Hdom.
    assert (exists b, edge (pm_map s1) k b) as (b & p & d & Hp & _) by (inversion Hy; eauto). eauto. }
  assert (Hac : acyclic (pm_map s1)). { intros k Hk. by destruct (Hchk' k k Hk). }
  assert (Hcl : closed (pm_map s1)). { intros a b Hab. apply (Hchk' a b). by apply tc_once. }
  clear Hchk Hchk' Hv. xinv H. rename x into it3. simpl in Hv.
  apply exec_sbind in H as [(t1' & t2'' & s2 & [] & -> & H1 & H)|(o1 & H1 & Hf)].
  2:{ apply exec_checkRebuiltAll in H1 as (-> & -> & _ & Herr & Hpan).
      2:{ intros k Hk. rewrite Hv in Hk. apply map_keys_elem in Hk. by apply Hdom. }
      rewrite !app_nil_r. split_and!; try done. exists (pm_ordered s). split_and!; try done.
      - intros ->. by destruct o1.
      - intros x -> ->. destruct o1; try done. simpl in Hf; subst. by destruct (Hpan POrder eq_refl).
      - intros names ->. destruct o1; try done. simpl in Hf; subst. right.
        destruct (Herr _ eq_refl) as (k & p & d & q & _ & ?). eauto 10.
      - intros a b ->. destruct o1; try done. simpl in Hf; subst. right.
        destruct (Herr _ eq_refl) as (k & p & d & q & _ & ?). eauto 10. }
  apply exec_checkRebuiltAll in H1 as (-> & -> & Hreb & _).
  2:{ intros k Hk. rewrite Hv in Hk. apply map_keys_elem in Hk. by apply Hdom. }
  specialize (Hreb eq_refl).
  apply exec_orderPlugins in H as (-> & [(l & -> & -> & Hperm & Hdf & Hob)|(_ & _ & Hbad)]); [|tauto].
  rewrite !app_nil_r. split_and!; try done.
  exists l. split_and!; try done.
  - rewrite Hs1. done.
  - intros _. split_and!; try done. unfold deps_ready; simpl; split_and!; try done.
    intros k p Hp. apply (Hreb k); [|done]. rewrite Hv. apply map_keys_elem, Hdom. simpl in Hp. eauto.
Qed.

End Proofs.
