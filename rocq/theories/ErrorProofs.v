(** Why initDeps fails *)
From Verif Require Export LifeProofs.

Section Proofs.
Context {E : GoEnv}.

(** Field [f] of the Import() object of [p] cannot be served by the plugins [M]; [o] says why. *)
Definition bad_field (M : gmap string plugin) (p : plugin) (f : sfield) (o : outcome unit) : Prop :=
  (sf_anon f = true /\ o = Err (EAnonField (sf_name f) (pl_name p))) \/
  (M !! name2key (sf_name f) = None /\ o = Err (EUnknownDep (sf_name f) (pl_name p))) \/
  (exists q, M !! name2key (sf_name f) = Some q /\
     ((pl_reloadable p = false /\ pl_reloadable q = true /\ o = Err (ENotReloadableDep (pl_name p) (pl_name q))) \/
      (exists x, field_value f q = Some x /\
         ((assignable (gv_type (snd x)) (sf_type f) = false /\ o = Err (ENotAssignable (pl_name q) (pl_name p) (sf_name f))) \/
          (sf_exported f = false /\ o = Pan PSet))))).

Lemma exec_initField_fail k f s t s' o p :
  pm_map s !! k = Some p -> exec (initField k f s) t (s', o) -> ~ is_val o ->
  (dep_field f = true /\ bad_field (core_map s) p f o) \/ (sf_name f = "" /\ o = Pan PIndex).
Proof.
  intros Hp H Hv. unfold initField in H. xinv H. rewrite Hp in H. unfold dep_field.
  destruct (sf_name f) as [|c nm] eqn:En; [xinv H; by right|].
  left. rewrite <- En in *.
  destruct (is_upper_byte c) eqn:Eu; cbn [negb] in H; [|xinv H; by destruct Hv].
  destruct (String.eqb (sf_tag f) "-") eqn:Et; [xinv H; by destruct Hv|]. split; [done|].
  destruct (sf_anon f) eqn:Ea; [xinv H; by left|]. right.
  destruct (pm_map s !! name2key (sf_name f)) as [dep|] eqn:Ed.
  2:{ xinv H. left. split; [|done]. unfold core_map. by rewrite lookup_fmap, Ed. }
  right. exists (core dep). split; [by apply core_map_lookup|].
  destruct (negb (pl_reloadable p) && pl_reloadable dep) eqn:Er.
  { xinv H. left. apply andb_true_iff in Er as [E1 E2]. apply negb_true_iff in E1. done. }
  right. destruct (pl_exported dep) as [g|] eqn:Ee; [|xinv H; by destruct Hv].
  destruct (is_nil (Some g)) eqn:Enil; [xinv H; by destruct Hv|].
  exists (sf_name f, g). split. { unfold field_value. simpl. rewrite Ee. simpl in Enil. by rewrite Enil. }
  destruct (assignable (gv_type g) (sf_type f)) eqn:Eas; cbn [negb] in H; [|xinv H; by left].
  destruct (sf_exported f) eqn:Eex; cbn [negb] in H; xinv H; [by destruct Hv|by right].
Qed.

Lemma exec_initFields_fail k fields s t s' o p :
  pm_map s !! k = Some p -> exec (sfor fields (initField k) s) t (s', o) -> ~ is_val o ->
  exists f, f ∈ fields /\ ((dep_field f = true /\ bad_field (core_map s) p f o) \/ (sf_name f = "" /\ o = Pan PIndex)).
Proof.
  intros Hp H Hv. apply exec_sfor_fail in H as (l1 & f & l2 & ts & s1 & t2 & -> & _ & HL & H); [|done].
  assert (exists t1, exec (sfor l1 (initField k) s) t1 (s1, Val tt)) as (t1 & H1).
  { exists (concat ts). apply exec_sfor_val. by exists ts. }
  eapply exec_initFields in H1 as (_ & (_ & Hcm) & _ & Hok); [|done].
  destruct (Hok eq_refl) as (qs & _ & Hk).
  exists f. split; [apply elem_of_app; right; left|].
  destruct (exec_initField_fail _ _ _ _ _ _ _ Hk H Hv) as [[Hd Hb]|?]; [left|by right].
  split; [done|]. by rewrite Hcm in Hb.
Qed.

(** Import() of [p] failed, or what it returned cannot be served. *)
Definition import_failed (M : gmap string plugin) (mid : N) (p : plugin) (t : list event) (o : outcome unit) : Prop :=
  (exists x, o = Err (EPanic (Some (pl_name p)) x) /\
     (get_func RImport (pl_funcs p) = None /\ x = PNil \/ answered RImport mid ArgNone p (Pan x) t)) \/
  (exists imp, answered RImport mid ArgNone p (Val imp) t /\
     ((dep_fields imp = None /\ o = Err (EImportShape (pl_name p))) \/
      (exists fields f, dep_fields imp = Some fields /\ f ∈ fields /\ bad_field M p f o))).

Lemma exec_initPlugin_fail k s t s' o p :
  pm_map s !! k = Some p -> exec (initPlugin k s) t (s', o) -> ~ is_val o ->
  pl_unchanged p = false /\ import_failed (core_map s) (pm_id s) p t o.
Proof.
  intros Hp H Hv. unfold initPlugin in H. xinv H. rewrite Hp in H.
  destruct (pl_unchanged p) eqn:Eu; [xinv H; by destruct Hv|]. split; [done|].
  apply exec_sbind in H as [(t1 & t2 & s1 & imp & -> & H1 & H)|(o1 & H1 & Hf)].
  2:{ left. xinv H1. unfold invokeImport in H1. apply exec_recovered in H1 as (o2 & H1 & ->).
      apply (exec_call RImport) in H1 as [(Hn & -> & ->)|(c & Hc & Hval & ->)].
      - simpl in Hf. destruct o; try done. subst e. eauto 10.
      - destruct o2 as [v|e|x]; simpl in Hf; [by destruct o|by destruct Hval|]. destruct o; try done. subst e.
        exists x. split; [done|]. right. exists c. split; [done|]. left. }
  right. xinv H1. unfold invokeImport in H1.
  apply exec_recovered in H1 as (o2 & H1 & He).
  apply (exec_call RImport) in H1 as [(Hn & -> & ->)|(c & Hc & Hval & ->)]; [done|].
  destruct o2 as [v|e|x]; try done. injection He as ->.
  exists v. split. { exists c. split; [done|]. apply elem_of_app. left. left. }
  simpl in Hval. destruct v as [g|]; [|xinv H; by destruct Hv].
  destruct (is_nil (Some g)) eqn:Enil; [xinv H; by destruct Hv|].
  unfold dep_fields. rewrite Enil. destruct g as [ty isn pay pt]. destruct ty as [id el|id fs|id kd]; cbn [gv_type] in H; try (xinv H; by left).
  destruct el as [id' el'|id' fields|id' kd']; cbn [gv_type] in H; try (xinv H; by left).
  right. destruct (exec_initFields_fail _ _ _ _ _ _ _ Hp H Hv) as (f & Hf & [[Hd Hb]|[He ->]]).
  - exists (List.filter dep_field fields), f. split; [done|]. split; [|done]. apply elem_of_list_In, filter_In. rewrite <- elem_of_list_In. done.
  - simpl in Hval. rewrite Forall_forall in Hval. specialize (Hval _ Hf). unfold valid_field in Hval. by rewrite He in Hval.
Qed.

(** the wiring phase is complete *)
Definition wiring (s s' : mgr) (t : list event) : Prop :=
  forall k p, pm_map s !! k = Some p -> exists p', pm_map s' !! k = Some p' /\
    if pl_unchanged p then p' = p else exists imp,
      answered RImport (pm_id s) ArgNone p (Val imp) t /\ wired (core_map s) p imp p'.


Definition deps_failure (s s' : mgr) (t : list event) (o : outcome unit) : Prop :=
  (exists k p, pm_map s !! k = Some p /\ pl_unchanged p = false /\ import_failed (core_map s) (pm_id s) p t o) \/
  (wiring s s' t /\
     ((exists l z, o = Err (ECyclic (map (name_of (pm_map s')) (l ++ [z]))) /\ is_chain (pm_map s') (l ++ [z]) /\ z ∈ l) \/
      (o = Pan PNil /\ exists a b, edge (pm_map s') a b /\ pm_map s' !! b = None) \/
      (exists k p d q, pm_map s' !! k = Some p /\ o = Err (ERebuilt (pl_name q) (pl_name p)) /\ pl_unchanged p = true /\
         d ∈ pl_deps p /\ pm_map s' !! name2key d = Some q /\ pl_unchanged q = false))).

Lemma rtc_missing m a y : is_Some (m !! a) -> m !! y = None -> rtc (edge m) a y -> exists b, edge m b y.
Proof.
  intros Ha Hy H. apply rtc_inv_r in H as [->|(b & _ & Hb)]; [rewrite Hy in Ha; by destruct Ha|]. by exists b.
Qed.

Lemma exec_initDeps_fail s t s' o :
  exec (initDeps s) t (s', o) -> ~ is_val o -> deps_failure s s' t o.
Proof.
  intros H Hv. unfold initDeps in H. xinv H.
  set (keys := sort_strings (map_keys (pm_map s))) in *.
  assert (Hkeys : forall k, k ∈ keys <-> is_Some (pm_map s !! k)).
  { intros k. unfold keys. rewrite elem_of_sort_strings. apply map_keys_elem. }
  assert (Hnd : NoDup keys) by (apply sort_strings_nodup, map_keys_nodup).
  apply exec_sbind in H as [(t1 & t2 & s1 & [] & -> & H1 & H)|(o1 & H1 & Hf)].
  2:{ left. assert (o1 = o) as -> by (destruct o1 as [[]| |], o as [[]| |]; simpl in Hf; try done; congruence).
      apply exec_sfor_fail in H1 as (l1 & k & l2 & ts & s1 & t2 & Hk & -> & HL & H1); [|done].
      assert (H0 : exec (sfor l1 initPlugin s) (concat ts) (s1, Val tt)) by (apply exec_sfor_val; by exists ts).
      rewrite Hk in Hnd. apply NoDup_app in Hnd as (Hnd & Hdis & _).
      eapply exec_initPlugins in H0 as (Hfr & Hoth & _); [|done|intros x Hx; apply Hkeys; rewrite Hk; apply elem_of_app; by left].
      assert (is_Some (pm_map s !! k)) as (p & Hp). { apply Hkeys. rewrite Hk. apply elem_of_app. right. left. }
      assert (Hp1 : pm_map s1 !! k = Some p).
      { rewrite Hoth; [done|]. intros Hin. apply (Hdis _ Hin). left. }
      destruct (exec_initPlugin_fail _ _ _ _ _ _ Hp1 H1 Hv) as (Hu & HI). exists k, p. split_and!; try done.
      destruct Hfr as [Hs1 Hcm]. rewrite Hcm in HI.
      assert (Hid : pm_id s1 = pm_id s) by (rewrite Hs1; done). rewrite Hid in HI.
      destruct HI as [(x & He & HI)|(imp & Ha & HI)]; [left; exists x; split; [done|]|right; exists imp].
      - destruct HI as [?|HI]; [by left|right]. by apply answered_app_r.
      - split; [by apply answered_app_r|done]. }
  right. apply exec_initPlugins in H1 as (Hfr & _ & _ & _ & _ & _ & _ & Hok); [|done|intros k Hk; by apply Hkeys].
  destruct (Hok eq_refl) as [_ Hw]. clear Hok.
  assert (Hdom : forall k, is_Some (pm_map s1 !! k) <-> is_Some (pm_map s !! k)).
  { intros k. destruct Hfr as [_ Hcm]. unfold core_map in Hcm.
    assert (((core <$> pm_map s1) !! k) = ((core <$> pm_map s) !! k)) as He by (by rewrite Hcm).
    rewrite !lookup_fmap in He. split; intros [p Hp]; rewrite Hp in He; simpl in He.
    - destruct (pm_map s !! k); [eauto|done].
    - destruct (pm_map s1 !! k); [eauto|done]. }
  assert (Hwk : forall t, wiring s s1 (t1 ++ t)).
  { intros t k p Hp. destruct (Hw k p) as (p' & Hp' & Hx); [apply Hkeys; eauto|done|]. exists p'. split; [done|].
    destruct (pl_unchanged p); [done|]. destruct Hx as (imp & Ha & Hx). exists imp. split; [by apply answered_app_l|done]. }
  xinv H. rename x into it2. simpl in Hv0.
  apply exec_sbind in H as [(t1' & t2' & s2 & [] & -> & H1 & H)|(o1 & H1 & Hf)].
  2:{ assert (o1 = o) as -> by (destruct o1 as [[]| |], o as [[]| |]; simpl in Hf; try done; congruence).
      apply exec_checkAll in H1 as (-> & -> & _ & Herr & Hpan).
      2:{ intros k Hk. rewrite Hv0 in Hk. apply map_keys_elem in Hk. by apply Hdom. }
      split; [apply Hwk|]. destruct o as [|e|x]; [by destruct Hv| |].
      - left. destruct (Herr _ eq_refl) as (l & z & -> & Hc & Hz). by exists l, z.
      - right; left. destruct (Hpan _ eq_refl) as (-> & k & y & Hk & Hr & Hy). split; [done|].
        destruct (rtc_missing _ _ _ (proj2 (Hdom k) ltac:(rewrite Hv0 in Hk; by apply map_keys_elem)) Hy Hr) as (b & Hb). by exists b, y. }
  apply exec_checkAll in H1 as (-> & -> & Hchk & _).
  2:{ intros k Hk. rewrite Hv0 in Hk. apply map_keys_elem in Hk. by apply Hdom. }
  specialize (Hchk eq_refl).
  assert (Hchk' : forall k y, tc (edge (pm_map s1)) k y -> y <> k /\ is_Some (pm_map s1 !! y)).
  { intros k y Hy. eapply Hchk; [|done]. rewrite Hv0. apply map_keys_elem, Hdom.
    assert (exists b, edge (pm_map s1) k b) as (b & p & d & Hp & _) by (inversion Hy; eauto). eauto. }
  assert (Hac : acyclic (pm_map s1)). { intros k Hk. by destruct (Hchk' k k Hk). }
  assert (Hcl : closed (pm_map s1)). { intros a b Hab. apply (Hchk' a b). by apply tc_once. }
  clear Hchk Hchk' Hv0. xinv H. rename x into it3. simpl in Hv0.
  apply exec_sbind in H as [(t1' & t2'' & s2 & [] & -> & H1 & H)|(o1 & H1 & Hf)].
  2:{ assert (o1 = o) as -> by (destruct o1 as [[]| |], o as [[]| |]; simpl in Hf; try done; congruence).
      apply exec_checkRebuiltAll in H1 as (-> & -> & _ & Herr & Hpan).
      2:{ intros k Hk. rewrite Hv0 in Hk. apply map_keys_elem in Hk. by apply Hdom. }
      split; [apply Hwk|]. destruct o as [|e|x]; [by destruct Hv| |].
      - right; right. destruct (Herr _ eq_refl) as (k & p & d & q & _ & Hk & -> & ?). exists k, p, d, q. tauto.
      - right; left. destruct (Hpan _ eq_refl) as (-> & k & b & He & Hb). split; [done|]. by exists k, b. }
  apply exec_checkRebuiltAll in H1 as (-> & -> & Hreb & _).
  2:{ intros k Hk. rewrite Hv0 in Hk. apply map_keys_elem in Hk. by apply Hdom. }
  apply exec_orderPlugins in H as (-> & [(l & -> & _)|(_ & _ & Hbad)]); [by destruct Hv|tauto].
Qed.

End Proofs.
