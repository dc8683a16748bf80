(** One load call as a list of stages, with its reference accounting *)
From Verif Require Export LifeFacts.

Section Proofs.
Context {E : GoEnv}.

(** the bookkeeping events of a trace *)
Record refs (t : list event) (cr adm inc dec : list inst) : Prop := mkRefs {
  rf_created : created t = cr; rf_admitted : admitted t = adm; rf_inc : increments t = inc; rf_dec : decrements t = dec }.

Lemma refs_app t1 t2 c1 c2 a1 a2 i1 i2 d1 d2 : refs t1 c1 a1 i1 d1 -> refs t2 c2 a2 i2 d2 -> refs (t1 ++ t2) (c1 ++ c2) (a1 ++ a2) (i1 ++ i2) (d1 ++ d2).
Proof.
  intros [<- <- <- <-] [<- <- <- <-]. constructor; [apply created_app|apply admitted_app|apply increments_app|apply decrements_app].
Qed.
Lemma refs_silent t : silent t -> refs t [] [] [] [].
Proof. intros (_ & ? & ? & ? & ?). by constructor. Qed.

Lemma sublist_in {A} (l1 l2 : list A) : l1 `sublist_of` l2 -> forall x, x ∈ l1 -> x ∈ l2.
Proof.
  induction 1 as [|y l1 l2 H IH|y l1 l2 H IH]; intros x Hx; [done| |right; auto].
  apply elem_of_cons in Hx as [->|Hx]; [left|right; auto].
Qed.
Lemma released_facts m t : released m t ->
  exists ps, refs t [] [] [] (map pl_inst ps) /\ Permutation ps (mplugins (pm_map m)) /\ (pm_ordered m <> [] -> ps = rev (Plugins m)) /\
    (forall c, c ∈ call_sigs t -> cs_role c = ROnFree) /\ call_sigs t `sublist_of` map (called ROnFree (pm_id m) ArgNone) ps.
Proof.
  intros (ps & ts & -> & HF & HP & HR). exists ps.
  destruct (freed_all _ _ _ HF) as (H1 & H2 & H3 & H4 & H5 & H6). split_and!; [by constructor|done|done| |done].
  intros c Hc. apply (sublist_in _ _ H6) in Hc. apply elem_of_list_fmap in Hc as (p & -> & _). apply called_role.
Qed.

Lemma life_refs data s t s' o : pm_ordered s = [] -> pm_livefuncs s = ∅ -> pm_livetypes s = ∅ -> exec (lifecycle data s) t (s', o) -> refs t [] [] [] [].
Proof.
  intros H1 H2 H3 HL. destruct (exec_lifecycle _ _ _ _ _ H1 H2 H3 HL) as (a1 & a2 & a3 & a4 & a5 & -> & F1 & F2 & F3 & F4 & F5 & _).
  assert (Hn : forall r a, Forall (call_in (eq r)) a -> r <> RExport -> refs a [] [] [] []).
  { intros r a F Hr. destruct (calls_noref _ _ F) as (? & ? & ? & ?); [by intros ? <-|]. by constructor. }
  apply (refs_app _ _ [] [] [] [] [] [] [] []); [by apply (Hn _ _ F1)|].
  apply (refs_app _ _ [] [] [] [] [] [] [] []); [by apply (Hn _ _ F2)|].
  apply (refs_app _ _ [] [] [] [] [] [] [] []); [by apply (Hn _ _ F3)|].
  apply (refs_app _ _ [] [] [] [] [] [] [] []); [by apply (Hn _ _ F4)|by apply (Hn _ _ F5)].
Qed.


(** how one load call can go, stage by stage *)
Inductive stages (o : opts) (cur : option mgr) (data : N) (t : list event) (r : outcome (option Details)) : Prop :=
  | st_idle : silent t -> no_publish t -> idle_result o t r -> stages o cur data t r
  | st_gather s t1 tl s' ps ks tf e :
      blank_mgr s -> gath (source o) (old_seen o cur) s t1 s' ps ks -> open_failed (pm_id s) tl -> released s' tf ->
      r = Err e -> gather_error e -> no_publish t -> (forall x, x ∈ t1 ++ tl ++ tf -> x ∈ t) ->
      call_sigs t = opens (pm_id s) ps ++ call_sigs tl ++ call_sigs tf ->
      refs t (map pl_inst ps ++ created tl) (map pl_inst ps) (increments t1) (decrements tf) -> stages o cur data t r
  | st_life s t1 s1 t2 s' ob ps ks tf :
      blank_mgr s -> gath (source o) (old_seen o cur) s t1 s1 ps ks -> exec (lifecycle data s1) t2 (s', ob) ->
      ((exists e, r = Err e /\ no_publish t /\ released s' tf /\ (e = as_error ob /\ ~ is_val ob \/ callback_error e /\ ob = Val tt)) \/
       (exists d, r = Val (Some d) /\ published t s' /\ (forall m, published t m -> m = s') /\ tf = [] /\ ob = Val tt)) ->
      (forall x, x ∈ t1 ++ t2 ++ tf -> x ∈ t) ->
      call_sigs t = opens (pm_id s) ps ++ call_sigs t2 ++ call_sigs tf ->
      refs t (map pl_inst ps) (map pl_inst ps) (increments t1) (decrements tf) -> stages o cur data t r.

Lemma gath_refs src cur s t s1 ps ks : gath src cur s t s1 ps ks -> refs t (map pl_inst ps) (map pl_inst ps) (increments t) [].
Proof. intros []. by constructor. Qed.
Lemma refs_eq t c a i d c' a' i' d' : refs t c a i d -> c = c' -> a = a' -> i = i' -> d = d' -> refs t c' a' i' d'.
Proof. by intros ? -> -> -> ->. Qed.

Lemma run_stages o cur data cbs t r : load_run o cur data cbs t r -> stages o cur data t r.
Proof.
  intros [t' r' H1 H2 H3
    |ta s t1 tl s' ps ks tf tz e Hb Sa Sz Na Nz HG HO HR He Hpr
    |ta s t1 s1 t2 s' ob ps ks tf tz e Hb Sa Sz Na Nz HG HE Hv HR He Hpr
    |ta s t1 s1 t2 new ps ks tc tf tz e Hb Sa Sz Sc Na Nz Nc HG HE HR He Hpr
    |ta s t1 s1 t2 new ps ks tz d Hb Sa Sz Na HP HU HG HE Hpr].
  - by apply st_idle.
  - destruct (released_facts _ _ HR) as (fs & Rf & _). pose proof (gath_refs _ _ _ _ _ _ _ HG) as Rg.
    eapply st_gather; try done.
    + apply no_publish_app; [done|]. rewrite (assoc_L (++) tl), (assoc_L (++) t1). apply no_publish_app; [|done].
      apply private_no_publish. exact Hpr.
    + intros x. rewrite !elem_of_app. tauto.
    + rewrite !call_sigs_app. destruct Sa as (-> & _). destruct Sz as (-> & _). rewrite (g_calls _ _ _ _ _ _ _ HG), app_nil_r. done.
    + destruct HO as (O1 & O2 & O3 & _).
      assert (Ro : refs tl (created tl) [] [] []) by (by constructor).
      eapply refs_eq; [apply (refs_app _ _ _ _ _ _ _ _ _ _ (refs_silent _ Sa) (refs_app _ _ _ _ _ _ _ _ _ _ Rg (refs_app _ _ _ _ _ _ _ _ _ _ Ro (refs_app _ _ _ _ _ _ _ _ _ _ Rf (refs_silent _ Sz)))))|..];
        rewrite ?app_nil_r, ?app_nil_l; try done. by rewrite (rf_dec _ _ _ _ _ Rf).
  - destruct (released_facts _ _ HR) as (fs & Rf & _). pose proof (gath_refs _ _ _ _ _ _ _ HG) as Rg.
    pose proof (life_refs _ _ _ _ _ (g_ordered _ _ _ _ _ _ _ HG) (g_funcs _ _ _ _ _ _ _ HG) (g_types _ _ _ _ _ _ _ HG) HE) as Rl.
    eapply st_life; try done.
    + left. exists e. split_and!; try done; [|by left].
      apply no_publish_app; [done|]. rewrite (assoc_L (++) t2), (assoc_L (++) t1). apply no_publish_app; [|done].
      apply private_no_publish. exact Hpr.
    + intros x. rewrite !elem_of_app. tauto.
    + rewrite !call_sigs_app. destruct Sa as (-> & _). destruct Sz as (-> & _). rewrite (g_calls _ _ _ _ _ _ _ HG), app_nil_r. done.
    + eapply refs_eq; [apply (refs_app _ _ _ _ _ _ _ _ _ _ (refs_silent _ Sa) (refs_app _ _ _ _ _ _ _ _ _ _ Rg (refs_app _ _ _ _ _ _ _ _ _ _ Rl (refs_app _ _ _ _ _ _ _ _ _ _ Rf (refs_silent _ Sz)))))|..];
        rewrite ?app_nil_r, ?app_nil_l; try done. by rewrite (rf_dec _ _ _ _ _ Rf).
  - destruct (released_facts _ _ HR) as (fs & Rf & _). pose proof (gath_refs _ _ _ _ _ _ _ HG) as Rg.
    pose proof (life_refs _ _ _ _ _ (g_ordered _ _ _ _ _ _ _ HG) (g_funcs _ _ _ _ _ _ _ HG) (g_types _ _ _ _ _ _ _ HG) HE) as Rl.
    rewrite (assoc_L (++)) in Hpr. apply Forall_app in Hpr as [Hp1 Hp2]. apply Forall_app in Hp1 as [Hp0 Hp1].
    eapply (st_life _ _ _ _ _ s t1 s1 t2 new _ ps ks tf); try done.
    + left. exists e. split_and!; try done; [|by right].
      repeat (apply no_publish_app; [try done; by apply private_no_publish|]). done.
    + intros x. rewrite !elem_of_app. tauto.
    + rewrite !call_sigs_app. destruct Sa as (-> & _). destruct Sz as (-> & _). destruct Sc as (-> & _). rewrite (g_calls _ _ _ _ _ _ _ HG), app_nil_r. done.
    + eapply refs_eq; [apply (refs_app _ _ _ _ _ _ _ _ _ _ (refs_silent _ Sa) (refs_app _ _ _ _ _ _ _ _ _ _ Rg (refs_app _ _ _ _ _ _ _ _ _ _ Rl (refs_app _ _ _ _ _ _ _ _ _ _ (refs_silent _ Sc) (refs_app _ _ _ _ _ _ _ _ _ _ Rf (refs_silent _ Sz))))))|..];
        rewrite ?app_nil_r, ?app_nil_l; try done. by rewrite (rf_dec _ _ _ _ _ Rf).
  - pose proof (gath_refs _ _ _ _ _ _ _ HG) as Rg.
    pose proof (life_refs _ _ _ _ _ (g_ordered _ _ _ _ _ _ _ HG) (g_funcs _ _ _ _ _ _ _ HG) (g_types _ _ _ _ _ _ _ HG) HE) as Rl.
    eapply (st_life _ _ _ _ _ s t1 s1 t2 new _ ps ks []); try done.
    + right. exists d. split_and!; try done.
      * unfold published. rewrite !elem_of_app. right; right; by right.
      * intros m Hm. unfold published in Hm. rewrite (assoc_L (++) t1), !elem_of_app in Hm.
        destruct Hm as [Hm|[Hm|Hm]]; [by apply no_publish_not in Hm| |by apply HU].
        assert (Hx : EvStore m ∈ t1 ++ t2) by (by apply elem_of_app). apply (no_publish_not (t1 ++ t2)) in Hx; [done|by apply private_no_publish].
    + intros x. rewrite app_nil_r, !elem_of_app. tauto.
    + rewrite !call_sigs_app. destruct Sa as (-> & _). destruct Sz as (-> & _). rewrite (g_calls _ _ _ _ _ _ _ HG). done.
    + eapply refs_eq; [apply (refs_app _ _ _ _ _ _ _ _ _ _ (refs_silent _ Sa) (refs_app _ _ _ _ _ _ _ _ _ _ Rg (refs_app _ _ _ _ _ _ _ _ _ _ Rl (refs_silent _ Sz))))|..];
        rewrite ?app_nil_r, ?app_nil_l; done.
Qed.

(** the stages of any load call after any history *)
Lemma next_stages o h cur a t r : next_call o h cur (api_prog o a) t r -> stages o cur (api_data a) t r.
Proof. intros HN. eapply run_stages, next_run, HN. Qed.

End Proofs.
