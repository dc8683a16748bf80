(** A plugin has the same dependencies in every manager that holds it *)
From Verif Require Export ConcMore.

Section Proofs.
Context {E : GoEnv}.

Lemma holds_insts m p : holds m p -> pl_inst p ∈ insts m.
Proof. intros Hp. apply Plugins_lookup in Hp as (k & Hk). apply elem_of_list_fmap. exists p. split; [done|]. apply elem_mplugins. by exists k. Qed.
Lemma insts_holds m i : Permutation (pm_ordered m) (map_keys (pm_map m)) -> i ∈ insts m -> exists p, holds m p /\ pl_inst p = i.
Proof.
  intros HP Hi. apply elem_of_list_fmap in Hi as (p & -> & Hp). apply elem_mplugins in Hp as (k & Hk). exists p. split; [|done]. by eapply elem_Plugins.
Qed.

Lemma published_one o h cur a t r m m' : next_call o h cur (api_prog o a) t r -> published t m -> published t m' -> m = m'.
Proof.
  intros HN H1 H2. apply stores_in in H1, H2. destruct (call_shape _ _ _ _ _ _ HN) as [Hnp|(tc & m0 & tz & -> & Hnc & Hez)].
  - destruct (no_publish_stores _ Hnp) as [Hs _]. rewrite Hs in H1. by apply elem_of_nil in H1.
  - destruct (ending_silent _ Hez) as [_ Hnz]. destruct (no_publish_stores _ Hnc) as [S1 _]. destruct (no_publish_stores _ Hnz) as [S2 _].
    rewrite !stores_app, S1, S2, (proj2 (pubs_facts o cur m0)) in H1, H2. apply elem_of_list_singleton in H1, H2. congruence.
Qed.
Lemma published_nodup o h cur a t r m : next_call o h cur (api_prog o a) t r -> published t m -> NoDup (insts m).
Proof.
  intros HN Hpub. pose proof (next_run _ _ _ _ _ _ HN) as HL.
  destruct (run_pub _ _ _ _ _ _ _ HL Hpub) as (ta & s & t1 & s1 & t2 & ps & ks & tz & d & Ht & _ & Hb & Sa & Sz & HG & HE).
  assert (Hcore : core_map m = core_map s1).
  { apply exec_lifecycle in HE as (? & ? & ? & ? & ? & _ & _ & _ & _ & _ & _ & _ & _ & ? & _); [done|apply HG..]. }
  destruct HN as (HH & _ & _ & _ & HF).
  assert (Hsub : exists ca cz, created t = ca ++ created t1 ++ cz). { subst t. rewrite !created_app. by eexists _, _. }
  destruct Hsub as (ca & cz & Hsub).
  assert (Hnd : NoDup (created t1)). { unfold fresh_objects in HF. rewrite created_app, Hsub in HF. apply NoDup_app in HF as (_ & _ & HF). apply NoDup_app in HF as (_ & _ & HF). by apply NoDup_app in HF as (? & _). }
  unfold insts. eapply submseteq_nodup; [exact (gath_insts_sub _ _ _ _ _ _ _ _ HG Hcore)|]. apply (gath_nodup o h cur t ps ks s s1 t1 HH HF); [|done|done].
  intros i Hi. rewrite Hsub, !elem_of_app. tauto.
Qed.

Lemma published_app t1 t2 m : published (t1 ++ t2) m <-> published t1 m \/ published t2 m.
Proof. unfold published. by rewrite elem_of_app. Qed.

Lemma next_of o h cur p t r : history o h cur -> load_call o p -> exec p t r -> (forall x, saw_current t x -> x = cur) -> fresh_objects (h ++ t) ->
  exists a, p = api_prog o a /\ next_call o h cur (api_prog o a) t r.
Proof. intros HH HC HE HS HF. destruct (load_api _ _ HC) as [a ->]. by exists a. Qed.

Lemma history_current o h cur m : history o h cur -> cur = Some m -> published h m.
Proof.
  intros HH. induction HH as [|h cur p t r HH IH HC HE HS]; [done|]. intros Hc. apply published_after in Hc as [->|Hp]; apply published_app; [left; by apply IH|by right].
Qed.

(** the call that published a manager *)
Lemma published_origin o h cur m : history o h cur -> fresh_objects h -> published h m ->
  exists h0 cur0 a t r h1, h = h0 ++ t ++ h1 /\ next_call o h0 cur0 (api_prog o a) t r /\ published t m.
Proof.
  intros HH. induction HH as [|h cur p t r HH IH HC HE HS]; intros HF Hp; [by apply elem_of_nil in Hp|].
  apply published_app in Hp as [Hp|Hp].
  - destruct (IH (fresh_prefix _ _ HF) Hp) as (h0 & cur0 & p0 & t0 & r0 & h1 & -> & HN & HP). exists h0, cur0, p0, t0, r0, (h1 ++ t). split_and!; [|done|done]. by rewrite <- !(assoc_L (++)).
  - destruct (next_of _ _ _ _ _ _ HH HC HE HS HF) as (a & -> & HN). exists h, cur, a, t, r, []. split_and!; [by rewrite app_nil_r|done|done].
Qed.
Lemma published_created o h cur m p : history o h cur -> fresh_objects h -> published h m -> holds m p -> pl_inst p ∈ created h.
Proof.
  intros HH. revert m p. induction HH as [|h cur pr t r HH IH HC HE HS]; intros m p HF Hpub Hp; [by apply elem_of_nil in Hpub|].
  rewrite created_app, elem_of_app. apply published_app in Hpub as [Hpub|Hpub]; [left; eapply IH; try done; by eapply fresh_prefix|].
  destruct (next_of _ _ _ _ _ _ HH HC HE HS HF) as (a & -> & HN).
  destruct (published_plugins _ _ _ _ _ _ _ _ HN Hpub Hp) as [[_ [? _]]|(_ & _ & _ & om & q0 & -> & Hq & Hs & _)]; [by right|left].
  assert (Hi : pl_inst p = pl_inst q0) by apply Hs. rewrite Hi. eapply IH; [by eapply fresh_prefix| |done]. by eapply history_current.
Qed.

Definition same_deps (m m' : mgr) : Prop := forall p p', holds m p -> holds m' p' -> pl_inst p = pl_inst p' ->
  pl_deps p = pl_deps p' /\ pl_funcs p = pl_funcs p' /\ forall d, d ∈ pl_deps p -> exists q q', FindPlugin m d = Some q /\ FindPlugin m' d = Some q' /\ pl_inst q = pl_inst q'.
Lemma same_deps_sym m m' : same_deps m m' -> same_deps m' m.
Proof.
  intros HS p p' Hp Hp' Hi. destruct (HS p' p Hp' Hp (eq_sym Hi)) as (H1 & H2 & H3). split_and!; [done|done|]. intros d Hd. rewrite <- H1 in Hd.
  destruct (H3 d Hd) as (q & q' & ? & ? & ?). by exists q', q.
Qed.
Lemma history_deps o h cur m m' : history o h cur -> fresh_objects h -> distinct_registrations o -> published h m -> published h m' -> same_deps m m'.
Proof.
  intros HH HF HD. revert m m'. induction HH as [|h cur pr t r HH IH HC HE HS]; intros m m' Hm Hm'; [by apply elem_of_nil in Hm|].
  destruct (next_of _ _ _ _ _ _ HH HC HE HS HF) as (a & -> & HN). pose proof (fresh_prefix _ _ HF) as HF'.
  assert (Hmix : forall m m', published t m -> published h m' -> same_deps m m').
  { clear m m' Hm Hm'. intros m m' Hm Hm' p p' Hp Hp' Hi.
    destruct (published_plugins _ _ _ _ _ _ _ _ HN Hm Hp) as [[_ [Hc _]]|(_ & _ & Hnc & om & p0 & -> & Hp0 & Hs & _)].
    { exfalso. pose proof (published_created _ _ _ _ _ HH HF' Hm' Hp') as Hc'. rewrite <- Hi in Hc'. unfold fresh_objects in HF. rewrite created_app in HF.
      apply NoDup_app in HF as (_ & Hd & _). by apply (Hd _ Hc'). }
    assert (Hom : published h om) by (by eapply history_current).
    assert (Hi0 : pl_inst p = pl_inst p0) by apply Hs.
    destruct (IH HF' om m' Hom Hm' p0 p' Hp0 Hp' ltac:(congruence)) as (H1 & H2 & H3).
    assert (Hd0 : pl_deps p = pl_deps p0) by apply Hs. assert (Hf0 : pl_funcs p = pl_funcs p0) by apply Hs.
    split_and!; [congruence|congruence|]. intros d Hd.
    destruct (C11_carried_over_with_dependencies _ _ _ _ _ _ _ _ _ HN Hm Hp Hnc Hd) as (om' & q & q0 & [= <-] & Hq & Hq0 & Hsq & _).
    rewrite Hd0 in Hd. destruct (H3 d Hd) as (q1 & q' & Hq1 & Hq' & Hiq). exists q, q'. split_and!; [done|done|].
    rewrite Hq0 in Hq1. injection Hq1 as <-. rewrite <- Hiq. apply Hsq. }
  apply published_app in Hm as [Hm|Hm]; apply published_app in Hm' as [Hm'|Hm'].
  - by apply IH.
  - apply same_deps_sym. by apply Hmix.
  - by apply Hmix.
  - rewrite <- (published_one _ _ _ _ _ _ _ _ HN Hm Hm'). clear m' Hm'. intros p p' Hp Hp' Hi.
    assert (Hn : NoDup (insts m)) by (by eapply published_nodup).
    destruct (Plugins_lookup _ _ Hp) as (k & Hk). destruct (Plugins_lookup _ _ Hp') as (k' & Hk').
    assert (p = p') as <-. { eapply (nodup_map_inj pl_inst (mplugins (pm_map m))); [exact Hn|apply elem_mplugins; by exists k|apply elem_mplugins; by exists k'|done]. }
    split_and!; [done|done|]. intros d Hd. destruct (C01_plugins_in_dependency_order _ _ _ _ _ _ _ HN Hm) as (C1 & _ & C3).
    apply elem_of_list_split in Hp as (l1 & l2 & Heq). destruct (C3 l1 p l2 d Heq Hd) as (q & Hq & Hsame).
    exists q, q. split_and!; [|apply C1|done]; [apply C1|]; (split; [rewrite Heq; apply elem_of_app; by left|done]).
Qed.

End Proofs.
