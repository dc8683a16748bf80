(** Who drops the last reference; dependents are released before their dependencies *)
From Verif Require Export ConcDeps.

Section Proofs.
Context {E : GoEnv}.

(** ** The last reference is dropped once *)
Definition drop_inst (e : event) : option inst := match e with EvRefDec _ i v => if decide (v <= 0)%Z then Some i else None | _ => None end.
Definition drops (t : list event) : list inst := omap drop_inst t.
Lemma drops_app t1 t2 : drops (t1 ++ t2) = drops t1 ++ drops t2. Proof. apply omap_app. Qed.
Lemma drops_in t i : i ∈ drops t <-> dropped i t.
Proof.
  unfold drops. rewrite elem_of_list_omap. split.
  - intros (e & He & Hs). destruct e; try done. cbn in Hs. case_decide; [|done]. injection Hs as ->. by eexists _, _.
  - intros (mid & v & Hin & Hv). exists (EvRefDec mid i v). split; [done|]. cbn. by rewrite decide_True.
Qed.
Lemma ev_dec X (a : act X) x mid i v : EvRefDec mid i v ∈ ev a x -> ev a x = [EvRefDec mid i v].
Proof. destruct (ev_one _ a x) as [->|(e & ->)]; [intros H; by apply elem_of_nil in H|]. intros H. apply elem_of_list_singleton in H. by subst e. Qed.
Lemma reach_drops o dir w : reach o dir w -> distinct_registrations o -> NoDup (drops (events (w_hist w))).
Proof.
  intros HR HD. induction HR as [|w w' HR IH HS]; [constructor|]. assert (HR' : reach o dir w') by (by econstructor). pose proof (reach_basic _ _ _ HR') as HB'. pose proof (reach_basic _ _ _ HR) as HB.
  assert (Hnn : forall i, (0 <= refs_of (w_mem w') i)%Z) by (intros i; by eapply refs_nonneg).
  destruct HS as [w k Hk|w now Hn|w j th X a k r c Hth Hp Hc Hcl|w j th X a k x Hth Hp Hc Hv Ha Haw]; cbn [w_hist w_mem] in *; [done|done|..].
  - rewrite events_app. cbn [events omap list_omap did en_what]. by rewrite (right_id_L [] (++)).
  - change (map (fun e => mkEntry (w_now w) j (th_task th) (Did e)) (ev a x)) with (done_by (w_now w) j (th_task th) (ev a x)).
    rewrite events_app, events_done, drops_app. apply NoDup_app. split_and!; [done| |].
    + intros i Hi Hi'. apply drops_in in Hi'. destruct Hi' as (mid & v & Hin & Hv'). apply ev_dec in Hin.
      destruct a; try done. cbn in Hin. injection Hin as -> -> ->. cbn in Ha. specialize (Hnn i). unfold refs_of in Hnn. cbn in Hnn. rewrite lookup_insert in Hnn. cbn in Hnn.
      apply drops_in in Hi. apply (dropped_refs _ _ _ _ HR HD) in Hi. lia.
    + destruct (ev_one _ a x) as [->|(e & ->)]; [constructor|]. unfold drops. cbn. destruct (drop_inst e); [apply NoDup_singleton|constructor].
Qed.

Lemma events_of_sublist j h : events_of j h `sublist_of` events h.
Proof.
  induction h as [|en h IH]; [done|]. unfold events_of, events. cbn [omap list_omap]. change (list_omap ?f ?l) with (omap f l).
  fold (events_of j h) (events h). destruct (did en); case_decide; try done; [by apply sublist_skip|by apply sublist_cons].
Qed.
Lemma omap_sublist {A B} (f : A -> option B) l1 l2 : l1 `sublist_of` l2 -> omap f l1 `sublist_of` omap f l2.
Proof.
  induction 1 as [|x l1 l2 H IH|x l1 l2 H IH]; cbn [omap list_omap]; change (list_omap ?f ?l) with (omap f l); [done|..]; destruct (f x); try done; [by apply sublist_skip|by apply sublist_cons].
Qed.
Lemma events_of_sub o dir w j e : reach o dir w -> e ∈ events_of j (w_hist w) -> e ∈ events (w_hist w).
Proof. intros _ H. by eapply sublist_in; [apply events_of_sublist|]. Qed.

Lemma omap_thread {B} (f : event -> option B) h j1 j2 e1 e2 b : NoDup (omap f (events h)) -> e1 ∈ events_of j1 h -> e2 ∈ events_of j2 h ->
  f e1 = Some b -> f e2 = Some b -> j1 = j2 /\ e1 = e2.
Proof.
  intros Hn H1 H2 F1 F2. apply events_of_in in H1 as (n1 & He1 & <- & W1). apply events_of_in in H2 as (n2 & He2 & <- & W2).
  assert (Heq : omap f (events h) = omap (fun en => match en_what en with Did e => f e | _ => None end) h).
  { clear. induction h as [|en h IH]; [done|]. rewrite events_cons. cbn [omap list_omap]. change (list_omap ?f ?l) with (omap f l).
    destruct (en_what en) as [r c|e]; [done|]. cbn [omap list_omap]. change (list_omap ?f ?l) with (omap f l). by rewrite IH. }
  rewrite Heq in Hn. assert (n1 = n2) as <-; [|split; congruence].
  eapply (nodup_omap_eq _ _ n1 n2 b Hn He1 He2); by rewrite ?W1, ?W2.
Qed.

(** ** freeOnce runs once, right after the drop *)
Definition once_inst (e : event) : option inst := match e with EvOnce i _ => Some i | _ => None end.
Definition onces (t : list event) : list inst := omap once_inst t.
Lemma onces_app t1 t2 : onces (t1 ++ t2) = onces t1 ++ onces t2. Proof. apply omap_app. Qed.
Lemma onces_in t i : i ∈ onces t <-> exists b, EvOnce i b ∈ t.
Proof.
  unfold onces. rewrite elem_of_list_omap. split; [|intros [b H]; by exists (EvOnce i b)]. intros (e & He & Hs). destruct e; try done. injection Hs as ->. by eexists.
Qed.
Lemma reach_onces o dir w : reach o dir w -> distinct_registrations o -> NoDup (onces (events (w_hist w))) /\ forall i, EvOnce i false ∉ events (w_hist w).
Proof.
  intros HR HD. induction HR as [|w w' HR [IH1 IH2] HS]; [split; [constructor|intros i; apply not_elem_of_nil]|]. pose proof (reach_basic _ _ _ HR) as HB.
  destruct HS as [w k Hk|w now Hn|w j th X a k r c Hth Hp Hc Hcl|w j th X a k x Hth Hp Hc Hv Ha Haw]; cbn [w_hist w_mem] in *; [done|done|..].
  - rewrite events_app. cbn [events omap list_omap did en_what]. by rewrite (right_id_L [] (++)).
  - change (map (fun e => mkEntry (w_now w) j (th_task th) (Did e)) (ev a x)) with (done_by (w_now w) j (th_task th) (ev a x)).
    rewrite events_app, events_done, onces_app.
    assert (Hnew : forall i b, ev a x = [EvOnce i b] -> i ∉ onces (events (w_hist w))).
    { intros i b He Hi. pose proof (next_free _ _ _ _ _ _ _ _ _ _ HR Hth Hp Hv He) as (t0 & mid & v & Ht0 & Hv0). cbn in Ht0.
      apply onces_in in Hi as (b' & Hi). apply events_in in Hi as (en & Hen & Hw).
      assert (Hj : EvOnce i b' ∈ events_of (en_thread en) (w_hist w)) by (apply events_of_in; by exists en).
      apply elem_of_list_split in Hj as (t1 & t2 & Heq). destruct (thread_wf _ _ _ (en_thread en) HR _ _ _ Heq) as (t3 & mid' & v' & -> & Hv').
      pose proof (reach_drops _ _ _ HR HD) as HN.
      destruct (omap_thread drop_inst (w_hist w) (en_thread en) j (EvRefDec mid' i v') (EvRefDec mid i v) i HN) as [Hjj Hee].
      - rewrite Heq, !elem_of_app. left. right. by apply elem_of_list_singleton.
      - rewrite Ht0, elem_of_app. right. by apply elem_of_list_singleton.
      - cbn. by rewrite decide_True.
      - cbn. by rewrite decide_True.
      - injection Hee as -> ->. rewrite Hjj, Ht0 in Heq.
        assert (HNj : NoDup (drops (events_of j (w_hist w)))). { eapply sublist_nodup; [|exact HN]. apply omap_sublist, events_of_sublist. }
        rewrite Ht0, drops_app in HNj. apply NoDup_app in HNj as (_ & Hdis & _). apply (Hdis i).
        + assert (Hin : EvRefDec mid i v ∈ t0).
          { destruct t2 as [|y t2 _] using rev_ind; [by apply app_inj_2 in Heq as [_ ?]|].
            change (EvOnce i b' :: t2 ++ [y]) with ((EvOnce i b' :: t2) ++ [y]) in Heq. rewrite (assoc_L (++)) in Heq. apply app_inj_2 in Heq as [-> _]; [|done].
            rewrite !elem_of_app. left. right. by apply elem_of_list_singleton. }
          apply drops_in. by exists mid, v.
        + apply drops_in. exists mid, v. split; [by apply elem_of_list_singleton|done]. }
    split.
    + apply NoDup_app. split_and!; [done| |].
      * intros i Hi Hi'. apply onces_in in Hi' as (b & Hb). destruct (ev_one _ a x) as [Hz|(e & Hz)]; rewrite Hz in Hb; [by apply elem_of_nil in Hb|].
        apply elem_of_list_singleton in Hb. subst e. by eapply Hnew.
      * destruct (ev_one _ a x) as [->|(e & ->)]; [constructor|]. unfold onces. cbn. destruct (once_inst e); [apply NoDup_singleton|constructor].
    + intros i Hi. apply elem_of_app in Hi as [Hi|Hi]; [by eapply IH2|].
      assert (He : ev a x = [EvOnce i false]). { destruct (ev_one _ a x) as [Hz|(e & Hz)]; rewrite Hz in Hi |- *; [by apply elem_of_nil in Hi|]. apply elem_of_list_singleton in Hi. by subst e. }
      apply (Hnew _ _ He). destruct a; try done. cbn in He. injection He as -> ->. cbn in Ha. symmetry in Ha. apply bool_decide_eq_false in Ha.
      apply dec_stable in Ha. apply (b_once _ _ _ HB), onced_in in Ha. apply onces_in. by exists true.
Qed.

(** ** A load never drops the last reference of a published plugin *)

Lemma load_drops o dir w : reach o dir w -> distinct_registrations o -> forall en a mid i v m,
  en ∈ w_hist w -> en_task en = TLoad a -> en_what en = Did (EvRefDec mid i v) -> (v <= 0)%Z -> published (load_events (w_hist w)) m -> i ∉ insts m.
Proof.
  intros HR HD. induction HR as [|w w' HR IH HS]; intros en a mid i v m Hen Hta Hw Hv Hm Hi; [by apply elem_of_nil in Hen|].
  assert (HR' : reach o dir w') by (by econstructor). pose proof (reach_basic _ _ _ HR') as HB'. pose proof (reach_basic _ _ _ HR) as HB. destruct (reach_serial _ _ _ HR) as (h & HSr).
  assert (Hdr : dropped i (events (w_hist w'))). { exists mid, v. split; [|done]. apply events_in. by exists en. }
  pose proof (dropped_refs _ _ _ _ HR' HD Hdr) as Hr0. clear Hdr.
  destruct HS as [w k Hk|w now Hn|w j th X b k r c Hth Hp Hc Hcl|w j th X b k x Hth Hp Hc Hva Ha Haw]; [by eapply IH|by eapply IH|..].
  - cbn [w_hist w_mem] in *. rewrite load_events_app in Hm. assert (Hld : load_events [mkEntry (w_now w) j (th_task th) (Began r c)] = []) by (unfold load_events; cbn; by destruct (is_load (th_task th))).
    rewrite Hld in Hm. rewrite (right_id_L [] (++)) in Hm.
    apply elem_of_app in Hen as [Hen|Hen]; [by eapply IH|]. apply elem_of_list_singleton in Hen. by subst en.
  - set (w' := mkWorld _ _ _ _) in *. change (w_hist w') with (w_hist w ++ done_by (w_now w) j (th_task th) (ev b x)) in *.
    rewrite load_events_app, load_events_done in Hm. apply published_app in Hm. apply elem_of_app in Hen. destruct Hen as [Hen|Hen]; destruct Hm as [Hm|Hm].
    + by eapply IH.
    + (* the publication *)
      destruct (is_load (th_task th)) eqn:Hl; [|by apply elem_of_nil in Hm]. destruct (th_task th) as [a'| | | | |] eqn:Ht; try done.
      assert (He : ev b x = [EvStore m]). { destruct (ev_one _ b x) as [Hz|(e & Hz)]; rewrite Hz in Hm |- *; [by apply elem_of_nil in Hm|]. apply elem_of_list_singleton in Hm. by subst e. }
      assert (Hlock : me_lock (w_mem w) = Some j) by (eapply load_locked; by eauto).
      assert (1 <= refs_of (w_mem w') i)%Z; [|lia].
      apply (current_alive _ _ w' m i HR' HD); [..|done].
      * destruct b; try done. cbn in He. by injection He as ->.
      * intros (j' & Hj' & _ & Hst). assert (j' = j) as ->. { destruct b; try done. cbn in Hj'. congruence. }
        change (w_hist w') with (w_hist w ++ done_by (w_now w) j (TLoad a') (ev b x)) in Hst. rewrite events_of_app, events_of_done, decide_True, stores_app, He in Hst by done. by apply app_eq_nil in Hst as [_ ?].
    + (* the drop *)
      apply elem_of_list_fmap in Hen as (e & -> & Hin). cbn [en_task en_what] in *. injection Hw as ->. apply ev_dec in Hin.
      assert (Hlock : me_lock (w_mem w) = Some j) by (eapply (load_locked _ _ _ _ _ _ _ _ b k x); by eauto).
      assert (Hp' := Hp). destruct b; try done. cbn in Hin. injection Hin as -> -> ->.
      destruct (load_running _ _ _ _ _ _ _ _ _ _ v HR HSr Hth Hta Hp I Hlock eq_refl) as (Hload & t' & r & HN).
      { intros y Hy. by apply elem_of_list_singleton in Hy. }
      cbn [ev] in HN. pose proof (call_accounts _ _ _ _ _ _ HN HD) as HA.
      assert (Hnp : no_publish (events_of j (w_hist w))).
      { destruct (call_shape _ _ _ _ _ _ HN) as [Hnp|(tc & m0 & tz & Heq & Hnc & Hez)]; [by apply Forall_app in Hnp as [? _]|].
        symmetry in Heq. apply app_eq_inv in Heq as [(k' & -> & _)|(k' & Hk & Hk')]; [by apply Forall_app in Hnc as [? _]|].
        exfalso. assert (Hsil : silent (pubs o (after None h) m0 ++ tz)) by (apply silent_app; [apply pubs_facts|by apply ending_silent]).
        rewrite Hk' in Hsil. destruct Hsil as (_ & _ & Hsil & _). unfold decrements in Hsil. rewrite !omap_app in Hsil. cbn in Hsil.
        apply app_eq_nil in Hsil as [_ Hsil]. done. }
      assert (Hpub : published h m).
      { rewrite Hload in Hm. apply published_app in Hm as [Hm|Hm]; [done|]. apply stores_in in Hm. destruct (no_publish_stores _ Hnp) as [Hz _]. rewrite Hz in Hm. by apply elem_of_nil in Hm. }
      destruct HN as (N1 & N2 & N3 & N4 & N5). assert (HN : next_call o h (after None h) (api_prog o a) (events_of j (w_hist w) ++ [EvRefDec mid i v] ++ t') r) by done.
      assert (Hwt : (1 <= wt i (events_of j (w_hist w)))%Z).
      { rewrite (assoc_L (++)) in HN. destruct (call_part _ _ _ _ _ _ _ HN HD) as [Hnn _]. specialize (Hnn i). rewrite wt_app in Hnn. cbn in Hnn. rewrite decide_True in Hnn by done. lia. }
      rewrite wt_eq in Hwt. pose proof (cnt_nonneg i (decrements (events_of j (w_hist w)))).
      assert (Hor : i ∈ created (events_of j (w_hist w)) \/ i ∈ increments (events_of j (w_hist w))).
      { rewrite !cnt_in. pose proof (cnt_nonneg i (created (events_of j (w_hist w)))). pose proof (cnt_nonneg i (increments (events_of j (w_hist w)))). lia. }
      destruct Hor as [Hcr|Hinc].
      * pose proof (history_ledger _ _ _ N1 (fresh_prefix _ _ N5) HD) as HL. destruct (lg_ready _ _ _ HL m) as [_ Hrd]; [by apply stores_in|].
        destruct (insts_holds m i) as (p & Hph & Hpi); [apply Hrd|done|].
        pose proof (published_created _ _ _ _ _ N1 (fresh_prefix _ _ N5) Hpub Hph) as Hch. rewrite Hpi in Hch.
        unfold fresh_objects in N5. rewrite created_app in N5. apply NoDup_app in N5 as (_ & Hd & _). apply (Hd _ Hch). rewrite created_app. apply elem_of_app. by left.
      * destruct (ac_inc _ _ _ HA i) as (Hst & om & Hom & Hio). { unfold increments. rewrite omap_app. apply elem_of_app. by left. }
        assert (1 <= refs_of (w_mem w') i)%Z; [|lia]. apply (current_alive _ _ w' om i HR' HD); [..|done].
        -- cbn. by rewrite (after_loads _ _ _ HB), Hload, after_app, (no_publish_after _ _ Hnp).
        -- intros (j' & Hj' & Hrel & _). cbn in Hj'. rewrite Hlock in Hj'. injection Hj' as <-. apply Hrel.
           change (w_hist w') with (w_hist w ++ done_by (w_now w) j (th_task th) [EvRefDec mid i v]). rewrite events_of_app, events_of_done, decide_True by done.
           rewrite releases_app. destruct (no_publish_stores _ Hnp) as [_ ->]. done.
    + apply elem_of_list_fmap in Hen as (e & -> & Hin). cbn [en_task en_what] in *. injection Hw as ->. apply ev_dec in Hin.
      destruct (is_load (th_task th)); [|by apply elem_of_nil in Hm]. rewrite Hin in Hm. by apply elem_of_list_singleton in Hm.
Qed.

(** ** Release order *)

(** published plugins are admitted *)
Lemma published_admitted o h cur m p : history o h cur -> fresh_objects h -> published h m -> holds m p -> pl_inst p ∈ admitted h.
Proof.
  intros HH. revert m p. induction HH as [|h cur pr t r HH IH HC HE HS]; intros m p HF Hpub Hp; [by apply elem_of_nil in Hpub|].
  assert (Ha : admitted (h ++ t) = admitted h ++ admitted t) by apply omap_app. rewrite Ha, elem_of_app.
  apply published_app in Hpub as [Hpub|Hpub]; [left; eapply IH; try done; by eapply fresh_prefix|].
  destruct (next_of _ _ _ _ _ _ HH HC HE HS HF) as (a & -> & HN).
  destruct (published_plugins _ _ _ _ _ _ _ _ HN Hpub Hp) as [[_ (_ & _ & (code & _ & Hin) & _)]|(_ & _ & _ & om & q0 & -> & Hq & Hs & _)].
  - right. apply elem_of_list_omap. by eexists _.
  - left. assert (Hi : pl_inst p = pl_inst q0) by apply Hs. rewrite Hi. eapply IH; [by eapply fresh_prefix| |done]. by eapply history_current.
Qed.

(** in a (possibly unfinished) release, when a plugin has been given back, everything listed after it has been released *)
Lemma prefix_split {A} (a b t t' : list A) e : t ++ t' = a ++ b -> e ∈ t -> e ∉ a -> exists u, t = a ++ u.
Proof.
  intros Heq He Hn. apply app_eq_inv in Heq as [(k & -> & _)|(k & -> & _)].
  - by exists k.
  - exfalso. apply Hn. apply elem_of_app. by left.
Qed.
Lemma freed_dec mid p t i : freed_one mid p t -> i ∈ decrements t -> i = pl_inst p.
Proof. intros HF Hi. destruct (freed_one_facts _ _ _ HF) as (Hd & _). rewrite Hd in Hi. by apply elem_of_list_singleton in Hi. Qed.
Lemma dec_in t i : i ∈ decrements t <-> exists mid v, EvRefDec mid i v ∈ t.
Proof.
  unfold decrements. rewrite elem_of_list_omap. split; [|intros (mid & v & H); by exists (EvRefDec mid i v)].
  intros (e & He & Hs). destruct e; try done. injection Hs as ->. by eexists _, _.
Qed.
Lemma released_before m t t' l1 p l2 q : deps_ready (pm_map m) (pm_ordered m) -> NoDup (insts m) -> released m (t ++ t') ->
  Plugins m = l1 ++ p :: l2 -> q ∈ l1 -> pl_inst q ∈ decrements t ->
  exists ta tp u, t = ta ++ tp ++ u /\ freed_one (pm_id m) p tp.
Proof.
  intros Hr Hnd (ps & ts & Heq & HF & Hperm & Hps) Hpl Hq Hdec.
  assert (Hne : pm_ordered m <> []). { intros Hz. unfold Plugins in Hpl. rewrite Hz in Hpl. by destruct l1. }
  specialize (Hps Hne). rewrite Hpl, rev_app_distr in Hps. cbn [rev] in Hps. rewrite <- (assoc_L (++)) in Hps. cbn [app] in Hps. subst ps.
  apply Forall2_app_inv_l in HF as (ta & tb & HFa & HFb & ->). apply Forall2_cons_inv_l in HFb as (tp & tc & HFp & HFc & ->).
  rewrite concat_app in Heq. cbn [concat] in Heq.
  assert (Hperm' : Permutation (map pl_inst (rev l2 ++ p :: rev l1)) (insts m)) by (unfold insts; by rewrite Hperm).
  rewrite <- Hperm' in Hnd. rewrite map_app in Hnd. cbn [map] in Hnd. apply NoDup_app in Hnd as (_ & Hd1 & Hnd). apply NoDup_cons in Hnd as [Hd2 _].
  assert (Hq' : pl_inst q ∈ map pl_inst (rev l1)). { apply elem_of_list_fmap. exists q. split; [done|]. apply elem_of_list_In. apply in_rev. rewrite rev_involutive. by apply elem_of_list_In. }
  apply dec_in in Hdec as (mid & v & Hin).
  rewrite (assoc_L (++)) in Heq. destruct (prefix_split _ _ _ _ _ Heq Hin) as (u & ->).
  - intros Hx. apply elem_of_app in Hx as [Hx|Hx].
    + assert (Hxx : pl_inst q ∈ decrements (concat ta)) by (apply dec_in; by eexists _, _).
      destruct (freed_all _ _ _ HFa) as (Hda & _). rewrite Hda in Hxx. apply (Hd1 _ Hxx). by right.
    + assert (Hxx : pl_inst q ∈ decrements tp) by (apply dec_in; by eexists _, _). apply (freed_dec _ _ _ _ HFp) in Hxx. rewrite Hxx in Hq'. done.
  - exists (concat ta), tp, u. by rewrite <- (assoc_L (++)).
Qed.

(** the trace of a release goroutine *)
Lemma free_trace o dir w j th m d : reach o dir w -> w_threads w !! j = Some th -> th_task th = TFree m d -> deps_ready (pm_map m) (pm_ordered m) ->
  events_of j (w_hist w) = [] \/ exists t t', events_of j (w_hist w) = EvSleep (pm_id m) d :: t /\ released m (t ++ t').
Proof.
  intros HR Hth Ht Hr. pose proof (reach_basic _ _ _ HR) as HB. pose proof (b_thread _ _ _ HB _ _ Hth) as HP. rewrite Ht in HP.
  destruct (complete (th_prog th) None []) as (t' & r & He & _). apply HP in He. apply free_task in He as (t2 & Heq & Hrel & _); [|done].
  destruct (events_of j (w_hist w)) as [|e t1]; [by left|]. injection Heq as -> <-. right. by exists t1, t'.
Qed.

(** every manager with a release goroutine, and every manager with references, was published *)
Lemma tokens_nodup o w H rest x m : tokens o w H rest x -> distinct_registrations o -> published H m -> NoDup (insts m).
Proof.
  intros HT HD Hm. destruct (published_origin _ _ _ _ (tk_hist _ _ _ _ _ HT) (tk_fresh _ _ _ _ _ HT) Hm) as (h0 & cur0 & a & t & r & h1 & _ & HN & Hp). by eapply published_nodup.
Qed.
Lemma has_in m i : NoDup (insts m) -> i ∈ insts m -> has i m = 1%Z.
Proof. intros Hn Hi. pose proof (cnt_nodup i _ Hn). apply cnt_in in Hi. unfold has. lia. Qed.

Lemma dec_weight t i : (wt i t < 0)%Z -> i ∈ decrements t.
Proof. intros H. rewrite wt_eq in H. apply cnt_in. pose proof (cnt_nonneg i (created t)). pose proof (cnt_nonneg i (increments t)). pose proof (cnt_nonneg i (decrements t)). lia. Qed.

(** The plugin [p] of a published manager depends on [q]; the last reference to [q] is gone.  Then a release goroutine
    has completely released [p], and its OnFree, if any, has returned. *)
Lemma free_order o dir w m p q d : reach o dir w -> distinct_registrations o -> published (load_events (w_hist w)) m ->
  holds m p -> d ∈ pl_deps p -> FindPlugin m d = Some q -> refs_of (w_mem w) (pl_inst q) = 0%Z ->
  forall c, get_func ROnFree (pl_funcs p) = Some c ->
  exists j mid name x, EvCall ROnFree (mkCallee mid name (pl_inst p) c) ArgNone x ∈ events_of j (w_hist w).
Proof.
  intros HR HD Hm Hp Hd Hq Hrq c Hc. destruct (reach_tokens _ _ _ HR HD) as (H & rest & x & HT). pose proof (reach_basic _ _ _ HR) as HB.
  pose proof (tk_hist _ _ _ _ _ HT) as HH. pose proof (tk_fresh _ _ _ _ _ HT) as HF. pose proof (tk_ledger _ _ _ _ _ HT) as HLg.
  assert (HmH : published H m). { destruct (tk_ext _ _ _ _ _ HT) as (t' & -> & _). apply published_app. by left. }
  assert (Hdeps : forall m' p', published H m' -> holds m' p' -> pl_inst p' = pl_inst p -> exists q' l1 l2, pl_inst q' = pl_inst q /\ Plugins m' = l1 ++ p' :: l2 /\ q' ∈ l1 /\ pl_funcs p' = pl_funcs p).
  { intros m' p' Hm' Hp' Hi. destruct (history_deps _ _ _ _ _ HH HF HD HmH Hm' p p' Hp Hp' (eq_sym Hi)) as (D1 & D2 & D3).
    destruct (D3 d Hd) as (q0 & q' & Hq0 & Hq' & Hiq). rewrite Hq in Hq0. injection Hq0 as <-.
    destruct (published_origin _ _ _ _ HH HF Hm') as (h0 & cur0 & a & t & r & h1 & _ & HN & Hpub).
    destruct (C01_plugins_in_dependency_order _ _ _ _ _ _ _ HN Hpub) as (C1 & _ & C3).
    apply elem_of_list_split in Hp' as (l1 & l2 & Heq). rewrite D1 in Hd. destruct (C3 l1 p' l2 d Heq Hd) as (q2 & Hq2 & Hsame).
    assert (FindPlugin m' d = Some q2) as Hq2'. { apply C1. split; [|done]. rewrite Heq. apply elem_of_app. by left. }
    exists q', l1, l2. split_and!; [done|done| |done]. congruence. }
  rewrite (tk_refs _ _ _ _ _ HT) in Hrq. pose proof (held_nonneg _ _ _ _ _ _ (pl_inst q) HR HT) as Hh0. pose proof (sum_has_nonneg (pl_inst q) rest) as Hs0. pose proof (tk_x _ _ _ _ _ HT (pl_inst q)) as Hx0.
  (* no manager with references holds p *)
  assert (Hpubr : forall m', m' ∈ map snd (frees (w_threads w)) ++ rest -> published H m'). { intros m' Hin. apply stores_in. by apply (tk_stores _ _ _ _ _ HT). }
  assert (Hperm : forall m', published H m' -> Permutation (pm_ordered m') (map_keys (pm_map m'))). { intros m' Hin. apply stores_in in Hin. by apply (lg_ready _ _ _ HLg) in Hin as [_ (_ & _ & _ & ? & _)]. }
  assert (Hready : forall m', published H m' -> deps_ready (pm_map m') (pm_ordered m')). { intros m' Hin. apply stores_in in Hin. by apply (lg_ready _ _ _ HLg) in Hin as [_ ?]. }
  assert (Hboth : forall m', published H m' -> pl_inst p ∈ insts m' -> pl_inst q ∈ insts m').
  { intros m' Hm' Hi. destruct (insts_holds _ _ (Hperm _ Hm') Hi) as (p' & Hp' & Hip). destruct (Hdeps _ _ Hm' Hp' Hip) as (q' & l1 & l2 & <- & Hpl & Hin & _).
    apply holds_insts. unfold holds. rewrite Hpl. apply elem_of_app. by left. }
  assert (Hrest : forall m', m' ∈ rest -> pl_inst q ∉ insts m').
  { intros m' Hin Hi. apply cnt_in in Hi. fold (has (pl_inst q) m') in Hi. pose proof (sum_has_in (pl_inst q) m' rest Hin). lia. }
  assert (Hrestp : sum_has (pl_inst p) rest = 0%Z).
  { assert (Hall : forall m', m' ∈ rest -> has (pl_inst p) m' = 0%Z).
    { intros m' Hin. apply cnt_out. intros Hi. apply (Hrest m' Hin). apply Hboth; [|done]. apply Hpubr. apply elem_of_app. by right. }
    clear -Hall. induction rest as [|y l IH]; [done|]. cbn [sum_has]. rewrite (Hall y) by left. rewrite IH; [done|]. intros m' Hin. apply Hall. by right. }
  (* nor does the load in progress *)
  assert (Hca : forall h', published h' m -> forall cur, history o h' cur -> fresh_objects h' -> (cnt (pl_inst p) (created h') - cnt (pl_inst p) (admitted h') <= 0)%Z).
  { intros h' Hpub cur Hh' Hf'. pose proof (published_admitted _ _ _ _ _ Hh' Hf' Hpub Hp) as Ha. apply cnt_in in Ha. pose proof (cnt_nodup (pl_inst p) _ Hf'). lia. }
  assert (Hxp : x (pl_inst p) = 0%Z).
  { pose proof (tk_x _ _ _ _ _ HT (pl_inst p)) as Hx1. destruct (me_lock (w_mem w)) as [j|] eqn:Hlock.
    - destruct (tk_prog _ _ _ _ _ HT j Hlock) as (h & a & t' & r & Hload & HN & HeqH & [[Hnp Hx]|(Hnp & _ & Hx)]).
      + assert (Hmh : published h m).
        { rewrite Hload in Hm. apply published_app in Hm as [?|Hz]; [done|]. apply stores_in in Hz. destruct (no_publish_stores _ Hnp) as [Hz' _]. rewrite Hz' in Hz. by apply elem_of_nil in Hz. }
        destruct HN as (N1 & N2 & N3 & N4 & N5). pose proof (Hca h Hmh _ N1 (fresh_prefix _ _ N5)) as Hc0. specialize (Hx (pl_inst p)).
        destruct (decide (0 < wt (pl_inst p) (events_of j (w_hist w)))%Z) as [Hw|Hw]; [|lia]. exfalso.
        rewrite wt_eq in Hw. pose proof (cnt_nonneg (pl_inst p) (decrements (events_of j (w_hist w)))).
        assert (Hor : pl_inst p ∈ created (events_of j (w_hist w)) \/ pl_inst p ∈ increments (events_of j (w_hist w))).
        { rewrite !cnt_in. pose proof (cnt_nonneg (pl_inst p) (created (events_of j (w_hist w)))). pose proof (cnt_nonneg (pl_inst p) (increments (events_of j (w_hist w)))). lia. }
        destruct Hor as [Hcr|Hinc].
        * pose proof (published_created _ _ _ _ _ N1 (fresh_prefix _ _ N5) Hmh Hp) as Hch. unfold fresh_objects in N5. rewrite created_app in N5. apply NoDup_app in N5 as (_ & Hdd & _).
          apply (Hdd _ Hch). rewrite created_app. apply elem_of_app. by left.
        * assert (HN : next_call o h (after None h) (api_prog o a) (events_of j (w_hist w) ++ t') r) by done.
          destruct (ac_inc _ _ _ (call_accounts _ _ _ _ _ _ HN HD) (pl_inst p)) as (Hst & om & Hom & Hio). { unfold increments. rewrite omap_app. apply elem_of_app. by left. }
          assert (Hcur : me_current (w_mem w) = Some om) by (by rewrite (after_loads _ _ _ HB), Hload, after_app, (no_publish_after _ _ Hnp)).
          destruct (tk_cur _ _ _ _ _ HT om Hcur) as [Hin|(j' & Hj' & Hrel & _)].
          -- apply (Hrest om Hin). apply Hboth; [|done]. apply Hpubr. apply elem_of_app. by right.
          -- rewrite Hlock in Hj'. injection Hj' as <-. by destruct (no_publish_stores _ Hnp) as [_ ?].
      + specialize (Hx (pl_inst p)). pose proof (Hca H HmH _ HH HF). lia.
    - destruct (tk_free _ _ _ _ _ HT Hlock) as [Hx _]. specialize (Hx (pl_inst p)). destruct (tk_ext _ _ _ _ _ HT) as (t' & HeqH & Hz). rewrite (Hz Hlock), (right_id_L [] (++)) in HeqH.
      rewrite <- HeqH in Hx. pose proof (Hca H HmH _ HH HF). lia. }
  (* release goroutines have released p *)
  assert (Hfree : forall y p', y ∈ frees (w_threads w) -> holds (snd y) p' -> pl_inst p' = pl_inst p ->
    exists th dl ta tp u, w_threads w !! fst y = Some th /\ th_task th = TFree (snd y) dl /\ events_of (fst y) (w_hist w) = EvSleep (pm_id (snd y)) dl :: ta ++ tp ++ u /\ freed_one (pm_id (snd y)) p' tp /\ pl_funcs p' = pl_funcs p).
  { intros [j m'] p' Hy Hp' Hip. cbn [fst snd] in *. apply frees_in in Hy as Hth. destruct Hth as (th & dl & Hth & Ht).
    assert (Hm' : published H m'). { apply Hpubr. apply elem_of_app. left. apply elem_of_list_fmap. by exists (j, m'). }
    destruct (Hdeps _ _ Hm' Hp' Hip) as (q' & l1 & l2 & Hiq & Hpl & Hin & Hfun).
    pose proof (tokens_nodup _ _ _ _ _ _ HT HD Hm') as Hnd.
    assert (Hqi : pl_inst q ∈ insts m'). { rewrite <- Hiq. apply holds_insts. unfold holds. rewrite Hpl. apply elem_of_app. by left. }
    assert (Hpart : (has (pl_inst q) m' + wt (pl_inst q) (events_of j (w_hist w)) = 0)%Z).
    { pose proof (sum_over_in (fun y => has (pl_inst q) (snd y) + wt (pl_inst q) (events_of (fst y) (w_hist w)))%Z (frees (w_threads w)) (j, m') ltac:(intros y Hy'; by eapply held_parts) Hy) as HI.
      cbn [fst snd] in HI. fold (held w (pl_inst q)) in HI. pose proof (held_parts _ _ _ _ _ _ (pl_inst q) (j, m') HR HT Hy) as HI2. cbn [fst snd] in HI2. lia. }
    rewrite (has_in _ _ Hnd Hqi) in Hpart. assert (Hdec : pl_inst q ∈ decrements (events_of j (w_hist w))) by (apply dec_weight; lia).
    destruct (free_trace _ _ _ _ _ _ _ HR Hth Ht (Hready _ Hm')) as [Hz|(t & t' & Htr & Hrel)]; [rewrite Hz in Hdec; by apply elem_of_nil in Hdec|].
    rewrite Htr in Hdec. rewrite <- Hiq in Hdec. destruct (released_before _ _ _ _ _ _ _ (Hready _ Hm') Hnd Hrel Hpl Hin Hdec) as (ta & tp & u & -> & Hf).
    by exists th, dl, ta, tp, u. }
  (* so p has no references *)
  assert (Hheld : held w (pl_inst p) = 0%Z).
  { assert (Hz : forall y, y ∈ frees (w_threads w) -> (has (pl_inst p) (snd y) + wt (pl_inst p) (events_of (fst y) (w_hist w)) = 0)%Z).
    { intros y Hy. assert (Hm' : published H (snd y)). { apply Hpubr. apply elem_of_app. left. apply elem_of_list_fmap. by exists y. }
      pose proof (held_parts _ _ _ _ _ _ (pl_inst p) y HR HT Hy) as HI.
      pose proof (proj1 (frees_in _ (fst y) (snd y)) ltac:(by destruct y)) as (th & dl & Hth & Ht). pose proof (b_thread _ _ _ HB _ _ Hth) as HPt. rewrite Ht in HPt.
      pose proof (free_prefix_wt _ _ _ (pl_inst p) _ _ HPt (Hready _ Hm')) as Hb.
      destruct (decide (pl_inst p ∈ insts (snd y))) as [Hi|Hi]; [|apply cnt_out in Hi; fold (has (pl_inst p) (snd y)) in Hi; lia].
      pose proof (tokens_nodup _ _ _ _ _ _ HT HD Hm') as Hnd. rewrite (has_in _ _ Hnd Hi) in *.
      destruct (insts_holds _ _ (Hperm _ Hm') Hi) as (p' & Hp' & Hip). destruct (Hfree y p' Hy Hp' Hip) as (th' & dl' & ta & tp & u & Hth' & Ht' & Htr & Hf & _).
      simplify_eq. rewrite Htr in *. destruct (free_trace _ _ _ _ _ _ _ HR Hth Ht (Hready _ Hm')) as [Hz|(t & t' & Htr' & Hrel)]; [congruence|]. rewrite Htr in Htr'. injection Htr' as Hdl Htr'.
      destruct (released_wt (pl_inst p) _ _ Hrel) as [_ Hall]. apply Forall_app in Hall as [Hall _]. rewrite <- Htr' in Hall. apply Forall_app in Hall as [Ha1 Hall]. apply Forall_app in Hall as [Ha2 Ha3].
      cbn [wt weight] in HI, Hb |- *. rewrite !wt_app in HI, Hb |- *. pose proof (wt_nonpos _ _ Ha1). pose proof (wt_nonpos _ _ Ha3).
      assert (wt (pl_inst p) tp = -1)%Z; [|lia]. destruct (freed_one_facts _ _ _ Hf) as (F1 & F2 & F3 & F4 & _). rewrite wt_eq, F1, F2, F4, Hip. cbn. rewrite decide_True by done. done. }
    unfold held. rewrite (sum_over_ext _ (fun _ => 0%Z)) by done. clear. induction (frees (w_threads w)); cbn; lia. }
  assert (Hrp : refs_of (w_mem w) (pl_inst p) = 0%Z) by (rewrite (tk_refs _ _ _ _ _ HT), Hheld, Hrestp, Hxp; done).
  (* the goroutine that dropped it *)
  assert (Hborn : me_refs (w_mem w) !! pl_inst p <> None).
  { pose proof (published_created _ _ _ _ _ HH HF HmH Hp) as Hcr. destruct (tk_ext _ _ _ _ _ HT) as (t' & HeqH & _).
    assert (Hcl : pl_inst p ∈ created (load_events (w_hist w))).
    { destruct (me_lock (w_mem w)) as [j|] eqn:Hlock.
      - destruct (tk_prog _ _ _ _ _ HT j Hlock) as (h & a & u & r & Hload & HN & HeqH' & Hcases). rewrite Hload, created_app. apply elem_of_app.
        rewrite Hload in Hm. apply published_app in Hm as [Hm|Hm].
        + left. destruct HN as (N1 & _ & _ & _ & N5). eapply (published_created _ _ _ _ _ N1 (fresh_prefix _ _ N5)); done.
        + destruct (call_part _ _ _ _ _ _ _ HN HD) as [_ [Hz|(m0 & _ & _ & _ & _ & _ & Hcre)]].
          * apply stores_in in Hm. destruct (no_publish_stores _ Hz) as [Hz' _]. rewrite Hz' in Hm. by apply elem_of_nil in Hm.
          * rewrite HeqH', created_app, elem_of_app in Hcr. rewrite Hcre. done.
      - destruct (tk_ext _ _ _ _ _ HT) as (t2 & HeqH2 & Hz). rewrite (Hz Hlock), (right_id_L [] (++)) in HeqH2. by rewrite <- HeqH2. }
    rewrite <- (created_loads _ _ _ HB) in Hcl. apply elem_of_list_omap in Hcl as (e & He & Hn). destruct e; try done. injection Hn as ->. by eapply born_mentions. }
  assert (Hdr : dropped (pl_inst p) (events (w_hist w))). { apply (reach_dropped _ _ _ _ HR HD Hborn). lia. }
  destruct Hdr as (mid & v & Hin & Hv). apply events_in in Hin as (en & Hen & Hw).
  destruct (b_index _ _ _ HB en Hen) as (th & Hth & Hta).
  destruct (is_load (en_task en)) eqn:Hl.
  { destruct (en_task en) as [a| | | | |] eqn:Ht; try done. exfalso. eapply (load_drops _ _ _ HR HD en a mid _ v m); try done. by apply holds_insts. }
  set (j := en_thread en) in *. assert (Hej : EvRefDec mid (pl_inst p) v ∈ events_of j (w_hist w)) by (apply events_of_in; by exists en).
  pose proof (b_thread _ _ _ HB _ _ Hth) as HPt. rewrite Hta in HPt.
  assert (Hdec : (exists m' dl, en_task en = TFree m' dl) \/ ~ (exists m' dl, en_task en = TFree m' dl)).
  { destruct (en_task en); try (right; intros (? & ? & ?); done). left. by eexists _, _. }
  destruct Hdec as [(m' & dl & Ht)|Hno].
  2:{ exfalso. eapply (partial_forall _ _ _ (fun e => weight (pl_inst p) e = 0%Z)) in HPt.
      2:{ intros t r. apply refless_task; [done|]. intros m' dl Ht. apply Hno. by exists m', dl. }
      rewrite Forall_forall in HPt. specialize (HPt _ Hej). cbn in HPt. by rewrite decide_True in HPt. }
  rewrite Ht in *. assert (Hy : (j, m') ∈ frees (w_threads w)) by (apply frees_in; by exists th, dl).
  assert (Hm' : published H m'). { apply Hpubr. apply elem_of_app. left. apply elem_of_list_fmap. by exists (j, m'). }
  destruct (free_trace _ _ _ _ _ _ _ HR Hth Hta (Hready _ Hm')) as [Hz|(t & t' & Htr & Hrel)]; [rewrite Hz in Hej; by apply elem_of_nil in Hej|].
  assert (Hi : pl_inst p ∈ insts m').
  { rewrite Htr in Hej. apply elem_of_cons in Hej as [?|Hej]; [done|]. destruct (released_facts _ _ Hrel) as (ps & Rf & Hps & _).
    assert (Hx : pl_inst p ∈ decrements (t ++ t')). { apply dec_in. exists mid, v. apply elem_of_app. by left. }
    rewrite (rf_dec _ _ _ _ _ Rf), Hps in Hx. exact Hx. }
  destruct (insts_holds _ _ (Hperm _ Hm') Hi) as (p' & Hp' & Hip).
  destruct (Hfree (j, m') p' Hy Hp' Hip) as (th' & dl' & ta & tp & u & Hth' & Ht' & Htr' & Hf & Hfun). cbn [fst snd] in *.
  pose proof Hf as (v' & t2 & -> & Hcs).
  assert (Hev' : EvRefDec (pm_id m') (pl_inst p') v' ∈ events_of j (w_hist w)). { rewrite Htr'. right. rewrite !elem_of_app. right. left. left. }
  assert (Hvv : v' = v).
  { assert (Hnd : NoDup (decrements (events_of j (w_hist w)))).
    { rewrite Htr. change (NoDup (decrements t)). destruct (released_facts _ _ Hrel) as (ps & Rf & Hps & _). pose proof (rf_dec _ _ _ _ _ Rf) as Hd0.
      assert (Hda : decrements (t ++ t') = decrements t ++ decrements t') by apply omap_app. rewrite Hda in Hd0.
      assert (Hndp : NoDup (map pl_inst ps)). { rewrite Hps. apply (tokens_nodup _ _ _ _ _ _ HT HD Hm'). }
      rewrite <- Hd0 in Hndp. by apply NoDup_app in Hndp as (? & _). }
    pose proof (nodup_omap_eq dec_inst _ _ _ (pl_inst p) Hnd Hev' Hej) as Hee. cbn in Hee. rewrite Hip in Hee. specialize (Hee eq_refl eq_refl). congruence. }
  subst v'. destruct Hcs as [[? _]|[_ Hcs]]; [lia|]. assert (Hpre : forall e, e ∈ t2 -> e ∈ events_of j (w_hist w)).
  { intros e He. rewrite Htr'. right. rewrite !elem_of_app. right. left. by right. }
  destruct Hcs as [->|(t3 & -> & Hcs)].
  { exfalso. eapply (proj2 (reach_onces _ _ _ HR HD) (pl_inst p')). eapply events_of_sub; [exact HR|]. apply Hpre. left. }
  destruct Hcs as [[Hnone _]|(c' & x' & Hc' & ->)]; [congruence|]. rewrite Hfun, Hc in Hc'. injection Hc' as <-.
  exists j, (pm_id m'), (pl_name p'), x'. rewrite <- Hip. apply Hpre. right. left.
Qed.

End Proofs.
