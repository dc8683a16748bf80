(** C18: superseded plugins are freed. *)
From Verif Require Export PropConc.

Section Props.
Context {E : GoEnv}.

(** ** A call that has returned had begun *)
Lemma call_begun o dir w : reach o dir w ->
  (forall j th, w_threads w !! j = Some th -> th_called th = true -> exists r c arg k en, th_prog th = Act (ACall r c arg) k /\ en ∈ w_hist w /\ en_what en = Began r c) /\
  (forall r c arg x, EvCall r c arg x ∈ events (w_hist w) -> exists en, en ∈ w_hist w /\ en_what en = Began r c).
Proof.
  induction 1 as [|w w' HR [IH1 IH2] Hs]; [split; [done|]; intros r c arg x H; by apply elem_of_nil in H|].
  pose proof (reach_basic _ _ _ HR) as HB.
  destruct Hs as [w k Hk|w now Hn|w j th X a k r c Hth Hp Hc Hca|w j th X a k x Hth Hp Hc Hv Ha Hw]; cbn [w_threads w_hist].
  - split; [|done]. intros j th Hj Hca. apply lookup_app_Some in Hj as [Hj|[_ Hj]]; [eauto|]. apply elem_of_list_lookup_2, elem_of_list_singleton in Hj. by subst th.
  - done.
  - split.
    + intros j' th' Hj' Hca'. destruct (decide (j = j')) as [<-|Hne].
      * rewrite list_lookup_insert in Hj' by (by eapply lookup_lt_Some). injection Hj' as <-. cbn [th_prog]. destruct a; try done. injection Hc as -> ->.
        eexists _, _, _, _, _. split; [exact Hp|]. split; [apply elem_of_app; right; apply elem_of_list_singleton; reflexivity|done].
      * rewrite list_lookup_insert_ne in Hj' by done. destruct (IH1 _ _ Hj' Hca') as (r' & c' & arg & k' & en & H1 & H2 & H3).
        eexists _, _, _, _, en. split_and!; [exact H1|apply elem_of_app; by left|done].
    + intros r' c' arg x H. rewrite events_app in H. apply elem_of_app in H as [H|H]; [|by apply elem_of_nil in H].
      destruct (IH2 _ _ _ _ H) as (en & H2 & H3). exists en. split; [apply elem_of_app; by left|done].
  - split.
    + intros j' th' Hj' Hca'. assert (Hlt : (j < length (w_threads w))%nat) by (by eapply lookup_lt_Some).
      destruct (lookup_insert_app _ _ _ _ _ _ Hlt Hj') as [[-> ->]|[Hne [Hj|[_ Hj]]]]; [done| |].
      * destruct (IH1 _ _ Hj Hca') as (r' & c' & arg & k' & en & H1 & H2 & H3). eexists _, _, _, _, en. split_and!; [exact H1|apply elem_of_app; by left|done].
      * destruct a; try (by apply elem_of_nil in Hj). apply elem_of_list_singleton in Hj. by subst th'.
    + intros r' c' arg x' H. rewrite events_app in H. apply elem_of_app in H as [H|H].
      * destruct (IH2 _ _ _ _ H) as (en & H2 & H3). exists en. split; [apply elem_of_app; by left|done].
      * fold (done_by (w_now w) j (th_task th) (ev a x)) in H. rewrite events_done in H.
        assert (Hcr : calls a = Some (r', c')). { destruct a; cbn in H; try (by apply elem_of_nil in H); try (apply elem_of_list_singleton in H; discriminate H). apply elem_of_list_singleton in H. by injection H as -> -> _ _. }
        destruct (IH1 _ _ Hth ltac:(apply Hc; by rewrite Hcr)) as (r0 & c0 & arg0 & k0 & en & H1 & H2 & H3).
        assert (He : calls a = Some (r0, c0)). { clear -H1 Hp. rewrite Hp in H1. set (f := fun p : prog result => match p with Act b _ => calls b | Ret _ => None end). exact (f_equal f H1). }
        rewrite Hcr in He. injection He as <- <-. exists en. split; [apply elem_of_app; by left|done].
Qed.

(** ** What happens when the last reference goes *)
Lemma released_drop m t mid i v : released m t -> EvRefDec mid i v ∈ t -> (v <= 0)%Z ->
  exists p, p ∈ mplugins (pm_map m) /\ pl_inst p = i /\
    (EvOnce i false ∈ t \/ get_func ROnFree (pl_funcs p) = None \/ exists c x, EvCall ROnFree (mkCallee (pm_id m) (pl_name p) i c) ArgNone x ∈ t).
Proof.
  intros (ps & ts & -> & HF & Hperm & _) Hin Hv. apply elem_of_list_In, in_concat in Hin as (t1 & Ht1 & Hin). apply elem_of_list_In in Ht1, Hin.
  apply elem_of_list_lookup in Ht1 as (n & Hn). destruct (Forall2_lookup_r _ _ _ _ _ HF Hn) as (p & Hp & Hf).
  assert (Hsub : forall e, e ∈ t1 -> e ∈ concat ts).
  { intros e He. apply elem_of_list_In, in_concat. exists t1. split; apply elem_of_list_In; [by eapply elem_of_list_lookup_2|done]. }
  exists p. assert (Hi : pl_inst p = i).
  { destruct (freed_one_facts _ _ _ Hf) as (Hd & _). assert (Hx : i ∈ decrements t1) by (apply dec_in; by eexists _, _). rewrite Hd in Hx. by apply elem_of_list_singleton in Hx. }
  split_and!; [rewrite <- Hperm; by eapply elem_of_list_lookup_2|done|].
  destruct Hf as (v' & t' & -> & Hcs). assert (Hvv : v' = v).
  { apply elem_of_cons in Hin as [Hin|Hin]; [congruence|]. destruct Hcs as [[_ ->]|[_ [->|(t'' & -> & [[_ ->]|(c & x & _ & ->)])]]].
    - by apply elem_of_nil in Hin.
    - apply elem_of_list_singleton in Hin. done.
    - apply elem_of_list_singleton in Hin. done.
    - apply elem_of_cons in Hin as [Hin|Hin]; [done|]. apply elem_of_list_singleton in Hin. done. }
  subst v'. subst i. destruct Hcs as [[? _]|[_ [->|(t'' & -> & [[Hn' ->]|(c & x & _ & ->)])]]]; [lia| | |].
  - left. apply Hsub. right. left.
  - right. by left.
  - right. right. exists c, x. apply Hsub. right. right. left.
Qed.

(** every plugin opened so far has an OnFree that is not nil *)
Definition have_OnFree (t : list event) : Prop :=
  forall hd sym v, EvLookupSym hd "OnFree" (Some sym) ∈ t -> sym_value ROnFree sym = Some v -> gv_nil v = false.
Lemma looked_OnFree t p : have_OnFree t -> looked t p -> get_func ROnFree (pl_funcs p) <> None.
Proof.
  intros Hh Hl. destruct (Hl ROnFree) as (hd & sym & v & Hin & Hv & ->). unfold code_of. rewrite (Hh _ _ _ Hin Hv). done.
Qed.
Lemma have_sub t t' : (forall e, e ∈ t' -> e ∈ t) -> have_OnFree t -> have_OnFree t'.
Proof. intros Hs H hd sym v Hin. apply (H hd sym v). by apply Hs. Qed.

Lemma opened_in_looked h p : opened_in h p -> looked h p.
Proof.
  intros (s & p1 & d & hd & ans & c1 & c2 & ta & tz & -> & _ & _ & _ & _ & _ & _ & Hf & _) r. destruct (Hf r) as (sym & v & Hs & Hv & Hg).
  exists hd, sym, v. split_and!; [|done..]. rewrite !elem_of_app. right. left. unfold open_trace.
  apply elem_of_app. right. apply elem_of_app. left. apply elem_of_list_fmap. exists r. split; [by rewrite Hs|]. destruct r; unfold funcItems; apply elem_of_list_In; cbn; tauto.
Qed.

(** the plugins a load works with have been looked up *)
Lemma gath_looked o h cur s t1 s1 ps ks s' q : o_static o = None -> history o h cur -> gath (source o) (old_seen o cur) s t1 s1 ps ks -> core_map s' = core_map s1 ->
  q ∈ mplugins (pm_map s') -> looked (h ++ t1) q.
Proof.
  intros Hst HH HG Hcore Hq.
  assert (Hl : exists p, looked (h ++ t1) p /\ core q = core p).
  { destruct (gath_members _ _ _ _ _ _ _ _ _ HG Hcore Hq) as [(_ & p & Hp & Hc)|(_ & p & Hp & Hc)]; exists p; (split; [|done]).
    - destruct (g_src _ _ _ _ _ _ _ HG) as (names & _ & HF). apply elem_of_list_lookup in Hp as (n & Hn). destruct (Forall2_lookup_r _ _ _ _ _ HF Hn) as (nm & _ & Hs).
      unfold source in Hs. rewrite Hst in Hs. destruct Hs as (_ & _ & Hs). eapply looked_mono; [|exact Hs]. intros e He. apply elem_of_app. by right.
    - destruct (g_kept _ _ _ _ _ _ _ HG _ Hp) as (_ & om & q' & note & Hcur & Hq' & ->). unfold old_seen in Hcur. rewrite Hst in Hcur.
      pose proof (history_sound _ _ _ Hst HH _ Hcur) as [_ Hs]. apply elem_mplugins in Hq' as (k & Hk). destruct (Hs _ _ Hk) as (_ & _ & _ & _ & _ & _ & Ho & _).
      apply opened_in_looked in Ho. intros r. destruct (Ho r) as (hd & sym & v & H1 & H2 & H3). exists hd, sym, v. split_and!; [apply elem_of_app; by left|done|done]. }
  destruct Hl as (p & Hl & Hc). intros r. destruct (Hl r) as (hd & sym & v & H1 & H2 & H3). exists hd, sym, v. split_and!; [done..|]. rewrite <- H3. f_equal. exact (f_equal pl_funcs Hc).
Qed.

Lemma no_dec t mid i v : decrements t = [] -> EvRefDec mid i v ∉ t.
Proof. intros Hd Hin. assert (i ∈ decrements t) by (apply dec_in; by eexists _, _). rewrite Hd in *. by apply elem_of_nil in H. Qed.

Lemma life_core data s t s' ob : pm_ordered s = [] -> pm_livefuncs s = ∅ -> pm_livetypes s = ∅ -> exec (lifecycle data s) t (s', ob) -> core_map s' = core_map s.
Proof. intros H1 H2 H3 HE. by apply exec_lifecycle in HE as (? & ? & ? & ? & ? & _ & _ & _ & _ & _ & _ & _ & _ & ? & _). Qed.

(** A load that drops the last reference to a plugin calls its OnFree (a failed load). *)
Lemma load_frees o h cur a t r mid i v : next_call o h cur (api_prog o a) t r -> o_static o = None -> have_OnFree (h ++ t) -> EvRefDec mid i v ∈ t -> (v <= 0)%Z ->
  EvOnce i false ∈ t \/ exists mid' name c x, EvCall ROnFree (mkCallee mid' name i c) ArgNone x ∈ t.
Proof.
  intros HN Hst Hh Hin Hv.   assert (HH : history o h cur) by apply HN.
  assert (Hfin : forall m tf, released m tf -> (forall e, e ∈ tf -> e ∈ t) -> EvRefDec mid i v ∈ tf -> (forall q, q ∈ mplugins (pm_map m) -> looked (h ++ t) q) ->
     EvOnce i false ∈ t \/ exists mid' name c x, EvCall ROnFree (mkCallee mid' name i c) ArgNone x ∈ t).
  { intros m tf Hrel Hsub Hf Hl. destruct (released_drop _ _ _ _ _ Hrel Hf Hv) as (p & Hp & _ & [Ho|[Hn|(c & x & Hc)]]).
    - left. by apply Hsub.
    - exfalso. by apply (looked_OnFree _ _ Hh (Hl _ Hp)).
    - right. eexists _, _, _, _. apply Hsub. exact Hc. }
  assert (Hmono : forall t1 q, (forall e, e ∈ t1 -> e ∈ t) -> looked (h ++ t1) q -> looked (h ++ t) q).
  { intros t1 q Hs. apply looked_mono. intros e He. apply elem_of_app in He as [He|He]; apply elem_of_app; auto. }
  pose proof (next_run _ _ _ _ _ _ HN) as HL. clear HN.
  assert (Hsd : forall u, silent u -> EvRefDec mid i v ∉ u) by (intros u Hu; apply no_dec; apply (rf_dec _ _ _ _ _ (refs_silent _ Hu))).
  destruct HL as [t' r' H1 H2 H3
    |ta s t1 tl s' ps ks tf tz e Hb Sa Sz Na Nz HG HO HR He Hpr
    |ta s t1 s1 t2 s' ob ps ks tf tz e Hb Sa Sz Na Nz HG HE Hvv HR He Hpr
    |ta s t1 s1 t2 new ps ks tc tf tz e Hb Sa Sz Sc Na Nz Nc HG HE HR He Hpr
    |ta s t1 s1 t2 new ps ks tz d Hb Sa Sz Na HP HU HG HE Hpr].
  - by apply Hsd in Hin.
  - pose proof (no_dec _ mid i v (g_dec _ _ _ _ _ _ _ HG)) as N1. destruct HO as (_ & _ & Hd & _). pose proof (no_dec _ mid i v Hd) as N2.
    rewrite !elem_of_app in Hin. destruct Hin as [Hin|[Hin|[Hin|[Hin|Hin]]]]; [by apply Hsd in Hin|done|done| |by apply Hsd in Hin].
    apply (Hfin s' tf HR); [|done|]; [intros x Hx; rewrite !elem_of_app; tauto|]. intros q Hq. apply (Hmono t1); [intros x Hx; rewrite !elem_of_app; tauto|].
    by apply (gath_looked o h cur s t1 s' ps ks s').
  - pose proof (no_dec _ mid i v (g_dec _ _ _ _ _ _ _ HG)) as N1.
    pose proof (no_dec _ mid i v (rf_dec _ _ _ _ _ (life_refs _ _ _ _ _ (g_ordered _ _ _ _ _ _ _ HG) (g_funcs _ _ _ _ _ _ _ HG) (g_types _ _ _ _ _ _ _ HG) HE))) as N2.
    rewrite !elem_of_app in Hin. destruct Hin as [Hin|[Hin|[Hin|[Hin|Hin]]]]; [by apply Hsd in Hin|done|done| |by apply Hsd in Hin].
    apply (Hfin s' tf HR); [|done|]; [intros x Hx; rewrite !elem_of_app; tauto|]. intros q Hq. apply (Hmono t1); [intros x Hx; rewrite !elem_of_app; tauto|].
    apply (gath_looked o h cur s t1 s1 ps ks s'); try done. eapply life_core; [apply HG..|exact HE].
  - pose proof (no_dec _ mid i v (g_dec _ _ _ _ _ _ _ HG)) as N1.
    pose proof (no_dec _ mid i v (rf_dec _ _ _ _ _ (life_refs _ _ _ _ _ (g_ordered _ _ _ _ _ _ _ HG) (g_funcs _ _ _ _ _ _ _ HG) (g_types _ _ _ _ _ _ _ HG) HE))) as N2.
    rewrite !elem_of_app in Hin. destruct Hin as [Hin|[Hin|[Hin|[Hin|[Hin|Hin]]]]]; [by apply Hsd in Hin|done|done|by apply Hsd in Hin| |by apply Hsd in Hin].
    apply (Hfin new tf HR); [|done|]; [intros x Hx; rewrite !elem_of_app; tauto|]. intros q Hq. apply (Hmono t1); [intros x Hx; rewrite !elem_of_app; tauto|].
    apply (gath_looked o h cur s t1 s1 ps ks new); try done. eapply life_core; [apply HG..|exact HE].
  - pose proof (no_dec _ mid i v (g_dec _ _ _ _ _ _ _ HG)) as N1.
    pose proof (no_dec _ mid i v (rf_dec _ _ _ _ _ (life_refs _ _ _ _ _ (g_ordered _ _ _ _ _ _ _ HG) (g_funcs _ _ _ _ _ _ _ HG) (g_types _ _ _ _ _ _ _ HG) HE))) as N2.
    rewrite !elem_of_app in Hin. destruct Hin as [Hin|[Hin|[Hin|Hin]]]; [by apply Hsd in Hin|done|done|by apply Hsd in Hin].
Qed.

(** the plugins of a published manager have been looked up *)
Lemma published_looked o h cur m q : o_static o = None -> history o h cur -> fresh_objects h -> published h m -> q ∈ mplugins (pm_map m) -> looked h q.
Proof.
  intros Hst HH HF Hm Hq. destruct (published_origin _ _ _ _ HH HF Hm) as (h0 & cur0 & a & t & r & h1 & -> & HN & Ht).
    destruct (run_pub _ _ _ _ _ _ _ (next_run _ _ _ _ _ _ HN) Ht) as (ta & s & t1 & s1 & t2 & ps & ks & tz & d & -> & _ & _ & _ & _ & HG & HE).
  assert (Hl : looked (h0 ++ t1) q). { apply (gath_looked o h0 cur0 s t1 s1 ps ks m); try done; [apply HN|]. eapply life_core; [apply HG..|exact HE]. }
  eapply looked_mono; [|exact Hl]. intros e He. rewrite !elem_of_app in *. tauto.
Qed.

(** ** C18 *)
(** everything has finished *)
Definition quiescent (w : world) : Prop := forall j th, w_threads w !! j = Some th -> finished th.

Lemma quiescent_lock o dir w : reach o dir w -> quiescent w -> me_lock (w_mem w) = None.
Proof.
  intros HR Hq. destruct (me_lock (w_mem w)) as [j|] eqn:Hlk; [|done]. destruct (running_call _ _ _ _ HR Hlk) as (th & a & t' & r & Hth & _ & Hnf & _).
  exfalso. by apply Hnf, (Hq j).
Qed.

Lemma finished_free o dir w j th m d : reach o dir w -> w_threads w !! j = Some th -> th_task th = TFree m d -> finished th -> deps_ready (pm_map m) (pm_ordered m) ->
  exists t, events_of j (w_hist w) = EvSleep (pm_id m) d :: t /\ released m t.
Proof.
  intros HR Hth Ht (x & Hx) Hrd. pose proof (b_thread _ _ _ (reach_basic _ _ _ HR) _ _ Hth) as HP. rewrite Hx, Ht in HP. apply partial_ret in HP.
  destruct (free_task _ _ _ _ _ HP Hrd) as (t & Heq & Hrel & _). eauto.
Qed.

Lemma quiescent_refs o dir w i : reach o dir w -> o_static o = None -> quiescent w -> i ∈ admitted (load_events (w_hist w)) ->
  (forall m, me_current (w_mem w) = Some m -> i ∉ insts m) -> refs_of (w_mem w) i = 0%Z.
Proof.
  intros HR Hst Hq Hi Hcur. assert (HD : distinct_registrations o) by (intros st Hs; congruence).
  pose proof (quiescent_lock _ _ _ HR Hq) as Hlk. destruct (reach_tokens _ _ _ HR HD) as (H & rest & x & HT).
  destruct (tk_free _ _ _ _ _ HT Hlk) as [Hx Hrest]. rewrite (tk_refs _ _ _ _ _ HT), (Hrest Hst).
  assert (Hh : held w i = 0%Z).
  { unfold held. rewrite (sum_over_ext _ (fun _ => 0%Z)); [clear; induction (frees (w_threads w)); cbn; lia|]. intros [j m] Hy. cbn [fst snd].
    apply frees_in in Hy as Hy'. destruct Hy' as (th & d & Hth & Ht).
    assert (Hm : m ∈ stores H). { apply (tk_stores _ _ _ _ _ HT). apply elem_of_app. left. apply elem_of_list_fmap. by exists (j, m). }
    destruct (lg_ready _ _ _ (tk_ledger _ _ _ _ _ HT) _ Hm) as [_ Hrd].
    destruct (finished_free _ _ _ _ _ _ _ HR Hth Ht (Hq _ _ Hth) Hrd) as (t & -> & Hrel). destruct (released_wt i _ _ Hrel) as [Hw _]. cbn [wt weight]. lia. }
  assert (Hr : sum_has i (option_list (me_current (w_mem w))) = 0%Z).
  { destruct (me_current (w_mem w)) as [m|]; [|done]. change (cnt i (insts m) + 0 = 0)%Z. rewrite cnt_out; [done|]. by apply Hcur. }
  rewrite Hh, Hr, Hx. destruct (tk_ext _ _ _ _ _ HT) as (t' & Heq & Hz). rewrite (Hz Hlk), (right_id_L [] (++)) in Heq.
  pose proof (lg_extra _ _ _ (tk_ledger _ _ _ _ _ HT) i) as He. pose proof (tk_fresh _ _ _ _ _ HT) as Hf. unfold fresh_objects in Hf. rewrite Heq in He, Hf.
  pose proof (cnt_nodup i _ Hf). apply cnt_in in Hi. lia.
Qed.

Lemma load_sub h e : e ∈ load_events h -> e ∈ events h.
Proof. intros (en & a & H1 & H2 & H3)%load_events_in. apply events_in. by exists en. Qed.

(** All goroutines have finished; swapper in dynamic mode; no plugin has a nil OnFree.  Then every plugin that is not in
    the current manager has been freed, exactly once; no plugin of the current manager has been freed. *)
Theorem C18_superseded_plugins_are_freed o dir w : reach o dir w -> o_static o = None -> quiescent w -> have_OnFree (events (w_hist w)) ->
  (forall i, i ∈ admitted (load_events (w_hist w)) -> (forall m p, me_current (w_mem w) = Some m -> holds m p -> pl_inst p <> i) ->
     (exists mid name c x, EvCall ROnFree (mkCallee mid name i c) ArgNone x ∈ events (w_hist w)) /\ i ∈ begun ROnFree (w_hist w)) /\
  NoDup (begun ROnFree (w_hist w)) /\
  (forall m p, me_current (w_mem w) = Some m -> holds m p -> pl_inst p ∉ begun ROnFree (w_hist w)).
Proof.
  intros HR Hst Hq Hh. assert (HD : distinct_registrations o) by (intros st Hs; congruence). pose proof (reach_basic _ _ _ HR) as HB.
  pose proof (quiescent_lock _ _ _ HR Hq) as Hlk. split_and!.
  2:{ by apply (C16_OnFree_at_most_once o dir). }
  2:{ intros m p Hm Hp Hb. pose proof (begun_refs _ _ _ _ HR HD Hb).
      assert (Hmid : ~ midway w) by (intros (j & Hj & _); congruence). pose proof (current_alive _ _ _ _ _ HR HD Hm Hmid (holds_insts _ _ Hp)). lia. }
  intros i Hi Hcur.
  assert (Hcall : exists mid name c x, EvCall ROnFree (mkCallee mid name i c) ArgNone x ∈ events (w_hist w)).
  2:{ split; [done|]. destruct Hcall as (mid & name & c & x & Hc). destruct (call_begun _ _ _ HR) as [_ Hb]. destruct (Hb _ _ _ _ Hc) as (en & Hen & Hw).
      unfold begun. apply elem_of_list_omap. exists en. rewrite Hw. split; [done|]. by rewrite decide_True. }
  destruct (reach_tokens _ _ _ HR HD) as (H & rest & x & HT). destruct (tk_ext _ _ _ _ _ HT) as (t' & Heq & Hz). rewrite (Hz Hlk), (right_id_L [] (++)) in Heq. subst H.
  assert (Hcur' : forall m, me_current (w_mem w) = Some m -> i ∉ insts m).
  { intros m Hm Hin. assert (Hpub : published (load_events (w_hist w)) m).
    { destruct (reach_serial _ _ _ HR) as (h & HS). pose proof (C20_loads_are_serialised _ _ _ HR) as (order & _ & _ & _ & Hcu & _). rewrite Hm in Hcu.
      eapply history_current; [apply (tk_hist _ _ _ _ _ HT)|done]. }
    apply stores_in in Hpub. destruct (lg_ready _ _ _ (tk_ledger _ _ _ _ _ HT) _ Hpub) as [_ (_ & _ & _ & Hperm & _)].
    destruct (insts_holds _ _ Hperm Hin) as (p & Hp & Hpi). by apply (Hcur m p). }
  pose proof (quiescent_refs _ _ _ _ HR Hst Hq Hi Hcur') as Hrefs.
  assert (Hcr : i ∈ created (load_events (w_hist w))).
  { pose proof (lg_extra _ _ _ (tk_ledger _ _ _ _ _ HT) i). apply cnt_in in Hi. apply cnt_in. lia. }
  assert (Hdr : dropped i (events (w_hist w))).
  { apply (reach_dropped _ _ _ _ HR HD); [|lia]. rewrite <- (created_loads _ _ _ HB) in Hcr. apply elem_of_list_omap in Hcr as (e & He & Hn). destruct e; try done. injection Hn as ->. by eapply born_mentions. }
  destruct Hdr as (mid & v & Hin & Hv). apply events_in in Hin as (en & Hen & Hw).
  destruct (b_index _ _ _ HB en Hen) as (th & Hth & Hta). set (j := en_thread en) in *.
  assert (Hej : EvRefDec mid i v ∈ events_of j (w_hist w)) by (apply events_of_in; by exists en).
  assert (Hno : EvOnce i false ∉ events_of j (w_hist w)). { intros Ho. apply (proj2 (reach_onces _ _ _ HR HD) i). by eapply events_of_sub. }
  destruct (is_load (en_task en)) eqn:Hl.
  - destruct (en_task en) as [a| | | | |] eqn:Ht; try done. destruct (Hq _ _ Hth) as (res & Hres).
    destruct (finished_call _ _ _ _ _ _ _ HR Hth Hta Hres) as (r & _ & _ & [[Hz' _]|Hu]); [rewrite Hz' in Hej; by apply elem_of_nil in Hej|].
    apply elem_of_list_split in Hu as (l1 & l2 & Hu). destruct (complete_call _ _ _ _ _ _ HR Hu) as (th' & a' & r' & Hth' & Ha' & _ & HN).
    assert (Hsub : forall e, e ∈ calls_of (w_hist w) l1 ++ events_of j (w_hist w) -> e ∈ events (w_hist w)).
    { intros e He. apply elem_of_app in He as [He|He]; [|by eapply events_of_sub]. apply elem_of_list_In, in_concat in He as (u & Hu1 & Hu2). apply in_map_iff in Hu1 as (k & <- & _).
      eapply events_of_sub; [exact HR|]. by apply elem_of_list_In. }
    destruct (load_frees _ _ _ _ _ _ _ _ _ HN Hst (have_sub _ _ Hsub Hh) Hej Hv) as [?|(mid' & name & c & y & Hc)]; [done|].
    exists mid', name, c, y. by eapply events_of_sub.
  - assert (Hdec : (exists m' dl, en_task en = TFree m' dl) \/ ~ (exists m' dl, en_task en = TFree m' dl)).
    { destruct (en_task en); try (right; intros (? & ? & ?); done). left. by eexists _, _. }
    destruct Hdec as [(m' & dl & Ht)|Hnf].
    2:{ exfalso. pose proof (b_thread _ _ _ HB _ _ Hth) as HPt. rewrite Hta in HPt. eapply (partial_forall _ _ _ (fun e => weight i e = 0%Z)) in HPt.
        2:{ intros t r. apply refless_task; [done|]. intros m' dl Ht. apply Hnf. by exists m', dl. }
        rewrite Forall_forall in HPt. specialize (HPt _ Hej). cbn in HPt. by rewrite decide_True in HPt. }
    rewrite Ht in Hta. assert (Hm : m' ∈ stores (load_events (w_hist w))).
    { apply (tk_stores _ _ _ _ _ HT). apply elem_of_app. left. apply elem_of_list_fmap. exists (j, m'). split; [done|]. apply frees_in. by exists th, dl. }
    destruct (lg_ready _ _ _ (tk_ledger _ _ _ _ _ HT) _ Hm) as [_ Hrd].
    destruct (finished_free _ _ _ _ _ _ _ HR Hth Hta (Hq _ _ Hth) Hrd) as (t & Htr & Hrel). rewrite Htr in Hej, Hno. apply elem_of_cons in Hej as [?|Hej]; [done|].
    destruct (released_drop _ _ _ _ _ Hrel Hej Hv) as (p & Hp & Hpi & [Ho|[Hn|(c & y & Hc)]]).
    + exfalso. apply Hno. by right.
    + exfalso. apply (looked_OnFree (load_events (w_hist w)) p); [|apply (published_looked o _ _ m' p Hst (tk_hist _ _ _ _ _ HT) (tk_fresh _ _ _ _ _ HT)); [by apply stores_in|done]|done].
      eapply have_sub; [|exact Hh]. apply load_sub.
    + exists (pm_id m'), (pl_name p), c, y. eapply events_of_sub; [exact HR|]. rewrite Htr. by right.
Qed.
End Props.

(** ** A concrete case *)
Definition quiescent_b (w : world) : bool := forallb (fun th => match th_prog th with Ret _ => true | _ => false end) (w_threads w).
Lemma quiescent_check w : quiescent_b w = true -> quiescent w.
Proof.
  intros H j th Hth. unfold quiescent_b in H. rewrite forallb_forall in H. specialize (H th). apply elem_of_list_lookup_2 in Hth. apply elem_of_list_In in Hth. specialize (H Hth).
  unfold finished. destruct (th_prog th); [by eexists|done].
Qed.
Definition have_OnFree_b (t : list event) : bool :=
  forallb (fun e => match e with EvLookupSym _ s (Some sym) => if String.eqb s "OnFree" then match sym_value ROnFree sym with Some v => negb (gv_nil v) | None => true end else true | _ => true end) t.
Lemma have_OnFree_check t : have_OnFree_b t = true -> have_OnFree t.
Proof.
  intros H hd sym v Hin Hv. unfold have_OnFree_b in H. rewrite forallb_forall in H. specialize (H (EvLookupSym hd "OnFree" (Some sym))). apply elem_of_list_In in Hin. specialize (H Hin).
  cbn in H. rewrite Hv in H. by apply negb_true_iff in H.
Qed.
Example C18_case : reach dyn "/p" busy /\ o_static dyn = None /\ quiescent busy /\ have_OnFree (events (w_hist busy)) /\
  admitted (load_events (w_hist busy)) = [1%N; 2%N; 3%N; 4%N; 5%N; 6%N] /\ current_plugins busy = [("a", 1%N); ("b", 5%N); ("c", 6%N)].
Proof.
  split_and!; [apply busy_reach|done|apply quiescent_check; vm_compute; reflexivity|apply have_OnFree_check; vm_compute; reflexivity|vm_compute; reflexivity..].
Qed.
Print Assumptions C18_superseded_plugins_are_freed.
