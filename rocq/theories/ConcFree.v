(** When references are dropped and OnFree is called, in every reachable world *)
From Verif Require Export ConcTokens OnceProofs.

Section Proofs.
Context {E : GoEnv}.

(** ** Reference counters of instances in use *)
Lemma held_parts o dir w H rest x i y : reach o dir w -> tokens o w H rest x -> y ∈ frees (w_threads w) ->
  (0 <= has i (snd y) + wt i (events_of (fst y) (w_hist w)))%Z.
Proof.
  intros HR HT Hy. pose proof (reach_basic _ _ _ HR) as HB. destruct y as [j m]. cbn [fst snd].
  pose proof (proj1 (frees_in _ _ _) Hy) as (th & d & Hth & Ht). pose proof (b_thread _ _ _ HB _ _ Hth) as Hp. rewrite Ht in Hp.
  assert (Hm : m ∈ stores H). { apply (tk_stores _ _ _ _ _ HT). apply elem_of_app. left. apply elem_of_list_fmap. by exists (j, m). }
  destruct (lg_ready _ _ _ (tk_ledger _ _ _ _ _ HT) m Hm) as [_ Hr]. pose proof (free_prefix_wt _ _ _ i _ _ Hp Hr). lia.
Qed.
Lemma held_nonneg o dir w H rest x i : reach o dir w -> tokens o w H rest x -> (0 <= held w i)%Z.
Proof. intros HR HT. apply sum_over_nonneg. intros y Hy. by eapply held_parts. Qed.
Lemma refs_nonneg o dir w i : reach o dir w -> distinct_registrations o -> (0 <= refs_of (w_mem w) i)%Z.
Proof.
  intros HR HD. destruct (reach_tokens _ _ _ HR HD) as (H & rest & x & HT). rewrite (tk_refs _ _ _ _ _ HT).
  pose proof (held_nonneg _ _ _ _ _ _ i HR HT). pose proof (sum_has_nonneg i rest). pose proof (tk_x _ _ _ _ _ HT i). lia.
Qed.
Lemma current_alive o dir w m i : reach o dir w -> distinct_registrations o -> me_current (w_mem w) = Some m -> ~ midway w -> i ∈ insts m ->
  (1 <= refs_of (w_mem w) i)%Z.
Proof.
  intros HR HD Hc Hm Hi. destruct (reach_tokens _ _ _ HR HD) as (H & rest & x & HT). rewrite (tk_refs _ _ _ _ _ HT).
  destruct (tk_cur _ _ _ _ _ HT m Hc) as [Hin|?]; [|done]. apply cnt_in in Hi. fold (has i m) in Hi.
  pose proof (held_nonneg _ _ _ _ _ _ i HR HT). pose proof (sum_has_in i m rest Hin). pose proof (tk_x _ _ _ _ _ HT i). lia.
Qed.

(** ** The call in progress *)
Lemma load_locked o dir w h j th a X (b : act X) k x e : reach o dir w -> serial o w h ->
  w_threads w !! j = Some th -> th_task th = TLoad a -> th_prog th = Act b k -> valid b x -> ev b x = [e] -> e <> EvLock ->
  me_lock (w_mem w) = Some j.
Proof.
  intros HR HS Hth Ht Hp Hv He Hne. pose proof (b_thread _ _ _ (reach_basic _ _ _ HR) _ _ Hth) as HP. rewrite Hp in HP.
  apply (partial_act _ _ _ _ x) in HP; [|done]. rewrite Ht, He in HP. destruct (load_prefix _ _ _ _ None [] HP) as (t' & r & Hex & _).
  rewrite <- (assoc_L (++)) in Hex. destruct (lock_shape _ _ _ _ _ _ _ Hex eq_refl) as [[_ ?]|Hsh]; [done|].
  destruct (decide (me_lock (w_mem w) = Some j)) as [|Hno]; [done|]. exfalso.
  assert (Hu : exists u, events_of j (w_hist w) = EvLock :: u /\ Forall unlocking u) by (destruct Hsh as [(u & ? & ? & _)|(u & ? & ? & _)]; by exists u).
  destruct Hu as (u & Heq & Hu). destruct (s_idle _ _ _ HS j th a Hth Ht Hno) as [Hz|Hin]; [by rewrite Heq in Hz|].
  rewrite Heq in Hin. apply elem_of_cons in Hin as [?|Hin]; [done|]. rewrite Forall_forall in Hu. by apply Hu in Hin.
Qed.
Lemma load_running o dir w h j th a X (b : act X) k x : reach o dir w -> serial o w h ->
  w_threads w !! j = Some th -> th_task th = TLoad a -> th_prog th = Act b k -> valid b x -> me_lock (w_mem w) = Some j ->
  created (ev b x) = [] -> (forall y, EvLoadCurrent y ∉ ev b x) ->
  load_events (w_hist w) = h ++ events_of j (w_hist w) /\
  exists t' r, next_call o h (after None h) (api_prog o a) (events_of j (w_hist w) ++ ev b x ++ t') r.
Proof.
  intros HR HS Hth Ht Hp Hv Hlock Hc Hcur. pose proof (reach_basic _ _ _ HR) as HB. pose proof (b_thread _ _ _ HB _ _ Hth) as HP. rewrite Hp in HP.
  destruct (s_held _ _ _ HS j Hlock) as (th' & a' & Hth' & Ht' & Hload & (t1 & Heq & Hun & Hsaw)). simplify_eq.
  split; [done|]. apply (partial_act _ _ _ _ x) in HP; [|done]. rewrite Ht' in HP.
  destruct (load_prefix _ _ _ _ (after None h) (created (events (w_hist w))) HP) as (t' & r & He & Hs' & Hn' & Hnew).
  exists t', r. rewrite <- (assoc_L (++)) in He. assert (Ha : a' = a) by congruence. subst a'. split_and!; [by apply HS|apply load_call_api; by exists a|done|..].
  - intros y Hy. unfold saw_current in Hy. rewrite !elem_of_app in Hy. destruct Hy as [Hy|[Hy|Hy]]; [by apply Hsaw|by apply Hcur in Hy|by apply Hs'].
  - unfold fresh_objects. rewrite (assoc_L (++)), created_app, <- Hload, created_app, Hc, app_nil_l. apply NoDup_app. split_and!; [|..|done].
    + rewrite <- (created_loads _ _ _ HB). apply (b_created _ _ _ HB).
    + intros i Hi Hi'. apply Hnew in Hi'. by rewrite (created_loads _ _ _ HB) in Hi'.
Qed.

(** only instances in use get another reference *)
Lemma inc_alive o dir w j th mid i k : reach o dir w -> distinct_registrations o -> w_threads w !! j = Some th -> th_prog th = Act (ARefInc mid i) k ->
  (1 <= refs_of (w_mem w) i)%Z.
Proof.
  intros HR HD Hth Hp. destruct (reach_serial _ _ _ HR) as (h & HS). pose proof (reach_basic _ _ _ HR) as HB. pose proof (b_thread _ _ _ HB _ _ Hth) as HP. rewrite Hp in HP.
  destruct (is_load (th_task th)) eqn:Hl.
  - destruct (th_task th) as [a| | | | |] eqn:Ht; try done. clear Hl.
    assert (Hlock : me_lock (w_mem w) = Some j) by (eapply (load_locked _ _ _ _ _ _ _ _ _ _ 0%Z); by eauto).
    destruct (load_running _ _ _ _ _ _ _ _ _ _ 0%Z HR HS Hth Ht Hp I Hlock eq_refl) as (Hload & t' & r & HN).
    { intros y Hy. by apply elem_of_list_singleton in Hy. }
    pose proof (call_accounts _ _ _ _ _ _ HN HD) as HA.
    destruct (ac_inc _ _ _ HA i) as (Hst & om & Hom & Hi).
    { unfold increments. rewrite !omap_app, !elem_of_app. right. left. cbn. by apply elem_of_list_singleton. }
    assert (Hnp : no_publish (events_of j (w_hist w))).
    { destruct (call_shape _ _ _ _ _ _ HN) as [Hnp|(tc & m & tz & Heq & Hnc & Hez)]; [by apply Forall_app in Hnp as [? _]|].
      symmetry in Heq. apply app_eq_inv in Heq as [(k' & -> & _)|(k' & Hk & Hk')]; [by apply Forall_app in Hnc as [? _]|].
      exfalso. assert (Hsil : silent (pubs o (after None h) m ++ tz)) by (apply silent_app; [apply pubs_facts|by apply ending_silent]).
      rewrite Hk' in Hsil. destruct Hsil as (_ & Hsil & _). unfold increments in Hsil. rewrite !omap_app in Hsil. cbn in Hsil.
      apply app_eq_nil in Hsil as [_ Hsil]. done. }
    eapply (current_alive _ _ _ om); try done.
    + by rewrite (after_loads _ _ _ HB), Hload, after_app, (no_publish_after _ _ Hnp).
    + intros (j' & Hj' & Hr & _). rewrite Hlock in Hj'. injection Hj' as <-. by destruct (no_publish_stores _ Hnp) as [_ ?].
  - exfalso. apply (partial_act _ _ _ _ 0%Z) in HP; [|done]. eapply (partial_forall _ _ _ other_event) in HP; [|intros t r; by apply other_task].
    apply Forall_app in HP as [_ HP]. by apply Forall_cons in HP as [? _].
Qed.

(** ** Dead instances stay dead *)
Definition dropped (i : inst) (t : list event) : Prop := exists mid v, EvRefDec mid i v ∈ t /\ (v <= 0)%Z.
Lemma dropped_app i t1 t2 : dropped i (t1 ++ t2) <-> dropped i t1 \/ dropped i t2.
Proof.
  split; [intros (mid & v & Hin & Hv); apply elem_of_app in Hin as [?|?]; [left|right]; by exists mid, v|].
  intros [(mid & v & Hin & Hv)|(mid & v & Hin & Hv)]; exists mid, v; (split; [apply elem_of_app; tauto|done]).
Qed.
Lemma reach_dropped o dir w i : reach o dir w -> distinct_registrations o -> me_refs (w_mem w) !! i <> None ->
  (refs_of (w_mem w) i <= 0)%Z <-> dropped i (events (w_hist w)).
Proof.
  intros HR HD. induction HR as [|w w' HR IH HS]; [by intros []|]. pose proof (reach_basic _ _ _ HR) as HB.
  destruct HS as [w k Hk|w now Hn|w j th X a k r c Hth Hp Hc Hcl|w j th X a k x Hth Hp Hc Hv Ha Haw]; cbn [w_mem w_hist] in *; [done|done|..].
  - rewrite events_app. cbn [events omap list_omap did en_what]. by rewrite (right_id_L [] (++)).
  - assert (Hev : events (w_hist w ++ done_by (w_now w) j (th_task th) (ev a x)) = events (w_hist w) ++ ev a x) by (by rewrite events_app, events_done).
    unfold done_by in Hev. rewrite Hev, dropped_app. clear Hev.
    assert (Hsame : (forall mid v, EvRefDec mid i v ∉ ev a x) -> (forall mid v, ev a x <> [EvRefInc mid i v]) -> (forall mid n, ev a x <> [EvNewInst mid n i]) ->
      me_refs (update j (w_mem w) a x) !! i = me_refs (w_mem w) !! i).
    { intros H1 H2 H3. destruct a; cbn in *; try done; rewrite lookup_insert_ne; try done; intros ->; [by eapply H3|by eapply H2|]. eapply H1. by apply elem_of_list_singleton. }
    destruct (decide (ev a x = [])) as [Hz|Hnz].
    { rewrite Hz. intros Hb. rewrite Hsame in Hb by (rewrite Hz; try done; intros; apply not_elem_of_nil).
      unfold refs_of. rewrite Hsame by (rewrite Hz; try done; intros; apply not_elem_of_nil). rewrite IH by done.
      split; [by left|intros [?|(? & ? & H & _)]; [done|by apply elem_of_nil in H]]. }
    destruct a; cbn [ev] in *; try done;
      try (intros Hb; rewrite Hsame in Hb by (try done; intros ? ? H; by apply elem_of_list_singleton in H);
        unfold refs_of; rewrite Hsame by (try done; intros ? ? H; by apply elem_of_list_singleton in H); rewrite IH by done;
        split; [by left|intros [?|(? & ? & H & _)]; [done|by apply elem_of_list_singleton in H]]).
    + (* new *) destruct (decide (x = i)) as [->|Hne].
      * intros _. unfold refs_of. cbn. rewrite lookup_insert. cbn. cbn in Ha. split; [lia|]. intros [(mid' & v & Hin & _)|(? & ? & H & _)]; [|by apply elem_of_list_singleton in H].
        pose proof (b_unborn _ _ _ HB i Ha) as Hno. rewrite Forall_forall in Hno. by apply Hno in Hin.
      * intros Hb. rewrite Hsame in Hb by (try done; try (intros ? ? H; by apply elem_of_list_singleton in H); intros ? ? [= ? ? ?]; congruence).
        unfold refs_of; rewrite Hsame by (try done; try (intros ? ? H; by apply elem_of_list_singleton in H); intros ? ? [= ? ? ?]; congruence). rewrite IH by done.
        split; [by left|intros [?|(? & ? & H & _)]; [done|by apply elem_of_list_singleton in H]].
    + (* inc *) destruct (decide (i0 = i)) as [->|Hne].
      * intros _. pose proof (inc_alive _ _ _ _ _ _ _ _ HR HD Hth Hp) as Hal. unfold refs_of at 1. cbn. rewrite lookup_insert. cbn. cbn in Ha. split; [lia|].
        intros [Hd|(? & ? & H & _)]; [|by apply elem_of_list_singleton in H]. apply IH in Hd; [lia|]. intros Hz. unfold refs_of in Hal. rewrite Hz in Hal. cbn in Hal. lia.
      * intros Hb. rewrite Hsame in Hb by (try done; try (intros ? ? H; by apply elem_of_list_singleton in H); intros ? ? [= ? ? ?]; congruence).
        unfold refs_of; rewrite Hsame by (try done; try (intros ? ? H; by apply elem_of_list_singleton in H); intros ? ? [= ? ? ?]; congruence). rewrite IH by done.
        split; [by left|intros [?|(? & ? & H & _)]; [done|by apply elem_of_list_singleton in H]].
    + (* dec *) destruct (decide (i0 = i)) as [->|Hne].
      * intros _. unfold refs_of at 1. cbn. rewrite lookup_insert. cbn. cbn in Ha. split.
        -- intros Hx. right. exists mid, x. split; [by apply elem_of_list_singleton|done].
        -- intros [Hd|(mid' & v & H & Hv')]; [|apply elem_of_list_singleton in H; by injection H as -> ->].
           destruct (me_refs (w_mem w) !! i) eqn:Hr.
           ++ apply IH in Hd; [lia|done].
           ++ destruct Hd as (mid' & v & Hin & _). pose proof (b_unborn _ _ _ HB i Hr) as Hno. rewrite Forall_forall in Hno. by apply Hno in Hin.
      * assert (Hnd : forall mid' v, EvRefDec mid' i v ∉ [EvRefDec mid i0 x]) by (intros ? ? H; apply elem_of_list_singleton in H; by injection H as _ -> _).
        intros Hb. rewrite Hsame in Hb by done. unfold refs_of; rewrite Hsame by done. rewrite IH by done.
        split; [by left|intros [?|(? & ? & H & _)]; [done|by apply Hnd in H]].
Qed.

(** ** OnFree *)
Lemma wfp_task o k : wfp (task_prog o k).
Proof.
  destruct k as [a|m d| | |d|m b name params]; cbn [task_prog]; (apply wfp_bind; [|intros; apply wfp_ret]).
  - apply wfp_api.
  - unfold freeThread. apply wfp_bind; [by apply wfp_only|]. intros _. apply wfp_free.
  - by apply wfp_only.
  - by apply wfp_only.
  - by apply wfp_only.
  - apply wfp_only. destruct b; apply only_ofor; intros p _; apply only_bind; try done; by apply (only_call _ RInvokeFunc).
Qed.
Lemma wf_free_prefix t t' : wf_free (t ++ t') -> wf_free t.
Proof. intros H t1 e t2 ->. eapply (H t1 e (t2 ++ t')). by rewrite <- (assoc_L (++)). Qed.
Lemma thread_wf o dir w j : reach o dir w -> wf_free (events_of j (w_hist w)).
Proof.
  intros HR. pose proof (reach_basic _ _ _ HR) as HB. destruct (w_threads w !! j) as [th|] eqn:Hth.
  - destruct (complete (th_prog th) None []) as (t' & r & He & _). apply (b_thread _ _ _ HB _ _ Hth), wfp_task in He. by eapply wf_free_prefix.
  - rewrite events_of_none; [apply wf_free_nil|]. intros en Hen <-. destruct (b_index _ _ _ HB en Hen) as (th & Hth' & _). congruence.
Qed.
Lemma next_free o dir w j th X (a : act X) k x e : reach o dir w -> w_threads w !! j = Some th -> th_prog th = Act a k -> valid a x -> ev a x = [e] ->
  freeing (events_of j (w_hist w)) e.
Proof.
  intros HR Hth Hp Hv He. pose proof (b_thread _ _ _ (reach_basic _ _ _ HR) _ _ Hth) as HP. rewrite Hp in HP. apply (partial_act _ _ _ _ x) in HP; [|done].
  destruct (complete (k x) None []) as (t' & r & Hex & _). apply HP, wfp_task in Hex. rewrite He, <- (assoc_L (++)) in Hex. by eapply Hex.
Qed.

Lemma once_thread h j1 j2 i : NoDup (onced (events h)) -> EvOnce i true ∈ events_of j1 h -> EvOnce i true ∈ events_of j2 h -> j1 = j2.
Proof.
  intros Hn H1 H2. apply events_of_in in H1 as (e1 & He1 & <- & W1). apply events_of_in in H2 as (e2 & He2 & <- & W2).
  assert (Heq : onced (events h) = omap (fun en => match en_what en with Did (EvOnce i true) => Some i | _ => None end) h).
  { clear. induction h as [|en h IH]; [done|]. rewrite events_cons. cbn [omap list_omap]. change (list_omap ?f ?l) with (omap f l).
    destruct (en_what en) as [r c|e]; [done|]. change (e :: events h) with ([e] ++ events h). rewrite onced_app, IH. by destruct e as [| | | | | | | | |? []| | | | | | | | | | | | | | | | |]. }
  rewrite Heq in Hn. f_equal. eapply (nodup_omap_eq _ _ e1 e2 i Hn He1 He2); by rewrite ?W1, ?W2.
Qed.

Record begins (w : world) : Prop := mkBegins {
  bg_nodup : NoDup (begun ROnFree (w_hist w));
  bg_once : forall i, i ∈ begun ROnFree (w_hist w) -> i ∈ onced (events (w_hist w));
  bg_next : forall j th i t0, w_threads w !! j = Some th -> th_called th = false -> events_of j (w_hist w) = t0 ++ [EvOnce i true] ->
     i ∉ begun ROnFree (w_hist w) }.

Lemma onced_in t i : i ∈ onced t <-> EvOnce i true ∈ t.
Proof.
  unfold onced. rewrite elem_of_list_omap. split; [|intros H; by exists (EvOnce i true)].
  intros (e & He & Hs). destruct e as [| | | | | | | | |? []| | | | | | | | | | | | | | | | |]; try done. by injection Hs as ->.
Qed.
Lemma valid_answer {X} (a : act X) : exists x, valid a x.
Proof. exists (some_answer None [] a). apply some_answer_valid. Qed.

Lemma reach_begins o dir w : reach o dir w -> begins w.
Proof.
  induction 1 as [|w w' HR [I1 I2 I3] HS]; [constructor; [constructor|intros i Hi; by apply elem_of_nil in Hi|done]|].
  pose proof (reach_basic _ _ _ HR) as HB.
  destruct HS as [w k Hk|w now Hn|w j th X a k r c Hth Hp Hc Hcl|w j th X a k x Hth Hp Hc Hv Ha Haw].
  - constructor; cbn [w_hist w_threads]; [done|done|]. intros j th i t0 Hj Hcl He. apply lookup_app_Some in Hj as [Hj|[Hlen _]]; [by eapply I3|].
    rewrite events_of_none in He; [by destruct t0|]. intros en Hen <-. destruct (b_index _ _ _ HB en Hen) as (th' & Hth' & _). apply lookup_lt_Some in Hth'. lia.
  - by constructor.
  - assert (Hsame : forall i, events_of i (w_hist w ++ [mkEntry (w_now w) j (th_task th) (Began r c)]) = events_of i (w_hist w)).
    { intros i. rewrite events_of_app. unfold events_of at 2. cbn. case_decide; by rewrite (right_id_L [] (++)). }
    assert (Hev : events (w_hist w ++ [mkEntry (w_now w) j (th_task th) (Began r c)]) = events (w_hist w)).
    { rewrite events_app. cbn. by rewrite (right_id_L [] (++)). }
    assert (Hbg : begun ROnFree (w_hist w ++ [mkEntry (w_now w) j (th_task th) (Began r c)]) = begun ROnFree (w_hist w) ++ if decide (r = ROnFree) then [c_inst c] else []).
    { rewrite begun_app. f_equal. unfold begun. cbn. by case_decide. }
    destruct (decide (r = ROnFree)) as [->|Hr].
    + destruct a; try done. injection Hc as -> ->. destruct (valid_answer (ACall ROnFree c arg)) as [x Hx].
      pose proof (next_free _ _ _ _ _ _ _ _ x _ HR Hth Hp Hx eq_refl) as (t0 & Ht0). cbn in Ht0.
      assert (Hin : EvOnce (c_inst c) true ∈ events_of j (w_hist w)) by (rewrite Ht0; apply elem_of_app; right; by apply elem_of_list_singleton).
      assert (Hon : c_inst c ∈ onced (events (w_hist w))).
      { apply onced_in. apply events_of_in in Hin as (en & Hen & _ & Hw). apply events_in. by exists en. }
      constructor; cbn [w_hist w_threads]; rewrite Hbg.
      * apply NoDup_app. split_and!; [done| |apply NoDup_singleton]. intros i Hi Hi'. apply elem_of_list_singleton in Hi' as ->. by eapply I3.
      * intros i. rewrite Hev, elem_of_app. intros [Hi|Hi]; [by apply I2|]. by apply elem_of_list_singleton in Hi as ->.
      * intros j' th' i t1 Hj' Hcl' He. rewrite Hsame in He. destruct (decide (j' = j)) as [->|Hne].
        { rewrite list_lookup_insert in Hj' by (by eapply lookup_lt_Some). injection Hj' as <-. done. }
        rewrite list_lookup_insert_ne in Hj' by done. rewrite elem_of_app. intros [Hi|Hi]; [by eapply I3|]. apply elem_of_list_singleton in Hi as ->.
        apply Hne. eapply (once_thread (w_hist w)); [apply (b_onces _ _ _ HB)| |exact Hin]. rewrite He. apply elem_of_app. right. by apply elem_of_list_singleton.
    + rewrite (right_id_L [] (++)) in Hbg. constructor; cbn [w_hist w_threads]; rewrite Hbg; [done|by rewrite Hev|].
      intros j' th' i t1 Hj' Hcl' He. rewrite Hsame in He. destruct (decide (j' = j)) as [->|Hne].
      { rewrite list_lookup_insert in Hj' by (by eapply lookup_lt_Some). injection Hj' as <-. done. }
      rewrite list_lookup_insert_ne in Hj' by done. by eapply I3.
  - change (map (fun e => mkEntry (w_now w) j (th_task th) (Did e)) (ev a x)) with (done_by (w_now w) j (th_task th) (ev a x)).
    assert (Hbg : begun ROnFree (w_hist w ++ done_by (w_now w) j (th_task th) (ev a x)) = begun ROnFree (w_hist w)).
    { by rewrite begun_app, begun_done, (right_id_L [] (++)). }
    constructor; cbn [w_hist w_threads]; rewrite Hbg; [done|..].
    + intros i Hi. rewrite events_app, onced_app. apply elem_of_app. left. by apply I2.
    + intros j' th' i t1 Hj' Hcl' He. rewrite events_of_app, events_of_done in He.
      apply lookup_insert_app in Hj' as [[-> ->]|[Hne [Hj'|[Hlen Hj']]]]; [| | |by eapply lookup_lt_Some].
      * rewrite decide_True in He by done. destruct (ev_one _ a x) as [Hz|(e & Hz)]; rewrite Hz in He.
        -- rewrite (right_id_L [] (++)) in He. eapply (I3 j th i t1); try done. destruct (th_called th) eqn:Hcal; [|done].
           destruct (b_called _ _ _ HB _ _ Hth Hcal) as (r & c & arg & k' & Hp'). rewrite Hp in Hp'. 
           assert (Hca : calls a <> None). { change (match Act a k with Act a' _ => calls a' <> None | Ret _ => True end). rewrite Hp'. done. }
           destruct a; try done.
        -- apply app_inj_2 in He as [_ He]; [|done]. injection He as ->. destruct a; try done. cbn in Hz. injection Hz as -> ->. cbn in Ha.
           intros Hi. apply I2, (b_once _ _ _ HB) in Hi. symmetry in Ha. by apply bool_decide_eq_true in Ha.
      * rewrite decide_False in He by congruence. rewrite (right_id_L [] (++)) in He. by eapply I3.
      * rewrite decide_False in He by congruence. rewrite (right_id_L [] (++)) in He.
        rewrite events_of_none in He; [by destruct t1|]. intros en Hen <-. destruct (b_index _ _ _ HB en Hen) as (th0 & Hth0 & _). apply lookup_lt_Some in Hth0. lia.
Qed.

End Proofs.
