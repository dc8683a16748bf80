(** Who holds how many references, in every reachable world *)
From Verif Require Export Tokens.

Section Proofs.
Context {E : GoEnv}.

(** ** Release goroutines *)
Fixpoint frees_from (k : nat) (ths : list thread) : list (nat * mgr) :=
  match ths with
  | [] => []
  | th :: ths => match th_task th with TFree m _ => (k, m) :: frees_from (S k) ths | _ => frees_from (S k) ths end
  end.
Definition frees := frees_from 0.
Lemma frees_from_in ths j m : forall k, (j, m) ∈ frees_from k ths <-> exists n th d, j = (k + n)%nat /\ ths !! n = Some th /\ th_task th = TFree m d.
Proof.
  induction ths as [|th ths IH]; intros k; cbn [frees_from].
  - rewrite elem_of_nil. split; [done|intros (n & ? & ? & _ & H & _); by destruct n].
  - assert (Hrest : (j, m) ∈ frees_from (S k) ths <-> exists n th' d, j = (k + S n)%nat /\ ths !! n = Some th' /\ th_task th' = TFree m d).
    { rewrite IH. split; intros (n & th' & d & -> & H); exists n, th', d; (split; [lia|done]). }
    assert (Hcase : (j, m) ∈ frees_from (S k) ths \/ (j = k /\ exists d, th_task th = TFree m d) <-> exists n th0 d, j = (k + n)%nat /\ (th :: ths) !! n = Some th0 /\ th_task th0 = TFree m d).
    { rewrite Hrest. split.
      - intros [(n & th' & d & H1 & H2)|(-> & d & Hd)]; [by exists (S n), th', d|]. exists 0%nat, th, d. split; [lia|done].
      - intros ([|n] & th' & d & H1 & H2 & H3); [right; injection H2 as ->; split; [lia|by exists d]|]. left. by exists n, th', d. }
    rewrite <- Hcase. destruct (th_task th); rewrite ?elem_of_cons; split; try tauto; try (intros [H|(_ & dd & Hd)]; [done|by simplify_eq]).
    + intros [H|H]; [injection H as -> ->; right; split; [done|by eexists]|by left].
    + intros [H|(-> & d & [= -> _])]; [by right|by left].
Qed.
Lemma frees_in ths j m : (j, m) ∈ frees ths <-> exists th d, ths !! j = Some th /\ th_task th = TFree m d.
Proof. unfold frees. rewrite frees_from_in. split; [intros (n & th & d & -> & H); by exists th, d|intros (th & d & H); by exists j, th, d]. Qed.
Lemma frees_nodup ths : NoDup (map fst (frees ths)).
Proof.
  unfold frees. generalize 0%nat. induction ths as [|th ths IH]; intros k; cbn [frees_from]; [constructor|].
  destruct (th_task th); try apply IH. cbn [map fst]. apply NoDup_cons. split; [|apply IH]. intros Hin. apply elem_of_list_fmap in Hin as ([j m'] & Hj & Hin).
  apply frees_from_in in Hin as (n & _ & _ & -> & _). cbn in Hj. lia.
Qed.

(** the k-th release goroutine was started by the k-th release event, at its time *)
Definition free_start (th : thread) : option (mgr * Z * Z) := match th_task th with TFree m d => Some (m, d, th_start th) | _ => None end.
Definition spawn_at (en : entry) : option (mgr * Z * Z) := match en_what en with Did (EvSpawnFree m d) => Some (m, d, en_time en) | _ => None end.
Lemma reach_starts o dir w : reach o dir w -> omap free_start (w_threads w) = omap spawn_at (w_hist w).
Proof.
  induction 1 as [|w w' HR IH HS]; [done|]. pose proof (reach_basic _ _ _ HR) as HB.
  destruct HS as [w k Hk|w now Hn|w j th X a k r c Hth Hp Hc Hcl|w j th X a k x Hth Hp Hc Hv Ha Haw]; cbn [w_threads w_hist] in *.
  - rewrite omap_app, IH. destruct k; try done; apply (right_id_L [] (++)).
  - done.
  - rewrite omap_app, <- IH. cbn. rewrite (right_id_L [] (++)). 
    assert (Hi : forall (l : list thread) j th', l !! j = Some th -> free_start th' = free_start th -> omap free_start (<[j := th']> l) = omap free_start l).
    { clear. induction l as [|y l IH]; intros [|j] th' Hj He; try done; cbn in *; [injection Hj as ->; by rewrite He|]. by rewrite (IH j). }
    by apply Hi.
  - rewrite !omap_app, <- IH.
    assert (Hi : forall (l : list thread) j th', l !! j = Some th -> free_start th' = free_start th -> omap free_start (<[j := th']> l) = omap free_start l).
    { clear. induction l as [|y l IH]; intros [|j] th' Hj He; try done; cbn in *; [injection Hj as ->; by rewrite He|]. by rewrite (IH j). }
    rewrite (Hi _ _ _ Hth) by done. f_equal. by destruct a.
Qed.
Lemma frees_mgrs ths : map snd (frees ths) = map (fun x => fst (fst x)) (omap free_start ths).
Proof.
  unfold frees. generalize 0%nat. induction ths as [|th ths IH]; intros k; [done|]. cbn [frees_from omap list_omap].
  change (list_omap ?f ?l) with (omap f l). unfold free_start at 1. destruct (th_task th); cbn [map snd fst]; by rewrite IH.
Qed.
Lemma reach_frees o dir w : reach o dir w -> map snd (frees (w_threads w)) = map fst (releases (load_events (w_hist w))).
Proof.
  intros HR. pose proof (reach_basic _ _ _ HR) as HB. rewrite frees_mgrs, (reach_starts _ _ _ HR).
  assert (Hl : releases (load_events (w_hist w)) = releases (events (w_hist w))).
  { symmetry. unfold releases. apply load_omap. intros en e Hen Hk He. pose proof (basic_others _ _ _ _ _ HB Hen Hk He) as Ho. by destruct e. }
  rewrite Hl. generalize (w_hist w). clear. induction l as [|en h IH]; [done|]. rewrite events_cons. cbn [omap list_omap]. change (list_omap ?f ?l) with (omap f l). unfold spawn_at at 1. destruct (en_what en) as [r c|e]; [done|].
  change (e :: events h) with ([e] ++ events h). rewrite releases_app, map_app, <- IH. by destruct e.
Qed.

(** ** References given back by release goroutines *)
Lemma released_wt i m t : released m t -> wt i t = (- has i m)%Z /\ Forall (fun e => (weight i e <= 0)%Z) t.
Proof.
  intros HR. destruct (released_facts _ _ HR) as (ps & Rf & Hp & _).
  assert (Hw : wt i t = (- has i m)%Z).
  { rewrite wt_eq, (rf_created _ _ _ _ _ Rf), (rf_inc _ _ _ _ _ Rf), (rf_dec _ _ _ _ _ Rf). cbn [cnt]. unfold has, insts.
    rewrite (cnt_perm i _ _ (Permutation_map pl_inst Hp)). lia. }
  split; [done|]. apply Forall_forall. intros e He.
  assert (Hc : new_inst e = None).
  { destruct (new_inst e) as [x|] eqn:Hx; [|done]. assert (Hin : x ∈ created t) by (apply elem_of_list_omap; by exists e). rewrite (rf_created _ _ _ _ _ Rf) in Hin. by apply elem_of_nil in Hin. }
  assert (Hi : inc_inst e = None).
  { destruct (inc_inst e) as [x|] eqn:Hx; [|done]. assert (Hin : x ∈ increments t) by (apply elem_of_list_omap; by exists e). rewrite (rf_inc _ _ _ _ _ Rf) in Hin. by apply elem_of_nil in Hin. }
  destruct e; cbn in *; try done. by case_decide.
Qed.
Lemma wt_nonpos i t : Forall (fun e => (weight i e <= 0)%Z) t -> (wt i t <= 0)%Z.
Proof. induction 1; cbn [wt]; lia. Qed.
Lemma free_prefix_wt o m d i t q : partial (task_prog o (TFree m d)) t q -> deps_ready (pm_map m) (pm_ordered m) ->
  (- has i m <= wt i t <= 0)%Z.
Proof.
  intros Hp Hr. destruct (complete q None []) as (t' & r & He & _). apply Hp in He.
  destruct (free_task _ _ _ _ _ He Hr) as (u & Heq & HR & _). destruct (released_wt i _ _ HR) as [Hw Hf].
  assert (Hf' : Forall (fun e => (weight i e <= 0)%Z) (t ++ t')) by (rewrite Heq; by apply Forall_cons_2).
  apply Forall_app in Hf' as [F1 F2]. apply wt_nonpos in F1, F2.
  assert (Hs : wt i (t ++ t') = (- has i m)%Z) by (rewrite Heq; cbn [wt weight]; lia). rewrite wt_app in Hs. lia.
Qed.

(** tasks that neither load nor release leave the references alone *)
Definition refless_act : forall X, act X -> Prop := fun X a => match a with ARefInc _ _ | ARefDec _ _ | ANewInst _ _ => False | _ => True end.
Lemma refless_task o k t r i : is_load k = false -> (forall m d, k <> TFree m d) -> exec (task_prog o k) t r -> Forall (fun e => weight i e = 0%Z) t.
Proof.
  intros Hl Hf. apply only_exec with (P := refless_act); [intros X [] x; cbn; intros; try done; repeat constructor|].
  destruct k as [a|m d| | |d|m b name params]; cbn; try done; [by destruct (Hf m d)|].
  apply only_bind; [|done]. destruct b; apply only_ofor; intros p _; apply only_bind; try done; unfold call; by destruct (get_func _ _).
Qed.

(** ** The sum of all references *)
Fixpoint sum_over (f : nat * mgr -> Z) (l : list (nat * mgr)) : Z := match l with [] => 0 | x :: l => f x + sum_over f l end.
Lemma sum_over_add f g l : sum_over (fun x => f x + g x)%Z l = (sum_over f l + sum_over g l)%Z.
Proof. induction l as [|x l IH]; cbn; [done|]. rewrite IH. lia. Qed.
Lemma sum_over_ext f g l : (forall x, x ∈ l -> f x = g x) -> sum_over f l = sum_over g l.
Proof. induction l as [|x l IH]; cbn; intros H; [done|]. rewrite IH, (H x) by (intros; try apply H; by constructor). done. Qed.
Lemma sum_over_one j m v l : NoDup (map fst l) -> (j, m) ∈ l -> sum_over (fun x => if decide (fst x = j) then v else 0%Z) l = v.
Proof.
  induction l as [|[k m'] l IH]; cbn [map sum_over fst]; intros Hn Hin; [by apply elem_of_nil in Hin|]. apply NoDup_cons in Hn as [Hk Hn].
  apply elem_of_cons in Hin as [[= <- <-]|Hin].
  - rewrite decide_True by done. rewrite (sum_over_ext _ (fun _ => 0%Z)).
    + clear. assert (H : sum_over (fun _ => 0%Z) l = 0%Z) by (by induction l). lia.
    + intros [k' m''] Hx. rewrite decide_False; [done|]. cbn. intros ->. apply Hk. apply elem_of_list_fmap. by exists (j, m'').
  - rewrite decide_False; [by rewrite IH|]. intros ->. apply Hk. apply elem_of_list_fmap. by exists (j, m).
Qed.
Lemma sum_over_nonneg f l : (forall x, x ∈ l -> (0 <= f x)%Z) -> (0 <= sum_over f l)%Z.
Proof. induction l as [|x l IH]; cbn; intros H; [done|]. assert (0 <= f x)%Z by (apply H; by constructor). assert (0 <= sum_over f l)%Z by (apply IH; intros; apply H; by constructor). lia. Qed.
Lemma sum_over_in f l x : (forall x, x ∈ l -> (0 <= f x)%Z) -> x ∈ l -> (f x <= sum_over f l)%Z.
Proof.
  induction l as [|y l IH]; cbn; intros H Hx; [by apply elem_of_nil in Hx|].
  assert (0 <= sum_over f l)%Z by (apply sum_over_nonneg; intros; apply H; by constructor). assert (0 <= f y)%Z by (apply H; by constructor).
  apply elem_of_cons in Hx as [->|Hx]; [lia|]. assert (f x <= sum_over f l)%Z by (apply IH; [intros; apply H; by constructor|done]). lia.
Qed.
Lemma sum_over_has i l : sum_over (fun x => has i (snd x)) l = sum_has i (map snd l).
Proof. induction l as [|x l IH]; cbn; [done|]. by rewrite IH. Qed.

Lemma wt_events o dir w i : basic o dir w ->
  wt i (events (w_hist w)) = (wt i (load_events (w_hist w)) + sum_over (fun x => wt i (events_of (fst x) (w_hist w))) (frees (w_threads w)))%Z.
Proof.
  intros HB. assert (Hall : forall en e, en ∈ w_hist w -> en_what en = Did e ->
    is_load (en_task en) = true /\ (forall m, (en_thread en, m) ∉ frees (w_threads w)) \/ (exists m, (en_thread en, m) ∈ frees (w_threads w)) /\ is_load (en_task en) = false \/ is_load (en_task en) = false /\ weight i e = 0%Z /\ (forall m, (en_thread en, m) ∉ frees (w_threads w))).
  { intros en e Hen He. destruct (b_index _ _ _ HB en Hen) as (th & Hth & Htask). rewrite <- Htask.
    destruct (is_load (th_task th)) eqn:Hl; [left; split; [done|]; intros m' Hm'; apply frees_in in Hm' as (th' & d' & Hth' & Ht'); simplify_eq; by rewrite Ht' in Hl|]. right. destruct (th_task th) as [a|m d| | |d|m b name params] eqn:Ht; try done;
      [left; split; [exists m; apply frees_in; by exists th, d|done]|..];
      (right; split; [done|]; split; [|intros m' Hm'; apply frees_in in Hm' as (th' & d' & Hth' & Ht'); simplify_eq; congruence]);
      (assert (HF : Forall (fun e => weight i e = 0%Z) (events_of (en_thread en) (w_hist w))) by
        (eapply partial_forall; [exact (b_thread _ _ _ HB _ _ Hth)|]; rewrite Ht; intros t r; by apply refless_task));
      (rewrite Forall_forall in HF; apply HF; apply events_of_in; by exists en). }
  pose proof (frees_nodup (w_threads w)) as Hn. revert Hall. generalize (frees (w_threads w)) Hn. generalize (w_hist w). clear.
  induction l as [|en h IH]; intros F Hn Hall; cbn [events].
  - unfold events, load_events, events_of. cbn. assert (Hz : sum_over (fun _ => 0%Z) F = 0%Z) by (clear; by induction F). by rewrite Hz.
  - assert (IH' := IH F Hn ltac:(intros en' e' H1 H2; apply (Hall en' e'); [by constructor|done])).
    rewrite events_cons, load_events_cons. 
    assert (Hev : forall j, events_of j (en :: h) = (if decide (en_thread en = j) then match en_what en with Did e => [e] | Began _ _ => [] end else []) ++ events_of j h).
    { intros j. change (en :: h) with ([en] ++ h). rewrite events_of_app. f_equal. unfold events_of, did. cbn. case_decide; [|done]. by destruct (en_what en). }
    destruct (en_what en) as [r c|e] eqn:He.
    + rewrite IH'. f_equal. apply sum_over_ext. intros x _. rewrite Hev. by case_decide.
    + assert (Hsum : sum_over (fun x => wt i (events_of (fst x) (en :: h))) F =
        (sum_over (fun x => if decide (fst x = en_thread en) then weight i e else 0) F + sum_over (fun x => wt i (events_of (fst x) h)) F)%Z).
      { rewrite <- sum_over_add. apply sum_over_ext. intros x _. rewrite Hev, wt_app. f_equal. destruct (decide (en_thread en = fst x)) as [Heq|Hne].
        - rewrite decide_True by done. cbn [wt]. lia.
        - by rewrite decide_False by congruence. }
      assert (Hzero : (forall m, (en_thread en, m) ∉ F) -> sum_over (fun x => if decide (fst x = en_thread en) then weight i e else 0)%Z F = 0%Z).
      { intros Hno. rewrite (sum_over_ext _ (fun _ => 0%Z)); [clear; by induction F|]. intros [k m] Hx. cbn. rewrite decide_False; [done|]. intros ->. by apply (Hno m). }
      rewrite Hsum. cbn [wt]. rewrite IH'. destruct (Hall en e ltac:(by constructor) He) as [[Hl Hno]|[[(m & Hm) Hl]|(Hl & Hz & Hno)]]; rewrite Hl; cbn [wt].
      * rewrite (Hzero Hno). lia.
      * rewrite (sum_over_one _ _ _ _ Hn Hm). lia.
      * rewrite (Hzero Hno), Hz. lia.
Qed.

(** ** The tokens of a reachable world *)

(** a load call has scheduled the release of the current manager and not yet published the new one *)
Definition midway (w : world) : Prop :=
  exists j, me_lock (w_mem w) = Some j /\ releases (events_of j (w_hist w)) <> [] /\ stores (events_of j (w_hist w)) = [].
(** the references still held by release goroutines *)
Definition held (w : world) (i : inst) : Z :=
  sum_over (fun x => has i (snd x) + wt i (events_of (fst x) (w_hist w)))%Z (frees (w_threads w)).

Record tokens (o : opts) (w : world) (H : list event) (rest : list mgr) (x : inst -> Z) : Prop := mkTokens {
  tk_hist : history o H (after None H);
  tk_fresh : fresh_objects H;
  tk_ledger : ledger o H (after None H);
  tk_ext : exists t', H = load_events (w_hist w) ++ t' /\ (me_lock (w_mem w) = None -> t' = []);
  tk_refs : forall i, refs_of (w_mem w) i = (held w i + sum_has i rest + x i)%Z;
  tk_x : forall i, (0 <= x i)%Z;
  tk_free : me_lock (w_mem w) = None -> (forall i, x i = cnt i (created (load_events (w_hist w))) - cnt i (admitted (load_events (w_hist w))))%Z /\
     (o_static o = None -> rest = option_list (me_current (w_mem w)));
  tk_stores : forall m, m ∈ map snd (frees (w_threads w)) ++ rest -> m ∈ stores H;
  tk_cur : forall m, me_current (w_mem w) = Some m -> m ∈ rest \/ midway w;
  tk_prog : forall j, me_lock (w_mem w) = Some j -> exists h a t' r, load_events (w_hist w) = h ++ events_of j (w_hist w) /\
     next_call o h (after None h) (api_prog o a) (events_of j (w_hist w) ++ t') r /\ H = h ++ (events_of j (w_hist w) ++ t') /\
     (no_publish (events_of j (w_hist w)) /\ (forall i, x i = cnt i (created h) - cnt i (admitted h) + wt i (events_of j (w_hist w)))%Z \/
      ~ no_publish (events_of j (w_hist w)) /\ (exists m, stores (events_of j (w_hist w) ++ t') = [m] /\ m ∈ rest) /\
        forall i, x i = (cnt i (created H) - cnt i (admitted H)))%Z;
  tk_rest : forall m, m ∈ stores (load_events (w_hist w)) -> m ∈ map snd (frees (w_threads w)) ++ rest }.

Lemma reach_tokens o dir w : reach o dir w -> distinct_registrations o -> exists H rest x, tokens o w H rest x.
Proof.
  intros HR HD. pose proof (reach_basic _ _ _ HR) as HB. destruct (reach_serial _ _ _ HR) as (h & [HH Hfree Hheld Hidle]).
  pose proof (reach_frees _ _ _ HR) as HF.
  assert (Hwt : forall i, refs_of (w_mem w) i = (wt i (load_events (w_hist w)) + sum_over (fun x => wt i (events_of (fst x) (w_hist w))) (frees (w_threads w)))%Z).
  { intros i. rewrite (b_refs _ _ _ HB). by eapply wt_events. }
  assert (Hfh : fresh_objects (load_events (w_hist w))).
  { unfold fresh_objects. rewrite <- (created_loads _ _ _ HB). apply (b_created _ _ _ HB). }
  pose proof (after_loads _ _ _ HB) as Hcur.
  destruct (me_lock (w_mem w)) as [j|] eqn:Hlock.
  - destruct (Hheld j eq_refl) as (th & a & Hth & Htask & Hload & (t1 & Ht & Hun & Hsaw)).
    assert (Hp := b_thread _ _ _ HB _ _ Hth). rewrite Htask in Hp.
    set (t := events_of j (w_hist w)) in *.
    destruct (load_prefix _ _ _ _ (after None h) (created (events (w_hist w))) Hp) as (t' & r & He & Hs' & Hn' & Hnew).
    assert (HN : next_call o h (after None h) (api_prog o a) (t ++ t') r).
    { split_and!; try done; [apply load_call_api; by exists a|..].
      - intros y Hy. unfold saw_current in Hy. apply elem_of_app in Hy as [Hy|Hy]; [by apply Hsaw|by apply Hs'].
      - unfold fresh_objects. rewrite (assoc_L (++)), created_app, <- Hload. apply NoDup_app. split_and!; [done| |done].
        intros i Hi Hi'. apply Hnew in Hi'. by rewrite (created_loads _ _ _ HB) in Hi'. }
    assert (HH' : history o (h ++ (t ++ t')) (after None (h ++ (t ++ t')))).
    { rewrite after_app. destruct HN as (N1 & N2 & N3 & N4 & _). by eapply history_call. }
    assert (Hfr : fresh_objects (h ++ (t ++ t'))) by apply HN.
    pose proof (history_ledger _ _ _ HH' Hfr HD) as HL'. pose proof (history_ledger _ _ _ HH (fresh_prefix _ _ Hfr) HD) as [L1 L2 (rest & R1 & R2 & R3 & R4) L4].
    pose proof (call_accounts _ _ _ _ _ _ HN HD) as HA. destruct (call_part _ _ _ _ _ _ _ HN HD) as [Pn Pc].
    assert (Hext : exists u, h ++ (t ++ t') = load_events (w_hist w) ++ u /\ (Some j = None -> u = [])) by (exists t'; by rewrite Hload, <- (assoc_L (++))).
    destruct Pc as [Hnp|(m & Hsm & Hst & Hrl & Hw & Hadm & Hcre)].
    + exists (h ++ (t ++ t')), rest, (fun i => cnt i (created h) - cnt i (admitted h) + wt i t)%Z. destruct (no_publish_stores _ Hnp) as [S1 S2].
      constructor; [done|done|done|by rewrite Hlock|..].
      * intros i. rewrite Hwt, Hload, wt_app, L1, R1, sum_has_app. unfold held. rewrite sum_over_add, sum_over_has, HF, Hload, releases_app, S2, (right_id_L [] (++)). lia.
      * intros i. pose proof (L2 i). pose proof (Pn i). lia.
      * by rewrite Hlock.
      * intros m Hm. rewrite HF, Hload, releases_app, S2, (right_id_L [] (++)), <- R1 in Hm. rewrite stores_app. apply elem_of_app. by left.
      * intros m Hm. left. apply R2. by rewrite Hcur, Hload, after_app, (no_publish_after _ _ Hnp) in Hm.
      * intros j' Hj'. rewrite Hlock in Hj'. injection Hj' as <-. exists h, a, t', r. split_and!; [done|done|done|]. left. by split.
      * intros m Hm. rewrite HF, Hload, releases_app, S2, (right_id_L [] (++)), <- R1. by rewrite Hload, stores_app, S1, (right_id_L [] (++)) in Hm.
    + exists (h ++ (t ++ t')), (match o_static o with None => [m] | Some _ => rest ++ [m] end),
        (fun i => cnt i (created h) - cnt i (admitted h) + (cnt i (created (t ++ t')) - cnt i (admitted (t ++ t'))))%Z.
      assert (Hsum : map fst (releases (h ++ t)) ++ (match o_static o with None => [m] | Some _ => rest ++ [m] end) = stores h ++ [m]).
      { rewrite releases_app, map_app, Hrl, R1. unfold old_seen. destruct (o_static o) as [st|]; cbn [spawned].
        - change (releases []) with (@nil (mgr * Z)). cbn [map]. by rewrite (right_id_L [] (++)), (assoc_L (++)).
        - rewrite (R3 eq_refl). by destruct (after None h). }
      constructor; [done|done|done|by rewrite Hlock|..].
      * intros i. rewrite Hwt, Hload, wt_app, L1, Hw, (ac_sum _ _ _ HA), Hsm. unfold held. rewrite sum_over_add, sum_over_has, HF, Hload.
        assert (Hs := f_equal (sum_has i) Hsum). rewrite !sum_has_app in Hs. cbn [sum_has] in Hs |- *. lia.
      * intros i. pose proof (L2 i). pose proof (accounts_extra _ _ _ i HA). lia.
      * by rewrite Hlock.
      * intros m' Hm. rewrite HF, Hload, Hsum in Hm. by rewrite stores_app, Hsm.
      * intros m' Hm. destruct Hst as [[Hst Hold]|Hst].
        -- right. exists j. split_and!; [done| |done]. fold t. rewrite Hrl. by destruct (old_seen o (after None h)).
        -- left. rewrite Hcur, Hload, after_app, (after_stores t), Hst in Hm. cbn in Hm. injection Hm as <-.
           destruct (o_static o); [|by apply elem_of_list_singleton]. apply elem_of_app. right. by apply elem_of_list_singleton.
      * intros j' Hj'. rewrite Hlock in Hj'. injection Hj' as <-. exists h, a, t', r. split_and!; [done|done|done|]. right. split_and!.
        -- intros Hnp. destruct (no_publish_stores _ Hnp) as [S1 S2]. fold t in S1, S2. destruct Hst as [[_ Hold]|Hst]; [|by rewrite Hst in S1].
           rewrite Hrl in S2. by destruct (old_seen o (after None h)).
        -- exists m. split; [done|]. destruct (o_static o); [|by apply elem_of_list_singleton]. apply elem_of_app. right. by apply elem_of_list_singleton.
        -- intros i. assert (Had : admitted (h ++ (t ++ t')) = admitted h ++ admitted (t ++ t')) by apply omap_app. rewrite (created_app h (t ++ t')), Had, !(cnt_app i (created h)), !(cnt_app i (admitted h)). lia.
      * intros m' Hm. rewrite HF, Hload, Hsum. rewrite Hload, stores_app in Hm. apply elem_of_app in Hm as [Hm|Hm]; apply elem_of_app; [by left|].
        destruct Hst as [[Hst _]|Hst]; rewrite Hst in Hm; [by apply elem_of_nil in Hm|by right].
  - rewrite (Hfree eq_refl) in *. pose proof (history_ledger _ _ _ HH Hfh HD) as HL. pose proof HL as [L1 L2 (rest & R1 & R2 & R3 & R4) L4].
    exists h, rest, (fun i => cnt i (created h) - cnt i (admitted h))%Z. constructor; [done|done|done|..].
    + exists []. by rewrite (right_id_L [] (++)), (Hfree eq_refl).
    + intros i. rewrite Hwt, L1, R1, sum_has_app. unfold held. rewrite sum_over_add, sum_over_has, HF. lia.
    + intros i. pose proof (L2 i). lia.
    + intros _. rewrite (Hfree eq_refl). split; [done|]. intros Hs. rewrite (R3 Hs). by rewrite Hcur.
    + intros m Hm. by rewrite HF, <- R1 in Hm.
    + intros m Hm. left. apply R2. by rewrite Hcur in Hm.
    + by rewrite Hlock.
    + intros m Hm. rewrite HF, <- R1. by rewrite (Hfree eq_refl) in Hm.
Qed.

End Proofs.
