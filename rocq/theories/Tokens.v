(** References as tokens: what one load call, and a history of load calls, do to the reference counters *)
From Verif Require Export ConcLin PropSwapper.

Section Proofs.
Context {E : GoEnv}.

(** ** Counting *)
Fixpoint cnt (i : inst) (l : list inst) : Z :=
  match l with [] => 0 | x :: l => (if decide (x = i) then 1 else 0) + cnt i l end.
Lemma cnt_app i l1 l2 : cnt i (l1 ++ l2) = (cnt i l1 + cnt i l2)%Z.
Proof. induction l1 as [|x l IH]; simpl; [done|]. rewrite IH. lia. Qed.
Lemma cnt_perm i l1 l2 : Permutation l1 l2 -> cnt i l1 = cnt i l2.
Proof. induction 1 as [|x l1 l2 _ IH|x y l|l1 l2 l3 _ IH1 _ IH2]; simpl; lia. Qed.
Lemma cnt_nonneg i l : (0 <= cnt i l)%Z.
Proof. induction l as [|x l IH]; simpl; [lia|]. destruct (decide (x = i)); lia. Qed.
Lemma cnt_in i l : i ∈ l <-> (1 <= cnt i l)%Z.
Proof.
  induction l as [|x l IH]; simpl; [rewrite elem_of_nil; lia|]. rewrite elem_of_cons. pose proof (cnt_nonneg i l).
  destruct (decide (x = i)) as [->|Hne]; [split; [lia|by left]|]. rewrite IH. split; [intros [->|?]; [done|lia]|right; lia].
Qed.
Lemma cnt_out i l : i ∉ l -> cnt i l = 0%Z.
Proof. intros H. pose proof (cnt_nonneg i l). destruct (decide (1 <= cnt i l)%Z) as [Hc|Hc]; [by apply cnt_in in Hc|lia]. Qed.
Lemma cnt_nodup i l : NoDup l -> (cnt i l <= 1)%Z.
Proof.
  induction 1 as [|x l Hx _ IH]; simpl; [lia|]. destruct (decide (x = i)) as [->|]; [|lia]. rewrite (cnt_out i l Hx). lia.
Qed.

Lemma wt_eq i t : wt i t = (cnt i (created t) + cnt i (increments t) - cnt i (decrements t))%Z.
Proof.
  induction t as [|e t IH]; [done|]. cbn [wt]. rewrite IH.
  change (e :: t) with ([e] ++ t). unfold created, increments, decrements. rewrite !omap_app, !cnt_app.
  destruct e; cbn; repeat case_decide; lia.
Qed.

(** the tokens of a manager: one for each plugin it holds *)
Definition insts (m : mgr) : list inst := map pl_inst (mplugins (pm_map m)).
Definition has (i : inst) (m : mgr) : Z := cnt i (insts m).
Fixpoint sum_has (i : inst) (l : list mgr) : Z := match l with [] => 0 | m :: l => has i m + sum_has i l end.
Lemma has_nonneg i m : (0 <= has i m)%Z. Proof. apply cnt_nonneg. Qed.
Lemma sum_has_app i l1 l2 : sum_has i (l1 ++ l2) = (sum_has i l1 + sum_has i l2)%Z.
Proof. induction l1 as [|x l IH]; simpl; [done|]. rewrite IH. lia. Qed.
Lemma sum_has_nonneg i l : (0 <= sum_has i l)%Z.
Proof. induction l as [|m l IH]; simpl; [lia|]. pose proof (has_nonneg i m). lia. Qed.
Lemma sum_has_in i m l : m ∈ l -> (has i m <= sum_has i l)%Z.
Proof.
  induction 1 as [m l|m x l _ IH]; simpl; [pose proof (sum_has_nonneg i l); lia|]. pose proof (has_nonneg i x). lia.
Qed.

(** the managers published by a trace *)
Definition stores (t : list event) : list mgr := omap (fun e => match e with EvStore m => Some m | _ => None end) t.
Lemma stores_app t1 t2 : stores (t1 ++ t2) = stores t1 ++ stores t2. Proof. apply omap_app. Qed.
Lemma stores_in t m : m ∈ stores t <-> published t m.
Proof. unfold stores, published. rewrite elem_of_list_omap. split; [intros (e & He & Hs); destruct e; simplify_eq; done|intros H; by exists (EvStore m)]. Qed.
Lemma no_publish_stores t : no_publish t -> stores t = [] /\ releases t = [].
Proof. intros H. split; apply omap_none; (eapply Forall_impl; [exact H|]); by intros []. Qed.

(** ** One call *)
(** the shape of a call: it publishes (and schedules the release) in one go, near its end *)
Definition ending (e : event) : Prop := match e with EvAddCounter | EvUnlock => True | _ => False end.
Definition pubs (o : opts) (cur : option mgr) (m : mgr) : list event := spawned o (old_seen o cur) ++ [EvStore m].
Lemma call_shape o h cur a t r : next_call o h cur (api_prog o a) t r ->
  no_publish t \/ exists tc m tz, t = tc ++ pubs o cur m ++ tz /\ no_publish tc /\ Forall ending tz.
Proof.
  intros HN. destruct (o_static o) as [st|] eqn:Hst.
  - destruct (next_static _ _ _ _ _ _ _ HN Hst) as [(data & tb & -> & -> & HR)|(data & extra & -> & -> & _)]; [|left; by constructor].
    apply static_shape in HR as (ti & tz & -> & Hi & [(-> & _)|(new & d & -> & _)]).
    + left. apply Forall_cons_2; [done|]. rewrite app_nil_r. apply no_publish_app; [|by constructor]. eapply Forall_impl; [exact Hi|]. by intros [].
    + right. exists (EvLock :: ti), new, [EvUnlock]. split_and!; [|apply Forall_cons_2; [done|]; eapply Forall_impl; [exact Hi|]; by intros []|by constructor].
      unfold pubs, old_seen. rewrite Hst. cbn [spawned]. by rewrite !app_nil_l, <- (assoc_L (++)).
  - destruct (next_dir _ _ _ _ _ _ HN Hst) as (tb & add & -> & HR & Hadd).
    assert (Hz : Forall ending (add ++ [EvUnlock])).
    { apply Forall_app. split; [|by constructor]. rewrite Hadd. destruct a; [constructor|]. destruct (decide _); by constructor. }
    apply dir_shape in HR as (ti & tz & -> & Hi & [(-> & _)|(new & old & d & -> & _ & Hsaw)]).
    + left. apply Forall_cons_2; [done|]. rewrite app_nil_r. apply no_publish_app; [eapply Forall_impl; [exact Hi|]; by intros []|].
      eapply Forall_impl; [exact Hz|]. by intros [].
    + right. exists (EvLock :: ti), new, (add ++ [EvUnlock]). split_and!; [|apply Forall_cons_2; [done|]; eapply Forall_impl; [exact Hi|]; by intros []|done].
      assert (Hc : old = cur).
      { destruct HN as (_ & _ & _ & Hs & _). apply Hs. unfold saw_current in *. rewrite elem_of_cons, !elem_of_app. tauto. }
      subst old. unfold pubs, old_seen. rewrite Hst. by rewrite <- !(assoc_L (++)).
Qed.
Lemma ending_silent tz : Forall ending tz -> silent tz /\ no_publish tz.
Proof.
  intros H. split; [|eapply Forall_impl; [exact H|]; by intros []].
  unfold silent, call_sigs, increments, decrements, created, admitted. repeat split; apply omap_none; (eapply Forall_impl; [exact H|]); by intros [].
Qed.
Lemma pubs_facts o cur m : silent (pubs o cur m) /\ stores (pubs o cur m) = [m].
Proof.
  unfold pubs. split; [apply silent_app; [apply silent_spawned|by apply silent_one]|]. rewrite stores_app. by destruct (old_seen o cur).
Qed.

(** what a call does with references *)
Record accounts (o : opts) (cur : option mgr) (t : list event) : Prop := mkAccounts {
  ac_sum : forall i, wt i t = (sum_has i (stores t) + cnt i (created t) - cnt i (admitted t))%Z;
  ac_adm : exists X, created t = admitted t ++ X;
  ac_split : exists ta tb, t = ta ++ tb /\ decrements ta = [] /\ created tb = [] /\ increments tb = [];
  ac_inc : forall i, i ∈ increments t -> o_static o = None /\ exists om, cur = Some om /\ i ∈ insts om }.

Lemma silent_wt i t : silent t -> wt i t = 0%Z.
Proof. intros (_ & H1 & H2 & H3 & _). by rewrite wt_eq, H1, H2, H3. Qed.

Lemma gath_inc src cur s t s1 ps ks i : gath src cur s t s1 ps ks -> i ∈ increments t -> exists om, cur = Some om /\ i ∈ insts om.
Proof.
  intros HG Hi. rewrite (g_inc _ _ _ _ _ _ _ HG) in Hi. apply elem_of_list_fmap in Hi as (p & -> & Hp).
  destruct (g_kept _ _ _ _ _ _ _ HG p Hp) as (_ & om & q & note & -> & Hq & ->). exists om. split; [done|].
  apply elem_of_list_fmap. by exists q.
Qed.

Lemma gath_accounts_failed i o cur s t1 s1 ps ks s' tf (X : list inst) t : names_ok o ->
  gath (source o) cur s t1 s1 ps ks -> core_map s' = core_map s1 -> released s' tf ->
  refs t (map pl_inst ps ++ X) (map pl_inst ps) (increments t1) (decrements tf) -> stores t = [] ->
  wt i t = (sum_has i (stores t) + cnt i (created t) - cnt i (admitted t))%Z.
Proof.
  intros HD HG Hc HR [R1 R2 R3 R4] Hst. destruct (released_facts _ _ HR) as (qs & Rq & Hperm & _).
  rewrite wt_eq, R1, R2, R3, R4, Hst, (rf_dec _ _ _ _ _ Rq), !cnt_app, (cnt_perm _ _ _ (g_inc _ _ _ _ _ _ _ HG)).
  rewrite (cnt_perm i _ _ (Permutation_map pl_inst Hperm)), (cnt_perm i _ _ (gath_insts _ _ _ _ _ _ _ _ HG HD Hc)), cnt_app. cbn [sum_has]. lia.
Qed.

Lemma call_accounts o h cur a t r : next_call o h cur (api_prog o a) t r -> distinct_registrations o -> accounts o cur t.
Proof.
  intros HN HD. pose proof (next_run _ _ _ _ _ _ HN) as HL.
  assert (Hinc : forall src s t1 s1 ps ks i, gath src (old_seen o cur) s t1 s1 ps ks -> i ∈ increments t1 ->
    o_static o = None /\ exists om, cur = Some om /\ i ∈ insts om).
  { intros src s t1 s1 ps ks i HG Hi. destruct (gath_inc _ _ _ _ _ _ _ _ HG Hi) as (om & Hom & Hi'). unfold old_seen in Hom.
    destruct (o_static o); [done|]. split; [done|]. by exists om. }
  assert (Hcore : forall data s1 t2 s' ob src cur s t1 ps ks, gath src cur s t1 s1 ps ks -> exec (lifecycle data s1) t2 (s', ob) -> core_map s' = core_map s1).
  { intros data s1 t2 s' ob src cur' s t1 ps ks HG HE. apply exec_lifecycle in HE as (? & ? & ? & ? & ? & _ & _ & _ & _ & _ & _ & _ & _ & ? & _); [done|apply HG..]. }
  destruct HL as [t' r' H1 H2 H3
    |ta s t1 tl s' ps ks tf tz e Hb Sa Sz Na Nz HG HO HR He Hpr
    |ta s t1 s1 t2 s' ob ps ks tf tz e Hb Sa Sz Na Nz HG HE Hv HR He Hpr
    |ta s t1 s1 t2 new ps ks tc tf tz e Hb Sa Sz Sc Na Nz Nc HG HE HR He Hpr
    |ta s t1 s1 t2 new ps ks tz d Hb Sa Sz Na HP HU HG HE Hpr].
  - constructor.
    + intros i. rewrite (silent_wt i _ H1). destruct H1 as (_ & _ & _ & -> & ->). destruct (no_publish_stores _ H2) as [-> _]. done.
    + destruct H1 as (_ & _ & _ & -> & ->). by exists [].
    + exists t', []. by rewrite app_nil_r; destruct H1 as (_ & _ & -> & _).
    + destruct H1 as (_ & -> & _). intros i Hi. by apply elem_of_nil in Hi.
  - destruct (released_facts _ _ HR) as (fs & Rf & _). pose proof (gath_refs _ _ _ _ _ _ _ HG) as Rg.
    destruct HO as (O1 & O2 & O3 & _). assert (Ro : refs tl (created tl) [] [] []) by (by constructor).
    assert (Rt : refs (ta ++ t1 ++ tl ++ tf ++ tz) (map pl_inst ps ++ created tl) (map pl_inst ps) (increments t1) (decrements tf)).
    { eapply refs_eq; [apply (refs_app _ _ _ _ _ _ _ _ _ _ (refs_silent _ Sa) (refs_app _ _ _ _ _ _ _ _ _ _ Rg (refs_app _ _ _ _ _ _ _ _ _ _ Ro (refs_app _ _ _ _ _ _ _ _ _ _ Rf (refs_silent _ Sz)))))|..];
        rewrite ?app_nil_r, ?app_nil_l; try done. by rewrite (rf_dec _ _ _ _ _ Rf). }
    constructor.
    + intros i. apply (gath_accounts_failed i _ _ _ _ _ _ _ s' tf (created tl) _ (names_ok_spec _ HD) HG eq_refl HR Rt). rewrite !stores_app. destruct (no_publish_stores _ Na) as [-> _]. destruct (no_publish_stores _ Nz) as [-> _].
      apply private_no_publish in Hpr. destruct (no_publish_stores _ Hpr) as [Hq _]. rewrite !stores_app in Hq. by rewrite (right_id_L [] (++)), Hq.
    + rewrite (rf_created _ _ _ _ _ Rt), (rf_admitted _ _ _ _ _ Rt). by eexists.
    + exists (ta ++ t1 ++ tl), (tf ++ tz). split_and!; [by rewrite <- !(assoc_L (++))|..].
      * unfold decrements. rewrite !omap_app. change (decrements ta ++ decrements t1 ++ decrements tl = []). destruct Sa as (_ & _ & -> & _). by rewrite (rf_dec _ _ _ _ _ Rg), (rf_dec _ _ _ _ _ Ro).
      * rewrite created_app. destruct Sz as (_ & _ & _ & -> & _). by rewrite (rf_created _ _ _ _ _ Rf).
      * unfold increments. rewrite !omap_app. change (increments tf ++ increments tz = []). destruct Sz as (_ & -> & _). by rewrite (rf_inc _ _ _ _ _ Rf).
    + rewrite (rf_inc _ _ _ _ _ Rt). intros i Hi. by eapply Hinc.
  - destruct (released_facts _ _ HR) as (fs & Rf & _). pose proof (gath_refs _ _ _ _ _ _ _ HG) as Rg.
    pose proof (life_refs _ _ _ _ _ (g_ordered _ _ _ _ _ _ _ HG) (g_funcs _ _ _ _ _ _ _ HG) (g_types _ _ _ _ _ _ _ HG) HE) as Rl.
    assert (Rt : refs (ta ++ t1 ++ t2 ++ tf ++ tz) (map pl_inst ps ++ []) (map pl_inst ps) (increments t1) (decrements tf)).
    { eapply refs_eq; [apply (refs_app _ _ _ _ _ _ _ _ _ _ (refs_silent _ Sa) (refs_app _ _ _ _ _ _ _ _ _ _ Rg (refs_app _ _ _ _ _ _ _ _ _ _ Rl (refs_app _ _ _ _ _ _ _ _ _ _ Rf (refs_silent _ Sz)))))|..];
        rewrite ?app_nil_r, ?app_nil_l; try done. by rewrite (rf_dec _ _ _ _ _ Rf). }
    constructor.
    + intros i. apply (gath_accounts_failed i _ _ _ _ _ _ _ s' tf [] _ (names_ok_spec _ HD) HG (Hcore _ _ _ _ _ _ _ _ _ _ _ HG HE) HR Rt). rewrite !stores_app. destruct (no_publish_stores _ Na) as [-> _]. destruct (no_publish_stores _ Nz) as [-> _].
      apply private_no_publish in Hpr. destruct (no_publish_stores _ Hpr) as [Hq _]. rewrite !stores_app in Hq. by rewrite (right_id_L [] (++)), Hq.
    + rewrite (rf_created _ _ _ _ _ Rt), (rf_admitted _ _ _ _ _ Rt). by eexists.
    + exists (ta ++ t1 ++ t2), (tf ++ tz). split_and!; [by rewrite <- !(assoc_L (++))|..].
      * unfold decrements. rewrite !omap_app. change (decrements ta ++ decrements t1 ++ decrements t2 = []). destruct Sa as (_ & _ & -> & _). by rewrite (rf_dec _ _ _ _ _ Rg), (rf_dec _ _ _ _ _ Rl).
      * rewrite created_app. destruct Sz as (_ & _ & _ & -> & _). by rewrite (rf_created _ _ _ _ _ Rf).
      * unfold increments. rewrite !omap_app. change (increments tf ++ increments tz = []). destruct Sz as (_ & -> & _). by rewrite (rf_inc _ _ _ _ _ Rf).
    + rewrite (rf_inc _ _ _ _ _ Rt). intros i Hi. by eapply Hinc.
  - destruct (released_facts _ _ HR) as (fs & Rf & _). pose proof (gath_refs _ _ _ _ _ _ _ HG) as Rg.
    pose proof (life_refs _ _ _ _ _ (g_ordered _ _ _ _ _ _ _ HG) (g_funcs _ _ _ _ _ _ _ HG) (g_types _ _ _ _ _ _ _ HG) HE) as Rl.
    rewrite (assoc_L (++)) in Hpr. apply Forall_app in Hpr as [Hp1 Hp2]. apply Forall_app in Hp1 as [Hp0 Hp1].
    assert (Rt : refs (ta ++ t1 ++ t2 ++ tc ++ tf ++ tz) (map pl_inst ps ++ []) (map pl_inst ps) (increments t1) (decrements tf)).
    { eapply refs_eq; [apply (refs_app _ _ _ _ _ _ _ _ _ _ (refs_silent _ Sa) (refs_app _ _ _ _ _ _ _ _ _ _ Rg (refs_app _ _ _ _ _ _ _ _ _ _ Rl (refs_app _ _ _ _ _ _ _ _ _ _ (refs_silent _ Sc) (refs_app _ _ _ _ _ _ _ _ _ _ Rf (refs_silent _ Sz))))))|..];
        rewrite ?app_nil_r, ?app_nil_l; try done. by rewrite (rf_dec _ _ _ _ _ Rf). }
    constructor.
    + intros i. apply (gath_accounts_failed i _ _ _ _ _ _ _ new tf [] _ (names_ok_spec _ HD) HG (Hcore _ _ _ _ _ _ _ _ _ _ _ HG HE) HR Rt). rewrite !stores_app. destruct (no_publish_stores _ Na) as [-> _]. destruct (no_publish_stores _ Nz) as [-> _].
      apply private_no_publish in Hp0, Hp1, Hp2. destruct (no_publish_stores _ Hp0) as [-> _]. destruct (no_publish_stores _ Hp1) as [-> _]. destruct (no_publish_stores _ Hp2) as [-> _]. by destruct (no_publish_stores _ Nc) as [-> _].
    + rewrite (rf_created _ _ _ _ _ Rt), (rf_admitted _ _ _ _ _ Rt). by eexists.
    + exists (ta ++ t1 ++ t2 ++ tc), (tf ++ tz). split_and!; [by rewrite <- !(assoc_L (++))|..].
      * unfold decrements. rewrite !omap_app. change (decrements ta ++ decrements t1 ++ decrements t2 ++ decrements tc = []). destruct Sa as (_ & _ & -> & _). destruct Sc as (_ & _ & -> & _). by rewrite (rf_dec _ _ _ _ _ Rg), (rf_dec _ _ _ _ _ Rl).
      * rewrite created_app. destruct Sz as (_ & _ & _ & -> & _). by rewrite (rf_created _ _ _ _ _ Rf).
      * unfold increments. rewrite !omap_app. change (increments tf ++ increments tz = []). destruct Sz as (_ & -> & _). by rewrite (rf_inc _ _ _ _ _ Rf).
    + rewrite (rf_inc _ _ _ _ _ Rt). intros i Hi. by eapply Hinc.
  - pose proof (gath_refs _ _ _ _ _ _ _ HG) as Rg.
    pose proof (life_refs _ _ _ _ _ (g_ordered _ _ _ _ _ _ _ HG) (g_funcs _ _ _ _ _ _ _ HG) (g_types _ _ _ _ _ _ _ HG) HE) as Rl.
    assert (Rt : refs (ta ++ t1 ++ t2 ++ tz) (map pl_inst ps) (map pl_inst ps) (increments t1) []).
    { eapply refs_eq; [apply (refs_app _ _ _ _ _ _ _ _ _ _ (refs_silent _ Sa) (refs_app _ _ _ _ _ _ _ _ _ _ Rg (refs_app _ _ _ _ _ _ _ _ _ _ Rl (refs_silent _ Sz))))|..];
        rewrite ?app_nil_r, ?app_nil_l; done. }
    assert (Hst : stores (ta ++ t1 ++ t2 ++ tz) = [new]).
    { assert (Hpub : published (ta ++ t1 ++ t2 ++ tz) new) by (unfold published; rewrite !elem_of_app; right; right; by right).
      destruct (call_shape _ _ _ _ _ _ HN) as [Hnp|(tc & m & tz' & Heq & Hnc & Hez)]; [by apply (no_publish_not _ new) in Hnp|].
      destruct (ending_silent _ Hez) as [_ Hnz]. destruct (pubs_facts o cur m) as [_ Hm].
      assert (Hs : stores (ta ++ t1 ++ t2 ++ tz) = [m]).
      { rewrite Heq, !stores_app, Hm. destruct (no_publish_stores _ Hnc) as [-> _]. by destruct (no_publish_stores _ Hnz) as [-> _]. }
      rewrite Hs. apply stores_in in Hpub. rewrite Hs in Hpub. by apply elem_of_list_singleton in Hpub as ->. }
    constructor.
    + intros i. rewrite wt_eq, (rf_created _ _ _ _ _ Rt), (rf_admitted _ _ _ _ _ Rt), (rf_inc _ _ _ _ _ Rt), (rf_dec _ _ _ _ _ Rt), Hst. cbn [sum_has].
      unfold has, insts. rewrite (cnt_perm i _ _ (gath_insts _ _ _ _ _ _ _ _ HG (names_ok_spec _ HD) (Hcore _ _ _ _ _ _ _ _ _ _ _ HG HE))), cnt_app, (cnt_perm i _ _ (g_inc _ _ _ _ _ _ _ HG)). cbn [cnt]. lia.
    + rewrite (rf_created _ _ _ _ _ Rt), (rf_admitted _ _ _ _ _ Rt). exists []. by rewrite app_nil_r.
    + exists (ta ++ t1 ++ t2 ++ tz), []. rewrite app_nil_r. by rewrite (rf_dec _ _ _ _ _ Rt).
    + rewrite (rf_inc _ _ _ _ _ Rt). intros i Hi. by eapply Hinc.
Qed.

(** *** Part of a call *)
Lemma wt_prefix_nonneg i (ta tb t t' : list event) : decrements ta = [] -> created tb = [] -> increments tb = [] -> (0 <= wt i (ta ++ tb))%Z ->
  ta ++ tb = t ++ t' -> (0 <= wt i t)%Z.
Proof.
  intros Hd Hc Hi Hw Heq. apply app_eq_inv in Heq as [(k & -> & ->)|(k & -> & ->)].
  - unfold decrements in Hd. rewrite omap_app in Hd. apply app_eq_nil in Hd as [Hd _]. rewrite wt_eq. unfold decrements. rewrite Hd. cbn [cnt].
    pose proof (cnt_nonneg i (created t)). pose proof (cnt_nonneg i (increments t)). lia.
  - rewrite wt_app in Hw |- *. rewrite wt_app in Hw.
    rewrite created_app in Hc. apply app_eq_nil in Hc as [_ Hc]. unfold increments in Hi. rewrite omap_app in Hi. apply app_eq_nil in Hi as [_ Hi].
    assert (wt i t' <= 0)%Z; [|lia]. rewrite wt_eq. unfold increments. rewrite Hc, Hi. cbn [cnt]. pose proof (cnt_nonneg i (decrements t')). lia.
Qed.

Lemma accounts_extra o cur t i : accounts o cur t -> (cnt i (admitted t) <= cnt i (created t))%Z.
Proof. intros [_ (X & ->) _ _]. rewrite cnt_app. pose proof (cnt_nonneg i X). lia. Qed.

Record part (o : opts) (cur : option mgr) (t T : list event) : Prop := mkPart {
  pt_nonneg : forall i, (0 <= wt i t)%Z;
  pt_cases : no_publish t \/
    (exists m, stores T = [m] /\ ((stores t = [] /\ old_seen o cur <> None) \/ stores t = [m]) /\ releases t = releases (spawned o (old_seen o cur)) /\
       (forall i, wt i t = wt i T) /\ admitted t = admitted T /\ created t = created T) }.

Lemma call_part o h cur a t t' r : next_call o h cur (api_prog o a) (t ++ t') r -> distinct_registrations o -> part o cur t (t ++ t').
Proof.
  intros HN HD. pose proof (call_accounts _ _ _ _ _ _ HN HD) as HA. constructor.
  - intros i. destruct (ac_split _ _ _ HA) as (ta & tb & Heq & H1 & H2 & H3). eapply (wt_prefix_nonneg i ta tb t t'); try done.
    rewrite <- Heq, (ac_sum _ _ _ HA). pose proof (accounts_extra _ _ _ i HA). pose proof (sum_has_nonneg i (stores (t ++ t'))). lia.
  - destruct (call_shape _ _ _ _ _ _ HN) as [Hnp|(tc & m & tz & Heq & Hnc & Hez)].
    + left. unfold no_publish in Hnp |- *. by apply Forall_app in Hnp as [? _].
    + destruct (ending_silent _ Hez) as [Hsz Hnz]. destruct (pubs_facts o cur m) as [Hsp Hm].
      assert (Hst : stores (t ++ t') = [m]).
      { rewrite Heq, !stores_app, Hm. destruct (no_publish_stores _ Hnc) as [-> _]. by destruct (no_publish_stores _ Hnz) as [-> _]. }
      symmetry in Heq. apply app_eq_inv in Heq as [(k & -> & Hk)|(k & -> & Hk)].
      { left. by apply Forall_app in Hnc as [? _]. }
      destruct k as [|e k]; [left; by rewrite app_nil_r|].
      right. exists m. rewrite Hst. 
      assert (Hall : silent (e :: k) /\ silent t').
      { assert (Hs : silent ((e :: k) ++ t')) by (rewrite <- Hk; by apply silent_app).
        unfold silent, call_sigs, increments, decrements, created, admitted in Hs |- *. rewrite !omap_app in Hs.
        destruct Hs as (Q1 & Q2 & Q3 & Q4 & Q5). apply app_eq_nil in Q1 as [? ?], Q2 as [? ?], Q3 as [? ?], Q4 as [? ?], Q5 as [? ?]. done. }
      destruct Hall as [Se St]. clear Hst.
      assert (Hpart : (stores (e :: k) = [] /\ old_seen o cur <> None \/ stores (e :: k) = [m]) /\ releases (e :: k) = releases (spawned o (old_seen o cur))).
      { assert (Hend : forall k1 k2, k1 ++ k2 = tz -> stores k1 = [] /\ releases k1 = []).
        { intros k1 k2 <-. apply Forall_app in Hnz as [Hn _]. by apply no_publish_stores. }
        unfold pubs in Hk. destruct (old_seen o cur) as [om|]; cbn [spawned app] in Hk |- *.
        - injection Hk as <- Hk. destruct k as [|e' k]; [split; [by left|done]|]. cbn [app] in Hk. injection Hk as <- Hk. symmetry in Hk.
          destruct (Hend _ _ Hk) as [H1 H2]. split; [right; change (m :: stores k = [m]); by rewrite H1|].
          change ((om, free_delay o) :: releases k = [(om, free_delay o)]). by rewrite H2.
        - injection Hk as <- Hk. symmetry in Hk. destruct (Hend _ _ Hk) as [H1 H2]. split; [right; change (m :: stores k = [m]); by rewrite H1|].
          change (releases k = []). by rewrite H2. }
      destruct Hpart as [P1 P2]. split_and!; [done|..].
      * rewrite stores_app. by destruct (no_publish_stores _ Hnc) as [-> _].
      * rewrite releases_app. by destruct (no_publish_stores _ Hnc) as [_ ->].
      * intros i. rewrite !wt_app, (silent_wt i _ St). lia.
      * unfold admitted. rewrite !omap_app. destruct St as (_ & _ & _ & _ & Hz). unfold admitted in Hz. by rewrite Hz, (right_id_L [] (++)).
      * rewrite (created_app _ t'). destruct St as (_ & _ & _ & Hz & _). by rewrite Hz, (right_id_L [] (++)).
Qed.


(** ** A history *)
Lemma fresh_prefix h t : fresh_objects (h ++ t) -> fresh_objects h.
Proof. unfold fresh_objects. rewrite created_app. intros H. by apply NoDup_app in H as (? & _ & _). Qed.
Lemma after_stores t : forall cur, after cur t = match last (stores t) with Some m => Some m | None => cur end.
Proof.
  induction t as [|e t IH]; intros cur; [done|]. unfold after. cbn [fold_left]. fold (after (match e with EvStore m => Some m | _ => cur end) t). rewrite IH.
  change (e :: t) with ([e] ++ t). rewrite stores_app. destruct e; cbn [stores omap list_omap app]; try done.
  rewrite last_cons. by destruct (last (stores t)).
Qed.

Record ledger (o : opts) (h : list event) (cur : option mgr) : Prop := mkLedger {
  lg_sum : forall i, wt i h = (sum_has i (stores h) + cnt i (created h) - cnt i (admitted h))%Z;
  lg_extra : forall i, (cnt i (admitted h) <= cnt i (created h))%Z;
  lg_rest : exists rest, stores h = map fst (releases h) ++ rest /\ (forall m, cur = Some m -> m ∈ rest) /\
     (o_static o = None -> rest = option_list cur) /\ (o_static o <> None -> releases h = []);
  lg_ready : forall m, m ∈ stores h -> keyed (pm_map m) /\ deps_ready (pm_map m) (pm_ordered m) }.

Lemma no_publish_after cur t : no_publish t -> after cur t = cur.
Proof. intros H. rewrite after_stores. by destruct (no_publish_stores _ H) as [-> _]. Qed.

Lemma history_ledger o h cur : history o h cur -> fresh_objects h -> distinct_registrations o -> ledger o h cur.
Proof.
  intros HH Hf HD. induction HH as [|h cur p t r HH IH Hc He Hs]; [constructor; try done; [|by intros m Hm; apply elem_of_nil in Hm]; by exists []|].
  destruct (IH (fresh_prefix _ _ Hf)) as [L1 L2 (rest & R1 & R2 & R3 & R4) L4].
  assert (HN : next_call o h cur p t r) by done. apply load_call_api in Hc as (a & ->).
  pose proof (call_accounts _ _ _ _ _ _ HN HD) as HA. constructor.
  - intros i. rewrite wt_app, stores_app, sum_has_app, created_app, cnt_app, L1, (ac_sum _ _ _ HA).
    unfold admitted. rewrite omap_app, cnt_app. lia.
  - intros i. rewrite created_app, cnt_app. unfold admitted. rewrite omap_app, cnt_app. pose proof (L2 i). pose proof (accounts_extra _ _ _ i HA). unfold admitted in *. lia.
  - destruct (call_shape _ _ _ _ _ _ HN) as [Hnp|(tc & m & tz & -> & Hnc & Hez)].
    + exists rest. rewrite (no_publish_after _ _ Hnp), stores_app, releases_app. destruct (no_publish_stores _ Hnp) as [-> ->]. by rewrite !(right_id_L [] (++)).
    + destruct (ending_silent _ Hez) as [_ Hnz]. destruct (pubs_facts o cur m) as [_ Hm].
      rewrite after_stores, !stores_app, !releases_app, Hm. destruct (no_publish_stores _ Hnc) as [-> ->]. destruct (no_publish_stores _ Hnz) as [-> ->].
      cbn [app last]. rewrite !(right_id_L [] (++)), R1. unfold pubs, old_seen. rewrite releases_app. change (releases [EvStore m]) with (@nil (mgr * Z)). rewrite (right_id_L [] (++)).
      destruct (o_static o) as [st|].
      * rewrite R4 by done. exists (rest ++ [m]). split_and!; try done. intros m' [= <-]. apply elem_of_app. right. by apply elem_of_list_singleton.
      * exists [m]. rewrite R3 by done. split_and!; try done; [|intros m' [= <-]; by apply elem_of_list_singleton].
        destruct cur as [om|]; cbn; [|by rewrite !(right_id_L [] (++))]. by rewrite map_app.
  - intros m Hm. rewrite stores_app, elem_of_app in Hm. destruct Hm as [Hm|Hm]; [by apply L4|]. apply stores_in in Hm. by eapply pub_ready.
Qed.

(** ** Releasing a manager *)
Lemma free_task o m d t r : exec (task_prog o (TFree m d)) t r -> deps_ready (pm_map m) (pm_ordered m) ->
  exists t', t = EvSleep (pm_id m) d :: t' /\ released m t' /\ r = Returned (Val tt).
Proof.
  cbn [task_prog]. intros He (_ & _ & _ & Hp & _). apply exec_bind in He as (u & u' & o1 & -> & He & Hr). destruct Hr as [-> ->].
  rewrite (right_id_L [] (++)). unfold freeThread in He. apply exec_bind in He as (u1 & u2 & x & -> & H1 & H2). apply exec_do in H1 as [_ ->].
  apply exec_invokeEveryOnFree in H2 as (-> & ps & ts & -> & HF & Hperm & Hord); [|by right]. exists (concat ts). split_and!; [done| |done]. by exists ps, ts.
Qed.


End Proofs.
