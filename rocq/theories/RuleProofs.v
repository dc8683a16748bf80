(** A load in a well-behaved environment, by plugins that obey the rules, succeeds *)
From Verif Require Export Rules RunProofs OpenProofs.

Section Proofs.
Context {E : GoEnv}.
Context (D : string -> described) (entries : list (string * bool)) (content : string -> string).
Notation W := (Forall (well_behaved D entries content)).

Lemma good_call r mid p arg t o : W t -> get_func r (pl_funcs p) <> None -> exec (call r mid p arg) t o ->
  good_answer (D (pl_name p)) r o.
Proof.
  intros HW Hg Hx. unfold call in Hx. destruct (get_func r (pl_funcs p)) as [c|]; [|done]. apply exec_do in Hx as [_ ->].
  cbn [ev] in HW. rewrite Forall_singleton in HW. exact HW.
Qed.
Lemma good_answered r mid arg p x t : W t -> answered r mid arg p x t -> good_answer (D (pl_name p)) r x.
Proof. intros HW (code & _ & Hin). rewrite Forall_forall in HW. exact (HW _ Hin). Qed.

Context (kept : string -> option plugin) (names : list string).

(** the manager after all plugins are gathered *)
Record view (s : mgr) : Prop := mkView {
  v_names : forall k p, pm_map s !! k = Some p -> pl_name p ∈ names /\ k = to_lower (pl_name p);
  v_all : forall n, n ∈ names -> exists p, pm_map s !! to_lower n = Some p /\ pl_name p = n;
  v_nodup : NoDup names;
  v_kept : forall k p, pm_map s !! k = Some p -> pl_unchanged p = true -> exists q, kept (pl_name p) = Some q /\
     pl_deps p = pl_deps q /\ pl_exported p = pl_exported q /\ pl_reloadable p = pl_reloadable q;
  v_new : forall k p, pm_map s !! k = Some p -> pl_unchanged p = false -> kept (pl_name p) = None /\
     pl_exported p = d_export (D (pl_name p)) /\ pl_reloadable p = d_reloadable (D (pl_name p)) /\ pl_deps p = [] /\
     forall r, get_func r (pl_funcs p) <> None;
  v_live : forall k p r, pm_map s !! k = Some p -> r = RLiveFuncs \/ r = RLiveTypes -> get_func r (pl_funcs p) <> None }.

Lemma view_exports s k p : view s -> pm_map s !! k = Some p -> pl_exported p = exports_of D kept (pl_name p).
Proof.
  intros HV Hp. unfold exports_of. destruct (pl_unchanged p) eqn:Hu.
  - by destruct (v_kept s HV k p Hp Hu) as (q & -> & _ & -> & _).
  - by destruct (v_new s HV k p Hp Hu) as (-> & -> & _).
Qed.
Lemma view_reloadable s k p : view s -> pm_map s !! k = Some p -> pl_reloadable p = reloadable_of D kept (pl_name p).
Proof.
  intros HV Hp. unfold reloadable_of. destruct (pl_unchanged p) eqn:Hu.
  - by destruct (v_kept s HV k p Hp Hu) as (q & -> & _ & _ & ->).
  - by destruct (v_new s HV k p Hp Hu) as (-> & _ & -> & _).
Qed.
Lemma view_same s n1 n2 : view s -> n1 ∈ names -> n2 ∈ names -> to_lower n1 = to_lower n2 -> n1 = n2.
Proof.
  intros HV H1 H2 He. destruct (v_all s HV _ H1) as (p1 & L1 & <-). destruct (v_all s HV _ H2) as (p2 & L2 & <-).
  rewrite He, L2 in L1. by injection L1 as ->.
Qed.

(** the dependencies after wiring *)
Lemma wiring_edge s s' t a b : W t -> view s -> wiring s s' t -> dom (pm_map s') ⊆ dom (pm_map s) -> edge (pm_map s') a b ->
  exists n d, n ∈ names /\ a = to_lower n /\ d ∈ deps_of D kept n /\ to_lower d = b /\
    (kept n = None -> exists q, q ∈ names /\ to_lower q = b).
Proof.
  intros HW HV Hwi Hdom (p' & d & Hp' & Hd & Hb).
  assert (is_Some (pm_map s !! a)) as [p Hp]. { apply elem_of_dom, Hdom, elem_of_dom. eauto. }
  destruct (Hwi a p Hp) as (p2 & Hp2 & Hw). rewrite Hp' in Hp2. injection Hp2 as <-.
  destruct (v_names s HV a p Hp) as [Hn Ha]. exists (pl_name p).
  destruct (pl_unchanged p) eqn:Hu.
  - subst p'. destruct (v_kept s HV a p Hp Hu) as (q & Hk & Hdq & _). exists d. split_and!; [done|done| |exact Hb|by rewrite Hk].
    unfold deps_of. rewrite Hk, <- Hdq. done.
  - destruct Hw as (imp & Ha' & fields & qs & Hf & HF & ->). destruct (v_new s HV a p Hp Hu) as (Hk & _ & _ & Hnil & _).
    pose proof (good_answered _ _ _ _ _ _ HW Ha') as Hg. cbn in Hg. injection Hg as ->.
    cbn [set_wires pl_deps] in Hd. rewrite Hnil in Hd. cbn [app] in Hd. apply elem_of_list_fmap in Hd as (q & -> & Hq).
    apply elem_of_list_lookup in Hq as (i & Hi). destruct (Forall2_lookup_r _ _ _ _ _ HF Hi) as (f & Hfi & Hok & _).
    apply core_map_lookup_inv in Hok as (q0 & Hq0 & ->). destruct (v_names s HV _ _ Hq0) as [Hq1 Hq2].
    exists (sf_name f). split_and!; [done|done| | |].
    + unfold deps_of. rewrite Hk, Hf. apply elem_of_list_fmap. exists f. split; [done|]. by eapply elem_of_list_lookup_2.
    + rewrite <- Hb. change (name2key (pl_name (core q0))) with (to_lower (pl_name q0)). rewrite <- Hq2. done.
    + intros _. exists (pl_name q0). split; [done|]. rewrite <- Hb. done.
Qed.

Hypothesis HR : rules D kept names.

Lemma deps_ok s s' t o : W t -> view s -> exec (initDeps s) t (s', o) -> o = Val tt.
Proof.
  intros HW HV Hx. destruct (decide (is_val o)) as [Hv|Hv]; [by destruct o as [[]| |]|exfalso].
  pose proof (exec_initDeps _ _ _ _ Hx) as (_ & _ & _ & _ & _ & Hcore & _).
  destruct (exec_initDeps_fail _ _ _ _ Hx Hv) as [(k & p & Hp & Hu & HI)|(Hwi & Hbad)].
  - destruct (v_new s HV k p Hp Hu) as (Hk & He & Hr & Hnil & Hfun). destruct (v_names s HV k p Hp) as [Hn _].
    destruct HI as [(x & _ & [[Hf _]|Ha])|(imp & Ha & Hbad)].
    + by apply (Hfun RImport).
    + pose proof (good_answered _ _ _ _ _ _ HW Ha) as Hg. by cbn in Hg.
    + pose proof (good_answered _ _ _ _ _ _ HW Ha) as Hg. cbn in Hg. injection Hg as ->.
      destruct (rule_imports _ _ _ HR _ Hn Hk) as (fields & Hf & Hser). destruct Hbad as [[Hz _]|(fields' & f & Hf' & Hin & Hbf)]; [by rewrite Hf in Hz|].
      rewrite Hf in Hf'. injection Hf' as <-. destruct (Hser f Hin) as (q & Hq & Hsame & Hs1 & Hs3 & Hs4).
      destruct (v_all s HV _ Hq) as (pq & Hpq & Hqn). pose proof (core_map_lookup _ _ _ Hpq) as Hcq.
      unfold bad_field in Hbf. unfold name2key in Hbf. rewrite Hsame, Hcq in Hbf.
      destruct Hbf as [[? _]|[[? _]|(q' & Hq' & Hbf)]]; [congruence|done|]. injection Hq' as <-.
      destruct Hbf as [(B1 & B2 & _)|(x & Hx1 & Hbf)].
      * cbn [core pl_reloadable] in B2. rewrite (view_reloadable _ _ _ HV Hpq), Hqn in B2. rewrite Hr in B1. by rewrite (Hs3 B1) in B2.
      * unfold field_value in Hx1. cbn [core pl_exported] in Hx1. rewrite (view_exports _ _ _ HV Hpq), Hqn in Hx1.
        destruct (exports_of D kept q) as [g|] eqn:Hg; [|done]. destruct (is_nil (Some g)) eqn:Hnn; [done|]. injection Hx1 as <-.
        cbn [snd] in Hbf. destruct (Hs4 g eq_refl Hnn) as [B1 B2]. destruct Hbf as [[B _]|[B _]]; congruence.
  - assert (Hdom : dom (pm_map s') ⊆ dom (pm_map s)).
    { intros k Hk. apply elem_of_dom in Hk as [p' Hp']. apply elem_of_dom. apply core_map_lookup in Hp'. rewrite Hcore in Hp'.
      apply core_map_lookup_inv in Hp' as (p & ? & _). eauto. }
    assert (Hedge : forall a b, edge (pm_map s') a b -> exists na nb, na ∈ names /\ nb ∈ names /\ a = to_lower na /\ b = to_lower nb /\ needs D kept names na nb).
    { intros a b Hab. destruct (wiring_edge _ _ _ _ _ HW HV Hwi Hdom Hab) as (n & d & Hn & -> & Hd & <- & Hq).
      destruct (kept n) as [p|] eqn:Hkn.
      - pose proof Hd as Hd0. unfold deps_of in Hd. rewrite Hkn in Hd. destruct (rule_kept _ _ _ HR n p d Hn Hkn Hd) as (q & Hq1 & Hq2 & _).
        exists n, q. split_and!; [done|done|done|exact Hq2|]. split_and!; [done|done|]. by exists d.
      - destruct (Hq eq_refl) as (q & Hq1 & Hq2). exists n, q. split_and!; [done|done|done|done|]. split_and!; [done|done|]. exists d. split; [done|]. unfold same_name. done. }
    destruct Hbad as [(l & z & _ & Hch & Hz)|[(_ & a & b & Hab & Hnone)|(k & p & d & q & Hp & _ & Hu & Hd & Hq & Hqu)]].
    + pose proof (chain_tc _ _ _ Hch Hz) as Htc.
      assert (Hgen : forall a b, tc (edge (pm_map s')) a b -> exists na nb, na ∈ names /\ nb ∈ names /\ a = to_lower na /\ b = to_lower nb /\ tc (needs D kept names) na nb).
      { intros a b Hab. induction Hab as [a b Hab|a b c Hab _ IH].
        - destruct (Hedge _ _ Hab) as (na & nb & ? & ? & ? & ? & ?). exists na, nb. split_and!; try done. by constructor.
        - destruct (Hedge _ _ Hab) as (na & nb & Ha & Hb & Ea & Eb & ?). destruct IH as (nb' & nc & Hb' & ? & Eb' & ? & ?).
          exists na, nc. split_and!; try done. assert (nb' = nb) as -> by (eapply view_same; [exact HV|done..|congruence]). by eapply tc_l. }
      destruct (Hgen _ _ Htc) as (na & nb & Ha & Hb & Ea & Eb & Hc).
      assert (nb = na) as -> by (eapply view_same; [exact HV|done..|congruence]). by apply (rule_acyclic _ _ _ HR na).
    + destruct (Hedge _ _ Hab) as (na & nb & _ & Hb & _ & -> & _). destruct (v_all s HV _ Hb) as (pb & Hpb & _).
      destruct (Hwi _ _ Hpb) as (p' & Hp' & _). congruence.
    + assert (exists p0, pm_map s !! k = Some p0) as [p0 Hp0]. { apply elem_of_dom, Hdom, elem_of_dom. eauto. }
      destruct (Hwi _ _ Hp0) as (p' & Hp' & Hw). rewrite Hp in Hp'. injection Hp' as <-.
      assert (Hu0 : pl_unchanged p0 = true).
      { destruct (pl_unchanged p0) eqn:Hz; [done|]. destruct Hw as (imp & _ & fs & qs & _ & _ & ->). cbn in Hu. congruence. }
      rewrite Hu0 in Hw. subst p0. destruct (v_kept s HV _ _ Hp0 Hu) as (qk & Hk & Hdk & _). destruct (v_names s HV _ _ Hp0) as [Hn _].
      rewrite Hdk in Hd. destruct (rule_kept _ _ _ HR _ _ _ Hn Hk Hd) as (n & Hn1 & Hn2 & Hn3).
      destruct (v_all s HV _ Hn1) as (pn & Hpn & Hnn). destruct (Hwi _ _ Hpn) as (pn' & Hpn' & Hwn).
      unfold name2key in Hq. rewrite Hn2, Hpn' in Hq. injection Hq as ->.
      destruct (pl_unchanged pn) eqn:Hun; [congruence|]. destruct (v_new s HV _ _ Hpn Hun) as [Hz _]. rewrite Hnn in Hz. done.
Qed.

(** the functions that will be called exist *)
Definition funcs_ok (s : mgr) : Prop := forall k p, pm_map s !! k = Some p ->
  (pl_unchanged p = false -> forall r, get_func r (pl_funcs p) <> None) /\
  (forall r, r = RLiveFuncs \/ r = RLiveTypes -> get_func r (pl_funcs p) <> None).
Lemma view_funcs s s' : view s -> core_map s' = core_map s -> funcs_ok s'.
Proof.
  intros HV Hc k p Hp. apply core_map_lookup in Hp. rewrite Hc in Hp. apply core_map_lookup_inv in Hp as (p0 & Hp0 & Heq).
  assert (pl_funcs p = pl_funcs p0) as -> by (by apply (f_equal pl_funcs) in Heq).
  assert (pl_unchanged p = pl_unchanged p0) as -> by (by apply (f_equal pl_unchanged) in Heq).
  split; [|intros r; by apply (v_live s HV k p0)]. intros Hu. by destruct (v_new s HV k p0 Hp0 Hu) as (_ & _ & _ & _ & ?).
Qed.

Lemma onLoads_ok data keys s t s' o : W t -> funcs_ok s -> (forall k, k ∈ keys -> is_Some (pm_map s !! k)) ->
  exec (sfor keys (onLoadOne data) s) t (s', o) -> o = Val tt.
Proof.
  intros HW HF. revert t HW. induction keys as [|k keys IH]; intros t HW Hk Hx; cbn [sfor] in Hx; [by xinv Hx|].
  destruct (Hk k) as [p Hp]; [left|].
  assert (Hone : forall t s' o, W t -> exec (onLoadOne data k s) t (s', o) -> o = Val tt).
  { clear -Hp HF. intros t s' o HW Hx. unfold onLoadOne in Hx. xinv Hx. rewrite Hp in Hx. destruct (pl_unchanged p) eqn:Hu; [by xinv Hx|].
    apply exec_sbind in Hx as [(t1 & t2 & s1 & a & -> & H1 & H2)|(o1 & H1 & Hf)].
    - apply exec_slift in H1 as [-> H1]. apply exec_bind in H1 as (u1 & u2 & o1 & -> & H1 & H3). destruct H3 as [-> H3].
      rewrite app_nil_r in HW. apply Forall_app in HW as [HW _]. apply good_call in H1; [|done|exact (proj1 (HF k p Hp) Hu _)]. cbn in H1. subst o1.
      cbn in H3. injection H3 as ->. by xinv H2.
    - apply exec_slift in H1 as [-> H1]. apply exec_bind in H1 as (u1 & u2 & o2 & -> & H1 & H3). destruct H3 as [-> H3].
      rewrite app_nil_r in HW. apply good_call in H1; [|done|exact (proj1 (HF k p Hp) Hu _)]. cbn in H1. subst o2 o1. by destruct o. }
  apply exec_sbind in Hx as [(t1 & t2 & s1 & a & -> & H1 & H2)|(o1 & H1 & Hf)].
  - apply Forall_app in HW as [HW1 HW2]. destruct (exec_onLoadOne _ _ _ _ _ _ _ Hp H1) as [-> _]. eapply IH; [exact HW2| |exact H2].
    intros k' Hk'. apply Hk. by right.
  - apply Hone in H1; [|done]. subst o1. by destruct o.
Qed.

Lemma onInits_ok keys s t s' o : W t -> funcs_ok s -> (forall k, k ∈ keys -> is_Some (pm_map s !! k)) ->
  exec (sfor keys onInitOne s) t (s', o) -> o = Val tt.
Proof.
  intros HW. revert s t HW. induction keys as [|k keys IH]; intros s t HW HF Hk Hx; cbn [sfor] in Hx; [by xinv Hx|].
  destruct (Hk k) as [p Hp]; [left|].
  assert (Hone : forall t s' o, W t -> exec (onInitOne k s) t (s', o) -> o = Val tt).
  { clear -Hp HF. intros t s' o HW Hx. unfold onInitOne in Hx. xinv Hx. rewrite Hp in Hx. destruct (pl_unchanged p) eqn:Hu; [by xinv Hx|].
    apply exec_sbind in Hx as [(t1 & t2 & s1 & a & -> & H1 & H2)|(o1 & H1 & Hf)].
    - apply exec_slift in H1 as [-> H1]. apply exec_bind in H1 as (u1 & u2 & o1 & -> & H1 & H3). destruct H3 as [-> H3].
      rewrite app_nil_r in HW. apply Forall_app in HW as [HW _]. apply good_call in H1; [|done|exact (proj1 (HF k p Hp) Hu _)]. cbn in H1. destruct H1 as [w ->].
      cbn in H3. injection H3 as ->. cbn beta iota in H2. xinv H2. by xinv H2.
    - apply exec_slift in H1 as [-> H1]. apply exec_bind in H1 as (u1 & u2 & o2 & -> & H1 & H3). destruct H3 as [-> H3].
      rewrite app_nil_r in HW. apply good_call in H1; [|done|exact (proj1 (HF k p Hp) Hu _)]. cbn in H1. destruct H1 as [w ->]. subst o1. by destruct o. }
  apply exec_sbind in Hx as [(t1 & t2 & s1 & a & -> & H1 & H2)|(o1 & H1 & Hf)].
  - apply Forall_app in HW as [HW1 HW2]. destruct (exec_onInitOne _ _ _ _ _ _ Hp H1) as [[f ->] _]. eapply (IH (upd_databag f s)); [exact HW2|exact HF| |exact H2].
    intros k' Hk'. apply Hk. by right.
  - apply Hone in H1; [|done]. subst o1. by destruct o.
Qed.

Lemma addLiveFuncs_ok earlier p l s t s' o : NoDup (map fst l) -> (forall n, n ∈ map fst l -> pm_livefuncs s !! n = None) ->
  exec (addLiveFuncs earlier p l s) t (s', o) -> o = Val tt.
Proof.
  revert s. induction l as [|[n v] l IH]; intros s Hnd Hf Hx; cbn [addLiveFuncs] in Hx; [by xinv Hx|].
  cbn [map fst] in Hnd, Hf. apply NoDup_cons in Hnd as [Hn Hnd]. xinv Hx. rewrite (Hf n) in Hx by left. xinv Hx. eapply IH; [done| |exact Hx].
  intros n' Hn'. cbn. rewrite lookup_insert_ne; [apply Hf; by right|congruence].
Qed.
Lemma addLiveTypes_ok earlier p l s t s' o : NoDup (map fst l) -> (forall n, n ∈ map fst l -> pm_livetypes s !! n = None) ->
  exec (addLiveTypes earlier p l s) t (s', o) -> o = Val tt.
Proof.
  revert s. induction l as [|[n v] l IH]; intros s Hnd Hf Hx; cbn [addLiveTypes] in Hx; [by xinv Hx|].
  cbn [map fst] in Hnd, Hf. apply NoDup_cons in Hnd as [Hn Hnd]. xinv Hx. rewrite (Hf n) in Hx by left. xinv Hx. eapply IH; [done| |exact Hx].
  intros n' Hn'. cbn. rewrite lookup_insert_ne; [apply Hf; by right|congruence].
Qed.

Definition tnames (f : described -> list (string * N)) (ps : list plugin) : list string := concat (map (fun p => map fst (f (D (pl_name p)))) ps).
Lemma vaultFuncs_ok earlier rest s t s' o : W t -> (forall p, p ∈ rest -> get_func RLiveFuncs (pl_funcs p) <> None) ->
  NoDup (tnames d_funcs rest) -> (forall n, n ∈ tnames d_funcs rest -> pm_livefuncs s !! n = None) ->
  exec (vaultFuncs earlier rest s) t (s', o) -> o = Val tt.
Proof.
  revert earlier s t. induction rest as [|p rest IH]; intros earlier s t HW HF Hnd Hd Hx; cbn [vaultFuncs] in Hx; [by xinv Hx|].
  change (tnames d_funcs (p :: rest)) with (map fst (d_funcs (D (pl_name p))) ++ tnames d_funcs rest) in Hnd, Hd. apply NoDup_app in Hnd as (N1 & N2 & N3).
  xinv Hx. apply exec_sbind in Hx as [(t1 & t2 & s1 & a & -> & H1 & H2)|(o1 & H1 & Hf)].
  - apply Forall_app in HW as [HW1 HW2]. apply exec_slift in H1 as [-> H1]. apply good_call in H1; [|done|apply HF; left]. cbn in H1. injection H1 as ->.
    apply exec_sbind in H2 as [(t3 & t4 & s2 & u & -> & H1 & H2)|(o1 & H1 & Hf)].
    + apply Forall_app in HW2 as [_ HW2]. apply exec_addLiveFuncs in H1 as (_ & _ & Hok & _); [|done]. destruct u. destruct (Hok eq_refl) as (_ & Hm & _).
      eapply IH; [exact HW2| |done| |exact H2]. { intros q Hq. apply HF. by right. }
      intros n Hn. rewrite Hm. apply lookup_union_None. split; [|apply Hd; apply elem_of_app; by right].
      apply not_elem_of_list_to_map_1. intros Hin. by apply (N2 n).
    + apply addLiveFuncs_ok in H1; [|done|intros n Hn; apply Hd, elem_of_app; by left]. subst o1. by destruct o.
  - apply exec_slift in H1 as [-> H1]. apply good_call in H1; [|done|apply HF; left]. cbn in H1. subst o1. by destruct o.
Qed.
Lemma vaultTypes_ok earlier rest s t s' o : W t -> (forall p, p ∈ rest -> get_func RLiveTypes (pl_funcs p) <> None) ->
  NoDup (tnames d_types rest) -> (forall n, n ∈ tnames d_types rest -> pm_livetypes s !! n = None) ->
  exec (vaultTypes earlier rest s) t (s', o) -> o = Val tt.
Proof.
  revert earlier s t. induction rest as [|p rest IH]; intros earlier s t HW HF Hnd Hd Hx; cbn [vaultTypes] in Hx; [by xinv Hx|].
  change (tnames d_types (p :: rest)) with (map fst (d_types (D (pl_name p))) ++ tnames d_types rest) in Hnd, Hd. apply NoDup_app in Hnd as (N1 & N2 & N3).
  xinv Hx. apply exec_sbind in Hx as [(t1 & t2 & s1 & a & -> & H1 & H2)|(o1 & H1 & Hf)].
  - apply Forall_app in HW as [HW1 HW2]. apply exec_slift in H1 as [-> H1]. apply good_call in H1; [|done|apply HF; left]. cbn in H1. injection H1 as ->.
    apply exec_sbind in H2 as [(t3 & t4 & s2 & u & -> & H1 & H2)|(o1 & H1 & Hf)].
    + apply Forall_app in HW2 as [_ HW2]. apply exec_addLiveTypes in H1 as (_ & _ & Hok & _); [|done]. destruct u. destruct (Hok eq_refl) as (_ & Hm & _).
      eapply IH; [exact HW2| |done| |exact H2]. { intros q Hq. apply HF. by right. }
      intros n Hn. rewrite Hm. apply lookup_union_None. split; [|apply Hd; apply elem_of_app; by right].
      apply not_elem_of_list_to_map_1. intros Hin. by apply (N2 n).
    + apply addLiveTypes_ok in H1; [|done|intros n Hn; apply Hd, elem_of_app; by left]. subst o1. by destruct o.
  - apply exec_slift in H1 as [-> H1]. apply good_call in H1; [|done|apply HF; left]. cbn in H1. subst o1. by destruct o.
Qed.

(** the names of the plugins of the manager *)
Lemma view_plugin_names s s' : view s -> core_map s' = core_map s -> Permutation (pm_ordered s') (map_keys (pm_map s')) ->
  Permutation (map pl_name (Plugins s')) names.
Proof.
  intros HV Hc Hp. 
  assert (Hback : forall k p, pm_map s' !! k = Some p -> exists p0, pm_map s !! k = Some p0 /\ pl_name p0 = pl_name p).
  { intros k p Hk. apply core_map_lookup in Hk. rewrite Hc in Hk. apply core_map_lookup_inv in Hk as (p0 & ? & Heq). exists p0. split; [done|].
    by apply (f_equal pl_name) in Heq. }
  assert (Hfwd : forall k p, pm_map s !! k = Some p -> exists p0, pm_map s' !! k = Some p0 /\ pl_name p0 = pl_name p).
  { intros k p Hk. apply core_map_lookup in Hk. rewrite <- Hc in Hk. apply core_map_lookup_inv in Hk as (p0 & ? & Heq). exists p0. split; [done|].
    by apply (f_equal pl_name) in Heq. }
  apply NoDup_Permutation; [|apply (v_nodup s HV)|].
  - apply (NoDup_fmap_1 to_lower). change (to_lower <$> map pl_name (Plugins s')) with (map to_lower (map pl_name (Plugins s'))). rewrite map_map.
    assert (Hk : forall l, (forall k, k ∈ l -> is_Some (pm_map s' !! k)) -> map (fun p => to_lower (pl_name p)) (plugins_of (pm_map s') l) = l).
    { induction l as [|k l IH]; intros Hl; [done|]. cbn [plugins_of]. destruct (Hl k) as [p Hpk]; [left|]. rewrite Hpk. cbn [map].
      rewrite IH by (intros k' Hk'; apply Hl; by right). f_equal. destruct (Hback _ _ Hpk) as (p0 & H0 & Hn). destruct (v_names s HV _ _ H0) as [_ ->]. by rewrite Hn. }
    unfold Plugins. rewrite Hk; [rewrite Hp; apply map_keys_nodup|]. intros k Hin. apply map_keys_elem. by rewrite <- Hp.
  - intros n. rewrite elem_of_list_fmap. split.
    + intros (p & -> & Hin). apply elem_plugins_of in Hin as (k & _ & Hk). destruct (Hback _ _ Hk) as (p0 & H0 & <-). by destruct (v_names s HV _ _ H0).
    + intros Hn. destruct (v_all s HV _ Hn) as (p & Hk & Hpn). destruct (Hfwd _ _ Hk) as (p0 & H0 & Hn0). exists p0. split; [congruence|].
      apply elem_plugins_of. exists (to_lower n). split; [|done]. rewrite Hp. apply map_keys_elem. eauto.
Qed.

Lemma tnames_perm f ps : Permutation (map pl_name ps) names -> NoDup (concat (map (fun n => map fst (f (D n))) names)) -> NoDup (tnames f ps).
Proof.
  intros Hp Hn. unfold tnames. replace (map (fun p => map fst (f (D (pl_name p)))) ps) with (map (fun n => map fst (f (D n))) (map pl_name ps)) by (by rewrite map_map).
  rewrite <- flat_map_concat_map in Hn |- *. rewrite (Permutation_flat_map _ Hp). exact Hn.
Qed.

Lemma lifecycle_ok data s t s' o : W t -> view s -> pm_livefuncs s = ∅ -> pm_livetypes s = ∅ ->
  exec (lifecycle data s) t (s', o) -> o = Val tt.
Proof.
  intros HW HV Hlf Hlt Hx. unfold lifecycle in Hx.
  apply exec_sbind in Hx as [(t1 & t2 & s1 & [] & -> & H1 & Hx)|(o1 & H1 & Hf)].
  2:{ apply deps_ok in H1; [|done|done]. subst o1. by destruct o. }
  apply Forall_app in HW as [HW1 HW]. pose proof (exec_initDeps _ _ _ _ H1) as (_ & _ & _ & _ & _ & Hcore & l & Hs1 & _ & Hok & _).
  destruct (Hok eq_refl) as (_ & (_ & _ & _ & Hperm & _) & _). clear Hok.
  assert (Ho1 : pm_ordered s1 = l) by (by rewrite Hs1). assert (Hf1 : pm_livefuncs s1 = ∅) by (rewrite Hs1; exact Hlf). assert (Hy1 : pm_livetypes s1 = ∅) by (rewrite Hs1; exact Hlt).
  clear Hs1. rewrite <- Ho1 in Hperm. clear l Ho1. pose proof (view_funcs _ _ HV Hcore) as HF.
  assert (Hin : forall k, k ∈ pm_ordered s1 -> is_Some (pm_map s1 !! k)). { intros k Hk. apply map_keys_elem. by rewrite <- Hperm. }
  apply exec_sbind in Hx as [(t3 & t4 & s2 & [] & -> & H2 & Hx)|(o1 & H2 & Hf)].
  2:{ unfold invokeEveryOnLoad in H2. xinv H2. apply onLoads_ok in H2; [|done|done|done]. subst o1. by destruct o. }
  unfold invokeEveryOnLoad in H2. xinv H2. destruct (exec_onLoads _ _ _ _ _ _ Hin H2) as [-> _]. apply Forall_app in HW as [_ HW].
  assert (HP : Permutation (map pl_name (Plugins s1)) names) by (by eapply view_plugin_names).
  assert (Hplug : forall p r, p ∈ Plugins s1 -> r = RLiveFuncs \/ r = RLiveTypes -> get_func r (pl_funcs p) <> None).
  { intros p r Hp Hr. apply elem_plugins_of in Hp as (k & _ & Hk). exact (proj2 (HF k p Hk) r Hr). }
  apply exec_sbind in Hx as [(t5 & t6 & s2 & [] & -> & H3 & Hx)|(o1 & H3 & Hf)].
  - apply Forall_app in HW as [_ HW]. apply exec_setupVault in H3 as (u1 & u2 & a & b & -> & -> & _); [|done|done].
    unfold invokeEveryOnInit in Hx. xinv Hx. eapply onInits_ok; [exact HW| | |exact Hx]; [exact HF|exact Hin].
  - unfold setupVault in H3. xinv H3. apply exec_sbind in H3 as [(t5 & t6 & s2 & [] & -> & H3 & H4)|(o2 & H3 & Hf2)].
    + apply Forall_app in HW as [_ HW]. apply (exec_vaultFuncs _ _ _ []) in H3 as ([m ->] & _); [|intros n v Hn; rewrite Hf1 in Hn; by rewrite lookup_empty in Hn].
      apply vaultTypes_ok in H4; [subst o1; by destruct o|done|by intros p Hp; apply Hplug; [|right]|apply tnames_perm; [done|apply (rule_types _ _ _ HR)]|].
      intros n _. cbn. rewrite Hy1. apply lookup_empty.
    + apply vaultFuncs_ok in H3; [subst o2; by destruct o1|done|by intros p Hp; apply Hplug; [|left]|apply tnames_perm; [done|apply (rule_funcs _ _ _ HR)]|].
      intros n _. rewrite Hf1. apply lookup_empty.
Qed.

End Proofs.
