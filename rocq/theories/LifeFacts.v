(** Phases of the plugin calls of one load *)
From Verif Require Export RunProofs.

Definition phase_le (a b : callsig) : Prop := (phase (cs_role a) <= phase (cs_role b))%nat.
(** every role but the live tables, which can be asked again to find the owner of a duplicate name *)
Definition once_role (r : role) : bool := match r with RLiveFuncs | RLiveTypes => false | _ => true end.
Definition once_calls (cs : list callsig) : list callsig := List.filter (fun c => once_role (cs_role c)) cs.

Lemma ssorted_app {A} (R : A -> A -> Prop) l1 l2 : StronglySorted R l1 -> StronglySorted R l2 ->
  (forall x y, x ∈ l1 -> y ∈ l2 -> R x y) -> StronglySorted R (l1 ++ l2).
Proof.
  intros H1 H2 H. induction H1 as [|x l1 H1 IH Hx]; [done|]. simpl. constructor.
  - apply IH. intros a b Ha Hb. apply H; [by right|done].
  - apply Forall_app_2; [done|]. apply Forall_forall. intros y Hy. apply H; [left|done].
Qed.
Lemma same_phase_sorted n cs : Forall (fun c => phase (cs_role c) = n) cs -> StronglySorted phase_le cs.
Proof.
  induction 1 as [|c cs Hc HF IH]; constructor; [done|]. eapply Forall_impl; [exact HF|]. intros x Hx. cbv beta in Hx, Hc. unfold phase_le. rewrite Hx, Hc. done.
Qed.
Lemma call_in_roles r t : Forall (call_in (eq r)) t -> Forall (fun c => cs_role c = r) (call_sigs t).
Proof.
  induction 1 as [|e t He HF IH]; [constructor|]. destruct e; try done. simpl in He. subst. change (call_sigs (EvCall r0 c arg x :: t)) with ([(r0, c_mid c, c_name c, c_inst c, Some (c_code c), arg)] ++ call_sigs t).
  by constructor.
Qed.
Lemma call_sigs_cons_call t c : c ∈ call_sigs t -> t <> [].
Proof. intros H ->. by apply elem_of_nil in H. Qed.

Section Proofs.
Context {E : GoEnv}.

Lemma answered_returned r mid arg p x t : answered r mid arg p (Val x) t -> no_error r x -> returned r (pl_inst p) t.
Proof. intros (c & _ & Hin) Hn. by eexists _, _, _. Qed.

Lemma called_inst r mid arg p : cs_inst (called r mid arg p) = pl_inst p.
Proof. done. Qed.
Lemma called_role r mid arg p : cs_role (called r mid arg p) = r.
Proof. done. Qed.

Definition who (c : callsig) : role * inst := (cs_role c, cs_inst c).

Lemma who_called r mid arg l : map who (map (called r mid arg) l) = map (fun i => (r, i)) (map pl_inst l).
Proof. rewrite !map_map. done. Qed.
Lemma nodup_pair (r : role) (l : list inst) : NoDup l -> NoDup (map (fun i => (r, i)) l).
Proof. intros H. apply NoDup_fmap_2_strong; [|done]. intros x y _ _ [= ->]. done. Qed.

(** a part of a phase: its calls are a prefix of the calls on [l] *)
Lemma part_nodup r mid arg l cs rest : NoDup (map pl_inst l) -> map (called r mid arg) l = cs ++ rest ->
  NoDup (map who cs) /\ (forall c, c ∈ cs -> cs_role c = r /\ cs_inst c ∈ map pl_inst l).
Proof.
  intros HN He. split.
  - assert (HN' : NoDup (map who (cs ++ rest))) by (rewrite <- He, who_called; by apply nodup_pair).
    rewrite map_app in HN'. by apply NoDup_app in HN' as (? & _).
  - intros c Hc. assert (Hin : c ∈ map (called r mid arg) l) by (rewrite He; apply elem_of_app; by left).
    apply elem_of_list_fmap in Hin as (p & -> & Hp). split; [done|]. apply elem_of_list_fmap. by exists p.
Qed.

Lemma nodup_plugins_of m l : NoDup (map pl_inst (mplugins m)) -> NoDup l -> NoDup (map pl_inst (plugins_of m l)).
Proof.
  intros HN HL.
  assert (Hsub : forall p, p ∈ plugins_of m l -> exists k, k ∈ l /\ m !! k = Some p) by (intros p Hp; by apply elem_plugins_of).
  clear Hsub. induction l as [|k l IH]; simpl; [constructor|]. apply NoDup_cons in HL as [Hk HL]. specialize (IH HL).
  destruct (m !! k) as [p|] eqn:Hp; [|done]. simpl. constructor; [|done]. intros Hin.
  apply elem_of_list_fmap in Hin as (q & He & Hq). apply elem_plugins_of in Hq as (k' & Hk' & Hq).
  assert (Hd : Permutation (mplugins m) (p :: q :: mplugins (delete k' (delete k m)))).
  { assert (k <> k') by (by intros ->). unfold mplugins.
    rewrite <- (insert_delete m k p Hp) at 1. rewrite map_to_list_insert by apply lookup_delete. simpl. constructor.
    assert (Hq' : delete k m !! k' = Some q) by (by rewrite lookup_delete_ne).
    rewrite <- (insert_delete (delete k m) k' q Hq') at 1. rewrite map_to_list_insert by apply lookup_delete. done. }
  rewrite Hd in HN. simpl in HN. rewrite He in HN. apply NoDup_cons in HN as [HN _]. apply HN. left.
Qed.
Lemma nodup_filter_map {A B} (f : A -> B) (g : A -> bool) l : NoDup (map f l) -> NoDup (map f (List.filter g l)).
Proof.
  induction l as [|x l IH]; [done|]. simpl. intros H. apply NoDup_cons in H as [Hx H].
  destruct (g x); [|auto]. simpl. constructor; [|auto]. intros Hin. apply Hx.
  apply elem_of_list_fmap in Hin as (y & -> & Hy). apply elem_of_list_fmap. exists y. split; [done|].
  apply elem_of_list_In. apply elem_of_list_In, filter_In in Hy. tauto.
Qed.

Lemma once_live t r : once_role r = false -> Forall (call_in (eq r)) t -> once_calls (call_sigs t) = [].
Proof.
  intros Hr HF. apply call_in_roles in HF. unfold once_calls. induction HF as [|c cs Hc HF IH]; [done|]. simpl. rewrite Hc, Hr. done.
Qed.
Lemma once_all t r : once_role r = true -> Forall (call_in (eq r)) t -> once_calls (call_sigs t) = call_sigs t.
Proof.
  intros Hr HF. apply call_in_roles in HF. unfold once_calls. induction HF as [|c cs Hc HF IH]; [done|]. simpl. rewrite Hc, Hr. by f_equal.
Qed.

Lemma sub_ps src cur s t s1 ps ks s' keys q : gath src cur s t s1 ps ks -> core_map s' = core_map s1 ->
  q ∈ List.filter is_new (plugins_of (pm_map s') keys) -> pl_inst q ∈ map pl_inst ps.
Proof.
  intros HG Hc Hq. apply elem_of_list_In, filter_In in Hq as [Hq Hn]. apply elem_of_list_In, elem_plugins_of in Hq as (k & _ & Hk).
  unfold is_new in Hn. destruct (gath_members _ _ _ _ _ _ _ _ q HG Hc) as [[Hu (p & Hp & He)]|[Hu _]].
  - apply elem_mplugins. by exists k.
  - apply elem_of_list_fmap. exists p. split; [|done]. by apply core_inst.
  - by rewrite Hu in Hn.
Qed.

Lemma elem_once_calls c cs : c ∈ once_calls cs <-> c ∈ cs /\ once_role (cs_role c) = true.
Proof. unfold once_calls. rewrite elem_of_list_In, filter_In, <- elem_of_list_In. done. Qed.

Lemma roles_phase r t : Forall (call_in (eq r)) t -> Forall (fun c => phase (cs_role c) = phase r) (call_sigs t).
Proof. intros H. eapply Forall_impl; [by apply call_in_roles|]. intros c Hc. by rewrite <- Hc. Qed.

Lemma nodup_inst_inj (l : list plugin) x y : NoDup (map pl_inst l) -> x ∈ l -> y ∈ l -> pl_inst x = pl_inst y -> x = y.
Proof.
  induction l as [|z l IH]; [intros _ Hx; by apply elem_of_nil in Hx|]. cbn [map]. intros HN Hx Hy Hf. apply NoDup_cons in HN as [Hz HN].
  apply elem_of_cons in Hx as [->|Hx]; apply elem_of_cons in Hy as [->|Hy]; [done| | |auto].
  - exfalso. apply Hz. rewrite Hf. by apply elem_of_list_fmap_1.
  - exfalso. apply Hz. rewrite <- Hf. by apply elem_of_list_fmap_1.
Qed.
Lemma life_facts src cur s t1 s1 ps ks data t2 s' ob :
  gath src cur s t1 s1 ps ks -> exec (lifecycle data s1) t2 (s', ob) -> NoDup (map pl_inst ps ++ map pl_inst ks) ->
  StronglySorted phase_le (call_sigs t2) /\
  Forall (fun c => 1 <= phase (cs_role c) <= 5)%nat (call_sigs t2) /\
  NoDup (map who (once_calls (call_sigs t2))) /\
  (forall c, c ∈ call_sigs t2 -> once_role (cs_role c) = true -> cs_inst c ∈ map pl_inst ps) /\
  (forall c r i, c ∈ call_sigs t2 -> (r = RImport \/ r = ROnLoad) -> (phase r < phase (cs_role c))%nat -> i ∈ map pl_inst ps -> i ∈ map pl_inst (mplugins (pm_map s')) -> returned r i t2) /\
  (forall c r i, c ∈ call_sigs t2 -> cs_role c = ROnInit -> (r = RLiveFuncs \/ r = RLiveTypes) -> i ∈ map pl_inst (mplugins (pm_map s')) -> returned r i t2).
Proof.
  intros HG HE HND.
  destruct (exec_lifecycle _ _ _ _ _ (g_ordered _ _ _ _ _ _ _ HG) (g_funcs _ _ _ _ _ _ _ HG) (g_types _ _ _ _ _ _ _ HG) HE)
    as (a1 & a2 & a3 & a4 & a5 & -> & F1 & F2 & F3 & F4 & F5 & Hhead & Hw & Hcore & Hord & (r1 & P1) & (r2 & P2) & (r5 & P5) & D1 & D2 & D3 & D4 & _).
  assert (HNDm : NoDup (map pl_inst (mplugins (pm_map s')))) by (eapply submseteq_nodup; [exact (gath_insts_sub _ _ _ _ _ _ _ _ HG Hcore)|exact HND]).
  assert (HNo : NoDup (pm_ordered s')).
  { destruct Hord as [->|Hp]; [constructor|]. rewrite Hp. apply map_keys_nodup. }
  assert (HNn : NoDup (map pl_inst (new_ordered s'))) by (apply nodup_filter_map; by apply nodup_plugins_of).
  assert (HNk : NoDup (map pl_inst (by_key s'))) by (apply nodup_filter_map; apply nodup_plugins_of; [done|apply sorted_keys_nodup]).
  rewrite (new_by_key_final _ _ _ _ Hcore) in P1.
  destruct (part_nodup _ _ _ _ _ _ HNk P1) as (N1 & M1).
  destruct (part_nodup _ _ _ _ _ _ HNn P2) as (N2 & M2).
  destruct (part_nodup _ _ _ _ _ _ HNn P5) as (N5 & M5).
  assert (Q1 := roles_phase _ _ F1). assert (Q2 := roles_phase _ _ F2). assert (Q3 := roles_phase _ _ F3).
  assert (Q4 := roles_phase _ _ F4). assert (Q5 := roles_phase _ _ F5). cbn [phase] in *.
  rewrite !call_sigs_app.
  assert (HP : forall c, c ∈ call_sigs a1 ++ call_sigs a2 ++ call_sigs a3 ++ call_sigs a4 ++ call_sigs a5 ->
     (c ∈ call_sigs a1 /\ cs_role c = RImport) \/ (c ∈ call_sigs a2 /\ cs_role c = ROnLoad) \/ (c ∈ call_sigs a3 /\ cs_role c = RLiveFuncs) \/
     (c ∈ call_sigs a4 /\ cs_role c = RLiveTypes) \/ (c ∈ call_sigs a5 /\ cs_role c = ROnInit)).
  { apply call_in_roles in F1, F2, F3, F4, F5. rewrite Forall_forall in F1, F2, F3, F4, F5.
    intros c Hc. rewrite !elem_of_app in Hc. destruct Hc as [Hc|[Hc|[Hc|[Hc|Hc]]]]; eauto 12. }
  rewrite Forall_forall in Q1, Q2, Q3, Q4, Q5.
  split_and!.
  - assert (S1 := same_phase_sorted _ _ (proj2 (Forall_forall _ _) Q1)). assert (S2 := same_phase_sorted _ _ (proj2 (Forall_forall _ _) Q2)).
    assert (S3 := same_phase_sorted _ _ (proj2 (Forall_forall _ _) Q3)). assert (S4 := same_phase_sorted _ _ (proj2 (Forall_forall _ _) Q4)).
    assert (S5 := same_phase_sorted _ _ (proj2 (Forall_forall _ _) Q5)). unfold phase_le.
    apply ssorted_app; [done|apply ssorted_app; [done|apply ssorted_app; [done|apply ssorted_app; [done|done|]|]|]|];
      intros x y Hx Hy; rewrite ?elem_of_app in Hy.
    + rewrite (Q4 _ Hx), (Q5 _ Hy). lia.
    + rewrite (Q3 _ Hx). destruct Hy as [Hy|Hy]; [rewrite (Q4 _ Hy)|rewrite (Q5 _ Hy)]; lia.
    + rewrite (Q2 _ Hx). destruct Hy as [Hy|[Hy|Hy]]; [rewrite (Q3 _ Hy)|rewrite (Q4 _ Hy)|rewrite (Q5 _ Hy)]; lia.
    + rewrite (Q1 _ Hx). destruct Hy as [Hy|[Hy|[Hy|Hy]]]; [rewrite (Q2 _ Hy)|rewrite (Q3 _ Hy)|rewrite (Q4 _ Hy)|rewrite (Q5 _ Hy)]; lia.
  - apply Forall_forall. intros c Hc. apply HP in Hc as [[_ ->]|[[_ ->]|[[_ ->]|[[_ ->]|[_ ->]]]]]; simpl; lia.
  - unfold once_calls. rewrite !List.filter_app. fold (once_calls (call_sigs a1)) (once_calls (call_sigs a2)) (once_calls (call_sigs a3)) (once_calls (call_sigs a4)) (once_calls (call_sigs a5)).
    rewrite (once_all a1 RImport), (once_all a2 ROnLoad), (once_live a3 RLiveFuncs), (once_live a4 RLiveTypes), (once_all a5 ROnInit) by done.
    simpl. rewrite !map_app. apply NoDup_app. split; [done|]. split.
    + intros x Hx Hy. apply elem_of_list_fmap in Hx as (c & -> & Hc). apply M1 in Hc as [Hr _].
      apply elem_of_app in Hy as [Hy|Hy]; apply elem_of_list_fmap in Hy as (c' & Hw' & Hc'); [apply M2 in Hc' as [Hr' _]|apply M5 in Hc' as [Hr' _]];
        unfold who in Hw'; congruence.
    + apply NoDup_app. split; [done|]. split; [|done]. intros x Hx Hy. apply elem_of_list_fmap in Hx as (c & -> & Hc). apply M2 in Hc as [Hr _].
      apply elem_of_list_fmap in Hy as (c' & Hw' & Hc'). apply M5 in Hc' as [Hr' _]. unfold who in Hw'; congruence.
  - intros c Hc Ho. apply HP in Hc as [[Hc Hr]|[[Hc Hr]|[[Hc Hr]|[[Hc Hr]|[Hc Hr]]]]]; try (by rewrite Hr in Ho).
    + apply M1 in Hc as [_ Hc]. apply elem_of_list_fmap in Hc as (q & -> & Hq). by eapply sub_ps.
    + apply M2 in Hc as [_ Hc]. apply elem_of_list_fmap in Hc as (q & -> & Hq). by eapply sub_ps.
    + apply M5 in Hc as [_ Hc]. apply elem_of_list_fmap in Hc as (q & -> & Hq). by eapply sub_ps.
  - intros c r i Hc Hr Hph Hi Him.
    assert (Hlate : (2 <= phase (cs_role c))%nat -> imports_done s1 s' a1).
    { intros Hl. apply D1. left. apply HP in Hc as [[Hc Hcr]|[[Hc Hcr]|[[Hc Hcr]|[[Hc Hcr]|[Hc Hcr]]]]]; rewrite Hcr in Hl; simpl in Hl; [lia| | | |];
        apply call_sigs_cons_call in Hc; destruct a2; try done; destruct a3; try done; destruct a4; try done; destruct a5; done. }
    assert (Hlate2 : (3 <= phase (cs_role c))%nat -> onloads_done data s' a2).
    { intros Hl. apply D2. left. apply HP in Hc as [[Hc Hcr]|[[Hc Hcr]|[[Hc Hcr]|[[Hc Hcr]|[Hc Hcr]]]]]; rewrite Hcr in Hl; simpl in Hl; [lia|lia| | |];
        apply call_sigs_cons_call in Hc; destruct a3; try done; destruct a4; try done; destruct a5; done. }
    apply elem_of_list_fmap in Hi as (p & -> & Hp).
    assert (Hpu := g_new _ _ _ _ _ _ _ HG _ Hp).
    assert (Hpm : exists k, pm_map s1 !! k = Some p).
    { apply elem_mplugins. rewrite (mplugins_core _ _ Hcore) in Him. apply elem_of_list_fmap in Him as (p' & He & Hp').
      assert (p = p') as ->; [|done]. pose proof (elem_of_submseteq _ _ _ Hp' (g_sub _ _ _ _ _ _ _ HG)) as Hin. rewrite <- map_app in HND.
      eapply (nodup_inst_inj (ps ++ ks)); [exact HND|apply elem_of_app; by left|done|done]. }
    destruct Hpm as (k & Hk). destruct Hr as [->| ->]; cbn [phase] in Hph.
    + destruct (Hlate Hph) as (_ & _ & H). destruct (H _ _ Hk) as (p' & _ & Hp'). rewrite Hpu in Hp'. destruct Hp' as (imp & Ha & _).
      apply returned_app_l. by eapply answered_returned.
    + destruct (Hlate ltac:(lia)) as (_ & HR & H). destruct (H _ _ Hk) as (p' & Hp' & Hw'). rewrite Hpu in Hw'. destruct Hw' as (imp & _ & fields & qs & _ & _ & ->).
      destruct (Hlate2 Hph) as (_ & HO). rewrite Forall_forall in HO. apply returned_app_r, returned_app_l.
      eapply (answered_returned ROnLoad _ _ _ None); [|done].
      specialize (HO (set_wires (map pl_name qs) (omap (fun x => x) (zip_with field_value fields qs)) p)). apply HO.
      unfold new_ordered. apply elem_of_list_In, filter_In. split; [|unfold is_new; simpl; by rewrite Hpu].
      apply elem_of_list_In. destruct HR as (_ & _ & _ & HR & _). by eapply elem_Plugins.
  - intros c r i Hc Hrc Hr Hi.
    assert (Ha5 : a5 <> []).
    { apply HP in Hc as [[Hc Hcr]|[[Hc Hcr]|[[Hc Hcr]|[[Hc Hcr]|[Hc Hcr]]]]]; try congruence. by apply call_sigs_cons_call in Hc. }
    destruct (D1 ltac:(left; destruct a2, a3, a4, a5; done)) as (_ & (_ & _ & _ & HR & _) & _).
    destruct (D3 ltac:(left; done)) as (_ & _ & ft & tt' & HF & HT & _).
    apply elem_of_list_fmap in Hi as (q & -> & Hq). apply elem_mplugins in Hq as (k & Hk).
    assert (Hq : q ∈ Plugins s') by (by eapply elem_Plugins).
    destruct Hr as [->| ->].
    + apply elem_of_list_lookup in Hq as (n & Hn). destruct (Forall2_lookup_l _ _ _ _ _ HF Hn) as (l & _ & Hx).
      apply returned_app_r, returned_app_r, returned_app_l. by eapply answered_returned.
    + apply elem_of_list_lookup in Hq as (n & Hn). destruct (Forall2_lookup_l _ _ _ _ _ HT Hn) as (l & _ & Hx).
      apply returned_app_r, returned_app_r, returned_app_r, returned_app_l. by eapply answered_returned.
Qed.

End Proofs.
