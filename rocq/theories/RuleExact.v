(** A load in a well-behaved environment that succeeds is one by plugins that obey the rules (the converse of RuleProofs) *)
From Verif Require Export RuleProofs.

Section Proofs.
Context {E : GoEnv}.
Context (D : string -> described) (entries : list (string * bool)) (content : string -> string).
Notation W := (Forall (well_behaved D entries content)).
Context (kept : string -> option plugin) (names : list string).
Notation view := (view D kept names).

(** the plugin of name [n] after wiring *)
Lemma wired_view s s' t n : W t -> view s -> wiring s s' t -> n ∈ names ->
  exists p p', pm_map s !! to_lower n = Some p /\ pl_name p = n /\ pm_map s' !! to_lower n = Some p' /\ pl_name p' = n /\
    pl_unchanged p' = pl_unchanged p /\
    ((pl_unchanged p = true /\ p' = p /\ exists q, kept n = Some q /\ pl_deps p = pl_deps q) \/
     (pl_unchanged p = false /\ kept n = None /\ wired (core_map s) p (d_import (D n)) p' /\ pl_deps p = [])).
Proof.
  intros HW HV Hwi Hn. destruct (v_all _ _ _ _ HV n Hn) as (p & Hp & Hpn). destruct (Hwi _ _ Hp) as (p' & Hp' & Hw). exists p, p'.
  destruct (pl_unchanged p) eqn:Hu.
  - subst p'. destruct (v_kept _ _ _ _ HV _ _ Hp Hu) as (q & Hk & Hd & _). rewrite Hpn in Hk. split_and!; try done. left. eauto.
  - destruct Hw as (imp & Ha & Hw). destruct (v_new _ _ _ _ HV _ _ Hp Hu) as (Hk & _ & _ & Hd & _). rewrite Hpn in Hk.
    pose proof (good_answered D entries content _ _ _ _ _ _ HW Ha) as Hg. cbn in Hg. injection Hg as ->. rewrite Hpn in Hw.
    destruct Hw as (fields & qs & H1 & H2 & ->). split_and!; try done. right. split_and!; try done. exists fields, qs. by split_and!.
Qed.

Lemma deps_rules s s' t : W t -> view s -> wiring s s' t -> dom (pm_map s') ⊆ dom (pm_map s) ->
  acyclic (pm_map s') -> closed (pm_map s') -> (forall k, rebuilt_ok (pm_map s') k) ->
  (forall n, n ∈ names -> kept n = None -> exists fields, dep_fields (d_import (D n)) = Some fields /\
    forall f, f ∈ fields -> exists q, q ∈ names /\ same_name (sf_name f) q /\ servable D kept n f q) /\
  (forall n p d, n ∈ names -> kept n = Some p -> d ∈ pl_deps p -> exists q, q ∈ names /\ same_name d q /\ kept q <> None) /\
  (forall n, ~ tc (needs D kept names) n n).
Proof.
  intros HW HV Hwi Hdom Hac Hcl Hre. split_and!.
  - intros n Hn Hk. destruct (wired_view _ _ _ _ HW HV Hwi Hn) as (p & p' & Hp & Hpn & Hp' & Hpn' & Hu' & [(_ & _ & q & Hz & _)|(Hu & _ & (fields & qs & Hf & HF & _) & _)]); [congruence|].
    exists fields. split; [done|]. intros f Hin. apply elem_of_list_lookup in Hin as [i Hi]. destruct (Forall2_lookup_l _ _ _ _ _ HF Hi) as (q & _ & Hq & Hanon & Hrel & Hass).
    apply core_map_lookup_inv in Hq as (q0 & Hq0 & ->). destruct (v_names _ _ _ _ HV _ _ Hq0) as [Hqn Hqk]. exists (pl_name q0). split_and!; [done|exact Hqk|].
    destruct (v_new _ _ _ _ HV _ _ Hp Hu) as (_ & _ & Hr & _). rewrite Hpn in Hr. split_and!; [done| |].
    + intros Hz. rewrite <- Hr in Hz. rewrite <- (view_reloadable _ _ _ _ _ _ HV Hq0). exact (Hrel Hz).
    + intros g Hg Hnn. assert (Hv : field_value f (core q0) = Some (sf_name f, g)).
      { unfold field_value. cbn [core pl_exported]. rewrite (view_exports _ _ _ _ _ _ HV Hq0), Hg. by rewrite Hnn. }
      exact (Hass _ Hv).
  - intros n q d Hn Hk Hd. destruct (wired_view _ _ _ _ HW HV Hwi Hn) as (p & p' & Hp & Hpn & Hp' & Hpn' & Hu' & [(Hu & Heq & q' & Hz & Hdq)|(Hu & Hz & _)]); [|congruence].
    assert (q' = q) as -> by congruence. subst p'. rewrite <- Hdq in Hd. destruct (Hre _ _ Hp' Hu d Hd) as (x & Hx & Hxu).
    assert (is_Some (pm_map s !! name2key d)) as [x0 Hx0]. { apply elem_of_dom, Hdom, elem_of_dom. eauto. }
    destruct (v_names _ _ _ _ HV _ _ Hx0) as [Hxn Hxk]. destruct (Hwi _ _ Hx0) as (x1 & Hx1 & Hw). rewrite Hx in Hx1. injection Hx1 as <-.
    exists (pl_name x0). split_and!; [done|exact Hxk|]. assert (pl_unchanged x0 = true) as Hxu0.
    { destruct (pl_unchanged x0) eqn:Hz2; [done|]. destruct Hw as (imp & _ & fs & qs & _ & _ & ->). cbn in Hxu. congruence. }
    destruct (v_kept _ _ _ _ HV _ _ Hx0 Hxu0) as (y & -> & _). done.
  - assert (Hedge : forall a b, needs D kept names a b -> edge (pm_map s') (to_lower a) (to_lower b)).
    { intros a b (Ha & Hb & d & Hd & Hs). destruct (wired_view _ _ _ _ HW HV Hwi Ha) as (p & p' & Hp & Hpn & Hp' & Hpn' & Hu' & Hc). exists p'.
      unfold deps_of in Hd. destruct Hc as [(Hu & -> & q & Hz & Hdq)|(Hu & Hz & (fields & qs & Hf & HF & ->) & Hnil)]; rewrite Hz in Hd.
      - exists d. rewrite Hdq. split_and!; [done|done|exact Hs].
      - rewrite Hf in Hd. apply elem_of_list_fmap in Hd as (f & -> & Hin). apply elem_of_list_lookup in Hin as [i Hi].
        destruct (Forall2_lookup_l _ _ _ _ _ HF Hi) as (q & Hqi & Hq & _). apply core_map_lookup_inv in Hq as (q0 & Hq0 & ->).
        destruct (v_names _ _ _ _ HV _ _ Hq0) as [_ Hqk]. exists (pl_name q0). split_and!; [done| |].
        + cbn [set_wires pl_deps]. rewrite Hnil. cbn [app]. apply elem_of_list_fmap. exists (core q0). split; [done|]. by eapply elem_of_list_lookup_2.
        + unfold name2key in *. rewrite <- Hqk. exact Hs. }
    intros n Hn. apply (Hac (to_lower n)). revert Hn. generalize n at 1 3. intros a Hn.
    induction Hn as [a b Hab|a b c Hab _ IH]; [constructor; by apply Hedge|]. eapply tc_l; [by apply Hedge|done].
Qed.

Lemma lifecycle_rules data s t s' : W t -> view s -> pm_ordered s = [] -> pm_livefuncs s = ∅ -> pm_livetypes s = ∅ ->
  exec (lifecycle data s) t (s', Val tt) -> rules D kept names.
Proof.
  intros HW HV H0 H1 H2 Hx.
  assert (HP : Permutation (pm_ordered s') (map_keys (pm_map s'))) by (by apply lifecycle_started in Hx as [? _]).
  destruct (exec_lifecycle _ _ _ _ _ H0 H1 H2 Hx) as (t1 & t2 & t3 & t4 & t5 & -> & _ & _ & _ & _ & _ & _ & _ & Hcore & _ & _ & _ & _ & Hi & _ & Hv & _).
  destruct (Hi (or_intror eq_refl)) as (_ & (Hac & Hcl & Hre & _) & Hwi).
  destruct (Hv (or_intror eq_refl)) as (_ & _ & fts & tts & F1 & F2 & N1 & N2 & _).
  apply Forall_app in HW as [HW1 HW]. apply Forall_app in HW as [HW2 HW]. apply Forall_app in HW as [HW3 HW]. apply Forall_app in HW as [HW4 _].
  assert (Hdom : dom (pm_map s') ⊆ dom (pm_map s)).
  { intros k Hk. apply elem_of_dom in Hk as [p' Hp']. apply elem_of_dom. apply core_map_lookup in Hp'. rewrite Hcore in Hp'.
    apply core_map_lookup_inv in Hp' as (p & ? & _). eauto. }
  destruct (deps_rules s s' t1 HW1 HV Hwi Hdom Hac Hcl Hre) as (R1 & R2 & R3).
  pose proof (view_plugin_names _ _ _ _ _ HV Hcore HP) as Hperm.
  constructor; [done|done|done| |].
  - rewrite <- flat_map_concat_map, <- (Permutation_flat_map _ Hperm), flat_map_concat_map, map_map.
    assert (Heq : concat (map (fun p => map fst (d_funcs (D (pl_name p)))) (Plugins s')) = map fst (concat fts)); [|by rewrite Heq].
    clear -F1 HW3. induction F1 as [|p l ps ls Ha _ IH]; [done|]. cbn [map concat]. rewrite map_app, IH. f_equal.
    pose proof (good_answered D entries content _ _ _ _ _ _ HW3 Ha) as Hg. cbn in Hg. by injection Hg as ->.
  - rewrite <- flat_map_concat_map, <- (Permutation_flat_map _ Hperm), flat_map_concat_map, map_map.
    assert (Heq : concat (map (fun p => map fst (d_types (D (pl_name p)))) (Plugins s')) = map fst (concat tts)); [|by rewrite Heq].
    clear -F2 HW4. induction F2 as [|p l ps ls Ha _ IH]; [done|]. cbn [map concat]. rewrite map_app, IH. f_equal.
    pose proof (good_answered D entries content _ _ _ _ _ _ HW4 Ha) as Hg. cbn in Hg. by injection Hg as ->.
Qed.
End Proofs.
