(** C04, C05, C42, C43: the dependency graph of a load. *)
From Verif Require Import StageProofs Worlds.

Section Props.
Context {E : GoEnv}.

(** ** C04 *)
(** What the load knows about dependencies: what Import() answered during the load, or (for plugins carried over
    from the current manager) the recorded Deps. *)
Definition depends_on (cur : option mgr) (t : list event) (a b : string) : Prop :=
  (exists c imp fields f, EvCall RImport c ArgNone (Val imp) ∈ t /\ c_name c = a /\
     dep_fields imp = Some fields /\ f ∈ fields /\ same_name (sf_name f) b) \/
  (exists m p d, cur = Some m /\ holds m p /\ pl_name p = a /\ d ∈ pl_deps p /\ same_name d b).
(** consecutive names of the list are dependencies *)
Fixpoint path_of (R : string -> string -> Prop) (l : list string) : Prop :=
  match l with
  | a :: (b :: _) as l' => R a b /\ path_of R l'
  | _ => True
  end.

Lemma depends_edge m p q : keyed (pm_map m) -> depends m p q -> edge (pm_map m) (name2key (pl_name p)) (name2key (pl_name q)).
Proof.
  intros HK (Hp & _ & d & Hd & Hn). apply Plugins_lookup in Hp as (k & Hk). exists p, d. split_and!; [|done|done].
  by rewrite (HK _ _ Hk).
Qed.

Theorem C04_no_cycle_is_published o h cur p t r m q : next_call o h cur p t r -> published t m -> ~ tc (depends m) q q.
Proof.
  intros HN HP Hc. destruct (pub_ready _ _ _ _ _ _ _ HN HP) as (HK & Hac & _). apply (Hac (name2key (pl_name q))).
  assert (Hgen : forall a b, tc (depends m) a b -> tc (edge (pm_map m)) (name2key (pl_name a)) (name2key (pl_name b))).
  { intros a b. induction 1 as [a b H|a b c H H' IH]; [apply tc_once; by apply depends_edge|].
    eapply tc_l; [by apply depends_edge|done]. }
  by apply Hgen.
Qed.

Lemma wired_edge M p imp p' d : keyed M -> pl_deps p = [] -> wired M p imp p' -> d ∈ pl_deps p' ->
  exists fields f, dep_fields imp = Some fields /\ f ∈ fields /\ same_name (sf_name f) d.
Proof.
  intros HK Hnil (fields & qs & Hf & HF & ->) Hd. simpl in Hd. rewrite Hnil in Hd. simpl in Hd.
  apply elem_of_list_fmap in Hd as (q & -> & Hq). apply elem_of_list_lookup in Hq as (n & Hq).
  destruct (Forall2_lookup_r _ _ _ _ _ HF Hq) as (f & Hfn & (Hl & _)). exists fields, f. split_and!; [done|by eapply elem_of_list_lookup_2|].
  symmetry. exact (HK _ _ Hl).
Qed.

(** The chain printed in a cyclic-dependency error is a chain of real dependencies that closes a cycle. *)
Theorem C04_cyclic_error_is_real o h cur a t chain :
  next_call o h cur (api_prog o a) t (Err (ECyclic chain)) ->
  exists l z, chain = l ++ [z] /\ z ∈ l /\ path_of (depends_on cur t) chain.
Proof.
  intros HN. pose proof (next_stages _ _ _ _ _ _ HN) as [Hsil Hnp Hr|s t1 tl s' ps ks tf e Hb HG HO HR He Hge Hnp Hin Hcs Rf|s t1 s1 t2 s' ob ps ks tf Hb HG HE Hres Hin Hcs Rf].
  - exfalso. destruct Hr as [?|[(e & He & Hee)|(x & ? & _)]]; try done. injection He as <-. done.
  - exfalso. injection He as <-. done.
  - destruct Hres as [(e & He & _ & _ & Hc)|(d & ? & _)]; [|done]. injection He as <-.
    destruct Hc as [[He Hv]|[? _]]; [|done].
    destruct ob as [[]|e|x]; [by destruct Hv| |done]. simpl in He. subst e.
    destruct (exec_lifecycle _ _ _ _ _ (g_ordered _ _ _ _ _ _ _ HG) (g_funcs _ _ _ _ _ _ _ HG) (g_types _ _ _ _ _ _ _ HG) HE)
      as (a1 & a2 & a3 & a4 & a5 & Ht2 & _ & _ & _ & _ & _ & _ & _ & Hcore & _ & _ & _ & _ & _ & _ & _ & _ & _ & Herr).
    destruct (Herr _ eq_refl) as [(Hx & Hta)|Hlate].
    2:{ exfalso. destruct Hlate as [([n ?] & _)|[(p & x & _ & ?)|[(p & _ & [[? _]|[? _]])|[(l1 & p & l2 & q & nm & an & _ & _ & ? & _)|(l1 & p & l2 & q & nm & an & _ & _ & ? & _)]]]]; done. }
    subst a1. apply exec_initDeps_fail in Hx; [|by intros []]. destruct Hx as [(k & p & _ & _ & Hi)|(Hw & Hi)].
    { exfalso. destruct Hi as [(y & ? & _)|(imp & _ & [[_ ?]|(fields & f & _ & _ & Hb')])]; try done.
      destruct Hb' as [[_ ?]|[[_ ?]|(q & _ & [(_ & _ & ?)|(y & _ & [[_ ?]|[_ ?]])])]]; done. }
    destruct Hi as [(l & z & He & Hch & Hz)|[(? & _)|(k & p & d & q & _ & ? & _)]]; try done.
    injection He as ->. exists (map (name_of (pm_map s')) l), (name_of (pm_map s') z).
    pose proof HN as (HH & _ & _ & _ & HF).
    assert (HK1 : keyed (pm_map s1)) by (by eapply gath_keyed).
    assert (HK : keyed (pm_map s')) by (by eapply keyed_core).
    assert (HKc : keyed (core_map s1)).
    { intros k q Hq. apply core_map_lookup_inv in Hq as (q0 & Hq & ->). exact (HK1 _ _ Hq). }
    split_and!; [by rewrite map_app|by apply elem_of_list_fmap_1|].
    (* every key of the chain belongs to a plugin *)
    assert (Hin_l : forall k, k ∈ l -> is_Some (pm_map s' !! k)).
    { clear -Hch. revert Hch. induction l as [|k l IH]; [intros _ ? H; by apply elem_of_nil in H|]. intros Hch k' Hk'.
      destruct l as [|k2 l]; simpl in Hch.
      - apply elem_of_list_singleton in Hk' as ->. destruct Hch as [(p & d & Hp & _) _]. by rewrite Hp.
      - apply elem_of_cons in Hk' as [->|Hk']; [destruct Hch as [(p & d & Hp & _) _]; by rewrite Hp|]. apply IH; [apply Hch|done]. }
    assert (Hall : Forall (fun k => is_Some (pm_map s' !! k)) (l ++ [z])).
    { apply Forall_app_2; [by apply Forall_forall|]. constructor; [by apply Hin_l|constructor]. }
    clear Hz Hin_l. revert Hch Hall. generalize (l ++ [z]) as c.
    assert (Hedge : forall k1 k2, edge (pm_map s') k1 k2 -> is_Some (pm_map s' !! k2) -> depends_on cur t (name_of (pm_map s') k1) (name_of (pm_map s') k2)).
    { intros k1 k2 (p & d & Hp & Hd & Hk2) (q & Hq). unfold name_of. rewrite Hp, Hq.
      assert (Hn2 : same_name d (pl_name q)) by (unfold same_name; change (name2key d = name2key (pl_name q)); rewrite (HK _ _ Hq); done).
      pose proof (core_map_lookup _ _ _ Hp) as Hcp. rewrite Hcore in Hcp. apply core_map_lookup_inv in Hcp as (p1 & Hp1 & Hcp1).
      destruct (core_inst _ _ (eq_sym Hcp1)) as (_ & _ & Hnm). destruct (Hw _ _ Hp1) as (p' & Hp' & Hcase).
      assert (p' = p) as -> by congruence. destruct (pl_unchanged p1) eqn:Hu.
      - subst p1. right. assert (Hinp : p ∈ ps ++ ks) by (eapply elem_of_submseteq; [apply (proj2 (elem_mplugins (pm_map s1) _)); by exists k1|exact (g_sub _ _ _ _ _ _ _ HG)]).
        apply elem_of_app in Hinp as [Hinp|Hinp]; [rewrite (g_new _ _ _ _ _ _ _ HG _ Hinp) in Hu; done|].
        destruct (g_kept _ _ _ _ _ _ _ HG _ Hinp) as (_ & om & q0 & note & Ho & Hq0 & ->). unfold old_seen in Ho. destruct (o_static o) eqn:Hst; [done|]. subst cur.
        exists om, q0, d. split_and!; [done| |done|done|done].
        pose proof (history_sound _ _ _ Hst HH _ eq_refl) as ((_ & _ & _ & Hperm & _) & _). apply elem_mplugins in Hq0 as (k0 & Hk0). by eapply elem_Plugins.
      - left. destruct Hcase as (imp & (code & _ & Hans) & Hwr).
        assert (Hnil : pl_deps p1 = []).
        { assert (Hinp : p1 ∈ ps ++ ks) by (eapply elem_of_submseteq; [apply (proj2 (elem_mplugins (pm_map s1) _)); by exists k1|exact (g_sub _ _ _ _ _ _ _ HG)]).
          apply elem_of_app in Hinp as [Hinp|Hinp]; [|by destruct (g_kept _ _ _ _ _ _ _ HG _ Hinp); congruence]. by apply (g_bare _ _ _ _ _ _ _ HG). }
        destruct (wired_edge _ _ _ _ _ HKc Hnil Hwr Hd) as (fields & f & Hf & Hff & Hfd).
        eexists _, imp, fields, f. split; [apply Hin; rewrite !elem_of_app; right; left; rewrite Ht2, !elem_of_app; left; exact Hans|].
        split_and!; [simpl; by rewrite Hnm|done|done|]. unfold same_name in *. congruence. }
    intros c Hch Hall. induction c as [|k1 c IH]; [done|]. destruct c as [|k2 c]; [done|]. destruct Hch as [He Hch]. cbn [map path_of].
    inversion Hall as [|? ? _ Hall']; subst. split; [|by apply IH]. apply Hedge; [done|]. by inversion Hall'.
Qed.

Lemma path_app R l1 l2 : path_of R (l1 ++ l2) -> path_of R l2.
Proof. induction l1 as [|x l1 IH]; [done|]. intros H. apply IH. simpl in H. destruct (l1 ++ l2); [done|by destruct H]. Qed.
Lemma path_tc R l x y : path_of R (x :: l ++ [y]) -> tc R x y.
Proof.
  revert x. induction l as [|z l IH]; intros x H; simpl in H; [apply tc_once; tauto|]. destruct H as [H1 H2].
  eapply tc_l; [exact H1|]. by apply IH.
Qed.
(** An acyclic graph is never refused as cyclic. *)
Theorem C04_acyclic_is_not_refused o h cur a t r chain :
  next_call o h cur (api_prog o a) t r ->
  (forall n, ~ tc (depends_on cur t) n n) -> r <> Err (ECyclic chain).
Proof.
  intros HN Hac ->. destruct (C04_cyclic_error_is_real _ _ _ _ _ _ HN) as (l & z & -> & Hz & Hp).
  apply elem_of_list_split in Hz as (l1 & l2 & ->). rewrite <- (assoc_L (++)) in Hp. apply path_app in Hp. simpl in Hp.
  apply (Hac z). eapply path_tc. exact Hp.
Qed.

(** The check itself, for every finite graph in which all dependencies are present: it terminates (the bound on the
    depth of its recursion is never reached) and finds a cycle exactly if one is reachable. *)
Theorem C04_check_decides (m : gmap string plugin) k : closed m -> is_Some (m !! k) ->
  let run := checkCyclic m (S (size m)) ∅ k in
  (run = Val [] <-> forall y, rtc (edge m) k y -> ~ tc (edge m) y y) /\
  (run <> Val [] -> exists l z, run = Val (l ++ [z]) /\ z ∈ l /\ is_chain m (l ++ [z]) /\ head (l ++ [z]) = Some k).
Proof.
  intros Hcl Hk. cbv zeta. destruct (check_result m k Hcl Hk) as [[H1 H2]|(l & z & H1 & H2 & H3 & H4)]; rewrite H1.
  - split; [|done]. split; [intros _; exact H2|done].
  - split.
    + split; [intros H; injection H as H; by destruct l|]. intros H. exfalso. eapply (H z); [|by eapply chain_tc].
      clear -H2 H3. destruct l as [|x l]; [injection H3 as ->; apply rtc_refl|]. injection H3 as ->.
      revert k H2. induction l as [|y l IH]; intros k H2.
      * destruct H2 as [H2 _]. by apply rtc_once.
      * destruct H2 as [H2 H3]. eapply rtc_l; [exact H2|]. by apply IH.
    + intros _. exists l, z. split_and!; done.
Qed.

(** ** C05 *)
(** Ordering succeeds for every graph the check accepts, whatever the map iteration order. *)
Theorem C05_ordering_succeeds s t s' o :
  acyclic (pm_map s) -> closed (pm_map s) -> exec (orderPlugins s) t (s', o) -> o = Val tt.
Proof. intros H1 H2 H. by apply exec_orderPlugins in H as (_ & [(l & -> & _)|(_ & _ & Hn)]); [|tauto]. Qed.
(** The panics a load recovers (outside plugin functions): nil dereferences, assignments to fields reflect refuses, and user code. Not the
    internal panics of the ordering and of the statistics, no index out of range, and the depth bound of the model's cycle check is never reached. *)
Theorem C05_recovered_panics o h cur a t x :
  next_call o h cur (api_prog o a) t (Err (EPanic None x)) ->
  x = PNil \/ x = PSet \/ exists n, x = PUser n.
Proof.
  assert (Hnu : nil_or_user x -> x = PNil \/ x = PSet \/ exists n, x = PUser n) by (intros [->|[n ->]]; eauto).
  intros HN. pose proof (next_stages _ _ _ _ _ _ HN) as [Hsil Hnp Hr|s t1 tl s' ps ks tf e Hb HG HO HR He Hge Hnp Hin Hcs Rf|s t1 s1 t2 s' ob ps ks tf Hb HG HE Hres Hin Hcs Rf].
  - exfalso. destruct Hr as [?|[(e & He & Hee)|(y & ? & _)]]; try done. injection He as <-. done.
  - injection He as <-. auto.
  - destruct Hres as [(e & He & _ & _ & Hc)|(d & ? & _)]; [|done]. injection He as <-.
    destruct Hc as [[He Hv]|[[n ->] _]]; [|eauto].
    destruct ob as [[]|e|y]; [by destruct Hv| |].
    + exfalso. simpl in He. subst e.
      destruct (exec_lifecycle _ _ _ _ _ (g_ordered _ _ _ _ _ _ _ HG) (g_funcs _ _ _ _ _ _ _ HG) (g_types _ _ _ _ _ _ _ HG) HE)
        as (a1 & a2 & a3 & a4 & a5 & Ht2 & _ & _ & _ & _ & _ & _ & _ & Hcore & _ & _ & _ & _ & _ & _ & _ & _ & _ & Herr).
      destruct (Herr _ eq_refl) as [(Hx & Hta)|Hlate].
      2:{ exfalso. destruct Hlate as [([n ?] & _)|[(p & y & _ & ?)|[(p & _ & [[? _]|[? _]])|[(l1 & p & l2 & q & nm & an & _ & _ & ? & _)|(l1 & p & l2 & q & nm & an & _ & _ & ? & _)]]]]; done. }
      apply exec_initDeps_fail in Hx; [|by intros []]. destruct Hx as [(k & p & _ & _ & Hi)|(_ & Hi)].
      * destruct Hi as [(y & ? & _)|(imp & _ & [[_ ?]|(fields & f & _ & _ & Hb')])]; try done.
        destruct Hb' as [[_ ?]|[[_ ?]|(q & _ & [(_ & _ & ?)|(y & _ & [[_ ?]|[_ ?]])])]]; done.
      * destruct Hi as [(l & z & ? & _)|[(? & _)|(k & p & d & q & _ & ? & _)]]; done.
    + simpl in He. injection He as ->. apply lifecycle_panic in HE as [->|?]; eauto.
Qed.

(** ** C42 *)
(** Two managers with the same plugin names and the same Deps list the plugins that have dependencies in the same order. *)
Definition same_deps (m1 m2 : mgr) : Prop := forall name, option_map pl_deps (FindPlugin m1 name) = option_map pl_deps (FindPlugin m2 name).
Definition with_deps (m : mgr) : list plugin := List.filter (fun p => negb (bool_decide (pl_deps p = []))) (Plugins m).


Lemma placed_deps m a p q : pl_deps p = pl_deps q -> deps_placed m a p = deps_placed m a q.
Proof. unfold deps_placed. by intros ->. Qed.
Lemma orderRound_ext m1 m2 keys : (forall k, option_map pl_deps (m1 !! k) = option_map pl_deps (m2 !! k)) -> forall a, orderRound m1 keys a = orderRound m2 keys a.
Proof.
  intros H. induction keys as [|k keys IH]; intros a; [done|]. simpl. case_decide; [done|]. specialize (H k).
  destruct (m1 !! k) as [p|], (m2 !! k) as [q|]; try done. injection H as H. rewrite (placed_deps m1 a p q H).
  change (deps_placed m1 a q) with (deps_placed m2 a q). destruct (deps_placed m2 a q); apply IH.
Qed.
Lemma orderRounds_ext m1 m2 n keys : (forall k, option_map pl_deps (m1 !! k) = option_map pl_deps (m2 !! k)) -> forall r a, orderRounds m1 n keys a r = orderRounds m2 n keys a r.
Proof. intros H. induction r as [|r IH]; intros a; [done|]. simpl. rewrite (orderRound_ext m1 m2 _ H). case_match; [done|apply IH]. Qed.

Lemma has_deps_ext m1 m2 k : (forall k, option_map pl_deps (m1 !! k) = option_map pl_deps (m2 !! k)) -> has_deps m1 k = has_deps m2 k.
Proof. intros H. unfold has_deps. specialize (H k). destruct (m1 !! k), (m2 !! k); try done. injection H as ->. done. Qed.

Lemma filter_has m l : List.filter (has_deps m) (List.filter (fun k => negb (has_deps m k)) l) = [].
Proof. induction l as [|k l IH]; [done|]. simpl. destruct (has_deps m k) eqn:Hk; simpl; [done|]. by rewrite Hk. Qed.

Lemma with_deps_keys m : keyed (pm_map m) -> map (fun p => to_lower (pl_name p)) (with_deps m) = List.filter (has_deps (pm_map m)) (pm_ordered m).
Proof.
  intros HK. unfold with_deps, Plugins. induction (pm_ordered m) as [|k l IH]; [done|]. simpl.
  destruct (pm_map m !! k) as [p|] eqn:Hp; simpl.
  - unfold has_deps at 1. rewrite Hp. destruct (negb (bool_decide (pl_deps p = []))); simpl; [|exact IH]. f_equal; [exact (HK _ _ Hp)|exact IH].
  - unfold has_deps at 1. rewrite Hp. exact IH.
Qed.

Lemma lfilter_perm {A} (f : A -> bool) l1 l2 : Permutation l1 l2 -> Permutation (List.filter f l1) (List.filter f l2).
Proof.
  induction 1 as [|x l1 l2 H IH|x y l|l1 l2 l3 H1 IH1 H2 IH2]; [done| | |by etrans].
  - simpl. destruct (f x); [by constructor|done].
  - simpl. destruct (f x), (f y); try done. apply perm_swap.
Qed.
Theorem C42_dependents_in_fixed_order o1 h1 c1 p1 t1 r1 m1 o2 h2 c2 p2 t2 r2 m2 :
  next_call o1 h1 c1 p1 t1 r1 -> published t1 m1 -> next_call o2 h2 c2 p2 t2 r2 -> published t2 m2 ->
  same_deps m1 m2 ->
  map (fun p => to_lower (pl_name p)) (with_deps m1) = map (fun p => to_lower (pl_name p)) (with_deps m2).
Proof.
  intros N1 P1 N2 P2 HS. destruct (pub_ready _ _ _ _ _ _ _ N1 P1) as (K1 & _ & _ & _ & _ & _ & it1 & I1 & O1).
  destruct (pub_ready _ _ _ _ _ _ _ N2 P2) as (K2 & _ & _ & _ & _ & _ & it2 & I2 & O2).
  rewrite !with_deps_keys by done.
  assert (HD : forall k, option_map pl_deps (pm_map m1 !! k) = option_map pl_deps (pm_map m2 !! k)).
  { intros k. specialize (HS k). unfold FindPlugin in HS.
    destruct (decide (name2key k = k)) as [Heq|Hne]; [by rewrite Heq in HS|].
    assert (Hno : forall m : gmap string plugin, keyed m -> m !! k = None).
    { intros m HK. destruct (m !! k) as [p|] eqn:Hp; [|done]. exfalso. apply Hne. rewrite <- (HK _ _ Hp). apply to_lower_idem. }
    by rewrite !Hno. }
  assert (Hdom : Permutation (map_keys (pm_map m1)) (map_keys (pm_map m2))).
  { apply NoDup_Permutation; [apply map_keys_nodup|apply map_keys_nodup|]. intros k. rewrite !map_keys_elem. specialize (HD k).
    destruct (pm_map m1 !! k), (pm_map m2 !! k); try done; split; intros [? ?]; eauto; done. }
  assert (Hsz : size (pm_map m1) = size (pm_map m2)) by (rewrite <- !map_keys_length; by rewrite Hdom).
  assert (Hit : Permutation it1 it2) by (rewrite I1, I2; done).
  assert (Hf : forall k, has_deps (pm_map m1) k = has_deps (pm_map m2) k) by (intros k; by apply has_deps_ext).
  rewrite (orderRounds_ext _ _ _ _ HD), Hsz in O1.
  assert (Hk : sort_strings (List.filter (has_deps (pm_map m1)) it1) = sort_strings (List.filter (has_deps (pm_map m2)) it2)).
  { apply sort_strings_eq. rewrite (filter_ext _ _ Hf). by apply lfilter_perm. }
  rewrite Hk in O1.
  assert (Ha : Permutation (List.filter (fun k => negb (has_deps (pm_map m1) k)) it1) (List.filter (fun k => negb (has_deps (pm_map m2) k)) it2)).
  { rewrite (filter_ext (fun k => negb (has_deps (pm_map m1) k)) (fun k => negb (has_deps (pm_map m2) k))) by (intros k; by rewrite Hf). by apply lfilter_perm. }
  pose proof (orderRounds_spec _ _ _ _ _ _ O2) as (_ & x2 & E2 & S2 & _).
  destruct (orderRounds_perm _ _ _ _ _ _ _ Ha O1) as (x & E1 & O1'). rewrite O1' in O2. injection O2 as O2. rewrite <- O2 in E2. apply app_inv_head in E2. subst x2.
  assert (Hl : forall l, List.filter (has_deps (pm_map m1)) l = List.filter (has_deps (pm_map m2)) l) by (intros l; by apply filter_ext).
  rewrite E1, <- O2, !List.filter_app, filter_has, Hl. by rewrite filter_has.
Qed.


(** ** C43 *)
(** The cycle check with a count of its own invocations (pluginManager.go:321-341). *)
Fixpoint cyc_deps_n (rec : string -> outcome (list string) * nat) (me : string) (deps : list string) : outcome (list string) * nat :=
  match deps with
  | [] => (Val [], 0%nat)
  | d :: deps' =>
      match rec (name2key d) with
      | (Val [], c) => let '(o, c') := cyc_deps_n rec me deps' in (o, (c + c')%nat)
      | (Val ret, c) => (Val (me :: ret), c)
      | (o, c) => (o, c)
      end
  end.
Fixpoint check_n (m : gmap string plugin) (fuel : nat) (visited : gset string) (k : string) : outcome (list string) * nat :=
  match fuel with
  | O => (Pan PFuel, 1%nat)
  | S fuel' =>
      if decide (k ∈ visited) then (Val [k], 1%nat)
      else match m !! k with
           | None => (Pan PNil, 1%nat)
           | Some p => let '(o, c) := cyc_deps_n (check_n m fuel' ({[k]} ∪ visited)) k (pl_deps p) in (o, S c)
           end
  end.
(** The count does not change the result. *)
Theorem C43_count_is_faithful m fuel V k : fst (check_n m fuel V k) = checkCyclic m fuel V k.
Proof.
  revert V k. induction fuel as [|fuel IH]; intros V k; [done|]. simpl. case_decide; [done|]. destruct (m !! k) as [p|]; [|done].
  assert (Hd : forall deps, fst (cyc_deps_n (check_n m fuel ({[k]} ∪ V)) k deps) = cyc_deps (checkCyclic m fuel ({[k]} ∪ V)) k deps).
  { induction deps as [|d deps IHd]; [done|]. simpl. specialize (IH ({[k]} ∪ V) (name2key d)).
    destruct (check_n m fuel ({[k]} ∪ V) (name2key d)) as [[[|]| |] c]; simpl in IH; rewrite <- IH; try done.
    rewrite <- IHd. by destruct (cyc_deps_n _ k deps). }
  specialize (Hd (pl_deps p)). by destruct (cyc_deps_n _ k (pl_deps p)).
Qed.

(** The ladder: layer i+1 has two plugins, both depending on both plugins of layer i. *)
Fixpoint xs (n : nat) : string := match n with O => "" | S n => String "x" (xs n) end.
Definition rung (b : bool) (i : nat) : string := String (if b then "a"%char else "b"%char) (xs i).
Definition rung_plugin (b : bool) (i : nat) : plugin :=
  mkPlugin (rung b i) "" "" 0%N "" false None no_funcs match i with O => [] | S j => [rung true j; rung false j] end 0%N None false [].
Fixpoint ladder (n : nat) : gmap string plugin :=
  let below := match n with O => ∅ | S n' => ladder n' end in
  <[rung true n := rung_plugin true n]> (<[rung false n := rung_plugin false n]> below).

Lemma xs_inj i j : xs i = xs j -> i = j.
Proof. revert j; induction i as [|i IH]; intros [|j] H; try done. injection H as H. f_equal. auto. Qed.
Lemma rung_inj b i c j : rung b i = rung c j -> b = c /\ i = j.
Proof. intros H. injection H as Hb Hi. split; [by destruct b, c|by apply xs_inj]. Qed.
Lemma to_lower_small b s : (b < 128)%N -> lower_rune b = b -> to_lower (String (ascii_of_N b) s) = String (ascii_of_N b) (to_lower s).
Proof.
  intros Hb Hl. unfold to_lower. rewrite runes_one by done. cbn [map]. rewrite Hl. rewrite of_runes_cons, string_of_bytes_app. unfold rune_bytes.
  destruct (N.ltb_spec b 128); [done|lia].
Qed.
Lemma rung_lower b i : name2key (rung b i) = rung b i.
Proof.
  unfold name2key, rung. assert (H : to_lower (xs i) = xs i).
  { induction i as [|i IH]; [done|]. cbn [xs]. rewrite <- IH at 2. exact (to_lower_small 120 (xs i) eq_refl eq_refl). }
  rewrite <- H at 2. destruct b; [exact (to_lower_small 97 (xs i) eq_refl eq_refl)|exact (to_lower_small 98 (xs i) eq_refl eq_refl)].
Qed.
Lemma ladder_lookup n k p : ladder n !! k = Some p <-> exists b i, (i <= n)%nat /\ k = rung b i /\ p = rung_plugin b i.
Proof.
  induction n as [|n IH]; cbn [ladder].
  - rewrite !lookup_insert_Some, lookup_empty. split.
    + intros [[<- <-]|[_ [[<- <-]|[_ ?]]]]; [by exists true, 0%nat|by exists false, 0%nat|done].
    + intros (b & i & Hi & -> & ->). assert (i = 0)%nat as -> by lia. destruct b; [by left|right; split; [done|by left]].
  - rewrite !lookup_insert_Some, IH. split.
    + intros [[<- <-]|[_ [[<- <-]|[_ (b & i & Hi & -> & ->)]]]]; [by exists true, (S n)|by exists false, (S n)|exists b, i; split; [lia|done]].
    + intros (b & i & Hi & -> & ->). destruct (decide (i = S n)) as [->|Hne].
      * destruct b; [by left|right; split; [by intros [? _]%rung_inj|by left]].
      * right. split; [intros [_ ?]%rung_inj; lia|]. right. split; [intros [_ ?]%rung_inj; lia|]. exists b, i. split; [lia|done].
Qed.
Lemma ladder_edge n k k' : edge (ladder n) k k' -> exists b c i, (S i <= n)%nat /\ k = rung b (S i) /\ k' = rung c i.
Proof.
  intros (p & d & Hp & Hd & <-). apply ladder_lookup in Hp as (b & i & Hi & -> & ->). destruct i as [|i]; simpl in Hd; [by apply elem_of_nil in Hd|].
  apply elem_of_cons in Hd as [->|Hd]; [exists b, true, i; split_and!; [lia|done|apply rung_lower]|].
  apply elem_of_list_singleton in Hd as ->. exists b, false, i. split_and!; [lia|done|apply rung_lower].
Qed.
Lemma ladder_acyclic n : acyclic (ladder n).
Proof.
  intros k Hk. assert (Hgen : forall a b, tc (edge (ladder n)) a b -> (String.length b < String.length a)%nat).
  { intros a b. induction 1 as [a b H|a b c H _ IH]; apply ladder_edge in H as (x & y & i & _ & -> & ->); simpl in *; lia. }
  apply Hgen in Hk. lia.
Qed.
Lemma ladder_closed n : closed (ladder n).
Proof.
  intros a b H. apply ladder_edge in H as (x & y & i & Hi & _ & ->). exists (rung_plugin y i). apply ladder_lookup. exists y, i. split; [lia|done].
Qed.
Lemma ladder_size n : size (ladder n) = (2 * S n)%nat.
Proof.
  induction n as [|n IH]; cbn [ladder].
  - rewrite map_size_insert_None, map_size_insert_None, map_size_empty; [done|done|]. rewrite lookup_insert_ne by done. done.
  - assert (Hno : forall b, ladder n !! rung b (S n) = None).
    { intros b. destruct (ladder n !! rung b (S n)) as [p|] eqn:Hp; [|done]. apply ladder_lookup in Hp as (c & i & Hi & He & _). apply rung_inj in He as [_ <-]. lia. }
    rewrite map_size_insert_None; [rewrite map_size_insert_None by apply Hno; rewrite IH; lia|].
    rewrite lookup_insert_ne by (by intros [? _]%rung_inj). apply Hno.
Qed.

Lemma ladder_visits n : forall i b V fuel, (i <= n)%nat -> (i < fuel)%nat -> (forall c j, (j <= i)%nat -> rung c j ∉ V) ->
  exists c, check_n (ladder n) fuel V (rung b i) = (Val [], c) /\ (2 ^ i <= c)%nat.
Proof.
  induction i as [|i IH]; intros b V fuel Hn Hf HV; destruct fuel as [|fuel]; try lia; cbn [check_n].
  - rewrite decide_False by (by apply HV). assert (Hl : ladder n !! rung b 0 = Some (rung_plugin b 0)) by (apply ladder_lookup; exists b, 0%nat; split; [lia|done]).
    rewrite Hl. simpl. exists 1%nat. split; [done|lia].
  - rewrite decide_False by (by apply HV). assert (Hl : ladder n !! rung b (S i) = Some (rung_plugin b (S i))) by (apply ladder_lookup; exists b, (S i); split; [lia|done]).
    rewrite Hl. cbn [pl_deps rung_plugin cyc_deps_n]. rewrite !rung_lower.
    assert (HV' : forall c j, (j <= i)%nat -> rung c j ∉ ({[rung b (S i)]} ∪ V)).
    { intros c j Hj. rewrite not_elem_of_union, not_elem_of_singleton. split; [intros [_ ?]%rung_inj; lia|apply HV; lia]. }
    destruct (IH true ({[rung b (S i)]} ∪ V) fuel ltac:(lia) ltac:(lia) HV') as (c1 & -> & H1).
    destruct (IH false ({[rung b (S i)]} ∪ V) fuel ltac:(lia) ltac:(lia) HV') as (c2 & -> & H2).
    eexists. split; [done|]. simpl. lia.
Qed.

(** 2n+2 plugins, at least 2^n visits (for the check started at one plugin). *)
Theorem C43_exponential_visits n :
  size (ladder n) = (2 * S n)%nat /\ acyclic (ladder n) /\ closed (ladder n) /\ is_Some (ladder n !! rung true n) /\
  (2 ^ n <= snd (check_n (ladder n) (S (size (ladder n))) ∅ (rung true n)))%nat.
Proof.
  split_and!; [apply ladder_size|apply ladder_acyclic|apply ladder_closed|exists (rung_plugin true n); apply ladder_lookup; by exists true, n|].
  destruct (ladder_visits n n true ∅ (S (size (ladder n)))) as (c & -> & Hc); [lia|rewrite ladder_size; lia|intros; apply not_elem_of_empty|done].
Qed.

End Props.

(** ** Concrete cases *)
Example C04_C42_case :
  next_call dyn t0 (Some m0) (api_prog dyn (Call_Reload 78 (Some 5%N))) t1 (snd run1) /\ published t1 m1 /\
  next_call dyn [] None (api_prog dyn (Call_LoadPlugins 77)) t0 (snd run0) /\ published t0 m0 /\
  map pl_deps (Plugins m0) = map pl_deps (Plugins m1) /\ map pl_name (with_deps m1) = ["b"; "c"].
Proof. split_and!; [apply second_load|apply published1|apply first_load|apply published0|vm_compute; done..]. Qed.
(** a imports B and b imports A *)
Example C04_cyclic_case : next_call dyn [] None (api_prog dyn (Call_LoadPlugins 1)) (fst (demo_run 0 world_cyclic dyn (Call_LoadPlugins 1)))
  (Err (ECyclic ["b"; "a"; "b"])).
Proof. apply demo_first; [done|apply world_cyclic_ok|vm_compute; reflexivity]. Qed.
(** a graph with a cycle for the check itself: x -> y -> y *)
Definition two : gmap string plugin :=
  <["x" := mkPlugin "x" "" "" 0%N "" false None no_funcs ["y"] 0%N None false []]>
  {["y" := mkPlugin "y" "" "" 0%N "" false None no_funcs ["Y"] 1%N None false []]}.
Example C04_check_case : is_Some (two !! "x") /\ checkCyclic two (S (size two)) ∅ "x" = Val ["x"; "y"; "y"] /\ checkCyclic (ladder 2) 7 ∅ (rung true 2) = Val [].
Proof. split; [by eexists|split; vm_compute; reflexivity]. Qed.
(** an acyclic graph for the ordering *)
Definition ladder_mgr (n : nat) : mgr := mkMgr 1 (moment0, 0%N) (ladder n) [] 0%N ∅ ∅ ∅ None.
Example C05_case n : acyclic (pm_map (ladder_mgr n)) /\ closed (pm_map (ladder_mgr n)) /\
  exists t s', exec (orderPlugins (ladder_mgr n)) t (s', Val tt).
Proof.
  split_and!; [apply ladder_acyclic|apply ladder_closed|].
  pose proof (demo_exec 0 world0 (orderPlugins (ladder_mgr n)) world0_ok) as H.
  destruct (snd (run (demo 0 world0) [] (orderPlugins (ladder_mgr n)))) as [s' o] eqn:Hr.
  rewrite (C05_ordering_succeeds (ladder_mgr n) _ s' o (ladder_acyclic n) (ladder_closed n) H) in H. by do 2 eexists.
Qed.
(** a recovered nil dereference (the mixed-case file name of C28) *)
Example C05_panic_case : next_call dyn [] None (api_prog dyn (Call_LoadPlugins 1)) (fst (demo_run 0 world_mixed dyn (Call_LoadPlugins 1))) (Err (EPanic None PNil)).
Proof. apply demo_first; [done|apply world_mixed_ok|vm_compute; reflexivity]. Qed.

Print Assumptions C04_no_cycle_is_published.
Print Assumptions C04_cyclic_error_is_real.
Print Assumptions C04_acyclic_is_not_refused.
Print Assumptions C04_check_decides.
Print Assumptions C05_ordering_succeeds.
Print Assumptions C05_recovered_panics.
Print Assumptions C42_dependents_in_fixed_order.
Print Assumptions C43_count_is_faithful.
Print Assumptions C43_exponential_visits.
