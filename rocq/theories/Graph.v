(** The dependency graph: cycle check and ordering (pure part of pluginManager.go:293-385). *)
From Verif Require Export ManagerModel ExecLemmas.
From stdpp Require Import relations.

(** [edge m a b]: the plugin with key [a] lists a dependency whose key is [b]. *)
Definition edge (m : gmap string plugin) (a b : string) : Prop :=
  exists p d, m !! a = Some p /\ d ∈ pl_deps p /\ name2key d = b.
(** Every dependency is present. *)
Definition closed (m : gmap string plugin) : Prop :=
  forall a b, edge m a b -> is_Some (m !! b).
Definition acyclic (m : gmap string plugin) : Prop := forall k, ~ tc (edge m) k k.

(** ** checkCyclicDependency *)

Lemma cyc_deps_nil rec me deps :
  cyc_deps rec me deps = Val [] -> forall d, d ∈ deps -> rec (name2key d) = Val [].
Proof.
  induction deps as [|d deps IH]; simpl; intros H d' Hd'; [by apply elem_of_nil in Hd'|].
  destruct (rec (name2key d)) as [[|x l]|e|x] eqn:E; try done.
  apply elem_of_cons in Hd' as [->|Hd']; [done|]. by apply IH.
Qed.
Lemma cyc_deps_cons rec me deps l :
  cyc_deps rec me deps = Val l -> l <> [] ->
  exists d l', d ∈ deps /\ rec (name2key d) = Val l' /\ l' <> [] /\ l = me :: l'.
Proof.
  induction deps as [|d deps IH]; simpl; intros H Hl; [congruence|].
  destruct (rec (name2key d)) as [[|x l0]|e|x] eqn:E; try done.
  - destruct IH as (d' & l' & Hd' & ?); [done..|]. exists d', l'. split; [by right|done].
  - exists d, (x :: l0). split; [by left|]. split_and!; [done..|congruence].
Qed.
Lemma cyc_deps_fail rec me deps o :
  cyc_deps rec me deps = o -> ~ is_val o -> exists d, d ∈ deps /\ rec (name2key d) = o.
Proof.
  induction deps as [|d deps IH]; simpl; intros <- Ho; [by destruct Ho|].
  destruct (rec (name2key d)) as [[|x l0]|e|x] eqn:E.
  - destruct IH as (d' & Hd' & ?); [done..|]. exists d'. split; [by right|done].
  - by destruct Ho.
  - exists d; split; [by left|done].
  - exists d; split; [by left|done].
Qed.

Lemma check_none m fuel V k :
  checkCyclic m fuel V k = Val [] ->
  k ∉ V /\ is_Some (m !! k) /\ forall y, tc (edge m) k y -> y ∉ V /\ y <> k /\ is_Some (m !! y).
Proof.
  revert V k; induction fuel as [|fuel IH]; intros V k; simpl; [done|].
  destruct (decide (k ∈ V)) as [|Hk]; [done|].
  destruct (m !! k) as [p|] eqn:Ep; [|done]. intros H.
  split; [done|]. split; [eauto|]. intros y Hy.
  assert (Hd : forall d, d ∈ pl_deps p -> checkCyclic m fuel ({[k]} ∪ V) (name2key d) = Val []).
  { by apply cyc_deps_nil with (me := k). }
  assert (Hed : forall b, edge m k b -> exists d, d ∈ pl_deps p /\ name2key d = b).
  { intros b (p' & d & Hp' & Hdd & Hb). rewrite Ep in Hp'; simplify_eq. eauto. }
  assert (exists b, edge m k b /\ (y = b \/ tc (edge m) b y)) as (b & Hb & Hby).
  { inversion Hy; subst; eauto. }
  destruct (Hed b Hb) as (d & Hdin & <-). apply Hd, IH in Hdin as (H1 & H2 & H3).
  destruct Hby as [->|Hby]; [set_solver|].
  destruct (H3 y Hby) as (? & ? & ?). set_solver.
Qed.

(** [is_chain m l]: consecutive elements are edges. *)
Fixpoint is_chain (m : gmap string plugin) (l : list string) : Prop :=
  match l with
  | a :: (b :: _) as l' => edge m a b /\ is_chain m l'
  | _ => True
  end.

Lemma check_chain m fuel V k l :
  checkCyclic m fuel V k = Val l -> l <> [] ->
  exists l' z, l = l' ++ [z] /\ is_chain m l /\ head l = Some k /\ (z ∈ V \/ z ∈ l').
Proof.
  revert V k l; induction fuel as [|fuel IH]; intros V k l; simpl; [done|].
  destruct (decide (k ∈ V)) as [Hk|Hk].
  { intros [= <-] _. exists [], k; simpl; auto. }
  destruct (m !! k) as [p|] eqn:Ep; [|done]. intros H Hl.
  apply cyc_deps_cons in H as (d & l0 & Hd & Hrec & Hl0 & ->); [|done].
  apply IH in Hrec as (l' & z & -> & Hch & Hhd & Hz); [|done].
  exists (k :: l'), z. split; [done|]. split_and!; [|done|].
  - destruct (l' ++ [z]) as [|b l1] eqn:E; [by destruct l'|]. simpl in Hhd; simplify_eq.
    split; [|done]. exists p, d; auto.
  - destruct Hz as [Hz|Hz]; [|right; by right].
    apply elem_of_union in Hz as [Hz%elem_of_singleton|Hz]; [|by left].
    right; subst; by left.
Qed.

(** the fuel suffices: at most [size m] keys can be on the path *)
Lemma check_fuel m fuel V k :
  V ⊆ dom m -> (size m - size V < fuel)%nat -> checkCyclic m fuel V k <> Pan PFuel.
Proof.
  revert V k; induction fuel as [|fuel IH]; intros V k HV Hf; [lia|]. simpl.
  destruct (decide (k ∈ V)) as [Hk|Hk]; [done|].
  destruct (m !! k) as [p|] eqn:Ep; [|done]. intros H.
  apply cyc_deps_fail in H as (d & Hd & Hrec); [|simpl; tauto].
  assert (Hin : k ∈ dom m) by (apply elem_of_dom; eauto).
  assert (Hsub : {[k]} ∪ V ⊆ dom m) by set_solver.
  apply subseteq_size in Hsub as Hsz. rewrite size_dom in Hsz.
  rewrite size_union, size_singleton in Hsz by set_solver.
  eapply IH in Hrec; [done|done|]. rewrite size_union, size_singleton by set_solver. lia.
Qed.

Lemma check_not_err m fuel V k e : checkCyclic m fuel V k <> Err e.
Proof.
  revert V k; induction fuel as [|fuel IH]; intros V k; simpl; [done|].
  destruct (decide (k ∈ V)); [done|]. destruct (m !! k); [|done]. intros H.
  apply cyc_deps_fail in H as (d & Hd & Hrec); [|simpl; tauto]. by eapply IH.
Qed.

Lemma check_panic m fuel V k x :
  checkCyclic m fuel V k = Pan x -> x <> PFuel -> x = PNil /\ exists y, rtc (edge m) k y /\ m !! y = None.
Proof.
  revert V k; induction fuel as [|fuel IH]; intros V k; simpl; [congruence|].
  destruct (decide (k ∈ V)); [done|]. destruct (m !! k) as [p|] eqn:Ep.
  - intros H Hx. apply cyc_deps_fail in H as (d & Hd & Hrec); [|simpl; tauto].
    apply IH in Hrec as (-> & y & Hy & Hn); [|done]. split; [done|]. exists y; split; [|done].
    eapply rtc_l; [|exact Hy]. exists p, d; auto.
  - intros [= <-] _. split; [done|]. exists k; split; [constructor|done].
Qed.

Lemma chain_tc m l z : is_chain m (l ++ [z]) -> z ∈ l -> tc (edge m) z z.
Proof.
  intros Hc Hz. apply elem_of_list_split in Hz as (l1 & l2 & ->).
  rewrite <- app_assoc in Hc. simpl in Hc.
  assert (Hc' : is_chain m (z :: l2 ++ [z])).
  { clear -Hc. induction l1 as [|a l1 IH]; simpl in *; [done|].
    destruct (l1 ++ z :: l2 ++ [z]) as [|b l0] eqn:E; [by destruct l1|]. apply IH. apply Hc. }
  clear Hc. assert (Hg : forall a, is_chain m (a :: l2 ++ [z]) -> tc (edge m) a z).
  { clear Hc'. induction l2 as [|b l2 IH]; simpl; intros a H.
    - apply tc_once, H.
    - eapply tc_l; [apply H|]. apply IH, H. }
  by apply Hg.
Qed.

(** On a closed graph the check from [k] finds a cycle exactly if one is reachable. *)
Lemma check_result m k :
  closed m -> is_Some (m !! k) ->
  (checkCyclic m (S (size m)) ∅ k = Val [] /\ forall y, rtc (edge m) k y -> ~ tc (edge m) y y) \/
  (exists l z, checkCyclic m (S (size m)) ∅ k = Val (l ++ [z]) /\ is_chain m (l ++ [z]) /\
     head (l ++ [z]) = Some k /\ z ∈ l).
Proof.
  intros Hcl Hk.
  destruct (checkCyclic m (S (size m)) ∅ k) as [l|e|x] eqn:E.
  - destruct (decide (l = [])) as [->|Hl].
    + left; split; [done|]. intros y Hy Hcyc.
      (* a cycle through y would contain a reachable node twice: use the check from k on the path *)
      revert E. generalize (S (size m)) as fuel. generalize (∅ : gset string) as V.
      induction Hy as [k|k b y Hkb Hy IH]; intros V fuel E.
      * apply check_none in E as (_ & _ & H). destruct (H k Hcyc) as (_ & ? & _). done.
      * destruct fuel as [|fuel]; simpl in E; [done|].
        destruct (decide (k ∈ V)); [done|]. destruct Hkb as (p & d & Hp & Hd & <-).
        rewrite Hp in E. eapply IH; [eapply Hcl; exists p, d; eauto|done|].
        eapply cyc_deps_nil; eauto.
    + right. apply check_chain in E as (l' & z & -> & Hc & Hh & Hz); [|done].
      exists l', z. split_and!; [done..|]. destruct Hz as [Hz|Hz]; [by apply elem_of_empty in Hz|done].
  - by apply check_not_err in E.
  - exfalso. destruct (decide (x = PFuel)) as [->|Hx].
    + eapply check_fuel; [| |exact E]; [set_solver|]. rewrite size_empty. lia.
    + apply check_panic in E as (-> & y & Hy & Hn); [|done].
      assert (is_Some (m !! y)) as [? ?]; [|congruence].
      clear Hx Hn. induction Hy as [|a b c Hab Hbc IH]; [done|]. apply IH. eapply Hcl; eauto.
Qed.

(** ** orderPlugins *)

(** [l] lists keys so that dependencies come first. *)
Definition deps_first (m : gmap string plugin) (l : list string) : Prop :=
  forall l1 k l2, l = l1 ++ k :: l2 -> forall b, edge m k b -> b ∈ l1.

Lemma deps_first_snoc m l k :
  deps_first m l -> (forall b, edge m k b -> b ∈ l) -> deps_first m (l ++ [k]).
Proof.
  intros Hl Hk l1 k' l2 H b Hb.
  destruct l2 as [|y l2 _] using rev_ind.
  - apply app_inj_tail in H as [-> ->]. auto.
  - rewrite app_comm_cons, app_assoc in H. apply app_inj_tail in H as [-> ->]. eapply Hl; eauto.
Qed.

Lemma deps_placed_spec m a k p :
  m !! k = Some p -> deps_placed m a p = true <-> forall b, edge m k b -> b ∈ a.
Proof.
  intros Hp. unfold deps_placed. rewrite forallb_forall. split.
  - intros H b (p' & d & Hp' & Hd & <-). rewrite Hp in Hp'; simplify_eq.
    apply elem_of_list_In in Hd. apply H in Hd. by apply bool_decide_eq_true in Hd.
  - intros H d Hd. apply bool_decide_eq_true. apply H. exists p, d.
    apply elem_of_list_In in Hd. auto.
Qed.

Lemma orderRound_spec m keys a :
  exists x, orderRound m keys a = a ++ x /\ x ⊆ keys /\
    (NoDup a -> NoDup (a ++ x)) /\ (deps_first m a -> deps_first m (a ++ x)).
Proof.
  revert a; induction keys as [|k keys IH]; intros a; simpl.
  - exists []. rewrite app_nil_r. split_and!; auto.
  - destruct (decide (k ∈ a)) as [Hk|Hk].
    { destruct (IH a) as (x & -> & Hx & Hn & Hd). exists x. split_and!; [done| |done..]. intros y Hy; right; auto. }
    destruct (m !! k) as [p|] eqn:Ep.
    2:{ destruct (IH a) as (x & -> & Hx & Hn & Hd). exists x. split_and!; [done| |done..]. intros y Hy; right; auto. }
    destruct (deps_placed m a p) eqn:Ed.
    + destruct (IH (a ++ [k])) as (x & -> & Hx & Hn & Hd). exists (k :: x).
      rewrite <- app_assoc in *. simpl in *. split_and!; [done|set_solver| |].
      * intros Ha. apply Hn. rewrite NoDup_app. split_and!; [done| |apply NoDup_singleton].
        set_solver.
      * intros Ha. apply Hd. apply deps_first_snoc; [done|]. by eapply deps_placed_spec.
    + destruct (IH a) as (x & -> & Hx & Hn & Hd). exists x. split_and!; [done| |done..]. intros y Hy; right; auto.
Qed.

(** a placeable key gets placed in the round *)
Lemma orderRound_progress m keys a k p :
  k ∈ keys -> k ∉ a -> m !! k = Some p -> (forall b, edge m k b -> b ∈ a) ->
  (length a < length (orderRound m keys a))%nat.
Proof.
  revert a; induction keys as [|k' keys IH]; intros a Hin Hk Hp Hb; simpl; [by apply elem_of_nil in Hin|].
  destruct (decide (k' ∈ a)) as [Hk'|Hk'].
  { apply elem_of_cons in Hin as [->|Hin]; [done|]. by apply IH. }
  apply elem_of_cons in Hin as [->|Hin].
  - rewrite Hp. rewrite (proj2 (deps_placed_spec m a k' p Hp) Hb).
    destruct (orderRound_spec m keys (a ++ [k'])) as (x & -> & _). rewrite !app_length; simpl; lia.
  - destruct (m !! k') as [p'|]; [|by apply IH].
    destruct (deps_placed m a p').
    + destruct (orderRound_spec m keys (a ++ [k'])) as (x & -> & _). rewrite !app_length; simpl; lia.
    + by apply IH.
Qed.

Lemma orderRounds_spec m n keys a r l :
  orderRounds m n keys a r = Some l ->
  length l = n /\ exists x, l = a ++ x /\ x ⊆ keys /\
    (NoDup a -> NoDup l) /\ (deps_first m a -> deps_first m l).
Proof.
  revert a; induction r as [|r IH]; intros a; simpl; [done|].
  destruct (Nat.eqb_spec (length a) n) as [Hn|Hn].
  - intros [= <-]. split; [done|]. exists []. rewrite app_nil_r. split_and!; auto. set_solver.
  - intros H. apply IH in H as (Hl & x & -> & Hx & Hnd & Hdf).
    destruct (orderRound_spec m keys a) as (y & Ey & Hy & Hnd' & Hdf'). rewrite Ey in *.
    split; [done|]. exists (y ++ x). rewrite <- app_assoc in *. split_and!; [done| |auto..].
    intros z Hz. apply elem_of_app in Hz as [Hz|Hz]; auto.
Qed.

(** In a finite acyclic graph every non-empty set has an element without edges into the set. *)
Lemma chain_nodup m l : acyclic m -> is_chain m l -> NoDup l.
Proof.
  intros Ha. induction l as [|a l IH]; intros Hc; [constructor|].
  constructor; [|apply IH; destruct l; [done|apply Hc]].
  intros Hin. apply elem_of_list_split in Hin as (l1 & l2 & ->).
  apply (Ha a). clear IH. revert Hc. generalize a at 1 3.
  induction l1 as [|b l1 IHl]; intros a0; simpl; intros [He Hc]; [by apply tc_once|].
  eapply tc_l; [exact He|]. by apply IHl.
Qed.

Global Instance edge_dec m a b : Decision (edge m a b).
Proof.
  destruct (m !! a) as [p|] eqn:E.
  - destruct (decide (Exists (fun d => name2key d = b) (pl_deps p))) as [H|H].
    + left. apply Exists_exists in H as (d & Hd & H). exists p, d; auto.
    + right. intros (p' & d & Hp & Hd & Hb). rewrite E in Hp; simplify_eq.
      apply H, Exists_exists; eauto.
  - right. intros (p' & d & Hp & _). congruence.
Qed.

Lemma acyclic_minimal m (S : list string) x :
  acyclic m -> x ∈ S -> exists k, k ∈ S /\ forall b, edge m k b -> b ∉ S.
Proof.
  intros Ha Hx.
  destruct (decide (Exists (fun k => Forall (fun b => ~ edge m k b) S) S)) as [H|H].
  - apply Exists_exists in H as (k & Hk & H). exists k; split; [done|]. intros b Hb Hin.
    rewrite Forall_forall in H. by eapply H.
  - exfalso. apply not_Exists_Forall in H; [|intros; apply _].
    rewrite Forall_forall in H.
    assert (Hs : forall k, k ∈ S -> exists b, b ∈ S /\ edge m k b).
    { intros k Hk. specialize (H k Hk). apply not_Forall_Exists in H; [|intros; apply _].
      apply Exists_exists in H as (b & Hb & He). exists b; split; [done|]. by apply dec_stable in He. }
    assert (Hl : forall n x, x ∈ S -> exists l, length l = n /\ is_chain m (x :: l) /\ l ⊆ S).
    { induction n as [|n IH]; intros y Hy.
      - exists []; simpl; split_and!; auto. set_solver.
      - destruct (Hs y Hy) as (b & Hb & He). destruct (IH b Hb) as (l & Hlen & Hc & Hsub).
        exists (b :: l). split_and!; [simpl; lia|by split|set_solver]. }
    destruct (Hl (length S) x Hx) as (l & Hlen & Hc & Hsub).
    apply chain_nodup in Hc; [|done].
    assert (x :: l ⊆+ S) as Hlen'%submseteq_length; [|simpl in Hlen'; lia].
    apply NoDup_submseteq; [done|]. set_solver.
Qed.

Lemma orderRounds_total m n keys a r :
  acyclic m -> closed m -> n = size m -> NoDup a ->
  (forall k, k ∈ a -> is_Some (m !! k)) ->
  (forall k, is_Some (m !! k) -> k ∈ a \/ k ∈ keys) ->
  (forall k, k ∈ keys -> is_Some (m !! k)) ->
  (n - length a < r)%nat ->
  is_Some (orderRounds m n keys a r).
Proof.
  intros Hac Hcl ->. revert a; induction r as [|r IH]; intros a Hnd Ha Hall Hkeys Hr; [lia|]. simpl.
  destruct (Nat.eqb_spec (length a) (size m)) as [Hn|Hn]; [eauto|].
  assert (Hle : forall a, NoDup a -> (forall k, k ∈ a -> is_Some (m !! k)) -> (length a <= size m)%nat).
  { intros a' Hnd' Ha'. rewrite <- size_dom. rewrite <- (size_list_to_set (C := gset string) a') by done.
    apply subseteq_size. intros k Hk. apply elem_of_list_to_set in Hk. apply elem_of_dom. auto. }
  assert (exists k, is_Some (m !! k) /\ k ∉ a) as (k0 & Hk0 & Hk0a).
  { destruct (decide (dom m ⊆ list_to_set (C := gset string) a)) as [Hs|Hs].
    - exfalso. apply subseteq_size in Hs. rewrite size_dom, size_list_to_set in Hs by done.
      pose proof (Hle a Hnd Ha). lia.
    - destruct (decide (dom m ∖ list_to_set (C := gset string) a = ∅)) as [He|He]; [exfalso; apply Hs|].
      { intros k Hk. destruct (decide (k ∈ list_to_set (C := gset string) a)) as [|Hn']; [done|].
        assert (Hd : k ∈ dom m ∖ list_to_set (C := gset string) a) by (by apply elem_of_difference).
        rewrite He in Hd. by apply elem_of_empty in Hd. }
      apply set_choose_L in He as [k Hk]. apply elem_of_difference in Hk as [Hk1 Hk2].
      exists k. split; [by apply elem_of_dom|]. by rewrite elem_of_list_to_set in Hk2. }
  destruct (acyclic_minimal m (filter (fun k => k ∉ a) (elements (dom m))) k0) as (k & Hk & Hmin); [done| |].
  { apply elem_of_list_filter. split; [done|]. apply elem_of_elements. by apply elem_of_dom. }
  apply elem_of_list_filter in Hk as [Hka Hkm]. apply elem_of_elements, elem_of_dom in Hkm.
  destruct Hkm as [p Hp].
  assert (Hprog : (length a < length (orderRound m keys a))%nat).
  { eapply orderRound_progress; [|exact Hka|exact Hp|].
    - destruct (Hall k); eauto; done.
    - intros b Hb. destruct (decide (b ∈ a)) as [|Hba]; [done|]. exfalso.
      apply (Hmin b Hb). apply elem_of_list_filter. split; [done|]. apply elem_of_elements, elem_of_dom.
      eapply Hcl; eauto. }
  destruct (orderRound_spec m keys a) as (x & Ex & Hx & Hnd' & _). rewrite Ex in *.
  apply IH; [auto| | |done|].
  - intros k' Hk'. apply elem_of_app in Hk' as [|Hk']; auto.
  - intros k' Hk'. destruct (Hall k' Hk'); [left; set_solver|by right].
  - rewrite app_length in *. pose proof (Hle a Hnd Ha). lia.
Qed.

(** the rounds only look at which keys are placed, so permuted starting lists give the same continuation *)
Lemma orderRound_perm m keys a a' :
  Permutation a a' -> exists x, orderRound m keys a = a ++ x /\ orderRound m keys a' = a' ++ x.
Proof.
  revert a a'; induction keys as [|k keys IH]; intros a a' Hp; simpl.
  - exists []. by rewrite !app_nil_r.
  - assert (Hin : k ∈ a <-> k ∈ a') by (by rewrite Hp).
    destruct (decide (k ∈ a)) as [H1|H1], (decide (k ∈ a')) as [H2|H2]; try tauto; [by apply IH|].
    destruct (m !! k) as [p|] eqn:Ep; [|by apply IH].
    assert (Hd : deps_placed m a p = deps_placed m a' p).
    { apply Bool.eq_iff_eq_true. rewrite !(deps_placed_spec m _ k p Ep).
      split; intros H b Hb; [rewrite <- Hp|rewrite Hp]; auto. }
    rewrite Hd. destruct (deps_placed m a' p); [|by apply IH].
    destruct (IH (a ++ [k]) (a' ++ [k])) as (x & -> & ->); [by rewrite Hp|].
    exists (k :: x). by rewrite <- !app_assoc.
Qed.
Lemma orderRounds_perm m n keys a a' r l :
  Permutation a a' -> orderRounds m n keys a r = Some l ->
  exists x, l = a ++ x /\ orderRounds m n keys a' r = Some (a' ++ x).
Proof.
  revert a a'; induction r as [|r IH]; intros a a' Hp; simpl; [done|].
  rewrite <- (Permutation_length Hp).
  destruct (Nat.eqb_spec (length a) n) as [Hn|Hn].
  - intros [= <-]. exists []. by rewrite !app_nil_r.
  - destruct (orderRound_perm m keys a a' Hp) as (x & -> & ->). intros H.
    apply (IH _ (a' ++ x)) in H as (y & -> & ->); [|by rewrite Hp].
    exists (x ++ y). by rewrite <- !app_assoc.
Qed.
