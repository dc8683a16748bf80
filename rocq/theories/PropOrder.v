(** C01-C05, C42, C43: dependency order, lifecycle order, cycle check. *)
From Verif Require Import StageProofs Worlds.

Section Props.
Context {E : GoEnv}.

(** ** C01 *)
Theorem C01_plugins_in_dependency_order o h cur p t r m :
  next_call o h cur p t r -> published t m ->
  (* FindPlugin and Plugins() agree, and no plugin is listed twice *)
  (forall name q, FindPlugin m name = Some q <-> q ∈ Plugins m /\ same_name name (pl_name q)) /\
  NoDup (map (fun q => to_lower (pl_name q)) (Plugins m)) /\
  (* whatever a plugin depends on is listed before it *)
  (forall l1 q l2 d, Plugins m = l1 ++ q :: l2 -> d ∈ pl_deps q -> exists q', q' ∈ l1 /\ same_name d (pl_name q')).
Proof.
  intros HN HP. destruct (pub_ready _ _ _ _ _ _ _ HN HP) as (HK & Hac & Hcl & _ & Hperm & Hfirst & _).
  pose proof (map_key_Plugins _ HK Hperm) as Hkeys. split_and!.
  - intros name q. unfold FindPlugin, same_name. split.
    + intros Hq. split; [by eapply elem_Plugins|]. symmetry. by apply HK.
    + intros [Hq Hn]. apply Plugins_lookup in Hq as (k & Hk). unfold name2key. rewrite Hn. rewrite <- (HK _ _ Hk) in Hk. exact Hk.
  - unfold name2key in Hkeys. rewrite Hkeys, Hperm. apply map_keys_nodup.
  - intros l1 q l2 d Hl Hd. rewrite Hl, map_app in Hkeys. cbn [map] in Hkeys.
    assert (Hq : q ∈ Plugins m) by (rewrite Hl; apply elem_of_app; right; left).
    apply Plugins_lookup in Hq as (k & Hk). pose proof (HK _ _ Hk) as Hkk.
    assert (Hin : name2key d ∈ map (fun p => name2key (pl_name p)) l1).
    { eapply Hfirst; [symmetry; exact Hkeys|]. rewrite Hkk. by exists q, d. }
    apply elem_of_list_fmap in Hin as (q' & He & Hq'). by exists q'.
Qed.

(** The same for whatever Current() returns at any time. *)
Lemma published_after t : forall cur m, after cur t = Some m -> cur = Some m \/ published t m.
Proof. intros cur m. apply stored. Qed.
Lemma history_origin o h cur m : history o h cur -> fresh_objects h -> cur = Some m ->
  exists h0 cur0 p t r h1, h = h0 ++ t ++ h1 /\ next_call o h0 cur0 p t r /\ published t m.
Proof.
  intros HH. induction HH as [|h cur p t r HH IH HC HE HS]; [done|]. intros HF Hc.
  apply published_after in Hc as [->|Hp].
  - destruct IH as (h0 & cur0 & p0 & t0 & r0 & h1 & -> & HN & HP); [|done|].
    + unfold fresh_objects in *. rewrite created_app in HF. by apply NoDup_app in HF as (? & _).
    + exists h0, cur0, p0, t0, r0, (h1 ++ t). split_and!; [|done|done]. by rewrite <- !(assoc_L (++)).
  - exists h, cur, p, t, r, []. split_and!; [by rewrite app_nil_r|done|done].
Qed.
Theorem C01_current_in_dependency_order o h m : history o h (Some m) -> fresh_objects h ->
  (forall name q, FindPlugin m name = Some q <-> q ∈ Plugins m /\ same_name name (pl_name q)) /\
  NoDup (map (fun q => to_lower (pl_name q)) (Plugins m)) /\
  (forall l1 q l2 d, Plugins m = l1 ++ q :: l2 -> d ∈ pl_deps q -> exists q', q' ∈ l1 /\ same_name d (pl_name q')).
Proof.
  intros HH HF. destruct (history_origin _ _ _ _ HH HF eq_refl) as (h0 & cur0 & p & t & r & h1 & _ & HN & HP).
  by eapply C01_plugins_in_dependency_order.
Qed.

(** ** C02 *)
(** The plugins opened by the call, in the order of being opened, come from names in ascending order: in dynamic
    mode their own names, in static mode the names they are registered under. *)
Definition opened_in_name_order (o : opts) (opened : list plugin) : Prop :=
  exists names, StronglySorted str_le names /\
    Forall2 (fun n q => match o_static o with
                        | None => pl_name q = n
                        | Some st => exists sp, st !! n = Some (Some sp) /\ pl_name q = sp_name sp
                        end) names opened.

Lemma nodup_inst_perm (l1 l2 : list plugin) : NoDup (map pl_inst l1) -> NoDup (map pl_inst l2) ->
  (forall q, q ∈ l1 <-> q ∈ l2) -> Permutation l1 l2.
Proof. intros H1 H2 H. apply NoDup_Permutation; [|by eapply NoDup_fmap_1|done]. by eapply NoDup_fmap_1. Qed.

Lemma elem_by_key m q : q ∈ by_key m <-> q ∈ mplugins (pm_map m) /\ pl_unchanged q = false.
Proof.
  unfold by_key. rewrite elem_of_list_In, filter_In, <- elem_of_list_In, elem_plugins_of. unfold is_new. rewrite negb_true_iff, elem_mplugins. split.
  - intros [(k & _ & Hk) Hu]. split; [|done]. by exists k.
  - intros [(k & Hk) Hu]. split; [|done]. exists k. split; [|done]. unfold keys_of. rewrite elem_of_sort_strings, map_keys_elem. by exists q.
Qed.

Lemma nodup_map_inj {A B} (f : A -> B) l x y : NoDup (map f l) -> x ∈ l -> y ∈ l -> f x = f y -> x = y.
Proof.
  induction l as [|z l IH]; [intros _ Hx; by apply elem_of_nil in Hx|]. simpl. intros HN Hx Hy Hf. apply NoDup_cons in HN as [Hz HN].
  apply elem_of_cons in Hx as [->|Hx]; apply elem_of_cons in Hy as [->|Hy]; [done| | |auto].
  - exfalso. apply Hz. rewrite Hf. by apply elem_of_list_fmap_1.
  - exfalso. apply Hz. rewrite <- Hf. by apply elem_of_list_fmap_1.
Qed.

(** the plugins as they are in the manager at the end; a plugin whose place in the manager was taken by a namesake stays as opened *)
Lemma finals src cur s t s1 ps ks m : gath src cur s t s1 ps ks -> core_map m = core_map s1 -> NoDup (map pl_inst ps ++ map pl_inst ks) ->
  exists opened, Forall2 (fun q p => core q = core p /\ forall q', q' ∈ mplugins (pm_map m) -> pl_inst q' = pl_inst p -> q = q') opened ps.
Proof.
  intros HG Hc HND.
  assert (HNm : NoDup (map pl_inst (mplugins (pm_map m)))) by (eapply submseteq_nodup; [exact (gath_insts_sub _ _ _ _ _ _ _ _ HG Hc)|exact HND]).
  assert (Hsub : forall p, p ∈ ps -> exists q, core q = core p /\ forall q', q' ∈ mplugins (pm_map m) -> pl_inst q' = pl_inst p -> q = q').
  { intros p Hp. destruct (decide (pl_inst p ∈ map pl_inst (mplugins (pm_map m)))) as [Hin|Hout].
    - apply elem_of_list_fmap in Hin as (q & Hi & Hq). exists q. split.
      + assert (exists p', p' ∈ ps ++ ks /\ core q = core p') as (p' & Hp' & He).
        { destruct (gath_members _ _ _ _ _ _ _ _ q HG Hc Hq) as [[_ (p' & Hp' & He)]|[_ (p' & Hp' & He)]]; exists p'; (split; [apply elem_of_app|done]); [by left|by right]. }
        replace p with p'; [done|]. destruct (core_inst _ _ He) as (Hi' & _). rewrite <- map_app in HND.
        eapply (nodup_map_inj pl_inst (ps ++ ks)); [exact HND|done|apply elem_of_app; by left|congruence].
      + intros q' Hq' Hi'. eapply (nodup_map_inj pl_inst (mplugins (pm_map m))); [exact HNm|done|done|congruence].
    - exists p. split; [done|]. intros q' Hq' Hi'. destruct Hout. rewrite <- Hi'. by apply elem_of_list_fmap_1. }
  clear HG HND. induction ps as [|p ps IH]; [exists []; constructor|].
  destruct (Hsub p ltac:(left)) as (q & Hq). destruct IH as (qs & Hqs); [intros; apply Hsub; by right|].
  exists (q :: qs). by constructor.
Qed.

Theorem C02_successful_load_calls o h cur a t r m :
  next_call o h cur (api_prog o a) t r -> published t m ->
  exists opened byname,
    (* every created plugin of the manager was opened, and nothing else, unless registrations differ in case only:
       of these one is in the manager *)
    (forall q, q ∈ new_in t m -> q ∈ opened) /\ (distinct_registrations o -> Permutation opened (new_in t m)) /\
    (forall q, q ∈ opened -> exists q', q' ∈ Plugins m /\ same_name (pl_name q) (pl_name q')) /\
    Permutation byname (new_in t m) /\
    map pl_inst opened = created t /\ opened_in_name_order o opened /\
    StronglySorted str_le (map (fun q => to_lower (pl_name q)) byname) /\
    call_sigs t = lifecycle_calls (pm_id m) (api_data a) opened byname (new_in t m) (Plugins m).
Proof.
  intros HN HP. pose proof (pub_ready _ _ _ _ _ _ _ HN HP) as (HK & _).
  pose proof (run_pub _ _ _ _ _ _ _ (next_run _ _ _ _ _ _ HN) HP)
    as (ta & s & t1 & s1 & t2 & ps & ks & tz & d & -> & -> & Hb & Sa & Sz & HG & HL).
  destruct (exec_lifecycle _ _ _ _ _ (g_ordered _ _ _ _ _ _ _ HG) (g_funcs _ _ _ _ _ _ _ HG) (g_types _ _ _ _ _ _ _ HG) HL)
    as (a1 & a2 & a3 & a4 & a5 & -> & F1 & F2 & F3 & F4 & F5 & Hhead & Hw & Hcore & Hord & _ & _ & _ & D1 & D2 & D3 & D4 & _).
  destruct (D1 ltac:(by right)) as (C1 & (_ & _ & _ & Hperm & _) & _). destruct (D2 ltac:(by right)) as (C2 & _).
  destruct (D3 ltac:(by right)) as (C3 & C4 & _). destruct (D4 eq_refl) as (C5 & _).
  set (t := ta ++ t1 ++ (a1 ++ a2 ++ a3 ++ a4 ++ a5) ++ tz) in *.
  assert (Hcr : created t = map pl_inst ps).
  { unfold t. rewrite !created_app. destruct Sa as (_ & _ & _ & -> & _). destruct Sz as (_ & _ & _ & -> & _).
    rewrite (g_created _ _ _ _ _ _ _ HG).
    assert (created a1 = [] /\ created a2 = [] /\ created a3 = [] /\ created a4 = [] /\ created a5 = []) as (-> & -> & -> & -> & ->)
      by (split_and!; [apply (calls_noref _ _ F1)|apply (calls_noref _ _ F2)|apply (calls_noref _ _ F3)|apply (calls_noref _ _ F4)|apply (calls_noref _ _ F5)]; solve [done | intros ? <-; discriminate]).
    by rewrite !app_nil_r. }
  pose proof HN as (HH & _ & _ & _ & HF).
  assert (Hks : forall p, p ∈ ks -> pl_inst p ∉ created t).
  { refine (kept_old _ _ _ _ _ _ _ _ _ HH HF _ HG). unfold t. intros i Hi. rewrite !created_app, !elem_of_app. tauto. }
  assert (HNp : NoDup (map pl_inst ps)).
  { unfold fresh_objects in HF. rewrite created_app, Hcr in HF. by apply NoDup_app in HF as (_ & _ & ?). }
  assert (Hnew : new_in t m = new_ordered m).
  { unfold new_in, new_ordered. apply filter_ext_in. intros q Hq%elem_of_list_In. apply Plugins_lookup in Hq as (k & Hk).
    destruct (gath_members _ _ _ _ _ _ _ _ q HG Hcore) as [[Hu (p & Hp & He)]|[Hu (p & Hp & He)]]; [apply elem_mplugins; by exists k| |];
      unfold is_new; rewrite Hu; simpl; destruct (core_inst _ _ He) as (Hi & _).
    - apply bool_decide_true. rewrite Hcr, Hi. apply elem_of_list_fmap. by exists p.
    - apply bool_decide_false. rewrite Hi. by apply Hks. }
  assert (Hnew_in : forall q, q ∈ new_ordered m <-> q ∈ mplugins (pm_map m) /\ pl_unchanged q = false).
  { intros q. unfold new_ordered. rewrite elem_of_list_In, filter_In, <- elem_of_list_In. unfold is_new. rewrite negb_true_iff. split; intros [Hq Hu]; (split; [|done]).
    - apply Plugins_lookup in Hq. by apply elem_mplugins.
    - apply elem_mplugins in Hq as (k & Hk). by eapply elem_Plugins. }
  assert (Hdis : NoDup (map pl_inst (new_ordered m)) /\ NoDup (map pl_inst (by_key m))).
  { assert (Hord' : NoDup (pm_ordered m)) by (rewrite Hperm; apply map_keys_nodup).
    assert (Hkey : forall l, NoDup l -> NoDup (map pl_inst (List.filter is_new (plugins_of (pm_map m) l)))).
    { intros l Hl.
      assert (Hone : forall k1 k2 q1 q2, pm_map m !! k1 = Some q1 -> pm_map m !! k2 = Some q2 -> pl_unchanged q1 = false -> pl_unchanged q2 = false -> pl_inst q1 = pl_inst q2 -> k1 = k2).
      { intros k1 k2 q1 q2 H1 H2 U1 U2 Hi.
        destruct (gath_members _ _ _ _ _ _ _ _ q1 HG Hcore) as [[_ (p1 & Hp1 & He1)]|[Hu _]]; [apply elem_mplugins; by exists k1| |congruence].
        destruct (gath_members _ _ _ _ _ _ _ _ q2 HG Hcore) as [[_ (p2 & Hp2 & He2)]|[Hu _]]; [apply elem_mplugins; by exists k2| |congruence].
        destruct (core_inst _ _ He1) as (Hi1 & _ & Hn1). destruct (core_inst _ _ He2) as (Hi2 & _ & Hn2).
        assert (p1 = p2) as <-. { eapply (nodup_map_inj pl_inst ps); try done. congruence. }
        rewrite <- (HK _ _ H1), <- (HK _ _ H2). congruence. }
      clear -Hl Hone. induction l as [|k l IH]; [constructor|]. apply NoDup_cons in Hl as [Hk Hl]. simpl.
      destruct (pm_map m !! k) as [q|] eqn:Hq; [|auto]. simpl. unfold is_new at 1. destruct (pl_unchanged q) eqn:Hu; simpl; [auto|].
      constructor; [|auto]. intros Hin. apply elem_of_list_fmap in Hin as (q2 & Hi & Hq2). apply elem_of_list_In, filter_In in Hq2 as [Hq2 Hu2].
      apply elem_of_list_In, elem_plugins_of in Hq2 as (k2 & Hk2 & Hq2). unfold is_new in Hu2. apply negb_true_iff in Hu2.
      rewrite (Hone _ _ _ _ Hq Hq2 Hu Hu2 Hi) in Hk. done. }
    split; apply Hkey; [done|apply sorted_keys_nodup]. }
  destruct Hdis as (Hd1 & Hd2).
  assert (HND : NoDup (map pl_inst ps ++ map pl_inst ks)).
  { refine (gath_nodup _ _ _ _ _ _ _ _ _ HH HF _ _ HG); [|by rewrite (g_created _ _ _ _ _ _ _ HG)]. unfold t. intros i Hi. rewrite !created_app, !elem_of_app. tauto. }
  destruct (finals _ _ _ _ _ _ _ _ HG Hcore HND) as (opened & Hop).
  assert (Hinst : map pl_inst opened = map pl_inst ps).
  { clear -Hop. induction Hop as [|q p qs ps (He & _) HF IH]; [done|]. simpl. f_equal; [by apply core_inst|done]. }
  assert (Hin_op : forall q, q ∈ new_ordered m -> q ∈ opened).
  { intros q [Hq Hu]%Hnew_in. destruct (gath_members _ _ _ _ _ _ _ _ q HG Hcore Hq) as [[_ (p & Hp & He)]|[Hu' _]]; [|congruence].
    apply elem_of_list_lookup in Hp as (n & Hp). destruct (Forall2_lookup_r _ _ _ _ _ Hop Hp) as (q' & Hq' & _ & Huq).
    rewrite <- (Huq q); [by eapply elem_of_list_lookup_2|done|by apply core_inst]. }
  exists opened, (by_key m). rewrite Hnew. split_and!.
  - exact Hin_op.
  - intros HD. apply nodup_inst_perm; [by rewrite Hinst|done|]. intros q. split; [|apply Hin_op].
    intros Hq. apply elem_of_list_lookup in Hq as (n & Hq). destruct (Forall2_lookup_l _ _ _ _ _ Hop Hq) as (p & Hp & He & Huq).
    apply elem_of_list_lookup_2 in Hp. assert (Hi : pl_inst p ∈ map pl_inst (mplugins (pm_map m))).
    { rewrite (gath_insts _ _ _ _ _ _ _ _ HG (names_ok_spec _ HD) Hcore). apply elem_of_app. left. by apply elem_of_list_fmap_1. }
    apply elem_of_list_fmap in Hi as (q' & Hi & Hq'). pose proof (Huq _ Hq' (eq_sym Hi)) as ->. apply Hnew_in. split; [done|].
    destruct (core_inst _ _ He) as (_ & -> & _). by apply (g_new _ _ _ _ _ _ _ HG).
  - intros q Hq. apply elem_of_list_lookup in Hq as (n & Hq). destruct (Forall2_lookup_l _ _ _ _ _ Hop Hq) as (p & Hp & He & _).
    apply elem_of_list_lookup_2 in Hp. destruct (g_cover _ _ _ _ _ _ _ HG p) as (q1 & Hq1 & Hkey); [apply elem_of_app; by left|].
    apply elem_mplugins in Hq1 as (k & Hk). apply core_map_lookup in Hk. rewrite <- Hcore in Hk. apply core_map_lookup_inv in Hk as (q' & Hq' & He').
    exists q'. split; [by eapply elem_Plugins|]. destruct (core_inst _ _ He) as (_ & _ & N1). destruct (core_inst _ _ He') as (_ & _ & N2).
    unfold same_name. unfold name2key in Hkey. congruence.
  - apply nodup_inst_perm; [done|done|]. intros q. by rewrite elem_by_key, Hnew_in.
  - by rewrite Hinst, Hcr.
  - destruct (g_src _ _ _ _ _ _ _ HG) as (names & Hsort & Hsrc). exists names. split; [done|].
    clear -Hop Hsrc. revert names Hsrc. induction Hop as [|q p qs ps (He & _) HF IH]; intros names Hsrc; [inversion Hsrc; constructor|].
    inversion Hsrc as [|n ? ns ? Hn Hns]; subst. constructor; [|auto]. destruct (core_inst _ _ He) as (_ & _ & Hnm). rewrite Hnm.
    unfold source in Hn. destruct (o_static o) as [st|]; [destruct Hn as (sp & ? & ? & _); by exists sp|by destruct Hn].
  - assert (Hmap : map (fun q => to_lower (pl_name q)) (plugins_of (pm_map m) (keys_of m)) = keys_of m).
    { assert (Hsub : forall k, k ∈ keys_of m -> is_Some (pm_map m !! k)) by (intros k Hk; unfold keys_of in Hk; by rewrite elem_of_sort_strings, map_keys_elem in Hk).
      clear -Hsub HK. induction (keys_of m) as [|k l IH]; [done|]. simpl. destruct (Hsub k ltac:(left)) as (q & Hq). rewrite Hq. simpl. f_equal; [by apply HK|].
      apply IH. intros; apply Hsub; by right. }
    pose proof (sort_strings_ssorted (map_keys (pm_map m))) as HS. fold (keys_of m) in HS. rewrite <- Hmap in HS. unfold by_key.
    clear -HS. induction (plugins_of (pm_map m) (keys_of m)) as [|q l IH]; [constructor|]. simpl in *. inversion HS as [|? ? H1 H2]; subst.
    destruct (is_new q); [|auto]. simpl. constructor; [auto|]. rewrite Forall_forall in H2 |- *. intros x Hx. apply H2.
    apply elem_of_list_fmap in Hx as (y & -> & Hy). apply elem_of_list_fmap. exists y. split; [done|]. apply elem_of_list_In. apply elem_of_list_In, filter_In in Hy. tauto.
  - unfold t. rewrite !call_sigs_app. destruct Sa as (-> & _). destruct Sz as (-> & _). rewrite (g_calls _ _ _ _ _ _ _ HG), C1, C2, C3, C4, C5.
    rewrite (new_by_key_final _ _ _ _ Hcore). unfold lifecycle_calls, opens. simpl.
    destruct (g_head _ _ _ _ _ _ _ HG) as (Hid & _). destruct Hhead as (Hid2 & _). rewrite Hid2, <- Hid, app_nil_r.
    f_equal. clear -Hop. induction Hop as [|q p qs ps (He & _) HF IH]; [done|].
    assert (Hq : forall r mid arg, called r mid arg p = called r mid arg q) by (intros r mid arg; rewrite <- (called_core r mid arg q), <- (called_core r mid arg p), He; done).
    cbn [flat_map app]. rewrite !Hq, IH. done.
Qed.


(** Any load call, successful or not. *)
Lemma once_calls_app a b : once_calls (a ++ b) = once_calls a ++ once_calls b.
Proof. apply List.filter_app. Qed.
Lemma once_roles cs : (forall c, c ∈ cs -> once_role (cs_role c) = true) -> once_calls cs = cs.
Proof.
  induction cs as [|c cs IH]; [done|]. intros H. unfold once_calls. simpl. rewrite (H c ltac:(left)). f_equal. apply IH. intros; apply H; by right.
Qed.
Lemma once_called r mid arg l : once_role r = true -> once_calls (map (called r mid arg) l) = map (called r mid arg) l.
Proof. intros Hr. apply once_roles. intros c Hc. apply elem_of_list_fmap in Hc as (p & -> & _). by rewrite called_role. Qed.
Lemma once_live_called r mid arg l : once_role r = false -> once_calls (map (called r mid arg) l) = [].
Proof. intros Hr. induction l as [|p l IH]; [done|]. unfold once_calls in *. simpl. by rewrite Hr. Qed.
Lemma once_opens mid ps : once_calls (opens mid ps) = opens mid ps.
Proof.
  apply once_roles. intros c Hc. apply elem_of_list_In, in_flat_map in Hc as (p & _ & [<-|[<-|[]]]); by rewrite called_role.
Qed.

Lemma once_lifecycle mid data opened byname new all :
  once_calls (lifecycle_calls mid data opened byname new all) =
  opens mid opened ++ map (called RImport mid ArgNone) byname ++ map (called ROnLoad mid (ArgData data)) new ++ map (called ROnInit mid (ArgVault mid)) new.
Proof.
  unfold lifecycle_calls. rewrite !once_calls_app. fold (opens mid opened).
  rewrite once_opens, (once_called RImport), (once_called ROnLoad), (once_live_called RLiveFuncs), (once_live_called RLiveTypes), (once_called ROnInit) by done. done.
Qed.

Definition cs_arg (c : callsig) : callarg := let '(_, _, _, _, _, a) := c in a.

Lemma opens_in mid ps c : c ∈ opens mid ps -> exists p, p ∈ ps /\ (c = called RReloadable mid ArgNone p \/ c = called RExport mid ArgNone p).
Proof. intros Hc. apply elem_of_list_In, in_flat_map in Hc as (p & Hp%elem_of_list_In & [<-|[<-|[]]]); eauto. Qed.

Lemma phase_opens mid ps : Forall (fun c => phase (cs_role c) = 0%nat) (opens mid ps).
Proof. apply Forall_forall. intros c Hc. by apply opens_in in Hc as (p & _ & [->| ->]). Qed.

Lemma sublist_nodup {A} (l1 l2 : list A) : l1 `sublist_of` l2 -> NoDup l2 -> NoDup l1.
Proof.
  induction 1 as [|x l1 l2 H IH|x l1 l2 H IH]; intros HN; [done| |]; apply NoDup_cons in HN as [Hx HN]; [|auto].
  constructor; [|auto]. intros Hi. apply Hx. by eapply sublist_in.
Qed.

Theorem C02_any_load_calls o h cur a t r :
  next_call o h cur (api_prog o a) t r ->
  exists calls frees mid opened byname new all,
    (* the load proper, then only OnFree calls, and these only if the load fails *)
    call_sigs t = calls ++ frees /\
    (forall c, c ∈ frees -> cs_role c = ROnFree) /\ (is_val r -> frees = []) /\
    (* the load proper goes phase by phase; apart from the live tables it is a prefix of the complete sequence of calls for the created plugins *)
    StronglySorted phase_le calls /\
    once_calls calls `prefix_of` once_calls (lifecycle_calls mid (api_data a) opened byname new all) /\
    NoDup (map pl_inst opened) /\ (forall q, q ∈ opened -> pl_inst q ∈ created t) /\
    Permutation (map pl_inst byname) (map pl_inst new) /\ (forall q, q ∈ new -> pl_inst q ∈ map pl_inst opened) /\
    (distinct_registrations o -> Permutation (map pl_inst new) (map pl_inst opened)) /\
    (* and a phase starts only when the phases before are complete for all created plugins
       (the live tables count as one phase); of the plugins registered under names that differ in case only, all are
       opened, but one alone goes through the later phases *)
    (forall c r' i, c ∈ calls -> (phase r' < phase (cs_role c))%nat -> (cs_role c = RLiveTypes -> r' <> RLiveFuncs) ->
       i ∈ created t -> phase r' = 0%nat \/ distinct_registrations o \/ i ∈ map pl_inst new -> returned r' i t).
Proof.
  intros HN. pose proof (next_stages _ _ _ _ _ _ HN) as [Hsil Hnp Hr|s t1 tl s' ps ks tf e Hb HG HO HR -> He Hnp Hin Hcs Rf|s t1 s1 t2 s' ob ps ks tf Hb HG HE Hres Hin Hcs Rf].
  - exists [], [], 0%N, [], [], [], []. destruct Hsil as (-> & _). split_and!; try done; try (apply prefix_nil); try (by constructor); try (intros ? H; by apply elem_of_nil in H).
    intros ? ? ? H; by apply elem_of_nil in H.
  - destruct (released_facts _ _ HR) as (fs & _ & _ & _ & Hfr & _).
    pose proof HN as (HH & _ & _ & _ & HF). unfold fresh_objects in HF. rewrite created_app in HF. apply NoDup_app in HF as (_ & _ & HF). rewrite (rf_created _ _ _ _ _ Rf) in HF.
    destruct HO as (_ & _ & _ & HO).
    assert (Hcase : exists op, call_sigs tl `prefix_of` opens (pm_id s) op /\ map pl_inst op `sublist_of` created tl).
    { destruct HO as [->|(p & Hc & HO)].
      - exists []. split; [apply prefix_nil|apply sublist_nil_l].
      - exists [p]. rewrite Hc. split; [|done]. destruct HO as [->| ->]; simpl; [by exists [called RExport (pm_id s) ArgNone p]|done]. }
    destruct Hcase as (op & Hop & Hsub).
    assert (HNo : NoDup (map pl_inst (ps ++ op))).
    { rewrite map_app. apply NoDup_app in HF as (F1 & F2 & F3). apply NoDup_app. split_and!; [done| |by eapply sublist_nodup].
      intros x Hx Hy. eapply F2; [exact Hx|]. by eapply sublist_in. }
    exists (opens (pm_id s) ps ++ call_sigs tl), (call_sigs tf), (pm_id s), (ps ++ op), (ps ++ op), (ps ++ op), [].
    assert (Hph0 : Forall (fun c => phase (cs_role c) = 0%nat) (opens (pm_id s) ps ++ call_sigs tl)).
    { apply Forall_app. split; [apply phase_opens|]. destruct Hop as (rest & Hop). pose proof (phase_opens (pm_id s) op) as Hf. rewrite Hop in Hf. by apply Forall_app in Hf as [? _]. }
    split_and!; try done.
    + by rewrite Hcs, (assoc_L (++)).
    + by apply same_phase_sorted with 0%nat.
    + rewrite once_lifecycle, once_roles.
      * unfold opens at 2. rewrite flat_map_app. fold (opens (pm_id s) ps) (opens (pm_id s) op). rewrite <- (assoc_L (++)). apply prefix_app. by apply prefix_app_r.
      * intros c Hc. rewrite Forall_forall in Hph0. apply Hph0 in Hc. by destruct (cs_role c).
    + intros q Hq. rewrite (rf_created _ _ _ _ _ Rf). apply elem_of_app in Hq as [Hq|Hq]; apply elem_of_app; [left; by apply elem_of_list_fmap_1|right].
      eapply sublist_in; [exact Hsub|]. by apply elem_of_list_fmap_1.
    + intros q Hq. by apply elem_of_list_fmap_1.
    + intros c r' i Hc Hph _ _ _. rewrite Forall_forall in Hph0. rewrite (Hph0 _ Hc) in Hph. lia.
  - pose proof HN as (HH & _ & _ & _ & HF).
    assert (Hks : forall p, p ∈ ks -> pl_inst p ∉ created t).
    { refine (kept_old _ _ _ _ _ _ _ _ _ HH HF _ HG). intros i. rewrite (g_created _ _ _ _ _ _ _ HG), (rf_created _ _ _ _ _ Rf). done. }
    assert (HNp : NoDup (map pl_inst ps)).
    { unfold fresh_objects in HF. rewrite created_app, (rf_created _ _ _ _ _ Rf) in HF. by apply NoDup_app in HF as (_ & _ & ?). }
    assert (HND : NoDup (map pl_inst ps ++ map pl_inst ks)).
    { refine (gath_nodup _ _ _ _ _ _ _ _ _ HH HF _ _ HG); rewrite (g_created _ _ _ _ _ _ _ HG); [|done]. by rewrite (rf_created _ _ _ _ _ Rf). }
    destruct (life_facts _ _ _ _ _ _ _ _ _ _ _ HG HE HND) as (L1 & L2 & L3 & L4 & L5 & L6).
    destruct (exec_lifecycle _ _ _ _ _ (g_ordered _ _ _ _ _ _ _ HG) (g_funcs _ _ _ _ _ _ _ HG) (g_types _ _ _ _ _ _ _ HG) HE)
      as (a1 & a2 & a3 & a4 & a5 & Ht2 & F1 & F2 & F3 & F4 & F5 & Hhead & Hw & Hcore & Hord & (r1 & P1) & (r2 & P2) & (r5 & P5) & D1 & D2 & D3 & D4 & _).
    rewrite (new_by_key_final _ _ _ _ Hcore) in P1.
    assert (Hid : pm_id s1 = pm_id s) by apply (g_head _ _ _ _ _ _ _ HG). assert (Hid' : pm_id s' = pm_id s) by (rewrite <- Hid; apply Hhead).
    rewrite Hid in P1. rewrite Hid' in P2, P5.
    assert (Hfrees : (forall c, c ∈ call_sigs tf -> cs_role c = ROnFree) /\ (is_val r -> call_sigs tf = [])).
    { destruct Hres as [(e & -> & _ & HR & _)|(d & -> & _ & _ & -> & _)].
      - destruct (released_facts _ _ HR) as (fs & _ & _ & _ & Hfr & _). done.
      - split; [|done]. intros c Hc. by apply elem_of_nil in Hc. }
    destruct Hfrees as (Hfr & Hfr').
    assert (HNDm : NoDup (map pl_inst (mplugins (pm_map s')))) by (eapply submseteq_nodup; [exact (gath_insts_sub _ _ _ _ _ _ _ _ HG Hcore)|exact HND]).
    assert (Hnews : forall l, NoDup l -> (forall k, is_Some (pm_map s' !! k) -> k ∈ l) ->
      let is := map pl_inst (List.filter is_new (plugins_of (pm_map s') l)) in
      NoDup is /\ forall i, i ∈ is <-> i ∈ map pl_inst ps /\ i ∈ map pl_inst (mplugins (pm_map s'))).
    { intros l Hl Hall is. split; [apply nodup_filter_map; by apply nodup_plugins_of|]. intros i. unfold is. split.
      - intros Hi. apply elem_of_list_fmap in Hi as (q & -> & Hq). split; [by eapply sub_ps|]. apply elem_of_list_fmap_1.
        apply elem_of_list_In, filter_In in Hq as [Hq _]. apply elem_of_list_In, elem_plugins_of in Hq as (k & _ & Hk). apply elem_mplugins. by exists k.
      - intros [Hi Hm]. apply elem_of_list_fmap in Hm as (q & -> & Hq). apply elem_of_list_fmap_1. apply elem_of_list_In, filter_In. rewrite <- elem_of_list_In. split.
        + apply elem_mplugins in Hq as (k & Hk). apply elem_plugins_of. exists k. split; [|done]. apply Hall. by rewrite Hk.
        + unfold is_new. destruct (gath_members _ _ _ _ _ _ _ _ q HG Hcore Hq) as [[-> _]|[_ (p & Hp & He)]]; [done|]. exfalso.
          apply NoDup_app in HND as (_ & HND & _). apply (HND _ Hi). destruct (core_inst _ _ He) as (-> & _). by apply elem_of_list_fmap_1. }
    assert (Hfull : distinct_registrations o -> forall i, i ∈ map pl_inst ps -> i ∈ map pl_inst (mplugins (pm_map s'))).
    { intros HD i Hi. rewrite (gath_insts _ _ _ _ _ _ _ _ HG (names_ok_spec _ HD) Hcore). apply elem_of_app. by left. }
    exists (opens (pm_id s) ps ++ call_sigs t2), (call_sigs tf), (pm_id s), ps, (by_key s').
    assert (Hby : let is := map pl_inst (by_key s') in NoDup is /\ forall i, i ∈ is <-> i ∈ map pl_inst ps /\ i ∈ map pl_inst (mplugins (pm_map s'))).
    { apply Hnews; [apply sorted_keys_nodup|]. intros k Hk. unfold keys_of. rewrite elem_of_sort_strings, map_keys_elem. exact Hk. }
    assert (Hpre : exists new, once_calls (call_sigs t2) `prefix_of` map (called RImport (pm_id s) ArgNone) (by_key s') ++
                map (called ROnLoad (pm_id s) (ArgData (api_data a))) new ++ map (called ROnInit (pm_id s) (ArgVault (pm_id s))) new /\
                (let is := map pl_inst new in NoDup is /\ forall i, i ∈ is <-> i ∈ map pl_inst ps /\ i ∈ map pl_inst (mplugins (pm_map s')))).
    { assert (Honce : once_calls (call_sigs t2) = call_sigs a1 ++ call_sigs a2 ++ call_sigs a5).
      { rewrite Ht2, !call_sigs_app, !once_calls_app.
        rewrite (once_all a1 RImport), (once_all a2 ROnLoad), (once_live a3 RLiveFuncs), (once_live a4 RLiveTypes), (once_all a5 ROnInit) by done. done. }
      rewrite Honce.
      destruct (decide (a2 ++ a3 ++ a4 ++ a5 = [])) as [Hnil|Hnn].
      - exists (by_key s'). split; [|done]. apply app_eq_nil in Hnil as [-> Hnil]. apply app_eq_nil in Hnil as [-> Hnil]. apply app_eq_nil in Hnil as [-> ->].
        cbn [call_sigs omap list_omap]. rewrite !app_nil_r. apply prefix_app_r. by exists r1.
      - destruct (D1 (or_introl Hnn)) as (C1 & (_ & _ & _ & Hperm & _) & _). rewrite (new_by_key_final _ _ _ _ Hcore) in C1. rewrite Hid in C1.
        exists (new_ordered s'). split.
        2:{ unfold new_ordered, Plugins. apply Hnews; [rewrite Hperm; apply map_keys_nodup|]. intros k Hk. by rewrite Hperm, map_keys_elem. }
        rewrite C1. apply prefix_app.
        destruct (decide (a3 ++ a4 ++ a5 = [])) as [Hnil|Hnn2].
        + apply app_eq_nil in Hnil as [-> Hnil]. apply app_eq_nil in Hnil as [-> ->]. cbn [call_sigs omap list_omap]. rewrite app_nil_r. apply prefix_app_r. by exists r2.
        + destruct (D2 (or_introl Hnn2)) as (C2 & _). rewrite Hid' in C2. rewrite C2. apply prefix_app. by exists r5. }
    destruct Hpre as (new & Hpre & Hnew). cbv zeta in Hby, Hnew. destruct Hby as [Hby1 Hby2]. destruct Hnew as [Hnew1 Hnew2]. exists new, [].
    split_and!; try done.
    + by rewrite Hcs, (assoc_L (++)).
    + apply ssorted_app; [eapply same_phase_sorted, phase_opens|done|]. intros x y Hx Hy. unfold phase_le.
      pose proof (phase_opens (pm_id s) ps) as Hp0. rewrite Forall_forall in Hp0. rewrite (Hp0 _ Hx). lia.
    + rewrite once_lifecycle, once_calls_app, once_opens. by apply prefix_app.
    + intros q Hq. rewrite (rf_created _ _ _ _ _ Rf). by apply elem_of_list_fmap_1.
    + apply NoDup_Permutation; [done|done|]. intros i. by rewrite Hby2, Hnew2.
    + intros q Hq. apply (elem_of_list_fmap_1 pl_inst) in Hq. by apply Hnew2 in Hq as [Hq _].
    + intros HD. apply NoDup_Permutation; [done|done|]. intros i. rewrite Hnew2. split; [tauto|]. intros Hi. split; [done|]. by apply Hfull.
    + intros c r' i Hc Hph Hlive Hi Hwho. rewrite (rf_created _ _ _ _ _ Rf) in Hi.
      assert (Hret : returned r' i (t1 ++ t2) -> returned r' i t).
      { intros (c0 & arg & x & H0 & He & Hn). exists c0, arg, x. split; [|done]. apply Hin. rewrite (assoc_L (++)). apply elem_of_app. by left. }
      apply elem_of_app in Hc as [Hc|Hc].
      { pose proof (phase_opens (pm_id s) ps) as Hp0. rewrite Forall_forall in Hp0. rewrite (Hp0 _ Hc) in Hph. lia. }
      rewrite Forall_forall in L2. pose proof (L2 _ Hc) as Hph2. apply Hret.
      assert (Hwho' : phase r' = 0%nat \/ i ∈ map pl_inst (mplugins (pm_map s'))).
      { destruct Hwho as [?|[HD|Hm]]; [by left|right; by apply Hfull|right; by apply Hnew2 in Hm as [_ ?]]. }
      destruct r'; cbn [phase] in Hph; try lia.
      * apply returned_app_r. destruct Hwho' as [?|Hm]; [done|]. by eapply L5; [exact Hc|right|..].
      * apply elem_of_list_fmap in Hi as (p & -> & Hp). apply returned_app_l. by apply (g_ret _ _ _ _ _ _ _ HG).
      * apply returned_app_r. destruct Hwho' as [?|Hm]; [done|]. by eapply L5; [exact Hc|left|..].
      * apply elem_of_list_fmap in Hi as (p & -> & Hp). apply returned_app_l. by apply (g_ret _ _ _ _ _ _ _ HG).
      * apply returned_app_r. destruct Hwho' as [?|Hm]; [done|]. eapply L6; [exact Hc| |by left|done].
        destruct (cs_role c); cbn [phase] in *; try lia; try done. by destruct (Hlive eq_refl).
      * apply returned_app_r. destruct Hwho' as [?|Hm]; [done|]. eapply L6; [exact Hc| |by right|done].
        destruct (cs_role c); cbn [phase] in *; try lia; try done.
Qed.


(** ** C03 *)
Lemma lifecycle_insts mid data opened byname new all c :
  c ∈ once_calls (lifecycle_calls mid data opened byname new all) -> cs_inst c ∈ map pl_inst opened \/ cs_inst c ∈ map pl_inst byname \/ cs_inst c ∈ map pl_inst new.
Proof.
  rewrite once_lifecycle, !elem_of_app. intros [Hc|[Hc|[Hc|Hc]]].
  - apply opens_in in Hc as (p & Hp & [->| ->]); left; rewrite called_inst; by apply elem_of_list_fmap_1.
  - apply elem_of_list_fmap in Hc as (p & -> & Hp). right; left. rewrite called_inst. by apply elem_of_list_fmap_1.
  - apply elem_of_list_fmap in Hc as (p & -> & Hp). right; right. rewrite called_inst. by apply elem_of_list_fmap_1.
  - apply elem_of_list_fmap in Hc as (p & -> & Hp). right; right. rewrite called_inst. by apply elem_of_list_fmap_1.
Qed.
(** An object not created by the load itself is asked for its live tables only (or freed if the load fails). *)
Theorem C03_only_created_plugins_are_started o h cur a t r c :
  next_call o h cur (api_prog o a) t r -> c ∈ call_sigs t -> cs_inst c ∉ created t ->
  cs_role c = RLiveFuncs \/ cs_role c = RLiveTypes \/ (cs_role c = ROnFree /\ ~ is_val r).
Proof.
  intros HN Hc Hi. destruct (C02_any_load_calls _ _ _ _ _ _ HN) as (calls & frees & mid & opened & byname & new & all & Hcs & Hfr & Hok & _ & Hpre & _ & Hcr & P1 & P2 & _).
  rewrite Hcs in Hc. apply elem_of_app in Hc as [Hc|Hc].
  - destruct (once_role (cs_role c)) eqn:Ho; [|destruct (cs_role c); try done; tauto].
    exfalso. assert (Hc' : c ∈ once_calls calls) by (apply elem_once_calls; done).
    destruct Hpre as (rest & Hpre). assert (Hin : c ∈ once_calls (lifecycle_calls mid (api_data a) opened byname new all)) by (rewrite Hpre; apply elem_of_app; by left).
    apply lifecycle_insts in Hin. rewrite P1 in Hin. assert (cs_inst c ∈ map pl_inst opened) as Hin'.
    { assert (Hno : cs_inst c ∈ map pl_inst new -> cs_inst c ∈ map pl_inst opened) by (intros Hn; apply elem_of_list_fmap in Hn as (q & -> & Hq); by apply P2). tauto. }
    apply elem_of_list_fmap in Hin' as (q & Hq & Hq'). apply Hi. rewrite Hq. by apply Hcr.
  - right; right. split; [by apply Hfr|]. intros Hv. rewrite (Hok Hv) in Hc. by apply elem_of_nil in Hc.
Qed.

Theorem C03_kept_plugins_left_alone o h cur a t r m q c :
  next_call o h cur (api_prog o a) t r -> published t m ->
  (* the plugin is reported as carried over *)
  q ∈ Plugins m -> pl_note q = "unchanged" \/ pl_note q = "not reloadable" ->
  (* calls on it *)
  c ∈ call_sigs t -> cs_inst c = pl_inst q ->
  cs_role c = RLiveFuncs \/ cs_role c = RLiveTypes.
Proof.
  intros HN HP Hq Hnote Hc Hi.
  pose proof (run_pub _ _ _ _ _ _ _ (next_run _ _ _ _ _ _ HN) HP)
    as (ta & s & t1 & s1 & t2 & ps & ks & tz & d & Ht & Hr & Hb & Sa & Sz & HG & HL).
  destruct (exec_lifecycle _ _ _ _ _ (g_ordered _ _ _ _ _ _ _ HG) (g_funcs _ _ _ _ _ _ _ HG) (g_types _ _ _ _ _ _ _ HG) HL)
    as (a1 & a2 & a3 & a4 & a5 & _ & _ & _ & _ & _ & _ & _ & _ & Hcore & _).
  assert (Hnc : cs_inst c ∉ created t).
  { pose proof HN as (HH & _ & _ & _ & HF). apply Plugins_lookup in Hq as (k & Hk). rewrite Hi.
    destruct (gath_members _ _ _ _ _ _ _ _ q HG Hcore) as [[_ (p & Hp & He)]|[_ (p & Hp & He)]]; [apply elem_mplugins; by exists k| |].
    - pose proof (g_note _ _ _ _ _ _ _ HG _ Hp) as Hn. assert (pl_note q = pl_note p) by (unfold core in He; congruence).
      destruct Hnote, Hn; congruence.
    - destruct (core_inst _ _ He) as (-> & _). revert p Hp He. refine (fun p Hp _ => kept_old _ _ _ _ _ _ _ _ _ HH HF _ HG p Hp).
      intros i. rewrite Ht, !created_app, !elem_of_app. tauto. }
  destruct (C03_only_created_plugins_are_started _ _ _ _ _ _ _ HN Hc Hnc) as [?|[?|[_ Hv]]]; [tauto|tauto|]. by subst r.
Qed.

(** Whatever the result, the plugins of the manager that was current before are never started again. *)
Theorem C03_current_plugins_not_restarted o h m a t r q c :
  next_call o h (Some m) (api_prog o a) t r -> o_static o = None -> q ∈ Plugins m -> c ∈ call_sigs t -> cs_inst c = pl_inst q ->
  cs_role c = RLiveFuncs \/ cs_role c = RLiveTypes \/ (cs_role c = ROnFree /\ ~ is_val r).
Proof.
  intros HN Hst Hq Hc Hi. eapply C03_only_created_plugins_are_started; [exact HN|done|].
  rewrite Hi. destruct HN as (HH & _ & _ & _ & HF). pose proof (history_sound _ _ _ Hst HH _ eq_refl) as (_ & HS).
  apply Plugins_lookup in Hq as (k & Hk). destruct (HS _ _ Hk) as (_ & _ & _ & Hcr & _).
  unfold fresh_objects in HF. rewrite created_app in HF. apply NoDup_app in HF as (_ & HF & _). exact (HF _ Hcr).
Qed.

End Props.

(** ** Concrete cases *)
(** In the second load of Worlds.v plugin a is kept (not reloadable), b is kept (unchanged) and c is opened anew; the
    hypotheses of C01, C02, C03 are met, with dependencies c -> b -> a. *)
Example C01_C02_C03_case :
  next_call dyn t0 (Some m0) (api_prog dyn (Call_Reload 78 (Some 5%N))) t1 (snd run1) /\ distinct_registrations dyn /\ published t1 m1 /\
  map (fun p => (pl_name p, pl_note p, pl_deps p)) (Plugins m1) = [("a", "not reloadable", []); ("b", "unchanged", ["a"]); ("c", "", ["b"])] /\
  length (call_sigs t1) = 11%nat /\ created t1 = [4%N].
Proof. split_and!; [apply second_load|by apply distinct_dynamic|apply published1|vm_compute; done..]. Qed.
Example C01_current_case : history dyn (t0 ++ t1) (Some m1) /\ fresh_objects (t0 ++ t1).
Proof. split; [apply history1|apply fresh1]. Qed.
(** A first load that fails in OnLoad of b: ten calls, then OnFree. *)
Definition t_onload := fst (demo_run 0 world_onload dyn (Call_LoadPlugins 77)).
Example C02_any_case : next_call dyn [] None (api_prog dyn (Call_LoadPlugins 77)) t_onload (Err (EOpaque 13)) /\
  map (fun c => (cs_role c, cs_name c)) (call_sigs t_onload) =
    [(RReloadable, "a"); (RExport, "a"); (RReloadable, "b"); (RExport, "b"); (RReloadable, "c"); (RExport, "c");
     (RImport, "a"); (RImport, "b"); (RImport, "c"); (ROnLoad, "a"); (ROnLoad, "b"); (ROnFree, "c"); (ROnFree, "b"); (ROnFree, "a")].
Proof. split; [apply demo_first; [done|apply world_onload_ok|vm_compute; reflexivity]|vm_compute; reflexivity]. Qed.

Print Assumptions C01_plugins_in_dependency_order.
Print Assumptions C01_current_in_dependency_order.
Print Assumptions C02_successful_load_calls.
Print Assumptions C02_any_load_calls.
Print Assumptions C03_only_created_plugins_are_started.
Print Assumptions C03_kept_plugins_left_alone.
Print Assumptions C03_current_plugins_not_restarted.
