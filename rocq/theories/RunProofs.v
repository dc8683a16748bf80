(** One load call, both modes: gathering, lifecycle, release *)
From Verif Require Export PubProofs ErrorProofs.

Ltac nopub := unfold no_publish; repeat (apply Forall_cons_2; [exact I|]); apply Forall_nil_2.
Ltac side := first [done | by apply silent_cons | solve [nopub] | (unfold no_publish in *; by apply Forall_cons_2) | by (rewrite (assoc_L (++))) | (apply silent_app; [apply silent_accepted|done]) | (apply no_publish_app; [apply callbacks_no_publish|nopub]) | idtac].

Section Proofs.
Context {E : GoEnv}.

Definition opens (mid : N) (ps : list plugin) : list callsig :=
  flat_map (fun p => [called RReloadable mid ArgNone p; called RExport mid ArgNone p]) ps.

(** where an opened plugin comes from: its file has its own, lower-case name; or a registration *)
Definition looked (t : list event) (p : plugin) : Prop :=
  forall r, exists h sym v, EvLookupSym h (role_symbol r) (Some sym) ∈ t /\ sym_value r sym = Some v /\ get_func r (pl_funcs p) = code_of v.
Definition from_file (t : list event) (n : string) (p : plugin) : Prop := pl_name p = n /\ to_lower n = n /\ looked t p.
Definition from_reg (st : gmap string (option StaticPlugin)) (t : list event) (n : string) (p : plugin) : Prop :=
  exists sp, st !! n = Some (Some sp) /\ pl_name p = sp_name sp /\ pl_funcs p = sp_funcs sp.
Lemma ssorted_prefix {A} (R : A -> A -> Prop) l1 l2 : StronglySorted R (l1 ++ l2) -> StronglySorted R l1.
Proof.
  induction l1 as [|x l1 IH]; [constructor|]. simpl. intros H. inversion H as [|? ? H1 H2]; subst. constructor; [auto|].
  by apply Forall_app in H2 as [? _].
Qed.

(** the plugin was created, and Reloadable() and Export() returned what is noted *)
Definition witnessed (mid : N) (t : list event) (p : plugin) : Prop :=
  EvNewInst mid (pl_name p) (pl_inst p) ∈ t /\ answered RReloadable mid ArgNone p (Val (pl_reloadable p)) t /\
  answered RExport mid ArgNone p (Val (pl_exported p)) t.
(** The manager [s] has become [s1] by taking over the plugins [ks] of the old manager [cur] and opening [ps]. *)
Record gath (src : list event -> string -> plugin -> Prop) (cur : option mgr) (s : mgr) (t : list event) (s1 : mgr) (ps ks : list plugin) : Prop := mkGath {
  g_src : exists names, StronglySorted str_le names /\ Forall2 (src t) names ps;
  g_ordered : pm_ordered s1 = []; g_funcs : pm_livefuncs s1 = ∅; g_types : pm_livetypes s1 = ∅; g_bag : pm_databag s1 = ∅;
  g_head : same_head s s1;
  g_adm : admitted t = map pl_inst ps; g_created : created t = map pl_inst ps; g_dec : decrements t = [];
  g_inc : Permutation (increments t) (map pl_inst ks);
  g_calls : call_sigs t = opens (pm_id s) ps;
  g_ret : forall p, p ∈ ps -> returned RReloadable (pl_inst p) t /\ returned RExport (pl_inst p) t;
  g_sub : mplugins (pm_map s1) ⊆+ ps ++ ks;
  g_cover : forall p, p ∈ ps ++ ks -> exists q, q ∈ mplugins (pm_map s1) /\ name2key (pl_name q) = name2key (pl_name p);
  g_full : (forall n1 n2 p1 p2, src t n1 p1 -> src t n2 p2 -> name2key (pl_name p1) = name2key (pl_name p2) -> n1 = n2) -> Permutation (mplugins (pm_map s1)) (ps ++ ks);
  g_new : forall p, p ∈ ps -> pl_unchanged p = false;
  g_kept : forall p, p ∈ ks -> pl_unchanged p = true /\ exists om q note, cur = Some om /\ q ∈ mplugins (pm_map om) /\ p = set_unchanged note q;
  g_keys : exists km, ks = mplugins km /\ pm_map s1 = insert_all ps km /\ forall k p, km !! k = Some p -> exists om q note, cur = Some om /\ pm_map om !! k = Some q /\ p = set_unchanged note q;
  g_note : forall p, p ∈ ps -> pl_note p = "" \/ pl_note p = "ok";
  g_bare : forall p, p ∈ ps -> pl_deps p = [];
  g_vals : forall p, p ∈ ps -> witnessed (pm_id s) t p;
  g_when : exists w, forall p, p ∈ ps -> EvNow w ∈ t /\ pl_when p = w }.

Lemma returned_app_l r i t1 t2 : returned r i t1 -> returned r i (t1 ++ t2).
Proof. intros (c & a & x & H & He & Hn). exists c, a, x. split; [|done]. apply elem_of_app. by left. Qed.
Lemma returned_app_r r i t1 t2 : returned r i t2 -> returned r i (t1 ++ t2).
Proof. intros (c & a & x & H & He & Hn). exists c, a, x. split; [|done]. apply elem_of_app. by right. Qed.
Lemma opened_returned infos s ns ps ts p : Forall3 (opened infos s) ns ps ts -> p ∈ ps ->
  returned RReloadable (pl_inst p) (concat ts) /\ returned RExport (pl_inst p) (concat ts).
Proof.
  intros HF Hp. induction HF as [|n q t ns ps ts (i & h & ans & c1 & c2 & _ & _ & _ & _ & _ & _ & ->) HF IH]; [by apply elem_of_nil in Hp|].
  cbn [concat]. apply elem_of_cons in Hp as [->|Hp].
  - split; (apply returned_app_l; unfold open_trace; apply returned_app_r; apply returned_app_r).
    + eexists _, _, _. split_and!; [left|done|done].
    + eexists _, _, _. split_and!; [right; left|done|done].
  - destruct (IH Hp) as [H1 H2]. split; by apply returned_app_r.
Qed.
Lemma sopened_returned st s ns ps ts p : Forall3 (sopened st s) ns ps ts -> p ∈ ps ->
  returned RReloadable (pl_inst p) (concat ts) /\ returned RExport (pl_inst p) (concat ts).
Proof.
  intros HF Hp. induction HF as [|n q t ns ps ts (sp & c1 & c2 & _ & _ & _ & _ & _ & ->) HF IH]; [by apply elem_of_nil in Hp|].
  cbn [concat]. apply elem_of_cons in Hp as [->|Hp].
  - unfold static_trace. split; apply (returned_app_l _ _ [_;_;_]).
    + eexists _, _, _. split_and!; [right; left|done|done].
    + eexists _, _, _. split_and!; [right; right; left|done|done].
  - destruct (IH Hp) as [H1 H2]. split; by apply (returned_app_r _ _ [_;_;_]).
Qed.

Lemma looked_mono t t' p : (forall e, e ∈ t -> e ∈ t') -> looked t p -> looked t' p.
Proof. intros HS HL r. destruct (HL r) as (h & sym & v & H1 & H2). exists h, sym, v. split; [by apply HS|done]. Qed.
Lemma opened_looked infos s ns ps ts p : Forall3 (opened infos s) ns ps ts -> p ∈ ps -> looked (concat ts) p.
Proof.
  intros HF Hp. induction HF as [|n q t ns ps ts (i & h & ans & c1 & c2 & _ & _ & _ & HA & _ & _ & ->) HF IH]; [by apply elem_of_nil in Hp|].
  cbn [concat]. apply elem_of_cons in Hp as [->|Hp].
  - intros r. destruct (HA r) as (sym & v & H1 & H2 & H3). exists h, sym, v. split; [|done]. apply elem_of_app. left. unfold open_trace.
    apply elem_of_app. right. apply elem_of_app. left. apply elem_of_list_fmap. exists r. split; [by rewrite H1|]. destruct r; unfold funcItems; apply elem_of_list_In; cbn; tauto.
  - eapply looked_mono; [|by apply IH]. intros e He. apply elem_of_app. by right.
Qed.

Lemma answered_sub r mid arg p x t t' : (forall e, e ∈ t -> e ∈ t') -> answered r mid arg p x t -> answered r mid arg p x t'.
Proof. intros HS (c & Hc & Hin). exists c. split; [done|by apply HS]. Qed.
Lemma witnessed_mono mid t t' p : (forall e, e ∈ t -> e ∈ t') -> witnessed mid t p -> witnessed mid t' p.
Proof. intros HS (H1 & H2 & H3). split_and!; [by apply HS|by eapply answered_sub..]. Qed.
Lemma opened_witnessed infos s ns ps ts p : Forall3 (opened infos s) ns ps ts -> p ∈ ps -> witnessed (pm_id s) (concat ts) p.
Proof.
  intros HF Hp. induction HF as [|n q t ns ps ts (i & h & ans & c1 & c2 & _ & Hfr & _ & HA & G1 & G2 & ->) HF IH]; [by apply elem_of_nil in Hp|].
  cbn [concat]. apply elem_of_cons in Hp as [->|Hp].
  - destruct Hfr as (Hn & _). apply (witnessed_mono _ (open_trace s i q h ans c1 c2)); [intros e He; apply elem_of_app; by left|]. unfold open_trace. rewrite Hn. split_and!.
    + rewrite ?Hn. apply elem_of_app. left. right. right. left.
    + exists c1. split; [done|]. rewrite ?Hn. apply elem_of_app. right. apply elem_of_app. right. left.
    + exists c2. split; [done|]. rewrite ?Hn. apply elem_of_app. right. apply elem_of_app. right. right. left.
  - eapply witnessed_mono; [|by apply IH]. intros e He. apply elem_of_app. by right.
Qed.
Lemma sopened_witnessed st s ns ps ts p : Forall3 (sopened st s) ns ps ts -> p ∈ ps -> witnessed (pm_id s) (concat ts) p.
Proof.
  intros HF Hp. induction HF as [|n q t ns ps ts (sp & c1 & c2 & _ & Hfr & _ & G1 & G2 & ->) HF IH]; [by apply elem_of_nil in Hp|].
  cbn [concat]. apply elem_of_cons in Hp as [->|Hp].
  - destruct Hfr as (Hn & _). apply (witnessed_mono _ (static_trace s sp q c1 c2)); [intros e He; apply elem_of_app; by left|]. unfold static_trace. rewrite ?Hn. split_and!.
    + rewrite ?Hn. left.
    + exists c1. split; [done|]. rewrite ?Hn. right. left.
    + exists c2. split; [done|]. rewrite ?Hn. right. right. left.
  - eapply witnessed_mono; [|by apply IH]. intros e He. apply elem_of_app. by right.
Qed.

Lemma gath_dyn_with files cur s fds ti now n1 n2 ps ts :
  blank_mgr s -> map fst fds = files -> gathered_with cur s fds ti now n1 ps ts ->
  info_names (to_open cur (infos_of fds)) = n1 ++ n2 ->
  gath from_file cur s (reads fds ++ ti ++ concat ts) (upd_when now (with_map (insert_all ps (kept_map cur (infos_of fds))) s)) ps
    (mplugins (kept_map cur (infos_of fds))).
Proof.
  intros (Hm & Ho & Hf & Ht & Hb) Hfst HG Hn. pose proof (gathered_map _ _ _ _ _ _ _ _ _ HG Hn) as (Hperm & _ & _).
  pose proof HG as (Hnd & Hnow & Hc & Hinc & Hop).
  destruct (opened_all_facts _ _ _ _ _ Hop) as (A1 & A2 & A3 & A4 & A5).
  destruct (carry_facts _ _ Hc) as (B1 & B2 & B3 & B4).
  assert (Q : Forall quiet (reads fds)) by apply reads_quiet.
  assert (Hr : created (reads fds) = []) by apply created_quiet_reads.
  destruct (opened_names _ _ _ _ _ _ _ _ Hnd Hn Hop) as (HN1 & HN2 & _ & HN3).
  constructor; try done.
  - exists n1. split.
    + eapply ssorted_prefix. rewrite <- Hn. apply sort_strings_ssorted.
    + rewrite <- HN1, Forall2_fmap_l. apply Forall_Forall2_diag. rewrite Forall_forall in HN3 |- *.
      intros p Hp. destruct (HN3 p Hp) as (f & d & _ & H1 & H2 & _). split; [done|]. split; [rewrite <- H2; apply to_lower_idem|].
      apply looked_mono with (concat ts); [|by eapply opened_looked]. intros e He. rewrite !elem_of_app. by right; right.
  - rewrite !admitted_app, A1, B2, (quiet_admitted _ Q). done.
  - rewrite !created_app, A2, B4, Hr. done.
  - rewrite !decrements_app, A4, B3, (quiet_decs _ Q). done.
  - rewrite !increments_app, A3, (quiet_incs _ Q), app_nil_r. exact Hinc.
  - rewrite !call_sigs_app, A5, B1, (quiet_calls _ Q). done.
  - intros p Hp. destruct (opened_returned _ _ _ _ _ _ Hop Hp). split; apply returned_app_r; by apply returned_app_r.
  - apply Permutation_submseteq. exact Hperm.
  - intros p Hp. exists p. split; [|done]. rewrite <- Hperm in Hp. exact Hp.
  - intros p Hp. destruct (opened_names _ _ _ _ _ _ _ _ Hnd Hn Hop) as (_ & _ & _ & HF).
    rewrite Forall_forall in HF. destruct (HF _ Hp) as (f & d & _ & _ & _ & _ & H). by destruct H as (_ & _ & _ & _ & _ & H & _).
  - intros p Hp. apply elem_mplugins in Hp as (k & Hk). apply kept_lookup in Hk as (i & Hi & Hk).
    apply keep_inv in Hk as (q & Hq & Hpq & _). split; [by subst p|].
    destruct cur as [om|]; [|simpl in Hq; by rewrite lookup_empty in Hq]. exists om, q, (if pl_reloadable q then "unchanged" else "not reloadable"). split_and!; try done.
    apply elem_mplugins. by exists k.
  - exists (kept_map cur (infos_of fds)). split; [done|]. split; [done|]. intros k p Hk. apply kept_lookup in Hk as (i & Hi & Hk).
    apply keep_inv in Hk as (q & Hq & Hpq & _).
    destruct cur as [om|]; [|simpl in Hq; by rewrite lookup_empty in Hq]. exists om, q, (if pl_reloadable q then "unchanged" else "not reloadable"). done.
  - intros p Hp. destruct (opened_names _ _ _ _ _ _ _ _ Hnd Hn Hop) as (_ & _ & _ & HF).
    rewrite Forall_forall in HF. destruct (HF _ Hp) as (f & d & _ & _ & _ & _ & H). destruct H as (_ & _ & _ & _ & H & _). by left.
  - intros p Hp. destruct (opened_names _ _ _ _ _ _ _ _ Hnd Hn Hop) as (_ & _ & _ & HF).
    rewrite Forall_forall in HF. destruct (HF _ Hp) as (f & d & _ & _ & _ & _ & H). by destruct H as (_ & _ & _ & _ & _ & _ & H & _).
  - intros p Hp. eapply witnessed_mono; [|exact (opened_witnessed _ _ _ _ _ _ Hop Hp)]. intros e He. rewrite !elem_of_app. by right; right.
  - exists now. intros p Hp. split; [rewrite !elem_of_app; right; by left|]. rewrite Forall_forall in HN3. destruct (HN3 p Hp) as (f & d & _ & _ & _ & _ & (_ & _ & _ & H & _)). exact H.
Qed.

Lemma gath_no_keys (cur : option mgr) ps m : m = insert_all ps ∅ -> exists km : gmap string plugin, [] = mplugins km /\ m = insert_all ps km /\ forall k p, km !! k = Some p -> exists om q note, cur = Some om /\ pm_map om !! k = Some q /\ p = set_unchanged note q.
Proof. intros ->. exists ∅. split; [done|]. split; [done|]. intros k p Hk. by rewrite lookup_empty in Hk. Qed.
Lemma gath_dyn files cur s t s1 : blank_mgr s -> gathered files cur s t s1 -> exists ps ks, gath from_file cur s t s1 ps ks.
Proof.
  intros Hb (fds & ti & now & ps & ts & Hf & HG & -> & ->). eexists _, _.
  eapply gath_dyn_with; try done. by rewrite app_nil_r.
Qed.

Lemma gath_dyn_failed files cur s t s' o : blank_mgr s -> gather_failed files cur s t s' o ->
  exists t1 tl ps ks, t = t1 ++ tl /\ gath from_file cur s t1 s' ps ks /\ open_failed (pm_id s) tl /\ ~ is_val o.
Proof.
  intros Hb HF. pose proof (gather_failed_facts _ _ _ _ _ _ Hb HF) as (Hv & _).
  assert (G0 : gath from_file cur s [] s [] []).
  { destruct Hb as (Hm & Ho & Hff & Ht & Hd). constructor; try done. 1: exists []; split; constructor. 2: by rewrite Hm. 1: intros p Hp; by apply elem_of_nil in Hp. 1: intros p Hp; by apply elem_of_nil in Hp. 1: intros _; by rewrite Hm. intros p Hp; by apply elem_of_nil in Hp. intros p Hp; by apply elem_of_nil in Hp. apply gath_no_keys; by rewrite Hm. all: try (exists 0%N); intros p Hp; by apply elem_of_nil in Hp. }
  destruct HF as [k Hk|fds f rest e Hfs Hnd He|fds ti now n1 name n2 ps ts tl s' o o' H1 H2 H3 H4 H5 H6 H7 H8].
  - exists [], [], [], []. split; [done|]. split; [done|]. split; [|done]. do 3 (split; [done|]). by left.
  - exists [], (reads fds ++ [EvReadFile f (Err e)]), [], []. split; [done|]. split; [done|]. split; [|done].
    assert (Q : Forall quiet (reads fds ++ [EvReadFile f (Err e)])).
    { apply Forall_app_2; [apply reads_quiet|]. by repeat constructor. }
    split_and!; [by apply quiet_admitted|by apply quiet_incs|by apply quiet_decs|left; by apply quiet_calls].
  - exists (reads fds ++ ti ++ concat ts), tl, ps, (mplugins (kept_map cur (infos_of fds))). subst s'. split_and!; try done.
    + by rewrite <- !(assoc_L (++)).
    + by eapply gath_dyn_with.
Qed.

(** Registered names are different even up to case. *)
Definition distinct_names (statics : gmap string (option StaticPlugin)) : Prop :=
  forall n1 n2 sp1 sp2, statics !! n1 = Some (Some sp1) -> statics !! n2 = Some (Some sp2) ->
    to_lower (sp_name sp1) = to_lower (sp_name sp2) -> n1 = n2.

Lemma sopened_keys sel (P : string -> plugin -> Prop) s ns ps ts : (forall n p, (exists sp, sel !! n = Some (Some sp) /\ pl_name p = sp_name sp /\ pl_funcs p = sp_funcs sp) -> P n p) ->
  (forall n1 n2 p1 p2, P n1 p1 -> P n2 p2 -> name2key (pl_name p1) = name2key (pl_name p2) -> n1 = n2) -> NoDup ns ->
  Forall3 (sopened sel s) ns ps ts -> NoDup (map (fun p => name2key (pl_name p)) ps).
Proof.
  intros HP HD HN HF.
  assert (HQ : Forall2 P ns ps).
  { clear -HP HF. induction HF as [|n p t ns ps ts (sp & c1 & c2 & Hs & Hfr & _) HF IH]; constructor; [|done]. apply HP. exists sp. split_and!; [done|apply Hfr|apply Hfr]. }
  clear HP HF. induction HQ as [|n p ns ps Hn HF IH]; [constructor|].
  apply NoDup_cons in HN as [Hni HN]. cbn [map]. constructor; [|auto].
  intros Hin. apply elem_of_list_fmap in Hin as (p' & He & Hp'). apply Hni.
  apply elem_of_list_lookup in Hp' as (i & Hp'). destruct (Forall2_lookup_r _ _ _ _ _ HF Hp') as (n' & Hn' & HP').
  rewrite (HD _ _ _ _ Hn HP' He). by eapply elem_of_list_lookup_2.
Qed.
Lemma mplugins_insert (m : gmap string plugin) k p : mplugins (<[k := p]> m) ⊆+ p :: mplugins m.
Proof.
  unfold mplugins. destruct (m !! k) as [q|] eqn:Hk.
  - rewrite <- (insert_delete m k q Hk) at 2. rewrite <- insert_delete_insert. rewrite !map_to_list_insert by apply lookup_delete. cbn [map snd]. apply submseteq_skip, submseteq_cons. done.
  - by rewrite map_to_list_insert.
Qed.
Lemma insert_all_sub ps : forall m, mplugins (insert_all ps m) ⊆+ ps ++ mplugins m.
Proof.
  unfold insert_all. induction ps as [|q ps IH]; intros m; [done|]. cbn [fold_left]. etrans; [apply IH|].
  etrans; [apply submseteq_app; [reflexivity|apply mplugins_insert]|]. apply Permutation_submseteq. symmetry. apply (Permutation_middle ps).
Qed.
Lemma submseteq_nodup {A} (l k : list A) : l ⊆+ k -> NoDup k -> NoDup l.
Proof. intros H HN. apply submseteq_Permutation in H as (z & H). rewrite H in HN. by apply NoDup_app in HN as (? & _). Qed.
Lemma submseteq_map {A B} (f : A -> B) (l k : list A) : l ⊆+ k -> map f l ⊆+ map f k.
Proof. intros H. apply (fmap_submseteq f), H. Qed.
Lemma insert_all_cover ps : forall m p, p ∈ ps -> keyed m -> exists q, insert_all ps m !! name2key (pl_name p) = Some q /\ name2key (pl_name q) = name2key (pl_name p).
Proof.
  assert (HK : forall m k q, keyed m -> insert_all ps m !! k = Some q -> name2key (pl_name q) = k).
  { unfold insert_all. induction ps as [|x ps IH]; intros m k q Hm H; [by apply Hm|]. cbn [fold_left] in H. eapply IH; [|exact H]. intros k' q' H'.
    apply lookup_insert_Some in H' as [[<- <-]|[_ H']]; [done|by apply Hm]. }
  intros m p Hp Hm. assert (Hs : is_Some (insert_all ps m !! name2key (pl_name p))).
  { clear HK Hm. unfold insert_all. revert m. induction ps as [|x ps IH]; intros m; [by apply elem_of_nil in Hp|]. cbn [fold_left].
    assert (Hk : forall l m', is_Some (m' !! name2key (pl_name p)) -> is_Some (fold_left (fun (m : gmap string plugin) p => <[name2key (pl_name p) := p]> m) l m' !! name2key (pl_name p))).
    { induction l as [|y l IHl]; intros m' Hm'; [done|]. cbn [fold_left]. apply IHl. destruct (decide (name2key (pl_name y) = name2key (pl_name p))) as [->|Hne];
      [rewrite lookup_insert; by eexists|by rewrite lookup_insert_ne]. }
    apply elem_of_cons in Hp as [->|Hp]; [apply Hk; rewrite lookup_insert; by eexists|by apply IH]. }
  destruct Hs as [q Hq]. exists q. split; [done|]. by eapply HK.
Qed.

Lemma sopened_src sel s ns ps ts : Forall3 (sopened sel s) ns ps ts -> forall t, Forall2 (from_reg sel t) ns ps.
Proof.
  intros HF t0. induction HF as [|n p t ns ps ts (sp & c1 & c2 & Hs & Hfr & _) HF IH]; constructor; [|done]. exists sp. split_and!; [done|apply Hfr|apply Hfr].
Qed.
Lemma gath_static_with sel s now ns ps ts : blank_mgr s -> NoDup ns -> StronglySorted str_le ns ->
  Forall3 (sopened sel (upd_when now s)) ns ps ts ->
  gath (from_reg sel) None s (EvNow now :: concat ts) (upd_when now (with_map (insert_all ps ∅) s)) ps [].
Proof.
  intros (Hm & Ho & Hf & Ht & Hb) HN HSS HF.
  destruct (sopened_all_facts _ _ _ _ _ HF) as (A1 & A2 & A3 & A4 & A5).
  constructor; try done.
  - exists ns. split; [done|]. by eapply sopened_src.
  - change (increments (EvNow now :: concat ts)) with (increments (concat ts)). by rewrite A3.
  - intros p Hp. destruct (sopened_returned _ _ _ _ _ _ HF Hp). split; by apply (returned_app_r _ _ [EvNow now]).
  - change (pm_map _) with (insert_all ps ∅). pose proof (insert_all_sub ps ∅) as HS. unfold mplugins at 2 in HS. rewrite map_to_list_empty in HS. exact HS.
  - intros p Hp. rewrite app_nil_r in Hp. destruct (insert_all_cover ps ∅ p Hp) as (q & Hq & He); [intros k q Hk; by rewrite lookup_empty in Hk|].
    exists q. split; [apply elem_mplugins; by exists (name2key (pl_name p))|done].
  - intros HD. pose proof (mplugins_insert_all ps ∅ (sopened_keys _ (from_reg sel (EvNow now :: concat ts)) _ _ _ _ (fun _ _ H => H) HD HN HF)) as HP.
    simpl. unfold mplugins at 2 in HP. rewrite map_to_list_empty in HP. simpl in HP. apply HP. intros; apply lookup_empty.
  - clear -HF. intros p Hp. induction HF as [|n q t ns ps ts (sp & c1 & c2 & Hs & Hfr & _) HF IH]; [by apply elem_of_nil in Hp|].
    apply elem_of_cons in Hp as [->|Hp]; [apply Hfr|auto].
  - intros p Hp. by apply elem_of_nil in Hp.
  - by apply gath_no_keys.
  - clear -HF. intros p Hp. induction HF as [|n q t ns ps ts (sp & c1 & c2 & Hs & Hfr & _) HF IH]; [by apply elem_of_nil in Hp|].
    apply elem_of_cons in Hp as [->|Hp]; [right; apply Hfr|auto].
  - clear -HF. intros p Hp. induction HF as [|n q t ns ps ts (sp & c1 & c2 & Hs & Hfr & _) HF IH]; [by apply elem_of_nil in Hp|].
    apply elem_of_cons in Hp as [->|Hp]; [apply Hfr|auto].
  - intros p Hp. eapply witnessed_mono; [|exact (sopened_witnessed _ _ _ _ _ _ HF Hp)]. intros e He. by right.
  - exists now. intros p Hp. split; [by left|]. clear -HF Hp. revert Hp. induction HF as [|n q t ns ps ts (sp & c1 & c2 & Hs & Hfr & _) HF IH]; intros Hp; [by apply elem_of_nil in Hp|].
    apply elem_of_cons in Hp as [->|Hp]; [|auto]. by destruct Hfr as (_ & _ & _ & H & _).
Qed.

Lemma sorted_keys_nodup {A} (m : gmap string A) : NoDup (sort_strings (map_keys m)).
Proof. apply sort_strings_nodup, map_keys_nodup. Qed.

Lemma gath_static sel s t s1 : blank_mgr s -> sgathered sel s t s1 -> exists ps, gath (from_reg sel) None s t s1 ps [].
Proof.
  intros Hb (now & ps & ts & HF & -> & ->). exists ps. eapply gath_static_with; try done; [apply sorted_keys_nodup|apply sort_strings_ssorted].
Qed.
Lemma gath_static_failed sel s t s' o : blank_mgr s -> sgather_failed sel s t s' o ->
  exists t1 tl ps, t = t1 ++ tl /\ gath (from_reg sel) None s t1 s' ps [] /\ open_failed (pm_id s) tl /\ ~ is_val o.
Proof.
  intros Hb (now & n1 & name & n2 & ps & ts & tl & Hn & HF & -> & -> & Hv & Hop & _).
  exists (EvNow now :: concat ts), tl, ps. split_and!; try done. eapply gath_static_with; try done.
  - pose proof (sorted_keys_nodup sel) as HN. rewrite Hn in HN. by apply NoDup_app in HN as (HN & _).
  - eapply ssorted_prefix. rewrite <- Hn. apply sort_strings_ssorted.
Qed.

(** The old manager as the load sees it: static loads do not look at it. *)
Definition old_seen (o : opts) (cur : option mgr) : option mgr := match o_static o with None => cur | Some _ => None end.
Definition source (o : opts) : list event -> string -> plugin -> Prop := match o_static o with None => from_file | Some st => from_reg st end.
Definition names_ok (o : opts) : Prop := match o_static o with None => True | Some st => distinct_names st end.

Lemma names_ok_spec o : distinct_registrations o -> names_ok o.
Proof. unfold names_ok. intros H. destruct (o_static o) eqn:Hs; [|done]. exact (H _ Hs). Qed.

Lemma selected_sub o st sel n x : selected o st sel -> sel !! n = Some x -> st !! n = Some x.
Proof.
  unfold selected. destruct (o_whitelist o) as [|w wl]; [by intros ->|]. intros HS. rewrite HS. by case_decide.
Qed.
Lemma gath_src_impl (src src' : list event -> string -> plugin -> Prop) cur s t s1 ps ks :
  (forall n p, src t n p -> src' t n p) -> gath src cur s t s1 ps ks -> gath src' cur s t s1 ps ks.
Proof.
  intros HI HG. destruct HG as [(names & H1 & H2) ? ? ? ? ? ? ? ? ? ? ? ? ? Hfull ? ? ? ? ? ?]. constructor; try done.
  - exists names. split; [done|]. eapply Forall2_impl; [exact H2|done].
  - intros HD. apply Hfull. intros n1 n2 p1 p2 S1 S2. apply HD; by apply HI.
Qed.
Lemma gath_selected o st sel cur s t s1 ps ks : selected o st sel -> gath (from_reg sel) cur s t s1 ps ks -> gath (from_reg st) cur s t s1 ps ks.
Proof.
  intros HS. apply gath_src_impl. intros n p (sp & H1 & H2). exists sp. split; [|done]. by eapply selected_sub.
Qed.

Lemma distinct_selected o st sel : distinct_names st -> selected o st sel -> distinct_names sel.
Proof.
  unfold selected. intros HD HS. destruct (o_whitelist o) as [|w wl]; [by subst|].
  intros n1 n2 sp1 sp2. rewrite !HS. repeat case_decide; try done. apply HD.
Qed.

(** the panics of opening a plugin *)
Lemma pouts_ret {A} (Pe : gerror -> Prop) (Pp : gpanic -> Prop) (o : outcome A) : outs Pe Pp o -> pouts Pe Pp (Ret o).
Proof. intros H t o' [_ ->]. done. Qed.
Lemma pouts_act {X A} (Pe : gerror -> Prop) (Pp : gpanic -> Prop) (a : act X) (k : X -> prog (outcome A)) :
  (forall x, valid a x -> pouts Pe Pp (k x)) -> pouts Pe Pp (Act a k).
Proof. intros H t o (x & t' & Hv & _ & Hx). by eapply H. Qed.
Lemma pouts_bind {A B} (Pe : gerror -> Prop) (Pp : gpanic -> Prop) (p : prog A) (k : A -> prog (outcome B)) (Q : A -> Prop) :
  (forall t a, exec p t a -> Q a) -> (forall a, Q a -> pouts Pe Pp (k a)) -> pouts Pe Pp (bind p k).
Proof. intros H1 H2 t o Hx. apply exec_bind in Hx as (t1 & t2 & a & _ & Ha & Hb). eapply H2; [by eapply H1|exact Hb]. Qed.

Lemma pouts_lookup p sym out : pouts (fun _ => True) nil_or_user (Plugin_Lookup p sym out).
Proof.
  unfold Plugin_Lookup. repeat (case_match; try (apply pouts_ret; done || (by left))).
  apply pouts_act. intros x _. cbn [bind]. repeat (case_match; try (apply pouts_ret; done || (by left))).
Qed.
Lemma pouts_lookupAll items : forall p miss, pouts (fun _ => True) nil_or_user (lookupAll items p miss).
Proof.
  induction items as [|r items IH]; intros p miss; cbn [lookupAll]; [by apply pouts_ret|].
  eapply pouts_bind; [intros t a; apply pouts_lookup|]. intros [v|e|x] Ho; cbn beta.
  - apply IH.
  - destruct e; first [apply IH | by apply pouts_ret].
  - by apply pouts_ret.
Qed.
Lemma souts_loadPlugin oi : souts (fun _ => True) nil_or_user (loadPlugin oi).
Proof.
  unfold loadPlugin. destruct oi as [info|]; [|apply souts_span; by left].
  unfold copyPlugin. repeat outs_step; try done.
  - intros t o (x & t' & Hv & _ & Hx). destruct Hx as [_ ->]. destruct x; simpl in *; try done. by right.
  - apply pouts_lookupAll.
  - unfold admitPlugin. repeat outs_step; try done; unfold invokeReloadable, invokeExport; eapply pouts_recovered with (Pp' := nil_or_user); try done;
      [apply (pouts_call RReloadable)|apply (pouts_call RExport)]; solve [by left|intros; right; by eexists].
Qed.
Lemma lifecycle_panic data s t s' x : exec (lifecycle data s) t (s', Pan x) -> x = PSet \/ nil_or_user x.
Proof.
  intros H. unfold lifecycle in H.
  apply exec_sbind in H as [(t1 & tr & s1 & [] & -> & H1 & H)|(o1 & H1 & Hf)].
  2:{ destruct o1 as [[]|e|y]; try done. simpl in Hf. subst. apply exec_initDeps_fail in H1 as [(k & p & _ & _ & Hi)|(_ & Hi)]; [| |by intros []].
      - destruct Hi as [(y & ? & _)|(imp & _ & [[_ ?]|(fields & f & _ & _ & Hb)])]; try done.
        destruct Hb as [[_ ?]|[[_ ?]|(q & _ & [(_ & _ & ?)|(y & _ & [[_ ?]|[_ Hy]])])]]; try done. left. congruence.
      - destruct Hi as [(l & z & ? & _)|[(Hx & _)|(k & p & d & q & _ & ? & _)]]; try done. right; left. congruence. }
  clear H1. revert H. assert (Hs : souts (fun _ => True) nil_or_user (let! _ := invokeEveryOnLoad data in let! _ := setupVault in invokeEveryOnInit)).
  { repeat outs_step; try done; [|apply souts_setupVault|].
    - unfold invokeEveryOnLoad, onLoadOne. repeat outs_step; try done; [eapply pouts_recovered with (Pp' := nil_or_user); try done; (apply (pouts_call ROnLoad); [by left|intros; right; by eexists])|by left].
    - unfold invokeEveryOnInit, onInitOne. repeat outs_step; try done; [eapply pouts_recovered with (Pp' := nil_or_user); try done; (apply (pouts_call ROnInit); [by left|intros; right; by eexists])|by left]. }
  intros H. right. exact (Hs _ _ _ _ H).
Qed.

(** the errors of the stages: before anything is loaded, while gathering plugins, from callbacks *)
Definition early_error (e : gerror) : Prop :=
  match e with EOpaque _ | EDirEmpty _ | ENotDir _ | EMissingPlugins _ | ENoStatic _ | EStaticMode => True | _ => False end.
Definition gather_error (e : gerror) : Prop :=
  match e with EOpaque _ | EDup _ _ | ELoad _ _ => True | EPanic _ x => nil_or_user x | _ => False end.
Definition callback_error (e : gerror) : Prop :=
  match e with EOpaque _ => True | EPanic None x => outside_panic x | _ => False end.
Definition idle_result (o : opts) (t : list event) (r : outcome (option Details)) : Prop :=
  r = Val None \/ (exists e, r = Err e /\ early_error e) \/ (exists x, r = Pan x /\ o_newExt o = true /\ EvNewExt (Pan x) ∈ t).
Lemma outside_early e : outside e -> early_error e.
Proof. by intros [n ->]. Qed.
Lemma gather_failed_error files old s t s' o : gather_failed files old s t s' o -> gather_error (as_error o).
Proof.
  intros [k Hk|fds f rest e H1 H2 [n ->]|fds ti now n1 name n2 ps ts tl s'' o' o'' H1 H2 H3 H4 H5 H6 -> H7 H8]; try done. destruct o' as [[]|e|x]; try done. simpl. pose proof (souts_loadPlugin _ _ _ _ _ H6) as Hx. by destruct (to_open old (infos_of fds) !! name).
Qed.
Lemma sgather_failed_error sel s t s' o : sgather_failed sel s t s' o -> gather_error (as_error o).
Proof.
  intros (now & n1 & name & n2 & ps & ts & tl & _ & _ & _ & _ & _ & _ & [(sp & e & _ & -> & _)|(-> & _)]); try done. by left.
Qed.

(** how one load call can go *)
Inductive load_run (o : opts) (cur : option mgr) (data : N) (cbs : list (option N)) : list event -> outcome (option Details) -> Prop :=
  | lr_idle t r : silent t -> no_publish t -> idle_result o t r -> load_run o cur data cbs t r
  | lr_gather ta s t1 tl s' ps ks tf tz e : blank_mgr s -> silent ta -> silent tz -> no_publish ta -> no_publish tz ->
      gath (source o) (old_seen o cur) s t1 s' ps ks -> open_failed (pm_id s) tl -> released s' tf -> gather_error e ->
      Forall private_event (t1 ++ tl ++ tf) ->
      load_run o cur data cbs (ta ++ t1 ++ tl ++ tf ++ tz) (Err e)
  | lr_life ta s t1 s1 t2 s' ob ps ks tf tz e : blank_mgr s -> silent ta -> silent tz -> no_publish ta -> no_publish tz ->
      gath (source o) (old_seen o cur) s t1 s1 ps ks -> exec (lifecycle data s1) t2 (s', ob) -> ~ is_val ob -> released s' tf -> e = as_error ob ->
      Forall private_event (t1 ++ t2 ++ tf) ->
      load_run o cur data cbs (ta ++ t1 ++ t2 ++ tf ++ tz) (Err e)
  | lr_callback ta s t1 s1 t2 new ps ks tc tf tz e : blank_mgr s -> silent ta -> silent tz -> silent tc -> no_publish ta -> no_publish tz -> no_publish tc ->
      gath (source o) (old_seen o cur) s t1 s1 ps ks -> exec (lifecycle data s1) t2 (new, Val tt) -> released new tf -> callback_error e ->
      Forall private_event (t1 ++ t2 ++ tf) ->
      load_run o cur data cbs (ta ++ t1 ++ t2 ++ tc ++ tf ++ tz) (Err e)
  | lr_ok ta s t1 s1 t2 new ps ks tz d : blank_mgr s -> silent ta -> silent tz -> no_publish ta -> published tz new ->
      (forall m, published tz m -> m = new) ->
      gath (source o) (old_seen o cur) s t1 s1 ps ks -> exec (lifecycle data s1) t2 (new, Val tt) ->
      Forall private_event (t1 ++ t2) ->
      load_run o cur data cbs (ta ++ t1 ++ t2 ++ tz) (Val (Some d)).

Definition call_data (o : opts) (p : prog (outcome (option Details))) (data : N) (cbs : list (option N)) : Prop :=
  (p = LoadPlugins o data /\ cbs = [o_reloadCallback o]) \/
  (exists extra, p = ReloadWithCallback o data extra /\ cbs = reload_cbs o extra).

Lemma silent_one e : match e with EvCall _ _ _ _ | EvRefInc _ _ _ | EvRefDec _ _ _ | EvNewInst _ _ _ => False | _ => True end -> silent [e].
Proof. by destruct e. Qed.

Lemma load_run_wrap o cur data cbs ta tb tz r :
  silent ta -> silent tz -> no_publish ta -> no_publish tz -> load_run o cur data cbs tb r -> load_run o cur data cbs (ta ++ tb ++ tz) r.
Proof.
  intros Sa Sz Na Nz H.
  destruct H as [t r H1 H2 H3|ta' s t1 tl s' ps ks tf tz' e|ta' s t1 s1 t2 s' ob ps ks tf tz' e|ta' s t1 s1 t2 new ps ks tc tf tz' e|ta' s t1 s1 t2 new ps ks tz' d].
  - apply lr_idle; [apply silent_app; [done|by apply silent_app]|apply no_publish_app; [done|by apply no_publish_app]|].
    destruct H3 as [?|[?|(x & -> & Hx & Hin)]]; [by left|right; by left|right; right]. exists x. split_and!; try done. rewrite !elem_of_app. tauto.
  - rewrite <- !(assoc_L (++)), (assoc_L (++) ta ta'). eapply lr_gather; try done; try (by apply silent_app); by apply no_publish_app.
  - rewrite <- !(assoc_L (++)), (assoc_L (++) ta ta'). eapply lr_life; try done; try (by apply silent_app); by apply no_publish_app.
  - rewrite <- !(assoc_L (++)), (assoc_L (++) ta ta'). eapply (lr_callback _ _ _ _ _ _ _ _ _ _ _ _ tc tf); try done; try (by apply silent_app); by apply no_publish_app.
  - rewrite <- !(assoc_L (++)), (assoc_L (++) ta ta'). eapply lr_ok; try done; try (by apply silent_app); [by apply no_publish_app| |].
    + unfold published. apply elem_of_app. by left.
    + intros m Hm. unfold published in Hm. apply elem_of_app in Hm as [Hm|Hm]; [auto|]. by apply no_publish_not in Hm.
Qed.


Lemma file_run_load o files data cbs cur t r : o_static o = None -> (forall x, saw_current t x -> x = cur) ->
  file_run o files data cbs t r -> load_run o cur data cbs t r.
Proof.
  intros Hst Hsaw H.
  assert (Hos : old_seen o cur = cur) by (unfold old_seen; by rewrite Hst).
  assert (Hsrc : source o = from_file) by (unfold source; by rewrite Hst).
  destruct H as [old mid dn x H1 H2|old tn s tl s' e H1 H2 H3 H4|old tn s tl new tc e H1 H2 H3 H4 H5|old tn s tl new H1 H2 H3 H4];
    (assert (old = cur) as -> by (apply Hsaw; left)).
  - apply lr_idle; [done|nopub|right; right]. exists x. split_and!; [done|done|]. right; right; left.
  - pose proof (silent_made _ _ _ H1) as Sn. pose proof (made_no_publish _ _ _ H1) as Nn. destruct H1 as (Hb & _).
    destruct H4 as (tb & tf & ob & -> & -> & Hv & HB & HR & _).
    destruct HB as [HB|(t1 & t2 & s1 & -> & HG & HL)].
    + destruct (gath_dyn_failed _ _ _ _ _ _ Hb HB) as (t1 & t2 & ps & ks & -> & HG & HO & _).
      pose proof (lr_gather o cur data cbs (EvLoadCurrent cur :: tn) s t1 t2 s' ps ks tf [] (as_error ob)) as L.
      rewrite app_nil_r in L. simpl in L. rewrite <- (assoc_L (++)). rewrite Hos, Hsrc in L. apply L; side. by eapply gather_failed_error.
    + destruct (gath_dyn _ _ _ _ _ Hb HG) as (ps & ks & HG').
      pose proof (lr_life o cur data cbs (EvLoadCurrent cur :: tn) s t1 s1 t2 s' ob ps ks tf [] (as_error ob)) as L.
      rewrite app_nil_r in L. simpl in L. rewrite <- (assoc_L (++)). rewrite Hos, Hsrc in L. apply L; side.
  - pose proof (silent_made _ _ _ H1) as Sn. pose proof (made_no_publish _ _ _ H1) as Nn. destruct H1 as (Hb & _).
    destruct H4 as (t1 & t2 & s1 & -> & HG & HL). destruct (gath_dyn _ _ _ _ _ Hb HG) as (ps & ks & HG').
    destruct H5 as (cbs1 & cb & cbs2 & r & tf & Hc & -> & Hr & HR).
    pose proof (lr_callback o cur data cbs (EvLoadCurrent cur :: tn) s t1 s1 t2 new ps ks
      (map (accepted new cur) cbs1 ++ [EvCallback cb new cur r]) tf [] e) as L.
    rewrite app_nil_r in L. simpl in L. rewrite <- !(assoc_L (++)) in *. simpl in L. rewrite Hos, Hsrc in L. apply L; side.
    + destruct Hr as [[-> [n ->]]|(x & -> & -> & Hx)]; done.
    + rewrite (assoc_L (++)). apply Forall_app_2; [done|]. destruct HR as (ps' & ts & -> & HF & _). by eapply freed_private.
  - pose proof (silent_made _ _ _ H1) as Sn. pose proof (made_no_publish _ _ _ H1) as Nn. destruct H1 as (Hb & _).
    destruct H4 as (t1 & t2 & s1 & -> & HG & HL). destruct (gath_dyn _ _ _ _ _ Hb HG) as (ps & ks & HG').
    pose proof (lr_ok o cur data cbs (EvLoadCurrent cur :: tn) s t1 s1 t2 new ps ks
      (map (accepted new cur) (somes cbs) ++ spawned o cur ++ [EvStore new]) (details_of new files ∅)) as L.
    simpl in L. rewrite <- !(assoc_L (++)). rewrite Hos, Hsrc in L. apply L; side.
    + apply silent_app; [apply silent_accepted|]. apply silent_app; [apply silent_spawned|done].
    + unfold published. rewrite !elem_of_app. right; right. left.
    + intros m Hm. unfold published in Hm. rewrite !elem_of_app in Hm. destruct Hm as [Hm|[Hm|Hm]].
      * apply elem_of_list_fmap in Hm as (? & ? & _). done.
      * unfold spawned in Hm. destruct cur; [|by apply elem_of_nil in Hm]. by apply elem_of_list_singleton in Hm.
      * apply elem_of_list_singleton in Hm. congruence.
Qed.

Lemma dir_run_load o data cbs cur t r : o_static o = None -> (forall x, saw_current t x -> x = cur) ->
  dir_run o data cbs t r -> load_run o cur data cbs t r.
Proof.
  intros Hst Hsaw H. destruct H as [tp e H|tp H|tp files tl r H Hf HF].
  - apply lr_idle; [by eapply silent_refused|destruct H; nopub|]. right; left. exists e. split; [done|]. destruct H; try done; by apply outside_early.
  - apply lr_idle; [by eapply silent_chosen| |by left]. destruct H as (? & ? & ? & ? & ? & -> & _). nopub.
  - rewrite <- (app_nil_r tl), (assoc_L (++)), <- (assoc_L (++)).
    apply load_run_wrap; [by eapply silent_chosen|done| |nopub|].
    + destruct H as (? & ? & ? & ? & ? & -> & _). nopub.
    + eapply file_run_load; [done| |done]. intros x Hx. apply Hsaw. by apply saw_app_r.
Qed.

Lemma static_run_load o statics data cbs cur t r : o_static o = Some statics ->
  static_run o statics data cbs t r -> load_run o cur data cbs t r.
Proof.
  intros Hst H.
  assert (Hos : old_seen o cur = None) by (unfold old_seen; by rewrite Hst).
  assert (Hsrc : source o = from_reg statics) by (unfold source; by rewrite Hst).
  destruct H as [mid dn x H1 H2|tn s name H1 H2 H3 H4 H5|tn s sel tl s' e H1 H2 Hsel Hwl H3 H4|tn s sel tl new tc e H1 H2 Hsel Hwl H3 H4 H5|tn s sel tl new H1 H2 Hsel Hwl H3 H4].
  - apply lr_idle; [done|nopub|right; right]. exists x. split_and!; [done|done|]. right; left.
  - apply lr_idle; [by eapply silent_made|by eapply made_no_publish|]. right; left. by eexists.
  - pose proof (silent_made _ _ _ H1) as Sn. pose proof (made_no_publish _ _ _ H1) as Nn. destruct H1 as (Hb & _).
    destruct H4 as (tb & tf & ob & -> & -> & Hv & HB & HR & _).
    destruct HB as [HB|(t1 & t2 & s1 & -> & HG & HL)].
    + destruct (gath_static_failed _ _ _ _ _ Hb HB) as (t1 & t2 & ps & -> & HG & HO & _). apply (gath_selected _ _ _ _ _ _ _ _ _ Hsel) in HG.
      pose proof (lr_gather o cur data cbs tn s t1 t2 s' ps [] tf [] (as_error ob)) as L.
      rewrite app_nil_r in L. rewrite <- (assoc_L (++)). rewrite Hos, Hsrc in L. apply L; side. by eapply sgather_failed_error.
    + destruct (gath_static _ _ _ _ Hb HG) as (ps & HG'). apply (gath_selected _ _ _ _ _ _ _ _ _ Hsel) in HG'.
      pose proof (lr_life o cur data cbs tn s t1 s1 t2 s' ob ps [] tf [] (as_error ob)) as L.
      rewrite app_nil_r in L. rewrite <- (assoc_L (++)). rewrite Hos, Hsrc in L. apply L; side.
  - pose proof (silent_made _ _ _ H1) as Sn. pose proof (made_no_publish _ _ _ H1) as Nn. destruct H1 as (Hb & _).
    destruct H4 as (t1 & t2 & s1 & -> & HG & HL). destruct (gath_static _ _ _ _ Hb HG) as (ps & HG'). apply (gath_selected _ _ _ _ _ _ _ _ _ Hsel) in HG'.
    destruct H5 as (cbs1 & cb & cbs2 & r & tf & Hc & -> & Hr & HR).
    pose proof (lr_callback o cur data cbs tn s t1 s1 t2 new ps []
      (map (accepted new None) cbs1 ++ [EvCallback cb new None r]) tf [] e) as L.
    rewrite app_nil_r in L. simpl in L. rewrite <- !(assoc_L (++)) in *. simpl in L. rewrite Hos, Hsrc in L. apply L; side.
    + destruct Hr as [[-> [n ->]]|(x & -> & -> & Hx)]; done.
    + rewrite (assoc_L (++)). apply Forall_app_2; [done|]. destruct HR as (ps' & ts & -> & HF & _). by eapply freed_private.
  - pose proof (silent_made _ _ _ H1) as Sn. pose proof (made_no_publish _ _ _ H1) as Nn. destruct H1 as (Hb & _).
    destruct H4 as (t1 & t2 & s1 & -> & HG & HL). destruct (gath_static _ _ _ _ Hb HG) as (ps & HG'). apply (gath_selected _ _ _ _ _ _ _ _ _ Hsel) in HG'.
    pose proof (lr_ok o cur data cbs tn s t1 s1 t2 new ps []
      (map (accepted new None) (somes cbs) ++ [EvStore new]) ((fun _ => "ok") <$> sel)) as L.
    rewrite <- !(assoc_L (++)). rewrite Hos, Hsrc in L. apply L; side.
    + unfold published. rewrite !elem_of_app. right. left.
    + intros m Hm. unfold published in Hm. rewrite !elem_of_app in Hm. destruct Hm as [Hm|Hm].
      * apply elem_of_list_fmap in Hm as (? & ? & _). done.
      * apply elem_of_list_singleton in Hm. congruence.
Qed.

Definition api_cbs (o : opts) (a : api) : list (option N) :=
  match a with Call_LoadPlugins _ => [o_reloadCallback o] | Call_Reload _ extra => reload_cbs o extra end.
Lemma api_cbs_somes o a : somes (api_cbs o a) = api_callbacks o a.
Proof. unfold api_callbacks, api_cbs, reload_cbs, somes. destruct a as [?|? [e|]]; destruct (o_reloadCallback o); done. Qed.
Lemma load_call_api o p : load_call o p <-> exists a, p = api_prog o a.
Proof.
  split; [intros [data|data extra]; [by exists (Call_LoadPlugins data)|by exists (Call_Reload data extra)]|].
  intros ([data|data extra] & ->); constructor.
Qed.

(** any load call after any history *)
Lemma next_run o h cur a t r : next_call o h cur (api_prog o a) t r ->
  load_run o cur (api_data a) (api_cbs o a) t r.
Proof.
  intros HN. destruct (o_static o) as [st|] eqn:Hst.
  - destruct HN as (_ & HC & HE & _). destruct a as [data|data extra]; simpl in *.
    + destruct (static_load_run _ _ _ _ _ Hst HE) as (tb & -> & HR).
      change (EvLock :: tb ++ [EvUnlock]) with ([EvLock] ++ tb ++ [EvUnlock]).
      apply load_run_wrap; [done|done|nopub|nopub|]. by eapply static_run_load.
    + destruct (static_reload_run _ _ _ _ _ _ Hst HE) as (-> & ->). apply lr_idle; [done|nopub|right; left; by eexists].
  - destruct (next_keyed _ _ _ _ _ _ Hst HN) as (HK & _). destruct HN as (_ & HC & HE & HS & _). destruct a as [data|data extra]; simpl in *.
    + destruct (exec_LoadPlugins _ _ _ _ HK HE) as (tb & -> & HR). rewrite Hst in HR.
      change (EvLock :: tb ++ [EvUnlock]) with ([EvLock] ++ tb ++ [EvUnlock]).
      apply load_run_wrap; [done|done|nopub|nopub|]. eapply dir_run_load; [done| |done].
      intros x Hx. apply HS. right. by apply saw_app_l.
    + pose proof (exec_ReloadWithCallback _ _ _ _ _ HK HE) as H. rewrite Hst in H. destruct H as (tb & -> & HR).
      change (EvLock :: tb ++ ?x) with ([EvLock] ++ tb ++ x).
      apply load_run_wrap; [done| |nopub| |].
      * by destruct (decide (is_val r)).
      * destruct (decide (is_val r)); nopub.
      * eapply dir_run_load; [done| |done]. intros x Hx. apply HS. right. by apply saw_app_l.
Qed.

Lemma run_pub o cur data cbs t r m : load_run o cur data cbs t r -> published t m ->
  exists ta s t1 s1 t2 ps ks tz d, t = ta ++ t1 ++ t2 ++ tz /\ r = Val (Some d) /\ blank_mgr s /\ silent ta /\ silent tz /\
    gath (source o) (old_seen o cur) s t1 s1 ps ks /\ exec (lifecycle data s1) t2 (m, Val tt).
Proof.
  intros H Hp.
  assert (NP : forall t m, Forall private_event t -> published t m -> False) by (intros t' m' HF HP; by apply private_no_publish, no_publish_not with (m := m') in HF).
  destruct H as [t r H1 H2 H3|ta' s t1 tl s' ps ks tf tz' e|ta' s t1 s1 t2 s' ob ps ks tf tz' e|ta' s t1 s1 t2 new ps ks tc tf tz' e|ta s t1 s1 t2 new ps ks tz d H1 H2 H3 H4 H5 H6 H7 H8 H9].
  - by apply no_publish_not with (m := m) in H2.
  - exfalso. unfold published in Hp. rewrite (assoc_L (++) tl tf), (assoc_L (++) t1 (tl ++ tf)) in Hp. rewrite !(elem_of_app ta'), (elem_of_app _ tz') in Hp.
    destruct Hp as [Hp|[Hp|Hp]]; [by eapply (no_publish_not ta')|by eapply NP|by eapply (no_publish_not tz')].
  - exfalso. unfold published in Hp. rewrite (assoc_L (++) t2 tf), (assoc_L (++) t1 (t2 ++ tf)) in Hp. rewrite !(elem_of_app ta'), (elem_of_app _ tz') in Hp.
    destruct Hp as [Hp|[Hp|Hp]]; [by eapply (no_publish_not ta')|by eapply NP|by eapply (no_publish_not tz')].
  - exfalso. unfold published in Hp.
    assert (HPr : Forall private_event t1 /\ Forall private_event t2 /\ Forall private_event tf).
    { match goal with H : Forall private_event (_ ++ _ ++ _) |- _ => rewrite !Forall_app in H; exact H end. }
    destruct HPr as (Q1 & Q2 & Q3). rewrite !elem_of_app in Hp.
    destruct Hp as [Hp|[Hp|[Hp|[Hp|[Hp|Hp]]]]]; first [by eapply (NP t1)|by eapply (NP t2)|by eapply (NP tf)|by eapply (no_publish_not ta')|by eapply (no_publish_not tz')|by eapply (no_publish_not tc)].
  - assert (m = new) as ->.
    { rewrite Forall_app in H9. destruct H9 as (Q1 & Q2). unfold published in Hp. rewrite !elem_of_app in Hp.
      destruct Hp as [Hp|[Hp|[Hp|Hp]]]; [exfalso; by eapply (no_publish_not ta)|exfalso; by eapply (NP t1)|exfalso; by eapply (NP t2)|by apply H6]. }
    exists ta, s, t1, s1, t2, ps, ks, tz, d. split_and!; done.
Qed.

(** ** The lifecycle seen through the final manager *)
Lemma filter_new_core l : List.filter is_new (map core l) = map core (List.filter is_new l).
Proof. induction l as [|p l IH]; [done|]. cbn [map List.filter]. change (is_new (core p)) with (is_new p). destruct (is_new p); cbn [map]; by rewrite IH. Qed.
Lemma map_called_core r mid arg l : map (called r mid arg) (map core l) = map (called r mid arg) l.
Proof. rewrite map_map. apply map_ext. intros p. apply called_core. Qed.

Definition by_key (m : mgr) : list plugin := List.filter is_new (plugins_of (pm_map m) (keys_of m)).

Lemma keys_of_core s s' : core_map s' = core_map s -> keys_of s' = keys_of s.
Proof. intros H. unfold keys_of. apply sort_strings_eq. rewrite <- (map_keys_core s), <- (map_keys_core s'), H. done. Qed.

Lemma new_by_key_final s s' mid arg : core_map s' = core_map s ->
  map (called RImport mid arg) (new_by_key s) = map (called RImport mid arg) (by_key s').
Proof.
  intros H. unfold new_by_key, by_key. rewrite <- H, <- (keys_of_core _ _ H).
  unfold core_map. rewrite plugins_of_fmap, filter_new_core. apply map_called_core.
Qed.

(** instances of the manager after the lifecycle *)
Lemma core_inst p q : core p = core q -> pl_inst p = pl_inst q /\ pl_unchanged p = pl_unchanged q /\ pl_name p = pl_name q.
Proof. unfold core. intros H. by injection H. Qed.

Lemma gath_members src cur s t s1 ps ks s' q : gath src cur s t s1 ps ks -> core_map s' = core_map s1 -> q ∈ mplugins (pm_map s') ->
  (pl_unchanged q = false /\ exists p, p ∈ ps /\ core q = core p) \/ (pl_unchanged q = true /\ exists p, p ∈ ks /\ core q = core p).
Proof.
  intros HG Hc Hq. apply elem_mplugins in Hq as (k & Hk). apply core_map_lookup in Hk. rewrite Hc in Hk.
  apply core_map_lookup_inv in Hk as (p & Hp & He).
  assert (Hin : p ∈ ps ++ ks) by (eapply elem_of_submseteq; [|apply (g_sub _ _ _ _ _ _ _ HG)]; apply elem_mplugins; by exists k).
  destruct (core_inst _ _ He) as (_ & Hu & _).
  apply elem_of_app in Hin as [Hin|Hin]; [left|right]; (split; [|by exists p]); rewrite Hu.
  - by apply (g_new _ _ _ _ _ _ _ HG).
  - by apply (g_kept _ _ _ _ _ _ _ HG).
Qed.

(** unless two registrations have the same name up to case, every plugin opened is in the manager *)
Lemma gath_full o cur s t s1 ps ks : gath (source o) cur s t s1 ps ks -> names_ok o -> Permutation (mplugins (pm_map s1)) (ps ++ ks).
Proof.
  intros HG HD. apply (g_full _ _ _ _ _ _ _ HG). intros n1 n2 p1 p2. unfold source, names_ok in *. destruct (o_static o) as [st|].
  - intros (sp1 & S1 & N1 & _) (sp2 & S2 & N2 & _) He. apply (HD _ _ _ _ S1 S2). unfold name2key in He. congruence.
  - intros (<- & L1 & _) (<- & L2 & _). unfold name2key. congruence.
Qed.
Lemma gath_insts o cur s t s1 ps ks s' : gath (source o) cur s t s1 ps ks -> names_ok o -> core_map s' = core_map s1 ->
  Permutation (map pl_inst (mplugins (pm_map s'))) (map pl_inst ps ++ map pl_inst ks).
Proof. intros HG HD Hc. rewrite (mplugins_core _ _ Hc), (gath_full _ _ _ _ _ _ _ HG HD), map_app. done. Qed.
Lemma gath_insts_sub src cur s t s1 ps ks s' : gath src cur s t s1 ps ks -> core_map s' = core_map s1 ->
  map pl_inst (mplugins (pm_map s')) ⊆+ map pl_inst ps ++ map pl_inst ks.
Proof. intros HG Hc. rewrite (mplugins_core _ _ Hc), <- map_app. apply submseteq_map, (g_sub _ _ _ _ _ _ _ HG). Qed.

(** the instances a manager took over were created earlier *)
Lemma kept_old o h cur t ps ks s s1 t1 : history o h cur -> fresh_objects (h ++ t) -> (forall i, i ∈ created t1 -> i ∈ created t) ->
  gath (source o) (old_seen o cur) s t1 s1 ps ks -> forall p, p ∈ ks -> pl_inst p ∉ created t.
Proof.
  intros HH HF Hsub HG p Hp Hin. destruct (g_kept _ _ _ _ _ _ _ HG _ Hp) as (_ & om & q & note & Hcur & Hq & ->).
  unfold old_seen in Hcur. destruct (o_static o) eqn:Hst; [done|]. subst cur.
  pose proof (history_sound _ _ _ Hst HH _ eq_refl) as (_ & HS). apply elem_mplugins in Hq as (k & Hk).
  destruct (HS _ _ Hk) as (_ & _ & _ & Hc & _). unfold fresh_objects in HF. rewrite created_app in HF.
  apply NoDup_app in HF as (_ & HF & _). apply (HF _ Hc Hin).
Qed.


(** instances of one manager are different, and belong to one name *)
Lemma nodup_omap_eq {A B} (f : A -> option B) l x y b : NoDup (omap f l) -> x ∈ l -> y ∈ l -> f x = Some b -> f y = Some b -> x = y.
Proof.
  induction l as [|z l IH]; [intros _ H; by apply elem_of_nil in H|]. simpl. intros HN Hx Hy Fx Fy.
  apply elem_of_cons in Hx as [->|Hx]; apply elem_of_cons in Hy as [->|Hy]; [done| | |].
  - rewrite Fx in HN. apply NoDup_cons in HN as [HN _]. exfalso. apply HN. apply elem_of_list_omap. eauto.
  - rewrite Fy in HN. apply NoDup_cons in HN as [HN _]. exfalso. apply HN. apply elem_of_list_omap. eauto.
  - apply IH; try done. destruct (f z); [by apply NoDup_cons in HN as [_ ?]|done].
Qed.
Lemma opened_new h p : pluginName (pl_file p) = pl_name p -> opened_in h p -> exists mid, EvNewInst mid (pl_name p) (pl_inst p) ∈ h.
Proof.
  intros HP (s & p1 & d & hd & ans & c1 & c2 & ta & tz & -> & Hi & Hn & _). exists (pm_id s). rewrite <- Hi, <- HP.
  unfold open_trace. rewrite !elem_of_app. right; left. left. right; right; left.
Qed.
Lemma sound_insts h m k1 k2 p1 p2 : sound h m -> fresh_objects h -> pm_map m !! k1 = Some p1 -> pm_map m !! k2 = Some p2 -> pl_inst p1 = pl_inst p2 -> k1 = k2.
Proof.
  intros (_ & HS) HF H1 H2 Hi. destruct (HS _ _ H1) as (N1 & _ & F1 & _ & _ & _ & O1 & _). destruct (HS _ _ H2) as (N2 & _ & F2 & _ & _ & _ & O2 & _).
  apply opened_new in O1 as (mid1 & O1); [|congruence]. apply opened_new in O2 as (mid2 & O2); [|congruence].
  unfold fresh_objects, created in HF.
  assert (EvNewInst mid1 (pl_name p1) (pl_inst p1) = EvNewInst mid2 (pl_name p2) (pl_inst p2)) as He.
  { eapply nodup_omap_eq; [exact HF|done|done|done|]. simpl. by rewrite Hi. }
  congruence.
Qed.
Lemma mplugins_nodup (km : gmap string plugin) :
  (forall k1 k2 p1 p2, km !! k1 = Some p1 -> km !! k2 = Some p2 -> pl_inst p1 = pl_inst p2 -> k1 = k2) -> NoDup (map pl_inst (mplugins km)).
Proof.
  intros H. unfold mplugins. rewrite map_map.
  assert (Hl : forall k p, (k, p) ∈ map_to_list km -> km !! k = Some p) by (intros; by apply elem_of_map_to_list).
  pose proof (NoDup_fst_map_to_list km) as HN. induction (map_to_list km) as [|[k p] l IH]; [constructor|].
  simpl in *. apply NoDup_cons in HN as [Hk HN]. constructor; [|apply IH; [|done]; intros; apply Hl; by right].
  intros Hin. apply elem_of_list_fmap in Hin as ([k' p'] & Hi & Hin). simpl in Hi. apply Hk. apply elem_of_list_fmap. exists (k', p'). split; [|done]. simpl.
  eapply H; [apply Hl; left|apply Hl; right; exact Hin|done].
Qed.
Lemma kept_nodup o h cur s t s1 ps ks : history o h cur -> fresh_objects h -> gath (source o) (old_seen o cur) s t s1 ps ks -> NoDup (map pl_inst ks).
Proof.
  intros HH HF HG. destruct (g_keys _ _ _ _ _ _ _ HG) as (km & -> & _ & Hk). apply mplugins_nodup.
  intros k1 k2 p1 p2 H1 H2 Hi. destruct (Hk _ _ H1) as (om & q1 & n1 & Ho & Hq1 & ->). destruct (Hk _ _ H2) as (om' & q2 & n2 & Ho' & Hq2 & ->).
  assert (om' = om) as -> by congruence. unfold old_seen in Ho. destruct (o_static o) eqn:Hst; [done|]. subst cur.
  pose proof (history_sound _ _ _ Hst HH _ eq_refl) as HS. by eapply (sound_insts h om).
Qed.
Lemma gath_nodup o h cur t ps ks s s1 t1 : history o h cur -> fresh_objects (h ++ t) -> (forall i, i ∈ created t1 -> i ∈ created t) -> NoDup (created t1) ->
  gath (source o) (old_seen o cur) s t1 s1 ps ks -> NoDup (map pl_inst ps ++ map pl_inst ks).
Proof.
  intros HH HF Hsub Hnd HG. rewrite (g_created _ _ _ _ _ _ _ HG) in Hnd. apply NoDup_app. split_and!; [done| |].
  - intros x Hx Hy. apply elem_of_list_fmap in Hy as (q & -> & Hq). pose proof (kept_old _ _ _ _ _ _ _ _ _ HH HF Hsub HG _ Hq) as Hn.
    apply Hn, Hsub. by rewrite (g_created _ _ _ _ _ _ _ HG).
  - eapply kept_nodup; [exact HH| |exact HG]. unfold fresh_objects in *. rewrite created_app in HF. by apply NoDup_app in HF as (? & _).
Qed.

Lemma insert_all_keyed ps : forall m, keyed m -> keyed (insert_all ps m).
Proof.
  unfold insert_all. induction ps as [|p ps IH]; intros m Hm; [done|]. simpl. apply IH. intros k q.
  destruct (decide (name2key (pl_name p) = k)) as [<-|Hne]; [rewrite lookup_insert; by intros [= <-]|rewrite lookup_insert_ne by done; apply Hm].
Qed.
Lemma gath_keyed o h cur s t s1 ps ks : history o h cur -> gath (source o) (old_seen o cur) s t s1 ps ks -> keyed (pm_map s1).
Proof.
  intros HH HG. destruct (g_keys _ _ _ _ _ _ _ HG) as (km & _ & -> & Hk). apply insert_all_keyed.
  intros k p Hp. destruct (Hk _ _ Hp) as (om & q & note & Ho & Hq & ->). unfold old_seen in Ho. destruct (o_static o) eqn:Hst; [done|]. subst cur.
  pose proof (history_sound _ _ _ Hst HH _ eq_refl) as HS. exact (sound_keyed _ _ HS _ _ Hq).
Qed.

End Proofs.
