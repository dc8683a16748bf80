(** C14, C15, C39: non-reloadable plugins over time, live tables, DataBag. *)
From Verif Require Export PropWire.

Section Props.
Context {E : GoEnv}.

(** ** C14 *)
(** More load calls, successful or not, each with events satisfying [P]. *)
Inductive later (o : opts) (P : list event -> Prop) (h : list event) (cur : option mgr) : list event -> option mgr -> Prop :=
  | later_none : later o P h cur h cur
  | later_call h' cur' p t r : later o P h cur h' cur' -> load_call o p -> exec p t r ->
      (forall x, saw_current t x -> x = cur') -> P t -> later o P h cur (h' ++ t) (after cur' t).

(** Every listing made by the call has the file of plugin [name]. *)
Definition finds_file (o : opts) (name : string) (t : list event) : Prop :=
  forall dir entries, listed t dir entries -> exists f, f ∈ plugin_files (o_whitelist o) entries /\ same_name (plugin_of f) name.

Lemma later_history o P h cur h' cur' : later o P h cur h' cur' -> history o h cur -> history o h' cur'.
Proof. intros HL HH. induction HL; [done|]. by eapply history_call. Qed.
Lemma load_api o p : load_call o p -> exists a, p = api_prog o a.
Proof. intros []; [by exists (Call_LoadPlugins data)|by exists (Call_Reload data extra)]. Qed.
Lemma same_plugin_trans p q r : same_plugin p q -> same_plugin q r -> same_plugin p r.
Proof.
  intros (A1 & A2 & A3 & A4 & A5 & A6 & A7 & A8 & A9 & A10 & A11) (B1 & B2 & B3 & B4 & B5 & B6 & B7 & B8 & B9 & B10 & B11).
  unfold same_plugin. split_and!; congruence.
Qed.

Theorem C14_nonreloadable_is_loaded_once o h m p h' cur' :
  history o h (Some m) -> o_static o = None -> holds m p -> pl_reloadable p = false ->
  later o (finds_file o (pl_name p)) h (Some m) h' cur' -> fresh_objects h' ->
  exists m' p', cur' = Some m' /\ holds m' p' /\ FindPlugin m' (pl_name p) = Some p' /\ same_plugin p' p.
Proof.
  intros HH Hs Hp Hr HL. induction HL as [|h' cur' pr t r HL IH Hc Hx Hsaw HP]; intros HF.
  - exists m, p. split_and!; try done. destruct (Plugins_lookup _ _ Hp) as [k Hk]. unfold FindPlugin.
    by rewrite (sound_keyed _ _ (history_sound _ _ _ Hs HH m eq_refl) k p Hk).
  - assert (HF' : fresh_objects h') by (unfold fresh_objects in *; rewrite created_app in HF; by apply NoDup_app in HF as [? _]).
    destruct (IH HF') as (m' & p' & -> & Hp' & Hf' & Hsame). clear IH.
    assert (HH' : history o h' (Some m')) by by eapply later_history.
    assert (Hn : next_call o h' (Some m') pr t r) by by split_and!.
    destruct (after (Some m') t) as [m2|] eqn:Ha.
    2: { exfalso. clear -Ha. revert m' Ha. induction t as [|e t IH]; intros m' Ha; [done|]. simpl in Ha. destruct e; by eapply IH. }
    destruct (published_after _ _ _ Ha) as [Heq|Hpub].
    { injection Heq as <-. by exists m', p'. }
    destruct (load_api _ _ Hc) as [a ->].
    destruct (pub_inv _ _ _ _ _ _ _ Hs Hn Hpub) as (data & cbs & tp & files & s & tn & tl & add & P).
    destruct (chosen_files _ _ _ (pub_chosen _ _ _ _ _ _ _ _ _ _ _ _ _ _ _ P)) as (dir & entries & Hl & _).
    assert (Hl' : listed t dir entries).
    { unfold listed in *. rewrite (pub_trace _ _ _ _ _ _ _ _ _ _ _ _ _ _ _ P). apply elem_of_app. left. by right. }
    destruct (HP _ _ Hl') as (f & Hf & Hfn).
    destruct (C13_keep_or_replace _ _ _ _ _ _ _ _ _ _ Hn Hs Hpub Hl' Hf) as (content & p2 & _ & Hp2 & Hcase).
    unfold plugin_of_current in Hcase. unfold FindPlugin, name2key in Hcase, Hf', Hp2 |- *. rewrite Hfn in Hcase, Hp2. rewrite Hf' in Hcase.
    assert (pl_reloadable p' = false) as Hr' by (assert (pl_reloadable p' = pl_reloadable p) as -> by apply Hsame; done).
    rewrite Hr' in Hcase. simpl in Hcase. destruct Hcase as [Hs2 _]. exists m2, p2. split_and!; try done.
    + destruct (pub_ready _ _ _ _ _ _ _ Hn Hpub) as [_ Hrd]. eapply elem_Plugins; [apply Hrd|exact Hp2].
    + by eapply same_plugin_trans.
Qed.

(** ** C15 *)
(** The entries of the live tables of a published manager are those of its plugins' tables, which have no name in common. *)
Definition union_of (tbl : gmap string N) (tables : list (list (string * N))) : Prop :=
  NoDup (map fst (concat tables)) /\ forall n v, tbl !! n = Some v <-> exists l, l ∈ tables /\ (n, v) ∈ l.

Lemma union_list_to_map tables : NoDup (map fst (concat tables)) -> union_of (list_to_map (concat tables)) tables.
Proof.
  intros Hnd. split; [done|]. intros n v.
  assert (Hc : (n, v) ∈ concat tables <-> exists l, l ∈ tables /\ (n, v) ∈ l).
  { clear. induction tables as [|x l IH]; simpl.
    - split; [intros H; by apply elem_of_nil in H|intros (y & H & _); by apply elem_of_nil in H].
    - rewrite elem_of_app, IH. split.
      + intros [H|(y & Hy & H)]; [exists x|exists y]; (split; [|done]); [left|by right].
      + intros (y & Hy & H). apply elem_of_cons in Hy as [->|Hy]; [by left|right; eauto]. }
  rewrite <- Hc. split; [apply elem_of_list_to_map_2|]. intros H. by apply elem_of_list_to_map_1.
Qed.

Theorem C15_live_tables o h cur p t r m : next_call o h cur p t r -> published t m ->
  exists funcs types,
    Forall2 (fun q l => answered RLiveFuncs (pm_id m) ArgNone q (Val (Some l)) t) (Plugins m) funcs /\ union_of (pm_livefuncs m) funcs /\
    Forall2 (fun q l => answered RLiveTypes (pm_id m) ArgNone q (Val (Some l)) t) (Plugins m) types /\ union_of (pm_livetypes m) types.
Proof.
  intros Hn Hpub. destruct (pub_life _ _ _ _ _ _ _ Hn Hpub) as (_ & data & s1 & ta & t2 & tz & -> & G1 & G2 & G3 & _ & _ & _ & Hl).
  apply exec_lifecycle in Hl; [|done..].
  destruct Hl as (u1 & u2 & u3 & u4 & u5 & -> & _ & _ & _ & _ & _ & _ & _ & _ & _ & _ & _ & _ & _ & _ & HV & _).
  destruct (HV (or_intror eq_refl)) as (_ & _ & fs & ts & F1 & F2 & N1 & N2 & -> & ->). exists fs, ts.
  split_and!; [|by apply union_list_to_map| |by apply union_list_to_map].
  - eapply Forall2_impl; [exact F1|]. intros q l H. by apply answered_app_r, answered_app_l, answered_app_r, answered_app_r, answered_app_l.
  - eapply Forall2_impl; [exact F2|]. intros q l H. by apply answered_app_r, answered_app_l, answered_app_r, answered_app_r, answered_app_r, answered_app_l.
Qed.

(** A load in which two plugins offer the same name does not succeed. *)
Definition live_role (r : role) : Prop := r = RLiveFuncs \/ r = RLiveTypes.
Definition offers (r : role) (c : callee) (name : string) (t : list event) : Prop :=
  match r with
  | RLiveFuncs => exists l, EvCall RLiveFuncs c ArgNone (Val (Some l)) ∈ t /\ name ∈ map fst l
  | RLiveTypes => exists l, EvCall RLiveTypes c ArgNone (Val (Some l)) ∈ t /\ name ∈ map fst l
  | _ => False
  end.
Definition offers_not (r : role) (c : callee) (name : string) (t : list event) : Prop :=
  match r with
  | RLiveFuncs => exists tbl, EvCall RLiveFuncs c ArgNone (Val tbl) ∈ t /\ forall l, tbl = Some l -> name ∉ map fst l
  | RLiveTypes => exists tbl, EvCall RLiveTypes c ArgNone (Val tbl) ∈ t /\ forall l, tbl = Some l -> name ∉ map fst l
  | _ => False
  end.
Definition dup_error (r : role) (name another who : string) : gerror :=
  match r with RLiveFuncs => EDupLiveFunc name another who | _ => EDupLiveType name another who end.


(** the table in a live event *)
Definition live_entries (r : role) (e : event) : option (list (string * N)) :=
  match r, e with
  | RLiveFuncs, EvCall RLiveFuncs c ArgNone (Val (Some l)) => Some l
  | RLiveTypes, EvCall RLiveTypes c ArgNone (Val (Some l)) => Some l
  | _, _ => None
  end.
Definition callee_of (e : event) : option callee := match e with EvCall _ c _ _ => Some c | _ => None end.
Lemma offers_event r c name t : offers r c name t -> exists e l, e ∈ t /\ live_entries r e = Some l /\ name ∈ map fst l /\
  callee_of e = Some c /\ call_sig e = Some (r, c_mid c, c_name c, c_inst c, Some (c_code c), ArgNone).
Proof. destruct r; try done; intros (l & H & Hn); eexists _, l; by split_and!. Qed.

Lemma concat_index (tables : list (list (string * N))) i j l1 l2 n : NoDup (map fst (concat tables)) ->
  tables !! i = Some l1 -> tables !! j = Some l2 -> n ∈ map fst l1 -> n ∈ map fst l2 -> i = j.
Proof.
  revert i j. induction tables as [|l tables IH]; intros i j Hnd Hi Hj H1 H2; [done|]. cbn [concat] in Hnd. rewrite map_app in Hnd.
  apply NoDup_app in Hnd as (N1 & N2 & N3).
  assert (Hin : forall k l', tables !! k = Some l' -> n ∈ map fst l' -> n ∈ map fst (concat tables)).
  { intros k l' Hk Hn. apply elem_of_list_fmap in Hn as (x & -> & Hx). apply elem_of_list_fmap_1. apply elem_of_list_In, in_concat.
    exists l'. split; apply elem_of_list_In; [by eapply elem_of_list_lookup_2|done]. }
  destruct i as [|i], j as [|j]; simpl in Hi, Hj; [done| | |f_equal; by eapply IH].
  - injection Hi as ->. exfalso. by eapply N2, Hin.
  - injection Hj as ->. exfalso. by eapply N2, Hin.
Qed.

Lemma live_filter role mid data opened byname new all : live_role role ->
  List.filter (fun c => bool_decide (cs_role c = role)) (lifecycle_calls mid data opened byname new all) = map (called role mid ArgNone) all.
Proof.
  intros Hr. unfold lifecycle_calls. rewrite !List.filter_app.
  assert (H0 : forall r arg l, r <> role -> List.filter (fun c => bool_decide (cs_role c = role)) (map (called r mid arg) l) = []).
  { intros r arg l Hne. induction l as [|x l IH]; [done|]. simpl. rewrite bool_decide_false by done. done. }
  assert (H1 : forall l, List.filter (fun c => bool_decide (cs_role c = role)) (map (called role mid ArgNone) l) = map (called role mid ArgNone) l).
  { intros l. induction l as [|x l IH]; [done|]. simpl. rewrite bool_decide_true by done. by rewrite IH. }
  assert (H2 : List.filter (fun c => bool_decide (cs_role c = role)) (flat_map (fun p => [called RReloadable mid ArgNone p; called RExport mid ArgNone p]) opened) = []).
  { induction opened as [|x l IH]; [done|]. simpl. rewrite !bool_decide_false by (destruct Hr as [-> | ->]; done). done. }
  rewrite H2, (H0 RImport), (H0 ROnLoad), (H0 ROnInit) by (destruct Hr as [-> | ->]; done).
  destruct Hr as [-> | ->]; rewrite H1; [rewrite (H0 RLiveTypes) by done|rewrite (H0 RLiveFuncs) by done]; simpl; by rewrite ?app_nil_r.
Qed.

Lemma omap_filter_sig {A B} (f : A -> option B) (P : B -> bool) (l : list A) :
  omap (fun e => match f e with Some c => if P c then Some c else None | None => None end) l = List.filter P (omap f l).
Proof.
  induction l as [|e l IH]; [done|]. cbn [omap list_omap]. destruct (f e) as [c|]; [|exact IH]. cbn [List.filter]. destruct (P c); [f_equal|]; exact IH.
Qed.

Theorem C15_no_common_name o h cur a t r role c1 c2 name :
  next_call o h cur (api_prog o a) t r -> live_role role -> is_val r ->
  offers role c1 name t -> offers role c2 name t -> c1 = c2.
Proof.
  intros Hn Hrole Hv O1 O2.
  destruct (offers_event _ _ _ _ O1) as (e1 & l1 & E1 & L1 & N1 & K1 & S1). destruct (offers_event _ _ _ _ O2) as (e2 & l2 & E2 & L2 & N2 & K2 & S2). clear O1 O2.
  assert (Hsig : forall e c, e ∈ t -> call_sig e = Some c -> c ∈ call_sigs t) by (intros e c He Hc; apply elem_of_list_omap; eauto).
  assert (exists m, published t m) as [m Hpub].
  { destruct (next_stages _ _ _ _ _ _ Hn) as [[H _] _ _|s t1 tl s' ps ks tf e _ _ _ _ -> _ _ _ _ _|s t1 s1 t2 s' ob ps ks tf _ _ _ [(e & -> & _)|(d & -> & Hp & _)] _ _ _].
    - pose proof (Hsig _ _ E1 S1) as Hin. rewrite H in Hin. by apply elem_of_nil in Hin.
    - by destruct Hv.
    - by destruct Hv.
    - by exists s'. }
  destruct (C02_successful_load_calls _ _ _ _ _ _ _ Hn Hpub) as (opened & byname & _ & _ & _ & _ & _ & _ & _ & Hcs).
  destruct (C01_plugins_in_dependency_order _ _ _ _ _ _ _ Hn Hpub) as (_ & Hnd & _).
  set (sig := fun e => match call_sig e with Some c => if bool_decide (cs_role c = role) then Some c else None | None => None end).
  assert (Hom : omap sig t = map (called role (pm_id m) ArgNone) (Plugins m)).
  { rewrite <- (live_filter role (pm_id m) (api_data a) opened byname (new_in t m) (Plugins m) Hrole), <- Hcs. apply omap_filter_sig. }
  assert (Hndm : NoDup (omap sig t)).
  { rewrite Hom. apply (NoDup_fmap_1 cs_name). change (NoDup (map cs_name (map (called role (pm_id m) ArgNone) (Plugins m)))). rewrite map_map. simpl.
    apply (NoDup_fmap_1 to_lower). change (NoDup (map to_lower (map pl_name (Plugins m)))). by rewrite map_map. }
  assert (HT : exists tables, NoDup (map fst (concat tables)) /\ Forall2 (fun q l => exists e c, e ∈ t /\ call_sig e = Some (called role (pm_id m) ArgNone q) /\
     live_entries role e = Some l /\ callee_of e = Some c) (Plugins m) tables).
  { destruct (C15_live_tables _ _ _ _ _ _ _ Hn Hpub) as (fs & ts & F1 & [F2 _] & T1 & [T2 _]). destruct Hrole as [-> | ->].
    - exists fs. split; [done|]. eapply Forall2_impl; [exact F1|]. intros q l (code & Hc & He). eexists _, _. unfold called. rewrite Hc. by split_and!.
    - exists ts. split; [done|]. eapply Forall2_impl; [exact T1|]. intros q l (code & Hc & He). eexists _, _. unfold called. rewrite Hc. by split_and!. }
  destruct HT as (tables & Htn & HT).
  assert (Hone : forall e l c, e ∈ t -> live_entries role e = Some l -> callee_of e = Some c ->
     call_sig e = Some (role, c_mid c, c_name c, c_inst c, Some (c_code c), ArgNone) -> exists i q, Plugins m !! i = Some q /\ tables !! i = Some l /\ call_sig e = Some (called role (pm_id m) ArgNone q)).
  { intros e l c He Hle Hce Hse.
    assert (Hsg : sig e = Some (role, c_mid c, c_name c, c_inst c, Some (c_code c), ArgNone)) by (unfold sig; rewrite Hse; simpl; by rewrite bool_decide_true).
    assert (Hin : (role, c_mid c, c_name c, c_inst c, Some (c_code c), ArgNone) ∈ omap sig t) by (apply elem_of_list_omap; eauto).
    rewrite Hom in Hin. apply elem_of_list_fmap in Hin as (q & Hq & Hin). apply elem_of_list_lookup in Hin as [i Hi].
    destruct (Forall2_lookup_l _ _ _ _ _ HT Hi) as (l' & Hl' & e' & c' & He' & Hs' & Hle' & _).
    assert (e = e') as <-.
    { eapply (nodup_omap_eq sig t); [done|done|done|exact Hsg|]. unfold sig. rewrite Hs'. rewrite bool_decide_true by done. by rewrite <- Hq. }
    rewrite Hle in Hle'. injection Hle' as <-. by exists i, q. }
  destruct (Hone _ _ _ E1 L1 K1 S1) as (i & q1 & P1 & T1 & U1). destruct (Hone _ _ _ E2 L2 K2 S2) as (j & q2 & P2 & T2 & U2).
  assert (i = j) as <- by by eapply concat_index. rewrite P1 in P2. injection P2 as <-. rewrite S1 in U1. rewrite S2 in U2. rewrite <- U2 in U1. clear -U1.
  destruct c1, c2; simpl in U1. by injection U1 as -> -> -> ->.
Qed.

Lemma nodup_split_name m l1 p l2 q : keyed (pm_map m) -> Permutation (pm_ordered m) (map_keys (pm_map m)) ->
  Plugins m = l1 ++ p :: l2 -> q ∈ l1 -> ~ same_name (pl_name q) (pl_name p).
Proof.
  intros Hk Hp HP Hq Hs. pose proof (map_key_Plugins m Hk Hp) as Hm. rewrite HP in Hm.
  assert (Hnd : NoDup (pm_ordered m)). { rewrite Hp. apply NoDup_fst_map_to_list. }
  rewrite <- Hm, map_app in Hnd. apply NoDup_app in Hnd as (_ & Hnd & _). apply (Hnd (name2key (pl_name q))); [by apply (elem_of_list_fmap_1 (fun p => name2key (pl_name p)))|].
  unfold name2key. rewrite Hs. left.
Qed.

(** The duplicate-name error is true: two plugins offered the name, one of them is named last in the error; the other one
    named is a plugin offering the name - unless a plugin changed its answer, in which case none is named. *)
Theorem C15_duplicate_error_is_true o h cur a t role name another who :
  next_call o h cur (api_prog o a) t (Err (dup_error role name another who)) -> live_role role ->
  exists c1 c2, offers role c1 name t /\ offers role c2 name t /\ c_name c2 = who /\ ~ same_name (c_name c1) (c_name c2) /\
    (another = "" /\ offers_not role c1 name t \/ exists c, offers role c name t /\ c_name c = another /\ ~ same_name (c_name c) who).
Proof.
  intros Hn Hrole. pose proof Hn as (HH & _).
  destruct (next_stages _ _ _ _ _ _ Hn) as [_ _ Hi|s t1 tl s' ps ks tf e _ _ _ _ He Hg _ _ _ _|s t1 s1 t2 s' ob ps ks tf Hb HG Hl Hres Hin _ _].
  { exfalso. destruct Hi as [?|[(e & He & Hee)|(x & ? & _)]]; try done. injection He as <-. by destruct Hrole as [-> | ->]. }
  { exfalso. injection He as <-. by destruct Hrole as [-> | ->]. }
  destruct Hres as [(e & He & _ & _ & Hcase)|(d & ? & _)]; [|done]. injection He as <-.
  destruct Hcase as [[He Hnv]|[He _]]; [|exfalso; by destruct Hrole as [-> | ->]].
  assert (ob = Err (dup_error role name another who)) as ->.
  { destruct ob as [u|e|x]; [exfalso; by destruct Hnv|simpl in He; by subst|exfalso; simpl in He; by destruct Hrole as [-> | ->]]. }
  pose proof Hl as Hl'. apply exec_lifecycle in Hl'; [|by apply (g_ordered _ _ _ _ _ _ _ HG)|by apply (g_funcs _ _ _ _ _ _ _ HG)|by apply (g_types _ _ _ _ _ _ _ HG)].
  destruct Hl' as (u1 & u2 & u3 & u4 & u5 & Hu & _ & _ & _ & _ & _ & _ & _ & Hcm & Hord & _ & _ & _ & _ & _ & _ & _ & _ & Herr).
  assert (Hk : keyed (pm_map s')). { eapply keyed_core; [exact Hcm|]. by eapply gath_keyed. }
  assert (Hsub : forall x, x ∈ t2 -> x ∈ t). { intros x Hx. apply Hin. apply elem_of_app. right. apply elem_of_app. by left. }
  destruct (Herr _ eq_refl) as [[Hi Ht]|Hlate].
  { exfalso. subst t2. assert (Hnv' : ~ is_val (Err (dup_error role name another who) : outcome unit)) by by intros [].
    destruct (exec_initDeps_fail _ _ _ _ Hi Hnv') as [(k & p & _ & _ & HI)|[_ [(l & z & He' & _)|[[He' _]|(k & p & d & q & _ & He' & _)]]]];
      [|by destruct Hrole as [-> | ->]..].
    destruct HI as [(x & He' & _)|(imp & _ & [[_ He']|(fs & f & _ & _ & HB)])]; [by destruct Hrole as [-> | ->]..|].
    destruct HB as [[_ He']|[[_ He']|(q & _ & [(_ & _ & He')|(x & _ & [[_ He']|[_ He']])])]]; by destruct Hrole as [-> | ->]. }
  destruct Hlate as [[[n Ho] _]|[(p & x & _ & Ho)|[(p & _ & [[Ho _]|[Ho _]])|[HF|HT]]]]; try (exfalso; by destruct Hrole as [-> | ->]).
  - destruct HF as (l1 & p & l2 & q & nm & an & HP & Hq & He' & (lp & (cp & _ & Hp1) & Hp2) & (lq & (cq & Hcq & Hq1) & Hq2) & Han).
    destruct Hrole as [-> | ->]; [|done]. simpl in He'. injection He' as <- <- ->.
    assert (Hperm : Permutation (pm_ordered s') (map_keys (pm_map s'))).
    { destruct Hord as [Hord|?]; [|done]. unfold Plugins in HP. rewrite Hord in HP. by destruct l1. }
    eexists (mkCallee (pm_id s') (pl_name q) (pl_inst q) cq), (mkCallee (pm_id s') (pl_name p) (pl_inst p) cp).
    split_and!; [exists lq; eauto|exists lp; eauto|done|by eapply nodup_split_name|].
    destruct Han as [[-> Hlk]|(q' & Hq' & -> & (l' & (c' & _ & H1) & H2))].
    + left. split; [done|]. rewrite Forall_forall in Hlk. destruct (Hlk q Hq) as (tbl & (c' & Hc' & H1) & H2).
      assert (c' = cq) as -> by congruence. exists tbl. eauto.
    + right. eexists (mkCallee (pm_id s') (pl_name q') (pl_inst q') c'). split_and!; [exists l'; eauto|done|by eapply nodup_split_name].
  - destruct HT as (l1 & p & l2 & q & nm & an & HP & Hq & He' & (lp & (cp & _ & Hp1) & Hp2) & (lq & (cq & Hcq & Hq1) & Hq2) & Han).
    destruct Hrole as [-> | ->]; [done|]. simpl in He'. injection He' as <- <- ->.
    assert (Hperm : Permutation (pm_ordered s') (map_keys (pm_map s'))).
    { destruct Hord as [Hord|?]; [|done]. unfold Plugins in HP. rewrite Hord in HP. by destruct l1. }
    eexists (mkCallee (pm_id s') (pl_name q) (pl_inst q) cq), (mkCallee (pm_id s') (pl_name p) (pl_inst p) cp).
    split_and!; [exists lq; eauto|exists lp; eauto|done|by eapply nodup_split_name|].
    destruct Han as [[-> Hlk]|(q' & Hq' & -> & (l' & (c' & _ & H1) & H2))].
    + left. split; [done|]. rewrite Forall_forall in Hlk. destruct (Hlk q Hq) as (tbl & (c' & Hc' & H1) & H2).
      assert (c' = cq) as -> by congruence. exists tbl. eauto.
    + right. eexists (mkCallee (pm_id s') (pl_name q') (pl_inst q') c'). split_and!; [exists l'; eauto|done|by eapply nodup_split_name].
Qed.

(** ** C39 *)
Lemma store_all_spec ws : forall m key, store_all ws m !! key = match last_write key ws with Some v => Some v | None => m !! key end.
Proof.
  induction ws as [|[k v] ws IH] using rev_ind; intros m key; [done|]. unfold store_all, last_write in *. rewrite fold_left_app, omap_app. simpl.
  destruct (String.eqb k key) eqn:He.
  - apply String.eqb_eq in He as ->. rewrite lookup_insert, last_snoc. done.
  - apply String.eqb_neq in He. rewrite lookup_insert_ne by done. rewrite app_nil_r. apply IH.
Qed.
Theorem C39_databag o h cur p t r m : next_call o h cur p t r -> published t m ->
  exists writes,
    Forall2 (fun q w => answered ROnInit (pm_id m) (ArgVault (pm_id m)) q (Val (w, None)) t) (new_in t m) writes /\
    forall key, pm_databag m !! key = last_write key (concat writes).
Proof.
  intros Hn Hpub. assert (Hnew : new_in t m = new_ordered m).
  { unfold new_in, new_ordered. apply filter_ext_in. intros q Hq%elem_of_list_In. pose proof (new_iff _ _ _ _ _ _ _ _ Hn Hpub Hq) as Hi.
    unfold is_new. destruct (pl_unchanged q); simpl; [apply bool_decide_eq_false_2|apply bool_decide_eq_true_2]; rewrite Hi; done. }
  destruct (pub_life _ _ _ _ _ _ _ Hn Hpub) as (_ & data & s1 & ta & t2 & tz & Ht & G1 & G2 & G3 & G4 & _ & _ & Hl).
  apply exec_lifecycle in Hl; [|done..].
  destruct Hl as (u1 & u2 & u3 & u4 & u5 & Hu & _ & _ & _ & _ & _ & _ & _ & _ & _ & _ & _ & _ & _ & _ & _ & HO & _).
  destruct (HO eq_refl) as (_ & ws & HF & Hbag). exists ws. rewrite Hnew, Ht, Hu. split.
  - eapply Forall2_impl; [exact HF|]. intros q w H. by apply answered_app_r, answered_app_l, answered_app_r, answered_app_r, answered_app_r, answered_app_r.
  - intros key. rewrite Hbag, store_all_spec, G4, lookup_empty. by destruct (last_write key (concat ws)).
Qed.
(** What only carried-over plugins stored is gone. *)
Theorem C39_only_new_plugins_write o h cur p t r m key : next_call o h cur p t r -> published t m ->
  (forall q w, holds m q -> pl_inst q ∈ created t -> answered ROnInit (pm_id m) (ArgVault (pm_id m)) q (Val (w, None)) t -> key ∉ map fst w) ->
  pm_databag m !! key = None.
Proof.
  intros Hn Hpub Hno. destruct (C39_databag _ _ _ _ _ _ _ Hn Hpub) as (ws & HF & Hbag). rewrite Hbag.
  assert (Hall : forall w, w ∈ ws -> key ∉ map fst w).
  { intros w Hw. apply elem_of_list_lookup in Hw as [i Hi]. destruct (Forall2_lookup_r _ _ _ _ _ HF Hi) as (q & Hq & Ha).
    apply elem_of_list_lookup_2 in Hq. unfold new_in in Hq. apply elem_of_list_In, filter_In in Hq as [Hq Hc]. apply bool_decide_eq_true in Hc.
    apply (Hno q w); [by apply elem_of_list_In|done|done]. }
  unfold last_write. assert (omap (fun kv => if String.eqb (fst kv) key then Some (snd kv) else None) (concat ws) = []) as ->; [|done].
  clear -Hall. induction ws as [|w ws IH]; [done|]. cbn [concat]. rewrite omap_app, IH by (intros w' Hw'; apply Hall; by right). rewrite app_nil_r.
  assert (Hw : key ∉ map fst w) by (apply Hall; left). clear -Hw. induction w as [|[k v] w IH]; [done|]. simpl in *.
  apply not_elem_of_cons in Hw as [H1 H2]. assert (String.eqb k key = false) as -> by (apply String.eqb_neq; congruence). by apply IH.
Qed.
End Props.

(** ** Concrete cases *)
Example C14_case : history dyn t0 (Some m0) /\ holds m0 (plug m0 "a") /\ pl_reloadable (plug m0 "a") = false /\
  later dyn (finds_file dyn "a") t0 (Some m0) (t0 ++ t1) (Some m1) /\ fresh_objects (t0 ++ t1) /\ pl_inst (plug m1 "a") = pl_inst (plug m0 "a").
Proof.
  split_and!; [apply history0| |vm_compute; reflexivity| |apply fresh1|vm_compute; reflexivity]; [apply elem_of_list_In; vm_compute; tauto|].
  rewrite <- t1_after. eapply later_call; [constructor|constructor|apply t1_exec|apply t1_saw|].
  intros dir entries Hl.
  assert (Hin : (dir, entries) ∈ omap (fun e => match e with EvReadDir d (Val es) => Some (d, es) | _ => None end) t1).
  { apply elem_of_list_omap. eexists. split; [exact Hl|done]. }
  assert (Hone : omap (fun e => match e with EvReadDir d (Val es) => Some (d, es) | _ => None end) t1 =
    [("/p", [("a.so", false); ("b.so", false); ("c.so", false); ("note.txt", false)])]) by (vm_compute; reflexivity).
  rewrite Hone in Hin. apply elem_of_list_singleton in Hin. injection Hin as -> ->. exists "a.so".
  split; [apply elem_of_list_In; vm_compute; tauto|vm_compute; reflexivity].
Qed.
Example C15_case : next_call dyn t0 (Some m0) (api_prog dyn (Call_Reload 78 (Some 5%N))) t1 (snd run1) /\ published t1 m1 /\
  map (fun n => pm_livefuncs m1 !! n) ["live_a"; "live_b"; "live_c"; "live_d"] = [Some 1; Some 2; Some 3; None]%N.
Proof. split_and!; [apply second_load|apply published1|vm_compute; reflexivity]. Qed.
Definition t_duplive := fst (demo_run 0 world_duplive dyn (Call_LoadPlugins 1)).
Example C15_dup_case : next_call dyn [] None (api_prog dyn (Call_LoadPlugins 1)) t_duplive (Err (dup_error RLiveFuncs "live_b" "b" "c")).
Proof. apply demo_first; [done|apply world_duplive_ok|vm_compute; reflexivity]. Qed.
Example C15_no_common_case : is_val (snd run1) /\ offers RLiveFuncs (mkCallee 2 "c" 4%N 7) "live_c" t1.
Proof.
  split; [vm_compute; exact I|]. exists [("live_c", 3%N)]. split; [|simpl; left]. apply elem_of_list_In. vm_compute. tauto.
Qed.
(** a's entry was in the first manager's DataBag and is not in the second's *)
Example C39_case : next_call dyn t0 (Some m0) (api_prog dyn (Call_Reload 78 (Some 5%N))) t1 (snd run1) /\ published t1 m1 /\
  map (fun k => pm_databag m0 !! k) ["a"; "b"; "c"] = [Some 1; Some 2; Some 3]%N /\
  map (fun k => pm_databag m1 !! k) ["a"; "b"; "c"] = [None; None; Some 3]%N /\
  same_plugin (plug m1 "a") (plug m0 "a").
Proof. split_and!; [apply second_load|apply published1|vm_compute; reflexivity..|vm_compute; tauto]. Qed.

Print Assumptions C14_nonreloadable_is_loaded_once.
Print Assumptions C15_live_tables.
Print Assumptions C15_no_common_name.
Print Assumptions C15_duplicate_error_is_true.
Print Assumptions C39_databag.
Print Assumptions C39_only_new_plugins_write.
