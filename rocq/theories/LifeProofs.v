(** The second half of a load, common to dynamic and static mode: initDeps, OnLoad, vault, OnInit *)
From Verif Require Export GatherProofs.

(** every event of an execution carries a possible response *)
Definition valid_event (e : event) : Prop :=
  match e with
  | EvCall r _ _ x => valid_call r x
  | EvNewExt r => valid ANewExt r
  | EvCallback cb n o r => valid (ACallback cb n o) r
  | EvStat d r => valid (AStat d) r
  | EvAbs d r => valid (AAbs d) r
  | EvReadDir d r => valid (AReadDir d) r
  | EvReadFile f r => valid (AReadFile f) r
  | EvMkdir d r => valid (AMkdirAll d) r
  | EvWriteFile f d r => valid (AWriteFile f d) r
  | EvOpen f r => valid (AOpen f) r
  | _ => True
  end.
Lemma exec_valid {A} (p : prog A) t r : exec p t r -> Forall valid_event t.
Proof.
  revert t; induction p as [a|X a k IH]; intros t.
  - intros [-> _]. constructor.
  - rewrite exec_act. intros (x & t' & Hv & -> & H). apply Forall_app. split; [|by eapply IH].
    destruct a; simpl in *; repeat constructor; done.
Qed.

(** ** Which errors and panics a computation can end with *)
Definition outs {A} (Pe : gerror -> Prop) (Pp : gpanic -> Prop) (o : outcome A) : Prop :=
  match o with Val _ => True | Err e => Pe e | Pan x => Pp x end.
Definition pouts {A} Pe Pp (p : prog (outcome A)) : Prop := forall t o, exec p t o -> outs Pe Pp o.
Definition souts {A} Pe Pp (m : SM A) : Prop := forall s t s' o, exec (m s) t (s', o) -> outs Pe Pp o.
Lemma souts_sbind {A B} Pe Pp (m : SM A) (f : A -> SM B) :
  souts Pe Pp m -> (forall a, souts Pe Pp (f a)) -> souts Pe Pp (sbind m f).
Proof.
  intros Hm Hf s t s' o H. apply exec_sbind in H as [(t1 & t2 & s1 & a & -> & H1 & H2)|(o1 & H1 & Hfl)].
  - by eapply Hf.
  - apply Hm in H1. destruct o1, o; simpl in *; try done; by subst.
Qed.
Lemma souts_sget Pe Pp : souts Pe Pp sget.
Proof. intros s t s' o H. by destruct H as [_ [= -> ->]]. Qed.
Lemma souts_smod Pe Pp f : souts Pe Pp (smod f).
Proof. intros s t s' o H. by destruct H as [_ [= -> ->]]. Qed.
Lemma souts_sret {A} Pe Pp (a : A) : souts Pe Pp (sret a).
Proof. intros s t s' o H. by destruct H as [_ [= -> ->]]. Qed.
Lemma souts_serr {A} (Pe : gerror -> Prop) Pp e : Pe e -> souts Pe Pp (@serr A e).
Proof. intros He s t s' o H. by destruct H as [_ [= -> ->]]. Qed.
Lemma souts_span {A} Pe (Pp : gpanic -> Prop) x : Pp x -> souts Pe Pp (@span A x).
Proof. intros He s t s' o H. by destruct H as [_ [= -> ->]]. Qed.
Lemma souts_sdo {X} Pe Pp (a : act X) : souts Pe Pp (sdo a).
Proof. intros s t s' o H. unfold sdo in H. xinv H. by xinv H. Qed.
Lemma souts_slift {A} Pe Pp (p : prog (outcome A)) : pouts Pe Pp p -> souts Pe Pp (slift p).
Proof. intros Hp s t s' o H. apply exec_slift in H as [_ H]. by eapply Hp. Qed.
Lemma souts_spure {A} Pe Pp (o : outcome A) : outs Pe Pp o -> souts Pe Pp (spure o).
Proof. intros Ho s t s' o' H. unfold spure in H. destruct H as [_ [= -> ->]]. done. Qed.
Lemma souts_sfor {A} Pe Pp (l : list A) body :
  (forall x, x ∈ l -> souts Pe Pp (body x)) -> souts Pe Pp (sfor l body).
Proof.
  induction l as [|x l IH]; cbn [sfor]; intros H; [apply souts_sret|].
  apply souts_sbind; [apply H; by left|]. intros _. apply IH. intros; apply H; by right.
Qed.
Lemma outs_impl {A} (Pe Pe' : gerror -> Prop) (Pp Pp' : gpanic -> Prop) (o : outcome A) :
  (forall e, Pe e -> Pe' e) -> (forall x, Pp x -> Pp' x) -> outs Pe Pp o -> outs Pe' Pp' o.
Proof. destruct o; simpl; auto. Qed.

Ltac outs_step :=
  lazymatch goal with
  | |- souts _ _ (sbind _ _) => apply souts_sbind; [|intros ?]
  | |- souts _ _ sget => apply souts_sget
  | |- souts _ _ (sret _) => apply souts_sret
  | |- souts _ _ (serr _) => apply souts_serr
  | |- souts _ _ (span _) => apply souts_span
  | |- souts _ _ (smod _) => apply souts_smod
  | |- souts _ _ (spure _) => apply souts_spure
  | |- souts _ _ (sdo _) => apply souts_sdo
  | |- souts _ _ (slift _) => apply souts_slift
  | |- souts _ _ (sfor _ _) => apply souts_sfor; intros ? _
  | |- souts _ _ (if ?b then _ else _) => destruct b
  | |- souts _ _ (match ?b with _ => _ end) => destruct b
  end.

Section Proofs.
Context {E : GoEnv}.

Lemma pouts_call r mid p arg (Pe : gerror -> Prop) (Pp : gpanic -> Prop) :
  Pp PNil -> (forall n, Pp (PUser n)) -> pouts Pe Pp (call r mid p arg).
Proof.
  intros H1 H2 t o H. apply exec_call in H as [(_ & _ & ->)|(c & _ & Hv & _)]; [done|].
  destruct o as [v|e|x]; [done|by destruct r|]. assert (outside_panic x) as [n ->] by (by destruct r). apply H2.
Qed.
Lemma pouts_recovered {A} (p : prog (outcome A)) who (Pe : gerror -> Prop) (Pp Pp' : gpanic -> Prop) :
  pouts Pe Pp' p -> (forall x, Pp' x -> Pe (EPanic (Some who) x)) ->
  pouts Pe Pp (let* o := p in Ret (recovered who o)).
Proof.
  intros Hp Hx t o H. apply exec_recovered in H as (o1 & H & ->). apply Hp in H.
  destruct o1; simpl in *; auto.
Qed.

(** a panic that can reach loadPlugins: nil dereference or user code *)
Definition nil_or_user (x : gpanic) : Prop := x = PNil \/ outside_panic x.
Lemma pouts_findAnother r mid earlier name Pe :
  pouts Pe nil_or_user (findAnother r mid (fun q => call RLiveFuncs mid q ArgNone) earlier name).
Proof.
  induction earlier as [|q earlier IH]; intros t o H; cbn [findAnother] in H; [by xinv H|].
  apply exec_bind in H as (t1 & t2 & o1 & -> & H1 & H2).
  apply (pouts_call RLiveFuncs _ _ _ Pe nil_or_user) in H1; [|by left|intros n; right; by exists n].
  destruct o1 as [[l|]|e|x]; [|by eapply IH|by xinv H2..].
  destruct (bool_decide _); [by xinv H2|by eapply IH].
Qed.
Lemma pouts_findAnother' r mid earlier name Pe :
  pouts Pe nil_or_user (findAnother r mid (fun q => call RLiveTypes mid q ArgNone) earlier name).
Proof.
  induction earlier as [|q earlier IH]; intros t o H; cbn [findAnother] in H; [by xinv H|].
  apply exec_bind in H as (t1 & t2 & o1 & -> & H1 & H2).
  apply (pouts_call RLiveTypes _ _ _ Pe nil_or_user) in H1; [|by left|intros n; right; by exists n].
  destruct o1 as [[l|]|e|x]; [|by eapply IH|by xinv H2..].
  destruct (bool_decide _); [by xinv H2|by eapply IH].
Qed.
Lemma souts_setupVault : souts (fun _ => True) nil_or_user setupVault.
Proof.
  assert (Ha : forall earlier p l, souts (fun _ => True) nil_or_user (addLiveFuncs earlier p l)).
  { intros earlier p l. induction l as [|[n v] l IH]; cbn [addLiveFuncs]; repeat outs_step; try done.
    apply pouts_findAnother. }
  assert (Hb : forall earlier p l, souts (fun _ => True) nil_or_user (addLiveTypes earlier p l)).
  { intros earlier p l. induction l as [|[n v] l IH]; cbn [addLiveTypes]; repeat outs_step; try done.
    apply pouts_findAnother'. }
  unfold setupVault. repeat outs_step.
  - generalize (plugins_of (pm_map a) (pm_ordered a)). generalize (@nil plugin).
    intros earlier l; revert earlier; induction l as [|p l IH]; intros earlier; cbn [vaultFuncs]; repeat outs_step; try done.
    all: try apply Ha; try apply IH.
    apply pouts_call; [by left|intros n; right; by exists n].
  - generalize (plugins_of (pm_map a) (pm_ordered a)). generalize (@nil plugin).
    intros earlier l; revert earlier; induction l as [|p l IH]; intros earlier; cbn [vaultTypes]; repeat outs_step; try done.
    all: try apply Hb; try apply IH.
    apply pouts_call; [by left|intros n; right; by exists n].
Qed.

Lemma answered_valid r mid arg p x t : Forall valid_event t -> answered r mid arg p x t -> valid_call r x.
Proof. intros Hf (c & _ & Hin). rewrite Forall_forall in Hf. apply (Hf _ Hin). Qed.

Definition lifecycle (data : N) : SM unit :=
  let! _ := initDeps in
  let! _ := invokeEveryOnLoad data in
  let! _ := setupVault in
  invokeEveryOnInit.

(** programs that only call plugin functions with a role in [Q] *)
Definition calls_only (Q : role -> Prop) : forall X, act X -> Prop := fun X a =>
  match a with ACall r _ _ => Q r | AIter _ => True | _ => False end.
Lemma calls_only_ev Q X (a : act X) x : calls_only Q X a -> Forall (call_in Q) (ev a x).
Proof. destruct a; simpl; try done; intros; constructor; done. Qed.

Lemma sonly_initDeps : sonly (calls_only (eq RImport)) initDeps.
Proof.
  unfold initDeps. repeat only_step; try done.
  - unfold initPlugin. repeat only_step; try done.
    destruct (pm_map a0 !! x) as [p|]; [|only_step]. destruct (pl_unchanged p); [only_step|].
    apply sonly_sbind; [apply sonly_slift; unfold invokeImport; apply only_bind; [by apply only_call|done]|intros a1].
    destruct a1 as [g|]; [|only_step]. destruct (is_nil (Some g)); [only_step|].
    destruct (gv_type g) as [id [id' el|id' fields|id' kd]|id fs|id kd]; repeat only_step.
    unfold initField. apply sonly_sbind; [only_step|intros a1]. destruct (pm_map a1 !! x) as [q|]; [|only_step].
    destruct (sf_name x0) as [|c nm]; [only_step|].
    repeat match goal with |- sonly _ (if ?b then _ else _) => destruct b; [only_step|] end.
    destruct (pm_map a1 !! name2key (String c nm)) as [dep|]; [|only_step].
    repeat match goal with |- sonly _ (if ?b then _ else _) => destruct b; [only_step|] end.
    destruct (pl_exported dep) as [g'|]; [|only_step].
    repeat match goal with |- sonly _ (if ?b then _ else _) => destruct b; [only_step|] end. only_step.
  - unfold checkOne. repeat only_step. destruct (pm_map a2 !! x) as [p|]; [|only_step].
    destruct (pl_deps p); repeat only_step. destruct a3; only_step.
  - unfold checkRebuilt. repeat only_step. destruct (pm_map a4 !! x) as [p|]; [|only_step].
    destruct (pl_unchanged p); repeat only_step. destruct (pm_map a4 !! name2key x0) as [q|]; [|only_step].
    destruct (pl_unchanged q); only_step.
  - unfold orderPlugins. repeat only_step; try done. destruct (orderRounds _ _ _ _ _); only_step.
Qed.
Lemma initDeps_events s t r : exec (initDeps s) t r -> Forall (call_in (eq RImport)) t.
Proof. apply (sonly_exec (calls_only (eq RImport))); [apply calls_only_ev|apply sonly_initDeps]. Qed.

(** ** The stages *)
Definition keys_of (s : mgr) : list string := sort_strings (map_keys (pm_map s)).
(** the plugins this manager loaded itself, in key order (as they are before initDeps) *)
Definition new_by_key (s : mgr) : list plugin := List.filter is_new (plugins_of (core_map s) (keys_of s)).
(** the same plugins in Plugins() order *)
Definition new_ordered (s : mgr) : list plugin := List.filter is_new (Plugins s).

Definition imports_done (s s' : mgr) (t : list event) : Prop :=
  call_sigs t = map (called RImport (pm_id s) ArgNone) (new_by_key s) /\
  deps_ready (pm_map s') (pm_ordered s') /\
  forall k p, pm_map s !! k = Some p -> exists p', pm_map s' !! k = Some p' /\
    if pl_unchanged p then p' = p else exists imp,
      answered RImport (pm_id s) ArgNone p (Val imp) t /\ wired (core_map s) p imp p'.
Definition onloads_done (data : N) (s' : mgr) (t : list event) : Prop :=
  call_sigs t = map (called ROnLoad (pm_id s') (ArgData data)) (new_ordered s') /\
  Forall (fun p => answered ROnLoad (pm_id s') (ArgData data) p (Val None) t) (new_ordered s').
Definition vault_done (s' : mgr) (t1 t2 : list event) : Prop :=
  call_sigs t1 = map (called RLiveFuncs (pm_id s') ArgNone) (Plugins s') /\
  call_sigs t2 = map (called RLiveTypes (pm_id s') ArgNone) (Plugins s') /\
  exists ftables ttables,
    Forall2 (fun p l => answered RLiveFuncs (pm_id s') ArgNone p (Val (Some l)) t1) (Plugins s') ftables /\
    Forall2 (fun p l => answered RLiveTypes (pm_id s') ArgNone p (Val (Some l)) t2) (Plugins s') ttables /\
    NoDup (map fst (concat ftables)) /\ NoDup (map fst (concat ttables)) /\
    pm_livefuncs s' = list_to_map (concat ftables) /\ pm_livetypes s' = list_to_map (concat ttables).
Definition oninits_done (s s' : mgr) (t : list event) : Prop :=
  call_sigs t = map (called ROnInit (pm_id s') (ArgVault (pm_id s'))) (new_ordered s') /\
  exists ws, Forall2 (fun p w => answered ROnInit (pm_id s') (ArgVault (pm_id s')) p (Val (w, None)) t) (new_ordered s') ws /\
    pm_databag s' = store_all (concat ws) (pm_databag s).

(** failures after initDeps, by cause *)
Definition late_error (s' : mgr) (t : list event) (e : gerror) : Prop :=
  (outside e /\ exists p, p ∈ new_ordered s' /\
     ((exists arg, answered ROnLoad (pm_id s') arg p (Val (Some e)) t) \/
      (exists arg w, answered ROnInit (pm_id s') arg p (Val (w, Some e)) t))) \/
  (exists p x, p ∈ new_ordered s' /\ e = EPanic (Some (pl_name p)) x) \/
  (exists p, p ∈ Plugins s' /\ (e = ENilLiveFuncs (pl_name p) /\ answered RLiveFuncs (pm_id s') ArgNone p (Val None) t \/
                               e = ENilLiveTypes (pl_name p) /\ answered RLiveTypes (pm_id s') ArgNone p (Val None) t)) \/
  (exists l1 p l2 q name another, Plugins s' = l1 ++ p :: l2 /\ q ∈ l1 /\
     e = EDupLiveFunc name another (pl_name p) /\
     has_entryF (pm_id s') t name p /\ has_entryF (pm_id s') t name q /\
     ((another = "" /\ Forall (lacks_entryF (pm_id s') t name) l1) \/
      (exists q', q' ∈ l1 /\ another = pl_name q' /\ has_entryF (pm_id s') t name q'))) \/
  (exists l1 p l2 q name another, Plugins s' = l1 ++ p :: l2 /\ q ∈ l1 /\
     e = EDupLiveType name another (pl_name p) /\
     has_entryT (pm_id s') t name p /\ has_entryT (pm_id s') t name q /\
     ((another = "" /\ Forall (lacks_entryT (pm_id s') t name) l1) \/
      (exists q', q' ∈ l1 /\ another = pl_name q' /\ has_entryT (pm_id s') t name q'))).

Lemma exec_lifecycle data s t s' o :
  pm_ordered s = [] -> pm_livefuncs s = ∅ -> pm_livetypes s = ∅ ->
  exec (lifecycle data s) t (s', o) ->
  exists t1 t2 t3 t4 t5, t = t1 ++ t2 ++ t3 ++ t4 ++ t5 /\
    Forall (call_in (eq RImport)) t1 /\ Forall (call_in (eq ROnLoad)) t2 /\
    Forall (call_in (eq RLiveFuncs)) t3 /\ Forall (call_in (eq RLiveTypes)) t4 /\
    Forall (call_in (eq ROnInit)) t5 /\
    same_head s s' /\ pm_when s' = pm_when s /\ core_map s' = core_map s /\
    (pm_ordered s' = [] \/ Permutation (pm_ordered s') (map_keys (pm_map s'))) /\
    (exists rest, map (called RImport (pm_id s) ArgNone) (new_by_key s) = call_sigs t1 ++ rest) /\
    (exists rest, map (called ROnLoad (pm_id s') (ArgData data)) (new_ordered s') = call_sigs t2 ++ rest) /\
    (exists rest, map (called ROnInit (pm_id s') (ArgVault (pm_id s'))) (new_ordered s') = call_sigs t5 ++ rest) /\
    (t2 ++ t3 ++ t4 ++ t5 <> [] \/ o = Val tt -> imports_done s s' t1) /\
    (t3 ++ t4 ++ t5 <> [] \/ o = Val tt -> onloads_done data s' t2) /\
    (t5 <> [] \/ o = Val tt -> vault_done s' t3 t4) /\
    (o = Val tt -> oninits_done s s' t5) /\
    (forall x, o = Pan x -> x <> POrder) /\
    (forall e, o = Err e -> exec (initDeps s) t1 (s', Err e) /\ t = t1 \/ late_error s' t e).
Proof.
  intros Hord Hlf Hlt H. unfold lifecycle in H. pose proof (exec_valid _ _ _ H) as Hval.
  apply exec_sbind in H as [(t1 & tr & s1 & [] & -> & H1 & H)|(o1 & H1 & Hf)].
  2:{ pose proof (initDeps_events _ _ _ H1) as Hev. pose proof H1 as Hex.
      apply exec_initDeps in H1 as (Ha & Hi & Hd & Hc & Hpre & Hcm & l & Hs' & Hl & _ & Hpan & _).
      assert (Hl' : pm_ordered s' = []).
      { rewrite Hs'. simpl. rewrite <- Hord. apply Hl. destruct o1, o; simpl in *; tauto. }
      exists t, [], [], [], []. rewrite !app_nil_r. split_and!; try done; try (rewrite Hs'; done).
      - by left.
      - exists (map (called ROnLoad (pm_id s') (ArgData data)) (new_ordered s')). done.
      - exists (map (called ROnInit (pm_id s') (ArgVault (pm_id s'))) (new_ordered s')). done.
      - intros [?| ->]; [done|by destruct o1].
      - intros [?| ->]; [done|by destruct o1].
      - intros [?| ->]; [done|by destruct o1].
      - intros ->; by destruct o1.
      - intros x ->. destruct o1; try done. simpl in Hf; subst. by apply Hpan.
      - intros e ->. destruct o1; try done. simpl in Hf; subst. left. done. }
  pose proof (initDeps_events _ _ _ H1) as Hev1.
  apply exec_initDeps in H1 as (_ & _ & _ & _ & Hpre1 & Hcm1 & l & Hs1 & _ & Hok1 & _).
  destruct (Hok1 eq_refl) as (Hcs1 & Hrdy & Hwired). clear Hok1.
  assert (Hl1 : pm_ordered s1 = l) by (by rewrite Hs1).
  assert (Hid1 : pm_id s1 = pm_id s) by (by rewrite Hs1).
  assert (Hhead1 : same_head s s1) by (by rewrite Hs1).
  assert (Hwhen1 : pm_when s1 = pm_when s) by (by rewrite Hs1).
  assert (Hlf1 : pm_livefuncs s1 = ∅) by (by rewrite Hs1).
  assert (Hlt1 : pm_livetypes s1 = ∅) by (by rewrite Hs1).
  assert (Hdb1 : pm_databag s1 = pm_databag s) by (by rewrite Hs1).
  assert (Himp : imports_done s s1 t1) by (by rewrite <- Hl1 in Hrdy).
  assert (Hperm1 : Permutation (pm_ordered s1) (map_keys (pm_map s1))) by (rewrite Hl1; apply Hrdy).
  assert (Hres1 : forall k, k ∈ pm_ordered s1 -> is_Some (pm_map s1 !! k)).
  { intros k Hk. rewrite Hperm1 in Hk. by apply map_keys_elem. }
  clear Hs1 Hrdy Hwired Hcs1 Hpre1. apply Forall_app in Hval as [Hval1 Hval].
  assert (Hpre1 : exists rest, map (called RImport (pm_id s) ArgNone) (new_by_key s) = call_sigs t1 ++ rest).
  { exists []. rewrite app_nil_r. symmetry. apply Himp. }
  apply exec_sbind in H as [(t2 & tr' & s2 & [] & -> & H2 & H)|(o1 & H2 & Hf)].
  2:{ unfold invokeEveryOnLoad in H2. xinv H2.
      apply exec_onLoads in H2 as (-> & Hev2 & Hpan2 & Hpre2 & _ & Herr2); [|done].
      exists t1, tr, [], [], []. rewrite !app_nil_r. split_and!; try done.
      - by right.
      - exists (map (called ROnInit (pm_id s1) (ArgVault (pm_id s1))) (new_ordered s1)). done.
      - intros [?| ->]; [done|by destruct o1].
      - intros [?| ->]; [done|by destruct o1].
      - intros ->; by destruct o1.
      - intros x ->. destruct o1; try done. by destruct (Hpan2 p).
      - intros e ->. destruct o1; try done. simpl in Hf; subst. right.
        destruct (Herr2 e eq_refl) as (p & Hp & [Ha|(x & ->)]).
        + left. split; [by apply (answered_valid _ _ _ _ _ _ Hval) in Ha|]. exists p. split; [done|].
          left. eexists. apply answered_app_r. exact Ha.
        + right; left. eauto. }
  unfold invokeEveryOnLoad in H2. xinv H2.
  apply exec_onLoads in H2 as (-> & Hev2 & _ & Hpre2 & Hok2 & _); [|done].
  assert (Hol : onloads_done data s1 t2) by (exact (Hok2 eq_refl)). clear Hok2.
  apply Forall_app in Hval as [Hval2 Hval].
  apply exec_sbind in H as [(t3 & t5 & s3 & [] & -> & H3 & H)|(o1 & H3 & Hf)].
  2:{ pose proof (souts_setupVault _ _ _ _ H3) as Hout.
      apply exec_setupVault in H3 as (t3 & t4 & a & b & -> & -> & Hev3 & Hev4 & _ & Herr); [|done|done].
      exists t1, t2, t3, t4, []. rewrite !app_nil_r. split_and!; try done.
      - by right.
      - exists (map (called ROnInit (pm_id s1) (ArgVault (pm_id s1))) (new_ordered s1)). done.
      - intros [?| ->]; [done|by destruct o1].
      - intros ->; by destruct o1.
      - intros x ->. destruct o1; try done. simpl in Hf; subst.
        destruct Hout as [->|[n ->]]; done.
      - intros e ->. destruct o1; try done. simpl in Hf; subst. right.
        assert (HmF : forall n q, has_entryF (pm_id s1) (t3 ++ t4) n q -> has_entryF (pm_id s1) (t1 ++ t2 ++ t3 ++ t4) n q).
        { intros n q (l0 & Hl0 & Hin). exists l0. split; [by apply answered_app_r, answered_app_r|done]. }
        assert (HmT : forall n q, has_entryT (pm_id s1) (t3 ++ t4) n q -> has_entryT (pm_id s1) (t1 ++ t2 ++ t3 ++ t4) n q).
        { intros n q (l0 & Hl0 & Hin). exists l0. split; [by apply answered_app_r, answered_app_r|done]. }
        right; right.
        destruct (Herr e eq_refl) as [(p & Hp & Hcase)|[(l1 & p & l2 & q & n & an & Heq & Hq & -> & He1 & He2 & Hcase)|(l1 & p & l2 & q & n & an & Heq & Hq & -> & He1 & He2 & Hcase)]].
        + left. exists p. split; [done|].
          destruct Hcase as [[-> Ha]|[-> Ha]]; [left|right]; (split; [done|]); by apply answered_app_r, answered_app_r.
        + right; left. exists l1, p, l2, q, n, an. split_and!; try done; [by apply HmF..|].
          destruct Hcase as [[-> Hall]|(q' & Hq' & -> & Hh)]; [left|right].
          * split; [done|]. eapply Forall_impl; [exact Hall|]. intros q0 (tbl & Ht & Hn). exists tbl.
            split; [by apply answered_app_r, answered_app_r|done].
          * exists q'. split_and!; try done. by apply HmF.
        + right; right. exists l1, p, l2, q, n, an. split_and!; try done; [by apply HmT..|].
          destruct Hcase as [[-> Hall]|(q' & Hq' & -> & Hh)]; [left|right].
          * split; [done|]. eapply Forall_impl; [exact Hall|]. intros q0 (tbl & Ht & Hn). exists tbl.
            split; [by apply answered_app_r, answered_app_r|done].
          * exists q'. split_and!; try done. by apply HmT. }
  apply exec_setupVault in H3 as (t3' & t4 & a & b & -> & -> & Hev3 & Hev4 & Hok3 & _); [|done|done].
  destruct (Hok3 eq_refl) as (Hcs3 & Hcs4 & ft & tt' & Hft & Htt & Hnd1 & Hnd2 & Ha & Hb). clear Hok3.
  apply Forall_app in Hval as [Hval3 Hval].
  unfold invokeEveryOnInit in H. xinv H.
  apply exec_onInits in H as ((f & ->) & Hev5 & Hpan5 & Hpre5 & Hok5 & Herr5); [|done]. simpl in Hpre5, Hok5, Herr5.
  exists t1, t2, t3', t4, t5. rewrite <- !app_assoc. split_and!; try done.
  - by right.
  - intros _. split_and!; try done. exists ft, tt'. done.
  - intros ->. destruct (Hok5 eq_refl) as (Hcs5 & ws & Hws & Hs). split; [done|]. exists ws. split; [done|].
    injection Hs as Hs. simpl. rewrite Hs. by rewrite Hdb1.
  - intros x ->. by destruct (Hpan5 x).
  - intros e ->. right. destruct (Herr5 e eq_refl) as (p & Hp & [[w Ha']|(x & ->)]).
    + left. split; [by apply (answered_valid _ _ _ _ _ _ Hval) in Ha'|]. exists p. split; [done|].
      right. eexists _, w. do 4 apply answered_app_r. exact Ha'.
    + right; left. eauto.
Qed.

End Proofs.
