(** C71: the error a load call returns is the one that occurred. *)
From Verif Require Export PropExact PropCopy.

Section Props.
Context {E : GoEnv}.

(** ** What a failure has to be reported as *)
(** [f] is a private copy made for the plugin [name]: its file name is the plugin name, a dash and a tag without dashes. *)
Definition copied_as (name f : string) : Prop :=
  exists d tag, f = path_join d (name +:+ "-" +:+ tag) /\ "-"%char ∉ list_ascii_of_string tag.
(** The plugin called [name] is loaded under the name [n]: its own name, in static mode the key it is registered with. *)
Definition loaded_as (o : opts) (n name : string) : Prop :=
  match o_static o with None => n = name | Some st => exists sp, st !! n = Some (Some sp) /\ sp_name sp = name end.

(** What [ev] asks of the error the call returns.  (A live table is asked for again when the owner of a duplicate name is looked
    up; a nil table is then passed over, and the duplicate
    reported, or a panic of a later table.) *)
Definition call_verdict (o : opts) (r : role) (c : callee) : outcome (role_resp r) -> (gerror -> Prop) :=
  match r return outcome (role_resp r) -> (gerror -> Prop) with
  | RReloadable | RExport => fun x => match x with
      | Pan y => fun e => exists n, loaded_as o n (c_name c) /\ e = ELoad n (EPanic (Some (c_name c)) y)
      | _ => fun _ => True end
  | RImport => fun x => match x with Pan y => fun e => e = EPanic (Some (c_name c)) y | _ => fun _ => True end
  | ROnLoad => fun x => match x with
      | Pan y => fun e => e = EPanic (Some (c_name c)) y
      | Val (Some e0) => fun e => e = e0
      | _ => fun _ => True end
  | ROnInit => fun x => match x with
      | Pan y => fun e => e = EPanic (Some (c_name c)) y
      | Val (_, Some e0) => fun e => e = e0
      | _ => fun _ => True end
  | RLiveFuncs => fun x => match x with
      | Pan y => fun e => e = EPanic None y
      | Val None => fun e => e = ENilLiveFuncs (c_name c) \/ (exists n p q, e = EDupLiveFunc n p q) \/ exists y, e = EPanic None y
      | _ => fun _ => True end
  | RLiveTypes => fun x => match x with
      | Pan y => fun e => e = EPanic None y
      | Val None => fun e => e = ENilLiveTypes (c_name c) \/ (exists n p q, e = EDupLiveType n p q) \/ exists y, e = EPanic None y
      | _ => fun _ => True end
  | ROnFree | RInvokeFunc => fun _ _ => True
  end.
Definition verdict (o : opts) (ev : event) (e : gerror) : Prop :=
  match ev with
  | EvStat _ (Err e0) | EvAbs _ (Err e0) | EvReadDir _ (Err e0) | EvReadFile _ (Err e0) => e = e0
  | EvMkdir _ (Some e0) => exists n, e = ELoad n e0
  | EvWriteFile f _ (Some e0) | EvOpen f (Err e0) => exists n, copied_as n f /\ e = ELoad n e0
  | EvOpen f (Pan y) => exists n, copied_as n f /\ e = EPanic (Some n) y
  | EvLookupSym _ sym None => exists n,
      (exists l, e = ELoad n (EMissingFuncs l) /\ sym ∈ l) \/ (exists s, e = ELoad n (ECannotAssign s)) \/ e = EPanic (Some n) PNil
  | EvCall r c _ x => call_verdict o r c x e
  | EvCallback _ _ _ (Val (Some e0)) => e = e0
  | EvCallback _ _ _ (Pan y) => e = EPanic None y
  | _ => True
  end.

(** ** Proofs *)
Definition fail {A} (o : outcome A) : option (gerror + gpanic) :=
  match o with Val _ => None | Err e => Some (inl e) | Pan x => Some (inr x) end.
(** the failure that becomes error [e] if it leaves the body of loadPlugins *)
Definition seen_as (f : option (gerror + gpanic)) (e : gerror) : Prop :=
  f = Some (inl e) \/ exists x, f = Some (inr x) /\ e = EPanic None x.
(** the event is harmless, or the failure is what it asks for *)
Definition judged (o : opts) (ev : event) (f : option (gerror + gpanic)) : Prop :=
  (forall e, verdict o ev e) \/ exists e, seen_as f e /\ verdict o ev e.
Definition pjudged {A} (o : opts) (p : prog (outcome A)) : Prop := forall t r, exec p t r -> Forall (fun ev => judged o ev (fail r)) t.
Definition sjudged {A} (o : opts) (m : SM A) : Prop := forall s t s' r, exec (m s) t (s', r) -> Forall (fun ev => judged o ev (fail r)) t.

Lemma judged_more o ev f : judged o ev None -> judged o ev f.
Proof. intros [H|(e & [H|(x & H & _)] & _)]; [by left|done|done]. Qed.
Lemma judged_any o ev f : (forall e, verdict o ev e) -> judged o ev f.
Proof. by left. Qed.
Lemma judged_err o ev e : verdict o ev e -> judged o ev (Some (inl e)).
Proof. intros H. right. exists e. split; [by left|done]. Qed.
Lemma judged_pan o ev x : verdict o ev (EPanic None x) -> judged o ev (Some (inr x)).
Proof. intros H. right. exists (EPanic None x). split; [right; by exists x|done]. Qed.
Lemma all_more o t f : Forall (fun ev => judged o ev None) t -> Forall (fun ev => judged o ev f) t.
Proof. intros H. eapply Forall_impl; [exact H|]. intros ev. apply judged_more. Qed.
Lemma all_one o ev f : judged o ev f -> Forall (fun ev => judged o ev f) [ev].
Proof. intros H. constructor; [done|constructor]. Qed.

Lemma sj_sbind {A B} o (m : SM A) (f : A -> SM B) : sjudged o m -> (forall a, sjudged o (f a)) -> sjudged o (sbind m f).
Proof.
  intros Hm Hf s t s' r H. apply exec_sbind in H as [(t1 & t2 & s1 & a & -> & H1 & H2)|(o1 & H1 & Hr)].
  - apply Forall_app. split; [|by eapply Hf]. apply all_more. exact (Hm _ _ _ _ H1).
  - apply Hm in H1. by destruct o1 as [a|e|x], r as [b|e'|x']; simpl in Hr; subst; try done.
Qed.
Lemma sj_ret {A} o (g : mgr -> mgr * outcome A) : sjudged o (fun s => Ret (g s)).
Proof. intros s t s' r [-> _]. constructor. Qed.
Lemma sj_sdo {X} o (a : act X) : (forall x ev', valid a x -> ev' ∈ ev a x -> forall e, verdict o ev' e) -> sjudged o (sdo a).
Proof.
  intros Ha s t s' x H. apply (proj1 (exec_act _ _ _ _)) in H as (y & t' & Hv & -> & H). destruct H as [-> _]. rewrite app_nil_r.
  apply Forall_forall. intros ev' Hin. left. by eapply Ha.
Qed.
Lemma sj_slift {A} o (p : prog (outcome A)) : pjudged o p -> sjudged o (slift p).
Proof. intros Hp s t s' r H. apply exec_slift in H as [_ H]. by apply Hp. Qed.
Lemma sj_sfor {A} o (l : list A) body : (forall x, x ∈ l -> sjudged o (body x)) -> sjudged o (sfor l body).
Proof.
  induction l as [|x l IH]; intros H; [apply sj_ret|]. apply sj_sbind; [apply H; by left|]. intros _. apply IH. intros y Hy. apply H. by right.
Qed.

Ltac jstep :=
  lazymatch goal with
  | |- sjudged _ (sbind _ _) => apply sj_sbind; [|intros ?]
  | |- sjudged _ sget => apply (sj_ret _ (fun s => (s, Val s)))
  | |- sjudged _ (sret _) => apply sj_ret
  | |- sjudged _ (serr _) => apply sj_ret
  | |- sjudged _ (span _) => apply sj_ret
  | |- sjudged _ (smod _) => apply sj_ret
  | |- sjudged _ (spure _) => apply sj_ret
  | |- sjudged _ (sdo _) => apply sj_sdo; intros ? ? ? Hin; first [by apply elem_of_nil in Hin | apply elem_of_list_singleton in Hin; subst; done]
  | |- sjudged _ (slift _) => apply sj_slift
  | |- sjudged _ (sfor _ _) => apply sj_sfor; intros ? ?
  | |- sjudged _ (if ?b then _ else _) => destruct b
  | |- sjudged _ (match ?b with _ => _ end) => destruct b
  end.

(** An event that is no failure asks for nothing. *)
Lemma calm o ev : ~ troubled ev -> forall e, verdict o ev e.
Proof.
  intros Hev e. assert (Hp : ~ panicked ev) by (intros ?; apply Hev; by left). assert (Hr : ~ reported ev) by (intros ?; apply Hev; by right). clear Hev.
  destruct ev as [| | | | | | | | | | | | | | | |d r|d r|d r|f r|d r|f dd r|f r|h sym r|r c arg x|r|cb new old r]; cbn [verdict panicked reported] in *; try done.
  - by destruct r.
  - by destruct r.
  - by destruct r.
  - by destruct r.
  - by destruct r.
  - by destruct r.
  - by destruct r.
  - by destruct r.
  - destruct r; cbn [call_verdict] in *; try done; destruct x as [y|y|y]; try done; simpl in y; try (destruct y as [? y]); by destruct y.
  - by destruct r as [[]| |].
Qed.

(** *** Plugin functions *)
Lemma exec_recovered_any r mid p arg t y : exec (let* o := call r mid p arg in Ret (recovered (pl_name p) o)) t y ->
  t = [] \/ exists c x, t = [EvCall r (mkCallee mid (pl_name p) (pl_inst p) c) arg x] /\ y = recovered (pl_name p) x.
Proof.
  intros H. apply exec_bind in H as (t1 & t2 & x & -> & H1 & H2). destruct H2 as [-> H2]. rewrite app_nil_r.
  unfold call in H1. destruct (get_func r (pl_funcs p)) as [c|]; [|destruct H1 as [-> _]; by left]. apply exec_do in H1 as [_ ->]. right. by exists c, x.
Qed.
Lemma pj_import o mid p : pjudged o (invokeImport mid p).
Proof.
  intros t y H. apply (exec_recovered_any RImport) in H as [->|(c & x & -> & ->)]; [constructor|]. apply all_one.
  destruct x as [v|e|x]; [by apply judged_any|by apply judged_any|by apply judged_err].
Qed.
(** Reloadable and Export: the error is wrapped afterwards *)
Definition half (name : string) (ev' : event) (f : option (gerror + gpanic)) : Prop :=
  match ev' with
  | EvCall RReloadable c _ (Pan y) | EvCall RExport c _ (Pan y) => c_name c = name /\ f = Some (inl (EPanic (Some name) y))
  | EvCall RReloadable _ _ _ | EvCall RExport _ _ _ | EvNewInst _ _ _ => True
  | _ => False
  end.
Lemma half_admit p s t s' r : exec (admitPlugin p s) t (s', r) -> Forall (fun ev => half (pl_name p) ev (fail r)) t.
Proof.
  intros H. unfold admitPlugin in H. rewrite sbind_sget in H. apply exec_sbind in H as [(t1 & t2 & s1 & b & -> & H1 & H2)|(o1 & H1 & Hr)].
  - apply exec_slift in H1 as [-> H1]. apply Forall_app. split.
    { apply (exec_recovered_any RReloadable) in H1 as [->|(c & x & -> & Hx)]; [constructor|]. destruct x; try done. by repeat constructor. }
    cbv zeta in H2. apply exec_sbind in H2 as [(t3 & t4 & s2 & v & -> & H3 & H4)|(o1 & H3 & Hr)].
    + apply exec_slift in H3 as [-> H3]. destruct H4 as [-> _]. rewrite app_nil_r.
      apply (exec_recovered_any RExport) in H3 as [->|(c & x & -> & Hx)]; [constructor|]. destruct x; try done. by repeat constructor.
    + apply exec_slift in H3 as [_ H3]. apply (exec_recovered_any RExport) in H3 as [->|(c & x & -> & ->)]; [constructor|].
      destruct x as [v|e|x]; [by repeat constructor|by repeat constructor|]. constructor; [|constructor]. destruct r; simpl in Hr; try done. by subst.
  - apply exec_slift in H1 as [_ H1]. apply (exec_recovered_any RReloadable) in H1 as [->|(c & x & -> & ->)]; [constructor|].
    destruct x as [v|e|x]; [by repeat constructor|by repeat constructor|]. constructor; [|constructor]. destruct r; simpl in Hr; try done. by subst.
Qed.

Lemma copied_dst dn i : copied_as (fi_name i) (copy_dst dn i).
Proof.
  eexists _, _. split; [reflexivity|]. rewrite las_app, elem_of_app. intros [H|H]; [by eapply fmt_chars in H; [|by left]|].
  revert H. unfold FileNameExt. vm_compute. intros H. repeat (apply elem_of_cons in H as [H|H]; [done|]). by apply elem_of_nil in H.
Qed.

(** *** Opening a plugin file *)
Lemma sj_open o i name : o_static o = None -> (forall x, i = Some x -> fi_name x = name) ->
  sjudged o (fun pm => bind (loadPlugin i pm) (fun so => Ret (fst so, open_outcome i name (snd so)))).
Proof.
  intros Hst Hname s t s' r H. apply exec_bind in H as (t1 & t2 & [s1 o1] & -> & H1 & H2). destruct H2 as [-> [= -> ->]]. rewrite app_nil_r. cbn [snd].
  destruct i as [i|].
  2:{ destruct H1 as [-> _]. constructor. }
  specialize (Hname _ eq_refl). cbn [open_outcome].
  destruct o1 as [u|e|x].
  - pose proof (sclean_loadPlugin _ _ _ _ _ H1) as Hc. pose proof H1 as H1'.
    apply exec_loadPlugin in H1 as [(i0 & p & h & ans & c1 & c2 & [= <-] & _ & _ & _ & _ & Hans & _ & _ & ->)|(_ & Hno & _)]; [|by destruct Hno].
    eapply Forall_impl; [exact Hc|]. intros ev Hev. left. by apply calm.
  - apply exec_loadPlugin_fail in H1; [|by intros []]. cbn [fail]. subst name. remember (Err e) as oo eqn:Hoo.
    destruct H1 as [e0 _|e0 _|j e0 _|j x _|j h ans rs rl rs' sym oo Hit Ha Hv Hg Hor|j h ans rl Ha Hg|j h ans f x t Hall Hp|j h ans f c b x t Hall Hc Hp]; try discriminate Hoo.
    + injection Hoo as ->. apply all_one, judged_err. by exists (fi_name i).
    + injection Hoo as ->. constructor; [by left|]. apply all_one, judged_err. exists (fi_name i). split; [apply copied_dst|done].
    + injection Hoo as ->. unfold open_head. repeat (constructor; [by left|]). apply all_one, judged_err. exists (fi_name i). split; [apply copied_dst|done].
    + apply Forall_app. split; [unfold open_head; repeat (constructor; [by left|]); constructor|]. destruct Hor as [-> |?]; [|subst; done]. injection Hoo as <-.
      apply Forall_forall. intros ev [r' [-> _]]%elem_of_list_fmap. apply judged_err. cbn [verdict]. destruct (ans r'); [done|]. exists (fi_name i). right. left. by eexists.
    + injection Hoo as <-. apply Forall_app. split; [unfold open_head; repeat (constructor; [by left|]); constructor|].
      apply Forall_forall. intros ev [r' [-> Hr']]%elem_of_list_fmap. apply judged_err. cbn [verdict]. destruct (ans r') eqn:Ha'; [done|]. exists (fi_name i). left. eexists. split; [done|].
      apply elem_of_list_fmap_1, elem_of_list_In, filter_In. split; [by apply elem_of_list_In|by apply bool_decide_eq_true].
    + injection Hoo as <-. rewrite app_assoc. apply Forall_app. split; [|].
      * apply Forall_app. split; [unfold open_head; repeat (constructor; [by left|]); constructor|]. apply Forall_forall. intros ev [r' [-> _]]%elem_of_list_fmap. left. cbn [verdict].
        destruct (Hall r') as (sym & v & -> & _). done.
      * destruct Hp as [(_ & _ & ->)|(c & _ & -> & _)]; [constructor|]. apply all_one, judged_err. cbn. exists (fi_name i). split; [|done]. unfold loaded_as. by rewrite Hst.
    + injection Hoo as <-. rewrite app_assoc. apply Forall_app. split; [|].
      * apply Forall_app. split; [unfold open_head; repeat (constructor; [by left|]); constructor|]. apply Forall_forall. intros ev [r' [-> _]]%elem_of_list_fmap. left. cbn [verdict].
        destruct (Hall r') as (sym & v & -> & _). done.
      * constructor; [by left|]. destruct Hp as [(_ & _ & ->)|(c' & _ & -> & _)]; [constructor|]. apply all_one, judged_err. cbn. exists (fi_name i). split; [|done]. unfold loaded_as. by rewrite Hst.
  - apply exec_loadPlugin_fail in H1; [|by intros []]. cbn [fail]. subst name. remember (Pan x) as oo eqn:Hoo.
    destruct H1 as [e0 _|e0 _|j e0 _|j x0 _|j h ans rs rl rs' sym oo Hit Ha Hv Hg Hor|j h ans rl Ha Hg|j h ans f x0 t Hall Hp|j h ans f c b x0 t Hall Hc Hp]; try discriminate Hoo.
    + injection Hoo as ->. unfold open_head. repeat (constructor; [by left|]). apply all_one, judged_err. exists (fi_name i). split; [apply copied_dst|done].
    + apply Forall_app. split; [unfold open_head; repeat (constructor; [by left|]); constructor|]. destruct Hor as [?| ->]; [subst; done|]. injection Hoo as <-.
      apply Forall_forall. intros ev [r' [-> _]]%elem_of_list_fmap. apply judged_err. cbn [verdict]. destruct (ans r'); [done|]. exists (fi_name i). right. by right.
Qed.

(** *** The phases after opening *)
Lemma sj_initDeps o : sjudged o initDeps.
Proof.
  unfold initDeps, initPlugin, checkOne, checkRebuilt, orderPlugins, initField. repeat jstep. apply pj_import.
Qed.
(** what a call of a plugin function asks for, given what is done with its answer *)
Lemma sj_recovered_then {B} o r mid p arg (k : role_resp r -> SM B) :
  (forall c y e, call_verdict o r c (Err y) e) ->
  (forall c y, c_name c = pl_name p -> call_verdict o r c (Pan y) (EPanic (Some (pl_name p)) y)) ->
  (forall c v, c_name c = pl_name p -> (forall e, call_verdict o r c (Val v) e) \/ forall s t s' x, exec (k v s) t (s', x) -> exists e, x = Err e /\ call_verdict o r c (Val v) e) ->
  (forall v, sjudged o (k v)) ->
  sjudged o (sbind (slift (let* o := call r mid p arg in Ret (recovered (pl_name p) o))) k).
Proof.
  intros He Hp Hv Hk s t s' x H. apply exec_sbind in H as [(t1 & t2 & s1 & a & -> & H1 & H2)|(o1 & H1 & Hr)].
  - apply exec_slift in H1 as [-> H1]. apply Forall_app. split; [|exact (Hk _ _ _ _ _ H2)].
    apply exec_recovered_any in H1 as [->|(c & y & -> & Hy)]; [constructor|]. apply all_one. destruct y as [y|y|y]; try done. injection Hy as <-.
    destruct (Hv (mkCallee mid (pl_name p) (pl_inst p) c) a eq_refl) as [Hc|Hc]; [by left|]. destruct (Hc _ _ _ _ H2) as (e & -> & He'). by apply judged_err.
  - apply exec_slift in H1 as [_ H1]. apply exec_recovered_any in H1 as [->|(c & y & -> & ->)]; [constructor|]. apply all_one.
    destruct y as [y|y|y]; [by destruct x|left; intros e; apply He|]. destruct x; simpl in Hr; try done. subst. apply judged_err. by apply Hp.
Qed.
Lemma sj_onLoad o data : sjudged o (invokeEveryOnLoad data).
Proof.
  unfold invokeEveryOnLoad, onLoadOne. repeat (lazymatch goal with |- sjudged _ (sbind (slift _) _) => fail | _ => jstep end).
  apply (sj_recovered_then _ ROnLoad); try done.
  - intros c y Hc. cbn. by rewrite Hc.
  - intros c [e|] _; [right|by left]. intros s t s' x0 [_ H']. injection H' as _ ->. by exists e.
  - intros [e|]; jstep.
Qed.
Lemma sj_onInit o : sjudged o invokeEveryOnInit.
Proof.
  unfold invokeEveryOnInit, onInitOne. repeat (lazymatch goal with |- sjudged _ (sbind (slift _) _) => fail | _ => jstep end).
  apply (sj_recovered_then _ ROnInit); try done.
  - intros c y Hc. cbn. by rewrite Hc.
  - intros c [w [e|]] _; [right|by left]. intros s t s' x0 [_ H']. injection H' as _ ->. by exists e.
  - intros [w [e|]]; repeat jstep.
Qed.
(** the live tables *)
Lemma findF_events mid earlier name : forall t x, exec (findAnother RLiveFuncs mid (fun q => call RLiveFuncs mid q ArgNone) earlier name) t x ->
  (forall e, x <> Err e) /\ Forall (fun ev => exists c y, ev = EvCall RLiveFuncs c ArgNone y /\ forall z, y = Pan z -> x = Pan z) t.
Proof.
  induction earlier as [|q earlier IH]; intros t x H; [destruct H as [-> ->]; split; [done|constructor]|]. cbn [findAnother] in H.
  apply exec_bind in H as (t1 & t2 & y & -> & H1 & H2).
  unfold call in H1. destruct (get_func RLiveFuncs (pl_funcs q)) as [c|].
  2:{ destruct H1 as [-> ->]. destruct H2 as [-> ->]. split; [done|constructor]. }
  apply exec_do in H1 as [Hv ->]. assert ((forall e, x <> Err e) /\ Forall (fun ev => exists c y, ev = EvCall RLiveFuncs c ArgNone y /\ forall z, y = Pan z -> x = Pan z) t2) as [He Ht].
  - destruct y as [[l|]|e|z]; [|by apply IH|by destruct Hv|destruct H2 as [-> ->]; split; [done|constructor]].
    case_bool_decide; [destruct H2 as [-> ->]; split; [done|constructor]|by apply IH].
  - split; [done|]. constructor; [|done]. eexists _, _. split; [done|]. intros z ->. by destruct H2 as [_ ->].
Qed.
Lemma sj_addF o p l : forall earlier, sjudged o (addLiveFuncs earlier p l).
Proof.
  induction l as [|[n v] l IH]; intros earlier; [apply sj_ret|]. cbn [addLiveFuncs]. jstep; [jstep|]. destruct (pm_livefuncs a !! n); [|jstep; [jstep|apply IH]].
  intros s t s' x H. apply exec_sbind in H as [(t1 & t2 & s1 & b & -> & H1 & H2)|(o1 & H1 & Hr)].
  - destruct H2 as [-> H2]. injection H2 as _ ->. rewrite app_nil_r. apply exec_slift in H1 as [_ H1]. apply findF_events in H1 as [_ H1].
    eapply Forall_impl; [exact H1|]. intros ev (c & y & -> & Hy). destruct y as [[]|y|y]; [by left| |by left|by specialize (Hy _ eq_refl)].
    apply judged_err. cbn. right. left. by eexists _, _, _.
  - apply exec_slift in H1 as [_ H1]. apply findF_events in H1 as [He H1]. eapply Forall_impl; [exact H1|]. intros ev (c & y & -> & Hy).
    destruct o1 as [b|e|z]; [by destruct x|by destruct (He e)|].
    destruct x; simpl in Hr; try done. subst. apply judged_pan. destruct y as [[]|y|y]; cbn; [done|eauto|done|]. by injection (Hy _ eq_refl) as ->.
Qed.
Lemma sj_vaultFuncs o rest : forall earlier, sjudged o (vaultFuncs earlier rest).
Proof.
  induction rest as [|p rest IH]; intros earlier; [apply sj_ret|]. cbn [vaultFuncs]. jstep; [jstep|].
  intros s t s' x H. apply exec_sbind in H as [(t1 & t2 & s1 & b & -> & H1 & H2)|(o1 & H1 & Hr)].
  - apply exec_slift in H1 as [-> H1]. apply Forall_app. split.
    + apply (exec_call_val RLiveFuncs) in H1 as (c & _ & ->). apply all_one. destruct b as [l|]; [by left|]. destruct H2 as [_ H2]. injection H2 as _ ->. apply judged_err. by left.
    + destruct b as [l|]; [|destruct H2 as [-> _]; constructor]. exact (sj_sbind _ _ _ (sj_addF o p l earlier) (fun _ => IH _) _ _ _ _ H2).
  - apply exec_slift in H1 as [_ H1]. unfold call in H1. destruct (get_func RLiveFuncs (pl_funcs p)) as [c|]; [|destruct H1 as [-> _]; constructor].
    apply exec_do in H1 as [Hv ->]. apply all_one. destruct o1 as [b|e|z]; [by destruct x|by destruct Hv|]. destruct x; simpl in Hr; try done. subst. by apply judged_pan.
Qed.
Lemma findT_events mid earlier name : forall t x, exec (findAnother RLiveTypes mid (fun q => call RLiveTypes mid q ArgNone) earlier name) t x ->
  (forall e, x <> Err e) /\ Forall (fun ev => exists c y, ev = EvCall RLiveTypes c ArgNone y /\ forall z, y = Pan z -> x = Pan z) t.
Proof.
  induction earlier as [|q earlier IH]; intros t x H; [destruct H as [-> ->]; split; [done|constructor]|]. cbn [findAnother] in H.
  apply exec_bind in H as (t1 & t2 & y & -> & H1 & H2).
  unfold call in H1. destruct (get_func RLiveTypes (pl_funcs q)) as [c|].
  2:{ destruct H1 as [-> ->]. destruct H2 as [-> ->]. split; [done|constructor]. }
  apply exec_do in H1 as [Hv ->]. assert ((forall e, x <> Err e) /\ Forall (fun ev => exists c y, ev = EvCall RLiveTypes c ArgNone y /\ forall z, y = Pan z -> x = Pan z) t2) as [He Ht].
  - destruct y as [[l|]|e|z]; [|by apply IH|by destruct Hv|destruct H2 as [-> ->]; split; [done|constructor]].
    case_bool_decide; [destruct H2 as [-> ->]; split; [done|constructor]|by apply IH].
  - split; [done|]. constructor; [|done]. eexists _, _. split; [done|]. intros z ->. by destruct H2 as [_ ->].
Qed.
Lemma sj_addT o p l : forall earlier, sjudged o (addLiveTypes earlier p l).
Proof.
  induction l as [|[n v] l IH]; intros earlier; [apply sj_ret|]. cbn [addLiveTypes]. jstep; [jstep|]. destruct (pm_livetypes a !! n); [|jstep; [jstep|apply IH]].
  intros s t s' x H. apply exec_sbind in H as [(t1 & t2 & s1 & b & -> & H1 & H2)|(o1 & H1 & Hr)].
  - destruct H2 as [-> H2]. injection H2 as _ ->. rewrite app_nil_r. apply exec_slift in H1 as [_ H1]. apply findT_events in H1 as [_ H1].
    eapply Forall_impl; [exact H1|]. intros ev (c & y & -> & Hy). destruct y as [[]|y|y]; [by left| |by left|by specialize (Hy _ eq_refl)].
    apply judged_err. cbn. right. left. by eexists _, _, _.
  - apply exec_slift in H1 as [_ H1]. apply findT_events in H1 as [He H1]. eapply Forall_impl; [exact H1|]. intros ev (c & y & -> & Hy).
    destruct o1 as [b|e|z]; [by destruct x|by destruct (He e)|].
    destruct x; simpl in Hr; try done. subst. apply judged_pan. destruct y as [[]|y|y]; cbn; [done|eauto|done|]. by injection (Hy _ eq_refl) as ->.
Qed.
Lemma sj_vaultTypes o rest : forall earlier, sjudged o (vaultTypes earlier rest).
Proof.
  induction rest as [|p rest IH]; intros earlier; [apply sj_ret|]. cbn [vaultTypes]. jstep; [jstep|].
  intros s t s' x H. apply exec_sbind in H as [(t1 & t2 & s1 & b & -> & H1 & H2)|(o1 & H1 & Hr)].
  - apply exec_slift in H1 as [-> H1]. apply Forall_app. split.
    + apply (exec_call_val RLiveTypes) in H1 as (c & _ & ->). apply all_one. destruct b as [l|]; [by left|]. destruct H2 as [_ H2]. injection H2 as _ ->. apply judged_err. by left.
    + destruct b as [l|]; [|destruct H2 as [-> _]; constructor]. exact (sj_sbind _ _ _ (sj_addT o p l earlier) (fun _ => IH _) _ _ _ _ H2).
  - apply exec_slift in H1 as [_ H1]. unfold call in H1. destruct (get_func RLiveTypes (pl_funcs p)) as [c|]; [|destruct H1 as [-> _]; constructor].
    apply exec_do in H1 as [Hv ->]. apply all_one. destruct o1 as [b|e|z]; [by destruct x|by destruct Hv|]. destruct x; simpl in Hr; try done. subst. by apply judged_pan.
Qed.

Lemma sj_vault o : sjudged o setupVault.
Proof. unfold setupVault. jstep; [jstep|]. cbv zeta. jstep; [apply sj_vaultFuncs|apply sj_vaultTypes]. Qed.

(** *** The bodies of loadPlugins and loadStaticPlugins *)
Lemma sj_sbind_post {A B} o (m : SM A) (f : A -> SM B) (Q : A -> Prop) : sjudged o m ->
  (forall s t s' a, exec (m s) t (s', Val a) -> Q a) -> (forall a, Q a -> sjudged o (f a)) -> sjudged o (sbind m f).
Proof.
  intros Hm HQ Hf s t s' r H. apply exec_sbind in H as [(t1 & t2 & s1 & a & -> & H1 & H2)|(o1 & H1 & Hr)].
  - apply Forall_app. split; [|eapply (Hf a); [by eapply HQ|done]]. apply all_more. exact (Hm _ _ _ _ H1).
  - apply Hm in H1. by destruct o1 as [a|e|x], r as [b|e'|x']; simpl in Hr; subst; try done.
Qed.
Definition key_of_name (m : gmap string fileInfo) : Prop := forall k i, m !! k = Some i -> name2key (fi_name i) = k.
Lemma build_keys files : forall m t m', key_of_name m -> exec (buildFileInfoMap files m) t (Val m') -> key_of_name m'.
Proof.
  induction files as [|f files IH]; intros m t m' Hm H; cbn [buildFileInfoMap] in H.
  - destruct H as [_ H]. by injection H as <-.
  - rewrite bind_do in H. apply (proj1 (exec_act _ _ _ _)) in H as (x & t' & _ & -> & H). destruct x as [d|e|x]; [|by destruct H|by destruct H].
    eapply IH; [|exact H]. intros k i. unfold info_add. cbv zeta. destruct (decide (k = name2key (pluginName f))) as [->|Hne]; [rewrite lookup_insert; by intros [= <-]|rewrite lookup_insert_ne by done; apply Hm].
Qed.
Lemma pj_build o files : forall m, pjudged o (buildFileInfoMap files m).
Proof.
  induction files as [|f files IH]; intros m t r H; cbn [buildFileInfoMap] in H; [destruct H as [-> _]; constructor|].
  rewrite bind_do in H. apply (proj1 (exec_act _ _ _ _)) in H as (x & t' & _ & -> & H). destruct x as [d|e|x].
  - constructor; [by left|]. by eapply IH.
  - destruct H as [-> ->]. apply all_one. by apply judged_err.
  - destruct H as [-> ->]. apply all_one. by left.
Qed.
Lemma name_found m name i : key_of_name m -> name ∈ info_names m -> m !! name = Some i -> fi_name i = name.
Proof.
  intros Hk Hin Hi. apply info_names_elem in Hin as (k & i0 & Hi0 & <-). pose proof (Hk _ _ Hi0) as H0. pose proof (Hk _ _ Hi) as H1.
  assert (k = fi_name i0) as Hk0. { rewrite <- H0, <- H1. unfold name2key. by rewrite to_lower_idem. } rewrite <- Hk0 in Hi. congruence.
Qed.
Lemma sj_lifecycle o data : sjudged o (let! _ := initDeps in let! _ := invokeEveryOnLoad data in let! _ := setupVault in invokeEveryOnInit).
Proof. jstep; [apply sj_initDeps|]. jstep; [apply sj_onLoad|]. jstep; [apply sj_vault|apply sj_onInit]. Qed.
Lemma sj_body o files old data : o_static o = None -> sjudged o (loadPlugins_body files old data).
Proof.
  intros Hst. unfold loadPlugins_body, addUnchanged. jstep; [jstep|]. jstep; [jstep|]. jstep; [jstep|]. jstep; [|jstep].
  apply sj_sbind_post with (Q := key_of_name).
  { apply sj_slift, pj_build. }
  { intros s t s' m H. apply exec_slift in H as [_ H]. eapply build_keys; [|exact H]. intros k i. by rewrite lookup_empty. }
  intros infos Hk. cbv zeta. jstep; [jstep|]. jstep; [repeat jstep|]. jstep; [jstep|]. jstep; [repeat jstep|]. jstep; [jstep|]. jstep; [jstep|].
  jstep; [unfold outputStats1; repeat jstep|]. jstep; [jstep|]. jstep; [jstep|]. jstep; [|apply sj_lifecycle].
  apply sj_sfor. intros name Hin. apply sj_open; [done|]. intros i Hi. eapply name_found; [|exact Hin|exact Hi].
  intros k i' Hi'. apply map_filter_lookup_Some in Hi' as [Hi' _]. apply map_filter_lookup_Some in Hi' as [Hi' _]. by apply Hk.
Qed.
Lemma sj_staticOne o st name (sel : gmap string (option StaticPlugin)) : o_static o = Some st -> (forall n p, sel !! n = Some p -> st !! n = Some p) ->
  sjudged o (fun pm => bind (loadStaticPlugin (default None (sel !! name)) pm) (fun so => match snd so with Err e => Ret (fst so, Err (ELoad name e)) | _ => Ret so end)).
Proof.
  intros Hst Hsub s t s' r H. apply exec_bind in H as (t1 & t2 & [s1 o1] & -> & H1 & H2). unfold loadStaticPlugin in H1. rewrite sbind_sget in H1.
  destruct (sel !! name) as [[sp|]|] eqn:Hsel; cbv beta iota delta [default from_option id] in H1.
  2,3: xinv H1; xinv H1; cbn [snd fst] in H2; destruct H2 as [-> _]; apply all_one; by left.
  xinv H1. destruct (missing_funcs (sp_funcs sp)) as [|m1 ms].
  2:{ xinv H1. destruct H2 as [-> _]. simpl. apply all_one. by left. }
  apply half_admit in H1. cbn [pl_name] in H1. apply Forall_cons_2; [by left|]. change (Forall (fun ev => judged o ev (fail r)) (t ++ t2)).
  assert (t2 = [] /\ r = match o1 with Err e => Err (ELoad name e) | o => o end) as [-> ->].
  { destruct o1; destruct H2 as [-> H2]; by injection H2 as _ ->. }
  rewrite app_nil_r. eapply Forall_impl; [exact H1|]. clear H1 H2. intros ev Hev. destruct ev as [| | | | | | | | | | | | | | | |d r|d r|d r|f r|d r|f dd r|f r|h sym r|r c arg x0|r|cb new old r]; try done; [by left|].
  destruct r; try done; destruct x0 as [v|e|y]; try (by left); destruct Hev as [Hn Hf]; destruct o1; try done; injection Hf as ->; apply judged_err; cbn; exists name;
    (split; [|by rewrite Hn]); unfold loaded_as; rewrite Hst; exists sp; (split; [by apply Hsub|done]).
Qed.
Lemma sj_static o st sel data : o_static o = Some st -> (forall n p, sel !! n = Some p -> st !! n = Some p) -> sjudged o (loadStaticPlugins_body sel data).
Proof.
  intros Hst Hsub. unfold loadStaticPlugins_body. jstep; [jstep|]. jstep; [jstep|]. jstep; [jstep|]. jstep; [jstep|]. jstep; [|apply sj_lifecycle].
  apply sj_sfor. intros name _. by eapply sj_staticOne.
Qed.

(** *** Cleaning up *)
Definition calm_act X (a : act X) : Prop := forall x ev', ev' ∈ ev a x -> forall o e, verdict o ev' e.
Lemma calm_free m : only calm_act (invokeEveryOnFree m).
Proof.
  assert (Hk : forall k, only calm_act (freeKey m k)).
  { intros k. unfold freeKey, freeOne. destruct (pm_map m !! k) as [p|]; [|done].
    assert (Hone : forall ev' e0, ev' ∈ [e0] -> (forall o e, verdict o e0 e) -> forall o e, verdict o ev' e) by (intros ev' e0 ->%elem_of_list_singleton; done).
    apply only_bind; [apply only_do; intros x ev' Hin; by apply (Hone _ _ Hin)|]. intros v. destruct (0 <? v)%Z; [done|].
    apply only_bind; [apply only_do; intros x ev' Hin; by apply (Hone _ _ Hin)|]. intros b. destruct b; [|done].
    apply only_bind; [|done]. unfold call. destruct (get_func ROnFree (pl_funcs p)); [|done]. apply only_do. intros x ev' Hin. by apply (Hone _ _ Hin). }
  unfold invokeEveryOnFree. destruct (pm_ordered m) as [|k l].
  - apply only_bind; [|intros it; apply only_ofor; auto]. split; [|done]. intros x ev' Hin. by apply elem_of_nil in Hin.
  - apply only_ofor. auto.
Qed.
Lemma free_calm o e m t c : exec (invokeEveryOnFree m) t c -> Forall (fun ev => verdict o ev e) t.
Proof. intros H. eapply only_exec; [|apply calm_free|exact H]. intros X a x Ha. apply Forall_forall. intros ev' Hin. by apply (Ha x). Qed.
Lemma cleanup_verdict o body s t s' e : sjudged o body -> exec (with_cleanup body s) t (s', Err e) -> Forall (fun ev => verdict o ev e) t.
Proof.
  intros Hb H. unfold with_cleanup in H. apply exec_bind in H as (t1 & t2 & [s1 o1] & -> & H1 & H2). apply Hb in H1. cbn [snd fst] in H2.
  destruct o1 as [u|e1|x]; [by destruct H2|..]; apply exec_bind in H2 as (t3 & t4 & c & -> & H3 & H4); destruct c as [c|c|c]; try (by destruct H4);
    destruct H4 as [-> H4]; injection H4 as -> ->; rewrite app_nil_r; (apply Forall_app; split; [|by eapply free_calm]);
    (eapply Forall_impl; [exact H1|]); intros ev [Hany|(e2 & [Hs|(y & Hs & ->)] & Hv)]; try apply Hany; cbn [fail] in Hs; try discriminate Hs; injection Hs as <-; exact Hv.
Qed.
Lemma calm_clean o e t : clean t -> Forall (fun ev => verdict o ev e) t.
Proof. intros H. eapply Forall_impl; [exact H|]. intros ev Hev. by apply calm. Qed.
Lemma callbacks_verdict o cbs new old : forall t e, exec (invokeReloadCallbacks cbs new old) t (Err e) -> Forall (fun ev => verdict o ev e) t.
Proof.
  induction cbs as [|[cb|] cbs IH]; intros t e H; [by destruct H| |by apply IH]. cbn [invokeReloadCallbacks] in H.
  rewrite bind_do in H. apply (proj1 (exec_act _ _ _ _)) in H as (x & t' & Hv & -> & H). cbv zeta in H.
  destruct x as [[e0|]|e0|y]; [| |by destruct Hv|].
  - apply exec_bind in H as (t1 & t2 & c & -> & H1 & H2). constructor; [|apply Forall_app; split; [by eapply free_calm|]]; destruct c; try (by destruct H2); destruct H2 as [-> H2]; injection H2 as ->; try constructor; done.
  - constructor; [done|]. by apply IH.
  - apply exec_bind in H as (t1 & t2 & c & -> & H1 & H2). constructor; [|apply Forall_app; split; [by eapply free_calm|]]; destruct c; try (by destruct H2); destruct H2 as [-> H2]; injection H2 as ->; try constructor; done.
Qed.
Lemma files_verdict o files data cbs t e : o_static o = None -> exec (loadPluginFiles o files data cbs) t (Err e) -> Forall (fun ev => verdict o ev e) t.
Proof.
  intros Hst. unfold loadPluginFiles. destruct files as [|f files]; intros H; [by destruct H|].
  set (fs := f :: files) in *. unfold Current in H. rewrite bind_do in H. apply (proj1 (exec_act _ _ _ _)) in H as (old & t' & _ & -> & H).
  apply Forall_cons_2; [done|]. change (Forall (fun ev => verdict o ev e) t').
  apply exec_bind in H as (t1 & t2 & n & -> & H1 & H2). apply Forall_app. destruct n as [m|e1|x]; [| |by destruct H2].
  2:{ apply exec_newPluginManager in H1 as (mid & dn & te & -> & [(s & ? & _)|(x & ? & _)]); done. }
  split; [apply calm_clean; by eapply clean_newMgr|]. clear H1.
  apply exec_bind in H2 as (t3 & t4 & [s1 u] & -> & H3 & H4). cbv zeta in H4. cbn [fst snd] in H4. apply Forall_app. destruct u as [u|e1|x]; [| |by destruct H4].
  2:{ destruct H4 as [-> H4]. injection H4 as ->. split; [|constructor]. eapply cleanup_verdict; [by apply (sj_body o fs old data)|exact H3]. }
  split; [apply calm_clean; by eapply (sclean_cleanup _ (sclean_load fs old data))|]. clear H3.
  apply exec_bind in H4 as (t5 & t6 & c & -> & H5 & H6). apply Forall_app. destruct c as [c|e1|x]; [| |by destruct H6].
  2:{ destruct H6 as [-> H6]. injection H6 as ->. split; [|constructor]. by eapply callbacks_verdict. }
  split; [apply calm_clean; by eapply clean_callbacks|]. destruct (buildDetails s1 fs ∅) as [d|e1|x] eqn:Hd; [| |by destruct H6].
  - apply exec_bind in H6 as (t7 & t8 & [] & -> & H7 & H8). rewrite bind_do in H8. apply (proj1 (exec_act _ _ _ _)) in H8 as (y & t9 & _ & -> & H8). by destruct H8.
  - destruct H6 as [-> _]. constructor.
Qed.
Lemma impl_verdict o data cbs t e : o_static o = None -> exec (loadPluginsImpl o data cbs) t (Err e) -> Forall (fun ev => verdict o ev e) t.
Proof.
  intros Hst H. unfold loadPluginsImpl in H. rewrite bind_do in H. apply (proj1 (exec_act _ _ _ _)) in H as (d1 & t' & _ & -> & H).
  apply Forall_cons_2; [done|]. change (Forall (fun ev => verdict o ev e) t').
  apply exec_bind in H as (t1 & t2 & r1 & -> & H1 & H2). apply Forall_app.
  unfold FindDirectory in H1. destruct (blank d1). { destruct H1 as [-> ->]. destruct H2 as [-> H2]. split; constructor. }
  rewrite bind_do in H1. apply (proj1 (exec_act _ _ _ _)) in H1 as (x & t3 & _ & -> & H1).
  destruct x as [b|e0|x]; [|destruct H1 as [-> ->]; destruct H2 as [-> H2]; injection H2 as ->; split; [by repeat constructor|constructor]|destruct H1 as [-> ->]; by destruct H2].
  destruct b; [|destruct H1 as [-> ->]; destruct H2 as [-> H2]; split; [by repeat constructor|constructor]]. destruct H1 as [-> ->]. split; [by repeat constructor|].
  rewrite bind_do in H2. apply (proj1 (exec_act _ _ _ _)) in H2 as (d2 & t4 & _ & -> & H2). apply Forall_cons_2; [done|]. change (Forall (fun ev => verdict o ev e) t4).
  rewrite bind_do in H2. apply (proj1 (exec_act _ _ _ _)) in H2 as (abs & t5 & _ & -> & H2). destruct abs as [abs|e0|x]; [|destruct H2 as [-> H2]; injection H2 as ->; by repeat constructor|by destruct H2].
  apply Forall_cons_2; [done|]. change (Forall (fun ev => verdict o ev e) t5).
  rewrite bind_do in H2. apply (proj1 (exec_act _ _ _ _)) in H2 as (es & t6 & _ & -> & H2). destruct es as [es|e0|x]; [|destruct H2 as [-> H2]; injection H2 as ->; by repeat constructor|by destruct H2].
  apply Forall_cons_2; [done|]. change (Forall (fun ev => verdict o ev e) t6). destruct (selectFiles _ abs es) as [files found]. destruct (negb _); [destruct H2 as [-> _]; constructor|].
  by eapply files_verdict.
Qed.
Lemma static_verdict o st data cbs t e : o_static o = Some st -> exec (swLoadStaticPlugins o st data cbs) t (Err e) -> Forall (fun ev => verdict o ev e) t.
Proof.
  intros Hst H. unfold swLoadStaticPlugins in H.
  apply exec_bind in H as (t1 & t2 & n & -> & H1 & H2). apply Forall_app. destruct n as [m|e1|x]; [| |by destruct H2].
  2:{ apply exec_newPluginManager in H1 as (mid & dn & te & -> & [(s & ? & _)|(x & ? & _)]); done. }
  split; [apply calm_clean; by eapply clean_newMgr|]. clear H1.
  assert (Hsel : forall sel, match o_whitelist o with [] => Val st | wl => selectStatic st wl ∅ end = Val sel -> forall n p, sel !! n = Some p -> st !! n = Some p).
  { intros sel Hs n p. destruct (o_whitelist o) as [|w wl]; [injection Hs as <-; done|]. pose proof (selectStatic_spec st (w :: wl) ∅) as Hsp. rewrite Hs in Hsp.
    destruct Hsp as [_ Hsp]. rewrite Hsp. case_decide; [done|]. by rewrite lookup_empty. }
  destruct (match o_whitelist o with [] => _ | _ => _ end) as [sel|e1|x]; [|destruct H2 as [-> _]; constructor|by destruct H2].
  specialize (Hsel _ eq_refl).
  apply exec_bind in H2 as (t3 & t4 & [s1 u] & -> & H3 & H4). cbv zeta in H4. cbn [fst snd] in H4. apply Forall_app. destruct u as [u|e1|x]; [| |by destruct H4].
  2:{ destruct H4 as [-> H4]. injection H4 as ->. split; [|constructor]. eapply cleanup_verdict; [by apply (sj_static o st sel data)|exact H3]. }
  split; [apply calm_clean; by eapply (sclean_cleanup _ (sclean_static sel data))|]. clear H3.
  apply exec_bind in H4 as (t5 & t6 & c & -> & H5 & H6). apply Forall_app. destruct c as [c|e1|x]; [| |by destruct H6].
  - rewrite bind_do in H6. apply (proj1 (exec_act _ _ _ _)) in H6 as (y & t9 & _ & -> & H6). by destruct H6.
  - destruct H6 as [-> H6]. injection H6 as ->. split; [|constructor]. by eapply callbacks_verdict.
Qed.
Lemma api_verdict o a t e : exec (api_prog o a) t (Err e) -> Forall (fun ev => verdict o ev e) t.
Proof.
  intros H. destruct a as [data|data extra]; simpl api_prog in H.
  - apply exec_locked in H as (tb & -> & H). apply Forall_cons_2; [done|]. apply Forall_app. split; [|by repeat constructor].
    destruct (o_static o) eqn:Hst; [by eapply static_verdict|by eapply impl_verdict].
  - unfold ReloadWithCallback in H. destruct (o_static o) eqn:Hst; [destruct H as [-> _]; constructor|].
    apply exec_locked in H as (tb & -> & H). apply Forall_cons_2; [done|]. apply Forall_app. split; [|by repeat constructor].
    cbv zeta in H. apply exec_bind in H as (t1 & t2 & r & -> & H1 & H2). apply Forall_app. destruct r as [r|e1|x]; [| |by destruct H2].
    + rewrite bind_do in H2. apply (proj1 (exec_act _ _ _ _)) in H2 as (y & t9 & _ & -> & H2). by destruct H2.
    + destruct H2 as [-> H2]. injection H2 as ->. split; [|constructor]. by eapply impl_verdict.
Qed.

(** ** C71 *)
(** Whatever happens during a load call, the error it returns is the one that everything that happened asks for.  A call
    that returns no error has seen no failure, and one that panics has seen only that panic. *)
Theorem C71_what_failed_is_reported o h cur a t r ev :
  next_call o h cur (api_prog o a) t r -> ev ∈ t ->
  match r with
  | Err e => verdict o ev e
  | Val _ => ~ troubled ev
  | Pan x => troubled ev -> ev = EvNewExt (Pan x)
  end.
Proof.
  intros HN Hin. destruct r as [d|e|x].
  - destruct HN as (_ & _ & Hx & _). pose proof (clean_api o a t d Hx) as Hc. unfold clean in Hc. rewrite Forall_forall in Hc. by apply Hc.
  - destruct HN as (_ & _ & Hx & _). pose proof (api_verdict o a t e Hx) as Hc. rewrite Forall_forall in Hc. by apply Hc.
  - intros Htr. destruct (o_static o) as [st|] eqn:Hst.
    + destruct (next_static _ _ _ _ _ _ _ HN Hst) as [(data & tb & -> & -> & Hr)|(data & extra & _ & _ & Hr)]; [|done].
      inversion Hr as [mid dn y Hext Hy Ht Hx| | | |]; subst.
      repeat (apply elem_of_cons in Hin as [->|Hin]; [first [done|by destruct Htr]|]). by apply elem_of_nil in Hin.
    + destruct (next_dir _ _ _ _ _ _ HN Hst) as (tb & add & -> & Hr & Hadd).
      assert (add = []) as ->. { destruct a; [done|]. rewrite decide_False in Hadd; [done|by intros []]. }
      inversion Hr as [| |tp files tl r Hch Hne Hf Ht Hx]; subst. inversion Hf as [old mid dn y Hext Hy Ht Hx| | |]; subst.
      apply elem_of_cons in Hin as [->|Hin]; [by destruct Htr|]. rewrite !elem_of_app in Hin. destruct Hin as [[Hin|Hin]|[Hin|Hin]].
      * destruct Hch as (d1 & d2 & abs & es & found & -> & _). repeat (apply elem_of_cons in Hin as [->|Hin]; [by destruct Htr|]). by apply elem_of_nil in Hin.
      * repeat (apply elem_of_cons in Hin as [->|Hin]; [first [done|by destruct Htr]|]). by apply elem_of_nil in Hin.
      * by apply elem_of_nil in Hin.
      * apply elem_of_cons in Hin as [->|Hin]; [by destruct Htr|]. by apply elem_of_nil in Hin.
Qed.

(** The other direction: what code outside hotswap is blamed for did happen. *)
(** What an event raised: an error or a panic. *)
Definition call_raised (r : role) : outcome (role_resp r) -> option (gerror + gpanic) :=
  match r return outcome (role_resp r) -> option (gerror + gpanic) with
  | ROnLoad => fun x => match x with Val (Some e) => Some (inl e) | Pan y => Some (inr y) | _ => None end
  | ROnInit => fun x => match x with Val (_, Some e) => Some (inl e) | Pan y => Some (inr y) | _ => None end
  | ROnFree => fun _ => None
  | _ => fun x => match x with Pan y => Some (inr y) | _ => None end
  end.
Definition raised (ev : event) : option (gerror + gpanic) :=
  match ev with
  | EvStat _ (Err e) | EvAbs _ (Err e) | EvReadDir _ (Err e) | EvReadFile _ (Err e) | EvOpen _ (Err e) => Some (inl e)
  | EvMkdir _ (Some e) | EvWriteFile _ _ (Some e) | EvCallback _ _ _ (Val (Some e)) => Some (inl e)
  | EvOpen _ (Pan y) | EvCallback _ _ _ (Pan y) | EvNewExt (Pan y) => Some (inr y)
  | EvCall r _ _ x => call_raised r x
  | _ => None
  end.
(** What an error says was raised by code outside hotswap. *)
Fixpoint root (e : gerror) : option (gerror + gpanic) :=
  match e with
  | EOpaque n => Some (inl (EOpaque n))
  | EPanic _ (PUser n) => Some (inr (PUser n))
  | ELoad _ e => root e
  | _ => None
  end.

Definition root_of (f : option (gerror + gpanic)) : option (gerror + gpanic) :=
  match f with Some (inl e) => root e | Some (inr (PUser n)) => Some (inr (PUser n)) | _ => None end.
Definition grounded (t : list event) (f : option (gerror + gpanic)) : Prop :=
  forall z, root_of f = Some z -> exists ev, ev ∈ t /\ raised ev = Some z.
Definition pgrounded {A} (p : prog (outcome A)) : Prop := forall t r, exec p t r -> grounded t (fail r).
Definition sgrounded {A} (m : SM A) : Prop := forall s t s' r, exec (m s) t (s', r) -> grounded t (fail r).
Lemma grounded_in t1 t t2 f : grounded t f -> grounded (t1 ++ t ++ t2) f.
Proof. intros H z Hz. destruct (H z Hz) as (ev & Hin & Hr). exists ev. split; [|done]. rewrite !elem_of_app. auto. Qed.
Lemma grounded_one ev t f : raised ev = root_of f -> grounded (ev :: t) f.
Proof. intros H z Hz. exists ev. split; [by left|by rewrite H]. Qed.
Lemma sg_sbind {A B} (m : SM A) (f : A -> SM B) : sgrounded m -> (forall a, sgrounded (f a)) -> sgrounded (sbind m f).
Proof.
  intros Hm Hf s t s' r H. apply exec_sbind in H as [(t1 & t2 & s1 & a & -> & H1 & H2)|(o1 & H1 & Hr)].
  - apply Hf in H2. rewrite <- (app_nil_r t2). by apply grounded_in.
  - apply Hm in H1. by destruct o1 as [a|e|x], r as [b|e'|x']; simpl in Hr; subst; try done.
Qed.
Lemma sg_ret {A} (g : mgr -> mgr * outcome A) : (forall s, root_of (fail (snd (g s))) = None) -> sgrounded (fun s => Ret (g s)).
Proof. intros Hg s t s' r [-> H] z Hz. assert (r = snd (g s)) as -> by (by rewrite <- H). by rewrite Hg in Hz. Qed.
Lemma sg_sdo {X} (a : act X) : sgrounded (sdo a).
Proof. intros s t s' x H. apply (proj1 (exec_act _ _ _ _)) in H as (y & t' & Hv & -> & H). destruct H as [-> H]. injection H as _ ->. done. Qed.
Lemma sg_slift {A} (p : prog (outcome A)) : pgrounded p -> sgrounded (slift p).
Proof. intros Hp s t s' r H. apply exec_slift in H as [_ H]. by apply Hp. Qed.
Lemma sg_sfor {A} (l : list A) body : (forall x, x ∈ l -> sgrounded (body x)) -> sgrounded (sfor l body).
Proof.
  induction l as [|x l IH]; intros H; [by apply sg_ret|]. apply sg_sbind; [apply H; by left|]. intros _. apply IH. intros y Hy. apply H. by right.
Qed.
Ltac gstep :=
  lazymatch goal with
  | |- sgrounded (sbind _ _) => apply sg_sbind; [|intros ?]
  | |- sgrounded sget => by apply (sg_ret (fun s => (s, Val s)))
  | |- sgrounded (sret _) => by apply sg_ret
  | |- sgrounded (serr _) => by apply sg_ret
  | |- sgrounded (span _) => by apply sg_ret
  | |- sgrounded (smod _) => by apply sg_ret
  | |- sgrounded (spure _) => apply sg_ret
  | |- sgrounded (sdo _) => apply sg_sdo
  | |- sgrounded (slift _) => apply sg_slift
  | |- sgrounded (sfor _ _) => apply sg_sfor; intros ? ?
  | |- sgrounded (if ?b then _ else _) => destruct b
  | |- sgrounded (match ?b with _ => _ end) => destruct b
  end.
Lemma exec_call_fail r mid p arg t y : exec (call r mid p arg) t y ->
  (t = [] /\ y = Pan PNil) \/ exists c, t = [EvCall r (mkCallee mid (pl_name p) (pl_inst p) c) arg y] /\ valid_call r y.
Proof.
  unfold call. destruct (get_func r (pl_funcs p)) as [c|]; intros H; [|left; by destruct H as [-> ->]]. apply exec_do in H as [Hv ->]. right. by exists c.
Qed.
Lemma raised_pan r y : r <> ROnFree -> call_raised r (Pan y) = Some (inr y).
Proof. by destruct r. Qed.
Lemma valid_pan r y : valid_call r (Pan y) -> exists n, y = PUser n.
Proof. destruct r; intros H; exact H. Qed.
Lemma valid_err r e : ~ valid_call r (Err e).
Proof. destruct r; intros H; exact H. Qed.
Lemma pg_call r mid p arg : r <> ROnFree -> pgrounded (call r mid p arg).
Proof.
  intros Hr t y H. apply exec_call_fail in H as [[-> ->]|(c & -> & Hv)]; [done|]. destruct y as [v|e|y]; [done|by apply valid_err in Hv|].
  pose proof (valid_pan _ _ Hv) as [n ->]. apply grounded_one. cbn [raised fail root_of]. by apply raised_pan.
Qed.
Lemma pg_recovered {A} who (p : prog (outcome A)) : pgrounded p -> pgrounded (let* o := p in Ret (recovered who o)).
Proof.
  intros Hp t y H. apply exec_bind in H as (t1 & t2 & x & -> & H1 & H2). destruct H2 as [-> ->]. rewrite app_nil_r. apply Hp in H1. by destruct x as [v|e|[]].
Qed.
Lemma pg_lookup items : forall p l, pl_P p <> None -> pgrounded (lookupAll items p l).
Proof.
  induction items as [|r items IH]; intros p l Hp t y H; cbn [lookupAll] in H; [by destruct H as [_ ->]|].
  apply exec_bind in H as (t1 & t2 & x & -> & H1 & H2). destruct (pl_P p) as [h|] eqn:Hh; [|done].
  destruct (sym_value_lookup _ _ _ _ _ Hh H1) as (s & -> & Hs). destruct x as [v|e|x].
  - rewrite <- (app_nil_r t2). apply grounded_in. eapply IH; [|exact H2]. cbn. by rewrite Hh.
  - destruct s as [sym|]; [|injection Hs as ->; rewrite <- (app_nil_r t2); apply grounded_in; eapply IH; [|exact H2]; by rewrite Hh].
    destruct (sym_value r sym); [done|]. destruct Hs as [[= ->]|?]; [|done]. by destruct H2 as [-> ->].
  - destruct s as [sym|]; [|done]. destruct (sym_value r sym); [done|]. destruct Hs as [?|[= ->]]; [done|]. by destruct H2 as [-> ->].
Qed.
Lemma sg_admit p : sgrounded (admitPlugin p).
Proof. unfold admitPlugin. repeat gstep; unfold invokeReloadable, invokeExport; apply pg_recovered; [by apply (pg_call RReloadable)|by apply (pg_call RExport)]. Qed.
Lemma sg_act {X B} (a : act X) (k : X -> SM B) :
  (forall x s t s' r, valid a x -> exec (k x s) t (s', r) -> grounded (ev a x ++ t) (fail r)) -> sgrounded (sbind (sdo a) k).
Proof.
  intros Hk s t s' r H. apply exec_sbind in H as [(t1 & t2 & s1 & x & -> & H1 & H2)|(o1 & H1 & Hr)].
  - apply (proj1 (exec_act _ _ _ _)) in H1 as (y & t' & Hv & -> & H1). destruct H1 as [-> H1]. injection H1 as -> ->. rewrite app_nil_r. by eapply Hk.
  - apply (proj1 (exec_act _ _ _ _)) in H1 as (y & t' & Hv & -> & H1). destruct H1 as [-> H1]. injection H1 as _ ->. by destruct r.
Qed.
Lemma grounded_later ev t f : grounded t f -> grounded (ev :: t) f.
Proof. intros H. rewrite <- (app_nil_r t). by apply (grounded_in [ev]). Qed.
Lemma sg_copy i : sgrounded (copyPlugin i).
Proof.
  unfold copyPlugin. gstep; [gstep|]. apply sg_act. intros x s t s' r Hv H. destruct x as [e|].
  - destruct H as [-> H]. injection H as _ ->. apply grounded_one. destruct Hv as [n ->]. done.
  - apply grounded_later. revert s t s' r H. cbv zeta. change (sgrounded (let! e := sdo (AWriteFile (copy_dst (pm_dirName a) i) (fi_data i)) in
      match e with Some e => serr e | None => sret (copy_dst (pm_dirName a) i) end)).
    apply sg_act. intros x s t s' r Hv' H. destruct x as [e|]; destruct H as [-> H]; injection H as _ ->; [|done].
    apply grounded_one. destruct Hv' as [n ->]. done.
Qed.
Lemma sg_loadPlugin i : sgrounded (loadPlugin i).
Proof.
  destruct i as [i|]; cbn [loadPlugin]; [|gstep]. gstep; [apply sg_copy|]. gstep; [gstep|]. gstep; [gstep|]. gstep.
  { apply sg_slift. intros t y H. apply exec_do in H as [Hv ->]. destruct y as [v|e|y]; [done|..]; apply grounded_one; by destruct Hv as [n ->]. }
  cbv zeta. gstep; [apply sg_slift; by apply pg_lookup|]. destruct a3 as [p [|m ms]]; [apply sg_admit|gstep].
Qed.
Lemma sg_open i name : sgrounded (fun pm => bind (loadPlugin i pm) (fun so => Ret (fst so, open_outcome i name (snd so)))).
Proof.
  intros s t s' r H. apply exec_bind in H as (t1 & t2 & [s1 o1] & -> & H1 & H2). destruct H2 as [-> [= -> ->]]. rewrite app_nil_r. cbn [snd].
  apply sg_loadPlugin in H1. destruct o1 as [u|e|x]; cbn [open_outcome]; [done|exact H1|]. destruct i; [|exact H1]. by destruct x.
Qed.
Lemma check_root m fuel : forall visited k, root_of (fail (checkCyclic m fuel visited k)) = None.
Proof.
  induction fuel as [|fuel IH]; intros visited k; [done|]. cbn [checkCyclic].
  destruct (decide (k ∈ visited)); [done|]. destruct (m !! k) as [p|]; [|done].
  induction (pl_deps p) as [|d deps IHd]; [done|]. cbn [cyc_deps]. pose proof (IH ({[k]} ∪ visited) (name2key d)) as Hr.
  destruct (checkCyclic m fuel ({[k]} ∪ visited) (name2key d)) as [[|x l]|e|x]; [exact IHd|done|exact Hr..].
Qed.
Lemma sg_initDeps : sgrounded initDeps.
Proof.
  unfold initDeps, initPlugin, checkOne, checkRebuilt, orderPlugins, initField. repeat gstep.
  - apply pg_recovered. by apply (pg_call RImport).
  - intros ?. apply check_root.
Qed.
Lemma sg_call_err {B} r mid p arg (k : role_resp r -> SM B) : r <> ROnFree ->
  (forall v s t s' x, valid_call r (Val v) -> exec (k v s) t (s', x) -> grounded t (fail x) \/ root_of (fail x) = call_raised r (Val v)) ->
  sgrounded (sbind (slift (let* o := call r mid p arg in Ret (recovered (pl_name p) o))) k).
Proof.
  intros Hr Hk s t s' x H. apply exec_sbind in H as [(t1 & t2 & s1 & a & -> & H1 & H2)|(o1 & H1 & Hf)].
  - apply exec_slift in H1 as [-> H1]. apply exec_recovered_val in H1. apply exec_call_fail in H1 as [[_ ?]|(c & -> & Hv)]; [done|].
    apply (Hk _ _ _ _ _ Hv) in H2 as [H2|H2]; [by apply grounded_later|by apply grounded_one].
  - apply exec_slift in H1 as [_ H1]. apply (pg_recovered _ _ (pg_call r mid p arg Hr)) in H1. by destruct o1 as [a|e|y], x as [b|e'|x']; simpl in Hf; subst; try done.
Qed.
Lemma sg_onLoad data : sgrounded (invokeEveryOnLoad data).
Proof.
  unfold invokeEveryOnLoad, onLoadOne. repeat (lazymatch goal with |- sgrounded (sbind (slift _) _) => fail | |- sgrounded _ => gstep end).
  apply (sg_call_err ROnLoad); [done|]. intros v s t s' y Hv H'. destruct v as [e|]; destruct H' as [-> H']; injection H' as _ ->; [right|by left]. by destruct Hv as [n ->].
Qed.
Lemma sg_onInit : sgrounded invokeEveryOnInit.
Proof.
  unfold invokeEveryOnInit, onInitOne. repeat (lazymatch goal with |- sgrounded (sbind (slift _) _) => fail | |- sgrounded _ => gstep end).
  apply (sg_call_err ROnInit); [done|]. intros [w v] s t s' y Hv H'. destruct v as [e|]; destruct H' as [-> H']; injection H' as _ ->; [right|by left]. by destruct Hv as [n ->].
Qed.
Lemma pg_findF mid earlier name : pgrounded (findAnother RLiveFuncs mid (fun q => call RLiveFuncs mid q ArgNone) earlier name).
Proof.
  induction earlier as [|q earlier IH]; intros t x H; [by destruct H as [-> ->]|]. cbn [findAnother] in H.
  apply exec_bind in H as (t1 & t2 & y & -> & H1 & H2). apply (pg_call RLiveFuncs) in H1; [|done].
  destruct y as [[l|]|e|z]; [|rewrite <- (app_nil_r t2); apply grounded_in; by apply IH|destruct H2 as [-> ->]; rewrite app_nil_r; exact H1..].
  case_bool_decide; [by destruct H2 as [-> ->]|]. rewrite <- (app_nil_r t2). apply grounded_in. by apply IH.
Qed.
Lemma sg_addF p l : forall earlier, sgrounded (addLiveFuncs earlier p l).
Proof.
  induction l as [|[n v] l IH]; intros earlier; cbn [addLiveFuncs]; [gstep|]. gstep; [gstep|]. destruct (pm_livefuncs a !! n); [|gstep; [gstep|apply IH]].
  gstep; [apply sg_slift, pg_findF|gstep].
Qed.
Lemma sg_vaultFuncs rest : forall earlier, sgrounded (vaultFuncs earlier rest).
Proof.
  induction rest as [|p rest IH]; intros earlier; cbn [vaultFuncs]; [gstep|]. gstep; [gstep|]. gstep; [apply sg_slift; by apply (pg_call RLiveFuncs)|].
  match goal with |- sgrounded (match ?b with _ => _ end) => destruct b end; [|gstep]. gstep; [apply sg_addF|apply IH].
Qed.
Lemma pg_findT mid earlier name : pgrounded (findAnother RLiveTypes mid (fun q => call RLiveTypes mid q ArgNone) earlier name).
Proof.
  induction earlier as [|q earlier IH]; intros t x H; [by destruct H as [-> ->]|]. cbn [findAnother] in H.
  apply exec_bind in H as (t1 & t2 & y & -> & H1 & H2). apply (pg_call RLiveTypes) in H1; [|done].
  destruct y as [[l|]|e|z]; [|rewrite <- (app_nil_r t2); apply grounded_in; by apply IH|destruct H2 as [-> ->]; rewrite app_nil_r; exact H1..].
  case_bool_decide; [by destruct H2 as [-> ->]|]. rewrite <- (app_nil_r t2). apply grounded_in. by apply IH.
Qed.
Lemma sg_addT p l : forall earlier, sgrounded (addLiveTypes earlier p l).
Proof.
  induction l as [|[n v] l IH]; intros earlier; cbn [addLiveTypes]; [gstep|]. gstep; [gstep|]. destruct (pm_livetypes a !! n); [|gstep; [gstep|apply IH]].
  gstep; [apply sg_slift, pg_findT|gstep].
Qed.
Lemma sg_vaultTypes rest : forall earlier, sgrounded (vaultTypes earlier rest).
Proof.
  induction rest as [|p rest IH]; intros earlier; cbn [vaultTypes]; [gstep|]. gstep; [gstep|]. gstep; [apply sg_slift; by apply (pg_call RLiveTypes)|].
  match goal with |- sgrounded (match ?b with _ => _ end) => destruct b end; [|gstep]. gstep; [apply sg_addT|apply IH].
Qed.

Lemma sg_lifecycle data : sgrounded (let! _ := initDeps in let! _ := invokeEveryOnLoad data in let! _ := setupVault in invokeEveryOnInit).
Proof.
  gstep; [apply sg_initDeps|]. gstep; [apply sg_onLoad|]. gstep; [|apply sg_onInit]. unfold setupVault. gstep; [gstep|]. cbv zeta. gstep; [apply sg_vaultFuncs|apply sg_vaultTypes].
Qed.
Lemma pg_build files : forall m, pgrounded (buildFileInfoMap files m).
Proof.
  induction files as [|f files IH]; intros m t r H; cbn [buildFileInfoMap] in H; [by destruct H as [-> ->]|].
  rewrite bind_do in H. apply (proj1 (exec_act _ _ _ _)) in H as (x & t' & Hv & -> & H). destruct x as [d|e|x]; [|destruct H as [-> ->]|by destruct Hv].
  - apply grounded_later. by eapply IH.
  - apply grounded_one. by destruct Hv as [n ->].
Qed.
Lemma sg_body files old data : sgrounded (loadPlugins_body files old data).
Proof.
  unfold loadPlugins_body, addUnchanged. gstep; [gstep|]. gstep; [gstep|]. gstep; [gstep|]. gstep; [|gstep]. gstep; [apply sg_slift, pg_build|].
  cbv zeta. gstep; [gstep|]. gstep; [repeat gstep|]. gstep; [gstep|]. gstep; [repeat gstep|]. gstep; [gstep|]. gstep; [gstep|].
  gstep; [unfold outputStats1; repeat gstep|]. gstep; [gstep|]. gstep; [gstep|]. gstep; [|apply sg_lifecycle].
  apply sg_sfor. intros name Hin. apply sg_open.
Qed.
Lemma sg_static sel data : sgrounded (loadStaticPlugins_body sel data).
Proof.
  unfold loadStaticPlugins_body. gstep; [gstep|]. gstep; [gstep|]. gstep; [gstep|]. gstep; [gstep|]. gstep; [|apply sg_lifecycle].
  apply sg_sfor. intros name _ s t s' r H. apply exec_bind in H as (t1 & t2 & [s1 o1] & -> & H1 & H2).
  assert (Hs : sgrounded (loadStaticPlugin (default None (sel !! name)))).
  { unfold loadStaticPlugin. gstep; [gstep|]. gstep; [gstep|]. destruct (default None (sel !! name)); [|gstep]. cbv zeta. destruct (missing_funcs _); [apply sg_admit|gstep]. }
  apply Hs in H1. cbn [snd fst] in H2. assert (t2 = [] /\ r = match o1 with Err e => Err (ELoad name e) | o => o end) as [-> ->].
  { destruct o1; destruct H2 as [-> H2]; by injection H2 as _ ->. }
  rewrite app_nil_r. by destruct o1.
Qed.
Lemma cleanup_grounded body s t s' e : sgrounded body -> exec (with_cleanup body s) t (s', Err e) -> grounded t (Some (inl e)).
Proof.
  intros Hb H. unfold with_cleanup in H. apply exec_bind in H as (t1 & t2 & [s1 o1] & -> & H1 & H2). apply Hb in H1. cbn [snd fst] in H2.
  destruct o1 as [u|e1|x]; [by destruct H2|..]; apply exec_bind in H2 as (t3 & t4 & c & -> & H3 & H4); destruct c as [c|c|c]; try (by destruct H4);
    destruct H4 as [-> H4]; injection H4 as -> ->; apply (grounded_in []); [done|done|by destruct x..].
Qed.
Lemma callbacks_grounded cbs new old : forall t e, exec (invokeReloadCallbacks cbs new old) t (Err e) -> grounded t (Some (inl e)).
Proof.
  induction cbs as [|[cb|] cbs IH]; intros t e H; [by destruct H| |by apply IH]. cbn [invokeReloadCallbacks] in H.
  rewrite bind_do in H. apply (proj1 (exec_act _ _ _ _)) in H as (x & t' & Hv & -> & H). cbv zeta in H.
  destruct x as [[e0|]|e0|y]; [| |by destruct Hv|].
  - apply exec_bind in H as (t1 & t2 & c & -> & H1 & H2). apply grounded_one. destruct Hv as [n ->]. destruct c; try (by destruct H2); destruct H2 as [_ H2]; by injection H2 as ->.
  - apply grounded_later. by apply IH.
  - apply exec_bind in H as (t1 & t2 & c & -> & H1 & H2). apply grounded_one. destruct Hv as [n ->]. destruct c; try (by destruct H2); destruct H2 as [_ H2]; by injection H2 as ->.
Qed.
Lemma files_grounded o files data cbs t e : exec (loadPluginFiles o files data cbs) t (Err e) -> grounded t (Some (inl e)).
Proof.
  unfold loadPluginFiles. destruct files as [|f files]; intros H; [by destruct H|].
  set (fs := f :: files) in *. unfold Current in H. rewrite bind_do in H. apply (proj1 (exec_act _ _ _ _)) in H as (old & t' & _ & -> & H).
  apply grounded_later. change (grounded t' (Some (inl e))).
  apply exec_bind in H as (t1 & t2 & n & -> & H1 & H2). destruct n as [m|e1|x]; [| |by destruct H2].
  2:{ apply exec_newPluginManager in H1 as (mid & dn & te & -> & [(s & ? & _)|(x & ? & _)]); done. }
  rewrite <- (app_nil_r t2). apply grounded_in. clear H1.
  apply exec_bind in H2 as (t3 & t4 & [s1 u] & -> & H3 & H4). cbv zeta in H4. cbn [fst snd] in H4. destruct u as [u|e1|x]; [| |by destruct H4].
  2:{ destruct H4 as [-> H4]. injection H4 as ->. apply (grounded_in []). eapply cleanup_grounded; [apply (sg_body fs old data)|exact H3]. }
  rewrite <- (app_nil_r t4). apply grounded_in. clear H3.
  apply exec_bind in H4 as (t5 & t6 & c & -> & H5 & H6). destruct c as [c|e1|x]; [| |by destruct H6].
  2:{ destruct H6 as [-> H6]. injection H6 as ->. apply (grounded_in []). by eapply callbacks_grounded. }
  exfalso. destruct (buildDetails s1 fs ∅) as [d|e1|x] eqn:Hd; [| |by destruct H6].
  - apply exec_bind in H6 as (t7 & t8 & [] & -> & H7 & H8). rewrite bind_do in H8. apply (proj1 (exec_act _ _ _ _)) in H8 as (y & t9 & _ & -> & H8). by destruct H8.
  - clear -Hd. revert Hd. generalize (∅ : Details). induction fs as [|g fs IH]; intros acc; cbn [buildDetails]; [done|]. destruct (FindPlugin s1 _); [apply IH|done].
Qed.
Lemma impl_grounded o data cbs t e : exec (loadPluginsImpl o data cbs) t (Err e) -> grounded t (Some (inl e)).
Proof.
  intros H. unfold loadPluginsImpl in H. rewrite bind_do in H. apply (proj1 (exec_act _ _ _ _)) in H as (d1 & t' & _ & -> & H).
  apply grounded_later. change (grounded t' (Some (inl e))).
  apply exec_bind in H as (t1 & t2 & r1 & -> & H1 & H2).
  unfold FindDirectory in H1. destruct (blank d1). { destruct H1 as [-> ->]. destruct H2 as [-> H2]. by injection H2 as ->. }
  rewrite bind_do in H1. apply (proj1 (exec_act _ _ _ _)) in H1 as (x & t3 & Hv & -> & H1).
  destruct x as [b|e0|x]; [|destruct H1 as [-> ->]; destruct H2 as [-> H2]; injection H2 as ->; apply grounded_one; by destruct Hv as [n ->]|by destruct Hv].
  destruct b; [|destruct H1 as [-> ->]; destruct H2 as [-> H2]; by injection H2 as ->]. destruct H1 as [-> ->]. rewrite <- (app_nil_r t2). apply grounded_in. 
  rewrite bind_do in H2. apply (proj1 (exec_act _ _ _ _)) in H2 as (d2 & t4 & _ & -> & H2). apply grounded_later. change (grounded t4 (Some (inl e))).
  rewrite bind_do in H2. apply (proj1 (exec_act _ _ _ _)) in H2 as (abs & t5 & Hv2 & -> & H2).
  destruct abs as [abs|e0|x]; [|destruct H2 as [-> H2]; injection H2 as ->; apply grounded_one; by destruct Hv2 as [n ->]|by destruct H2].
  apply grounded_later. change (grounded t5 (Some (inl e))).
  rewrite bind_do in H2. apply (proj1 (exec_act _ _ _ _)) in H2 as (es & t6 & Hv3 & -> & H2).
  destruct es as [es|e0|x]; [|destruct H2 as [-> H2]; injection H2 as ->; apply grounded_one; by destruct Hv3 as [n ->]|by destruct H2].
  apply grounded_later. change (grounded t6 (Some (inl e))). destruct (selectFiles _ abs es) as [files found]. destruct (negb _); [destruct H2 as [-> H2]; by injection H2 as ->|].
  by eapply files_grounded.
Qed.
Lemma static_grounded o st data cbs t e : exec (swLoadStaticPlugins o st data cbs) t (Err e) -> grounded t (Some (inl e)).
Proof.
  intros H. unfold swLoadStaticPlugins in H.
  apply exec_bind in H as (t1 & t2 & n & -> & H1 & H2). destruct n as [m|e1|x]; [| |by destruct H2].
  2:{ apply exec_newPluginManager in H1 as (mid & dn & te & -> & [(s & ? & _)|(x & ? & _)]); done. }
  rewrite <- (app_nil_r t2). apply grounded_in. clear H1.
  assert (Hsel : forall e1, match o_whitelist o with [] => Val st | wl => selectStatic st wl ∅ end = Err e1 -> root e1 = None).
  { intros e1 Hs. destruct (o_whitelist o) as [|w wl]; [done|]. pose proof (selectStatic_spec st (w :: wl) ∅) as Hsp. rewrite Hs in Hsp. by destruct Hsp as (name & _ & _ & -> & _). }
  destruct (match o_whitelist o with [] => _ | _ => _ end) as [sel|e1|x]; [|destruct H2 as [-> H2]; injection H2 as ->; intros z Hz; cbn in Hz; by rewrite (Hsel _ eq_refl) in Hz|by destruct H2].
  apply exec_bind in H2 as (t3 & t4 & [s1 u] & -> & H3 & H4). cbv zeta in H4. cbn [fst snd] in H4. destruct u as [u|e1|x]; [| |by destruct H4].
  2:{ destruct H4 as [-> H4]. injection H4 as ->. apply (grounded_in []). eapply cleanup_grounded; [apply (sg_static sel data)|exact H3]. }
  rewrite <- (app_nil_r t4). apply grounded_in. clear H3.
  apply exec_bind in H4 as (t5 & t6 & c & -> & H5 & H6). destruct c as [c|e1|x]; [| |by destruct H6].
  - rewrite bind_do in H6. apply (proj1 (exec_act _ _ _ _)) in H6 as (y & t9 & _ & -> & H6). by destruct H6.
  - destruct H6 as [-> H6]. injection H6 as ->. apply (grounded_in []). by eapply callbacks_grounded.
Qed.
(** An error that speaks of code outside hotswap - the operating system, plugin.Open, a plugin function, a reload
    callback - repeats what such code raised during the call. *)
Theorem C71_what_is_reported_happened o h cur a t e z :
  next_call o h cur (api_prog o a) t (Err e) -> root e = Some z -> exists ev, ev ∈ t /\ raised ev = Some z.
Proof.
  intros (_ & _ & H & _). revert z. change (grounded t (Some (inl e))). destruct a as [data|data extra]; simpl api_prog in H.
  - apply exec_locked in H as (tb & -> & H). apply (grounded_in [_]). destruct (o_static o) eqn:Hst; [by eapply static_grounded|by eapply impl_grounded].
  - unfold ReloadWithCallback in H. destruct (o_static o) eqn:Hst; [destruct H as [-> H]; by injection H as ->|].
    apply exec_locked in H as (tb & -> & H). apply (grounded_in [_]).
    cbv zeta in H. apply exec_bind in H as (t1 & t2 & r & -> & H1 & H2). destruct r as [r|e1|x]; [| |by destruct H2].
    + rewrite bind_do in H2. apply (proj1 (exec_act _ _ _ _)) in H2 as (y & t9 & _ & -> & H2). by destruct H2.
    + destruct H2 as [-> H2]. injection H2 as ->. apply (grounded_in []). by eapply impl_grounded.
Qed.
End Props.

(** ** Concrete cases *)
Local Open Scope N_scope.
Local Open Scope string_scope.
(** plugin.Open panics for the copy of b *)
Definition world_open (f : string -> outcome handle) (w : demo_world) : demo_world :=
  mkDemo (d_cur w) (d_dir w) (d_listing w) (d_content w) (d_mid w) (d_call w) (d_cb w) (d_ext w) (d_sym w) f.
Definition on_b (o : outcome handle) (f : string) : outcome handle := if has_prefix "b-" (path_base f) then o else Val 5.
Definition world_openpan : demo_world := world_open (on_b (Pan (PUser 9))) world0.
Definition world_openerr : demo_world := world_open (on_b (Err (EOpaque 21))) world0.
Lemma world_openpan_ok : demo_ok world_openpan.
Proof. split_and!; try done; [apply world_listing|intros; apply good_call_valid|]. intros f. cbn. unfold on_b. destruct (has_prefix _ _); [by exists 9|done]. Qed.
Lemma world_openerr_ok : demo_ok world_openerr.
Proof. split_and!; try done; [apply world_listing|intros; apply good_call_valid|]. intros f. cbn. unfold on_b. destruct (has_prefix _ _); [by exists 21|done]. Qed.
Definition t_openpan := fst (demo_run 0 world_openpan dyn (Call_LoadPlugins 1)).
Definition t_openerr := fst (demo_run 0 world_openerr dyn (Call_LoadPlugins 1)).
Definition opened_badly (ev : event) : bool := match ev with EvOpen _ (Pan _) | EvOpen _ (Err _) => true | _ => false end.
Example C71_open_case :
  next_call dyn [] None (api_prog dyn (Call_LoadPlugins 1)) t_openpan (Err (EPanic (Some "b") (PUser 9))) /\
  next_call dyn [] None (api_prog dyn (Call_LoadPlugins 1)) t_openerr (Err (ELoad "b" (EOpaque 21))) /\
  existsb opened_badly t_openpan = true /\ existsb opened_badly t_openerr = true /\
  root (EPanic (Some "b") (PUser 9)) = Some (inr (PUser 9)) /\ root (ELoad "b" (EOpaque 21)) = Some (inl (EOpaque 21)).
Proof. split_and!; [apply demo_first; [done|apply world_openpan_ok|vm_compute; reflexivity]|apply demo_first; [done|apply world_openerr_ok|vm_compute; reflexivity]|vm_compute; reflexivity..]. Qed.
(** The panicking OnInit, the failing OnLoad and the panicking reload callback of earlier files are cases, too; here the
    theorem tells what the error must have been. *)
Example C71_oninit_case e : next_call dyn [] None (api_prog dyn (Call_LoadPlugins 1)) t_oninit (Err e) -> e = EPanic (Some "c") (PUser 7).
Proof. intros H. exact (C71_what_failed_is_reported _ _ _ _ _ _ _ H (proj1 (proj2 C06_C07_C08_case))). Qed.
Example C71_escape_case : next_call dyn_ext [] None (api_prog dyn_ext (Call_LoadPlugins 1)) (fst (demo_run 0 world_badext dyn_ext (Call_LoadPlugins 1))) (Pan (PUser 8)) /\
  existsb (fun ev => match ev with EvNewExt (Pan (PUser 8)) => true | _ => false end) (fst (demo_run 0 world_badext dyn_ext (Call_LoadPlugins 1))) = true.
Proof. split; [apply C06_escape_case|vm_compute; reflexivity]. Qed.

Print Assumptions C71_what_failed_is_reported.
Print Assumptions C71_what_is_reported_happened.
