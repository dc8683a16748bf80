(** A load that succeeds has seen no failure at all *)
From Verif Require Export StageProofs.

Section Proofs.
Context {E : GoEnv}.

Definition clean (t : list event) : Prop := Forall (fun e => ~ troubled e) t.
Definition pclean {A} (p : prog (outcome A)) : Prop := forall t a, exec p t (Val a) -> clean t.
Definition sclean {A} (m : SM A) : Prop := forall s t s' a, exec (m s) t (s', Val a) -> clean t.
Definition cleanp {A} (p : prog A) : Prop := forall t a, exec p t a -> clean t.

Lemma clean_app t1 t2 : clean t1 -> clean t2 -> clean (t1 ++ t2).
Proof. apply Forall_app_2. Qed.
Lemma clean_nil : clean [].
Proof. constructor. Qed.
Lemma clean_one e : ~ troubled e -> clean [e].
Proof. intros H. by repeat constructor. Qed.

Lemma sclean_sbind {A B} (m : SM A) (f : A -> SM B) : sclean m -> (forall a, sclean (f a)) -> sclean (sbind m f).
Proof. intros Hm Hf s t s' b H. apply exec_sbind_val in H as (t1 & t2 & s1 & a & -> & H1 & H2). apply clean_app; [by eapply Hm|by eapply Hf]. Qed.
Lemma sclean_ret {A} (o : mgr -> mgr * outcome A) : sclean (fun s => Ret (o s)).
Proof. intros s t s' a [-> _]. apply clean_nil. Qed.
Lemma sclean_sdo {X} (a : act X) : (forall x, valid a x -> clean (ev a x)) -> sclean (sdo a).
Proof. intros Ha s t s' x H. apply (proj1 (exec_act _ _ _ _)) in H as (y & t' & Hv & -> & H). destruct H as [-> _]. rewrite app_nil_r. by apply Ha. Qed.
Lemma sclean_slift {A} (p : prog (outcome A)) : pclean p -> sclean (slift p).
Proof. intros Hp s t s' a H. apply exec_slift in H as [_ H]. by eapply Hp. Qed.
Lemma sclean_sfor {A} (l : list A) body : (forall x, sclean (body x)) -> sclean (sfor l body).
Proof. intros H. induction l as [|x l IH]; [apply sclean_ret|]. apply sclean_sbind; [done|]. intros _. exact IH. Qed.

Ltac clean_step :=
  lazymatch goal with
  | |- sclean (sbind _ _) => apply sclean_sbind; [|intros ?]
  | |- sclean sget => apply (sclean_ret (fun s => (s, Val s)))
  | |- sclean (sret _) => apply sclean_ret
  | |- sclean (serr _) => apply sclean_ret
  | |- sclean (span _) => apply sclean_ret
  | |- sclean (smod _) => apply sclean_ret
  | |- sclean (spure _) => apply sclean_ret
  | |- sclean (sdo _) => apply sclean_sdo; intros ? ?; first [apply clean_nil | apply clean_one; by intros []]
  | |- sclean (slift _) => apply sclean_slift
  | |- sclean (sfor _ _) => apply sclean_sfor; intros ?
  | |- sclean (if ?b then _ else _) => destruct b
  | |- sclean (match ?b with _ => _ end) => destruct b
  end.

Lemma exec_call_val r mid p arg t x : exec (call r mid p arg) t (Val x) ->
  exists c, get_func r (pl_funcs p) = Some c /\ t = [EvCall r (mkCallee mid (pl_name p) (pl_inst p) c) arg (Val x)].
Proof.
  unfold call. destruct (get_func r (pl_funcs p)) as [c|]; intros H; [|by destruct H].
  apply exec_do in H as [_ ->]. by exists c.
Qed.
Lemma exec_recovered_val {A} (p : prog (outcome A)) who t (x : A) :
  exec (let* o := p in Ret (recovered who o)) t (Val x) -> exec p t (Val x).
Proof.
  intros H. apply exec_bind in H as (t1 & t2 & o & -> & H1 & H2). destruct H2 as [-> H2]. rewrite app_nil_r.
  destruct o; try discriminate H2. by injection H2 as <-.
Qed.
Lemma pclean_import mid p : pclean (invokeImport mid p).
Proof. intros t a H. apply exec_recovered_val, (exec_call_val RImport) in H as (c & _ & ->). apply clean_one. by intros []. Qed.
Lemma pclean_export mid p : pclean (invokeExport mid p).
Proof. intros t a H. apply exec_recovered_val, (exec_call_val RExport) in H as (c & _ & ->). apply clean_one. by intros []. Qed.
Lemma pclean_reloadable mid p : pclean (invokeReloadable mid p).
Proof. intros t a H. apply exec_recovered_val, (exec_call_val RReloadable) in H as (c & _ & ->). apply clean_one. by intros []. Qed.

Lemma sclean_admit p : sclean (admitPlugin p).
Proof. unfold admitPlugin. repeat clean_step; [apply pclean_reloadable|apply pclean_export]. Qed.

Lemma sclean_loadPlugin i : sclean (loadPlugin i).
Proof.
  intros s t s' a H. apply exec_loadPlugin in H as [(j & p & h & ans & c1 & c2 & -> & _ & _ & _ & _ & Hans & _ & _ & ->)|(_ & Hno & _)]; [|by destruct Hno].
  unfold open_trace. apply clean_app; [|apply clean_app].
  - repeat (apply Forall_cons_2; [by intros []|]). apply clean_nil.
  - apply Forall_forall. intros e [r [-> _]]%elem_of_list_fmap. destruct (Hans r) as (sym & v & -> & _). by intros [].
  - repeat (apply Forall_cons_2; [by intros []|]). apply clean_nil.
Qed.

Lemma sclean_initField k f : sclean (initField k f).
Proof. unfold initField. repeat clean_step. Qed.
Lemma sclean_initDeps : sclean initDeps.
Proof.
  unfold initDeps, initPlugin, checkOne, checkRebuilt, orderPlugins. repeat clean_step; try apply sclean_initField. apply pclean_import.
Qed.
Lemma sclean_onLoad data : sclean (invokeEveryOnLoad data).
Proof.
  unfold invokeEveryOnLoad, onLoadOne. clean_step; [clean_step|]. clean_step. clean_step; [clean_step|]. clean_step; [|clean_step]. clean_step; [clean_step|].
  intros s t s' b H. apply exec_sbind_val in H as (t1 & t2 & s1 & e & -> & H1 & H2). apply exec_slift in H1 as [-> H1].
  apply exec_recovered_val, (exec_call_val ROnLoad) in H1 as (c & _ & ->). destruct e as [e|]; [by destruct H2|]. destruct H2 as [-> _]. apply clean_one. by intros [].
Qed.
Lemma sclean_onInit : sclean invokeEveryOnInit.
Proof.
  unfold invokeEveryOnInit, onInitOne. clean_step; [clean_step|]. clean_step. clean_step; [clean_step|]. clean_step; [|clean_step]. clean_step; [clean_step|].
  intros s t s' b H. apply exec_sbind_val in H as (t1 & t2 & s1 & we & -> & H1 & H2). apply exec_slift in H1 as [-> H1].
  apply exec_recovered_val, (exec_call_val ROnInit) in H1 as (c & _ & ->). destruct we as [w e]. xinv H2. destruct e as [e|]; [by destruct H2|]. destruct H2 as [-> _]. apply clean_one. by intros [].
Qed.
Lemma clean_addF earlier p l : sclean (addLiveFuncs earlier p l).
Proof.
  induction l as [|[n v] l IH]; [apply sclean_ret|]. cbn [addLiveFuncs]. clean_step; [clean_step|]. clean_step.
  - intros s t s' b H. apply exec_sbind_val in H as (? & ? & ? & ? & _ & _ & H2). by destruct H2.
  - clean_step; [clean_step|exact IH].
Qed.
Lemma clean_addT earlier p l : sclean (addLiveTypes earlier p l).
Proof.
  induction l as [|[n v] l IH]; [apply sclean_ret|]. cbn [addLiveTypes]. clean_step; [clean_step|]. clean_step.
  - intros s t s' b H. apply exec_sbind_val in H as (? & ? & ? & ? & _ & _ & H2). by destruct H2.
  - clean_step; [clean_step|exact IH].
Qed.
Lemma sclean_vaultF rest : forall earlier, sclean (vaultFuncs earlier rest).
Proof.
  induction rest as [|p rest IH]; intros earlier; [apply sclean_ret|]. cbn [vaultFuncs]. clean_step; [clean_step|].
  intros s t s' b H. apply exec_sbind_val in H as (t1 & t2 & s1 & e & -> & H1 & H2). apply exec_slift in H1 as [-> H1].
  apply (exec_call_val RLiveFuncs) in H1 as (c & _ & ->). destruct e as [e|]; [|by destruct H2]. apply clean_app; [apply clean_one; by intros []|].
  revert H2. apply (sclean_sbind _ _ (clean_addF _ _ _) (fun _ => IH _)).
Qed.
Lemma sclean_vaultT rest : forall earlier, sclean (vaultTypes earlier rest).
Proof.
  induction rest as [|p rest IH]; intros earlier; [apply sclean_ret|]. cbn [vaultTypes]. clean_step; [clean_step|].
  intros s t s' b H. apply exec_sbind_val in H as (t1 & t2 & s1 & e & -> & H1 & H2). apply exec_slift in H1 as [-> H1].
  apply (exec_call_val RLiveTypes) in H1 as (c & _ & ->). destruct e as [e|]; [|by destruct H2]. apply clean_app; [apply clean_one; by intros []|].
  revert H2. apply (sclean_sbind _ _ (clean_addT _ _ _) (fun _ => IH _)).
Qed.
Lemma sclean_vault : sclean setupVault.
Proof. unfold setupVault. clean_step; [clean_step|]. clean_step; [apply sclean_vaultF|apply sclean_vaultT]. Qed.

Lemma clean_build files : forall m, pclean (buildFileInfoMap files m).
Proof.
  induction files as [|f files IH]; intros m t a H; [destruct H as [-> _]; apply clean_nil|]. cbn [buildFileInfoMap] in H. rewrite bind_do in H.
  apply (proj1 (exec_act _ _ _ _)) in H as (x & t' & _ & -> & H). destruct x as [d|e|x]; [|by destruct H|by destruct H].
  apply (clean_app [_]); [apply clean_one; by intros []|by eapply IH].
Qed.
Lemma sclean_wrap i name : sclean (fun pm => bind (loadPlugin i pm) (fun so => Ret (fst so, open_outcome i name (snd so)))).
Proof.
  intros s t s' a H. apply exec_bind in H as (t1 & t2 & [s1 o] & -> & H1 & H2). destruct o as [u|e|x]; [|by destruct H2|by destruct i; destruct H2].
  destruct H2 as [-> _]. rewrite app_nil_r. by eapply sclean_loadPlugin.
Qed.
Lemma sclean_load files old data : sclean (loadPlugins_body files old data).
Proof.
  unfold loadPlugins_body, addUnchanged, outputStats1. repeat first [clean_step|cbv zeta].
  all: try first [apply clean_build | apply sclean_wrap | apply sclean_initDeps | apply sclean_onLoad | apply sclean_vault | apply sclean_onInit].
Qed.
Lemma sclean_loadStatic sp : sclean (loadStaticPlugin sp).
Proof. unfold loadStaticPlugin. repeat first [clean_step | cbv zeta]. apply sclean_admit. Qed.
Lemma sclean_static st data : sclean (loadStaticPlugins_body st data).
Proof.
  unfold loadStaticPlugins_body. repeat clean_step.
  all: try first [apply sclean_initDeps | apply sclean_onLoad | apply sclean_vault | apply sclean_onInit].
  intros s t s' a' H. apply exec_bind in H as (t1 & t2 & [s1 o] & -> & H1 & H2). destruct o as [u|e|y]; [|by destruct H2|by destruct H2].
  destruct H2 as [-> _]. rewrite app_nil_r. by eapply sclean_loadStatic.
Qed.
Lemma sclean_cleanup body : sclean body -> sclean (with_cleanup body).
Proof.
  intros Hb s t s' a H. unfold with_cleanup in H. apply exec_bind in H as (t1 & t2 & [s1 o] & -> & H1 & H2). destruct o as [u|e|x]; simpl in H2.
  - destruct H2 as [-> _]. rewrite app_nil_r. by eapply Hb.
  - apply exec_bind in H2 as (t3 & t4 & c & -> & _ & H4). destruct c; by destruct H4.
  - apply exec_bind in H2 as (t3 & t4 & c & -> & _ & H4). destruct c; by destruct H4.
Qed.
Lemma clean_callbacks cbs new old : pclean (invokeReloadCallbacks cbs new old).
Proof.
  induction cbs as [|[cb|] cbs IH]; intros t a H; [destruct H as [-> _]; apply clean_nil| |by eapply IH].
  cbn [invokeReloadCallbacks] in H. rewrite bind_do in H. apply (proj1 (exec_act _ _ _ _)) in H as (x & t' & _ & -> & H).
  destruct x as [[e|]|e|x]; cbv zeta in H.
  1,3,4: apply exec_bind in H as (t3 & t4 & c & -> & _ & H4); destruct c; by destruct H4.
  apply (clean_app [_]); [apply clean_one; by intros []|by eapply IH].
Qed.
Lemma clean_newMgr b : pclean (newPluginManager b).
Proof.
  intros t m H. apply exec_newPluginManager in H as (mid & dn & te & -> & [(s & Hs & _ & _ & _ & Hc)|(x & Hx & _)]); [|done].
  apply Forall_cons_2; [by intros []|]. destruct Hc as [(_ & -> & _)|(_ & ->)]; [apply clean_nil|apply clean_one; by intros []].
Qed.

Lemma clean_files o files data cbs : pclean (loadPluginFiles o files data cbs).
Proof.
  unfold loadPluginFiles. destruct files as [|f files]; intros t a H; [destruct H as [-> _]; apply clean_nil|].
  set (fs := f :: files) in *. unfold Current in H. rewrite bind_do in H. apply (proj1 (exec_act _ _ _ _)) in H as (old & t' & _ & -> & H).
  apply (clean_app [_]); [apply clean_one; by intros []|].
  apply exec_bind in H as (t1 & t2 & n & -> & H1 & H2). destruct n as [m|e|x]; [|by destruct H2|by destruct H2].
  apply clean_app; [by eapply clean_newMgr|]. clear H1.
  apply exec_bind in H2 as (t3 & t4 & [s1 u] & -> & H3 & H4). cbv zeta in H4. simpl fst in H4. simpl snd in H4. destruct u as [u|e|x]; [|by destruct H4|by destruct H4].
  apply clean_app; [by eapply (sclean_cleanup _ (sclean_load fs old data))|]. clear H3.
  apply exec_bind in H4 as (t5 & t6 & c & -> & H5 & H6). destruct c as [c|e|x]; [|by destruct H6|by destruct H6].
  apply clean_app; [by eapply clean_callbacks|]. destruct (buildDetails s1 fs ∅) as [d|e|x]; [|by destruct H6|by destruct H6].
  apply exec_bind in H6 as (t7 & t8 & [] & -> & H7 & H8). rewrite bind_do in H8. apply (proj1 (exec_act _ _ _ _)) in H8 as (y & t9 & _ & -> & H8). destruct H8 as [-> _].
  apply clean_app; [|apply clean_one; by intros []]. destruct old as [om|]; [|by destruct H7 as [-> _]; apply clean_nil].
  apply exec_do in H7 as [_ ->]. apply clean_one. by intros [].
Qed.
Lemma clean_impl o data cbs : pclean (loadPluginsImpl o data cbs).
Proof.
  intros t a H. unfold loadPluginsImpl in H. rewrite bind_do in H. apply (proj1 (exec_act _ _ _ _)) in H as (d1 & t' & _ & -> & H).
  apply (clean_app [_]); [apply clean_one; by intros []|]. apply exec_bind in H as (t1 & t2 & r1 & -> & H1 & H2).
  destruct r1 as [r1|e|x]; [|by destruct H2|by destruct H2]. apply clean_app.
  { unfold FindDirectory in H1. destruct (blank d1); [by destruct H1|]. rewrite bind_do in H1. apply (proj1 (exec_act _ _ _ _)) in H1 as (x & t3 & _ & -> & H1).
    destruct x as [b|e|x]; [|by destruct H1|by destruct H1]. destruct b; [|by destruct H1]. destruct H1 as [-> _]. apply clean_one. by intros []. }
  clear H1. rewrite bind_do in H2. apply (proj1 (exec_act _ _ _ _)) in H2 as (d2 & t4 & _ & -> & H2). apply (clean_app [_]); [apply clean_one; by intros []|].
  rewrite bind_do in H2. apply (proj1 (exec_act _ _ _ _)) in H2 as (abs & t5 & _ & -> & H2). destruct abs as [abs|e|x]; [|by destruct H2|by destruct H2].
  apply (clean_app [_]); [apply clean_one; by intros []|].
  rewrite bind_do in H2. apply (proj1 (exec_act _ _ _ _)) in H2 as (es & t6 & _ & -> & H2). destruct es as [es|e|x]; [|by destruct H2|by destruct H2].
  apply (clean_app [_]); [apply clean_one; by intros []|]. destruct (selectFiles _ abs es) as [files found]. destruct (negb _); [by destruct H2|].
  by eapply clean_files.
Qed.
Lemma clean_swStatic o st data cbs : pclean (swLoadStaticPlugins o st data cbs).
Proof.
  intros t a H. unfold swLoadStaticPlugins in H.
  apply exec_bind in H as (t1 & t2 & n & -> & H1 & H2). destruct n as [m|e|x]; [|by destruct H2|by destruct H2].
  apply clean_app; [by eapply clean_newMgr|]. clear H1. destruct (match o_whitelist o with [] => _ | _ => _ end) as [sel|e|x]; [|by destruct H2|by destruct H2].
  apply exec_bind in H2 as (t3 & t4 & [s1 u] & -> & H3 & H4). cbv zeta in H4. simpl fst in H4. simpl snd in H4. destruct u as [u|e|x]; [|by destruct H4|by destruct H4].
  apply clean_app; [by eapply (sclean_cleanup _ (sclean_static sel data))|]. clear H3.
  apply exec_bind in H4 as (t5 & t6 & c & -> & H5 & H6). destruct c as [c|e|x]; [|by destruct H6|by destruct H6].
  apply clean_app; [by eapply clean_callbacks|]. rewrite bind_do in H6. apply (proj1 (exec_act _ _ _ _)) in H6 as (y & t9 & _ & -> & H6). destruct H6 as [-> _].
  apply clean_one. by intros [].
Qed.

Lemma clean_api o a : pclean (api_prog o a).
Proof.
  intros t d H. destruct a as [data|data extra]; simpl api_prog in H.
  - apply exec_locked in H as (tb & -> & H). apply (clean_app [_]); [apply clean_one; by intros []|]. apply clean_app; [|apply clean_one; by intros []].
    destruct (o_static o); [by eapply clean_swStatic|by eapply clean_impl].
  - unfold ReloadWithCallback in H. destruct (o_static o); [by destruct H|].
    apply exec_locked in H as (tb & -> & H). apply (clean_app [_]); [apply clean_one; by intros []|]. apply clean_app; [|apply clean_one; by intros []].
    cbv zeta in H. apply exec_bind in H as (t1 & t2 & r & -> & H1 & H2). destruct r as [r|e|x]; [|by destruct H2|by destruct H2].
    apply clean_app; [by eapply clean_impl|]. rewrite bind_do in H2. apply (proj1 (exec_act _ _ _ _)) in H2 as (y & t9 & _ & -> & H2). destruct H2 as [-> _].
    apply clean_one. by intros [].
Qed.

End Proofs.
