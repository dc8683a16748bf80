(** When OnFree is called within one call or release goroutine *)
From Verif Require Export PrivateProofs SwapperProofs.
From Verif Require Import Spec.

(** the actions of a load before any cleanup *)
Definition loading_act : forall X, act X -> Prop := fun X a =>
  match a with
  | ANewInst _ _ | ARefInc _ _ | ANow | AIter _
  | AReadFile _ | AMkdirAll _ | AWriteFile _ _ | AOpen _ | ALookupSym _ _ => True
  | ACall r _ _ => r <> ROnFree
  | _ => False
  end.

Section Proofs.
Context {E : GoEnv}.

Ltac break :=
  repeat (first [ done | only_step | apply only_call; intros; discriminate
    | lazymatch goal with
      | |- sonly _ (if ?b then _ else _) => destruct b
      | |- sonly _ (match ?b with _ => _ end) => destruct b
      | |- sonly _ (let '(_, _) := ?b in _) => destruct b
      | |- only _ (if ?b then _ else _) => destruct b
      | |- only _ (match ?b with _ => _ end) => destruct b
      | |- only _ (Ret _) => exact I
      end ]).

Lemma loading_admit p : sonly loading_act (admitPlugin p).
Proof. unfold admitPlugin, invokeReloadable, invokeExport. break. Qed.
Lemma loading_Lookup p sym out : only loading_act (Plugin_Lookup p sym out).
Proof. unfold Plugin_Lookup. break. Qed.
Lemma loading_lookupAll items p missing : only loading_act (lookupAll items p missing).
Proof.
  revert p missing; induction items as [|r items IH]; intros p missing; simpl; [done|].
  apply only_bind; [apply loading_Lookup|]. intros [v|e|x]; [apply IH| |done]. destruct e; first [apply IH|done].
Qed.
Lemma loading_loadPlugin oi : sonly loading_act (loadPlugin oi).
Proof.
  unfold loadPlugin. destruct oi as [i|]; [|only_step]. unfold copyPlugin. break.
  - apply loading_lookupAll.
  - apply loading_admit.
Qed.
Lemma loading_addLiveFuncs earlier p l : sonly loading_act (addLiveFuncs earlier p l).
Proof.
  induction l as [|[n v] l IH]; simpl; [only_step|]. only_step; [only_step|]. destruct (pm_livefuncs a !! n).
  - only_step; [|only_step]. only_step. clear. induction earlier as [|q earlier IH]; simpl; [done|].
    apply only_bind; [by apply (only_call _ RLiveFuncs)|]. intros [[l0|]|e|x]; try done. by destruct (bool_decide _).
  - only_step; [only_step|]. apply IH.
Qed.
Lemma loading_addLiveTypes earlier p l : sonly loading_act (addLiveTypes earlier p l).
Proof.
  induction l as [|[n v] l IH]; simpl; [only_step|]. only_step; [only_step|]. destruct (pm_livetypes a !! n).
  - only_step; [|only_step]. only_step. clear. induction earlier as [|q earlier IH]; simpl; [done|].
    apply only_bind; [by apply (only_call _ RLiveTypes)|]. intros [[l0|]|e|x]; try done. by destruct (bool_decide _).
  - only_step; [only_step|]. apply IH.
Qed.
Lemma loading_setupVault : sonly loading_act setupVault.
Proof.
  unfold setupVault. only_step; [only_step|]. only_step.
  - generalize (plugins_of (pm_map a) (pm_ordered a)) as l. intros l. generalize (@nil plugin) as e.
    induction l as [|p l IH]; intros e; simpl; [only_step|]. only_step; [only_step|]. only_step.
    + only_step. by apply (only_call _ RLiveFuncs).
    + destruct a1 as [tbl|]; [|only_step]. only_step; [apply loading_addLiveFuncs|apply IH].
  - generalize (plugins_of (pm_map a) (pm_ordered a)) as l. intros l. generalize (@nil plugin) as e.
    induction l as [|p l IH]; intros e; simpl; [only_step|]. only_step; [only_step|]. only_step.
    + only_step. by apply (only_call _ RLiveTypes).
    + destruct a2 as [tbl|]; [|only_step]. only_step; [apply loading_addLiveTypes|apply IH].
Qed.
Lemma loading_lifecycle data : sonly loading_act (lifecycle data).
Proof.
  unfold lifecycle. only_step.
  { intros s. eapply only_impl; [|apply sonly_initDeps]. intros X []; cbn; try done. by intros <-. }
  only_step.
  { unfold invokeEveryOnLoad, onLoadOne. only_step; [only_step|]. apply sonly_sfor. intros k _. break. }
  only_step; [apply loading_setupVault|].
  unfold invokeEveryOnInit, onInitOne. only_step; [only_step|]. apply sonly_sfor. intros k _. break.
Qed.
Lemma loading_loadPlugins files old data : sonly loading_act (loadPlugins_body files old data).
Proof.
  unfold loadPlugins_body. only_step; [only_step|]. destruct (negb _); [only_step|].
  only_step; [by only_step|]. destruct a0 as [|k l]; [|only_step]. only_step.
  { only_step. generalize (∅ : gmap string fileInfo) as m. induction files as [|f files IH]; intros m; simpl; [done|].
    split; [done|]. intros [d|e|x]; [apply IH|done|done]. }
  only_step; [by only_step|]. only_step.
  { only_step. unfold addUnchanged. break. }
  only_step; [by only_step|]. only_step.
  { only_step. unfold addUnchanged. break. }
  only_step; [only_step|]. destruct (negb _); [only_step|]. only_step; [unfold outputStats1; break|].
  only_step; [by only_step|]. only_step; [only_step|]. only_step.
  { only_step. intros s. apply only_bind; [apply loading_loadPlugin|]. intros [s1 [?|?|?]]; simpl; done. }
  apply (loading_lifecycle data).
Qed.
Lemma loading_loadStatic sel data : sonly loading_act (loadStaticPlugins_body sel data).
Proof.
  unfold loadStaticPlugins_body. only_step; [only_step|]. destruct (negb _); [only_step|].
  only_step; [by only_step|]. only_step; [only_step|]. only_step.
  { only_step. intros s. apply only_bind; [|intros [s1 [?|?|?]]; simpl; done].
    unfold loadStaticPlugin. generalize s. change (sonly loading_act (let! pm := sget in
      let! i := sdo (ANewInst (pm_id pm) (match default None (sel !! x) with Some sp => sp_name sp | None => "" end)) in
      match default None (sel !! x) with
      | None => span PNil
      | Some sp =>
          let p := mkPlugin (sp_name sp) "" "" (pm_when pm) "ok" false None (sp_funcs sp) [] i None false [] in
          match missing_funcs (sp_funcs sp) with
          | [] => admitPlugin p
          | missing => serr (EMissingFuncs missing)
          end
      end)).
    only_step; [only_step|]. only_step; [by only_step|]. destruct (default None (sel !! x)); [|only_step].
    cbv zeta. destruct (missing_funcs _); [apply loading_admit|only_step]. }
  apply (loading_lifecycle data).
Qed.

(** ** When OnFree is called: right after the instance's freeOnce, right after its counter dropped to zero *)
Definition freeing (t1 : list event) (e : event) : Prop :=
  match e with
  | EvOnce i b => exists t0 mid v, t1 = t0 ++ [EvRefDec mid i v] /\ (v <= 0)%Z
  | EvCall ROnFree c _ _ => exists t0, t1 = t0 ++ [EvOnce (c_inst c) true]
  | _ => True
  end.
Definition wf_free (t : list event) : Prop := forall t1 e t2, t = t1 ++ e :: t2 -> freeing t1 e.
Lemma freeing_app t0 t1 e : freeing t1 e -> freeing (t0 ++ t1) e.
Proof.
  destruct e as [| | | | | | | | |i b| | | | | | | | | | | | | | |r c arg x| |]; try done; cbn.
  - intros (u & mid & v & -> & Hv). exists (t0 ++ u), mid, v. by rewrite (assoc_L (++)).
  - destruct r; try done. intros (u & ->). exists (t0 ++ u). by rewrite (assoc_L (++)).
Qed.
Lemma wf_free_app t1 t2 : wf_free t1 -> wf_free t2 -> wf_free (t1 ++ t2).
Proof.
  intros H1 H2 u1 e u2 Heq. apply app_eq_inv in Heq as [(k & -> & Hk)|(k & -> & Hk)].
  - destruct k as [|e' k]; cbn in Hk; [|injection Hk as <- ->; by eapply H1].
    rewrite <- (right_id_L [] (++) u1). apply freeing_app. by eapply (H2 [] e u2).
  - apply freeing_app. by eapply H2.
Qed.
Lemma wf_free_nil : wf_free []. Proof. intros t1 e t2 H. by apply (f_equal length) in H; rewrite app_length in H; cbn in H; lia. Qed.
Definition unfreeing (e : event) : Prop := match e with EvOnce _ _ => False | EvCall r _ _ _ => r <> ROnFree | _ => True end.
Lemma wf_free_plain t : Forall unfreeing t -> wf_free t.
Proof. intros H t1 e t2 ->. apply Forall_app in H as [_ H]. apply Forall_cons in H as [H _]. destruct e; try done; cbn in *. by destruct r. Qed.
Lemma wf_freed_one mid p t : freed_one mid p t -> wf_free t.
Proof.
  intros (v & t' & -> & Hv). assert (H0 : forall l, (forall t1 e t2, l = t1 ++ e :: t2 -> freeing (EvRefDec mid (pl_inst p) v :: t1) e) -> wf_free (EvRefDec mid (pl_inst p) v :: l)).
  { intros l Hl [|e0 t1] e t2 Heq; cbn in Heq; injection Heq as <- Heq; [done|by eapply Hl]. }
  apply H0. destruct Hv as [[_ ->]|[Hle [->|(t'' & -> & Hc)]]].
  - intros t1 e t2 H. by apply (f_equal length) in H; rewrite app_length in H; cbn in H; lia.
  - intros [|e0 t1] e t2 Heq; cbn in Heq; injection Heq as <- Heq; [by exists [], mid, v|]. by apply (f_equal length) in Heq; rewrite app_length in Heq; cbn in Heq; lia.
  - intros [|e0 t1] e t2 Heq; cbn in Heq; injection Heq as <- Heq; [by exists [], mid, v|]. destruct Hc as [[_ ->]|(c & x & _ & ->)].
    + by apply (f_equal length) in Heq; rewrite app_length in Heq; cbn in Heq; lia.
    + destruct t1 as [|e1 t1]; cbn in Heq; injection Heq as <- Heq; [by exists [EvRefDec mid (pl_inst p) v]|]. by apply (f_equal length) in Heq; rewrite app_length in Heq; cbn in Heq; lia.
Qed.

(** programs with such traces *)
Definition wfp {A} (p : prog A) : Prop := forall t r, exec p t r -> wf_free t.
Lemma wfp_ret {A} (a : A) : wfp (Ret a). Proof. intros t r [-> _]. apply wf_free_nil. Qed.
Lemma wfp_bind {A B} (p : prog A) (f : A -> prog B) : wfp p -> (forall a, wfp (f a)) -> wfp (bind p f).
Proof. intros Hp Hf t r H. apply exec_bind in H as (t1 & t2 & x & -> & H1 & H2). apply wf_free_app; [by eapply Hp|by eapply Hf]. Qed.
Definition unfreeing_act : forall X, act X -> Prop := fun X a => match a with AOnce _ => False | ACall r _ _ => r <> ROnFree | _ => True end.
Lemma wfp_only {A} (p : prog A) : only unfreeing_act p -> wfp p.
Proof.
  intros H t r He. apply wf_free_plain. eapply (only_exec unfreeing_act unfreeing); [|exact H|exact He].
  intros X a x. destruct a; cbn; intros; try done; by repeat constructor.
Qed.
Lemma wfp_ofor {A} (l : list A) body : (forall x, wfp (body x)) -> wfp (ofor l body).
Proof. intros H. induction l as [|x l IH]; cbn; [apply wfp_ret|]. apply wfp_bind; [done|]. intros [?|?|?]; [exact IH|apply wfp_ret..]. Qed.
Lemma wfp_free m : wfp (invokeEveryOnFree m).
Proof.
  assert (Hk : forall k, wfp (freeKey m k)).
  { intros k. unfold freeKey. destruct (pm_map m !! k) as [p|]; [|apply wfp_ret].
    intros t u H. apply exec_freeOne in H as [_ H]. by eapply wf_freed_one. }
  unfold invokeEveryOnFree. destruct (pm_ordered m) as [|k l]; [apply wfp_bind; [by apply wfp_only|]; intros it|]; by apply wfp_ofor.
Qed.
Lemma wfp_cleanup body s : sonly loading_act body -> wfp (with_cleanup body s).
Proof.
  intros Hb. unfold with_cleanup. apply wfp_bind; [apply wfp_only; eapply only_impl; [|apply Hb]; by intros X []|].
  intros [s1 [x|e|x]]; cbn; [apply wfp_ret|..]; (apply wfp_bind; [apply wfp_free|]; intros [?|?|?]; apply wfp_ret).
Qed.
Lemma wfp_callbacks cbs new old : wfp (invokeReloadCallbacks cbs new old).
Proof.
  induction cbs as [|[cb|] cbs IH]; cbn; [apply wfp_ret| |exact IH].
  intros t r H. apply (proj1 (exec_act _ _ _ _)) in H as (y & t' & Hv & -> & H). apply wf_free_app; [apply wf_free_plain; by repeat constructor|].
  revert t' r H. change (wfp (match match y with Val e => e | Err e => Some e | Pan x => Some (EPanic None x) end with None => invokeReloadCallbacks cbs new old
    | Some e => let* c := invokeEveryOnFree new in match c with Pan x => Ret (Pan x) | _ => Ret (Err e) end end)).
  destruct (match y with Val e => e | Err e => Some e | Pan x => Some (EPanic None x) end) as [e|]; [|exact IH].
  apply wfp_bind; [apply wfp_free|]. intros [?|?|?]; apply wfp_ret.
Qed.
Lemma wfp_newMgr b : wfp (newPluginManager b).
Proof. apply wfp_only. unfold newPluginManager. apply only_bind; [done|]. intros [mid dn]. apply only_bind; [by destruct b|]. by intros [?|?|?]. Qed.
Lemma wfp_files o files data cbs : wfp (loadPluginFiles o files data cbs).
Proof.
  unfold loadPluginFiles. destruct files as [|f files]; [apply wfp_ret|]. apply wfp_bind; [by apply wfp_only|]. intros old. apply wfp_bind; [apply wfp_newMgr|].
  intros [new0|e|x]; [|apply wfp_ret..]. apply wfp_bind; [apply wfp_cleanup, loading_loadPlugins|]. intros [new [?|?|?]]; cbn [fst snd]; [|apply wfp_ret..].
  apply wfp_bind; [apply wfp_callbacks|]. intros [?|?|?]; [|apply wfp_ret..]. destruct (buildDetails _ _ _); [|apply wfp_ret..].
  apply wfp_bind; [destruct old; [by apply wfp_only|apply wfp_ret]|]. intros _. by apply wfp_only.
Qed.
Lemma wfp_impl o data cbs : wfp (loadPluginsImpl o data cbs).
Proof.
  unfold loadPluginsImpl. apply wfp_bind; [by apply wfp_only|]. intros d1. apply wfp_bind.
  { apply wfp_only. unfold FindDirectory. destruct (blank d1); [done|]. apply only_bind; [by apply only_do|]. by intros [[]|?|?]. }
  intros [?|?|?]; [|apply wfp_ret..]. apply wfp_bind; [by apply wfp_only|]. intros d2. apply wfp_bind; [by apply wfp_only|]. intros [abs|?|?]; [|apply wfp_ret..].
  apply wfp_bind; [by apply wfp_only|]. intros [entries|?|?]; [|apply wfp_ret..]. destruct (selectFiles _ _ _). destruct (negb _); [apply wfp_ret|]. apply wfp_files.
Qed.
Lemma wfp_static o st data cbs : wfp (swLoadStaticPlugins o st data cbs).
Proof.
  unfold swLoadStaticPlugins. apply wfp_bind; [apply wfp_newMgr|]. intros [new0|e|x]; [|apply wfp_ret..].
  destruct (match o_whitelist o with [] => Val st | _ => _ end) as [sel|e|x]; [|apply wfp_ret..].
  apply wfp_bind; [apply wfp_cleanup, loading_loadStatic|]. intros [new [?|?|?]]; cbn [fst snd]; [|apply wfp_ret..].
  apply wfp_bind; [apply wfp_callbacks|]. intros [?|?|?]; [|apply wfp_ret..]. by apply wfp_only.
Qed.
Lemma wfp_api o a : wfp (api_prog o a).
Proof.
  destruct a as [data|data extra]; cbn [api_prog].
  - unfold LoadPlugins, locked. apply wfp_bind; [by apply wfp_only|]. intros _. apply wfp_bind; [|intros; by apply wfp_only].
    destruct (o_static o); [apply wfp_static|apply wfp_impl].
  - unfold ReloadWithCallback. destruct (o_static o); [apply wfp_ret|]. unfold locked. apply wfp_bind; [by apply wfp_only|]. intros _. apply wfp_bind; [|intros; by apply wfp_only].
    apply wfp_bind; [apply wfp_impl|]. intros [?|?|?]; [by apply wfp_only|apply wfp_ret..].
Qed.

End Proofs.
