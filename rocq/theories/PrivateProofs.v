(** loadPlugins and loadStaticPlugins touch none of the swapper's shared variables *)
From Verif Require Export StaticProofs.

(** the actions a manager object performs while it is being loaded or released *)
Definition private_act : forall X, act X -> Prop := fun X a =>
  match a with
  | ANewInst _ _ | ARefInc _ _ | ARefDec _ _ | AOnce _ | ANow | AIter _
  | AReadFile _ | AMkdirAll _ | AWriteFile _ _ | AOpen _ | ALookupSym _ _ | ACall _ _ _ => True
  | _ => False
  end.
Definition private_event (e : event) : Prop :=
  match e with
  | EvNewInst _ _ _ | EvRefInc _ _ _ | EvRefDec _ _ _ | EvOnce _ _ | EvNow _
  | EvReadFile _ _ | EvMkdir _ _ | EvWriteFile _ _ _ | EvOpen _ _ | EvLookupSym _ _ _ | EvCall _ _ _ _ => True
  | _ => False
  end.
Lemma private_ev X (a : act X) x : private_act X a -> Forall private_event (ev a x).
Proof. destruct a; simpl; intros; try done; repeat constructor. Qed.

Section Proofs.
Context {E : GoEnv}.

Ltac break :=
  repeat (first [ done | only_step | apply only_call; intros; exact I
    | lazymatch goal with
      | |- sonly _ (if ?b then _ else _) => destruct b
      | |- sonly _ (match ?b with _ => _ end) => destruct b
      | |- sonly _ (let '(_, _) := ?b in _) => destruct b
      | |- only _ (if ?b then _ else _) => destruct b
      | |- only _ (match ?b with _ => _ end) => destruct b
      | |- only _ (Ret _) => exact I
      end ]).

Lemma private_admit p : sonly private_act (admitPlugin p).
Proof. unfold admitPlugin, invokeReloadable, invokeExport. break. Qed.
Lemma private_Lookup p sym out : only private_act (Plugin_Lookup p sym out).
Proof. unfold Plugin_Lookup. break. Qed.
Lemma private_lookupAll items p missing : only private_act (lookupAll items p missing).
Proof.
  revert p missing; induction items as [|r items IH]; intros p missing; simpl; [done|].
  apply only_bind; [apply private_Lookup|]. intros [v|e|x]; [apply IH| |done]. destruct e; first [apply IH|done].
Qed.
Lemma private_loadPlugin oi : sonly private_act (loadPlugin oi).
Proof.
  unfold loadPlugin. destruct oi as [i|]; [|only_step]. unfold copyPlugin. break.
  - apply private_lookupAll.
  - apply private_admit.
Qed.
Lemma private_addLiveFuncs earlier p l : sonly private_act (addLiveFuncs earlier p l).
Proof.
  induction l as [|[n v] l IH]; simpl; [only_step|]. only_step; [only_step|]. destruct (pm_livefuncs a !! n).
  - only_step; [|only_step]. only_step. clear. induction earlier as [|q earlier IH]; simpl; [done|].
    apply only_bind; [by apply (only_call _ RLiveFuncs)|]. intros [[l0|]|e|x]; try done. by destruct (bool_decide _).
  - only_step; [only_step|]. apply IH.
Qed.
Lemma private_addLiveTypes earlier p l : sonly private_act (addLiveTypes earlier p l).
Proof.
  induction l as [|[n v] l IH]; simpl; [only_step|]. only_step; [only_step|]. destruct (pm_livetypes a !! n).
  - only_step; [|only_step]. only_step. clear. induction earlier as [|q earlier IH]; simpl; [done|].
    apply only_bind; [by apply (only_call _ RLiveTypes)|]. intros [[l0|]|e|x]; try done. by destruct (bool_decide _).
  - only_step; [only_step|]. apply IH.
Qed.
Lemma private_setupVault : sonly private_act setupVault.
Proof.
  unfold setupVault. only_step; [only_step|]. only_step.
  - generalize (plugins_of (pm_map a) (pm_ordered a)) as l. intros l. generalize (@nil plugin) as e.
    induction l as [|p l IH]; intros e; simpl; [only_step|]. only_step; [only_step|]. only_step.
    + only_step. by apply (only_call _ RLiveFuncs).
    + destruct a1 as [tbl|]; [|only_step]. only_step; [apply private_addLiveFuncs|apply IH].
  - generalize (plugins_of (pm_map a) (pm_ordered a)) as l. intros l. generalize (@nil plugin) as e.
    induction l as [|p l IH]; intros e; simpl; [only_step|]. only_step; [only_step|]. only_step.
    + only_step. by apply (only_call _ RLiveTypes).
    + destruct a2 as [tbl|]; [|only_step]. only_step; [apply private_addLiveTypes|apply IH].
Qed.
Lemma private_lifecycle data : sonly private_act (lifecycle data).
Proof.
  unfold lifecycle. only_step.
  { intros s. eapply only_impl; [|apply sonly_initDeps]. by intros X []. }
  only_step.
  { unfold invokeEveryOnLoad, onLoadOne. only_step; [only_step|]. apply sonly_sfor. intros k _. break. }
  only_step; [apply private_setupVault|].
  unfold invokeEveryOnInit, onInitOne. only_step; [only_step|]. apply sonly_sfor. intros k _. break.
Qed.
Lemma private_free m : only private_act (invokeEveryOnFree m).
Proof.
  assert (forall k, only private_act (freeKey m k)).
  { intros k. unfold freeKey, freeOne. break. }
  unfold invokeEveryOnFree. destruct (pm_ordered m) as [|k l].
  - apply only_bind; [done|]. intros it. apply only_ofor. auto.
  - apply only_ofor. auto.
Qed.
Lemma private_cleanup body : sonly private_act body -> sonly private_act (with_cleanup body).
Proof.
  intros Hb s. unfold with_cleanup. apply only_bind; [apply Hb|]. intros [s1 [a|e|x]]; simpl; [done| |].
  - apply only_bind; [apply private_free|]. by intros [].
  - apply only_bind; [apply private_free|]. by intros [].
Qed.
Lemma private_loadPlugins files old data : sonly private_act (loadPlugins files old data).
Proof.
  apply private_cleanup. unfold loadPlugins_body. only_step; [only_step|]. destruct (negb _); [only_step|].
  only_step; [by only_step|]. destruct a0 as [|k l]; [|only_step]. only_step.
  { only_step. generalize (∅ : gmap string fileInfo) as m. induction files as [|f files IH]; intros m; simpl; [done|].
    split; [done|]. intros [d|e|x]; [apply IH|done|done]. }
  only_step; [by only_step|]. only_step.
  { only_step. unfold addUnchanged. break. }
  only_step; [by only_step|]. only_step.
  { only_step. unfold addUnchanged. break. }
  only_step; [only_step|]. destruct (negb _); [only_step|]. only_step; [unfold outputStats1; break|].
  only_step; [by only_step|]. only_step; [only_step|]. only_step.
  { only_step. intros s. apply only_bind; [apply private_loadPlugin|]. intros [s1 [?|?|?]]; simpl; done. }
  apply (private_lifecycle data).
Qed.
Lemma private_loadStatic sel data : sonly private_act (loadStaticPlugins sel data).
Proof.
  apply private_cleanup. unfold loadStaticPlugins_body. only_step; [only_step|]. destruct (negb _); [only_step|].
  only_step; [by only_step|]. only_step; [only_step|]. only_step.
  { only_step. intros s. apply only_bind; [|intros [s1 [?|?|?]]; simpl; done].
    unfold loadStaticPlugin. generalize s. change (sonly private_act (let! pm := sget in
      let! i := sdo (ANewInst (pm_id pm) (match default None (sel !! x) with Some sp => sp_name sp | None => "" end)) in
      match default None (sel !! x) with
      | None => span PNil
      | Some sp =>
          let p := mkPlugin (sp_name sp) "" "" (pm_when pm) "ok" false None (sp_funcs sp) [] i None false [] in
          match missing_funcs (sp_funcs sp) with
          | [] => admitPlugin p
          | missing => serr (EMissingFuncs missing)
          end
      end)).
    only_step; [only_step|]. only_step; [by only_step|]. destruct (default None (sel !! x)); [|only_step].
    cbv zeta. destruct (missing_funcs _); [apply private_admit|only_step]. }
  apply (private_lifecycle data).
Qed.
End Proofs.
