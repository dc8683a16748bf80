(** C69: which directory a load looks at, and what it makes of a directory it cannot use. *)
From Verif Require Export PropFiles PropOpen PropLetters.

(** Nothing but white space: tab, line feed, vertical tab, form feed, carriage return, blank, and the white space of Unicode beyond ASCII
    (next line, no-break space, ogham space mark, the spaces from U+2000 to U+200A, line and paragraph separator, narrow no-break
    space, medium mathematical space, ideographic space). *)
Definition white_space : list N := [9; 10; 11; 12; 13; 32; 133; 160; 5760; 8192; 8193; 8194; 8195; 8196; 8197; 8198; 8199; 8200; 8201; 8202; 8232; 8233; 8239; 8287; 12288]%N.
Definition white (s : string) : Prop := forall r, r ∈ runes s -> r ∈ white_space.

(** The events of a load that looks at the plugin directory, and its result.  [rest] is what follows a successful
    listing. *)
Inductive looked : list event -> outcome (option Details) -> Prop :=
  | no_name d : white d -> looked [EvLock; EvGetDir d; EvUnlock] (Err (EDirEmpty "pluginDir"))
  | no_such d e : ~ white d -> looked [EvLock; EvGetDir d; EvStat d (Err e); EvUnlock] (Err e)
  | no_directory d : ~ white d -> looked [EvLock; EvGetDir d; EvStat d (Val false); EvUnlock] (Err (ENotDir d))
  | no_absolute d d' e : ~ white d -> looked [EvLock; EvGetDir d; EvStat d (Val true); EvGetDir d'; EvAbs d' (Err e); EvUnlock] (Err e)
  | no_listing d d' abs e : ~ white d ->
      looked [EvLock; EvGetDir d; EvStat d (Val true); EvGetDir d'; EvAbs d' (Val abs); EvReadDir abs (Err e); EvUnlock] (Err e)
  | listing d d' abs entries rest r : ~ white d -> (forall e, e ∈ rest -> match e with EvGetDir _ | EvStat _ _ | EvAbs _ _ | EvReadDir _ _ => False | _ => True end) ->
      looked ([EvLock; EvGetDir d; EvStat d (Val true); EvGetDir d'; EvAbs d' (Val abs); EvReadDir abs (Val entries)] ++ rest) r.

Section Props.
Context {E : GoEnv}.

Lemma is_space_spec r : is_space r = true <-> r ∈ white_space.
Proof.
  unfold is_space. rewrite !orb_true_iff, !within_spec, !N.eqb_eq. split.
  - intros H. assert (Hr : (r = 9 \/ r = 10 \/ r = 11 \/ r = 12 \/ r = 13 \/ r = 32 \/ r = 133 \/ r = 160 \/ r = 5760 \/ r = 8192 \/ r = 8193 \/ r = 8194 \/ r = 8195 \/ r = 8196 \/
      r = 8197 \/ r = 8198 \/ r = 8199 \/ r = 8200 \/ r = 8201 \/ r = 8202 \/ r = 8232 \/ r = 8233 \/ r = 8239 \/ r = 8287 \/ r = 12288)%N) by lia.
    clear H. apply elem_of_list_In. unfold white_space. simpl. intuition auto.
  - intros H. apply elem_of_list_In in H. unfold white_space in H. simpl in H. intuition (subst; lia).
Qed.
Lemma blank_white s : blank s = true <-> white s.
Proof.
  unfold blank, white. rewrite forallb_forall. split; intros H r Hr.
  - apply is_space_spec, H. by apply elem_of_list_In.
  - apply is_space_spec, H. by apply elem_of_list_In.
Qed.
Lemma not_white d : blank d = false -> ~ white d.
Proof. intros H Hw. apply blank_white in Hw. congruence. Qed.

(** Every dynamic load begins by looking at the plugin directory, in this way and no other. *)
Theorem C69_looks_at_the_directory o h cur a t r : next_call o h cur (api_prog o a) t r -> o_static o = None -> looked t r.
Proof.
  intros Hn Hs. destruct (next_dir _ _ _ _ _ _ Hn Hs) as (tb & add & -> & Hd & Hadd).
  assert (Hq : forall e, e ∈ add ++ [EvUnlock] -> match e with EvGetDir _ | EvStat _ _ | EvAbs _ _ | EvReadDir _ _ => False | _ => True end).
  { assert (add = [] \/ add = [EvAddCounter]) as Ha by (subst add; destruct a; [by left|]; case_decide; auto). clear Hadd. intros e He.
    destruct Ha as [-> | ->]; repeat (apply elem_of_cons in He as [->|He]; [done|]); by apply elem_of_nil in He. }
  assert (Hz : forall e, r = Err e -> add = []). { intros e ->. subst add. destruct a; [done|]. by rewrite decide_False by (intros []). }
  destruct Hd as [tp e Hr|tp Hc|tp files tl r' Hc Hne Hf].
  - destruct Hr as [d1 Hb|d1 e Hb _|d1 Hb|d1 d2 e Hb _|d1 d2 abs e Hb _|d1 d2 abs entries files found Hb _ _ _].
    + rewrite (Hz _ eq_refl). apply no_name. by apply blank_white.
    + rewrite (Hz _ eq_refl). apply no_such. by apply not_white.
    + rewrite (Hz _ eq_refl). apply no_directory. by apply not_white.
    + rewrite (Hz _ eq_refl). apply no_absolute. by apply not_white.
    + rewrite (Hz _ eq_refl). apply no_listing. by apply not_white.
    + apply (listing d1 d2 abs entries (add ++ [EvUnlock])); [by apply not_white|done].
  - destruct Hc as (d1 & d2 & abs & entries & found & -> & Hb & _). apply (listing d1 d2 abs entries (add ++ [EvUnlock])); [by apply not_white|done].
  - destruct Hc as (d1 & d2 & abs & entries & found & -> & Hb & _). apply (listing d1 d2 abs entries (tl ++ add ++ [EvUnlock])); [by apply not_white|].
    intros e He. apply elem_of_app in He as [He|He]; [|by apply Hq]. pose proof (file_run_events _ _ _ _ _ _ Hf) as HF. rewrite Forall_forall in HF.
    specialize (HF e He). by destruct e.
Qed.

(** An unusable directory: the call returns the error and nothing is touched. *)
Theorem C69_unusable_directory o h cur a t r : next_call o h cur (api_prog o a) t r -> o_static o = None ->
  (forall dir entries, ~ listed t dir entries) -> (exists e, r = Err e) /\ untouched t /\ after cur t = cur.
Proof.
  intros Hn Hs Hl. destruct (C69_looks_at_the_directory _ _ _ _ _ _ Hn Hs) as [| | | | |d d' abs entries rest r _ _];
    [split_and!; [by eexists|apply untouched_forall; repeat constructor|done]..|].
  exfalso. apply (Hl abs entries). unfold listed. apply elem_of_app. left. do 5 right. by left.
Qed.

(** ** Static mode: no actions on files *)
Definition bare_act : forall X, act X -> Prop := fun X a =>
  match a with
  | AGetDir | AStat _ | AAbs _ | AReadDir _ | AReadFile _ | AMkdirAll _ | AWriteFile _ _ | AOpen _ | ALookupSym _ _ => False
  | _ => True
  end.
Definition bare_event (e : event) : Prop :=
  match e with
  | EvGetDir _ | EvStat _ _ | EvAbs _ _ | EvReadDir _ _ | EvReadFile _ _ | EvMkdir _ _ | EvWriteFile _ _ _ | EvOpen _ _ | EvLookupSym _ _ _ => False
  | _ => True
  end.
Lemma bare_ev X (a : act X) x : bare_act X a -> Forall bare_event (ev a x).
Proof. destruct a; simpl; intros; try done; repeat constructor. Qed.

Ltac break :=
  repeat (first [ done | only_step | apply only_call; intros; exact I
    | lazymatch goal with
      | |- sonly _ (if ?b then _ else _) => destruct b
      | |- sonly _ (match ?b with _ => _ end) => destruct b
      | |- sonly _ (let '(_, _) := ?b in _) => destruct b
      | |- only _ (if ?b then _ else _) => destruct b
      | |- only _ (match ?b with _ => _ end) => destruct b
      | |- only _ (Ret _) => exact I
      end ]).

Lemma bare_admit p : sonly bare_act (admitPlugin p).
Proof. unfold admitPlugin, invokeReloadable, invokeExport. break. Qed.
Lemma bare_addLiveFuncs earlier p l : sonly bare_act (addLiveFuncs earlier p l).
Proof.
  induction l as [|[n v] l IH]; simpl; [only_step|]. only_step; [only_step|]. destruct (pm_livefuncs a !! n).
  - only_step; [|only_step]. only_step. clear. induction earlier as [|q earlier IH]; simpl; [done|].
    apply only_bind; [by apply (only_call _ RLiveFuncs)|]. intros [[l0|]|e|x]; try done. by destruct (bool_decide _).
  - only_step; [only_step|]. apply IH.
Qed.
Lemma bare_addLiveTypes earlier p l : sonly bare_act (addLiveTypes earlier p l).
Proof.
  induction l as [|[n v] l IH]; simpl; [only_step|]. only_step; [only_step|]. destruct (pm_livetypes a !! n).
  - only_step; [|only_step]. only_step. clear. induction earlier as [|q earlier IH]; simpl; [done|].
    apply only_bind; [by apply (only_call _ RLiveTypes)|]. intros [[l0|]|e|x]; try done. by destruct (bool_decide _).
  - only_step; [only_step|]. apply IH.
Qed.
Lemma bare_setupVault : sonly bare_act setupVault.
Proof.
  unfold setupVault. only_step; [only_step|]. only_step.
  - generalize (plugins_of (pm_map a) (pm_ordered a)) as l. intros l. generalize (@nil plugin) as e.
    induction l as [|p l IH]; intros e; simpl; [only_step|]. only_step; [only_step|]. only_step.
    + only_step. by apply (only_call _ RLiveFuncs).
    + destruct a1 as [tbl|]; [|only_step]. only_step; [apply bare_addLiveFuncs|apply IH].
  - generalize (plugins_of (pm_map a) (pm_ordered a)) as l. intros l. generalize (@nil plugin) as e.
    induction l as [|p l IH]; intros e; simpl; [only_step|]. only_step; [only_step|]. only_step.
    + only_step. by apply (only_call _ RLiveTypes).
    + destruct a2 as [tbl|]; [|only_step]. only_step; [apply bare_addLiveTypes|apply IH].
Qed.
Lemma bare_lifecycle data : sonly bare_act (lifecycle data).
Proof.
  unfold lifecycle. only_step.
  { intros s. eapply only_impl; [|apply sonly_initDeps]. by intros X []. }
  only_step.
  { unfold invokeEveryOnLoad, onLoadOne. only_step; [only_step|]. apply sonly_sfor. intros k _. break. }
  only_step; [apply bare_setupVault|].
  unfold invokeEveryOnInit, onInitOne. only_step; [only_step|]. apply sonly_sfor. intros k _. break.
Qed.
Lemma bare_free m : only bare_act (invokeEveryOnFree m).
Proof.
  assert (forall k, only bare_act (freeKey m k)).
  { intros k. unfold freeKey, freeOne. break. }
  unfold invokeEveryOnFree. destruct (pm_ordered m) as [|k l].
  - apply only_bind; [done|]. intros it. apply only_ofor. auto.
  - apply only_ofor. auto.
Qed.
Lemma bare_cleanup body : sonly bare_act body -> sonly bare_act (with_cleanup body).
Proof.
  intros Hb s. unfold with_cleanup. apply only_bind; [apply Hb|]. intros [s1 [a|e|x]]; simpl; [done| |].
  - apply only_bind; [apply bare_free|]. by intros [].
  - apply only_bind; [apply bare_free|]. by intros [].
Qed.
Lemma bare_loadStatic sel data : sonly bare_act (loadStaticPlugins sel data).
Proof.
  apply bare_cleanup. unfold loadStaticPlugins_body. only_step; [only_step|]. destruct (negb _); [only_step|].
  only_step; [by only_step|]. only_step; [only_step|]. only_step.
  { only_step. intros s. apply only_bind; [|intros [s1 [?|?|?]]; simpl; done].
    unfold loadStaticPlugin. generalize s. change (sonly bare_act (let! pm := sget in
      let! i := sdo (ANewInst (pm_id pm) (match default None (sel !! x) with Some sp => sp_name sp | None => "" end)) in
      match default None (sel !! x) with
      | None => span PNil
      | Some sp =>
          let p := mkPlugin (sp_name sp) "" "" (pm_when pm) "ok" false None (sp_funcs sp) [] i None false [] in
          match missing_funcs (sp_funcs sp) with
          | [] => admitPlugin p
          | missing => serr (EMissingFuncs missing)
          end
      end)).
    only_step; [only_step|]. only_step; [by only_step|]. destruct (default None (sel !! x)); [|only_step].
    cbv zeta. destruct (missing_funcs _); [apply bare_admit|only_step]. }
  apply (bare_lifecycle data).
Qed.
Lemma bare_callbacks cbs new old : only bare_act (invokeReloadCallbacks cbs new old).
Proof.
  induction cbs as [|[cb|] cbs IH]; simpl; [done| |done]. split; [done|]. intros o.
  destruct (match o with Val e => e | Err e => Some e | Pan x => Some (EPanic None x) end); [|done].
  apply only_bind; [apply bare_free|]. by intros [].
Qed.
Lemma bare_static o st data cbs : only bare_act (swLoadStaticPlugins o st data cbs).
Proof.
  unfold swLoadStaticPlugins. apply only_bind.
  { unfold newPluginManager. break. }
  intros [new0|e|x]; try done. destruct (match o_whitelist o with [] => _ | _ => _ end) as [sel|e|x]; try done.
  apply only_bind; [apply bare_loadStatic|]. intros [new [u|e|x]]; simpl; try done.
  apply only_bind; [apply bare_callbacks|]. intros [u'|e|x]; try done.
Qed.

(** In static mode the plugin directory is not looked at and no file is read, written or opened. *)
Theorem C69_static_mode_needs_no_files o h cur a t r st : next_call o h cur (api_prog o a) t r -> o_static o = Some st ->
  forall e, e ∈ t -> match e with
    | EvGetDir _ | EvStat _ _ | EvAbs _ _ | EvReadDir _ _ | EvReadFile _ _ | EvMkdir _ _ | EvWriteFile _ _ _ | EvOpen _ _ | EvLookupSym _ _ _ => False
    | _ => True end.
Proof.
  intros (_ & _ & Hx & _) Hs. enough (HF : Forall bare_event t) by (intros e He; rewrite Forall_forall in HF; by specialize (HF e He); destruct e).
  eapply (only_exec bare_act bare_event); [intros X b x; apply bare_ev| |exact Hx].
  destruct a as [data|data extra]; cbn [api_prog]; [unfold LoadPlugins|unfold ReloadWithCallback]; rewrite Hs; [|done].
  unfold locked. apply only_bind; [done|]. intros _. apply only_bind; [apply bare_static|]. intros r0. by apply only_bind.
Qed.
End Props.

(** ** Concrete cases *)
Example C69_case : next_call dyn t0 (Some m0) (api_prog dyn (Call_Reload 78 (Some 5%N))) t1 (snd run1) /\ looked t1 (snd run1) /\
  take 6 t1 = [EvLock; EvGetDir "/p"; EvStat "/p" (Val true); EvGetDir "/p"; EvAbs "/p" (Val "/p");
    EvReadDir "/p" (Val [("a.so", false); ("b.so", false); ("c.so", false); ("note.txt", false)])].
Proof. split_and!; [apply second_load|eapply C69_looks_at_the_directory; [apply second_load|done]|vm_compute; reflexivity]. Qed.
(* A no-break space is white space in UTF-8 (0xC2 0xA0), not as the lone byte 0xA0. *)
Example C69_white_case : white (String "009" (String "032" "")) /\ ~ white "/p" /\ white "" /\ white (String "194" (String "160" "")) /\ ~ white (String "160" "").
Proof.
  split_and!; [apply blank_white; reflexivity|apply not_white; reflexivity|apply blank_white; reflexivity|apply blank_white; reflexivity|apply not_white; reflexivity].
Qed.

Print Assumptions C69_looks_at_the_directory.
Print Assumptions C69_unusable_directory.
Print Assumptions C69_static_mode_needs_no_files.
