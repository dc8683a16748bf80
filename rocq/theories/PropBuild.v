(** C64: what `hotswap build` does, prints and returns. *)
From Verif Require Export ToolBuild PropClean.
From Verif Require Import PropOpen.
Local Open Scope nat_scope.

(** ** Specification *)
(** something is done to the plugin's sources, their copy or the generated code *)
Definition works (a : deed) : Prop := match a with ActMkOutput | ActRemoveTmp | ActPrint _ => False | _ => True end.
Notation static cl := (fl_static (cl_flags cl)).
Notation go_build cl := (fl_goBuild (cl_flags cl)).
(** all the checks the tool makes before it works *)
Record checked (cl : cmdline) (e : buildEnv) : Prop := {
  ck_args : length (cl_args cl) = 2;
  ck_clean : cl_clean cl = true -> static cl = true;
  ck_prefix : cl_prefix cl <> "";
  ck_plugin : exists u, be_plugin e = Done u;
  ck_path : exists u, be_path e = Done u;
  ck_output : outputCheck (static cl) (be_pluginDir e) (be_outputDir e) = Done tt;
  ck_package : exists p, be_pkg e = Done p;
  ck_commit : exists c, be_commit e = Done c;
  ck_dynamic : static cl = false -> (exists u, be_regex e = Done u) /\ (exists u, be_required e = Done u) /\ be_windows e = false;
  ck_exists : static cl = true -> be_out e = OutDir }.

(** ** Lemmas *)
Lemma check_unit u p o : outputCheck u p o = Done tt \/ exists m, outputCheck u p o = Panics m.
Proof. destruct (outputCheck u p o) as [[]|m]; eauto. Qed.
(** the possible courses of a run *)
Definition quiet_acts (acts : list deed) : Prop := Forall (fun a => a = ActMkOutput \/ a = ActRemoveTmp) acts.
Definition printed (r : list deed * tool string) : list deed := match snd r with Done f => if String.eqb f "" then [] else [ActPrint f] | Panics _ => [] end.
Lemma quiet_nil : quiet_acts []. Proof. by apply Forall_nil. Qed.
Lemma quiet_mk : quiet_acts [ActMkOutput]. Proof. apply Forall_cons; auto. Qed.
Lemma quiet_rm : quiet_acts [ActRemoveTmp]. Proof. apply Forall_cons; auto. Qed.
Lemma quiet_app a b : quiet_acts a -> quiet_acts b -> quiet_acts (a ++ b). Proof. intros. by apply Forall_app. Qed.
Record passed (cl : cmdline) (e : buildEnv) : Prop := {
  pa_output : outputCheck (static cl) (be_pluginDir e) (be_outputDir e) = Done tt;
  pa_package : exists p, be_pkg e = Done p;
  pa_commit : exists c, be_commit e = Done c;
  pa_regex : static cl = false -> exists u, be_regex e = Done u }.
Definition outcome (cl : cmdline) (e : buildEnv) (pre acts : list deed) (r : tool unit) : Prop :=
  acts = pre ++ fst (work cl e) ++ printed (work cl e) /\ r = (match snd (work cl e) with Done _ => Done tt | Panics m => Panics m end).
Lemma proceed_course cl e acts r : proceed cl e = (acts, r) ->
  (quiet_acts acts /\ exists m, r = Panics m) \/
  (passed cl e /\ exists pre, quiet_acts pre /\ (static cl = true -> pre = []) /\ outcome cl e pre acts r).
Proof.
  unfold proceed. destruct (check_unit (static cl) (be_pluginDir e) (be_outputDir e)) as [Eo|[m Eo]]; rewrite Eo;
    [|intros [= <- <-]; left; split; [apply quiet_nil|eauto]].
  destruct (be_pkg e) as [p|] eqn:Ep; [|intros [= <- <-]; left; split; [apply quiet_nil|eauto]].
  destruct (be_commit e) as [c|] eqn:Ec; [|intros [= <- <-]; left; split; [apply quiet_nil|eauto]].
  assert (Hf : forall pre, match snd (work cl e) with
      | Panics m => (pre ++ fst (work cl e), Panics m)
      | Done f => (pre ++ fst (work cl e) ++ (if String.eqb f "" then [] else [ActPrint f]), Done tt)
      end = (acts, r) -> outcome cl e pre acts r).
  { intros pre. unfold outcome, printed. destruct (snd (work cl e)); intros [= <- <-]; [done|]. by rewrite app_nil_r. }
  destruct (static cl) eqn:Es.
  - intros H. right. split; [split; [by rewrite Es|eauto|eauto|by rewrite Es]|]. exists []. split; [apply quiet_nil|]. split; [done|]. by apply Hf.
  - destruct (be_regex e) as [u|] eqn:Er; [|intros [= <- <-]; left; split; [apply quiet_nil|eauto]].
    assert (Hp : passed cl e) by (split; [by rewrite Es|eauto|eauto|eauto]).
    destruct (be_left e) as [[u'|m]|].
    + intros H. right. split; [done|]. exists [ActRemoveTmp]. split; [apply quiet_rm|]. split; [done|]. by apply Hf.
    + intros [= <- <-]; left; split; [apply quiet_rm|eauto].
    + intros H. right. split; [done|]. exists []. split; [apply quiet_nil|]. split; [done|]. by apply Hf.
Qed.
Record entered (cl : cmdline) (e : buildEnv) : Prop := {
  en_args : length (cl_args cl) = 2;
  en_clean : cl_clean cl = true -> static cl = true;
  en_prefix : cl_prefix cl <> "";
  en_plugin : exists u, be_plugin e = Done u;
  en_path : exists u, be_path e = Done u;
  en_windows : static cl = false -> be_windows e = false;
  en_exists : static cl = true -> be_out e = OutDir }.
Lemma course cl e acts r : executeBody cl e = (acts, r) ->
  (quiet_acts acts /\ exists m, r = Panics m) \/
  (entered cl e /\ passed cl e /\ exists pre, quiet_acts pre /\ (static cl = true -> pre = []) /\ outcome cl e pre acts r).
Proof.
  unfold executeBody. destruct (Nat.eqb_spec (length (cl_args cl)) 2) as [Ha|Ha]; cbn [negb]; [|intros [= <- <-]; left; split; [apply quiet_nil|eauto]].
  destruct (negb (static cl) && be_windows e) eqn:Ew; [intros [= <- <-]; left; split; [apply quiet_nil|eauto]|].
  destruct (negb (static cl) && cl_clean cl) eqn:Ec; [intros [= <- <-]; left; split; [apply quiet_nil|eauto]|].
  destruct (String.eqb_spec (cl_prefix cl) "") as [Ep|Ep]; [intros [= <- <-]; left; split; [apply quiet_nil|eauto]|].
  destruct (be_plugin e) as [u|m] eqn:Epl; [|intros [= <- <-]; left; split; [apply quiet_nil|eauto]].
  assert (Hmain : forall pre, quiet_acts pre -> (static cl = true -> pre = []) -> (static cl = true -> be_out e = OutDir) ->
    match be_path e with Panics m => (pre, Panics m) | Done _ => let r := proceed cl e in (pre ++ fst r, snd r) end = (acts, r) ->
    (quiet_acts acts /\ exists m, r = Panics m) \/
    (entered cl e /\ passed cl e /\ exists pre, quiet_acts pre /\ (static cl = true -> pre = []) /\ outcome cl e pre acts r)).
  { intros pre Hq Hs Ho. destruct (be_path e) as [u'|] eqn:Epath; [|intros [= <- <-]; left; eauto]. cbv zeta.
    destruct (proceed cl e) as [acts' r'] eqn:Er. cbn [fst snd]. intros [= <- <-].
    apply proceed_course in Er as [[Hq' Hm]|(Hp & pre' & Hq' & Hs' & -> & ->)]; [left; split; [by apply quiet_app|done]|].
    right. split; [|split; [done|]].
    - split; [done| |done|eauto|eauto| |done].
      + intros Hc. rewrite Hc in Ec. by destruct (static cl).
      + intros Hc. rewrite Hc in Ew. done.
    - exists (pre ++ pre'). split; [by apply quiet_app|]. split.
      + intros Hst. by rewrite (Hs Hst), (Hs' Hst).
      + split; [by rewrite app_assoc|done]. }
  destruct (be_out e) as [|mk|m] eqn:Eo.
  - apply (Hmain []); [apply quiet_nil|done|done].
  - destruct (static cl) eqn:Es; [intros [= <- <-]; left; split; [apply quiet_nil|eauto]|].
    destruct mk as [u'|m]; [|intros [= <- <-]; left; split; [apply quiet_mk|eauto]].
    apply (Hmain [ActMkOutput]); [apply quiet_mk|done|done].
  - intros [= <- <-]; left; split; [apply quiet_nil|eauto].
Qed.
Lemma quiet_no acts a : quiet_acts acts -> a ∈ acts -> ~ works a /\ (forall f, a <> ActPrint f).
Proof. intros H Ha. unfold quiet_acts in H. rewrite Forall_forall in H. destruct (H a Ha) as [-> | ->]; (split; [by intros []|by intros f]). Qed.

Lemma so_normal b : normal b -> normal (b +:+ ".so").
Proof.
  intros (H1 & _ & _ & H2). unfold normal, no_slash in *. rewrite las_app.
  destruct b as [|c1 b]; [done|]. split_and!; [done| | |].
  - cbn. intros [= _ E]. by destruct b.
  - cbn. intros [= _ E]. destruct b as [|c2 b]; [done|]. cbn in E. injection E as _ E. by destruct b.
  - rewrite in_app_iff. intros [H|H]; [done|]. cbn in H. intuition discriminate.
Qed.

(** ** C64 *)
(** The arguments before the first "--" are the tool's, all after it - other "--" included - go to go build. *)
Theorem C64_command_line args : 
  (forall a b, args = a ++ "--" :: b -> "--" ∉ a -> splitArgs args = (a, b)) /\ ("--" ∉ args -> splitArgs args = (args, [])).
Proof.
  split.
  - intros a b -> Ha. induction a as [|x a IH]; cbn [splitArgs app]; [done|]. rewrite not_elem_of_cons in Ha. destruct Ha as [Hx Ha].
    destruct (String.eqb_spec x "--") as [->|_]; [done|]. by rewrite (IH Ha).
  - intros Ha. induction args as [|x a IH]; cbn [splitArgs]; [done|]. rewrite not_elem_of_cons in Ha. destruct Ha as [Hx Ha].
    destruct (String.eqb_spec x "--") as [->|_]; [done|]. by rewrite (IH Ha).
Qed.
(** Nothing is copied, generated, built, deleted in the plugin directory or cleaned before all checks have been passed. *)
Theorem C64_checks_come_first cl e acts r a : executeBody cl e = (acts, r) -> a ∈ acts -> works a -> checked cl e.
Proof.
  intros H Ha Hw. apply course in H as [[Hq _]|(En & Pa & pre & Hq & Hs & -> & _)]; [by destruct (quiet_no _ _ Hq Ha)|].
  destruct En, Pa. split; try done. intros Hst. split; [by apply pa_regex0|]. split; [|by apply en_windows0].
  unfold work in Ha. rewrite Hst in Ha. cbn [negb] in Ha. destruct (be_required e) as [u|m]; [eauto|].
  cbn [fst snd printed] in Ha. rewrite !elem_of_app, elem_of_nil in Ha. destruct Ha as [Ha|[Ha|Ha]]; [by destruct (quiet_no _ _ Hq Ha)|done|done].
Qed.
Lemma dynamic_work cl e : static cl = false -> (exists u, be_required e = Done u) -> work cl e = buildPlugin cl e.
Proof. intros Hs [u Hu]. unfold work. by rewrite Hs, Hu. Qed.
Lemma out_ne p o : String.eqb (outputFile p o) "" = false.
Proof.
  apply String.eqb_neq. unfold outputFile, GoJoin. assert (Hc : forall s, Clean s <> "").
  { intros s. unfold Clean. destruct (rooted s); [done|]. destruct (String.eqb_spec (join_with "/" (resolve false [] (split_slash s))) ""); [done|done]. }
  cbn [drop_empty]. destruct o; [|apply Hc]. destruct (path_base p +:+ ".so") eqn:E; [|apply Hc]. by destruct (path_base p).
Qed.
(** A dynamic build that exits with status 0 ends with a go build that succeeded, into <outputDir>/<base name of the plugin directory>.so, with the
    user's build flags last, and prints that file. *)
Theorem C64_success_means_built cl e acts ps b os : exitCode (executeBody cl e) = 0 -> fst (executeBody cl e) = acts -> static cl = false -> go_build cl = true ->
  be_pluginDir e = render (ps ++ [b]) -> be_outputDir e = render os -> Forall normal (ps ++ [b]) -> Forall normal os ->
  let file := render (os ++ [b +:+ ".so"]) in
  exists before t, acts = before ++ [ActGenerate t; ActGo (["build"; "-trimpath"; "-buildmode=plugin"; "-o"; file] ++ cl_buildFlags cl) true; ActPrint file] /\
    (forall f, ActPrint f ∉ before) /\ (forall x ok, ActGo x ok ∉ before) /\ be_go e t = true.
Proof.
  intros Hx Hacts Hst Hgo Hp Ho Hnp Hno. cbv zeta.
  assert (H : exists u, executeBody cl e = (acts, Done u)).
  { unfold exitCode in Hx. destruct (executeBody cl e) as [l [u|m]]; cbn [fst snd] in *; [|done]. subst l. by exists u. }
  destruct H as [u H]. clear Hx Hacts. assert (Hfile : outputFile (be_pluginDir e) (be_outputDir e) = render (os ++ [b +:+ ".so"])).
  { unfold outputFile. rewrite Hp, Ho. apply Forall_app in Hnp as [_ Hb]. apply Forall_cons in Hb as [Hb _]. rewrite base_render by done. apply GoJoin_normal; [done|].
    by apply so_normal. }
  apply course in H as [[_ [m Hm]]|(En & Pa & pre & Hq & Hs & -> & Hr)]; [done|].
  destruct (be_required e) as [u'|m] eqn:Ereq; [|unfold work in Hr; by rewrite Hst, Ereq in Hr].
  rewrite (dynamic_work cl e Hst) in * by eauto. unfold printed. unfold buildPlugin in *.
  destruct (be_copy e) as [t|m] eqn:Ecopy; [|done]. cbv zeta in *. destruct (completeDynamic (be_job e) t) as [t' [u2|m]] eqn:Ecd; [|done]. cbn [fst snd] in *.
  rewrite Hgo in *. cbn [negb] in *. destruct (be_go e t') eqn:Eg; [|done]. cbn [fst snd]. rewrite out_ne, Hfile.
  exists (pre ++ [ActCopy]), t'. split_and!; [| | |done].
  - by rewrite <- !app_assoc.
  - intros f Hf. apply elem_of_app in Hf as [Hf|Hf]; [|by apply elem_of_list_singleton in Hf]. destruct (quiet_no _ _ Hq Hf) as [_ Hn]. by apply (Hn f).
  - intros x ok Hf. apply elem_of_app in Hf as [Hf|Hf]; [|by apply elem_of_list_singleton in Hf]. destruct (quiet_no _ _ Hq Hf) as [Hn _]. by apply Hn.
Qed.
(** The status is 0 or 1.  A dynamic build that was to run go build exits with 0 if a go build succeeded; else with 1, and prints nothing. *)
Theorem C64_exit_status cl e : static cl = false -> go_build cl = true -> let r := executeBody cl e in
  exitCode r = 0 /\ (exists args, ActGo args true ∈ fst r) /\ (forall args, ActGo args false ∉ fst r) \/
  exitCode r = 1 /\ (forall args, ActGo args true ∉ fst r) /\ (forall f, ActPrint f ∉ fst r).
Proof.
  intros Hst Hgo r. unfold r. destruct (executeBody cl e) as [acts x] eqn:H. unfold exitCode. cbn [fst snd].
  apply course in H as [[Hq [m ->]]|(En & Pa & pre & Hq & Hs & -> & Hr)].
  { right. split; [done|]. split; [intros a Ha; by destruct (quiet_no _ _ Hq Ha) as [[] _]|intros f Hf; destruct (quiet_no _ _ Hq Hf) as [_ Hn]; by apply (Hn f)]. }
  assert (Hpre : forall a, a ∈ pre -> ~ works a /\ forall f, a <> ActPrint f) by (intros a Ha; by apply (quiet_no _ _ Hq Ha)).
  unfold outcome in Hr. cbn [fst snd] in *. subst x. unfold work. rewrite Hst. cbn [negb].
  destruct (be_required e) as [u'|m] eqn:Ereq; cbn [fst snd printed app].
  2:{ right. split; [done|]. split; intros a Ha; rewrite app_nil_r in Ha; destruct (Hpre _ Ha) as [H1 H2]; [by apply H1|by apply (H2 a)]. }
  unfold buildPlugin. destruct (be_copy e) as [t|m] eqn:Ecopy; cbn [fst snd printed].
  2:{ right. split; [done|]. rewrite app_nil_r. split; intros a Ha; apply elem_of_app in Ha as [Ha|Ha]; [by apply (Hpre _ Ha)|by apply elem_of_list_singleton in Ha|by apply (proj2 (Hpre _ Ha) a)|by apply elem_of_list_singleton in Ha]. }
  cbv zeta. destruct (completeDynamic (be_job e) t) as [t' [u2|m]] eqn:Ecd; cbn [fst snd printed].
  2:{ right. split; [done|]. rewrite app_nil_r. split; intros a Ha; rewrite elem_of_app, !elem_of_cons, elem_of_nil in Ha; destruct Ha as [Ha|[Ha|[Ha|Ha]]]; try done; [by apply (Hpre _ Ha)|by apply (proj2 (Hpre _ Ha) a)]. }
  rewrite Hgo. cbn [negb]. destruct (be_go e t') eqn:Eg; cbn [fst snd printed].
  - left. rewrite out_ne. split; [done|]. split; [eexists; apply elem_of_app; right; apply elem_of_app; left; apply elem_of_app; right; left|].
    intros args Ha. rewrite !elem_of_app, !elem_of_cons, !elem_of_nil in Ha. destruct Ha as [Ha|[[[Ha|[Ha|Ha]]|[Ha|Ha]]|[Ha|Ha]]]; try done. by apply (Hpre _ Ha).
  - right. split; [done|]. rewrite app_nil_r. split; intros a Ha; rewrite !elem_of_app, !elem_of_cons, !elem_of_nil in Ha; destruct Ha as [Ha|[[Ha|[Ha|Ha]]|Ha]]; try done;
      first [by apply (Hpre _ Ha)|by apply (proj2 (Hpre _ Ha) a)|by destruct Ha].
Qed.
(** A build interrupted while it looks for live names - before anything was generated - does not fail because of that: go build runs on the bare copy,
    and its status alone decides. *)
Theorem C64_early_interrupt_is_not_noticed cl e t : static cl = false -> go_build cl = true -> jb_early (be_job e) = true -> ActGenerate t ∈ fst (executeBody cl e) ->
  be_copy e = Done t /\ (exitCode (executeBody cl e) = 0 <-> be_go e t = true).
Proof.
  intros Hst Hgo He Ht. destruct (executeBody cl e) as [acts r] eqn:H. cbn [fst] in Ht. unfold exitCode. cbn [snd].
  apply course in H as [[Hq _]|(En & Pa & pre & Hq & _ & -> & Hr)]; [by destruct (quiet_no _ _ Hq Ht) as [[] _]|].
  destruct (be_required e) as [u'|m] eqn:Ereq.
  2:{ exfalso. unfold work in Ht. rewrite Hst, Ereq in Ht. cbn in Ht. apply elem_of_app in Ht as [Ht|Ht]; [by destruct (quiet_no _ _ Hq Ht) as [[] _]|by apply elem_of_nil in Ht]. }
  rewrite (dynamic_work cl e Hst) in * by eauto. unfold buildPlugin in *.
  destruct (be_copy e) as [t0|m] eqn:Ecopy.
  2:{ exfalso. cbn in Ht. apply elem_of_app in Ht as [Ht|Ht]; [by destruct (quiet_no _ _ Hq Ht) as [[] _]|by apply elem_of_list_singleton in Ht]. }
  cbv zeta in *. unfold completeDynamic in *. rewrite He in *. cbn [fst snd] in *. rewrite Hgo in *. cbn [negb] in *.
  assert (t = t0) as ->.
  { apply elem_of_app in Ht as [Ht|Ht]; [by destruct (quiet_no _ _ Hq Ht) as [[] _]|].
    destruct (be_go e t0); cbn [fst snd printed] in Ht; rewrite ?out_ne in Ht; cbn in Ht; rewrite ?elem_of_app, ?elem_of_cons, ?elem_of_nil in Ht;
      repeat (destruct Ht as [Ht|Ht]; try done); by injection Ht. }
  split; [done|]. rewrite Hr. destruct (be_go e t0); done.
Qed.
(** A file is printed only by such a build: not after a failure, not with --goBuild=false, not in static mode. *)
Theorem C64_printed_only_when_built cl e acts r f : executeBody cl e = (acts, r) -> ActPrint f ∈ acts ->
  r = Done tt /\ static cl = false /\ go_build cl = true /\ exists before t, acts = before ++ [ActGenerate t; ActGo (goArgs f (cl_buildFlags cl)) true; ActPrint f].
Proof.
  intros H Hf. apply course in H as [[Hq _]|(En & Pa & pre & Hq & Hs & -> & Hr)].
  { destruct (quiet_no _ _ Hq Hf) as [_ Hn]. by destruct (Hn f). }
  assert (Hf' : ActPrint f ∈ fst (work cl e) ++ printed (work cl e)).
  { apply elem_of_app in Hf as [Hf|Hf]; [|done]. destruct (quiet_no _ _ Hq Hf) as [_ Hn]. by destruct (Hn f). }
  unfold work in *. destruct (static cl) eqn:Est; cbn [negb] in *.
  - exfalso. unfold printed in Hf'. destruct (cl_clean cl); cbv zeta in *; cbn [fst snd] in *.
    + destruct (snd (cleanJob _ _)); cbn in Hf'; rewrite ?app_nil_r in Hf'; by apply elem_of_list_singleton in Hf'.
    + destruct (snd (fst (staticJob _ _))); cbn in Hf'; rewrite ?app_nil_r in Hf'; by apply elem_of_list_singleton in Hf'.
  - destruct (be_required e) as [u'|m]; [|by apply elem_of_nil in Hf']. unfold buildPlugin in *.
    destruct (be_copy e) as [t|m] eqn:Ecopy; [|by rewrite app_nil_r in Hf'; apply elem_of_list_singleton in Hf']. cbv zeta in *.
    destruct (completeDynamic (be_job e) t) as [t' [u2|m]] eqn:Ecd; cbn [fst snd printed] in *.
    2: { unfold printed in Hf'. cbn [snd] in Hf'. rewrite app_nil_r in Hf'. rewrite !elem_of_cons, elem_of_nil in Hf'. by destruct Hf' as [?|[?|?]]. }
    destruct (go_build cl); cbn [negb] in *.
    2: { unfold printed in Hf'. cbn [fst snd] in Hf'. change (String.eqb "" "") with true in Hf'. rewrite app_nil_r, !elem_of_cons, elem_of_nil in Hf'. by destruct Hf' as [?|[?|?]]. }
    unfold printed in *. destruct (be_go e t'); cbn [fst snd] in *.
    + rewrite out_ne in *. rewrite !elem_of_app, !elem_of_cons, elem_of_nil in Hf'.
      assert (f = outputFile (be_pluginDir e) (be_outputDir e)) as ->.
      { destruct Hf' as [[[?|[?|?]]|[?|?]]|[Hf'|?]]; try done. by injection Hf'. }
      split_and!; [done|done|done|]. exists (pre ++ [ActCopy]), t'. by rewrite <- !app_assoc.
    + exfalso. rewrite app_nil_r, !elem_of_app, !elem_of_cons, elem_of_nil in Hf'. destruct Hf' as [[?|[?|?]]|[?|?]]; done.
Qed.

(** *** The two modes *)
(** A static build only runs the generator, `--clean` only cleans: no copying, no go build, nothing removed or made elsewhere.  With --goBuild=false
    nothing is built. *)
Theorem C64_static_build cl e acts r : executeBody cl e = (acts, r) -> static cl = true ->
  (acts = [] /\ exists m, r = Panics m) \/
  (cl_clean cl = true /\ acts = [ActClean (fst (cleanJob (jb_outBase (be_job e)) (be_dirs e)))]) \/
  (cl_clean cl = false /\ acts = [ActStatic (left_by (staticJob (be_job e) (be_dirs e)))]).
Proof.
  intros H Hst. pose proof H as H0. apply course in H as [[Hq Hm]|(En & Pa & pre & Hq & Hs & -> & Hr)].
  - left. split; [|done]. unfold executeBody, proceed in H0. rewrite Hst in H0. cbn [negb andb] in H0.
    destruct (Nat.eqb (length (cl_args cl)) 2); cbn [negb] in H0; [|by injection H0 as <- _].
    destruct (String.eqb (cl_prefix cl) ""); [by injection H0 as <- _|]. destruct (be_plugin e); [|by injection H0 as <- _].
    destruct (be_out e); [|by injection H0 as <- _|by injection H0 as <- _]. destruct (be_path e); [|by injection H0 as <- _].
    cbv zeta in H0. destruct (outputCheck true _ _); [|by injection H0 as <- _]. destruct (be_pkg e); [|by injection H0 as <- _]. destruct (be_commit e); [|by injection H0 as <- _].
    injection H0 as <- _. exfalso. assert (Hw : exists a, a ∈ fst (work cl e) /\ works a).
    { unfold work. rewrite Hst. cbn [negb]. destruct (cl_clean cl); cbv zeta; cbn [fst]; eexists; (split; [by left|done]). }
    destruct Hw as (a & Ha & Hw). destruct (snd (work cl e)); cbn [fst app] in Hq; (eapply quiet_no in Hq as [Hn _]; [by apply Hn|]); [apply elem_of_app; by left|done].
  - right. rewrite (Hs Hst). cbn [app]. unfold work, printed. rewrite Hst. cbn [negb]. destruct (cl_clean cl); [left|right]; (split; [done|]); cbv zeta; cbn [fst snd].
    + by destruct (snd (cleanJob _ _)).
    + by destruct (snd (fst (staticJob _ _))).
Qed.
Theorem C64_no_go_build cl e acts r x ok : executeBody cl e = (acts, r) -> ActGo x ok ∈ acts -> static cl = false /\ go_build cl = true.
Proof.
  intros H Ha. apply course in H as [[Hq _]|(En & Pa & pre & Hq & Hs & -> & Hr)].
  { destruct (quiet_no _ _ Hq Ha) as [Hn _]. by destruct Hn. }
  apply elem_of_app in Ha as [Ha|Ha]; [by destruct (quiet_no _ _ Hq Ha) as [[] _]|]. apply elem_of_app in Ha as [Ha|Ha].
  2: { unfold printed in Ha. destruct (snd (work cl e)); [|by apply elem_of_nil in Ha]. destruct (String.eqb _ _); [by apply elem_of_nil in Ha|by apply elem_of_list_singleton in Ha]. }
  unfold work in Ha. destruct (static cl); cbn [negb] in Ha.
  - destruct (cl_clean cl); cbv zeta in Ha; cbn [fst] in Ha; by apply elem_of_list_singleton in Ha.
  - split; [done|]. destruct (be_required e); [|by apply elem_of_nil in Ha]. unfold buildPlugin in Ha.
    destruct (be_copy e); [|by apply elem_of_list_singleton in Ha]. cbv zeta in Ha. destruct (snd (completeDynamic _ _)).
    + destruct (go_build cl); [done|]. cbn [negb fst] in Ha. rewrite !elem_of_cons, elem_of_nil in Ha. by destruct Ha as [?|[?|?]].
    + cbn [fst] in Ha. rewrite !elem_of_cons, elem_of_nil in Ha. by destruct Ha as [?|[?|?]].
Qed.

(** *** Interrupts *)
Lemma lives_all lives s s' u b : genLives None lives s = ((s', Done u), b) -> b = true.
Proof.
  revert s. induction lives as [|[dir text] lives IH]; intros s; cbn [genLives]; [by intros [= _ _ <-]|].
  destruct (writeNode _ text s) as [s1 [u1|]]; cbn [fst snd option_map]; [apply IH|done].
Qed.
(** If the program was not interrupted, go build finds the code generated for every directory with live names. *)
Theorem C64_complete_unless_interrupted cl e acts r t lives : executeBody cl e = (acts, r) -> r = Done tt -> static cl = false -> ActGenerate t ∈ acts ->
  jb_early (be_job e) = false -> jb_stop (be_job e) = None -> jb_found (be_job e) = Done lives -> List.NoDup (map fst lives) ->
  t !! ["hotswap.main.go"] = Some (NFile (jb_main (be_job e) "main")) /\
  t !! ["hotswapbureau"; "hotswap.bureau.go"] = Some (NFile (jb_bureau (be_job e))) /\
  forall dir c, In (dir, c) lives -> t !! (dir ++ ["hotswap.live.go"]) = Some (NFile c).
Proof.
  intros H -> Hst Ht He Hstop Hl Hnd. apply course in H as [[_ [m ?]]|(En & Pa & pre & Hq & _ & -> & Hr)]; [done|].
  destruct (be_required e) as [u'|m] eqn:Ereq; [|unfold work in Hr; by rewrite Hst, Ereq in Hr].
  rewrite (dynamic_work cl e Hst) in * by eauto. unfold buildPlugin in *.
  destruct (be_copy e) as [t0|m] eqn:Ecopy; [|done]. cbv zeta in *. destruct (completeDynamic (be_job e) t0) as [t' [u2|m]] eqn:Ecd; [|done]. cbn [fst snd] in *.
  assert (t = t') as ->.
  { apply elem_of_app in Ht as [Ht|Ht]; [by destruct (quiet_no _ _ Hq Ht) as [[] _]|]. unfold printed in Ht.
    destruct (negb (go_build cl)); [|destruct (be_go e t')]; cbn [fst snd] in Ht; rewrite ?out_ne in Ht; cbn in Ht; rewrite ?elem_of_app, ?elem_of_cons, ?elem_of_nil in Ht;
      repeat (destruct Ht as [Ht|Ht]; try done); by injection Ht. }
  unfold completeDynamic in Ecd. rewrite He, Hl, Hstop in Ecd. cbv zeta in Ecd. unfold andThen in Ecd.
  destruct (genBureau _ _) as [s1 [u1|]] eqn:E1; cbn [fst snd] in Ecd; [|done]. apply bureau_done in E1. cbn [ds_plugin] in E1.
  destruct (genMain _ _ s1) as [s2 [u3|]] eqn:E2; cbn [fst snd] in Ecd; [|done]. apply main_done in E2 as (n & [= <-] & E2).
  destruct (genLives None lives s2) as [[s3 r3] b] eqn:E3. cbn [fst snd] in Ecd. injection Ecd as <- ->.
  pose proof (lives_all _ _ _ _ _ E3) as ->. apply lives_done in E3. subst s3. cbn [ds_plugin].
  assert (Hother : forall p, (forall dir, p <> dir ++ ["hotswap.live.go"]) -> foldl put (ds_plugin s2) lives !! p = ds_plugin s2 !! p).
  { intros p Hp. destruct (put_lookup lives (ds_plugin s2) p Hnd) as [(dir & c & _ & Hc & _)|[_ ->]]; [|done]. by destruct (Hp dir). }
  split_and!.
  - rewrite Hother; [subst s2 s1; cbn [ds_plugin]; apply lookup_insert|]. intros dir E. change ["hotswap.main.go"] with ([] ++ ["hotswap.main.go"]) in E. by apply app_inj_tail in E as [_ ?].
  - rewrite Hother; [subst s2 s1; cbn [ds_plugin]; rewrite lookup_insert_ne by done; apply lookup_insert|]. intros dir E.
    change ["hotswapbureau"; "hotswap.bureau.go"] with (["hotswapbureau"] ++ ["hotswap.bureau.go"]) in E. by apply app_inj_tail in E as [_ ?].
  - intros dir c Hin. destruct (put_lookup lives (ds_plugin s2) (dir ++ ["hotswap.live.go"]) Hnd) as [(dir' & c' & Hin' & Hc & ->)|[Hno _]].
    + apply live_inj in Hc as <-. do 2 f_equal. by eapply nodup_fst_inj.
    + by destruct (Hno _ _ Hin).
Qed.
(** A build interrupted while the code is generated goes on to go build: it can exit with status 0 and print a plugin that lacks live functions, the
    code that registers those of the directory sub having never been written. *)
Definition demo_cl : cmdline := mkCmd build_flags false "live_" ["plugin/foo"; "bin"] ["-race"].
Definition demo_src : ptree := list_to_map [(["main.go"], NFile "package main"); (["sub"], NDir); (["sub"; "live.go"], NFile "live code")].
Definition demo_env (stop : option nat) : buildEnv :=
  mkEnv false (Done tt) OutDir (Done tt) "/src/plugin/foo" "/src/bin" (Done "example.com/src/plugin/foo") (Done "20230101000000-0a1b2c3d") (Done tt) None (Done tt)
    (Done demo_src) (mkJob "foo" (Done [(["sub"], "registers the live functions")]) false stop (Done "main") "bureau text" (fun p => "package " +:+ p) (Panics "") "bin" "main")
    (fun t => match look t ["main.go"], look t ["hotswap.main.go"] with Some _, Some _ => true | _, _ => false end) (mkDirs ∅ ∅).
Definition generated_tree (acts : list deed) : list ptree := omap (fun a => match a with ActGenerate t => Some t | _ => None end) acts.
Definition prints (acts : list deed) : list string := omap (fun a => match a with ActPrint f => Some f | _ => None end) acts.
Theorem C64_interrupted_build_can_succeed : exists cl e, let r := executeBody cl e in
  jb_found (be_job e) = Done [(["sub"], "registers the live functions")] /\ exitCode r = 0 /\ prints (fst r) = ["/src/bin/foo.so"] /\
  map (fun t => look t ["sub"; "hotswap.live.go"]) (generated_tree (fst r)) = [None].
Proof. exists demo_cl, (demo_env (Some 0)). cbv zeta. vm_compute. auto. Qed.
Example C64_case : let r := executeBody demo_cl (demo_env None) in
  exitCode r = 0 /\ prints (fst r) = ["/src/bin/foo.so"] /\ map (fun t => look t ["sub"; "hotswap.live.go"]) (generated_tree (fst r)) = [Some (Some "registers the live functions")].
Proof. vm_compute. auto. Qed.

(** *** The loader and the built file *)
Section Loader.
Context {E : GoEnv}.
(** The loader finds the built file in the output directory, under the base name of the plugin's directory - unless a whitelist leaves it out. *)
Theorem C64_loader_finds_it entries b : has_file entries b -> b +:+ ".so" ∈ plugin_files [] entries /\ plugin_of (b +:+ ".so") = b.
Proof.
  intros H. split; [|apply (proj2 (ListProofs.suffix_app b ".so"))]. apply elem_plugin_files. unfold has_file in H. split_and!; [done|apply (proj2 (plugin_of_spec (b +:+ ".so") b)); done|].
  by left.
Qed.
(** A plugin directory whose name has an upper-case letter is built without complaint, but no load accepts the file. *)
Theorem C64_mixed_case_plugin_cannot_be_loaded o h cur a t r dir entries b :
  next_call o h cur (api_prog o a) t r -> o_static o = None -> o_whitelist o = [] -> listed t dir entries -> has_file entries b ->
  to_lower b <> b -> must_open cur t dir (b +:+ ".so") -> ~ is_val r /\ after cur t = cur.
Proof.
  intros HN Hst Hw HL Hf Hmix Ho. destruct (C64_loader_finds_it entries b Hf) as [Hin Hp].
  destruct (C28_mixed_case_file_is_refused o h cur a t r dir entries (b +:+ ".so") HN Hst HL) as (H1 & H2 & _); [by rewrite Hw|by rewrite Hp|done|done].
Qed.
End Loader.
Definition mixed_env : buildEnv :=
  let e := demo_env None in
  mkEnv (be_windows e) (be_plugin e) (be_out e) (be_path e) "/src/plugin/Foo" "/p" (be_pkg e) (be_commit e) (be_regex e) (be_left e) (be_required e) (be_copy e) (be_job e) (be_go e) (be_dirs e).
Example C64_mixed_case : exitCode (executeBody demo_cl mixed_env) = 0 /\ prints (fst (executeBody demo_cl mixed_env)) = ["/p/Foo.so"] /\
  next_call dyn [] None (api_prog dyn (Call_LoadPlugins 1)) t_mixed (Err (EPanic None PNil)).
Proof. split; [vm_compute; reflexivity|]. split; [vm_compute; reflexivity|]. apply demo_first; [done|apply world_mixed_ok|vm_compute; reflexivity]. Qed.
Definition early_env : buildEnv :=
  let e := demo_env None in let j := be_job e in
  mkEnv (be_windows e) (be_plugin e) (be_out e) (be_path e) (be_pluginDir e) (be_outputDir e) (be_pkg e) (be_commit e) (be_regex e) (be_left e) (be_required e) (be_copy e)
    (mkJob (jb_plugin j) (jb_found j) true (jb_stop j) (jb_pkg j) (jb_bureau j) (jb_main j) (jb_gen j) (jb_outBase j) (jb_outPkg j)) (fun _ => true) (be_dirs e).
Example C64_early_case : let r := executeBody demo_cl early_env in (jb_early (be_job early_env) = true) /\ exitCode r = 0 /\ prints (fst r) = ["/src/bin/foo.so"] /\ map (fun t => look t ["hotswap.main.go"]) (generated_tree (fst r)) = [None].
Proof. vm_compute. auto. Qed.
Definition failing_env : buildEnv :=
  let e := demo_env None in
  mkEnv (be_windows e) (be_plugin e) (be_out e) (be_path e) (be_pluginDir e) (be_outputDir e) (be_pkg e) (be_commit e) (be_regex e) (be_left e) (be_required e) (be_copy e) (be_job e) (fun _ => false) (be_dirs e).
Example C64_exit_case : static demo_cl = false /\ go_build demo_cl = true /\ exitCode (executeBody demo_cl failing_env) = 1 /\ prints (fst (executeBody demo_cl failing_env)) = [] /\
  length (fst (executeBody demo_cl failing_env)) = 3.
Proof. vm_compute. auto. Qed.
Print Assumptions C64_exit_status.
Print Assumptions C64_early_interrupt_is_not_noticed.
Print Assumptions C64_command_line.
Print Assumptions C64_checks_come_first.
Print Assumptions C64_success_means_built.
Print Assumptions C64_printed_only_when_built.
Print Assumptions C64_static_build.
Print Assumptions C64_no_go_build.
Print Assumptions C64_complete_unless_interrupted.
Print Assumptions C64_interrupted_build_can_succeed.
Print Assumptions C64_loader_finds_it.
Print Assumptions C64_mixed_case_plugin_cannot_be_loaded.
