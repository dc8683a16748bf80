(** OnLoad, vault, OnInit and OnFree phases *)
From Verif Require Export InitProofs.

Section Proofs.
Context {E : GoEnv}.

(** no reference counting, no plugin admitted or created *)
Definition noref (t : list event) : Prop :=
  admitted t = [] /\ increments t = [] /\ decrements t = [] /\ created t = [].
Lemma noref_app t1 t2 : noref t1 -> noref t2 -> noref (t1 ++ t2).
Proof.
  intros (A1 & I1 & D1 & C1) (A2 & I2 & D2 & C2). unfold noref.
  rewrite admitted_app, increments_app, decrements_app, created_app, A1, I1, D1, C1, A2, I2, D2, C2. done.
Qed.

(** events that are calls of one of the roles in [P] *)
Definition call_in (P : role -> Prop) (e : event) : Prop :=
  match e with EvCall r _ _ _ => P r | _ => False end.
Lemma calls_noref P t : Forall (call_in P) t -> (forall r, P r -> r <> RExport) -> noref t.
Proof.
  intros H HP. induction H as [|e t He Ht IH]; [done|].
  destruct e; try done. change (EvCall r c arg x :: t) with ([EvCall r c arg x] ++ t).
  apply noref_app; [|done]. simpl in He. specialize (HP r He). by destruct r.
Qed.

Lemma only_call (P : forall X, act X -> Prop) r mid p arg : (forall c, P _ (ACall r c arg)) -> only P (call r mid p arg).
Proof. intros H. unfold call. destruct (get_func r (pl_funcs p)); simpl; auto. Qed.

(** ** OnLoad *)
Lemma exec_onLoadOne data k s t s' o p :
  pm_map s !! k = Some p -> exec (onLoadOne data k s) t (s', o) ->
  s' = s /\ Forall (call_in (eq ROnLoad)) t /\ (forall x, o <> Pan x) /\
  (call_sigs t = [] \/ is_new p = true /\ call_sigs t = [called ROnLoad (pm_id s) (ArgData data) p]) /\
  (o = Val tt -> if is_new p then call_sigs t = [called ROnLoad (pm_id s) (ArgData data) p] /\
       answered ROnLoad (pm_id s) (ArgData data) p (Val None) t else t = []) /\
  (forall e, o = Err e -> is_new p = true /\
     (answered ROnLoad (pm_id s) (ArgData data) p (Val (Some e)) t \/
      exists x, e = EPanic (Some (pl_name p)) x)).
Proof.
  intros Hp. unfold onLoadOne, is_new. intros H. xinv H. rewrite Hp in H.
  destruct (pl_unchanged p) eqn:Eu; cbn [negb].
  { xinv H. split_and!; try done. by left. }
  apply exec_sbind in H as [(t1 & t2 & s1 & e & -> & H1 & H)|(o1 & H1 & Hf)].
  - xinv H1. apply (exec_recovered_call ROnLoad) in H1 as [(v & [= <-] & _ & Hans & Hcs & c & Hc & ->)|(x & ? & _)]; [|done].
    destruct e as [e|]; xinv H; rewrite ?app_nil_r; split_and!; try done; try (by right); try fall.
    intros e' [= <-]. split; [done|]. left. rewrite ?app_nil_r in *. done.
  - xinv H1. apply (exec_recovered_call ROnLoad) in H1 as [(v & -> & _)|(x & -> & H1)]; [by destruct o|].
    destruct o as [|e|]; try done. simpl in Hf. subst e.
    destruct H1 as [[-> Hn]|(c & Hc & ->)]; split_and!; try done; try fall; eauto;
      try (by intros e [= <-]; eauto); try (right; split; [done|]; unfold called; by rewrite Hc); try done.
Qed.

Lemma exec_onLoads data keys s t s' o :
  (forall k, k ∈ keys -> is_Some (pm_map s !! k)) ->
  exec (sfor keys (onLoadOne data) s) t (s', o) ->
  let news := List.filter is_new (plugins_of (pm_map s) keys) in
  s' = s /\ Forall (call_in (eq ROnLoad)) t /\ (forall x, o <> Pan x) /\
  (exists rest, map (called ROnLoad (pm_id s) (ArgData data)) news = call_sigs t ++ rest) /\
  (o = Val tt -> call_sigs t = map (called ROnLoad (pm_id s) (ArgData data)) news /\
     Forall (fun p => answered ROnLoad (pm_id s) (ArgData data) p (Val None) t) news) /\
  (forall e, o = Err e -> exists p, p ∈ news /\
     (answered ROnLoad (pm_id s) (ArgData data) p (Val (Some e)) t \/
      exists x, e = EPanic (Some (pl_name p)) x)).
Proof.
  revert t; induction keys as [|k keys IH]; intros t Hin; cbn [sfor].
  - intros H. xinv H. simpl. split_and!; try done. by exists [].
  - destruct (Hin k) as [p Hp]; [by left|]. intros H. cbn [plugins_of]. rewrite Hp.
    apply exec_sbind in H as [(t1 & t2 & s1 & [] & -> & H1 & H)|(o1 & H1 & Hf)].
    + eapply exec_onLoadOne in H1 as (-> & Hc1 & _ & _ & Hok1 & _); [|done]. specialize (Hok1 eq_refl).
      apply IH in H as (-> & Hc & Hpan & (rest & Hrest) & Hok & Herr); [|intros; apply Hin; by right].
      simpl. rewrite call_sigs_app.
      assert (Hcs : call_sigs t1 = map (called ROnLoad (pm_id s) (ArgData data)) (if is_new p then [p] else [])).
      { destruct (is_new p); [apply Hok1|by subst]. }
      split_and!; try done; [by apply Forall_app| | |].
      * exists rest. rewrite <- app_assoc, <- Hrest, Hcs. destruct (is_new p); done.
      * intros ->. destruct (Hok eq_refl) as [Hcs2 Hall]. split.
        { rewrite Hcs, Hcs2. by destruct (is_new p). }
        assert (Hall' : Forall (fun p0 => answered ROnLoad (pm_id s) (ArgData data) p0 (Val None) (t1 ++ t2))
                  (List.filter is_new (plugins_of (pm_map s) keys))).
        { eapply Forall_impl; [exact Hall|]. intros; by apply answered_app_r. }
        destruct (is_new p); [|done]. constructor; [|done]. apply answered_app_l, Hok1.
      * intros e ->. destruct (Herr e eq_refl) as (q & Hq & Hcause). exists q. split.
        { destruct (is_new p); [by right|done]. }
        destruct Hcause as [Ha|?]; [left; by apply answered_app_r|by right].
    + eapply exec_onLoadOne in H1 as (-> & Hc1 & Hpan & Hcs & _ & Herr); [|done].
      simpl. split_and!; try done.
      * intros x ->. destruct o1; try done. by apply (Hpan p0).
      * destruct Hcs as [->|[-> ->]]; simpl; eauto.
      * intros ->. by destruct o1.
      * intros e ->. destruct o1; try done. simpl in Hf; subst. destruct (Herr e eq_refl) as [-> Hcause].
        exists p. split; [by left|done].
Qed.

(** ** OnInit *)
Lemma exec_onInitOne k s t s' o p :
  pm_map s !! k = Some p -> exec (onInitOne k s) t (s', o) ->
  (exists f, s' = upd_databag f s) /\ Forall (call_in (eq ROnInit)) t /\ (forall x, o <> Pan x) /\
  (call_sigs t = [] \/ is_new p = true /\ call_sigs t = [called ROnInit (pm_id s) (ArgVault (pm_id s)) p]) /\
  (o = Val tt -> if is_new p then call_sigs t = [called ROnInit (pm_id s) (ArgVault (pm_id s)) p] /\
       exists w, answered ROnInit (pm_id s) (ArgVault (pm_id s)) p (Val (w, None)) t /\
         s' = upd_databag (store_all w) s
     else t = [] /\ s' = s) /\
  (forall e, o = Err e -> is_new p = true /\
     ((exists w, answered ROnInit (pm_id s) (ArgVault (pm_id s)) p (Val (w, Some e)) t) \/
      exists x, e = EPanic (Some (pl_name p)) x)).
Proof.
  intros Hp. unfold onInitOne, is_new. intros H. xinv H. rewrite Hp in H.
  assert (Hid : s = upd_databag (fun m => m) s) by (by destruct s).
  destruct (pl_unchanged p) eqn:Eu; cbn [negb].
  { xinv H. split_and!; try done; eauto. }
  apply exec_sbind in H as [(t1 & t2 & s1 & we & -> & H1 & H)|(o1 & H1 & Hf)].
  - xinv H1. apply (exec_recovered_call ROnInit) in H1 as [(v & [= <-] & _ & Hans & Hcs & c & Hc & ->)|(x & ? & _)]; [|done].
    destruct we as [w e]. xinv H.
    destruct e as [e|]; xinv H; rewrite ?app_nil_r; split_and!; try done; try (by right); try fall; eauto.
    intros e' [= <-]. split; [done|]. left. rewrite ?app_nil_r in *. eauto.
  - xinv H1. apply (exec_recovered_call ROnInit) in H1 as [(v & -> & _)|(x & -> & H1)]; [by destruct o|].
    destruct o as [|e|]; try done. simpl in Hf. subst e.
    destruct H1 as [[-> Hn]|(c & Hc & ->)]; split_and!; try done; try fall; eauto;
      try (by intros e [= <-]; eauto); try (right; split; [done|]; unfold called; by rewrite Hc); try done.
Qed.

Lemma store_all_app l1 l2 m : store_all (l1 ++ l2) m = store_all l2 (store_all l1 m).
Proof. unfold store_all. by rewrite fold_left_app. Qed.

Lemma exec_onInits keys s t s' o :
  (forall k, k ∈ keys -> is_Some (pm_map s !! k)) ->
  exec (sfor keys onInitOne s) t (s', o) ->
  let news := List.filter is_new (plugins_of (pm_map s) keys) in
  (exists f, s' = upd_databag f s) /\ Forall (call_in (eq ROnInit)) t /\ (forall x, o <> Pan x) /\
  (exists rest, map (called ROnInit (pm_id s) (ArgVault (pm_id s))) news = call_sigs t ++ rest) /\
  (o = Val tt -> call_sigs t = map (called ROnInit (pm_id s) (ArgVault (pm_id s))) news /\
     exists ws, Forall2 (fun p w => answered ROnInit (pm_id s) (ArgVault (pm_id s)) p (Val (w, None)) t) news ws /\
       s' = upd_databag (store_all (concat ws)) s) /\
  (forall e, o = Err e -> exists p, p ∈ news /\
     ((exists w, answered ROnInit (pm_id s) (ArgVault (pm_id s)) p (Val (w, Some e)) t) \/
      exists x, e = EPanic (Some (pl_name p)) x)).
Proof.
  revert s t; induction keys as [|k keys IH]; intros s t Hin; cbn [sfor].
  - intros H. xinv H. simpl. assert (Hid : s = upd_databag (fun m => m) s) by (by destruct s).
    split_and!; try done; eauto.
  - destruct (Hin k) as [p Hp]; [by left|]. intros H. cbn [plugins_of]. rewrite Hp.
    apply exec_sbind in H as [(t1 & t2 & s1 & [] & -> & H1 & H)|(o1 & H1 & Hf)].
    + eapply exec_onInitOne in H1 as ((f1 & ->) & Hc1 & _ & _ & Hok1 & _); [|done]. specialize (Hok1 eq_refl).
      apply IH in H as ((f2 & ->) & Hc & Hpan & (rest & Hrest) & Hok & Herr); [|intros; apply Hin; by right].
      simpl in *. rewrite call_sigs_app.
      assert (Hcs : call_sigs t1 = map (called ROnInit (pm_id s) (ArgVault (pm_id s))) (if is_new p then [p] else [])).
      { destruct (is_new p); [apply Hok1|by destruct Hok1 as [-> _]]. }
      split_and!; try done; [by exists (fun m => f2 (f1 m))|by apply Forall_app| | |].
      * exists rest. rewrite <- app_assoc, <- Hrest, Hcs. destruct (is_new p); done.
      * intros ->. destruct (Hok eq_refl) as [Hcs2 (ws & Hall & Hs)]. split.
        { rewrite Hcs, Hcs2. by destruct (is_new p). }
        assert (Hall' : Forall2 (fun p w => answered ROnInit (pm_id s) (ArgVault (pm_id s)) p (Val (w, None)) (t1 ++ t2))
                  (List.filter is_new (plugins_of (pm_map s) keys)) ws).
        { eapply Forall2_impl; [exact Hall|]. intros; by apply answered_app_r. }
        destruct (is_new p).
        -- destruct Hok1 as (_ & w & Hw & Hs1). exists (w :: ws). split.
           { constructor; [by apply answered_app_l|done]. }
           rewrite Hs. simpl. injection Hs1 as Hs1. unfold upd_databag; simpl. f_equal.
           rewrite store_all_app. by rewrite Hs1.
        -- destruct Hok1 as [_ Hs1]. exists ws. split; [done|].
           rewrite Hs. rewrite <- Hs1 at 2. done.
      * intros e ->. destruct (Herr e eq_refl) as (q & Hq & Hcause). exists q. split.
        { destruct (is_new p); [by right|done]. }
        destruct Hcause as [[w Ha]|?]; [left; exists w; by apply answered_app_r|by right].
    + eapply exec_onInitOne in H1 as ((f1 & ->) & Hc1 & Hpan & Hcs & _ & Herr); [|done].
      simpl. split_and!; try done; [by eexists| | | |].
      * intros x ->. destruct o1; try done. by apply (Hpan p0).
      * destruct Hcs as [->|[-> ->]]; simpl; eauto.
      * intros ->. by destruct o1.
      * intros e ->. destruct o1; try done. simpl in Hf; subst. destruct (Herr e eq_refl) as [-> Hcause].
        exists p. split; [by left|done].
Qed.

End Proofs.
