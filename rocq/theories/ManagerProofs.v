(** Lemmas about the functions of ManagerModel.v *)
From Verif Require Export Spec Graph.

Lemma call_sigs_app t1 t2 : call_sigs (t1 ++ t2) = call_sigs t1 ++ call_sigs t2.
Proof. apply omap_app. Qed.
Lemma increments_app t1 t2 : increments (t1 ++ t2) = increments t1 ++ increments t2.
Proof. apply omap_app. Qed.
Lemma decrements_app t1 t2 : decrements (t1 ++ t2) = decrements t1 ++ decrements t2.
Proof. apply omap_app. Qed.
Lemma admitted_app t1 t2 : admitted (t1 ++ t2) = admitted t1 ++ admitted t2.
Proof. apply omap_app. Qed.
Lemma created_app t1 t2 : created (t1 ++ t2) = created t1 ++ created t2.
Proof. apply omap_app. Qed.


Section Proofs.
Context {E : GoEnv}.

(** ** Plugin calls *)
Lemma exec_call r mid p arg t o :
  exec (call r mid p arg) t o <->
  (get_func r (pl_funcs p) = None /\ t = [] /\ o = Pan PNil) \/
  (exists code, get_func r (pl_funcs p) = Some code /\ valid_call r o /\
     t = [EvCall r (mkCallee mid (pl_name p) (pl_inst p) code) arg o]).
Proof.
  unfold call. destruct (get_func r (pl_funcs p)) as [c|] eqn:Ef.
  - rewrite exec_do. simpl. split.
    + intros [Hv ->]. right; eauto.
    + intros [(? & _)|(code & [= <-] & Hv & ->)]; done.
  - rewrite exec_ret. split.
    + intros [-> ->]. by left.
    + intros [(_ & -> & ->)|(code & ? & _)]; done.
Qed.


Lemma exec_recovered {A} (p : prog (outcome A)) who t o :
  exec (let* o := p in Ret (recovered who o)) t o <-> exists o1, exec p t o1 /\ o = recovered who o1.
Proof.
  rewrite exec_bind. split.
  - intros (t1 & t2 & o1 & -> & H1 & [-> ->]). rewrite app_nil_r. eauto.
  - intros (o1 & H & ->). exists t, [], o1. rewrite app_nil_r. split_and!; done.
Qed.

(** plain result of invoking a recovered plugin function *)
Lemma exec_recovered_call r mid p arg t o :
  exec (let* o := call r mid p arg in Ret (recovered (pl_name p) o)) t o ->
  (exists x, o = Val x /\ t <> [] /\ answered r mid arg p (Val x) t /\ call_sigs t = [called r mid arg p] /\
     exists code, get_func r (pl_funcs p) = Some code /\
       t = [EvCall r (mkCallee mid (pl_name p) (pl_inst p) code) arg (Val x)]) \/
  (exists x, o = Err (EPanic (Some (pl_name p)) x) /\
     (t = [] /\ get_func r (pl_funcs p) = None \/
      exists code, get_func r (pl_funcs p) = Some code /\
        t = [EvCall r (mkCallee mid (pl_name p) (pl_inst p) code) arg (Pan x)])).
Proof.
  rewrite exec_recovered. intros (o1 & H & ->).
  apply exec_call in H as [(Hn & -> & ->)|(code & Hc & Hv & ->)].
  - right. exists PNil. split; [done|]. left; done.
  - destruct o1 as [x|e|x]; simpl.
    + left. exists x. split_and!; [done|done| | |eauto].
      * exists code. split; [done|]. by left.
      * unfold called. by rewrite Hc.
    + destruct r; done.
    + right. exists x. split; [done|]. right; eauto.
Qed.

(** ** Frames *)

(** everything but the plugin map, order, vault tables *)
Definition same_head (s s' : mgr) : Prop :=
  pm_id s' = pm_id s /\ pm_born s' = pm_born s /\ pm_ext s' = pm_ext s.
Lemma same_head_trans s1 s2 s3 : same_head s1 s2 -> same_head s2 s3 -> same_head s1 s3.
Proof. unfold same_head. intuition congruence. Qed.

(** A plugin without the fields written by initDeps. *)
Definition core (p : plugin) : plugin :=
  mkPlugin (pl_name p) (pl_file p) (pl_sha1 p) (pl_when p) (pl_note p) (pl_unchanged p) (pl_P p) (pl_funcs p)
           [] (pl_inst p) (pl_exported p) (pl_reloadable p) [].
Definition core_map (s : mgr) : gmap string plugin := core <$> pm_map s.

(** ** Gathering the files *)


(** ** addUnchanged *)
Lemma exec_addUnchanged q note s t s' o :
  exec (addUnchanged (Some q) note s) t (s', o) ->
  o = Val tt /\ (exists v, t = [EvRefInc (pm_id s) (pl_inst q) v]) /\
  s' = upd_map <[name2key (pl_name q) := set_unchanged note q]> s.
Proof. unfold addUnchanged. intros H.
 xinv H.
 xinv H.
 xinv H. simpl. split_and!; eauto. Qed.

(** ** copyPlugin and loadPlugin *)
Lemma exec_copyPlugin i s t s' o :
  exec (copyPlugin i s) t (s', o) ->
  s' = s /\ call_sigs t = [] /\ (forall x, o <> Pan x) /\
  Forall (fun e => (exists d r, e = EvMkdir d r) \/ (exists f d r, e = EvWriteFile f d r)) t /\
  (forall dst, o = Val dst -> dst = copy_dst (pm_dirName s) i /\
     t = [EvMkdir (copy_dir (pm_dirName s) i) None; EvWriteFile dst (fi_data i) None]).
Proof.
  unfold copyPlugin. intros H. do 2 xinv H. destruct x as [e|].
  - xinv H. split_and!; try done. fall.
  - xinv H. destruct x as [e|].
    + xinv H. split_and!; try done. fall.
    + xinv H. split_and!; try done; [fall|]. by intros ? [= <-].
Qed.

(** Lookup through a pointer to the func field *)
Lemma exec_Lookup_role p r h t o :
  pl_P p = Some h ->
  exec (Plugin_Lookup p (role_symbol r) (out_ptr r)) t o ->
  exists s, t = [EvLookupSym h (role_symbol r) s] /\
    match s with
    | None => o = Err ENotExist
    | Some sym =>
        (assignable (gv_type sym) (role_type r) = true /\ o = Val sym) \/
        (assignable (gv_type sym) (role_type r) = false /\
         match gv_type sym with
         | TPtr _ e => if assignable e (role_type r)
                       then match gv_pointee sym with Some v => o = Val v | None => o = Pan PNil end
                       else o = Err (ECannotAssign (role_symbol r))
         | _ => o = Err (ECannotAssign (role_symbol r))
         end)
    end.
Proof.
  intros Hp. unfold Plugin_Lookup.
  assert (String.eqb (role_symbol r) "" = false) as -> by (by destruct r).
  simpl. rewrite Hp. intros H. xinv H. exists x. destruct x as [sym|].
  - destruct (assignable (gv_type sym) (role_type r)) eqn:Ea.
    + destruct H as [-> ->]. split; [done|]. left; auto.
    + destruct (gv_type sym) as [id e|id fs|id k]; [|by destruct H as [-> ->]; auto..].
      destruct (assignable e (role_type r)); [|by destruct H as [-> ->]; auto].
      destruct (gv_pointee sym); destruct H as [-> ->]; auto.
  - destruct H as [-> ->]; auto.
Qed.

Lemma get_set_func r r' v f : get_func r (set_func r' v f) = if decide (r = r') then v else get_func r f.
Proof. destruct f, r', r; reflexivity. Qed.

(** The func value stored for a symbol with value [sym]: the symbol itself, or what it points to. *)
Definition sym_value (r : role) (sym : gvalue) : option gvalue :=
  if assignable (gv_type sym) (role_type r) then Some sym
  else match gv_type sym with
       | TPtr _ e => if assignable e (role_type r) then gv_pointee sym else None
       | _ => None
       end.

Lemma exec_lookupAll items p missing h t o :
  pl_P p = Some h -> NoDup items -> exec (lookupAll items p missing) t o ->
  Forall (fun e => exists s r, e = EvLookupSym h s r) t /\
  forall p' miss', o = Val (p', miss') -> exists (ans : role -> option gvalue) f',
    t = map (fun r => EvLookupSym h (role_symbol r) (ans r)) items /\
    miss' = missing ++ map role_symbol (List.filter (fun r => bool_decide (ans r = None)) items) /\
    p' = set_funcs f' p /\
    (forall r, r ∉ items -> get_func r f' = get_func r (pl_funcs p)) /\
    (forall r, r ∈ items -> ans r = None -> get_func r f' = get_func r (pl_funcs p)) /\
    (forall r sym, r ∈ items -> ans r = Some sym -> exists v, sym_value r sym = Some v /\ get_func r f' = code_of v).
Proof.
  revert p missing t; induction items as [|r items IH]; intros p missing t HP Hnd; cbn [lookupAll].
  - intros [-> ->]. split; [done|]. intros p' miss' [= <- <-].
    exists (fun _ => None), (pl_funcs p). simpl. rewrite app_nil_r. split_and!; try done.
    by destruct p.
  - apply NoDup_cons in Hnd as [Hr Hnd]. rewrite exec_bind.
    intros (t1 & t2 & o1 & -> & H1 & H2).
    apply exec_Lookup_role with (h := h) in H1 as (s & -> & H1); [|done].
    assert (Hval : forall v, o1 = Val v -> (exists sym, s = Some sym /\ sym_value r sym = Some v)).
    { intros v ->. unfold sym_value. destruct s as [sym|]; [|done]. exists sym. split; [done|].
      destruct H1 as [[-> [= <-]]|[-> H1]]; [done|].
      destruct (gv_type sym) as [id e|id fs|id k]; [|done..].
      destruct (assignable e (role_type r)); [|done]. destruct (gv_pointee sym); [|done]. congruence. }
    assert (Hne : o1 = Err ENotExist -> s = None).
    { intros ->. destruct s as [sym|]; [|done]. exfalso.
      destruct H1 as [[_ ?]|[_ H1]]; [done|].
      destruct (gv_type sym) as [id e|id fs|id k]; [|done..].
      destruct (assignable e (role_type r)); [|done]. by destruct (gv_pointee sym). }
    clear H1.
    assert (Hdone : exec (Ret (A := outcome (plugin * list string)) (match o1 with Err e => Err e | Pan x => Pan x | Val _ => Pan PNil end)) t2 o ->
       (forall v, o1 <> Val v) -> Forall (fun e => exists s r, e = EvLookupSym h s r) ([EvLookupSym h (role_symbol r) s] ++ t2) /\
       forall p' miss', o = Val (p', miss') -> False).
    { intros [-> ->] Hn. split; [fall|]. intros p' miss'. destruct o1; done. }
    destruct o1 as [v|e|x].
    + destruct (Hval v eq_refl) as (sym & -> & Hsv).
      apply IH in H2 as [Hf Hok]; [|done|done]. split; [simpl; fall; done|].
      intros p' miss' ->. destruct (Hok p' miss' eq_refl) as (ans & f' & -> & -> & -> & Hout & Hnone & Hsome).
      exists (fun r' => if decide (r' = r) then Some sym else ans r'), f'. split_and!.
      * simpl. rewrite decide_True by done. f_equal. apply list_fmap_ext. intros i r' Hi.
        rewrite decide_False; [done|]. intros ->. apply Hr. by eapply elem_of_list_lookup_2.
      * simpl. rewrite decide_True by done. rewrite bool_decide_eq_false_2 by done. f_equal. f_equal.
        clear -Hr. induction items as [|r' items IH]; simpl; [done|].
        rewrite decide_False by set_solver. destruct (bool_decide _); rewrite IH by set_solver; done.
      * done.
      * intros r' Hr'. rewrite Hout by set_solver. simpl. rewrite get_set_func.
        rewrite decide_False by set_solver. done.
      * intros r' Hr' Hn. destruct (decide (r' = r)) as [->|Hne']; [done|].
        rewrite Hnone; [|set_solver|done]. simpl. rewrite get_set_func, decide_False by done. done.
      * intros r' sym' Hr' Hs. destruct (decide (r' = r)) as [->|Hne'].
        -- simplify_eq. exists v. split; [done|]. rewrite Hout by done. simpl.
           rewrite get_set_func, decide_True by done. done.
        -- apply Hsome; [set_solver|done].
    + assert (Hdec : e = ENotExist \/ e <> ENotExist) by (destruct e; auto).
      destruct Hdec as [->|Hee].
      2:{ destruct Hdone as [Hd1 Hd2]; [|done|]; [|split; [done|]; intros p' miss' Ho; by destruct (Hd2 p' miss')].
          destruct e; done. }
      rewrite (Hne eq_refl) in *. apply IH in H2 as [Hf Hok]; [|done|done]. split; [simpl; fall; done|].
      intros p' miss' ->. destruct (Hok p' miss' eq_refl) as (ans & f' & -> & -> & -> & Hout & Hnone & Hsome).
      exists (fun r' => if decide (r' = r) then None else ans r'), f'. split_and!.
      * simpl. rewrite decide_True by done. f_equal. apply list_fmap_ext. intros i r' Hi.
        rewrite decide_False; [done|]. intros ->. apply Hr. by eapply elem_of_list_lookup_2.
      * simpl. rewrite decide_True by done. rewrite bool_decide_eq_true_2 by done.
        rewrite <- app_assoc. simpl. f_equal. f_equal. f_equal.
        clear -Hr. induction items as [|r' items IH]; simpl; [done|].
        rewrite decide_False by set_solver. destruct (bool_decide _); rewrite IH by set_solver; done.
      * done.
      * intros r' Hr'. apply Hout. set_solver.
      * intros r' Hr' Hn. destruct (decide (r' = r)) as [->|Hne']; [by apply Hout|].
        apply Hnone; [set_solver|done].
      * intros r' sym' Hr' Hs. destruct (decide (r' = r)) as [->|Hne']; [done|].
        apply Hsome; [set_solver|done].
    + destruct Hdone as [Hd1 Hd2]; [done|done|]. split; [done|]. intros p' miss' Ho. by destruct (Hd2 p' miss').
Qed.

(** no plugin call and no reference counting *)
Definition quiet (e : event) : Prop :=
  call_sig e = None /\ inc_inst e = None /\ dec_inst e = None.
Lemma quiet_omap {B} (f : event -> option B) t :
  Forall quiet t -> (forall e, quiet e -> f e = None) -> omap f t = [].
Proof.
  intros H Hf. induction H as [|e t He Ht IH]; [done|]. simpl. by rewrite (Hf e He).
Qed.
Lemma quiet_calls t : Forall quiet t -> call_sigs t = [].
Proof. intros H; apply quiet_omap; [done|]. by intros e (? & _). Qed.
Lemma quiet_incs t : Forall quiet t -> increments t = [].
Proof. intros H; apply quiet_omap; [done|]. by intros e (? & ? & ?). Qed.
Lemma quiet_decs t : Forall quiet t -> decrements t = [].
Proof. intros H; apply quiet_omap; [done|]. by intros e (? & ? & ?). Qed.
Lemma quiet_admitted t : Forall quiet t -> admitted t = [].
Proof. intros H; apply quiet_omap; [done|]. intros [] (? & _); done. Qed.

Lemma exec_admitPlugin p s t s' o :
  exec (admitPlugin p s) t (s', o) ->
  (exists b v c1 c2, o = Val tt /\
     s' = upd_map <[name2key (pl_name p) := set_exported v (set_reloadable b p)]> s /\
     get_func RReloadable (pl_funcs p) = Some c1 /\ get_func RExport (pl_funcs p) = Some c2 /\
     t = [EvCall RReloadable (mkCallee (pm_id s) (pl_name p) (pl_inst p) c1) ArgNone (Val b);
          EvCall RExport (mkCallee (pm_id s) (pl_name p) (pl_inst p) c2) ArgNone (Val v)]) \/
  (s' = s /\ (exists e, o = Err e) /\ admitted t = [] /\ increments t = [] /\ decrements t = [] /\ created t = [] /\
     (call_sigs t = [] \/ call_sigs t = [called RReloadable (pm_id s) ArgNone p] \/
      call_sigs t = [called RReloadable (pm_id s) ArgNone p; called RExport (pm_id s) ArgNone p])).
Proof.
  unfold admitPlugin. intros H. xinv H.
  apply exec_sbind in H as [(t1 & t2 & s1 & b & -> & H1 & H)|(o1 & H1 & Hf)].
  - xinv H1. unfold invokeReloadable in H1. apply (exec_recovered_call RReloadable) in H1 as [(b' & [= <-] & _ & _ & Hc1 & c1 & Hc1' & ->)|(x & ? & _)]; [|done].
    apply exec_sbind in H as [(t1 & t3 & s2 & v & -> & H2 & H)|(o1 & H2 & Hf)].
    + xinv H2. unfold invokeExport in H2. apply (exec_recovered_call RExport) in H2 as [(v' & [= <-] & _ & _ & Hc2 & c2 & Hc2' & ->)|(x & ? & _)]; [|done].
      xinv H. left. exists b, v, c1, c2. done.
    + right. xinv H2. unfold invokeExport in H2. apply (exec_recovered_call RExport) in H2 as [(v' & -> & _)|(x & -> & H2)]; [by destruct o|].
      destruct o as [|e|]; [done| |done]. split; [done|]. split; [eauto|].
      destruct H2 as [[-> Hn]|(c2 & Hc2 & ->)].
      * split_and!; try done. right; left. unfold called. simpl in *. by rewrite Hc1'.
      * split_and!; try done. right; right. unfold called. simpl in *. by rewrite Hc1', Hc2.
  - right. xinv H1. unfold invokeReloadable in H1. apply (exec_recovered_call RReloadable) in H1 as [(v' & -> & _)|(x & -> & H2)]; [by destruct o|].
    destruct o as [|e|]; [done| |done]. split; [done|]. split; [eauto|].
    destruct H2 as [[-> Hn]|(c2 & Hc2 & ->)].
    + split_and!; try done. by left.
    + split_and!; try done. right; left. unfold called. simpl in *. by rewrite Hc2.
Qed.

(** The fields of a freshly opened plugin. *)
Definition fresh_from (s : mgr) (i : fileInfo) (p : plugin) : Prop :=
  pl_name p = fi_name i /\ pl_file p = fi_file i /\ pl_sha1 p = fi_sha1 i /\ pl_when p = pm_when s /\
  pl_note p = "" /\ pl_unchanged p = false /\ pl_deps p = [] /\ pl_imports p = [].

Lemma funcItems_nodup : NoDup funcItems.
Proof. unfold funcItems. repeat (apply NoDup_cons; split; [set_solver|]). apply NoDup_nil_2. Qed.
Lemma funcItems_all r : r ∈ funcItems.
Proof. destruct r; unfold funcItems; set_solver. Qed.

(** What opening a plugin does on success. *)
Definition open_trace (s : mgr) (i : fileInfo) (p : plugin) (h : handle) (ans : role -> option gvalue)
  (c1 c2 : N) : list event :=
  [EvMkdir (copy_dir (pm_dirName s) i) None; EvWriteFile (copy_dst (pm_dirName s) i) (fi_data i) None;
   EvNewInst (pm_id s) (fi_name i) (pl_inst p); EvOpen (copy_dst (pm_dirName s) i) (Val h)] ++
  map (fun r => EvLookupSym h (role_symbol r) (ans r)) funcItems ++
  [EvCall RReloadable (mkCallee (pm_id s) (pl_name p) (pl_inst p) c1) ArgNone (Val (pl_reloadable p));
   EvCall RExport (mkCallee (pm_id s) (pl_name p) (pl_inst p) c2) ArgNone (Val (pl_exported p))].

Lemma exec_loadPlugin oi s t s' o :
  exec (loadPlugin oi s) t (s', o) ->
  (exists i p h ans c1 c2, oi = Some i /\ o = Val tt /\ fresh_from s i p /\ pl_P p = Some h /\
     s' = upd_map <[name2key (fi_name i) := p]> s /\
     (forall r, exists sym v, ans r = Some sym /\ sym_value r sym = Some v /\
                              get_func r (pl_funcs p) = code_of v) /\
     get_func RReloadable (pl_funcs p) = Some c1 /\ get_func RExport (pl_funcs p) = Some c2 /\
     t = open_trace s i p h ans c1 c2) \/
  (s' = s /\ ~ is_val o /\ admitted t = [] /\ increments t = [] /\ decrements t = [] /\
     (call_sigs t = [] \/ exists i p, oi = Some i /\ pl_name p = fi_name i /\ created t = [pl_inst p] /\
      (call_sigs t = [called RReloadable (pm_id s) ArgNone p] \/
       call_sigs t = [called RReloadable (pm_id s) ArgNone p; called RExport (pm_id s) ArgNone p]))).
Proof.
  destruct oi as [i|]; [|intros H; cbn [loadPlugin] in H; xinv H; right; split_and!; auto; tauto].
  cbn [loadPlugin]. intros H.
  apply exec_sbind in H as [(t1 & t2 & s1 & dst & -> & H1 & H)|(o1 & H1 & Hf)].
  2:{ right. apply exec_copyPlugin in H1 as (-> & Hc & Hp & Hev & _).
      assert (Forall quiet t) as Hq.
      { eapply Forall_impl; [exact Hev|]. intros e [(d & r & ->)|(f & d & r & ->)]; done. }
      split_and!; eauto using quiet_admitted, quiet_incs, quiet_decs, fails_not_val. }
  apply exec_copyPlugin in H1 as (-> & _ & _ & _ & Hdst).
  destruct (Hdst dst eq_refl) as [-> ->]. clear Hdst.
  do 2 xinv H. rename x into inst0.
  apply exec_sbind in H as [(t1 & t2 & s1 & h & -> & H1 & H)|(o1 & H1 & Hf)].
  2:{ right. xinv H1. xinv H1. split_and!; try done; [by eapply fails_not_val|by left]. }
  xinv H1. xinv H1.
  set (p0 := mkPlugin _ _ _ _ _ _ _ _ _ _ _ _ _) in H.
  apply exec_sbind in H as [(t1 & t3 & s1 & [p1 missing] & -> & H1 & H)|(o1 & H1 & Hf)].
  2:{ right. xinv H1. apply exec_lookupAll with (h := h) in H1 as [Hev _]; [|done|apply funcItems_nodup].
      assert (Forall quiet t2) as Hq.
      { eapply Forall_impl; [exact Hev|]. intros e (? & ? & ->). done. }
      rewrite !admitted_app, !increments_app, !decrements_app, !call_sigs_app.
      rewrite (quiet_admitted t2), (quiet_incs t2), (quiet_decs t2), (quiet_calls t2) by done.
      split_and!; try done; [by eapply fails_not_val|by left]. }
  xinv H1. apply exec_lookupAll with (h := h) in H1 as [Hev Hok]; [|done|apply funcItems_nodup].
  destruct (Hok p1 missing eq_refl) as (ans & f' & -> & Hmiss & -> & _ & Hnone & Hsome). clear Hok.
  set (tl := map (fun r => EvLookupSym h (role_symbol r) (ans r)) funcItems) in *.
  assert (Forall quiet tl) as Hq.
  { eapply Forall_impl; [exact Hev|]. intros e (? & ? & ->). done. }
  rewrite app_nil_l in Hmiss.
  assert (Hcr : created tl = []).
  { unfold tl. clear. unfold created. induction funcItems; [done|]. simpl. done. }
  destruct missing as [|m0 missing].
  - apply exec_admitPlugin in H as [(b & v & c1 & c2 & -> & -> & Hc1 & Hc2 & ->)|(-> & (e & ->) & Ha & Hi & Hd & Hcr' & Hcs)].
    + left. exists i, (set_exported v (set_reloadable b (set_funcs f' p0))), h, ans, c1, c2.
      split_and!; try done.
      intros r. assert (ans r <> None) as Hn.
      { intros Hn. symmetry in Hmiss. apply map_eq_nil in Hmiss.
        assert (In r (List.filter (fun r => bool_decide (ans r = None)) funcItems)) as Hin.
        { apply filter_In. split; [|by apply bool_decide_eq_true]. apply elem_of_list_In, funcItems_all. }
        by rewrite Hmiss in Hin. }
      destruct (ans r) as [sym|] eqn:Er; [|done].
      destruct (Hsome r sym) as (v' & Hv' & Hg); [apply funcItems_all|done|]. eauto.
    + right. rewrite !admitted_app, !increments_app, !decrements_app, !call_sigs_app, !created_app.
      rewrite (quiet_admitted tl), (quiet_incs tl), (quiet_decs tl), (quiet_calls tl) by done.
      rewrite Ha, Hi, Hd, Hcr, Hcr'. split_and!; try done; [simpl; tauto|].
      destruct Hcs as [->|Hcs]; [by left|]. right. exists i, (set_funcs f' p0). split_and!; [done..|].
      simpl. destruct Hcs as [->| ->]; auto.
  - right. xinv H. rewrite !admitted_app, !increments_app, !decrements_app, !call_sigs_app.
    rewrite (quiet_admitted tl), (quiet_incs tl), (quiet_decs tl), (quiet_calls tl) by done. split_and!; try done; [simpl; tauto|by left].
Qed.

End Proofs.
