(** setupVault *)
From Verif Require Export PhaseProofs.

Section Proofs.
Context {E : GoEnv}.

(** ** Live functions *)
Definition has_entryF (mid : N) (t : list event) (n : string) (q : plugin) : Prop :=
  exists l, answered RLiveFuncs mid ArgNone q (Val (Some l)) t /\ n ∈ map fst l.
(** [q] was asked for its table and [n] was not in it *)
Definition lacks_entryF (mid : N) (t : list event) (n : string) (q : plugin) : Prop :=
  exists tbl, answered RLiveFuncs mid ArgNone q (Val tbl) t /\ forall l, tbl = Some l -> n ∉ map fst l.

Lemma exec_findAnotherF mid earlier name t o :
  exec (findAnother RLiveFuncs mid (fun q => call RLiveFuncs mid q ArgNone) earlier name) t o ->
  Forall (call_in (eq RLiveFuncs)) t /\ (forall e, o <> Err e) /\
  (forall a, o = Val a ->
     (a = "" /\ Forall (lacks_entryF mid t name) earlier) \/
     (exists q, q ∈ earlier /\ a = pl_name q /\ has_entryF mid t name q)).
Proof.
  revert t; induction earlier as [|q earlier IH]; intros t H; cbn [findAnother] in H.
  - xinv H. split_and!; try done. intros a [= <-]. by left.
  - apply exec_bind in H as (t1 & t2 & o1 & -> & H1 & H2).
    apply (exec_call RLiveFuncs) in H1 as [(_ & -> & ->)|(c & Hc & Hv & ->)]; [xinv H2; simpl; split_and!; done|].
    assert (Hans : answered RLiveFuncs mid ArgNone q o1 [EvCall RLiveFuncs (mkCallee mid (pl_name q) (pl_inst q) c) ArgNone o1]).
    { exists c. split; [done|]. by left. }
    assert (Hrec : forall tbl, o1 = Val tbl -> (forall l, tbl = Some l -> name ∉ map fst l) ->
      exec (findAnother RLiveFuncs mid (fun q => call RLiveFuncs mid q ArgNone) earlier name) t2 o ->
      Forall (call_in (eq RLiveFuncs)) ([EvCall RLiveFuncs (mkCallee mid (pl_name q) (pl_inst q) c) ArgNone o1] ++ t2) /\
      (forall e, o <> Err e) /\
      (forall a, o = Val a ->
        (a = "" /\ Forall (lacks_entryF mid ([EvCall RLiveFuncs (mkCallee mid (pl_name q) (pl_inst q) c) ArgNone o1] ++ t2) name) (q :: earlier)) \/
        (exists q', q' ∈ q :: earlier /\ a = pl_name q' /\
           has_entryF mid ([EvCall RLiveFuncs (mkCallee mid (pl_name q) (pl_inst q) c) ArgNone o1] ++ t2) name q'))).
    { intros tbl -> Htbl H. apply IH in H as (Hc2 & He & Hv2). split_and!; [|done|].
      - constructor; done.
      - intros a Ha. destruct (Hv2 a Ha) as [[-> Hl]|(q' & Hq' & -> & l & Hl & Hin)].
        + left. split; [done|]. constructor.
          * exists tbl. split; [by apply answered_app_l|done].
          * eapply Forall_impl; [exact Hl|]. intros q' (tbl' & Ht & Hn). exists tbl'.
            split; [by apply answered_app_r|done].
        + right. exists q'. split_and!; [by right|done|]. exists l. split; [by apply answered_app_r|done]. }
    destruct o1 as [tbl|e|x]; [|done|xinv H2; simpl; split_and!; try done; by fall].
    destruct tbl as [l|].
    2:{ eapply Hrec; eauto. intros l [=]. }
    destruct (bool_decide (name ∈ map fst l)) eqn:Eb.
    + apply bool_decide_eq_true in Eb. xinv H2. split_and!; try done; [by fall|].
      intros a [= <-]. right. exists q. split_and!; [by left|done|]. exists l. done.
    + apply bool_decide_eq_false in Eb. eapply Hrec; eauto. intros l' [= <-]. done.
Qed.

Lemma exec_addLiveFuncs earlier p l s t s' o :
  NoDup (map fst l) ->
  exec (addLiveFuncs earlier p l s) t (s', o) ->
  (exists m, s' = upd_livefuncs (fun _ => m) s) /\ Forall (call_in (eq RLiveFuncs)) t /\
  (o = Val tt -> t = [] /\ pm_livefuncs s' = list_to_map l ∪ pm_livefuncs s /\
     (forall n, n ∈ map fst l -> pm_livefuncs s !! n = None)) /\
  (forall e, o = Err e -> exists name another v, e = EDupLiveFunc name another (pl_name p) /\
     name ∈ map fst l /\ pm_livefuncs s !! name = Some v /\
     ((another = "" /\ Forall (lacks_entryF (pm_id s) t name) earlier) \/
     (exists q, q ∈ earlier /\ another = pl_name q /\ has_entryF (pm_id s) t name q))).
Proof.
  revert s; induction l as [|[n v] l IH]; intros s Hnd H; cbn [addLiveFuncs] in H.
  - assert (Hid : s = upd_livefuncs (fun _ => pm_livefuncs s) s) by (by destruct s).
    xinv H. split_and!; try done; eauto. intros _. split_and!; [done| |].
    + simpl. by rewrite (left_id_L ∅ (∪)).
    + intros n Hn. by apply elem_of_nil in Hn.
  - apply NoDup_cons in Hnd as [Hn Hnd]. xinv H. destruct (pm_livefuncs s !! n) as [v'|] eqn:En.
    + assert (Hid : s = upd_livefuncs (fun _ => pm_livefuncs s) s) by (by destruct s).
      apply exec_sbind in H as [(t1 & t2 & s1 & an & -> & H1 & H)|(o1 & H1 & Hf)].
      * xinv H1. apply exec_findAnotherF in H1 as (Hc & _ & Hv). xinv H. rewrite app_nil_r.
        split_and!; try done; eauto. intros e [= <-]. exists n, an, v'. split_and!; try done; [by left|auto].
      * xinv H1. apply exec_findAnotherF in H1 as (Hc & He & Hv). split_and!; try done; eauto.
        -- intros ->. by destruct o1.
        -- intros e ->. destruct o1; try done. by destruct (He e0).
    + xinv H. apply IH in H as ((m & ->) & Hc & Hok & Herr); [|done]. simpl in *.
      split_and!; try done; [by exists m| |].
      * intros ->. destruct (Hok eq_refl) as (-> & -> & Hd). split_and!; [done| |].
        -- rewrite <- insert_union_r; [by rewrite <- insert_union_l|].
           apply not_elem_of_list_to_map_1. done.
        -- intros n' Hn'. apply elem_of_cons in Hn' as [->|Hn']; [done|].
           specialize (Hd n' Hn'). apply lookup_insert_None in Hd. apply Hd.
      * intros e He. destruct (Herr e He) as (n' & an & v' & -> & Hin & Hlk & Hcase).
        assert (n <> n') as Hne by (intros <-; done). rewrite lookup_insert_ne in Hlk by done.
        exists n', an, v'. split_and!; [done|by right|done|done].
Qed.

Lemma exec_vaultFuncs earlier rest s t0 t s' o :
  (forall n v, pm_livefuncs s !! n = Some v -> exists q, q ∈ earlier /\ has_entryF (pm_id s) t0 n q) ->
  exec (vaultFuncs earlier rest s) t (s', o) ->
  (exists m, s' = upd_livefuncs (fun _ => m) s) /\ Forall (call_in (eq RLiveFuncs)) t /\
  (o = Val tt -> call_sigs t = map (called RLiveFuncs (pm_id s) ArgNone) rest /\
     exists tables, Forall2 (fun p l => answered RLiveFuncs (pm_id s) ArgNone p (Val (Some l)) t) rest tables /\
       NoDup (map fst (concat tables)) /\
       (forall n, n ∈ map fst (concat tables) -> pm_livefuncs s !! n = None) /\
       pm_livefuncs s' = list_to_map (concat tables) ∪ pm_livefuncs s) /\
  (forall e, o = Err e ->
     (exists p, p ∈ rest /\ e = ENilLiveFuncs (pl_name p) /\ answered RLiveFuncs (pm_id s) ArgNone p (Val None) t) \/
     (exists l1 p l2 q name another, earlier ++ rest = l1 ++ p :: l2 /\ q ∈ l1 /\
        e = EDupLiveFunc name another (pl_name p) /\
        has_entryF (pm_id s) (t0 ++ t) name p /\ has_entryF (pm_id s) (t0 ++ t) name q /\
        ((another = "" /\ Forall (lacks_entryF (pm_id s) (t0 ++ t) name) l1) \/
         (exists q', q' ∈ l1 /\ another = pl_name q' /\ has_entryF (pm_id s) (t0 ++ t) name q')))).
Proof.
  revert earlier s t0 t; induction rest as [|p rest IH]; intros earlier s t0 t Hinv H; cbn [vaultFuncs] in H.
  - assert (Hid : s = upd_livefuncs (fun _ => pm_livefuncs s) s) by (by destruct s).
    xinv H. split_and!; try done; eauto. intros _. split; [done|]. exists []. simpl. split_and!; [done|constructor| |].
    + intros n Hn. by apply elem_of_nil in Hn.
    + by rewrite (left_id_L ∅ (∪)).
  - assert (Hid : s = upd_livefuncs (fun _ => pm_livefuncs s) s) by (by destruct s). xinv H.
    apply exec_sbind in H as [(t1 & t2 & s1 & tbl & -> & H1 & H)|(o1 & H1 & Hf)].
    2:{ xinv H1. apply (exec_call RLiveFuncs) in H1 as [(_ & -> & ->)|(c & Hc & Hv & ->)].
        - split_and!; try done; eauto; [by intros ->|by intros e ->].
        - split_and!; try done; eauto; [by fall|intros ->; by destruct o1|].
          intros e ->. by destruct o1. }
    xinv H1. apply (exec_call RLiveFuncs) in H1 as [(_ & -> & ?)|(c & Hc & Hv & ->)]; [done|].
    set (e1 := EvCall RLiveFuncs _ _ _) in *.
    assert (Hans : answered RLiveFuncs (pm_id s) ArgNone p (Val tbl) [e1]).
    { exists c. split; [done|]. by left. }
    assert (Hcs1 : call_sigs [e1] = [called RLiveFuncs (pm_id s) ArgNone p]).
    { unfold called. rewrite Hc. done. }
    destruct tbl as [l|].
    2:{ xinv H. split_and!; try done; eauto; [by fall|]. intros e [= <-]. left. exists p.
        split_and!; [by left|done|done]. }
    simpl in Hv.
    apply exec_sbind in H as [(t1 & t3 & s2 & [] & -> & H1 & H)|(o1 & H1 & Hf)].
    2:{ apply exec_addLiveFuncs in H1 as (Hm & Hcc & _ & Herr); [|done]. split_and!; try done.
        - constructor; done.
        - intros ->. by destruct o1.
        - intros e ->. destruct o1; try done. simpl in Hf; subst e0. right.
          destruct (Herr e eq_refl) as (n & an & v & -> & Hin & Hlk & Hcase).
          destruct (Hinv n v Hlk) as (q & Hq & l' & Hl' & Hnl').
          exists earlier, p, rest, q, n, an. split_and!; try done.
          + exists l. split; [|done]. by apply answered_app_r, answered_app_l.
          + exists l'. split; [|done]. by apply answered_app_l.
          + destruct Hcase as [[-> Hall]|(q' & Hq' & -> & l'' & Hl'' & Hn'')].
            * left. split; [done|]. eapply Forall_impl; [exact Hall|]. intros q' (tbl & Ht & Hn).
              exists tbl. split; [by apply answered_app_r, answered_app_r|done].
            * right. exists q'. split_and!; try done. exists l''. split; [|done].
              by apply answered_app_r, answered_app_r. }
    apply exec_addLiveFuncs in H1 as ((m & ->) & _ & Hok1 & _); [|done].
    destruct (Hok1 eq_refl) as (-> & Hm & Hd1). simpl in Hm. subst m. rewrite app_nil_l in *.
    apply (IH _ _ (t0 ++ [e1])) in H.
    2:{ simpl. intros n v Hn. apply lookup_union_Some_raw in Hn as [Hn|[_ Hn]].
        - exists p. split; [apply elem_of_app; right; by left|]. exists l.
          split; [by apply answered_app_r|]. apply elem_of_list_to_map_2 in Hn.
          apply elem_of_list_fmap. exists (n, v). done.
        - destruct (Hinv n v Hn) as (q & Hq & l' & Hl' & Hnl'). exists q.
          split; [apply elem_of_app; by left|]. exists l'. split; [by apply answered_app_l|done]. }
    destruct H as ((m & ->) & Hcc & Hok & Herr). simpl in *. split_and!.
    + by exists m.
    + constructor; done.
    + intros ->. destruct (Hok eq_refl) as (Hcs & tables & Hall & Hnd & Hdis & ->). split.
      { rewrite Hcs. simpl in Hcs1. injection Hcs1 as Hcs1. unfold called. simpl. rewrite Hc. done. }
      exists (l :: tables). split_and!.
      * constructor; [by apply (answered_app_l _ _ _ _ _ [e1])|]. eapply Forall2_impl; [exact Hall|].
        intros; by apply (answered_app_r _ _ _ _ _ [e1]).
      * simpl. rewrite map_app. apply NoDup_app. split_and!; [done| |done].
        intros n Hn Hn'. specialize (Hdis n Hn'). apply lookup_union_None in Hdis as [Hdis _].
        apply not_elem_of_list_to_map in Hdis. by apply Hdis.
      * simpl. intros n Hn. rewrite map_app in Hn. apply elem_of_app in Hn as [Hn|Hn]; [by apply Hd1|].
        specialize (Hdis n Hn). apply lookup_union_None in Hdis as [_ ?]. done.
      * simpl. rewrite list_to_map_app. rewrite (assoc_L (∪)). f_equal.
        apply map_union_comm. apply map_disjoint_spec. intros n v1 v2 Hn1 Hn2.
        assert (n ∈ map fst (concat tables)) as Hn.
        { apply elem_of_list_to_map_2 in Hn1. apply elem_of_list_fmap. by exists (n, v1). }
        specialize (Hdis n Hn). apply lookup_union_None in Hdis as [Hdis _]. congruence.
    + intros e ->. destruct (Herr e eq_refl) as [(q & Hq & -> & Ha)|(l1 & q1 & l2 & q & n & an & Heq & Hq & -> & He1 & He2 & Hcase)].
      * left. exists q. split_and!; [by right|done|]. by apply (answered_app_r _ _ _ _ _ [e1]).
      * right. exists l1, q1, l2, q, n, an. rewrite <- app_assoc in Heq. rewrite <- app_assoc in *. done.
Qed.

(** ** Live types *)
Definition has_entryT (mid : N) (t : list event) (n : string) (q : plugin) : Prop :=
  exists l, answered RLiveTypes mid ArgNone q (Val (Some l)) t /\ n ∈ map fst l.
(** [q] was asked for its table and [n] was not in it *)
Definition lacks_entryT (mid : N) (t : list event) (n : string) (q : plugin) : Prop :=
  exists tbl, answered RLiveTypes mid ArgNone q (Val tbl) t /\ forall l, tbl = Some l -> n ∉ map fst l.

Lemma exec_findAnotherT mid earlier name t o :
  exec (findAnother RLiveTypes mid (fun q => call RLiveTypes mid q ArgNone) earlier name) t o ->
  Forall (call_in (eq RLiveTypes)) t /\ (forall e, o <> Err e) /\
  (forall a, o = Val a ->
     (a = "" /\ Forall (lacks_entryT mid t name) earlier) \/
     (exists q, q ∈ earlier /\ a = pl_name q /\ has_entryT mid t name q)).
Proof.
  revert t; induction earlier as [|q earlier IH]; intros t H; cbn [findAnother] in H.
  - xinv H. split_and!; try done. intros a [= <-]. by left.
  - apply exec_bind in H as (t1 & t2 & o1 & -> & H1 & H2).
    apply (exec_call RLiveTypes) in H1 as [(_ & -> & ->)|(c & Hc & Hv & ->)]; [xinv H2; simpl; split_and!; done|].
    assert (Hans : answered RLiveTypes mid ArgNone q o1 [EvCall RLiveTypes (mkCallee mid (pl_name q) (pl_inst q) c) ArgNone o1]).
    { exists c. split; [done|]. by left. }
    assert (Hrec : forall tbl, o1 = Val tbl -> (forall l, tbl = Some l -> name ∉ map fst l) ->
      exec (findAnother RLiveTypes mid (fun q => call RLiveTypes mid q ArgNone) earlier name) t2 o ->
      Forall (call_in (eq RLiveTypes)) ([EvCall RLiveTypes (mkCallee mid (pl_name q) (pl_inst q) c) ArgNone o1] ++ t2) /\
      (forall e, o <> Err e) /\
      (forall a, o = Val a ->
        (a = "" /\ Forall (lacks_entryT mid ([EvCall RLiveTypes (mkCallee mid (pl_name q) (pl_inst q) c) ArgNone o1] ++ t2) name) (q :: earlier)) \/
        (exists q', q' ∈ q :: earlier /\ a = pl_name q' /\
           has_entryT mid ([EvCall RLiveTypes (mkCallee mid (pl_name q) (pl_inst q) c) ArgNone o1] ++ t2) name q'))).
    { intros tbl -> Htbl H. apply IH in H as (Hc2 & He & Hv2). split_and!; [|done|].
      - constructor; done.
      - intros a Ha. destruct (Hv2 a Ha) as [[-> Hl]|(q' & Hq' & -> & l & Hl & Hin)].
        + left. split; [done|]. constructor.
          * exists tbl. split; [by apply answered_app_l|done].
          * eapply Forall_impl; [exact Hl|]. intros q' (tbl' & Ht & Hn). exists tbl'.
            split; [by apply answered_app_r|done].
        + right. exists q'. split_and!; [by right|done|]. exists l. split; [by apply answered_app_r|done]. }
    destruct o1 as [tbl|e|x]; [|done|xinv H2; simpl; split_and!; try done; by fall].
    destruct tbl as [l|].
    2:{ eapply Hrec; eauto. intros l [=]. }
    destruct (bool_decide (name ∈ map fst l)) eqn:Eb.
    + apply bool_decide_eq_true in Eb. xinv H2. split_and!; try done; [by fall|].
      intros a [= <-]. right. exists q. split_and!; [by left|done|]. exists l. done.
    + apply bool_decide_eq_false in Eb. eapply Hrec; eauto. intros l' [= <-]. done.
Qed.

Lemma exec_addLiveTypes earlier p l s t s' o :
  NoDup (map fst l) ->
  exec (addLiveTypes earlier p l s) t (s', o) ->
  (exists m, s' = upd_livetypes (fun _ => m) s) /\ Forall (call_in (eq RLiveTypes)) t /\
  (o = Val tt -> t = [] /\ pm_livetypes s' = list_to_map l ∪ pm_livetypes s /\
     (forall n, n ∈ map fst l -> pm_livetypes s !! n = None)) /\
  (forall e, o = Err e -> exists name another v, e = EDupLiveType name another (pl_name p) /\
     name ∈ map fst l /\ pm_livetypes s !! name = Some v /\
     ((another = "" /\ Forall (lacks_entryT (pm_id s) t name) earlier) \/
     (exists q, q ∈ earlier /\ another = pl_name q /\ has_entryT (pm_id s) t name q))).
Proof.
  revert s; induction l as [|[n v] l IH]; intros s Hnd H; cbn [addLiveTypes] in H.
  - assert (Hid : s = upd_livetypes (fun _ => pm_livetypes s) s) by (by destruct s).
    xinv H. split_and!; try done; eauto. intros _. split_and!; [done| |].
    + simpl. by rewrite (left_id_L ∅ (∪)).
    + intros n Hn. by apply elem_of_nil in Hn.
  - apply NoDup_cons in Hnd as [Hn Hnd]. xinv H. destruct (pm_livetypes s !! n) as [v'|] eqn:En.
    + assert (Hid : s = upd_livetypes (fun _ => pm_livetypes s) s) by (by destruct s).
      apply exec_sbind in H as [(t1 & t2 & s1 & an & -> & H1 & H)|(o1 & H1 & Hf)].
      * xinv H1. apply exec_findAnotherT in H1 as (Hc & _ & Hv). xinv H. rewrite app_nil_r.
        split_and!; try done; eauto. intros e [= <-]. exists n, an, v'. split_and!; try done; [by left|auto].
      * xinv H1. apply exec_findAnotherT in H1 as (Hc & He & Hv). split_and!; try done; eauto.
        -- intros ->. by destruct o1.
        -- intros e ->. destruct o1; try done. by destruct (He e0).
    + xinv H. apply IH in H as ((m & ->) & Hc & Hok & Herr); [|done]. simpl in *.
      split_and!; try done; [by exists m| |].
      * intros ->. destruct (Hok eq_refl) as (-> & -> & Hd). split_and!; [done| |].
        -- rewrite <- insert_union_r; [by rewrite <- insert_union_l|].
           apply not_elem_of_list_to_map_1. done.
        -- intros n' Hn'. apply elem_of_cons in Hn' as [->|Hn']; [done|].
           specialize (Hd n' Hn'). apply lookup_insert_None in Hd. apply Hd.
      * intros e He. destruct (Herr e He) as (n' & an & v' & -> & Hin & Hlk & Hcase).
        assert (n <> n') as Hne by (intros <-; done). rewrite lookup_insert_ne in Hlk by done.
        exists n', an, v'. split_and!; [done|by right|done|done].
Qed.

Lemma exec_vaultTypes earlier rest s t0 t s' o :
  (forall n v, pm_livetypes s !! n = Some v -> exists q, q ∈ earlier /\ has_entryT (pm_id s) t0 n q) ->
  exec (vaultTypes earlier rest s) t (s', o) ->
  (exists m, s' = upd_livetypes (fun _ => m) s) /\ Forall (call_in (eq RLiveTypes)) t /\
  (o = Val tt -> call_sigs t = map (called RLiveTypes (pm_id s) ArgNone) rest /\
     exists tables, Forall2 (fun p l => answered RLiveTypes (pm_id s) ArgNone p (Val (Some l)) t) rest tables /\
       NoDup (map fst (concat tables)) /\
       (forall n, n ∈ map fst (concat tables) -> pm_livetypes s !! n = None) /\
       pm_livetypes s' = list_to_map (concat tables) ∪ pm_livetypes s) /\
  (forall e, o = Err e ->
     (exists p, p ∈ rest /\ e = ENilLiveTypes (pl_name p) /\ answered RLiveTypes (pm_id s) ArgNone p (Val None) t) \/
     (exists l1 p l2 q name another, earlier ++ rest = l1 ++ p :: l2 /\ q ∈ l1 /\
        e = EDupLiveType name another (pl_name p) /\
        has_entryT (pm_id s) (t0 ++ t) name p /\ has_entryT (pm_id s) (t0 ++ t) name q /\
        ((another = "" /\ Forall (lacks_entryT (pm_id s) (t0 ++ t) name) l1) \/
         (exists q', q' ∈ l1 /\ another = pl_name q' /\ has_entryT (pm_id s) (t0 ++ t) name q')))).
Proof.
  revert earlier s t0 t; induction rest as [|p rest IH]; intros earlier s t0 t Hinv H; cbn [vaultTypes] in H.
  - assert (Hid : s = upd_livetypes (fun _ => pm_livetypes s) s) by (by destruct s).
    xinv H. split_and!; try done; eauto. intros _. split; [done|]. exists []. simpl. split_and!; [done|constructor| |].
    + intros n Hn. by apply elem_of_nil in Hn.
    + by rewrite (left_id_L ∅ (∪)).
  - assert (Hid : s = upd_livetypes (fun _ => pm_livetypes s) s) by (by destruct s). xinv H.
    apply exec_sbind in H as [(t1 & t2 & s1 & tbl & -> & H1 & H)|(o1 & H1 & Hf)].
    2:{ xinv H1. apply (exec_call RLiveTypes) in H1 as [(_ & -> & ->)|(c & Hc & Hv & ->)].
        - split_and!; try done; eauto; [by intros ->|by intros e ->].
        - split_and!; try done; eauto; [by fall|intros ->; by destruct o1|].
          intros e ->. by destruct o1. }
    xinv H1. apply (exec_call RLiveTypes) in H1 as [(_ & -> & ?)|(c & Hc & Hv & ->)]; [done|].
    set (e1 := EvCall RLiveTypes _ _ _) in *.
    assert (Hans : answered RLiveTypes (pm_id s) ArgNone p (Val tbl) [e1]).
    { exists c. split; [done|]. by left. }
    assert (Hcs1 : call_sigs [e1] = [called RLiveTypes (pm_id s) ArgNone p]).
    { unfold called. rewrite Hc. done. }
    destruct tbl as [l|].
    2:{ xinv H. split_and!; try done; eauto; [by fall|]. intros e [= <-]. left. exists p.
        split_and!; [by left|done|done]. }
    simpl in Hv.
    apply exec_sbind in H as [(t1 & t3 & s2 & [] & -> & H1 & H)|(o1 & H1 & Hf)].
    2:{ apply exec_addLiveTypes in H1 as (Hm & Hcc & _ & Herr); [|done]. split_and!; try done.
        - constructor; done.
        - intros ->. by destruct o1.
        - intros e ->. destruct o1; try done. simpl in Hf; subst e0. right.
          destruct (Herr e eq_refl) as (n & an & v & -> & Hin & Hlk & Hcase).
          destruct (Hinv n v Hlk) as (q & Hq & l' & Hl' & Hnl').
          exists earlier, p, rest, q, n, an. split_and!; try done.
          + exists l. split; [|done]. by apply answered_app_r, answered_app_l.
          + exists l'. split; [|done]. by apply answered_app_l.
          + destruct Hcase as [[-> Hall]|(q' & Hq' & -> & l'' & Hl'' & Hn'')].
            * left. split; [done|]. eapply Forall_impl; [exact Hall|]. intros q' (tbl & Ht & Hn).
              exists tbl. split; [by apply answered_app_r, answered_app_r|done].
            * right. exists q'. split_and!; try done. exists l''. split; [|done].
              by apply answered_app_r, answered_app_r. }
    apply exec_addLiveTypes in H1 as ((m & ->) & _ & Hok1 & _); [|done].
    destruct (Hok1 eq_refl) as (-> & Hm & Hd1). simpl in Hm. subst m. rewrite app_nil_l in *.
    apply (IH _ _ (t0 ++ [e1])) in H.
    2:{ simpl. intros n v Hn. apply lookup_union_Some_raw in Hn as [Hn|[_ Hn]].
        - exists p. split; [apply elem_of_app; right; by left|]. exists l.
          split; [by apply answered_app_r|]. apply elem_of_list_to_map_2 in Hn.
          apply elem_of_list_fmap. exists (n, v). done.
        - destruct (Hinv n v Hn) as (q & Hq & l' & Hl' & Hnl'). exists q.
          split; [apply elem_of_app; by left|]. exists l'. split; [by apply answered_app_l|done]. }
    destruct H as ((m & ->) & Hcc & Hok & Herr). simpl in *. split_and!.
    + by exists m.
    + constructor; done.
    + intros ->. destruct (Hok eq_refl) as (Hcs & tables & Hall & Hnd & Hdis & ->). split.
      { rewrite Hcs. simpl in Hcs1. injection Hcs1 as Hcs1. unfold called. simpl. rewrite Hc. done. }
      exists (l :: tables). split_and!.
      * constructor; [by apply (answered_app_l _ _ _ _ _ [e1])|]. eapply Forall2_impl; [exact Hall|].
        intros; by apply (answered_app_r _ _ _ _ _ [e1]).
      * simpl. rewrite map_app. apply NoDup_app. split_and!; [done| |done].
        intros n Hn Hn'. specialize (Hdis n Hn'). apply lookup_union_None in Hdis as [Hdis _].
        apply not_elem_of_list_to_map in Hdis. by apply Hdis.
      * simpl. intros n Hn. rewrite map_app in Hn. apply elem_of_app in Hn as [Hn|Hn]; [by apply Hd1|].
        specialize (Hdis n Hn). apply lookup_union_None in Hdis as [_ ?]. done.
      * simpl. rewrite list_to_map_app. rewrite (assoc_L (∪)). f_equal.
        apply map_union_comm. apply map_disjoint_spec. intros n v1 v2 Hn1 Hn2.
        assert (n ∈ map fst (concat tables)) as Hn.
        { apply elem_of_list_to_map_2 in Hn1. apply elem_of_list_fmap. by exists (n, v1). }
        specialize (Hdis n Hn). apply lookup_union_None in Hdis as [Hdis _]. congruence.
    + intros e ->. destruct (Herr e eq_refl) as [(q & Hq & -> & Ha)|(l1 & q1 & l2 & q & n & an & Heq & Hq & -> & He1 & He2 & Hcase)].
      * left. exists q. split_and!; [by right|done|]. by apply (answered_app_r _ _ _ _ _ [e1]).
      * right. exists l1, q1, l2, q, n, an. rewrite <- app_assoc in Heq. rewrite <- app_assoc in *. done.
Qed.

Definition set_tables (a b : gmap string N) (s : mgr) : mgr :=
  upd_livetypes (fun _ => b) (upd_livefuncs (fun _ => a) s).

(** ** setupVault *)
Lemma exec_setupVault s t s' o :
  pm_livefuncs s = ∅ -> pm_livetypes s = ∅ ->
  exec (setupVault s) t (s', o) ->
  let ps := plugins_of (pm_map s) (pm_ordered s) in
  exists t1 t2 a b, t = t1 ++ t2 /\ s' = set_tables a b s /\
  Forall (call_in (eq RLiveFuncs)) t1 /\ Forall (call_in (eq RLiveTypes)) t2 /\
  (o = Val tt ->
     call_sigs t1 = map (called RLiveFuncs (pm_id s) ArgNone) ps /\
     call_sigs t2 = map (called RLiveTypes (pm_id s) ArgNone) ps /\
     exists ftables ttables,
       Forall2 (fun p l => answered RLiveFuncs (pm_id s) ArgNone p (Val (Some l)) t1) ps ftables /\
       Forall2 (fun p l => answered RLiveTypes (pm_id s) ArgNone p (Val (Some l)) t2) ps ttables /\
       NoDup (map fst (concat ftables)) /\ NoDup (map fst (concat ttables)) /\
       a = list_to_map (concat ftables) /\ b = list_to_map (concat ttables)) /\
  (forall e, o = Err e ->
     (exists p, p ∈ ps /\ (e = ENilLiveFuncs (pl_name p) /\ answered RLiveFuncs (pm_id s) ArgNone p (Val None) t \/
                          e = ENilLiveTypes (pl_name p) /\ answered RLiveTypes (pm_id s) ArgNone p (Val None) t)) \/
     (exists l1 p l2 q name another, ps = l1 ++ p :: l2 /\ q ∈ l1 /\
        e = EDupLiveFunc name another (pl_name p) /\
        has_entryF (pm_id s) t name p /\ has_entryF (pm_id s) t name q /\
        ((another = "" /\ Forall (lacks_entryF (pm_id s) t name) l1) \/
         (exists q', q' ∈ l1 /\ another = pl_name q' /\ has_entryF (pm_id s) t name q'))) \/
     (exists l1 p l2 q name another, ps = l1 ++ p :: l2 /\ q ∈ l1 /\
        e = EDupLiveType name another (pl_name p) /\
        has_entryT (pm_id s) t name p /\ has_entryT (pm_id s) t name q /\
        ((another = "" /\ Forall (lacks_entryT (pm_id s) t name) l1) \/
         (exists q', q' ∈ l1 /\ another = pl_name q' /\ has_entryT (pm_id s) t name q')))).
Proof.
  intros Hf0 Ht0 H ps. unfold setupVault in H. xinv H. fold ps in H.
  assert (Hinv1 : forall n v, pm_livefuncs s !! n = Some v -> exists q, q ∈ [] /\ has_entryF (pm_id s) [] n q).
  { intros n v. by rewrite Hf0, lookup_empty. }
  apply exec_sbind in H as [(t1 & t2 & s1 & [] & -> & H1 & H)|(o1 & H1 & Hf)].
  - apply (exec_vaultFuncs _ _ _ []) in H1 as ((a & ->) & Hc1 & Hok1 & _); [|done].
    destruct (Hok1 eq_refl) as (Hcs1 & ft & Hft & Hnd1 & _ & Ha). simpl in Ha. rewrite Hf0 in Ha.
    rewrite (right_id_L ∅ (∪)) in Ha. clear Hok1.
    apply (exec_vaultTypes _ _ _ []) in H as ((b & ->) & Hc2 & Hok2 & Herr2).
    2:{ intros n v. simpl. by rewrite Ht0, lookup_empty. }
    simpl in *. exists t1, t2, a, b. split_and!; try done.
    + intros ->. destruct (Hok2 eq_refl) as (Hcs2 & tt' & Htt & Hnd2 & _ & Hb). rewrite Ht0 in Hb.
      rewrite (right_id_L ∅ (∪)) in Hb. split_and!; try done. exists ft, tt'. done.
    + intros e ->. destruct (Herr2 e eq_refl) as [(p & Hp & -> & Ha')|(l1 & p & l2 & q & n & an & Heq & Hq & -> & He1 & He2 & Hcase)].
      * left. exists p. split; [done|]. right. split; [done|]. by apply answered_app_r.
      * right; right. exists l1, p, l2, q, n, an.
        assert (Hmono : forall q, has_entryT (pm_id s) t2 n q -> has_entryT (pm_id s) (t1 ++ t2) n q).
        { intros q0 (l & Hl & Hin). exists l. split; [by apply answered_app_r|done]. }
        split_and!; try done; [by apply Hmono..|].
        destruct Hcase as [[-> Hall]|(q' & Hq' & -> & Hh)]; [left|right].
        -- split; [done|]. eapply Forall_impl; [exact Hall|]. intros q0 (tbl & Ht & Hn). exists tbl.
           split; [by apply answered_app_r|done].
        -- exists q'. split_and!; try done. by apply Hmono.
  - apply (exec_vaultFuncs _ _ _ []) in H1 as ((a & ->) & Hc1 & _ & Herr1); [|done].
    exists t, [], a, (pm_livetypes s). rewrite app_nil_r. split_and!; try done.
    + intros ->. by destruct o1.
    + intros e ->. destruct o1; try done. simpl in Hf; subst.
      destruct (Herr1 e eq_refl) as [(p & Hp & -> & Ha')|(l1 & p & l2 & q & n & an & Heq & Hq & -> & He1 & He2 & Hcase)].
      * left. exists p. split; [done|]. by left.
      * right; left. exists l1, p, l2, q, n, an. done.
Qed.

End Proofs.
