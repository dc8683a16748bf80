(** initDeps: wiring, checks, ordering *)
From Verif Require Export ManagerProofs.

Section Proofs.
Context {E : GoEnv}.

(** [q] is an acceptable target for field [f] of plugin [p] among the plugins [M]. *)
Definition dep_ok (M : gmap string plugin) (p : plugin) (f : sfield) (q : plugin) : Prop :=
  M !! name2key (sf_name f) = Some q /\ sf_anon f = false /\
  (pl_reloadable p = false -> pl_reloadable q = false) /\
  (forall x, field_value f q = Some x -> assignable (gv_type (snd x)) (sf_type f) = true /\ sf_exported f = true).

Definition set_wires (deps : list string) (imports : list (string * gvalue)) (p : plugin) : plugin :=
  mkPlugin (pl_name p) (pl_file p) (pl_sha1 p) (pl_when p) (pl_note p) (pl_unchanged p) (pl_P p) (pl_funcs p)
           (pl_deps p ++ deps) (pl_inst p) (pl_exported p) (pl_reloadable p) (pl_imports p ++ imports).

Lemma set_wires_nil p : set_wires [] [] p = p.
Proof. unfold set_wires. rewrite !app_nil_r. by destruct p. Qed.
Lemma set_wires_app d1 d2 i1 i2 p : set_wires d2 i2 (set_wires d1 i1 p) = set_wires (d1 ++ d2) (i1 ++ i2) p.
Proof. unfold set_wires; simpl. by rewrite !app_assoc. Qed.
Lemma core_set_wires d i p : core (set_wires d i p) = core p.
Proof. done. Qed.

Lemma core_map_lookup s k p : pm_map s !! k = Some p -> core_map s !! k = Some (core p).
Proof. intros H. unfold core_map. by rewrite lookup_fmap, H. Qed.
Lemma core_map_lookup_inv s k q : core_map s !! k = Some q -> exists p, pm_map s !! k = Some p /\ q = core p.
Proof.
  unfold core_map. rewrite lookup_fmap. destruct (pm_map s !! k) as [p|]; [|done]. intros [= <-]. eauto.
Qed.
Lemma core_map_insert s k p p' :
  pm_map s !! k = Some p -> core p' = core p -> core_map (upd_map <[k := p']> s) = core_map s.
Proof.
  intros Hp Hc. unfold core_map. simpl. rewrite fmap_insert, Hc. apply insert_id.
  by rewrite lookup_fmap, Hp.
Qed.

(** only the map changes, and in it only Deps and the Import() objects *)
Definition wire_frame (s s' : mgr) : Prop :=
  s' = upd_map (fun _ => pm_map s') s /\ core_map s' = core_map s.
Lemma wire_frame_refl s : wire_frame s s.
Proof. split; [|done]. by destruct s. Qed.
Lemma wire_frame_trans s1 s2 s3 : wire_frame s1 s2 -> wire_frame s2 s3 -> wire_frame s1 s3.
Proof.
  intros [H1 H1'] [H2 H2']. split; [|congruence]. rewrite H2, H1. done.
Qed.
Lemma wire_frame_insert s k p p' :
  pm_map s !! k = Some p -> core p' = core p -> wire_frame s (upd_map <[k := p']> s).
Proof. intros Hp Hc. split; [done|]. by eapply core_map_insert. Qed.

Lemma exec_initField k f s t s' o p :
  pm_map s !! k = Some p ->
  exec (initField k f s) t (s', o) ->
  t = [] /\ (~ is_val o -> s' = s) /\
  (o = Val tt ->
    (dep_field f = false /\ s' = s) \/
    (dep_field f = true /\ exists q, dep_ok (core_map s) p f q /\
       s' = upd_map <[k := set_wires [pl_name q] (option_list (field_value f q)) p]> s)).
Proof.
  intros Hp. unfold initField. intros H. xinv H. rewrite Hp in H. unfold dep_field.
  destruct (sf_name f) as [|c nm] eqn:En; [xinv H; split_and!; done|].
  destruct (is_upper_byte c) eqn:Eu; cbn [negb] in H; [|xinv H; split_and!; auto].
  destruct (String.eqb (sf_tag f) "-") eqn:Et; [xinv H; split_and!; auto|].
  destruct (sf_anon f) eqn:Ea; [xinv H; split_and!; done|].
  rewrite <- En in *.
  destruct (pm_map s !! name2key (sf_name f)) as [dep|] eqn:Ed; [|xinv H; split_and!; done].
  destruct (negb (pl_reloadable p) && pl_reloadable dep) eqn:Er; [xinv H; split_and!; done|].
  assert (Hrel : pl_reloadable p = false -> pl_reloadable dep = false).
  { intros Hpr. rewrite Hpr in Er. simpl in Er. done. }
  assert (Hw : forall t s' o, exec (smod (upd_map <[k := add_dep (pl_name dep) p]>) s) t (s', o) ->
    field_value f dep = None ->
    t = [] /\ (~ is_val o -> s' = s) /\ (o = Val tt -> (true && negb false = false /\ s' = s) \/
    (true && negb false = true /\ exists q, dep_ok (core_map s) p f q /\
       s' = upd_map <[k := set_wires [pl_name q] (option_list (field_value f q)) p]> s))).
  { clear H. intros t0 s0 o0 H Hfv. xinv H. split_and!; [done|simpl; tauto|]. intros _. right. split; [done|].
    assert (Hfv' : field_value f (core dep) = None) by exact Hfv.
    exists (core dep). split; [split_and!|].
    - by apply core_map_lookup.
    - done.
    - done.
    - intros x. rewrite Hfv'. done.
    - rewrite Hfv'. simpl. unfold set_wires, add_dep. rewrite app_nil_r. done. }
  destruct (pl_exported dep) as [g|] eqn:Ee.
  - destruct (is_nil (Some g)) eqn:Enil.
    { apply Hw in H; [done|]. unfold field_value. by rewrite Ee, Enil. }
    destruct (assignable (gv_type g) (sf_type f)) eqn:Eas; cbn [negb] in H; [|xinv H; split_and!; done].
    destruct (sf_exported f) eqn:Eex; cbn [negb] in H; [|xinv H; split_and!; done].
    xinv H. split_and!; [done|simpl; tauto|]. intros _. right. split; [done|].
    assert (Hfv : field_value f (core dep) = Some (sf_name f, g)).
    { unfold field_value. simpl. rewrite Ee. simpl in Enil. by rewrite Enil. }
    exists (core dep). split; [split_and!|].
    + by apply core_map_lookup.
    + done.
    + done.
    + intros x. rewrite Hfv. intros [= <-]. done.
    + rewrite Hfv. done.
  - apply Hw in H; [done|]. unfold field_value. by rewrite Ee.
Qed.

(** The wiring done for one plugin. *)
Definition wired (M : gmap string plugin) (p : plugin) (imp : iface) (p' : plugin) : Prop :=
  exists fields qs, dep_fields imp = Some fields /\ Forall2 (dep_ok M p) fields qs /\
    p' = set_wires (map pl_name qs) (omap (fun x => x) (zip_with field_value fields qs)) p.


Lemma exec_initFields k fields s t s' o p :
  pm_map s !! k = Some p ->
  exec (sfor fields (initField k) s) t (s', o) ->
  t = [] /\ wire_frame s s' /\ (forall k', k' <> k -> pm_map s' !! k' = pm_map s !! k') /\
  (o = Val tt -> exists qs, Forall2 (dep_ok (core_map s) p) (List.filter dep_field fields) qs /\
     pm_map s' !! k = Some (set_wires (map pl_name qs)
        (omap (fun x => x) (zip_with field_value (List.filter dep_field fields) qs)) p)).
Proof.
  revert s t p; induction fields as [|f fields IH]; intros s t p Hp; cbn [sfor].
  - intros H. xinv H. split_and!; auto using wire_frame_refl. intros _. exists []. simpl.
    rewrite set_wires_nil. split; [constructor|done].
  - intros H. apply exec_sbind in H as [(t1 & t2 & s1 & [] & -> & H1 & H)|(o1 & H1 & Hf)].
    + eapply exec_initField in H1 as (-> & _ & H1); [|done].
      destruct H1 as [[Hdf ->]|(Hdf & q & Hq & ->)]; [done| |].
      * eapply IH in H as (-> & Hfr & Hoth & Hok); [|done]. split_and!; try done. simpl. by rewrite Hdf.
      * eapply IH in H as (-> & Hfr & Hoth & Hok).
        2:{ simpl. apply lookup_insert. }
        assert (Hfr0 : wire_frame s (upd_map <[k:=set_wires [pl_name q] (option_list (field_value f q)) p]> s)).
        { by eapply wire_frame_insert. }
        split_and!; [done|by eapply wire_frame_trans| |].
        -- intros k' Hk'. rewrite Hoth by done. simpl. by rewrite lookup_insert_ne.
        -- intros ->. destruct (Hok eq_refl) as (qs & Hqs & ->). exists (q :: qs). simpl. rewrite Hdf.
           split.
           ++ constructor; [done|]. destruct Hfr0 as [_ Hcm]. by rewrite Hcm in Hqs.
           ++ f_equal. rewrite set_wires_app. f_equal. simpl. by destruct (field_value f q).
    + eapply exec_initField in H1 as (-> & H1 & _); [|done].
      assert (s' = s) as ->. { apply H1. destruct o1, o; simpl in *; tauto. }
      split_and!; auto using wire_frame_refl. intros ->. by destruct o1.
Qed.

Lemma exec_initPlugin k s t s' o p :
  pm_map s !! k = Some p ->
  exec (initPlugin k s) t (s', o) ->
  wire_frame s s' /\ (forall k', k' <> k -> pm_map s' !! k' = pm_map s !! k') /\
  admitted t = [] /\ increments t = [] /\ decrements t = [] /\ created t = [] /\
  (call_sigs t = [] \/ pl_unchanged p = false /\ call_sigs t = [called RImport (pm_id s) ArgNone p]) /\
  (o = Val tt -> if pl_unchanged p then t = [] /\ s' = s
    else call_sigs t = [called RImport (pm_id s) ArgNone p] /\ exists imp p',
      answered RImport (pm_id s) ArgNone p (Val imp) t /\ wired (core_map s) p imp p' /\
      pm_map s' !! k = Some p').
Proof.
  intros Hp. unfold initPlugin. intros H. xinv H. rewrite Hp in H.
  destruct (pl_unchanged p) eqn:Eu.
  { xinv H. split_and!; auto using wire_frame_refl. }
  apply exec_sbind in H as [(t1 & t2 & s1 & imp & -> & H1 & H)|(o1 & H1 & Hf)].
  2:{ xinv H1. unfold invokeImport in H1.
      apply (exec_recovered_call RImport) in H1 as [(v & -> & _)|(x & -> & H1)]; [by destruct o|].
      destruct H1 as [[-> Hn]|(c & Hc & ->)].
      - split_and!; auto using wire_frame_refl. by intros ->.
      - split_and!; auto using wire_frame_refl.
        + right. split; [done|]. unfold called. by rewrite Hc.
        + by intros ->. }
  xinv H1. unfold invokeImport in H1.
  apply (exec_recovered_call RImport) in H1 as [(v & [= <-] & _ & Hans & Hcs & c & Hc & ->)|(x & ? & _)]; [|done].
  assert (Hskip : forall fields', dep_fields imp = Some fields' -> fields' = [] -> s' = s -> t2 = [] -> o = Val tt ->
    wire_frame s s' /\ (forall k', k' <> k -> pm_map s' !! k' = pm_map s !! k') /\
    admitted ([EvCall RImport (mkCallee (pm_id s) (pl_name p) (pl_inst p) c) ArgNone (Val imp)] ++ t2) = [] /\
    increments ([EvCall RImport (mkCallee (pm_id s) (pl_name p) (pl_inst p) c) ArgNone (Val imp)] ++ t2) = [] /\
    decrements ([EvCall RImport (mkCallee (pm_id s) (pl_name p) (pl_inst p) c) ArgNone (Val imp)] ++ t2) = [] /\
    created ([EvCall RImport (mkCallee (pm_id s) (pl_name p) (pl_inst p) c) ArgNone (Val imp)] ++ t2) = [] /\
    (call_sigs ([EvCall RImport (mkCallee (pm_id s) (pl_name p) (pl_inst p) c) ArgNone (Val imp)] ++ t2) = [] \/
     false = false /\ call_sigs ([EvCall RImport (mkCallee (pm_id s) (pl_name p) (pl_inst p) c) ArgNone (Val imp)] ++ t2) = [called RImport (pm_id s) ArgNone p]) /\
    (o = Val tt -> call_sigs ([EvCall RImport (mkCallee (pm_id s) (pl_name p) (pl_inst p) c) ArgNone (Val imp)] ++ t2) = [called RImport (pm_id s) ArgNone p] /\
      exists imp0 p', answered RImport (pm_id s) ArgNone p (Val imp0)
          ([EvCall RImport (mkCallee (pm_id s) (pl_name p) (pl_inst p) c) ArgNone (Val imp)] ++ t2) /\
        wired (core_map s) p imp0 p' /\ pm_map s' !! k = Some p')).
  { intros fields' Hfs -> -> -> ->. rewrite app_nil_r. split_and!; auto using wire_frame_refl.
    intros _. split; [done|]. exists imp, p. split_and!; auto.
    exists [], []. split; [done|]. split; [constructor|]. simpl. by rewrite set_wires_nil. }
  destruct imp as [g|].
  2:{ xinv H. by eapply Hskip. }
  destruct (is_nil (Some g)) eqn:Enil.
  { xinv H. eapply Hskip; try done. unfold dep_fields. by rewrite Enil. }
  clear Hskip. destruct g as [ty isnil payload pointee]. simpl gv_type in H.
  assert (Hbad : (exists e, exec (serr (A := unit) e s) t2 (s', o)) ->
    wire_frame s s' /\ (forall k', k' <> k -> pm_map s' !! k' = pm_map s !! k') /\
    t2 = [] /\ o <> Val tt).
  { intros [e H']. xinv H'. split_and!; auto using wire_frame_refl; done. }
  destruct ty as [id el|id fs|id kd]; [destruct el as [id' el'|id' fields|id' kd']|..].
  2:{ eapply exec_initFields in H as (-> & Hfr & Hoth & Hok); [|done].
      rewrite app_nil_r in *. split_and!; auto.
      intros Ho. split; [done|]. destruct (Hok Ho) as (qs & Hqs & Hk').
      eexists _, _. split_and!; [exact Hans| |exact Hk'].
      exists (List.filter dep_field fields), qs. split_and!; [|done|done].
      unfold dep_fields. by rewrite Enil. }
  all: destruct Hbad as (Hb1 & Hb2 & -> & Hb3); [eexists; exact H|]; rewrite ?app_nil_r; split_and!; auto; intros; done.
Qed.

Lemma called_core r mid arg p : called r mid arg (core p) = called r mid arg p.
Proof. done. Qed.

(** plugins loaded by this manager itself, not carried over *)
Definition is_new (p : plugin) : bool := negb (pl_unchanged p).

Lemma plugins_of_app m l1 l2 : plugins_of m (l1 ++ l2) = plugins_of m l1 ++ plugins_of m l2.
Proof.
  induction l1 as [|k l1 IH]; simpl; [done|]. destruct (m !! k); rewrite IH; done.
Qed.
Lemma plugins_of_fmap (m : gmap string plugin) l : plugins_of (core <$> m) l = map core (plugins_of m l).
Proof.
  induction l as [|k l IH]; simpl; [done|]. rewrite lookup_fmap.
  destruct (m !! k); simpl; by rewrite IH.
Qed.
Lemma elem_plugins_of m l p : p ∈ plugins_of m l <-> exists k, k ∈ l /\ m !! k = Some p.
Proof.
  induction l as [|k l IH]; simpl.
  - split; [intros H; by apply elem_of_nil in H|]. intros (k & Hk & _). by apply elem_of_nil in Hk.
  - destruct (m !! k) as [q|] eqn:Ek.
    + rewrite elem_of_cons, IH. split.
      * intros [->|(k' & Hk' & ?)]; [exists k; split; [by left|done]|exists k'; split; [by right|done]].
      * intros (k' & Hk' & Hm). apply elem_of_cons in Hk' as [->|Hk']; [left; congruence|right; eauto].
    + rewrite IH. split.
      * intros (k' & Hk' & ?). exists k'; split; [by right|done].
      * intros (k' & Hk' & Hm). apply elem_of_cons in Hk' as [->|Hk']; [congruence|eauto].
Qed.

Lemma answered_app_l r mid arg p x t1 t2 : answered r mid arg p x t1 -> answered r mid arg p x (t1 ++ t2).
Proof. intros (c & Hc & H). exists c. split; [done|]. apply elem_of_app; auto. Qed.
Lemma answered_app_r r mid arg p x t1 t2 : answered r mid arg p x t2 -> answered r mid arg p x (t1 ++ t2).
Proof. intros (c & Hc & H). exists c. split; [done|]. apply elem_of_app; auto. Qed.

(** the first loop of initDeps *)
Lemma exec_initPlugins keys s t s' o :
  NoDup keys -> (forall k, k ∈ keys -> is_Some (pm_map s !! k)) ->
  exec (sfor keys initPlugin s) t (s', o) ->
  wire_frame s s' /\ (forall k, k ∉ keys -> pm_map s' !! k = pm_map s !! k) /\
  admitted t = [] /\ increments t = [] /\ decrements t = [] /\ created t = [] /\
  (exists rest, map (called RImport (pm_id s) ArgNone) (List.filter is_new (plugins_of (core_map s) keys)) = call_sigs t ++ rest) /\
  (o = Val tt ->
    call_sigs t = map (called RImport (pm_id s) ArgNone) (List.filter is_new (plugins_of (core_map s) keys)) /\
    forall k p, k ∈ keys -> pm_map s !! k = Some p -> exists p', pm_map s' !! k = Some p' /\
      if pl_unchanged p then p' = p else exists imp,
        answered RImport (pm_id s) ArgNone p (Val imp) t /\ wired (core_map s) p imp p').
Proof.
  revert s t; induction keys as [|k keys IH]; intros s t Hnd Hin; cbn [sfor].
  - intros H. xinv H. split_and!; auto using wire_frame_refl; [by exists []|]. intros _. split; [done|].
    intros k p Hk. by apply elem_of_nil in Hk.
  - apply NoDup_cons in Hnd as [Hk Hnd]. destruct (Hin k) as [p Hp]; [by left|]. intros H.
    assert (Hcp : core_map s !! k = Some (core p)) by (by apply core_map_lookup).
    apply exec_sbind in H as [(t1 & t2 & s1 & [] & -> & H1 & H)|(o1 & H1 & Hf)].
    + eapply exec_initPlugin in H1 as (Hfr1 & Hoth1 & Ha1 & Hi1 & Hd1 & Hc1 & _ & Hok1); [|done].
      specialize (Hok1 eq_refl).
      assert (Hid : pm_id s1 = pm_id s) by (destruct Hfr1 as [-> _]; done).
      assert (Hcm : core_map s1 = core_map s) by apply Hfr1.
      apply IH in H as (Hfr & Hoth & Ha & Hi & Hd & Hc & (rest & Hrest) & Hok); [|done|].
      2:{ intros k' Hk'. rewrite Hoth1; [|set_solver]. apply Hin. by right. }
      rewrite Hid, Hcm in *.
      rewrite admitted_app, increments_app, decrements_app, created_app, call_sigs_app, Ha1, Hi1, Hd1, Hc1, Ha, Hi, Hd, Hc.
      assert (Hcs1 : call_sigs t1 = map (called RImport (pm_id s) ArgNone) (List.filter is_new [core p])).
      { unfold is_new; simpl. destruct (pl_unchanged p); simpl; [by destruct Hok1 as [-> _]|apply Hok1]. }
      assert (Hsplit : List.filter is_new (plugins_of (core_map s) (k :: keys)) =
                List.filter is_new [core p] ++ List.filter is_new (plugins_of (core_map s) keys)).
      { simpl. rewrite Hcp. simpl. by destruct (is_new (core p)). }
      split_and!; try done.
      * by eapply wire_frame_trans.
      * intros k' Hk'. rewrite Hoth by set_solver. apply Hoth1. set_solver.
      * exists rest. rewrite Hsplit, map_app, Hrest, Hcs1, app_assoc. done.
      * intros ->. destruct (Hok eq_refl) as [Hcs Hks]. split.
        { rewrite Hsplit, map_app, Hcs, Hcs1. done. }
        intros k' p' Hk' Hp'. apply elem_of_cons in Hk' as [->|Hk'].
        -- rewrite Hp in Hp'; simplify_eq. rewrite Hoth by done.
           destruct (pl_unchanged p') eqn:Eu.
           ++ destruct Hok1 as [_ ->]. eauto.
           ++ destruct Hok1 as [_ (imp & p'' & Hans & Hw & Hl)]. exists p''. split; [done|].
              exists imp. split; [by apply answered_app_l|done].
        -- destruct (Hks k' p') as (p'' & Hp'' & Hpost); [done| |].
           { rewrite Hoth1; [done|]. by intros ->. }
           exists p''. split; [done|]. destruct (pl_unchanged p'); [done|].
           destruct Hpost as (imp & Hans & Hw). exists imp. split; [by apply answered_app_r|done].
    + eapply exec_initPlugin in H1 as (Hfr1 & Hoth1 & Ha1 & Hi1 & Hd1 & Hc1 & Hcs1 & _); [|done].
      split_and!; try done.
      * intros k' Hk'. apply Hoth1. set_solver.
      * simpl. rewrite Hcp. destruct Hcs1 as [->|[Hun ->]]; [by eexists|].
        unfold is_new at 1. simpl. rewrite Hun. simpl. eauto.
      * intros ->. by destruct o1.
Qed.

End Proofs.
