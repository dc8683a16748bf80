(** invokeEveryOnFree *)
From Verif Require Export VaultProofs.

Section Proofs.
Context {E : GoEnv}.

(** What releasing one plugin does. *)
Definition freed_one (mid : N) (p : plugin) (t : list event) : Prop :=
  exists v t', t = EvRefDec mid (pl_inst p) v :: t' /\
    (((0 < v)%Z /\ t' = []) \/
     ((v <= 0)%Z /\ (t' = [EvOnce (pl_inst p) false] \/
        (exists t'', t' = EvOnce (pl_inst p) true :: t'' /\
          (get_func ROnFree (pl_funcs p) = None /\ t'' = [] \/
           exists c x, get_func ROnFree (pl_funcs p) = Some c /\
             t'' = [EvCall ROnFree (mkCallee mid (pl_name p) (pl_inst p) c) ArgNone x]))))).

Lemma exec_freeOne mid p t u : exec (freeOne mid p) t u -> u = Val tt /\ freed_one mid p t.
Proof.
  unfold freeOne. intros H. xinv H. rename x into v.
  destruct (Z.ltb_spec 0 v); [destruct H as [-> ->]; split; [done|]; exists v; eexists; split; [done|by left]|].
  xinv H. destruct x; [|destruct H as [-> ->]; split; [done|]; exists v; eexists; split; [done|right; split; [done|by left]]].
  apply exec_bind in H as (t1 & t2 & o1 & -> & H1 & H2). destruct H2 as [-> ->]. split; [by destruct o1|]. rewrite app_nil_r.
  exists v. eexists. split; [done|]. right. split; [done|]. right. eexists. split; [done|].
  apply (exec_call ROnFree) in H1 as [(Hn & -> & _)|(c & Hc & _ & ->)]; [by left|right; eauto].
Qed.

Lemma freed_one_facts mid p t : freed_one mid p t ->
  decrements t = [pl_inst p] /\ increments t = [] /\ admitted t = [] /\ created t = [] /\
  (call_sigs t = [] \/ call_sigs t = [called ROnFree mid ArgNone p]) /\
  Forall (fun e => match e with EvCall r _ _ _ => r = ROnFree | _ => True end) t.
Proof.
  intros (v & t' & -> & [[_ ->]|[_ [->|(t'' & -> & [[Hn ->]|(c & x & Hc & ->)])]]]);
    simpl; split_and!; auto; try fall.
  right. unfold called. simpl in *. by rewrite Hc.
Qed.

Definition mplugins (m : gmap string plugin) : list plugin := map snd (map_to_list m).
Lemma plugins_of_keys m : plugins_of m (map_keys m) = mplugins m.
Proof.
  unfold map_keys, mplugins.
  assert (H : forall l, (forall k p, (k, p) ∈ l -> m !! k = Some p) -> plugins_of m (map fst l) = map snd l).
  { induction l as [|[k p] l IH]; intros Hl; simpl; [done|]. rewrite (Hl k p) by (by left).
    f_equal. apply IH. intros. apply Hl. by right. }
  apply H. intros k p Hkp. by apply elem_of_map_to_list in Hkp.
Qed.
Lemma plugins_of_perm m l1 l2 : Permutation l1 l2 -> Permutation (plugins_of m l1) (plugins_of m l2).
Proof.
  induction 1 as [|x l1 l2 _ IH|x y l|l1 l2 l3 _ IH1 _ IH2]; simpl; [done| | |by rewrite IH1].
  - destruct (m !! x); by rewrite IH.
  - destruct (m !! x), (m !! y); try done. constructor.
Qed.
Lemma plugins_of_rev m l : plugins_of m (rev l) = rev (plugins_of m l).
Proof.
  induction l as [|k l IH]; simpl; [done|]. rewrite plugins_of_app, IH. simpl.
  destruct (m !! k); simpl; [done|by rewrite app_nil_r].
Qed.

Lemma exec_freeKeys pm keys t o :
  (forall k, k ∈ keys -> is_Some (pm_map pm !! k)) ->
  exec (ofor keys (freeKey pm)) t o ->
  o = Val tt /\ exists ts, t = concat ts /\ Forall2 (freed_one (pm_id pm)) (plugins_of (pm_map pm) keys) ts.
Proof.
  revert t; induction keys as [|k keys IH]; intros t Hin H; cbn [ofor] in H.
  - destruct H as [-> ->]. split; [done|]. exists []. split; [done|constructor].
  - destruct (Hin k) as [p Hp]; [by left|].
    apply exec_bind in H as (t1 & t2 & o1 & -> & H1 & H2).
    unfold freeKey in H1. rewrite Hp in H1.
    apply exec_freeOne in H1 as [-> H1].
    apply IH in H2 as [-> (ts & -> & Hts)]; [|intros; apply Hin; by right].
    split; [done|]. exists (t1 :: ts). simpl. rewrite Hp. split; [done|]. by constructor.
Qed.

Lemma exec_invokeEveryOnFree pm t o :
  (pm_ordered pm = [] \/ Permutation (pm_ordered pm) (map_keys (pm_map pm))) ->
  exec (invokeEveryOnFree pm) t o ->
  o = Val tt /\ exists ps ts, t = concat ts /\ Forall2 (freed_one (pm_id pm)) ps ts /\
    Permutation ps (mplugins (pm_map pm)) /\ (pm_ordered pm <> [] -> ps = rev (Plugins pm)).
Proof.
  intros Hord. unfold invokeEveryOnFree. destruct (pm_ordered pm) as [|k0 l0] eqn:Eo.
  - intros H. xinv H. simpl in Hv. apply exec_freeKeys in H as [-> (ts & -> & Hts)].
    + split; [done|]. eexists _, _. split_and!; [done|exact Hts| |done].
      rewrite (plugins_of_perm _ _ _ Hv). by rewrite plugins_of_keys.
    + intros k Hk. rewrite Hv in Hk. by apply map_keys_elem.
  - rewrite <- Eo in *. intros H. destruct Hord as [Hord|Hord]; [congruence|].
    apply exec_freeKeys in H as [-> (ts & -> & Hts)].
    + split; [done|]. eexists _, _. split_and!; [done|exact Hts| |].
      * rewrite plugins_of_rev, <- Permutation_rev. rewrite (plugins_of_perm _ _ _ Hord).
        by rewrite plugins_of_keys.
      * intros _. unfold Plugins. by rewrite plugins_of_rev.
    + intros k Hk. apply map_keys_elem. rewrite <- Hord. apply elem_of_list_In. rewrite in_rev.
      by apply elem_of_list_In.
Qed.

Lemma freed_all mid ps ts : Forall2 (freed_one mid) ps ts ->
  decrements (concat ts) = map pl_inst ps /\ increments (concat ts) = [] /\ admitted (concat ts) = [] /\
  created (concat ts) = [] /\
  Forall (fun e => match e with EvCall r _ _ _ => r = ROnFree | _ => True end) (concat ts) /\
  call_sigs (concat ts) `sublist_of` map (called ROnFree mid ArgNone) ps.
Proof.
  induction 1 as [|p t ps ts Hp Hps IH]; simpl; [split_and!; try done|].
  apply freed_one_facts in Hp as (Hd & Hi & Ha & Hc & Hcs & Hev).
  destruct IH as (Hd' & Hi' & Ha' & Hc' & Hev' & Hcs').
  rewrite decrements_app, increments_app, admitted_app, created_app, call_sigs_app, Hd, Hi, Ha, Hc, Hd', Hi', Ha', Hc'.
  split_and!; try done; [by apply Forall_app|].
  destruct Hcs as [->| ->]; simpl; [by constructor|by constructor].
Qed.

End Proofs.
