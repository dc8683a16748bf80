(** C77: failed loads leave no trace. *)
From Verif Require Export PropLoad.
From Verif Require Import PropStatic PropExact.

Section Defs.
Context {E : GoEnv}.
(** One load call: which, its events, its result. *)
Definition load := (api * list event * outcome (option Details))%type.
Definition events_of (ls : list load) : list event := flat_map (fun x => snd (fst x)) ls.
Definition succeeded (x : load) : bool := match snd x with Val _ => true | _ => false end.
(** [loads o ls cur]: the swapper with options [o] has executed the load calls [ls] one after the other, and now Current() is [cur]. *)
Inductive loads (o : opts) : list load -> option mgr -> Prop :=
  | loads_none : loads o [] None
  | loads_more ls cur a t r : loads o ls cur -> exec (api_prog o a) t r -> (forall x, saw_current t x -> x = cur) -> loads o (ls ++ [(a, t, r)]) (after cur t).
End Defs.

Section Proofs.
Context {E : GoEnv}.
Lemma sublist_nodup {A} (l k : list A) : NoDup k -> l `sublist_of` k -> NoDup l.
Proof.
  intros HN HS. induction HS as [|x l1 l2 HS IH|x l1 l2 HS IH]; [done|..]; apply NoDup_cons in HN as [Hx HN].
  - constructor; [|by apply IH]. intros H. apply Hx. apply elem_of_list_In. apply elem_of_list_In in H. revert H. clear -HS.
    induction HS as [|y l1 l2 _ IH|y l1 l2 _ IH]; [done|intros [->|H]; [by left|right; by apply IH]|intros H; right; by apply IH].
  - by apply IH.
Qed.
Lemma events_of_app l1 l2 : events_of (l1 ++ l2) = events_of l1 ++ events_of l2.
Proof. apply flat_map_app. Qed.
Lemma loads_history o ls cur : loads o ls cur -> history o (events_of ls) cur.
Proof.
  induction 1 as [|ls cur a t r _ IH HX Hsaw]; [constructor|]. rewrite events_of_app. cbn. rewrite app_nil_r.
  apply (history_call o _ _ (api_prog o a) t r); [done|destruct a; constructor|done|done].
Qed.

(** A failed call makes no difference to the calls after it. *)
Theorem C77_failed_load_leaves_no_trace o h cur a t r :
  next_call o h cur (api_prog o a) t r -> ~ is_val r -> forall a2 t2 r2,
  next_call o (h ++ t) cur (api_prog o a2) t2 r2 <-> next_call o h cur (api_prog o a2) t2 r2 /\ fresh_objects (h ++ t ++ t2).
Proof.
  intros HN Hr a2 t2 r2. destruct (C08_failed_call_changes_nothing _ _ _ _ _ _ HN Hr) as (Hcur & _).
  destruct HN as (HH & HL & HX & Hsaw & HF). split.
  - intros (_ & HL2 & HX2 & Hs2 & HF2). rewrite <- app_assoc in HF2. split; [|done]. split_and!; try done.
    unfold fresh_objects in *. rewrite !created_app in *. apply (sublist_nodup _ _ HF2).
    apply sublist_app; [done|]. by apply sublist_inserts_l.
  - intros ((_ & HL2 & HX2 & Hs2 & _) & HF2). split_and!; try done; [|by rewrite <- app_assoc].
    rewrite <- Hcur. by apply (history_call o h cur (api_prog o a) t r).
Qed.

(** They publish nothing, not even the current manager again. The calls of C77_case meet the hypotheses. *)
Theorem C08_failed_call_publishes_nothing o h cur a t r : next_call o h cur (api_prog o a) t r -> ~ is_val r -> forall m, ~ published t m.
Proof.
  intros HN Hr m Hm. unfold published in Hm.
  assert (t = [] \/ exists tb, t = EvLock :: tb ++ [EvUnlock] /\ Forall inner tb) as [->|(tb & -> & Hi)].
  { destruct (o_static o) as [st|] eqn:Hst.
    - destruct (next_static _ _ _ _ _ _ _ HN Hst) as [(data & tb & _ & -> & Hs)|(data & extra & _ & -> & _)]; [right|by left].
      exists tb. split; [done|]. destruct (static_shape _ _ _ _ _ _ Hs) as (ti & tz & -> & Hi & Hz).
      destruct Hz as [[-> _]|(new & d & _ & ->)]; [by rewrite app_nil_r|]. exfalso. by apply Hr.
    - destruct (next_dir _ _ _ _ _ _ HN Hst) as (tb & add & -> & Hd & Hadd). right.
      assert (add = []) as ->. { destruct a; [done|]. by rewrite decide_False in Hadd. }
      exists tb. split; [done|]. destruct (dir_shape _ _ _ _ _ Hd) as (ti & tz & -> & Hi & Hz).
      destruct Hz as [[-> _]|(new & old & d & _ & -> & _)]; [by rewrite app_nil_r|]. exfalso. by apply Hr. }
  { by apply elem_of_nil in Hm. }
  apply elem_of_cons in Hm as [|Hm]; [done|]. apply elem_of_app in Hm as [Hm|Hm]; [by apply (inner_not _ _ Hi) in Hm|].
  by apply elem_of_list_singleton in Hm.
Qed.

Lemma counted_app t1 t2 : counted (t1 ++ t2) = (counted t1 + counted t2)%nat.
Proof. unfold counted. by rewrite omap_app, app_length. Qed.

(** The failed calls can be left out of every history. *)
Theorem C77_failed_loads_can_be_left_out o ls cur :
  loads o ls cur -> fresh_objects (events_of ls) ->
  loads o (List.filter succeeded ls) cur /\ fresh_objects (events_of (List.filter succeeded ls)) /\
  (forall m, published (events_of (List.filter succeeded ls)) m <-> published (events_of ls) m) /\
  counted (events_of (List.filter succeeded ls)) = counted (events_of ls).
Proof.
  intros HL HF. cut (loads o (List.filter succeeded ls) cur /\ created (events_of (List.filter succeeded ls)) `sublist_of` created (events_of ls) /\
    (forall m, published (events_of (List.filter succeeded ls)) m <-> published (events_of ls) m) /\
    counted (events_of (List.filter succeeded ls)) = counted (events_of ls)).
  { intros (H1 & H2 & H3 & H4). split_and!; try done. unfold fresh_objects in *. by eapply sublist_nodup. }
  induction HL as [|ls cur a t r HL IH HX Hsaw]; [split_and!; [constructor|done|done|done]|].
  rewrite events_of_app in HF. cbn in HF. rewrite app_nil_r in HF.
  assert (HN : next_call o (events_of ls) cur (api_prog o a) t r).
  { split_and!; [by apply loads_history|destruct a; constructor|done|done|done]. }
  assert (HF1 : fresh_objects (events_of ls)). { unfold fresh_objects in *. rewrite created_app in HF. by apply NoDup_app in HF as [? _]. }
  destruct (IH HF1) as (H1 & H2 & H3 & H4). rewrite List.filter_app, !events_of_app. cbn [List.filter].
  assert (Hcase : is_val r \/ ~ is_val r) by (destruct r; [left|right; intros []..]; done).
  destruct Hcase as [Hv|Hv].
  - assert (Hs : succeeded (a, t, r) = true) by (destruct r; done). rewrite Hs. cbn. rewrite !app_nil_r, !created_app, !counted_app. split_and!.
    + by constructor.
    + by apply sublist_app.
    + intros m. unfold published in *. rewrite !elem_of_app, H3. done.
    + congruence.
  - assert (Hs : succeeded (a, t, r) = false) by (destruct r; [destruct Hv|..]; done). rewrite Hs. cbn. rewrite !app_nil_r, !created_app, !counted_app.
    destruct (C08_failed_call_changes_nothing _ _ _ _ _ _ HN Hv) as (-> & Hct & _). split_and!.
    + done.
    + by apply sublist_inserts_r.
    + intros m. unfold published in *. rewrite !elem_of_app, H3. split; [by left|]. intros [|Hm]; [done|]. by destruct (C08_failed_call_publishes_nothing _ _ _ _ _ _ HN Hv m).
    + lia.
Qed.
End Proofs.

(** ** The hypotheses are met *)
(** A load, a reload that fails because a callback panics, and one more reload. *)
Local Notation run_third := (demo_run 9 world1 dyn (Call_Reload 11 None)).
Definition three : list load := [(Call_LoadPlugins 77, t0, snd run0); (Call_Reload 1 None, PropLoad.t_badcb, Err (EPanic None (PUser 3))); (Call_Reload 11 None, t1', snd run_third)].
Lemma three_fresh : fresh_objects (t0 ++ PropLoad.t_badcb ++ t1').
Proof.
  unfold fresh_objects. replace (created (t0 ++ PropLoad.t_badcb ++ t1')) with [1; 2; 3; 4; 10]%N by (vm_compute; reflexivity).
  apply (bool_decide_unpack _). vm_compute. exact I.
Qed.
Example C77_case :
  next_call dyn t0 (Some m0) (api_prog dyn (Call_Reload 1 None)) PropLoad.t_badcb (Err (EPanic None (PUser 3))) /\
  next_call dyn (t0 ++ PropLoad.t_badcb) (Some m0) (api_prog dyn (Call_Reload 11 None)) t1' (snd run_third) /\ created PropLoad.t_badcb = [4]%N.
Proof.
  pose proof (proj1 C07_kept_case) as H2. pose proof (proj1 (proj2 C70_case)) as H3.
  split; [exact H2|]. split; [|vm_compute; reflexivity].
  assert (Hr : ~ is_val (A := option Details) (Err (EPanic None (PUser 3)))) by exact (fun H => H).
  exact (proj2 (C77_failed_load_leaves_no_trace dyn t0 (Some m0) (Call_Reload 1 None) PropLoad.t_badcb _ H2 Hr (Call_Reload 11 None) t1' (snd run_third)) (conj H3 three_fresh)).
Qed.
Example C77_history_case : loads dyn three (after (Some m0) t1') /\ fresh_objects (events_of three) /\ map succeeded three = [true; false; true].
Proof.
  pose proof (proj1 C07_kept_case) as H2. pose proof (proj1 (proj2 C77_case)) as H3.
  assert (Hr : ~ is_val (A := option Details) (Err (EPanic None (PUser 3)))) by exact (fun H => H).
  pose proof (proj1 (C08_failed_call_changes_nothing _ _ _ _ _ _ H2 Hr)) as Hcur.
  split; [|split; [|vm_compute; reflexivity]].
  - apply (loads_more dyn [(Call_LoadPlugins 77, t0, snd run0); (Call_Reload 1 None, PropLoad.t_badcb, Err (EPanic None (PUser 3)))] (Some m0) (Call_Reload 11 None) t1' (snd run_third)).
    + rewrite <- Hcur at 1. apply (loads_more dyn [(Call_LoadPlugins 77, t0, snd run0)] (Some m0) (Call_Reload 1 None) PropLoad.t_badcb (Err (EPanic None (PUser 3)))).
      * rewrite <- t0_after. exact (loads_more dyn [] None (Call_LoadPlugins 77) t0 (snd run0) (loads_none dyn) t0_exec t0_saw).
      * exact (proj1 (proj2 (proj2 H2))).
      * exact (proj1 (proj2 (proj2 (proj2 H2)))).
    + exact (proj1 (proj2 (proj2 H3))).
    + exact (proj1 (proj2 (proj2 (proj2 H3)))).
  - pose proof three_fresh as HF. unfold fresh_objects, events_of, three in *. cbn [flat_map fst snd]. rewrite app_nil_r. exact HF.
Qed.
Print Assumptions C77_failed_load_leaves_no_trace.
Print Assumptions C77_failed_loads_can_be_left_out.
Print Assumptions C08_failed_call_publishes_nothing.
