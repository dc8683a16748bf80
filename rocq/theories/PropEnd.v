(** C74: every call returns, whatever the scheduler does. *)
From Verif Require Export PropLeak.

Section Props.
Context {E : GoEnv}.

(** ** Specification *)
(** Time passes. *)
Definition waits (w w' : world) : Prop := exists now, (w_now w <= now)%Z /\ w' = mkWorld now (w_mem w) (w_threads w) (w_hist w).
(** The user's program makes another API call. *)
Definition starts (o : opts) (w w' : world) : Prop :=
  exists k, user_task k /\ w' = mkWorld (w_now w) (w_mem w) (w_threads w ++ [start o (w_now w) k]) (w_hist w).
(** Goroutine [j], not finished, does one thing: its program or its being inside a plugin function changes. *)
Definition moves (o : opts) (j : nat) (w w' : world) : Prop :=
  step o w w' /\ w_now w' = w_now w /\
  exists th th', w_threads w !! j = Some th /\ w_threads w' !! j = Some th' /\ (th_prog th', th_called th') <> (th_prog th, th_called th) /\
    forall i, i <> j -> (i < length (w_threads w))%nat -> w_threads w' !! i = w_threads w !! i.
(** [P] will hold whatever the scheduler does and whatever plugins and the operating system answer, as long as the
    scheduler goes on letting goroutines move: either [P] holds, or some goroutine can move (possibly after some time), and [P] will hold after
    every move. *)
Inductive inevitably (o : opts) (P : world -> Prop) : world -> Prop :=
  | now_holds w : P w -> inevitably o P w
  | will_hold w : (exists j w1 w2, waits w w1 /\ moves o j w1 w2) ->
      (forall j w1 w2, waits w w1 -> moves o j w1 w2 -> inevitably o P w2) -> inevitably o P w.

(** ** Pools of programs terminate *)
Notation job := (prog result * bool)%type.
Definition job_of (th : thread) : job := (th_prog th, th_called th).
Context (o : opts).
Inductive pstep (ps : list job) : list job -> Prop :=
  | p_begin j X (a : act X) k : ps !! j = Some (Act a k, false) -> pstep ps (<[j := (Act a k, true)]> ps)
  | p_act j X (a : act X) k b x now : ps !! j = Some (Act a k, b) -> pstep ps (<[j := (k x, false)]> ps ++ map job_of (spawns o now a)).
Definition SN (ps : list job) : Prop := Acc (fun ps' ps => pstep ps ps') ps.
Definition safe (p : job) : Prop := forall ps1 ps2, SN (ps1 ++ ps2) -> SN (ps1 ++ p :: ps2).

Lemma lookup_middle_cases {A} (l1 l2 : list A) x j y : (l1 ++ x :: l2) !! j = Some y ->
  (j < length l1 /\ l1 !! j = Some y)%nat \/ (j = length l1 /\ y = x) \/ (exists i, j = length l1 + S i /\ l2 !! i = Some y)%nat.
Proof.
  intros H. destruct (decide (j < length l1)%nat) as [Hd|Hd]; [left; split; [done|]; by rewrite lookup_app_l in H|].
  rewrite lookup_app_r in H by lia. destruct (j - length l1)%nat as [|i] eqn:Hi; cbn in H; [right; left; split; [lia|congruence]|].
  right; right. exists i. split; [lia|done].
Qed.
Lemma pstep_split ps1 p ps2 ps' : pstep (ps1 ++ p :: ps2) ps' ->
  (exists ps1' ps2', ps' = ps1' ++ p :: ps2' /\ pstep (ps1 ++ ps2) (ps1' ++ ps2')) \/
  (exists X (a : act X) k, p = (Act a k, false) /\ ps' = ps1 ++ (Act a k, true) :: ps2) \/
  (exists X (a : act X) k b x now, p = (Act a k, b) /\ ps' = ps1 ++ (k x, false) :: ps2 ++ map job_of (spawns o now a)).
Proof.
  intros [j X a k Hj|j X a k b x now Hj]; apply lookup_middle_cases in Hj as [[Hlt Hj]|[[-> <-]|(i & -> & Hj)]].
  - left. exists (<[j := (Act a k, true)]> ps1), ps2. split; [by rewrite insert_app_l|]. rewrite <- insert_app_l by done. constructor. by apply lookup_app_l_Some.
  - right; left. exists X, a, k. split; [done|]. rewrite insert_app_r_alt by lia. by rewrite Nat.sub_diag.
  - left. exists ps1, (<[i := (Act a k, true)]> ps2). split.
    + rewrite insert_app_r. done.
    + rewrite <- insert_app_r. constructor. rewrite lookup_app_r by lia. by replace (length ps1 + i - length ps1)%nat with i by lia.
  - left. exists (<[j := (k x, false)]> ps1), (ps2 ++ map job_of (spawns o now a)). split.
    + rewrite insert_app_l by done. by rewrite <- !app_assoc.
    + rewrite app_assoc, <- insert_app_l by done. eapply p_act. by apply lookup_app_l_Some.
  - right; right. exists X, a, k, b, x, now. split; [done|]. rewrite insert_app_r_alt by lia. rewrite Nat.sub_diag. by rewrite <- app_assoc.
  - left. exists ps1, (<[i := (k x, false)]> ps2 ++ map job_of (spawns o now a)). split.
    + rewrite insert_app_r. by rewrite <- app_assoc.
    + rewrite app_assoc, <- insert_app_r. eapply p_act. rewrite lookup_app_r by lia. by replace (length ps1 + i - length ps1)%nat with i by lia.
Qed.
(** if the moves of [p] itself lead to safe jobs (and start safe jobs), [p] is safe *)
Definition own_moves (p : job) : Prop :=
  match p with
  | (Ret _, _) => True
  | (Act a k, b) => (b = false -> safe (Act a k, true)) /\ (forall x, safe (k x, false)) /\ forall now th, th ∈ spawns o now a -> safe (job_of th)
  end.
Lemma safe_intro p : own_moves p -> safe p.
Proof.
  intros Hown ps1 ps2 HS. remember (ps1 ++ ps2) as ps eqn:Hps. revert ps1 ps2 Hps. induction HS as [ps Hacc IH]. intros ps1 ps2 ->. constructor. intros ps' Hs.
  assert (HS : SN (ps1 ++ ps2)) by (constructor; exact Hacc).
  apply pstep_split in Hs as [(ps1' & ps2' & -> & Hs)|[(X & a & k & -> & ->)|(X & a & k & b & x & now & -> & ->)]].
  - by apply (IH _ Hs).
  - destruct Hown as [H1 _]. by apply H1.
  - destruct Hown as (_ & H2 & H3). apply H2. rewrite app_assoc. specialize (H3 now). revert H3. generalize (spawns o now a). intros sp H3.
    induction sp as [|th sp IHs] using rev_ind; [by rewrite app_nil_r|]. rewrite map_app. cbn [map].
    rewrite app_assoc. apply (H3 th); [apply elem_of_app; right; left|]. rewrite app_nil_r. apply IHs. intros th' Hin. apply (H3 th'). apply elem_of_app. by left.
Qed.
Definition no_spawn : forall X, act X -> Prop := fun X a => match a with ASpawnFree _ _ => False | _ => True end.
Lemma spawns_none X (a : act X) now : no_spawn X a -> spawns o now a = [].
Proof. destruct a; intros H; try reflexivity. destruct H. Qed.
Lemma safe_quiet p b : only no_spawn p -> safe (p, b).
Proof.
  revert b. induction p as [r|X a k IH]; intros b Ho; [by apply safe_intro|]. destruct Ho as [Ha Ho].
  assert (Ht : safe (Act a k, true)).
  { apply safe_intro. split_and!; [done|intros x; by apply IH|]. intros now th Hth. rewrite (spawns_none _ _ _ Ha) in Hth. by apply elem_of_nil in Hth. }
  apply safe_intro. split_and!; [done|intros x; by apply IH|]. intros now th Hth. rewrite (spawns_none _ _ _ Ha) in Hth. by apply elem_of_nil in Hth.
Qed.
Lemma safe_free m delay now : safe (job_of (start o now (TFree m delay))).
Proof.
  apply safe_quiet. cbn [start task_prog]. apply only_bind; [|done]. unfold freeThread. apply only_bind; [done|]. intros _.
  eapply only_impl; [|apply private_free]. by intros X [].
Qed.
Lemma safe_all p b : safe (p, b).
Proof.
  assert (Hsp : forall X (a : act X) now th, th ∈ spawns o now a -> safe (job_of th)).
  { intros X a now th Hth. destruct a; try (exfalso; exact (not_elem_of_nil _ Hth)). apply elem_of_list_singleton in Hth as ->. apply safe_free. }
  revert b. induction p as [r|X a k IH]; intros b; [by apply safe_intro|].
  assert (Ht : safe (Act a k, true)) by (apply safe_intro; split_and!; [done|intros x; apply IH|apply Hsp]).
  apply safe_intro. split_and!; [done|intros x; apply IH|apply Hsp].
Qed.
Lemma SN_all ps : SN ps.
Proof.
  induction ps as [|[p b] ps IH]; [|exact (safe_all p b [] ps IH)]. constructor. intros ps' Hs. inversion Hs as [j X a k Hj|j X a k b x now Hj]; by rewrite lookup_nil in Hj.
Qed.

(** a move of the world is a move of the pool *)
Lemma insert_same_job ths j th th' : ths !! j = Some th -> map job_of (<[j := th']> ths) = <[j := job_of th']> (map job_of ths).
Proof. intros _. apply list_fmap_insert. Qed.
Lemma moves_pstep j w w' : moves o j w w' -> pstep (map job_of (w_threads w)) (map job_of (w_threads w')).
Proof.
  intros (Hs & Hn & th & th' & Hj & Hj' & Hne & _). destruct Hs as [w k Hk|w now Hle|w i thi X a k r c Hi Hp Hc Hcl|w i thi X a k x Hi Hp Hc Hv Ha Hw]; cbn [w_threads] in *.
  - rewrite lookup_app_l in Hj' by (by eapply lookup_lt_Some). congruence.
  - congruence.
  - rewrite (insert_same_job _ _ _ _ Hi). unfold job_of at 2. cbn. rewrite Hp. apply p_begin. rewrite list_lookup_fmap, Hi. cbn. unfold job_of. by rewrite Hp, Hcl.
  - rewrite map_app, (insert_same_job _ _ _ _ Hi). unfold job_of at 2. cbn. apply (p_act _ i X a k (th_called thi) x (w_now w)). rewrite list_lookup_fmap, Hi. cbn. unfold job_of. by rewrite Hp.
Qed.
Lemma waits_threads w w' : waits w w' -> w_threads w' = w_threads w.
Proof. by intros (now & _ & ->). Qed.
Lemma waits_step w w' : waits w w' -> step o w w'.
Proof. intros (now & H & ->). by constructor. Qed.

(** ** Somebody can always move *)
Definition child (q p : prog result) : Prop := match p with Ret _ => False | Act a k => exists x, q = k x end.
Lemma child_wf p : Acc child p.
Proof. induction p as [r|X a k IH]; constructor; intros q Hq; cbn in Hq; [done|]. destruct Hq as [x ->]. apply IH. Qed.
Lemma no_loop {X} (a : act X) k x : k x <> Act a k :> prog result.
Proof.
  intros Heq. assert (Hc : child (Act a k) (Act a k)) by (exists x; by rewrite Heq). clear Heq. pose proof (child_wf (Act a k)) as Hacc.
  induction Hacc as [p _ IH]. exact (IH p Hc Hc).
Qed.

Definition sleeps (p : prog result) : Prop := match p with Act (ASleep _ _) _ => True | _ => False end.
Lemma can_move dir w j th : reach o dir w -> w_threads w !! j = Some th -> ~ finished th -> (is_load (th_task th) = true -> me_lock (w_mem w) = None \/ me_lock (w_mem w) = Some j) ->
  exists w1 w2, waits w w1 /\ moves o j w1 w2 /\ (~ sleeps (th_prog th) -> w1 = w).
Proof.
  intros HR Hth Hnf Hl. destruct (th_prog th) as [r|X a k] eqn:Hp; [destruct Hnf; by exists r|].
  assert (Hjl : (j < length (w_threads w))%nat) by (by eapply lookup_lt_Some).
  set (w1 := mkWorld (Z.max (w_now w) (match a with ASleep _ d => th_start th + d | _ => w_now w end)) (w_mem w) (w_threads w) (w_hist w)). exists w1.
  assert (Hw1 : waits w w1) by (eexists; split; [|done]; lia).
  assert (HR1 : reach o dir w1) by (eapply reach_step; [exact HR|]; constructor; lia).
  assert (Hw0 : ~ sleeps (Act a k) -> w1 = w). { intros Hns. unfold w1. destruct w as [n s ths h]. cbn [w_now w_mem w_threads w_hist]. destruct a; try (by rewrite Z.max_id). destruct (Hns I). }
  assert (Haw : awake (w_now w1) (th_start th) a). { destruct a; try done. cbn. lia. }
  assert (Hact : (calls a <> None -> th_called th = true) -> exists w2, waits w w1 /\ moves o j w1 w2 /\ (~ sleeps (Act a k) -> w1 = w)).
  { intros Hc. set (x := mem_answer (w_mem w1) a).
    assert (Hans : answers (w_mem w1) a x).
    { apply mem_answer_agrees. cbn [w1 w_mem]. destruct (is_load (th_task th)) eqn:Hil.
      - destruct Hl as [Hl|Hl]; [done|by right|left]. intros -> Ha. cbn in Ha. clearbody x. subst a.
        destruct (reach_serial _ _ _ HR1) as (h & HS). destruct (s_held _ _ _ HS j Hl) as (th' & b & Hth' & Hb & _ & (t1 & Heq & _)). cbn [w1 w_threads] in Hth'. rewrite Hth in Hth'. injection Hth' as <-.
        pose proof (b_thread _ _ _ (reach_basic _ _ _ HR1) _ _ Hth) as HP. rewrite Hp, Hb in HP. apply (partial_act _ _ _ _ x) in HP; [|done].
        destruct (load_prefix _ _ _ _ None [] HP) as (t' & r & Hex & _). rewrite <- (assoc_L (++)) in Hex. cbn [ev app] in Hex.
        destruct (lock_shape _ _ _ _ _ _ _ Hex eq_refl) as [[Hz _]|[(u & _ & _ & Hu & _)|(u & _ & _ & Hu & _)]]; [by rewrite Hz in Heq|done|done].
      - left. intros -> Ha. cbn in Ha. clearbody x. subst a. exfalso.
        pose proof (b_thread _ _ _ (reach_basic _ _ _ HR) _ _ Hth) as HP. rewrite Hp in HP. apply (partial_act _ _ _ _ tt) in HP; [|done].
        eapply (partial_forall _ _ _ other_event) in HP; [|intros t r; by apply other_task]. apply Forall_app in HP as [_ HP]. by apply Forall_cons in HP as [? _]. }
    eexists. split; [exact Hw1|]. split; [|exact Hw0]. split_and!; [by apply (step_act o w1 j th X a k x Hth Hp Hc (mem_answer_valid _ _ _) Hans Haw)|done|].
    exists th, (mkThread (th_task th) (th_start th) (k x) false). cbn [w_threads]. split_and!.
    - done.
    - apply lookup_app_l_Some. by apply list_lookup_insert.
    - cbn [th_prog th_called]. rewrite Hp. intros Heq. apply (no_loop a k x). by apply (f_equal fst) in Heq.
    - intros i Hi Hlt. rewrite lookup_app_l by (by rewrite insert_length). by rewrite list_lookup_insert_ne. }
  destruct (calls a) as [[r c]|] eqn:Hc; [|by apply Hact]. destruct (th_called th) eqn:Hcl; [by apply Hact|].
  eexists. split; [exact Hw1|]. split; [|exact Hw0]. split_and!; [by apply (step_begin o w1 j th X a k r c)|done|].
  exists th, (mkThread (th_task th) (th_start th) (th_prog th) true). cbn [w_threads]. split_and!.
  - done.
  - by apply list_lookup_insert.
  - cbn [th_prog th_called]. rewrite Hcl. intros Heq. by apply (f_equal snd) in Heq.
  - intros i Hi Hlt. by rewrite list_lookup_insert_ne.
Qed.
Definition unfinished_b (th : thread) : bool := match th_prog th with Ret _ => false | Act _ _ => true end.
Lemma unfinished_spec th : unfinished_b th = true <-> ~ finished th.
Proof. unfold unfinished_b, finished. destruct (th_prog th); split; try done; [intros H; destruct H; by eexists|intros _ [r Hr]; done]. Qed.
Lemma list_find_Some_or (ths : list thread) : (exists j th, ths !! j = Some th /\ ~ finished th) \/ (forall j th, ths !! j = Some th -> finished th).
Proof.
  induction ths as [|th ths [(j & th' & Hj & Hn)|IH]]; [by right| |].
  - left. by exists (S j), th'.
  - destruct (unfinished_b th) eqn:Hu; [left; exists 0%nat, th; split; [done|by apply unfinished_spec]|right].
    intros [|j] th' Hj; [|by eapply IH]. cbn in Hj. injection Hj as <-. unfold unfinished_b in Hu. unfold finished. destruct (th_prog th); [by eexists|done].
Qed.
Lemma someone_moves dir w : reach o dir w -> ~ quiescent w -> exists j w1 w2, waits w w1 /\ moves o j w1 w2.
Proof.
  intros HR Hq. destruct (me_lock (w_mem w)) as [j|] eqn:Hlk.
  - destruct (running_call _ _ _ _ HR Hlk) as (th & a & t' & r & Hth & _ & Hnf & _). exists j. destruct (can_move dir w j th HR Hth Hnf) as (w1 & w2 & H1 & H2 & _); [intros _; by right|eauto].
  - destruct (list_find_Some_or (w_threads w)) as [(j & th & Hth & Hnf)|Hall]; [|destruct Hq; exact Hall].
    exists j. destruct (can_move dir w j th HR Hth Hnf) as (w1 & w2 & H1 & H2 & _); [intros _; by left|eauto].
Qed.


(** ** C74 *)
Lemma moves_reach dir j w w1 w2 : reach o dir w -> waits w w1 -> moves o j w1 w2 -> reach o dir w2.
Proof. intros HR Hw (Hs & _). eapply reach_step; [|exact Hs]. eapply reach_step; [exact HR|by apply waits_step]. Qed.
Lemma inevitably_impl (P Q : world -> Prop) w : (forall w', P w' -> Q w') -> inevitably o P w -> inevitably o Q w.
Proof. intros HPQ. induction 1 as [w Hp|w He _ IH]; [by apply now_holds, HPQ|]. apply will_hold; [exact He|exact IH]. Qed.

(** Every step is one of: another API call is made; time passes; a goroutine moves. *)
Theorem C74_nothing_else_happens w w' : step o w w' <-> starts o w w' \/ waits w w' \/ exists j, moves o j w w'.
Proof.
  split; [|intros [(k & Hk & ->)|[Hw|(j & Hs & _)]]; [by constructor|by apply waits_step|exact Hs]].
  intros Hs. pose proof Hs as Hs0. destruct Hs as [w k Hk|w now Hle|w j th X a k r c Hi Hp Hc Hcl|w j th X a k x Hi Hp Hc Hv Ha Hw].
  - left. by exists k.
  - right; left. by exists now.
  - right; right. exists j. split_and!; [exact Hs0|done|]. exists th, (mkThread (th_task th) (th_start th) (th_prog th) true). cbn [w_threads]. split_and!.
    + done.
    + apply list_lookup_insert. by eapply lookup_lt_Some.
    + cbn [th_prog th_called]. rewrite Hcl. intros Heq. by apply (f_equal snd) in Heq.
    + intros i Hij Hlt. by rewrite list_lookup_insert_ne.
  - right; right. exists j. split_and!; [exact Hs0|done|]. exists th, (mkThread (th_task th) (th_start th) (k x) false). cbn [w_threads]. split_and!.
    + done.
    + apply lookup_app_l_Some. apply list_lookup_insert. by eapply lookup_lt_Some.
    + cbn [th_prog th_called]. rewrite Hp. intros Heq. apply (no_loop a k x). by apply (f_equal fst) in Heq.
    + intros i Hij Hlt. rewrite lookup_app_l by (by rewrite insert_length). by rewrite list_lookup_insert_ne.
Qed.

(** Whatever calls are under way, and in whatever order their steps, and those of the release goroutines, are taken: all of
    them return, and the swapper's lock is free then. *)
Theorem C74_every_call_returns dir w : reach o dir w -> inevitably o (fun w' => reach o dir w' /\ me_lock (w_mem w') = None /\ quiescent w') w.
Proof.
  remember (map job_of (w_threads w)) as ps eqn:Hps. pose proof (SN_all ps) as HS. revert w Hps. induction HS as [ps _ IH]. intros w -> HR.
  destruct (list_find_Some_or (w_threads w)) as [(i & th & Hth & Hnf)|Hall].
  - apply will_hold; [apply (someone_moves dir); [exact HR|]; intros Hq; exact (Hnf (Hq _ _ Hth))|].
    intros j w1 w2 Hw Hm. apply (IH (map job_of (w_threads w2))); [|done|exact (moves_reach _ _ _ _ _ HR Hw Hm)].
    rewrite <- (waits_threads _ _ Hw). by apply (moves_pstep j).
  - apply now_holds. split_and!; [exact HR|exact (quiescent_lock _ _ _ HR Hall)|exact Hall].
Qed.

(** No execution goes on for ever without the user's program making further calls. *)
Theorem C74_no_endless_execution dir (f : nat -> world) : reach o dir (f 0%nat) -> ~ (forall n, exists j w1, waits (f n) w1 /\ moves o j w1 (f (S n))).
Proof.
  intros HR Hf. pose proof (C74_every_call_returns _ _ HR) as Hi.
  assert (Hgen : forall w n, w = f n -> inevitably o (fun w' => reach o dir w' /\ me_lock (w_mem w') = None /\ quiescent w') w -> False).
  { intros w n Hw Hin. revert n Hw. induction Hin as [w (_ & _ & Hq)|w _ _ IH]; intros n ->.
    - destruct (Hf n) as (j & w1 & Hwt & Hm). pose proof (waits_threads _ _ Hwt) as Heq. apply moves_pstep in Hm. rewrite Heq in Hm.
      assert (Hn : forall i X (a : act X) k b, map job_of (w_threads (f n)) !! i = Some (Act a k, b) -> False).
      { intros i X a k b Hx. rewrite list_lookup_fmap in Hx. destruct (w_threads (f n) !! i) as [th|] eqn:Hth; [|done]. destruct (Hq _ _ Hth) as [r Hr].
        cbn in Hx. unfold job_of in Hx. rewrite Hr in Hx. by injection Hx. }
      inversion Hm as [i X a k Hx|i X a k b x now Hx]; exact (Hn _ _ _ _ _ Hx).
    - destruct (Hf n) as (j & w1 & Hwt & Hm). exact (IH _ _ _ Hwt Hm (S n) eq_refl). }
  exact (Hgen _ _ eq_refl Hi).
Qed.

(** In dynamic mode, when no plugin has a nil OnFree: every plugin ever admitted that is not in the current manager will have been freed. *)
Theorem C74_superseded_plugins_will_be_freed dir w : reach o dir w -> o_static o = None ->
  inevitably o (fun w' => have_OnFree (events (w_hist w')) ->
    forall i, i ∈ admitted (load_events (w_hist w')) -> (forall m p, me_current (w_mem w') = Some m -> holds m p -> pl_inst p <> i) ->
      exists mid name c x, EvCall ROnFree (mkCallee mid name i c) ArgNone x ∈ events (w_hist w')) w.
Proof.
  intros HR Hst. eapply inevitably_impl; [|exact (C74_every_call_returns _ _ HR)]. intros w' (HR' & _ & Hq) Hh i Hi Hn.
  exact (proj1 (proj1 (C18_superseded_plugins_are_freed _ _ _ HR' Hst Hq Hh) i Hi Hn)).
Qed.

Definition is_free (k : task) : bool := match k with TFree _ _ => true | _ => false end.
Definition awake_event (e : event) : Prop := match e with EvSleep _ _ => False | _ => True end.
Lemma awake_task k t r : is_load k = false -> is_free k = false -> exec (task_prog o k) t r -> Forall awake_event t.
Proof.
  intros Hk Hf. apply only_exec with (P := fun X a => match a with ASleep _ _ => False | _ => True end); [intros X [] y; cbn; intros; try done; repeat constructor|].
  destruct k as [a|m d| | |d|m b name params]; cbn; try done.
  apply only_bind; [|done]. destruct b; apply only_ofor; intros p _; apply only_bind; try done; unfold call; by destruct (get_func _ _).
Qed.
(** Current, ReloadCounter, ResetPluginDir and Invoke calls never wait, not even for a load that holds the lock; a release goroutine only waits for its delay. *)
Theorem C74_readers_never_wait dir w j th : reach o dir w -> w_threads w !! j = Some th -> is_load (th_task th) = false -> ~ finished th ->
  exists w1 w2, waits w w1 /\ moves o j w1 w2 /\ match th_task th with TFree _ _ => True | _ => w1 = w end.
Proof.
  intros HR Hth Hl Hnf. destruct (can_move dir w j th HR Hth Hnf) as (w1 & w2 & H1 & H2 & H3); [by rewrite Hl|].
  exists w1, w2. split_and!; [exact H1|exact H2|]. assert (Hfr : is_free (th_task th) = false -> w1 = w).
  { intros Hf. apply H3. destruct (th_prog th) as [r|X a k] eqn:Hp; [by intros []|]. destruct a; try (by intros []). intros _.
    pose proof (b_thread _ _ _ (reach_basic _ _ _ HR) _ _ Hth) as HP. rewrite Hp in HP. apply (partial_act _ _ _ _ tt) in HP; [|done].
    eapply (partial_forall _ _ _ awake_event) in HP; [|intros t r; by apply awake_task]. apply Forall_app in HP as [_ HP]. by apply Forall_cons in HP as [? _]. }
  destruct (th_task th); try exact I; by apply Hfr.
Qed.
End Props.

(** ** A case *)
(** Goroutine 1 is in the middle of a reload and holds the lock, goroutine 2 waits for it, goroutine 3 has called Current(). *)
Definition waiting : world := sched dyn (take 6 busy_cmds ++ [SStart TCurrent]) (initially "/p").
Lemma waiting_reach : reach dyn "/p" waiting.
Proof.
  apply sched_reach. unfold busy_cmds. cbn [take app]. repeat apply Forall_cons_2; try exact I; try apply Forall_nil_2; unfold cmd_ok; first [apply world0_ok|apply world1_ok].
Qed.
Example C74_case : reach dyn "/p" waiting /\ o_static dyn = None /\ me_lock (w_mem waiting) = Some 1%nat /\ map unfinished_b (w_threads waiting) = [false; true; true; true] /\
  map (fun th => is_load (th_task th)) (w_threads waiting) = [true; true; true; false] /\ quiescent_b busy = true /\ quiescent_b waiting = false.
Proof. split_and!; [apply waiting_reach|vm_compute; reflexivity..]. Qed.

Print Assumptions C74_nothing_else_happens.
Print Assumptions C74_every_call_returns.
Print Assumptions C74_no_endless_execution.
Print Assumptions C74_superseded_plugins_will_be_freed.
Print Assumptions C74_readers_never_wait.
