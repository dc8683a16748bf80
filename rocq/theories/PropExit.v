(** C62: the temporary directory at the end of `hotswap build`, and signals. *)
From Verif Require Export ToolExit.

(** ** Specification *)
Definition removals (log : list happening) : list bool := omap (fun h => match h with HRemove ok => Some ok | _ => None end) log.
Definition signals (log : list happening) : list sig := omap (fun h => match h with HSignal s => Some s | _ => None end) log.
Arguments removals : simpl never.
Arguments signals : simpl never.
(** The states of the process in all its executions. *)
Definition reached (leave tmp : bool) (p : proc) : Prop := rtc (procStep leave) (startProc tmp) p.
(** Steps that end the program, without further signals. *)
Definition quiet (leave : bool) (p p' : proc) : Prop := running p /\ (exitStep p p' \/ cleanStep leave p p').

(** ** The invariant *)
Definition past (c : cleaner) : bool := match c with CClose | CEnd => true | _ => false end.
Record inv (leave tmp : bool) (p : proc) : Prop := {
  i_quiet : signals (pr_log p) = [] -> pr_chan p <> Some SIGINT /\ pr_chan p <> Some SIGTERM /\
    (pr_cleaner p <> CSelect \/ pr_chan p <> None -> (exists b, pr_main p = Waiting b) \/ exists c, pr_main p = Exited c);
  i_before : past (pr_cleaner p) = false -> removals (pr_log p) = [];
  i_leave : leave = true -> removals (pr_log p) = [] /\ (tmp = true -> pr_tmp p = true);
  i_after : past (pr_cleaner p) = true -> leave = false -> exists l1 ok l2, pr_log p = l1 ++ HRemove ok :: l2 /\ removals l1 = [] /\ removals l2 = [] /\
    (ok = true -> (pr_tmp p = true <-> HMake ∈ l2)) /\ (HMake ∈ l2 \/ HWrite ∈ l2 -> signals l1 <> []) /\ (pr_main p = Working -> signals l1 <> []);
  i_reset : pr_notify p = false -> pr_main p = Working -> signals (pr_log p) <> [];
  i_woken : pr_cleaner p <> CSelect -> (pr_main p = Working \/ exists b, pr_main p = Leaving b) -> signals (pr_log p) <> [];
  i_exited : forall c, pr_main p = Exited c -> pr_cleaner p = CEnd;
  i_interrupted : pr_interrupted p = true -> HSignal SIGINT ∈ pr_log p;
  i_chan : forall x, pr_chan p = Some x \/ pr_cleaner p = CGot x \/ pr_cleaner p = CReset x -> x <> SIGQUIT -> HSignal x ∈ pr_log p;
  i_waiting : forall b, pr_main p = Waiting b -> pr_cleaner p <> CSelect \/ pr_chan p <> None;
  i_notify : (pr_cleaner p = CSelect \/ exists x, pr_cleaner p = CGot x) -> pr_notify p = true
}.
Lemma removals_app a b : removals (a ++ b) = removals a ++ removals b. Proof. apply omap_app. Qed.
Lemma signals_app a b : signals (a ++ b) = signals a ++ signals b. Proof. apply omap_app. Qed.

Lemma start_inv leave tmp : inv leave tmp (startProc tmp).
Proof. split; cbn; try done; try (intros; naive_solver). Qed.
Ltac pieces H := destruct H as [Iq Ib Il Ia Ir Iw Ie Ii Ic Iwt In].
Lemma after_more l1 ok l2 h t t' (m m' : mainpc) : (match h with HRemove _ => False | HMake => t' = true /\ m = Working | HWrite => t' = t /\ t = true /\ m = Working | _ => t' = t end) ->
  (m' = Working -> m = Working) ->
  removals l1 = [] /\ removals l2 = [] /\
    (ok = true -> (t = true <-> HMake ∈ l2)) /\ (HMake ∈ l2 \/ HWrite ∈ l2 -> signals l1 <> []) /\ (m = Working -> signals l1 <> []) ->
  exists l1' ok' l2', (l1 ++ HRemove ok :: l2) ++ [h] = l1' ++ HRemove ok' :: l2' /\ removals l1' = [] /\ removals l2' = [] /\
    (ok' = true -> (t' = true <-> HMake ∈ l2')) /\ (HMake ∈ l2' \/ HWrite ∈ l2' -> signals l1' <> []) /\ (m' = Working -> signals l1' <> []) .
Proof.
  intros Hh Hm (H1 & H2 & H3 & H4 & H5). exists l1, ok, (l2 ++ [h]). split_and!.
  - rewrite <- app_assoc. done.
  - done.
  - rewrite removals_app, H2. destruct h; done.
  - intros Ho. specialize (H3 Ho). rewrite elem_of_app, elem_of_list_singleton. destruct h; [|destruct Hh as (-> & -> & _)|done|subst t']; try (rewrite H3; split; [tauto|intros [?|?]; [done|discriminate]]).
    + destruct Hh as [-> _]. split; [tauto|done].
  - rewrite !elem_of_app, !elem_of_list_singleton. intros [[?|Hx]|[?|Hx]]; [by apply H4; left| |by apply H4; right|]; subst h; apply H5; tauto.
  - intros Hw. apply H5. by apply Hm.
Qed.
Lemma log_more leave tmp p h t m : inv leave tmp p -> (m = Working -> pr_main p = Working) ->
  (match h with HRemove _ => False | HMake => t = true /\ pr_main p = Working | HWrite => t = pr_tmp p /\ pr_tmp p = true /\ pr_main p = Working | _ => t = pr_tmp p end) ->
  (past (pr_cleaner p) = false -> removals (pr_log p ++ [h]) = []) /\
  (leave = true -> removals (pr_log p ++ [h]) = [] /\ (tmp = true -> t = true)) /\
  (past (pr_cleaner p) = true -> leave = false -> exists l1 ok l2, pr_log p ++ [h] = l1 ++ HRemove ok :: l2 /\ removals l1 = [] /\ removals l2 = [] /\
    (ok = true -> (t = true <-> HMake ∈ l2)) /\ (HMake ∈ l2 \/ HWrite ∈ l2 -> signals l1 <> []) /\ (m = Working -> signals l1 <> [])).
Proof.
  intros HI Hm Hh. pieces HI. assert (Hr : removals [h] = []) by (by destruct h). split_and!.
  - intros Hp. by rewrite removals_app, Hr, (Ib Hp).
  - intros Hl. destruct (Il Hl) as [I1 I2]. rewrite removals_app, Hr, I1. split; [done|]. intros Ht. specialize (I2 Ht).
    destruct h; [by destruct Hh|by destruct Hh as (-> & _)|done|congruence].
  - intros Hp Hl. destruct (Ia Hp Hl) as (l1 & ok & l2 & -> & HA). eapply after_more; [|exact Hm|exact HA]. done.
Qed.
Lemma main_inv leave tmp p p' : inv leave tmp p -> mainStep p p' -> inv leave tmp p'.
Proof.
  intros HI HS. destruct HS as [p Hw|p Hw Ht|p b Hw].
  - destruct (log_more _ _ _ HMake true Working HI) as (L1 & L2 & L3); [done|done|]. pieces HI.
    split; unfold setTmp; cbn; try done.
    + rewrite signals_app. intros [Hs _]%app_nil. by apply Iq.
    + intros Hp Hl. destruct (L3 Hp Hl) as (l1 & ok & l2 & H). exists l1, ok, l2. by rewrite Hw.
    + intros H1 H2 H. rewrite signals_app in H. apply app_nil in H as [H _]. by apply (Ir H1 H2).
    + intros H1 H2 H. rewrite signals_app in H. apply app_nil in H as [H _]. by apply (Iw H1 H2).
    + intros H. apply elem_of_app. left. auto.
    + intros x H1 H2. apply elem_of_app. left. auto.
  - destruct (log_more _ _ _ HWrite true Working HI) as (L1 & L2 & L3); [done|done|]. pieces HI.
    split; unfold setTmp; cbn; try done.
    + rewrite signals_app. intros [Hs _]%app_nil. by apply Iq.
    + intros Hp Hl. destruct (L3 Hp Hl) as (l1 & ok & l2 & H). exists l1, ok, l2. by rewrite Hw.
    + intros H1 H2 H. rewrite signals_app in H. apply app_nil in H as [H _]. by apply (Ir H1 H2).
    + intros H1 H2 H. rewrite signals_app in H. apply app_nil in H as [H _]. by apply (Iw H1 H2).
    + intros H. apply elem_of_app. left. auto.
    + intros x H1 H2. apply elem_of_app. left. auto.
  - pieces HI. split; unfold setMain; cbn; try done.
    + intros Hs. destruct (Iq Hs) as (I1 & I2 & I3). split_and!; [done|done|]. intros H. rewrite Hw in I3. destruct (I3 H) as [[? ?]|[? ?]]; done.
    + intros Hp Hl. destruct (Ia Hp Hl) as (l1 & ok & l2 & H0 & H1 & H2 & H3 & H4 & H5). exists l1, ok, l2. split_and!; done.
    + intros H1 H2. apply Iw; [done|]. by left.
Qed.
Lemma exit_inv leave tmp p p' : inv leave tmp p -> exitStep p p' -> inv leave tmp p'.
Proof.
  intros HI HS. pieces HI. destruct HS as [p b Hw|p b Hw Hc].
  - split; cbn; try done.
    + intros Hs. destruct (Iq Hs) as (I1 & I2 & I3). split_and!; [by destruct (pr_chan p)|by destruct (pr_chan p)|]. intros _. left. by exists b.
    + intros Hp Hl. destruct (Ia Hp Hl) as (l1 & ok & l2 & H0 & H1 & H2 & H3 & H4 & H5). exists l1, ok, l2. split_and!; done.
    + intros H1 [?|[? ?]]; done.
    + intros x [H|H] Hx; [|by apply Ic; [right|]]. destruct (pr_chan p) as [y|] eqn:E; cbn in H; [apply Ic; [by left|done]|congruence].
    + intros _ _. right. by destruct (pr_chan p).
  - split; unfold setMain; cbn; try done.
    + intros Hs. destruct (Iq Hs) as (I1 & I2 & I3). split_and!; [done|done|]. intros _. right. by eexists.
    + intros Hp Hl. destruct (Ia Hp Hl) as (l1 & ok & l2 & H0 & H1 & H2 & H3 & H4 & H5). exists l1, ok, l2. split_and!; done.
    + intros H1 [?|[? ?]]; done.
Qed.
Lemma clean_inv leave tmp p p' : inv leave tmp p -> cleanStep leave p p' -> inv leave tmp p'.
Proof.
  intros HI HS. pieces HI. destruct HS as [p x Hc Hx|p x Hc|p x Hc|p Hc Hl|p ok Hc Hl|p Hc].
  - rewrite Hc in *. split; cbn; try done; try (by intros _ ?; apply Iw); try (by intros b Hm; left).
    + intros Hs. destruct (Iq Hs) as (I1 & I2 & I3). split_and!; [done|done|]. intros _. apply I3. right. by rewrite Hx.
    + intros _ H1 Hs. destruct (Iq Hs) as (I1 & I2 & I3). rewrite Hx in I3. destruct I3 as [[? E]|[? E]]; [by right|..]; rewrite E in H1; destruct H1 as [?|[? ?]]; done.
    + intros c Hm. specialize (Ie c Hm). done.
    + intros y [?|[Hy|?]] Hn; [done| |done]. injection Hy as <-. apply Ic; [by left|done].
    + intros _. apply In. by left.
  - rewrite Hc in *. split; cbn; try done; try (by intros _ ?; apply Iw); try (by intros b Hm; left).
    + intros Hs. destruct (Iq Hs) as (I1 & I2 & I3). split_and!; [done|done|]. intros _. apply I3. by left.
    + intros _ Hm. apply Iw; [done|by left].
    + intros c Hm. specialize (Ie c Hm). done.
    + intros y [?|[?|Hy]] Hn; [apply Ic; [by left|done]|done|]. injection Hy as <-. apply Ic; [by right; left|done].
    + intros [?|[? ?]]; done.
  - rewrite Hc in *. split; cbn; try done; try (by intros _ ?; apply Iw); try (by intros b Hm; left).
    + intros Hs. destruct (Iq Hs) as (I1 & I2 & I3). split_and!; [done|done|]. intros _. apply I3. by left.
    + intros c Hm. specialize (Ie c Hm). done.
    + intros H. destruct x; [|auto..]. apply Ic; [by right; right|done].
    + intros y [?|[?|Hy]] Hn; [apply Ic; [by left|done]|done..].
    + intros [?|[? ?]]; done.
  - rewrite Hc in *. split; cbn; try done; try (by intros _ ?; apply Iw); try (by intros b Hm; left).
    + intros Hs. destruct (Iq Hs) as (I1 & I2 & I3). split_and!; [done|done|]. intros _. apply I3. by left.
    + intros _ Hf. by rewrite Hl in Hf.
    + intros c Hm. specialize (Ie c Hm). done.
    + intros y [?|[?|Hy]] Hn; [apply Ic; [by left|done]|done..].
    + intros [?|[? ?]]; done.
  - rewrite Hc in *. split; cbn; try done; try (by intros _ ?; apply Iw); try (by intros b Hm; left).
    + rewrite signals_app. intros [Hs _]%app_nil. destruct (Iq Hs) as (I1 & I2 & I3). split_and!; [done|done|]. intros _. apply I3. by left.
    + intros Hf. by rewrite Hl in Hf.
    + intros _ _. exists (pr_log p), ok, []. split_and!; [done|by apply Ib|done| | |].
      * intros ->. split; [done|]. intros H. by apply elem_of_nil in H.
      * intros [H|H]; by apply elem_of_nil in H.
      * intros Hm. apply Iw; [done|by left].
    + intros H1 H2 H. rewrite signals_app in H. apply app_nil in H as [H _]. by apply (Ir H1 H2).
    + intros _ H2 H. rewrite signals_app in H. apply app_nil in H as [H _]. by apply (Iw ltac:(done) H2).
    + intros c Hm. specialize (Ie c Hm). done.
    + intros H. apply elem_of_app. left. auto.
    + intros y [?|[?|Hy]] Hn; [apply elem_of_app; left; apply Ic; [by left|done]|done..].
    + intros [?|[? ?]]; done.
  - rewrite Hc in *. split; cbn; try done; try (by intros _ ?; apply Iw); try (by intros b Hm; left).
    + intros Hs. destruct (Iq Hs) as (I1 & I2 & I3). split_and!; [done|done|]. intros _. apply I3. by left.
    + intros y [?|[?|Hy]] Hn; [apply Ic; [by left|done]|done..].
    + intros [?|[? ?]]; done.
Qed.
Lemma os_inv leave tmp p p' : inv leave tmp p -> osStep p p' -> inv leave tmp p'.
Proof.
  intros HI HS. destruct HS as [p s Hs Hn|p s Hs Hn].
  - destruct (log_more _ _ _ (HSignal s) (pr_tmp p) (pr_main p) HI) as (L1 & L2 & L3); [done|done|]. pieces HI. split; cbn; try done.
    + intros H. rewrite signals_app in H. by apply app_nil in H as [_ ?].
    + intros H. rewrite Hn in H. done.
    + intros _ _ H. rewrite signals_app in H. by apply app_nil in H as [_ ?].
    + intros H. apply elem_of_app. left. auto.
    + intros x [H|H] Hx; [|apply elem_of_app; left; apply Ic; [by right|done]]. destruct (pr_chan p) as [y|] eqn:E; cbn in H.
      * apply elem_of_app. left. apply Ic; [by left|done].
      * injection H as ->. apply elem_of_app. right. by apply elem_of_list_singleton.
    + intros b Hm. destruct (Iwt b Hm) as [?|H]; [by left|]. right. by destruct (pr_chan p).
  - destruct (log_more _ _ _ (HSignal s) (pr_tmp p) (pr_main p) HI) as (L1 & L2 & L3); [done|done|]. pieces HI. split; cbn; try done.
    + intros H. rewrite signals_app in H. by apply app_nil in H as [_ ?].
    + intros _ _ H. rewrite signals_app in H. by apply app_nil in H as [_ ?].
    + intros _ _ H. rewrite signals_app in H. by apply app_nil in H as [_ ?].
    + intros H. apply elem_of_app. left. auto.
    + intros x H Hx. apply elem_of_app. left. by apply Ic.
Qed.
Lemma step_inv leave tmp p p' : inv leave tmp p -> procStep leave p p' -> inv leave tmp p'.
Proof.
  intros HI [_ H|_ H|_ H|_ H|_ H]; [by eapply main_inv|by eapply exit_inv|by eapply clean_inv|by eapply os_inv|].
  destruct H. pieces HI. by split.
Qed.
Lemma reached_inv leave tmp p : reached leave tmp p -> inv leave tmp p.
Proof.
  unfold reached. intros H. pose proof (start_inv leave tmp) as HI. revert HI. generalize (startProc tmp), H. clear H.
  intros q H. induction H as [|x y z Hs _ IH]; [done|]. intros HI. apply IH. by eapply step_inv.
Qed.

(** ** C62 *)
(** When the program exits - returning or after a panic - and temporaries are not to be kept, the temporary directory was removed exactly
    once.  It exists then only if that failed or the build made it anew afterwards, which can happen only after a signal. *)
Theorem C62_removed_at_exit tmp p code : reached false tmp p -> pr_main p = Exited code ->
  exists before ok after, pr_log p = before ++ HRemove ok :: after /\ removals before = [] /\ removals after = [] /\
    (ok = true -> (pr_tmp p = true <-> HMake ∈ after)) /\ (HMake ∈ after -> signals before <> []).
Proof.
  intros HR HE. apply reached_inv in HR. pieces HR. rewrite (Ie _ HE) in *. destruct (Ia eq_refl eq_refl) as (l1 & ok & l2 & H0 & H1 & H2 & H3 & H4 & _).
  exists l1, ok, l2. split_and!; [done..|]. intros H. apply H4. by left.
Qed.
(** Without a signal: nothing happens in it after the removal. *)
Theorem C62_no_signal tmp p code : reached false tmp p -> pr_main p = Exited code -> signals (pr_log p) = [] ->
  exists before ok, pr_log p = before ++ [HRemove ok] /\ removals before = [] /\ (ok = true -> pr_tmp p = false).
Proof.
  intros HR HE Hs. apply reached_inv in HR. pieces HR. rewrite (Ie _ HE) in *. destruct (Ia eq_refl eq_refl) as (l1 & ok & l2 & H0 & H1 & H2 & H3 & H4 & _).
  assert (Hs1 : signals l1 = []) by (rewrite H0, signals_app in Hs; by apply app_nil in Hs as [? _]).
  assert (Hs2 : signals l2 = []) by (rewrite H0, signals_app in Hs; by apply app_nil in Hs as [_ ?]).
  assert (l2 = []) as ->.
  { destruct l2 as [|h l2]; [done|]. exfalso. destruct h; [apply H4; [left; left|done]|apply H4; [right; left|done]|done|done]. }
  exists l1, ok. split_and!; [done|done|]. intros Ho. specialize (H3 Ho). destruct (pr_tmp p); [|done]. exfalso. assert (HMake ∈ []) as HX by (by apply H3). by apply elem_of_nil in HX.
Qed.
(** If temporaries are to be kept, nothing is ever removed. *)
Theorem C62_kept tmp p : reached true tmp p -> removals (pr_log p) = [] /\ (tmp = true -> pr_tmp p = true).
Proof. intros HR. apply reached_inv in HR. by apply (i_leave _ _ _ HR). Qed.
(** The program never hangs at its end: when the build is over, some step is possible until it has exited, and there are at most seven. *)
Definition rank (p : proc) : nat :=
  (match pr_main p with Working => 3 | Leaving _ => 2 | Waiting _ => 1 | Exited _ => 0 end) +
  (match pr_cleaner p with CSelect => 5 | CGot _ => 4 | CReset _ => 3 | CRemove => 2 | CClose => 1 | CEnd => 0 end).
Lemma quiet_rank leave p p' : quiet leave p p' -> (S (rank p') = rank p)%nat.
Proof. unfold rank. intros [_ [H|H]]; destruct H; cbn; repeat match goal with H : _ = _ |- _ => rewrite H end; done. Qed.
Theorem C62_never_hangs leave tmp p : reached leave tmp p -> running p -> pr_main p <> Working -> exists p', quiet leave p p'.
Proof.
  intros HR Hrun Hm. apply reached_inv in HR. pieces HR. destruct (pr_main p) as [|b|b|c] eqn:E; [done| | |].
  - eexists. split; [done|]. left. by eapply x_send.
  - destruct (pr_cleaner p) as [|x|x| | |] eqn:Ec.
    + destruct (Iwt b eq_refl) as [?|H]; [done|]. destruct (pr_chan p) as [x|] eqn:Ex; [|done]. eexists. split; [done|]. right. by eapply c_receive.
    + eexists. split; [done|]. right. by eapply c_reset.
    + eexists. split; [done|]. right. by eapply c_interrupt.
    + destruct leave; eexists; (split; [done|]); right; [by apply c_leave|]. by apply (c_remove _ p true).
    + eexists. split; [done|]. right. by apply c_close.
    + eexists. split; [done|]. left. by apply (x_done p b).
  - destruct Hrun as [_ H]. by destruct (H c).
Qed.
Theorem C62_exits_soon leave p n p' : pr_main p <> Working -> nsteps (quiet leave) n p p' -> (n <= 7)%nat.
Proof.
  intros Hm H. assert (Hr : (rank p' + n = rank p)%nat).
  { clear Hm. induction H as [|n x y z Hs _ IH]; [lia|]. apply quiet_rank in Hs. lia. }
  assert (rank p <= 7)%nat; [|lia]. unfold rank. destruct (pr_main p), (pr_cleaner p); try done; lia.
Qed.
(** One signal does not end the program while it is building: for that it takes a second one. *)
Theorem C62_first_signal_does_not_kill leave tmp p p' : reached leave tmp p -> pr_main p = Working -> pr_dead p = false -> osStep p p' -> pr_dead p' = true ->
  (2 <= length (signals (pr_log p')))%nat.
Proof.
  intros HR Hm Hd HS Hd'. apply reached_inv in HR. pieces HR. destruct HS as [p s Hs Hn|p s Hs Hn]; cbn in *; [congruence|].
  specialize (Ir Hn Hm). rewrite signals_app, app_length. change (length (signals [HSignal s])) with 1%nat. destruct (signals (pr_log p)); [done|]. cbn. lia.
Qed.
(** The exit status is 0 after a return and 1 after a panic, whatever signals come in between. *)
Theorem C62_exit_status leave p b p' code : pr_main p = Leaving b -> rtc (procStep leave) p p' -> pr_main p' = Exited code -> code = if b then 1 else 0.
Proof.
  intros Hb Hs. enough (HI : pr_main p' = Leaving b \/ pr_main p' = Waiting b \/ pr_main p' = Exited (if b then 1 else 0)).
  { intros He. destruct HI as [?|[?|?]]; congruence. }
  assert (HI : pr_main p = Leaving b \/ pr_main p = Waiting b \/ pr_main p = Exited (if b then 1 else 0)) by by left.
  clear Hb. induction Hs as [p|p p1 p2 H1 _ IH]; [done|]. apply IH. clear IH.
  destruct H1 as [_ H|_ H|_ H|_ H|_ H]; destruct H; simpl in *; try done; destruct HI as [?|[?|?]]; try congruence; auto.
  - right; left. congruence.
  - right; right. rewrite H1 in H. by injection H as <-.
Qed.
(** Only SIGINT is noticed by the copying and the generating of code. *)
Theorem C62_interrupted_by_SIGINT leave tmp p : reached leave tmp p -> pr_interrupted p = true -> HSignal SIGINT ∈ pr_log p.
Proof. intros HR. apply reached_inv in HR. apply (i_interrupted _ _ _ HR). Qed.

(** ** Concrete cases *)
(** A quick build without a signal: the directory is made, a file is written, the build ends (code 1: by a panic), and the directory is gone. *)
Definition quick (b : bool) : proc := mkProc (Exited (if b then 1 else 0)%nat) CEnd None false false false false [HMake; HWrite; HRemove true].
Example C62_quick_case b : reached false false (quick b).
Proof.
  eapply rtc_l; [apply by_main; [by split|by apply m_make]|]. cbn.
  eapply rtc_l; [apply by_main; [by split|by apply m_write]|]. cbn.
  eapply rtc_l; [apply by_main; [by split|by apply (m_finish _ b)]|]. cbn.
  eapply rtc_l; [apply by_exit; [by split|by eapply x_send]|]. cbn.
  eapply rtc_l; [apply by_cleaner; [by split|by eapply c_receive]|]. cbn.
  eapply rtc_l; [apply by_cleaner; [by split|by eapply c_reset]|]. cbn.
  eapply rtc_l; [apply by_cleaner; [by split|by eapply c_interrupt]|]. cbn.
  eapply rtc_l; [apply by_cleaner; [by split|by apply (c_remove _ _ true)]|]. cbn.
  eapply rtc_l; [apply by_cleaner; [by split|by apply c_close]|]. cbn.
  eapply rtc_l; [apply by_exit; [by split|by apply (x_done _ b)]|]. cbn. by apply rtc_refl.
Qed.
(** SIGTERM early in a build: the directory is removed at once, the build goes on, makes it anew, and the program exits with code 0 leaving it
    behind - although it was told not to leave temporaries. *)
Definition leaked : proc := mkProc (Exited 0) CEnd (Some SIGQUIT) false false true false [HMake; HSignal SIGTERM; HRemove true; HMake; HWrite].
Theorem C62_left_behind_after_SIGTERM : reached false false leaked /\ pr_tmp leaked = true.
Proof.
  split; [|done].
  eapply rtc_l; [apply by_main; [by split|by apply m_make]|]. cbn.
  eapply rtc_l; [apply by_os; [by split|by apply (o_signal _ SIGTERM)]|]. cbn.
  eapply rtc_l; [apply by_cleaner; [by split|by eapply c_receive]|]. cbn.
  eapply rtc_l; [apply by_cleaner; [by split|by eapply c_reset]|]. cbn.
  eapply rtc_l; [apply by_cleaner; [by split|by eapply c_interrupt]|]. cbn.
  eapply rtc_l; [apply by_cleaner; [by split|by apply (c_remove _ _ true)]|]. cbn.
  eapply rtc_l; [apply by_cleaner; [by split|by apply c_close]|]. cbn.
  eapply rtc_l; [apply by_main; [by split|by apply m_make]|]. cbn.
  eapply rtc_l; [apply by_main; [by split|by apply m_write]|]. cbn.
  eapply rtc_l; [apply by_main; [by split|by apply (m_finish _ false)]|]. cbn.
  eapply rtc_l; [apply by_exit; [by split|by eapply x_send]|]. cbn.
  eapply rtc_l; [apply by_exit; [by split|by apply (x_done _ false)]|]. cbn. by apply rtc_refl.
Qed.
Print Assumptions C62_exit_status.
Print Assumptions C62_removed_at_exit.
Print Assumptions C62_no_signal.
Print Assumptions C62_kept.
Print Assumptions C62_never_hangs.
Print Assumptions C62_exits_soon.
Print Assumptions C62_first_signal_does_not_kill.
Print Assumptions C62_interrupted_by_SIGINT.
Print Assumptions C62_left_behind_after_SIGTERM.
