(** C49: the parallel copy. *)
From Verif Require Export PropImports.
From stdpp Require Export relations.
Local Open Scope nat_scope.

(** ** Sums over the workers *)
Fixpoint total (f : worker -> nat) (ws : list worker) : nat := match ws with [] => 0 | w :: ws => f w + total f ws end.
Lemma total_insert f ws : forall i w w', ws !! i = Some w -> total f (<[i := w']> ws) + f w = total f ws + f w'.
Proof.
  induction ws as [|x ws IH]; intros i w w' Hi; [done|]. destruct i as [|i].
  - injection Hi as ->. cbn [insert list_insert total]. lia.
  - change (ws !! i = Some w) in Hi. change (<[S i := w']> (x :: ws)) with (x :: <[i := w']> ws). cbn [total]. specialize (IH i w w' Hi). lia.
Qed.
Lemma total_ge f ws : forall i w, ws !! i = Some w -> f w <= total f ws.
Proof.
  induction ws as [|x ws IH]; intros i w H; [done|]. destruct i as [|i]; cbn in H; cbn [total]; [injection H as ->; lia|]. specialize (IH i w H). lia.
Qed.
Definition holds (w : worker) : list string := match w with WRead r | WWrite r _ => [r] | _ => [] end.
Definition inhand (ws : list worker) : list string := flat_map holds ws.
Lemma inhand_insert ws : forall i w w', ws !! i = Some w -> Permutation (inhand (<[i := w']> ws) ++ holds w) (inhand ws ++ holds w').
Proof.
  unfold inhand. induction ws as [|x ws IH]; intros i w w' Hi; [done|]. destruct i as [|i].
  - injection Hi as ->. cbn [insert list_insert flat_map]. solve_Permutation.
  - change (ws !! i = Some w) in Hi. change (<[S i := w']> (x :: ws)) with (x :: <[i := w']> ws). cbn [flat_map]. rewrite <- !(assoc_L (++)). apply Permutation_app_head. by apply IH.
Qed.
Lemma inhand_move ws i w w' : ws !! i = Some w -> holds w = holds w' -> Permutation (inhand (<[i := w']> ws)) (inhand ws).
Proof. intros H E. assert (Hp := inhand_insert ws i w w' H). rewrite E in Hp. by apply Permutation_app_inv_r in Hp. Qed.

Section Pool.
Context (burst : nat) (pkg tmp : string) (src : string -> string) (files : list string).
Notation step := (poolStep burst pkg tmp src).
Definition reached (p : pool) : Prop := rtc step (startPool burst files) p.

Definition sending (w : worker) : nat := match w with WReport _ => 1 | _ => 0 end.
Definition sent (w : worker) : nat := match w with WCheck | WClose | WDone => 1 | _ => 0 end.
Definition closing (w : worker) : nat := match w with WCheck | WClose => 1 | _ => 0 end.
Record pool_inv (p : pool) : Prop := mkPInv {
  pi_count : length (po_workers p) = burst;
  pi_files : Permutation (po_pending p ++ inhand (po_workers p) ++ map fst (po_written p) ++ po_failed p) files;
  pi_data : forall i rel d, po_workers p !! i = Some (WWrite rel d) -> d = src rel;
  pi_written : forall rel d, (rel, d) ∈ po_written p -> d = copied pkg tmp rel (src rel);
  pi_failed : length (po_failed p) = length (po_errs p) + total sending (po_workers p);
  pi_room : length (po_errs p) <= total sent (po_workers p);
  pi_closing : total closing (po_workers p) + (if po_aborted p then 1 else 0) <= length (po_errs p);
  pi_done : forall i, po_workers p !! i = Some WDone -> po_interrupted p = true \/ po_errs p <> [] \/ po_pending p = [];
  pi_crash : po_crashed p = true -> 2 <= length (po_errs p)
}.
Lemma inv_start : pool_inv (startPool burst files).
Proof.
  assert (H : forall f, f WLoop = 0 -> total f (repeat WLoop burst) = 0). { intros f Hf. induction burst as [|n IH]; [done|]. cbn. rewrite Hf, IH. done. }
  assert (Hi : inhand (repeat WLoop burst) = []) by (clear H; unfold inhand; induction burst as [|n IH]; done).
  assert (Hl : forall i w, repeat WLoop burst !! i = Some w -> w = WLoop). { intros i w Hw. apply elem_of_list_lookup_2 in Hw. apply elem_of_list_In in Hw. by apply repeat_spec in Hw. }
  split; cbn [startPool po_workers po_pending po_errs po_aborted po_interrupted po_crashed po_written po_failed map length].
  - apply repeat_length.
  - by rewrite Hi, !app_nil_r.
  - intros i rel d E. by apply Hl in E.
  - by intros rel d ?%elem_of_nil.
  - by rewrite H.
  - lia.
  - rewrite H by done. lia.
  - intros i E. by apply Hl in E.
  - done.
Qed.
Lemma lookup_insert_cases (ws : list worker) i j w w' : <[i := w]> ws !! j = Some w' -> (i = j /\ w' = w) \/ (i <> j /\ ws !! j = Some w').
Proof. intros H. apply list_lookup_insert_Some in H as [(-> & -> & _)|[? ?]]; [by left|by right]. Qed.
Ltac field := cbn [setWorker po_workers po_pending po_errs po_aborted po_interrupted po_crashed po_written po_failed].
Ltac sums Hw w' :=
  let H1 := fresh "Hsum" in let H2 := fresh "Hsum" in let H3 := fresh "Hsum" in
  assert (H1 := total_insert sending _ _ _ w' Hw); assert (H2 := total_insert sent _ _ _ w' Hw); assert (H3 := total_insert closing _ _ _ w' Hw);
  cbn [sending sent closing] in H1, H2, H3.
Lemma inv_step p p' : step p p' -> pool_inv p -> pool_inv p'.
Proof.
  intros Hs [I1 I2 I3 I4 I5 I6 I7 I8 I9].
  destruct Hs as [p Hi Hc|p i Hc Hw Hor|p i rel rest Hc Hw Hp|p i Hc Hw Hp Hi Ha|p i rel Hc Hw|p i rel e Hc Hw|p i rel d Hc Hw|p i rel d e Hc Hw|p i e Hc Hw Hroom|p i Hc Hw|p i Hc Hw Ha|p i Hc Hw Ha].
  - split; field; try done. intros i Hi'. by left.
  - sums Hw WDone. split; field; rewrite ?insert_length; try done; try lia.
    + by rewrite (inhand_move _ _ _ _ Hw).
    + intros j rel d Hj. apply lookup_insert_cases in Hj as [[_ ?]|[_ Hj]]; [done|]. by apply (I3 j).
    + intros j Hj. destruct Hor as [Hor|Hor]; [by left|]. right. left. rewrite Hor in I7. destruct (po_errs p); [cbn in I7; lia|done].
  - sums Hw (WRead rel). split; field; rewrite ?insert_length; try done; try lia.
    + assert (Hm := inhand_insert _ _ _ (WRead rel) Hw). cbn [holds] in Hm. rewrite app_nil_r in Hm. rewrite Hm, <- I2, Hp. solve_Permutation.
    + intros j r d Hj. apply lookup_insert_cases in Hj as [[_ ?]|[_ Hj]]; [done|]. by apply (I3 j).
    + intros j Hj. apply lookup_insert_cases in Hj as [[_ ?]|[_ Hj]]; [done|]. destruct (I8 j Hj) as [?|[?|E]]; [by left|by right; left|]. rewrite Hp in E. done.
  - sums Hw WDone. split; field; rewrite ?insert_length; try done; try lia.
    + by rewrite (inhand_move _ _ _ _ Hw).
    + intros j rel d Hj. apply lookup_insert_cases in Hj as [[_ ?]|[_ Hj]]; [done|]. by apply (I3 j).
    + intros j Hj. by right; right.
  - sums Hw (WWrite rel (src rel)). split; field; rewrite ?insert_length; try done; try lia.
    + by rewrite (inhand_move _ _ _ _ Hw).
    + intros j r d Hj. apply lookup_insert_cases in Hj as [[_ Hj]|[_ Hj]]; [by injection Hj as -> ->|]. by apply (I3 j).
    + intros j Hj. apply lookup_insert_cases in Hj as [[_ ?]|[_ Hj]]; [done|]. by apply (I8 j).
  - sums Hw (WReport e). split; field; rewrite ?insert_length, ?app_length; cbn [length]; try done; try lia.
    + assert (Hm := inhand_insert _ _ _ (WReport e) Hw). cbn [holds] in Hm. rewrite app_nil_r in Hm. rewrite <- I2, <- Hm. solve_Permutation.
    + intros j r d Hj. apply lookup_insert_cases in Hj as [[_ ?]|[_ Hj]]; [done|]. by apply (I3 j).
    + intros j Hj. apply lookup_insert_cases in Hj as [[_ ?]|[_ Hj]]; [done|]. by apply (I8 j).
  - sums Hw WLoop. split; field; rewrite ?insert_length, ?map_app; cbn [map fst]; try done; try lia.
    + assert (Hm := inhand_insert _ _ _ WLoop Hw). cbn [holds] in Hm. rewrite app_nil_r in Hm. rewrite <- I2, <- Hm. solve_Permutation.
    + intros j r d' Hj. apply lookup_insert_cases in Hj as [[_ ?]|[_ Hj]]; [done|]. by apply (I3 j).
    + intros r d' [Hin|Hin]%elem_of_app; [by apply I4|]. apply elem_of_list_singleton in Hin. injection Hin as -> ->. by rewrite (I3 i rel d Hw).
    + intros j Hj. apply lookup_insert_cases in Hj as [[_ ?]|[_ Hj]]; [done|]. by apply (I8 j).
  - sums Hw (WReport e). split; field; rewrite ?insert_length, ?app_length; cbn [length]; try done; try lia.
    + assert (Hm := inhand_insert _ _ _ (WReport e) Hw). cbn [holds] in Hm. rewrite app_nil_r in Hm. rewrite <- I2, <- Hm. solve_Permutation.
    + intros j r d' Hj. apply lookup_insert_cases in Hj as [[_ ?]|[_ Hj]]; [done|]. by apply (I3 j).
    + intros j Hj. apply lookup_insert_cases in Hj as [[_ ?]|[_ Hj]]; [done|]. by apply (I8 j).
  - sums Hw WCheck. split; field; rewrite ?insert_length, ?app_length; cbn [length]; try done; try lia.
    + by rewrite (inhand_move _ _ _ _ Hw).
    + intros j r d Hj. apply lookup_insert_cases in Hj as [[_ ?]|[_ Hj]]; [done|]. by apply (I3 j).
    + intros j Hj. right. left. by destruct (po_errs p).
    + intros Hx. specialize (I9 Hx). lia.
  - assert (Hne : po_errs p <> []). { assert (H := total_ge closing _ _ _ Hw). cbn [closing] in H. destruct (po_errs p); [cbn [length] in I7; lia|done]. }
    destruct (po_aborted p) eqn:Ha.
    + sums Hw WDone. split; field; rewrite ?Ha, ?insert_length; try done; try lia.
      * by rewrite (inhand_move _ _ _ _ Hw).
      * intros j r d Hj. apply lookup_insert_cases in Hj as [[_ ?]|[_ Hj]]; [done|]. by apply (I3 j).
      * intros j Hj. by right; left.
    + sums Hw WClose. split; field; rewrite ?Ha, ?insert_length; try done; try lia.
      * by rewrite (inhand_move _ _ _ _ Hw).
      * intros j r d Hj. apply lookup_insert_cases in Hj as [[_ ?]|[_ Hj]]; [done|]. by apply (I3 j).
      * intros j Hj. by right; left.
  - assert (Hne : po_errs p <> []). { assert (H := total_ge closing _ _ _ Hw). cbn [closing] in H. destruct (po_errs p); [cbn [length] in I7; lia|done]. }
    rewrite Ha in I7. sums Hw WDone. split; field; rewrite ?insert_length; try done; try lia.
    + by rewrite (inhand_move _ _ _ _ Hw).
    + intros j r d Hj. apply lookup_insert_cases in Hj as [[_ ?]|[_ Hj]]; [done|]. by apply (I3 j).
    + intros j Hj. by right; left.
  - assert (H := total_ge closing _ _ _ Hw). cbn [closing] in H. rewrite Ha in I7. split; field; try done; try lia.
Qed.
Lemma inv_reached p : reached p -> pool_inv p.
Proof. intros H. unfold reached in H. remember (startPool burst files) as p0 eqn:E. assert (I : pool_inv p0) by (rewrite E; apply inv_start). clear E. induction H; [done|]. eauto using inv_step. Qed.

(** ** Termination *)
Definition weight (w : worker) : nat := match w with WLoop => 1 | WRead _ => 5 | WWrite _ _ => 4 | WReport _ => 3 | WCheck => 2 | WClose => 1 | WDone => 0 end.
Definition measure (p : pool) : nat :=
  5 * length (po_pending p) + total weight (po_workers p) + (if po_interrupted p then 0 else 1) + (if po_crashed p then 0 else 1).
Lemma step_measure p p' : step p p' -> measure p' < measure p.
Proof.
  intros Hs. unfold measure.
  destruct Hs as [p Hi Hc|p i Hc Hw Hor|p i rel rest Hc Hw Hp|p i Hc Hw Hp Hi Ha|p i rel Hc Hw|p i rel e Hc Hw|p i rel d Hc Hw|p i rel d e Hc Hw|p i e Hc Hw Hroom|p i Hc Hw|p i Hc Hw Ha|p i Hc Hw Ha]; field.
  - rewrite Hi. lia.
  - assert (H := total_insert weight _ _ _ WDone Hw). cbn [weight] in H. lia.
  - assert (H := total_insert weight _ _ _ (WRead rel) Hw). cbn [weight] in H. rewrite Hp. cbn [length]. lia.
  - assert (H := total_insert weight _ _ _ WDone Hw). cbn [weight] in H. lia.
  - assert (H := total_insert weight _ _ _ (WWrite rel (src rel)) Hw). cbn [weight] in H. lia.
  - assert (H := total_insert weight _ _ _ (WReport e) Hw). cbn [weight] in H. lia.
  - assert (H := total_insert weight _ _ _ WLoop Hw). cbn [weight] in H. lia.
  - assert (H := total_insert weight _ _ _ (WReport e) Hw). cbn [weight] in H. lia.
  - assert (H := total_insert weight _ _ _ WCheck Hw). cbn [weight] in H. lia.
  - destruct (po_aborted p).
    + assert (H := total_insert weight _ _ _ WDone Hw). cbn [weight] in H. lia.
    + assert (H := total_insert weight _ _ _ WClose Hw). cbn [weight] in H. lia.
  - assert (H := total_insert weight _ _ _ WDone Hw). cbn [weight] in H. lia.
  - rewrite Hc. lia.
Qed.
Lemma all_done ws : forallb (fun w => match w with WDone => true | _ => false end) ws = true <-> forall i w, ws !! i = Some w -> w = WDone.
Proof.
  rewrite forallb_forall. split.
  - intros H i w Hi. apply elem_of_list_lookup_2, elem_of_list_In, H in Hi. by destruct w.
  - intros H w Hin. apply elem_of_list_In, elem_of_list_lookup in Hin as [i Hi]. by rewrite (H i w Hi).
Qed.
Lemma total_zero f ws : (forall i w, ws !! i = Some w -> f w = 0) -> total f ws = 0.
Proof. induction ws as [|x ws IH]; intros H; [done|]. cbn [total]. rewrite (H 0 x eq_refl), IH; [done|]. intros i w Hi. by apply (H (S i)). Qed.
Lemma inhand_done ws : (forall i w, ws !! i = Some w -> w = WDone) -> inhand ws = [].
Proof. induction ws as [|x ws IH]; intros H; [done|]. unfold inhand. cbn [flat_map]. rewrite (H 0 x eq_refl). apply IH. intros i w Hi. by apply (H (S i)). Qed.
Lemma total_max f ws : (forall w, f w <= 1) -> total f ws <= length ws.
Proof. intros H. induction ws as [|x ws IH]; [done|]. cbn [total length]. specialize (H x). lia. Qed.

(** ** C49 *)
(** copyFiles returned normally and no interrupt arrived: every file was written exactly once, with the right contents, and no operation failed. *)
Theorem C49_everything_copied p : 1 <= burst -> reached p -> poolResult p = Some (Done tt) -> po_interrupted p = false ->
  Permutation (po_written p) (map (fun rel => (rel, copied pkg tmp rel (src rel))) files) /\ po_failed p = [].
Proof.
  intros Hb Hr Hres Hint. apply inv_reached in Hr as [I1 I2 I3 I4 I5 I6 I7 I8 I9]. unfold poolResult in Hres. destruct (po_crashed p); [done|].
  destruct (forallb _ _) eqn:Hd in Hres; [|done]. rewrite all_done in Hd. destruct (po_errs p) as [|e es] eqn:He; [|done]. clear Hres.
  assert (Hz : total sending (po_workers p) = 0) by (apply total_zero; intros i w Hi; by rewrite (Hd i w Hi)).
  assert (Hf : po_failed p = []) by (destruct (po_failed p); [done|cbn [length] in I5; lia]).
  assert (Hp : po_pending p = []).
  { destruct (lookup_lt_is_Some_2 (po_workers p) 0) as [w Hw]; [lia|]. assert (w = WDone) as -> by by apply (Hd 0). destruct (I8 0 Hw) as [?|[?|?]]; [congruence|congruence|done]. }
  split; [|done]. rewrite Hp, Hf, (inhand_done _ Hd) in I2. cbn [app] in I2. rewrite app_nil_r in I2. rewrite <- I2. rewrite map_map.
  rewrite <- (map_id (po_written p)) at 1. apply eq_subrelation; [apply _|]. apply map_ext_in. intros [rel d] Hin. apply elem_of_list_In in Hin. cbn [fst]. f_equal. by apply I4.
Qed.
(** If reading or writing a file failed, copyFiles does not return normally. *)
Theorem C49_failure_reported p r : reached p -> po_failed p <> [] -> poolResult p = Some r -> exists e, r = Panics e.
Proof.
  intros Hr Hf Hres. apply inv_reached in Hr as [I1 I2 I3 I4 I5 I6 I7 I8 I9]. unfold poolResult in Hres. destruct (po_crashed p); [done|].
  destruct (forallb _ _) eqn:Hd in Hres; [|done]. rewrite all_done in Hd.
  assert (Hz : total sending (po_workers p) = 0) by (apply total_zero; intros i w Hi; by rewrite (Hd i w Hi)).
  destruct (po_errs p) as [|e es]; [|injection Hres as <-; by exists e]. destruct (po_failed p); [done|]. cbn [length] in I5. lia.
Qed.
(** ... and an error is reported only if something failed. *)
Theorem C49_no_false_alarm p e : reached p -> poolResult p = Some (Panics e) -> po_failed p <> [].
Proof.
  intros Hr Hres. apply inv_reached in Hr as [I1 I2 I3 I4 I5 I6 I7 I8 I9]. unfold poolResult in Hres. destruct (po_crashed p); [done|].
  destruct (forallb _ _) in Hres; [|done]. destruct (po_errs p) as [|e' es]; [done|]. destruct (po_failed p); [cbn [length] in I5; lia|done].
Qed.
(** No worker waits forever: unless the process died or copyFiles is through, some worker can go on without help from outside. *)
Theorem C49_never_stuck p : reached p -> po_crashed p = false -> poolResult p = None -> exists p', step p p' /\ po_interrupted p' = po_interrupted p.
Proof.
  intros Hr Hc Hres. apply inv_reached in Hr as [I1 I2 I3 I4 I5 I6 I7 I8 I9]. unfold poolResult in Hres. rewrite Hc in Hres.
  destruct (forallb _ _) eqn:Hd in Hres; [done|]. clear Hres.
  assert (Hx : exists i w, po_workers p !! i = Some w /\ w <> WDone).
  { clear - Hd. induction (po_workers p) as [|x ws IH]; [done|]. cbn [forallb] in Hd. destruct x; try (by exists 0; eexists). destruct (IH Hd) as (i & w & Hi & Hw). by exists (S i), w. }
  destruct Hx as (i & w & Hi & Hw). destruct w as [|rel|rel d|e| | |].
  - destruct (po_interrupted p) eqn:Ei; [eexists; split; [eapply s_stop; eauto|done]|].
    destruct (po_aborted p) eqn:Ea; [eexists; split; [eapply s_stop; eauto|done]|].
    destruct (po_pending p) as [|rel rest] eqn:Ep; eexists; (split; [(by eapply s_finish) || (by eapply s_take)|done]).
  - eexists. split; [by eapply s_read|done].
  - eexists. split; [by eapply s_write|done].
  - eexists. split; [eapply s_send; [done|done|]|done].
    assert (H1 := total_insert sent _ _ _ WDone Hi). assert (H2 : total sent (<[i := WDone]> (po_workers p)) <= burst).
    { rewrite <- I1. rewrite <- (insert_length (po_workers p) i WDone). apply total_max. by intros []; cbn; lia. }
    cbn [sent] in H1. lia.
  - eexists. split; [by eapply s_check|done].
  - destruct (po_aborted p) eqn:Ea; [eexists; split; [by eapply s_close_again|done]|eexists; split; [by eapply s_close|done]].
  - done.
Qed.
(** The copy ends: whatever happens, at most this many steps are made. *)
Theorem C49_ends n p : nsteps step n (startPool burst files) p -> n <= 5 * length files + burst + 2.
Proof.
  assert (H : forall n p p', nsteps step n p p' -> n + measure p' <= measure p).
  { intros k q q' Hk. induction Hk as [|k x y z Hs Hk IH]; [lia|]. apply step_measure in Hs. lia. }
  intros Hn. apply H in Hn. assert (E : measure (startPool burst files) = 5 * length files + burst + 2); [|lia].
  unfold measure, startPool. field. assert (E : total weight (repeat WLoop burst) = burst); [|rewrite E; lia].
  clear. induction burst as [|k IH]; [done|]. cbn [repeat total weight]. by rewrite IH.
Qed.
(** The process dies only after two failures. *)
Theorem C49_crash_needs_two_failures p : reached p -> po_crashed p = true -> 2 <= length (po_failed p).
Proof. intros Hr Hc. apply inv_reached in Hr as [I1 I2 I3 I4 I5 I6 I7 I8 I9]. specialize (I9 Hc). lia. Qed.
End Pool.
Ltac norm := cbn [setWorker po_workers po_pending po_errs po_aborted po_interrupted po_crashed po_written po_failed insert list_insert app].
(** With two workers and two files that cannot be read the process can die: both close the abort channel. *)
Theorem C49_double_close_possible n pkg tmp src a b rest (e : string) : exists p, reached (S (S n)) pkg tmp src (a :: b :: rest) p /\ po_crashed p = true.
Proof.
  set (ws := repeat WLoop n).
  exists (mkPool (WDone :: WClose :: ws) rest [e; e] true false true [] [a; b]). split; [|done]. unfold reached, startPool. cbn [repeat]. fold ws.
  eapply rtc_l; [by eapply (s_take _ _ _ _ _ 0)|]; norm. eapply rtc_l; [by eapply (s_take _ _ _ _ _ 1)|]; norm.
  eapply rtc_l; [by eapply (s_read_fails _ _ _ _ _ 0 _ e)|]; norm. eapply rtc_l; [by eapply (s_read_fails _ _ _ _ _ 1 _ e)|]; norm.
  eapply rtc_l; [eapply (s_send _ _ _ _ _ 0); [done|done|cbn; lia]|]; norm. eapply rtc_l; [eapply (s_send _ _ _ _ _ 1); [done|done|cbn; lia]|]; norm.
  eapply rtc_l; [by eapply (s_check _ _ _ _ _ 0)|]; norm. eapply rtc_l; [by eapply (s_check _ _ _ _ _ 1)|]; norm.
  eapply rtc_l; [by eapply (s_close _ _ _ _ _ 0)|]; norm. eapply rtc_l; [by eapply (s_close_again _ _ _ _ _ 1)|]; norm. apply rtc_refl.
Qed.
(** An interrupted copy can return normally with nothing copied; the build then goes on with what is there. *)
Theorem C49_interrupt_unnoticed burst pkg tmp src files : exists p, reached burst pkg tmp src files p /\ poolResult p = Some (Done tt) /\ po_written p = [].
Proof.
  exists (mkPool (repeat WDone burst) files [] false true false [] []).
  assert (Hd : forallb (fun w => match w with WDone => true | _ => false end) (repeat WDone burst) = true) by (by induction burst).
  split; [|split; [unfold poolResult; cbn [po_crashed po_workers po_errs]; by rewrite Hd|done]].
  unfold reached, startPool. eapply rtc_l; [by apply s_interrupt|]. cbn [po_workers po_pending po_errs po_aborted po_interrupted po_crashed po_written po_failed].
  assert (H : forall m k, rtc (poolStep burst pkg tmp src) (mkPool (repeat WDone k ++ repeat WLoop m) files [] false true false [] []) (mkPool (repeat WDone (k + m)) files [] false true false [] [])).
  { induction m as [|m IH]; intros k; [by rewrite app_nil_r, Nat.add_0_r|]. eapply rtc_l.
    - apply (s_stop _ _ _ _ _ k); [done| |by left]. cbn [po_workers]. rewrite lookup_app_r by (by rewrite repeat_length). by rewrite repeat_length, Nat.sub_diag.
    - replace (k + S m) with (S k + m) by lia. unfold setWorker. cbn [po_workers po_pending po_errs po_aborted po_interrupted po_crashed po_written po_failed].
      assert (E : <[k := WDone]> (repeat WDone k ++ repeat WLoop (S m)) = repeat WDone (S k) ++ repeat WLoop m); [|rewrite E; apply IH].
      rewrite insert_app_r_alt by (by rewrite repeat_length). rewrite repeat_length, Nat.sub_diag. cbn [repeat insert list_insert]. rewrite repeat_cons, <- (assoc_L (++)). done. }
  apply (H burst 0).
Qed.
(** A run of two workers on two files *)
Example C49_case : exists p, reached 2 "m/plug" "m/tmp" (fun _ => "package plug") ["a.go"; "b.txt"] p /\ poolResult p = Some (Done tt) /\ po_interrupted p = false
  /\ po_written p = [("b.txt", "package plug"); ("a.go", "package main")].
Proof.
  eexists. split; [|split; [|split]].
  - unfold reached, startPool. cbn [repeat].
    eapply rtc_l; [by eapply (s_take _ _ _ _ _ 0)|]; norm. eapply rtc_l; [by eapply (s_take _ _ _ _ _ 1)|]; norm.
    eapply rtc_l; [by eapply (s_read _ _ _ _ _ 0)|]; norm. eapply rtc_l; [by eapply (s_read _ _ _ _ _ 1)|]; norm.
    eapply rtc_l; [by eapply (s_write _ _ _ _ _ 1)|]; norm. eapply rtc_l; [by eapply (s_write _ _ _ _ _ 0)|]; norm.
    eapply rtc_l; [by eapply (s_finish _ _ _ _ _ 1)|]; norm. eapply rtc_l; [by eapply (s_finish _ _ _ _ _ 0)|]; norm. apply rtc_refl.
  - reflexivity.
  - reflexivity.
  - vm_compute. reflexivity.
Qed.
Print Assumptions C49_everything_copied.
Print Assumptions C49_failure_reported.
Print Assumptions C49_no_false_alarm.
Print Assumptions C49_never_stuck.
Print Assumptions C49_ends.
Print Assumptions C49_crash_needs_two_failures.
Print Assumptions C49_double_close_possible.
Print Assumptions C49_interrupt_unnoticed.
