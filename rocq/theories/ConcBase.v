(** Basic facts about reachable worlds *)
From Verif Require Export Conc FileProofs PropVault.

Section Proofs.
Context {E : GoEnv}.

(** ** Unfinished programs *)

(** [p] has performed the events [t] and [q] remains to be done. *)
Definition partial {A} (p : prog A) (t : list event) (q : prog A) : Prop := forall t' r, exec q t' r -> exec p (t ++ t') r.

Lemma partial_refl {A} (p : prog A) : partial p [] p.
Proof. intros t' r H. exact H. Qed.
Lemma partial_act {A X} (p : prog A) t (a : act X) k x : partial p t (Act a k) -> valid a x -> partial p (t ++ ev a x) (k x).
Proof.
  intros Hp Hv t' r Hk. rewrite <- (assoc_L (++)). apply Hp. apply exec_act. exists x, t'. done.
Qed.
Lemma partial_ret {A} (p : prog A) t r : partial p t (Ret r) -> exec p t r.
Proof. intros Hp. rewrite <- (right_id_L [] (++) t). apply Hp. done. Qed.

(** every action can be answered *)
Definition some_answer (cur : option mgr) (used : list inst) {X} (a : act X) : X :=
  match a in act X return X with
  | ALock => tt | AUnlock => tt
  | AGetDir => ""
  | ASetDir _ => tt
  | ALoadCurrent => cur
  | AStoreCurrent _ => tt
  | ANewInst _ _ => fresh (list_to_set used : gset N)
  | ARefInc _ _ => 2%Z
  | ARefDec _ _ => 0%Z
  | AOnce _ => true
  | AAddCounter => tt
  | ALoadCounter => 0%Z
  | ASpawnFree _ _ => tt
  | ASleep _ _ => tt
  | ANewMgr => (0%N, (moment0, 0%N))
  | ANow => 0%N
  | AIter keys => keys
  | AStat _ => Val true
  | AAbs d => Val d
  | AReadDir _ => Val []
  | AReadFile f => Val ""
  | AMkdirAll _ => None
  | AWriteFile _ _ => None
  | AOpen f => Err (EOpaque 0)
  | ALookupSym _ s => None
  | ACall r c _ => Pan (PUser 0)
  | ANewExt => Val None
  | ACallback cb _ _ => Val None
  end.
Lemma some_answer_valid cur used X (a : act X) : valid a (some_answer cur used a).
Proof.
  destruct a; try exact I; try reflexivity.
  - exact proper0.
  - exact (Permutation_refl keys).
  - exact (conj (NoDup_nil_2) (Forall_nil_2 _)).
  - exists 0%N. reflexivity.
  - destruct r; exists 0%N; reflexivity.
Qed.


Lemma created_app t1 t2 : created (t1 ++ t2) = created t1 ++ created t2.
Proof. apply omap_app. Qed.
Lemma complete {A} (q : prog A) cur : forall used : list inst, exists t' r, exec q t' r /\ (forall x, saw_current t' x -> x = cur) /\
  NoDup (created t') /\ (forall i, i ∈ created t' -> i ∉ used).
Proof.
  induction q as [a|X a k IH]; intros used.
  - exists [], a. split_and!; [done| |constructor|]; intros x Hx; by apply elem_of_nil in Hx.
  - set (x := some_answer cur used a).
    destruct (IH x (created (ev a x) ++ used)) as (t' & r & He & Hs & Hnd & Hu).
    exists (ev a x ++ t'), r. split_and!.
    + apply exec_act. exists x, t'. split_and!; [apply some_answer_valid|done|done].
    + intros y Hy. apply elem_of_app in Hy as [Hy|Hy]; [|by apply Hs].
      clear -Hy. subst x. destruct a; cbn [ev some_answer] in Hy; try (by apply elem_of_list_singleton in Hy); try (by apply elem_of_nil in Hy).
      apply elem_of_list_singleton in Hy. congruence.
    + rewrite created_app. apply NoDup_app. split_and!; [| |done].
      * clear. subst x. destruct a; cbn [ev created omap list_omap new_inst]; try constructor; try done; try constructor. intros H. by apply elem_of_nil in H.
      * intros i Hi Hi'. apply Hu in Hi'. apply Hi'. apply elem_of_app. by left.
    + intros i Hi. rewrite created_app in Hi. apply elem_of_app in Hi as [Hi|Hi].
      * clear -Hi. subst x. destruct a; cbn [ev created omap list_omap new_inst some_answer] in Hi; try (by apply elem_of_nil in Hi).
        apply elem_of_list_singleton in Hi. subst i. intros Hin.
        eapply (is_fresh (list_to_set used : gset N)). by apply elem_of_list_to_set.
      * apply Hu in Hi. intros Hin. apply Hi. apply elem_of_app. by right.
Qed.

(** any property of the events of complete executions holds of unfinished ones *)
Lemma partial_forall {A} (p : prog A) t q (Q : event -> Prop) : partial p t q -> (forall t r, exec p t r -> Forall Q t) -> Forall Q t.
Proof.
  intros Hp HQ. destruct (complete q None []) as (t' & r & He & _). apply Hp, HQ in He. by apply Forall_app in He as [? _].
Qed.

(** ** Histories *)
Lemma events_app h1 h2 : events (h1 ++ h2) = events h1 ++ events h2. Proof. apply omap_app. Qed.
Lemma events_of_app j h1 h2 : events_of j (h1 ++ h2) = events_of j h1 ++ events_of j h2. Proof. apply omap_app. Qed.
Lemma load_events_app h1 h2 : load_events (h1 ++ h2) = load_events h1 ++ load_events h2. Proof. apply omap_app. Qed.
Lemma begun_app r h1 h2 : begun r (h1 ++ h2) = begun r h1 ++ begun r h2. Proof. apply omap_app. Qed.
Lemma events_of_in j h e : e ∈ events_of j h <-> exists en, en ∈ h /\ en_thread en = j /\ en_what en = Did e.
Proof.
  unfold events_of. rewrite elem_of_list_omap. split.
  - intros (en & Hin & He). destruct (decide _) as [Hj|]; [|done]. unfold did in He. destruct (en_what en) eqn:Hw; [done|]. injection He as ->. eauto.
  - intros (en & Hin & Hj & Hw). exists en. split; [done|]. rewrite decide_True by done. unfold did. by rewrite Hw.
Qed.
Lemma events_in h e : e ∈ events h <-> exists en, en ∈ h /\ en_what en = Did e.
Proof.
  unfold events. rewrite elem_of_list_omap. split.
  - intros (en & Hin & He). unfold did in He. destruct (en_what en) eqn:Hw; [done|]. injection He as ->. eauto.
  - intros (en & Hin & Hw). exists en. split; [done|]. unfold did. by rewrite Hw.
Qed.
Lemma load_events_in h e : e ∈ load_events h <-> exists en a, en ∈ h /\ en_task en = TLoad a /\ en_what en = Did e.
Proof.
  unfold load_events. rewrite elem_of_list_omap. split.
  - intros (en & Hin & He). destruct (en_task en) eqn:Hk; cbn in He; try done. unfold did in He. destruct (en_what en) eqn:Hw; [done|]. injection He as ->. eauto 10.
  - intros (en & a & Hin & Hj & Hw). exists en. split; [done|]. rewrite Hj. cbn. unfold did. by rewrite Hw.
Qed.

Definition done_by (now : Z) (j : nat) (k : task) (l : list event) : list entry := map (fun e => mkEntry now j k (Did e)) l.
Lemma events_done now j k l : events (done_by now j k l) = l.
Proof. unfold events, done_by. induction l as [|e l IH]; [done|]. cbn. f_equal. exact IH. Qed.
Lemma events_of_done now j k l i : events_of i (done_by now j k l) = if decide (j = i) then l else [].
Proof.
  unfold events_of, done_by. induction l as [|e l IH]; [by destruct (decide _)|]. cbn [map omap list_omap en_thread].
  destruct (decide (j = i)) as [->|Hn]; [|exact IH]. cbn. f_equal. exact IH.
Qed.
Lemma load_events_done now j k l : load_events (done_by now j k l) = if is_load k then l else [].
Proof.
  unfold load_events, done_by. induction l as [|e l IH]; [by destruct (is_load k)|]. cbn [map omap list_omap en_task].
  destruct (is_load k); [|exact IH]. cbn. f_equal. exact IH.
Qed.
Lemma begun_done r now j k l : begun r (done_by now j k l) = [].
Proof. unfold begun, done_by. induction l as [|e l IH]; [done|]. exact IH. Qed.

(** ** The reference counter of an instance, from the events *)
Definition weight (i : inst) (e : event) : Z :=
  match e with
  | EvNewInst _ _ i' | EvRefInc _ i' _ => if decide (i' = i) then 1 else 0
  | EvRefDec _ i' _ => if decide (i' = i) then -1 else 0
  | _ => 0
  end.
Fixpoint wt (i : inst) (t : list event) : Z := match t with [] => 0 | e :: t => weight i e + wt i t end.
Lemma wt_app i t1 t2 : wt i (t1 ++ t2) = (wt i t1 + wt i t2)%Z.
Proof. induction t1 as [|e t1 IH]; cbn; [done|]. rewrite IH. lia. Qed.

(** an instance mentioned by an event *)
Definition mentions (i : inst) (e : event) : Prop :=
  match e with EvNewInst _ _ i' | EvRefInc _ i' _ | EvRefDec _ i' _ => i' = i | _ => False end.
Definition onced (t : list event) : list inst := omap (fun e => match e with EvOnce i true => Some i | _ => None end) t.
Lemma onced_app t1 t2 : onced (t1 ++ t2) = onced t1 ++ onced t2. Proof. apply omap_app. Qed.

(** ** The basic invariant *)
Record basic (o : opts) (dir : string) (w : world) : Prop := mkBasic {
  b_thread : forall j th, w_threads w !! j = Some th -> partial (task_prog o (th_task th)) (events_of j (w_hist w)) (th_prog th);
  b_index : forall en, en ∈ w_hist w -> exists th, w_threads w !! en_thread en = Some th /\ th_task th = en_task en;
  b_called : forall j th, w_threads w !! j = Some th -> th_called th = true ->
     exists r c arg k, th_prog th = Act (ACall r c arg) k;
  b_refs : forall i, refs_of (w_mem w) i = wt i (events (w_hist w));
  b_unborn : forall i, me_refs (w_mem w) !! i = None -> Forall (fun e => ~ mentions i e) (events (w_hist w));
  b_once : forall i, i ∈ me_once (w_mem w) <-> i ∈ onced (events (w_hist w));
  b_onces : NoDup (onced (events (w_hist w)));
  b_created : NoDup (created (events (w_hist w)));
  b_current : me_current (w_mem w) = after None (events (w_hist w));
  b_counter : me_counter (w_mem w) = Z.of_nat (counted (events (w_hist w)));
  b_time : forall en, en ∈ w_hist w -> (en_time en <= w_now w)%Z }.

Lemma after_app' cur t1 t2 : after cur (t1 ++ t2) = after (after cur t1) t2.
Proof. apply fold_left_app. Qed.

Lemma lookup_insert_app {A} (l l' : list A) j x i y : (j < length l)%nat -> (<[j:=x]> l ++ l') !! i = Some y ->
  (i = j /\ y = x) \/ (i <> j /\ (l !! i = Some y \/ (length l <= i)%nat /\ y ∈ l')).
Proof.
  intros Hj H. apply lookup_app_Some in H as [H|[Hlen H]].
  - destruct (decide (i = j)) as [->|Hn]; [|rewrite list_lookup_insert_ne in H by done; eauto].
    rewrite list_lookup_insert in H by done. left. split; [done|congruence].
  - rewrite insert_length in *. right. split; [lia|]. right. split; [done|]. by eapply elem_of_list_lookup_2.
Qed.

Lemma events_of_none h j : (forall en, en ∈ h -> en_thread en <> j) -> events_of j h = [].
Proof.
  intros H. unfold events_of. induction h as [|en h IH]; [done|]. cbn. rewrite decide_False.
  - apply IH. intros en' Hin. apply H. by right.
  - apply H. by left.
Qed.


Lemma counted_add t e : counted (t ++ [e]) = (counted t + match e with EvAddCounter => 1 | _ => 0 end)%nat.
Proof. unfold counted. rewrite omap_app, app_length. f_equal. by destruct e. Qed.

Lemma refs_update j s X (a : act X) x i : answers s a x -> (me_refs s !! i = None -> refs_of s i = 0%Z) ->
  refs_of (update j s a x) i = (refs_of s i + wt i (ev a x))%Z.
Proof.
  intros Ha Hn. destruct a; cbn [update ev wt weight answers] in *; unfold refs_of in *; cbn [me_refs]; try lia.
  - destruct (decide (x = i)) as [->|Hne]; [rewrite lookup_insert; cbn; rewrite Hn by done; lia|rewrite lookup_insert_ne by done; lia].
  - destruct (decide (i0 = i)) as [->|Hne]; [rewrite lookup_insert; cbn; lia|rewrite lookup_insert_ne by done; lia].
  - destruct (decide (i0 = i)) as [->|Hne]; [rewrite lookup_insert; cbn; lia|rewrite lookup_insert_ne by done; lia].
Qed.

Lemma basic_init o dir : basic o dir (initially dir).
Proof.
  split; cbn.
  - intros j th H. by rewrite lookup_nil in H.
  - intros en H. by apply elem_of_nil in H.
  - intros j th H. by rewrite lookup_nil in H.
  - intros i. unfold refs_of. cbn. by rewrite lookup_empty.
  - intros i _. constructor.
  - intros i. split; intros H; [by apply elem_of_empty in H|by apply elem_of_nil in H].
  - constructor.
  - constructor.
  - done.
  - done.
  - intros en H. by apply elem_of_nil in H.
Qed.

Lemma basic_step o dir w w' : basic o dir w -> step o w w' -> basic o dir w'.
Proof.
  intros HB Hs. destruct Hs as [w k Hu|w now Hnow|w j th X a k r c Hj Hp Hc Hnc|w j th X a k x Hj Hp Hc Hv Ha Haw].
  - destruct HB. split; cbn [w_now w_mem w_threads w_hist]; try done.
    + intros j th H. apply lookup_app_Some in H as [H|[Hlen H]]; [by apply b_thread0|].
      assert (th = start o (w_now w) k) as ->. { apply elem_of_list_lookup_2 in H. by apply elem_of_list_singleton in H. }
      cbn. rewrite events_of_none; [apply partial_refl|]. intros en Hen. destruct (b_index0 en Hen) as (th' & Hl & _).
      apply lookup_lt_Some in Hl. lia.
    + intros en Hen. destruct (b_index0 en Hen) as (th' & Hl & Ht). exists th'. split; [|done]. by apply lookup_app_l_Some.
    + intros j th H. apply lookup_app_Some in H as [H|[Hlen H]]; [by apply (b_called0 j)|].
      assert (th = start o (w_now w) k) as ->. { apply elem_of_list_lookup_2 in H. by apply elem_of_list_singleton in H. }
      done.
  - destruct HB. split; cbn [w_now w_mem w_threads w_hist]; try done. intros en Hen. specialize (b_time0 en Hen). lia.
  - destruct HB. pose proof (lookup_lt_Some _ _ _ Hj) as Hlt.
    assert (Hev : events (w_hist w ++ [mkEntry (w_now w) j (th_task th) (Began r c)]) = events (w_hist w)).
    { rewrite events_app. apply (right_id_L [] (++)). }
    split; cbn [w_now w_mem w_threads w_hist]; rewrite ?Hev; try done.
    + intros i th' H. assert (Hevi : events_of i (w_hist w ++ [mkEntry (w_now w) j (th_task th) (Began r c)]) = events_of i (w_hist w)).
      { rewrite events_of_app. cbn. destruct (decide _); apply (right_id_L [] (++)). }
      rewrite Hevi. rewrite <- (right_id_L [] (++) (<[j:=_]> _)) in H.
      apply lookup_insert_app in H as [[-> ->]|[Hn [H|[_ H]]]]; [exact (b_thread0 _ _ Hj)|exact (b_thread0 _ _ H)|by apply elem_of_nil in H|done].
    + intros en Hen. apply elem_of_app in Hen as [Hen|Hen].
      * destruct (b_index0 en Hen) as (th' & Hl & Ht). destruct (decide (en_thread en = j)) as [Hej|Hne].
        -- rewrite Hej in *. rewrite Hj in Hl. injection Hl as <-. eexists. split; [by apply list_lookup_insert|done].
        -- exists th'. split; [by rewrite list_lookup_insert_ne|done].
      * apply elem_of_list_singleton in Hen as ->. cbn. eexists. split; [by apply list_lookup_insert|done].
    + intros i th' H. rewrite <- (right_id_L [] (++) (<[j:=_]> _)) in H.
      apply lookup_insert_app in H as [[-> ->]|[Hn [H|[_ H]]]]; [|by apply (b_called0 i)|by apply elem_of_nil in H|done].
      intros _. cbn. rewrite Hp. destruct a; try discriminate Hc. eauto.
    + intros en Hen. apply elem_of_app in Hen as [Hen|Hen]; [by apply b_time0|]. apply elem_of_list_singleton in Hen as ->. cbn. lia.
  - destruct HB. pose proof (lookup_lt_Some _ _ _ Hj) as Hlt. fold (done_by (w_now w) j (th_task th) (ev a x)).
    assert (Hev : events (w_hist w ++ done_by (w_now w) j (th_task th) (ev a x)) = events (w_hist w) ++ ev a x).
    { by rewrite events_app, events_done. }
    split; cbn [w_now w_mem w_threads w_hist]; rewrite ?Hev.
    + intros i th' H. rewrite events_of_app, events_of_done. apply lookup_insert_app in H as [[-> ->]|[Hn [H|[Hlen H]]]]; [| | |done].
      * rewrite decide_True by done. cbn. apply partial_act; [|done]. rewrite <- Hp. by apply b_thread0.
      * rewrite decide_False by done. rewrite (right_id_L [] (++)). by apply b_thread0.
      * rewrite decide_False by done. rewrite (right_id_L [] (++)). rewrite events_of_none.
        -- destruct a; cbn [spawns] in H; try (by apply elem_of_nil in H). apply elem_of_list_singleton in H as ->. apply partial_refl.
        -- intros en Hen. destruct (b_index0 en Hen) as (th'' & Hl & _). apply lookup_lt_Some in Hl. lia.
    + intros en Hen. apply elem_of_app in Hen as [Hen|Hen].
      * destruct (b_index0 en Hen) as (th' & Hl & Ht). destruct (decide (en_thread en = j)) as [Hej|Hne].
        -- rewrite Hej in *. rewrite Hj in Hl. injection Hl as <-. eexists. split; [apply lookup_app_l_Some; by apply list_lookup_insert|done].
        -- exists th'. split; [apply lookup_app_l_Some; by rewrite list_lookup_insert_ne|done].
      * apply elem_of_list_fmap in Hen as (e & -> & _). cbn. eexists. split; [apply lookup_app_l_Some; by apply list_lookup_insert|done].
    + intros i th' H. apply lookup_insert_app in H as [[-> ->]|[Hn [H|[Hlen H]]]]; [done|by apply (b_called0 i)| |done].
      destruct a; cbn [spawns] in H; try (by apply elem_of_nil in H). by apply elem_of_list_singleton in H as ->.
    + intros i. rewrite wt_app, <- b_refs0. apply refs_update; [done|]. intros Hn. unfold refs_of. by rewrite Hn.
    + intros i Hi. apply Forall_app. split.
      * apply b_unborn0. destruct a; cbn [update me_refs] in Hi; try done; by apply lookup_insert_None in Hi as [? _].
      * destruct a; cbn [ev]; repeat constructor; cbn [mentions]; try (intros []; fail); cbn [update me_refs] in Hi; try (by apply lookup_insert_None in Hi as [_ ?]); try done.
    + intros i. rewrite onced_app, elem_of_app, <- b_once0. destruct a; cbn [update me_once ev onced omap list_omap]; try (split; [by left|intros [?|H]; [done|by apply elem_of_nil in H]]).
      cbn [answers] in Ha. rewrite Ha. rewrite elem_of_union, elem_of_singleton. case_bool_decide as Hin.
      * rewrite elem_of_list_singleton. tauto.
      * assert (i0 ∈ me_once (w_mem w)) by (destruct (decide (i0 ∈ me_once (w_mem w))); done).
        split; [intros [->|?]; by left|intros [?|H']; [by right|by apply elem_of_nil in H']].
    + rewrite onced_app. apply NoDup_app. split_and!; [done| |].
      * intros i Hi Hi'. destruct a; cbn [ev onced omap list_omap] in Hi'; try (by apply elem_of_nil in Hi').
        cbn [answers] in Ha. rewrite Ha in Hi'. case_bool_decide as Hb; [|by apply elem_of_nil in Hi']. apply elem_of_list_singleton in Hi' as ->.
        apply Hb. by apply b_once0.
      * destruct a; cbn [ev onced omap list_omap]; try constructor; try (destruct x; constructor; [|constructor]; intros Hx; by apply elem_of_nil in Hx).
    + rewrite created_app. apply NoDup_app. split_and!; [done| |].
      * intros i Hi Hi'. destruct a; cbn [ev created omap list_omap new_inst] in Hi'; try (by apply elem_of_nil in Hi').
        apply elem_of_list_singleton in Hi' as ->. cbn [answers] in Ha. specialize (b_unborn0 x Ha).
        unfold created in Hi. apply elem_of_list_omap in Hi as (e & He & Hx). destruct e; try done. injection Hx as ->.
        rewrite Forall_forall in b_unborn0. by apply (b_unborn0 _ He).
      * destruct a; cbn [ev created omap list_omap new_inst]; try constructor; try done; try constructor. intros H. by apply elem_of_nil in H.
    + rewrite after_app', <- b_current0. destruct a; try done.
    + destruct a; cbn [ev update me_counter]; try (rewrite ?(right_id_L [] (++)); done); rewrite counted_add; cbn; try (rewrite Nat.add_0_r; done). rewrite b_counter0. lia.
    + intros en Hen. apply elem_of_app in Hen as [Hen|Hen]; [by apply b_time0|]. apply elem_of_list_fmap in Hen as (e & -> & _). cbn. lia.
Qed.

Lemma reach_basic o dir w : reach o dir w -> basic o dir w.
Proof. induction 1; [apply basic_init|by eapply basic_step]. Qed.

End Proofs.
