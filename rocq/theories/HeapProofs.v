(** The pointer program of HeapModel.v does what the program with values does, and writes only to objects of the call. *)
From Verif Require Export HeapModel ExecLemmas.

Definition slice_wf (h : heap) (s : slice) : Prop :=
  forall a, sl_arr s = Some a -> exists xs, h_arr h !! a = Some xs /\ (sl_len s <= length xs)%nat.
Definition plug_wf (h : heap) (p : hplugin) : Prop :=
  slice_wf h (hp_deps p) /\ forall i, hp_imp p = Some i -> is_Some (h_imp h !! i).
Definition mgr_wf (h : heap) (m : hmgr) : Prop :=
  (forall k p, hm_map m !! k = Some p -> exists v, h_plug h !! p = Some v /\ name2key (hp_name v) = k) /\
  (forall p, p ∈ hm_ordered m -> exists v, h_plug h !! p = Some v /\ hm_map m !! name2key (hp_name v) = Some p).
(** No dangling pointers, the maps have the lower-case names as keys, the lists hold plugins of the map, and the addresses from [h_next] on are free. *)
Record wf (h : heap) : Prop := mkWf {
  wf_mgr : forall l m, h_mgr h !! l = Some m -> (l < h_next h)%N /\ mgr_wf h m;
  wf_plug : forall l p, h_plug h !! l = Some p -> (l < h_next h)%N /\ plug_wf h p;
  wf_arr : forall l a, h_arr h !! l = Some a -> (l < h_next h)%N;
  wf_imp : forall l a, h_imp h !! l = Some a -> (l < h_next h)%N;
  wf_cur : forall l, h_cur h = Some l -> is_Some (h_mgr h !! l) }.
(** The objects of [h0] are as they were. *)
Record frame (h0 h : heap) : Prop := mkFrame {
  fr_next : (h_next h0 <= h_next h)%N;
  fr_plug : forall l, (l < h_next h0)%N -> h_plug h !! l = h_plug h0 !! l;
  fr_arr : forall l, (l < h_next h0)%N -> h_arr h !! l = h_arr h0 !! l;
  fr_imp : forall l, (l < h_next h0)%N -> h_imp h !! l = h_imp h0 !! l;
  fr_mgr : forall l, (l < h_next h0)%N -> h_mgr h !! l = h_mgr h0 !! l }.
Lemma frame_refl h : frame h h.
Proof. split; [lia|done..]. Qed.
Lemma frame_trans h0 h1 h2 : frame h0 h1 -> frame h1 h2 -> frame h0 h2.
Proof.
  intros [A1 B1 C1 D1 F1] [A2 B2 C2 D2 F2]. split; [lia|..]; intros l Hl.
  - rewrite B2; [by apply B1|lia].
  - rewrite C2; [by apply C1|lia].
  - rewrite D2; [by apply D1|lia].
  - rewrite F2; [by apply F1|lia].
Qed.

Lemma slice_view_eq h h' s : (forall a, sl_arr s = Some a -> h_arr h' !! a = h_arr h !! a) -> slice_view h' s = slice_view h s.
Proof. intros H. unfold slice_view. destruct (sl_arr s) as [a|]; [by rewrite H|done]. Qed.
Lemma import_view_eq h h' i : (forall a, i = Some a -> h_imp h' !! a = h_imp h !! a) -> import_view h' i = import_view h i.
Proof. intros H. unfold import_view. destruct i as [a|]; [by rewrite H|done]. Qed.
Lemma view_plugin_eq h h' p : (forall a, sl_arr (hp_deps p) = Some a -> h_arr h' !! a = h_arr h !! a) ->
  (forall a, hp_imp p = Some a -> h_imp h' !! a = h_imp h !! a) -> view_plugin h' p = view_plugin h p.
Proof. intros H1 H2. unfold view_plugin. by rewrite (slice_view_eq h h' _ H1), (import_view_eq h h' _ H2). Qed.

Lemma frame_view_plugin h0 h p : frame h0 h -> plug_wf h0 p -> wf h0 -> view_plugin h p = view_plugin h0 p.
Proof.
  intros HF [Hs Hi] HW. apply view_plugin_eq.
  - intros a Ha. apply (fr_arr _ _ HF). destruct (Hs a Ha) as (xs & Hx & _). by eapply wf_arr.
  - intros a Ha. apply (fr_imp _ _ HF). destruct (Hi a Ha) as [x Hx]. by eapply wf_imp.
Qed.
Lemma frame_ptr h0 h l : frame h0 h -> wf h0 -> is_Some (h_plug h0 !! l) -> view_ptr h l = view_ptr h0 l /\ key_ptr h l = key_ptr h0 l.
Proof.
  intros HF HW [p Hp]. destruct (wf_plug _ HW _ _ Hp) as [Hl Hw]. unfold view_ptr, key_ptr. rewrite (fr_plug _ _ HF _ Hl), Hp. cbn.
  by rewrite (frame_view_plugin h0 h).
Qed.
Lemma omap_ext_in {A B} (f g : A -> option B) (l : list A) : (forall x, x ∈ l -> f x = g x) -> omap f l = omap g l.
Proof.
  induction l as [|x l IH]; intros H; [done|].
  change (match f x with Some y => y :: omap f l | None => omap f l end = match g x with Some y => y :: omap g l | None => omap g l end).
  rewrite (H x) by (by left). rewrite IH; [done|]. intros y Hy. apply H. by right.
Qed.
Lemma omap_map_ext {A B} (f g : A -> option B) (m : gmap string A) : (forall k x, m !! k = Some x -> f x = g x) -> omap f m = omap g m.
Proof. intros H. apply map_eq. intros k. rewrite !lookup_omap. destruct (m !! k) as [x|] eqn:Hk; [cbn; by eapply H|done]. Qed.
Lemma view_mgr_eq h h' m : (forall k p, hm_map m !! k = Some p -> view_ptr h' p = view_ptr h p) ->
  (forall p, p ∈ hm_ordered m -> key_ptr h' p = key_ptr h p) -> view_mgr h' m = view_mgr h m.
Proof.
  intros H1 H2. unfold view_mgr. f_equal; [by apply omap_map_ext|by apply omap_ext_in].
Qed.
(** An object graph that existed before is read as before. *)
Lemma frame_view h0 h l m : wf h0 -> frame h0 h -> view h0 l = Some m -> view h l = Some m.
Proof.
  intros HW HF Hv. unfold view in *. destruct (h_mgr h0 !! l) as [x|] eqn:Hx; [|done]. destruct (wf_mgr _ HW _ _ Hx) as [Hl [Hm Ho]].
  rewrite (fr_mgr _ _ HF _ Hl), Hx. cbn in Hv |- *. rewrite <- Hv. f_equal. apply view_mgr_eq.
  - intros k p Hp. apply (frame_ptr h0 h p HF HW). destruct (Hm k p Hp) as (v & Hx2 & _). by eexists.
  - intros p Hp. apply (frame_ptr h0 h p HF HW). destruct (Ho p Hp) as (v & Hx2 & _). by eexists.
Qed.

(** ** The manager under construction *)
Section Proofs.
Context {E : GoEnv} {HE : HeapEnv} (h0 : heap) (pm : loc).
Notation base := (h_next h0).

(** A plugin object of this call: copies share their slices with old objects, others have their own. *)
Definition placed (v : hplugin) : Prop :=
  if hp_unchanged v
  then (forall a, sl_arr (hp_deps v) = Some a -> (a < base)%N) /\ (forall i, hp_imp v = Some i -> (i < base)%N)
  else (forall a, sl_arr (hp_deps v) = Some a -> (base <= a)%N) /\ (forall i, hp_imp v = Some i -> (base <= i)%N).
Record own (h : heap) (m : hmgr) : Prop := mkOwn {
  ow_placed : forall p v, (base <= p)%N -> h_plug h !! p = Some v -> placed v;
  ow_arr : forall p q v w a, (base <= p)%N -> (base <= q)%N -> h_plug h !! p = Some v -> h_plug h !! q = Some w ->
    hp_unchanged v = false -> hp_unchanged w = false -> sl_arr (hp_deps v) = Some a -> sl_arr (hp_deps w) = Some a -> p = q;
  ow_imp : forall p q v w a, (base <= p)%N -> (base <= q)%N -> h_plug h !! p = Some v -> h_plug h !! q = Some w ->
    hp_unchanged v = false -> hp_unchanged w = false -> hp_imp v = Some a -> hp_imp w = Some a -> p = q;
  ow_map : forall k p, hm_map m !! k = Some p -> (base <= p)%N /\ exists v, h_plug h !! p = Some v /\ name2key (hp_name v) = k;
  ow_ordered : forall p, p ∈ hm_ordered m -> exists v, h_plug h !! p = Some v /\ hm_map m !! name2key (hp_name v) = Some p }.
Record inv (h : heap) : Prop := mkInv {
  in_wf : wf h; in_frame : frame h0 h; in_cur : h_cur h = h_cur h0; in_pm : (base <= pm)%N;
  in_log : exists l, h_log h = l ++ h_log h0 /\ Forall (fun a => (base <= a)%N) l;
  in_own : exists m, h_mgr h !! pm = Some m /\ own h m }.

Lemma log_cons (h : heap) a : (exists l, h_log h = l ++ h_log h0 /\ Forall (fun a => (base <= a)%N) l) -> (base <= a)%N ->
  exists l, a :: h_log h = l ++ h_log h0 /\ Forall (fun a => (base <= a)%N) l.
Proof. intros (l & -> & Hl) Ha. exists (a :: l). split; [done|by constructor]. Qed.

Definition nobody : mgr := mkMgr 0 (moment0, 0%N) ∅ [] 0 ∅ ∅ ∅ None.
(** the manager under construction, as a value *)
Definition now (h : heap) : mgr := default nobody (view h pm).
Lemma now_mgr h m : h_mgr h !! pm = Some m -> now h = view_mgr h m.
Proof. intros H. unfold now, view. by rewrite H. Qed.

(** ** Steps *)
(** An object at an address of this call that is not an array or import object anybody else looks at. *)
Lemma view_ptr_plug h p v q : q <> p -> view_ptr (put_plug p v h) q = view_ptr h q.
Proof.
  intros Hn. unfold view_ptr. cbn. rewrite lookup_insert_ne by done. destruct (h_plug h !! q) as [w|]; [|done]. cbn. f_equal.
Qed.
Lemma key_ptr_plug h p v q : q <> p -> key_ptr (put_plug p v h) q = key_ptr h q.
Proof. intros Hn. unfold key_ptr. cbn. by rewrite lookup_insert_ne. Qed.

Lemma slice_wf_mono h h' s : (forall a xs, h_arr h !! a = Some xs -> exists ys, h_arr h' !! a = Some ys /\ (length xs <= length ys)%nat) -> slice_wf h s -> slice_wf h' s.
Proof. intros H Hs a Ha. destruct (Hs a Ha) as (xs & Hx & Hl). destruct (H a xs Hx) as (ys & Hy & Hl'). exists ys. split; [done|lia]. Qed.
Lemma plug_wf_mono h h' v : (forall a xs, h_arr h !! a = Some xs -> exists ys, h_arr h' !! a = Some ys /\ (length xs <= length ys)%nat) ->
  (forall i, is_Some (h_imp h !! i) -> is_Some (h_imp h' !! i)) -> plug_wf h v -> plug_wf h' v.
Proof. intros H1 H2 [Hs Hi]. split; [by eapply slice_wf_mono|]. intros i Hx. apply H2. by apply Hi. Qed.
Lemma mgr_wf_mono h h' m : (forall p v, h_plug h !! p = Some v -> exists v', h_plug h' !! p = Some v' /\ hp_name v' = hp_name v) -> mgr_wf h m -> mgr_wf h' m.
Proof.
  intros H [H1 H2]. split.
  - intros k p Hp. destruct (H1 k p Hp) as (v & Hv & <-). destruct (H p v Hv) as (v' & Hv' & <-). by exists v'.
  - intros p Hp. destruct (H2 p Hp) as (v & Hv & Hk). destruct (H p v Hv) as (v' & Hv' & Hn). exists v'. by rewrite Hn.
Qed.
Lemma insert_is_some {A} (m : gmap N A) (k : N) (x : A) (l : N) : is_Some (m !! l) -> is_Some (<[k := x]> m !! l).
Proof. intros H. destruct (decide (l = k)) as [->|Hn]; [rewrite lookup_insert; by eexists|by rewrite lookup_insert_ne]. Qed.

(** a store into a plugin object of this call *)
Lemma inv_put_plug h p v v' : inv h -> (base <= p)%N -> h_plug h !! p = Some v ->
  hp_name v' = hp_name v -> hp_unchanged v' = hp_unchanged v -> plug_wf h v' -> placed v' ->
  (sl_arr (hp_deps v') = sl_arr (hp_deps v) \/ forall q w a, (base <= q)%N -> h_plug h !! q = Some w -> hp_unchanged w = false -> sl_arr (hp_deps w) = Some a -> sl_arr (hp_deps v') = Some a -> False) ->
  (hp_imp v' = hp_imp v \/ forall q w a, (base <= q)%N -> h_plug h !! q = Some w -> hp_unchanged w = false -> hp_imp w = Some a -> hp_imp v' = Some a -> False) ->
  inv (put_plug p v' h).
Proof.
  intros [HW HF HC HP HL (m & Hm & [O1 O2 O3 O4 O5])] Hb Hp Hname Hun Hwf Hpl Harr Himp. pose proof (wf_plug _ HW _ _ Hp) as [Hlt _].
  assert (Hput : forall q w, h_plug (put_plug p v' h) !! q = Some w -> (q = p /\ w = v') \/ (q <> p /\ h_plug h !! q = Some w)).
  { intros q w. cbn. destruct (decide (q = p)) as [->|Hn]; [rewrite lookup_insert; intros [= <-]; by left|rewrite lookup_insert_ne by done; by right]. }
  split; [|split|done|done|apply log_cons; [done|lia]|].
  - split; cbn.
    + intros l x Hx. destruct (wf_mgr _ HW _ _ Hx) as [Hl Hw]. split; [done|]. apply (mgr_wf_mono h); [|exact Hw]. intros q w Hw2. cbn.
      destruct (decide (q = p)) as [->|Hn]; [exists v'; rewrite lookup_insert; split; [done|congruence]|exists w; by rewrite lookup_insert_ne].
    + intros l x Hx. apply Hput in Hx as [[-> ->]|[_ Hx]]; [by split|]. destruct (wf_plug _ HW _ _ Hx) as [Hl Hw]. by split.
    + apply HW.
    + apply HW.
    + apply HW.
  - apply HF.
  - intros l Hl. cbn. rewrite lookup_insert_ne by lia. by apply HF.
  - apply HF.
  - apply HF.
  - apply HF.
  - exists m. split; [done|]. split.
    + intros q w Hq Hx. apply Hput in Hx as [[-> ->]|[_ Hx]]; [done|by eapply O1].
    + intros q1 q2 w1 w2 a Hq1 Hq2 Hx1 Hx2 U1 U2 S1 S2. apply Hput in Hx1 as [[-> ->]|[Hn1 Hx1]]; apply Hput in Hx2 as [[-> ->]|[Hn2 Hx2]]; [done|..|exact (O2 _ _ _ _ _ Hq1 Hq2 Hx1 Hx2 U1 U2 S1 S2)].
      * rewrite Hun in U1. destruct Harr as [Ha|Ha]; [rewrite Ha in S1; exact (O2 _ _ _ _ _ Hb Hq2 Hp Hx2 U1 U2 S1 S2)|exfalso; exact (Ha _ _ _ Hq2 Hx2 U2 S2 S1)].
      * rewrite Hun in U2. destruct Harr as [Ha|Ha]; [rewrite Ha in S2; exact (O2 _ _ _ _ _ Hq1 Hb Hx1 Hp U1 U2 S1 S2)|exfalso; exact (Ha _ _ _ Hq1 Hx1 U1 S1 S2)].
    + intros q1 q2 w1 w2 a Hq1 Hq2 Hx1 Hx2 U1 U2 S1 S2. apply Hput in Hx1 as [[-> ->]|[Hn1 Hx1]]; apply Hput in Hx2 as [[-> ->]|[Hn2 Hx2]]; [done|..|exact (O3 _ _ _ _ _ Hq1 Hq2 Hx1 Hx2 U1 U2 S1 S2)].
      * rewrite Hun in U1. destruct Himp as [Ha|Ha]; [rewrite Ha in S1; exact (O3 _ _ _ _ _ Hb Hq2 Hp Hx2 U1 U2 S1 S2)|exfalso; exact (Ha _ _ _ Hq2 Hx2 U2 S2 S1)].
      * rewrite Hun in U2. destruct Himp as [Ha|Ha]; [rewrite Ha in S2; exact (O3 _ _ _ _ _ Hq1 Hb Hx1 Hp U1 U2 S1 S2)|exfalso; exact (Ha _ _ _ Hq1 Hx1 U1 S1 S2)].
    + intros k q Hq. destruct (O4 k q Hq) as (Hbq & w & Hw & Hk). split; [done|]. cbn. destruct (decide (q = p)) as [->|Hn].
      * exists v'. rewrite lookup_insert. split; [done|]. rewrite Hname. by simplify_eq.
      * exists w. by rewrite lookup_insert_ne.
    + intros q Hq. destruct (O5 q Hq) as (w & Hw & Hk). cbn. destruct (decide (q = p)) as [->|Hn].
      * exists v'. rewrite lookup_insert. split; [done|]. rewrite Hname. by simplify_eq.
      * exists w. by rewrite lookup_insert_ne.
Qed.
(** a new plugin object *)
Lemma inv_new_plug h v : inv h -> plug_wf h v -> placed v -> (hp_unchanged v = true \/ (sl_arr (hp_deps v) = None /\ hp_imp v = None)) ->
  inv (put_plug (h_next h) v (bump h)) /\ now (put_plug (h_next h) v (bump h)) = now h.
Proof.
  intros [HW HF HC HP HL (m & Hm & [O1 O2 O3 O4 O5])] Hwf Hpl Hown. set (p := h_next h).
  assert (Hnone : h_plug h !! p = None). { destruct (h_plug h !! p) eqn:Hx; [|done]. apply (wf_plug _ HW) in Hx as [? _]. unfold p in *. lia. }
  assert (Hput : forall q w, <[p := v]> (h_plug h) !! q = Some w -> (q = p /\ w = v) \/ (q <> p /\ h_plug h !! q = Some w)).
  { intros q w. destruct (decide (q = p)) as [->|Hn]; [rewrite lookup_insert; intros [= <-]; by left|rewrite lookup_insert_ne by done; by right]. }
  pose proof (fr_next _ _ HF) as Hle. assert (Hold : forall q, is_Some (h_plug h !! q) -> q <> p) by (intros q [x Hx] ->; by rewrite Hnone in Hx).
  split; [split; [|split|done|done|apply log_cons; [done|unfold p; lia]|]|].
  - split; cbn.
    + intros l x Hx. destruct (wf_mgr _ HW _ _ Hx) as [Hl Hw]. split; [lia|]. apply (mgr_wf_mono h); [|exact Hw]. intros q w Hw2. cbn.
      exists w. rewrite lookup_insert_ne; [done|]. apply not_eq_sym, Hold. by eexists.
    + intros l x Hx. apply Hput in Hx as [[-> ->]|[_ Hx]]; [split; [unfold p; lia|done]|]. destruct (wf_plug _ HW _ _ Hx) as [Hl Hw]. split; [lia|done].
    + intros l x Hx. apply (wf_arr _ HW) in Hx. lia.
    + intros l x Hx. apply (wf_imp _ HW) in Hx. lia.
    + apply HW.
  - cbn. lia.
  - intros l Hl. cbn. rewrite lookup_insert_ne by (unfold p; lia). by apply HF.
  - apply HF.
  - apply HF.
  - apply HF.
  - exists m. split; [done|]. split.
    + intros q w Hq Hx. apply Hput in Hx as [[-> ->]|[_ Hx]]; [done|by eapply O1].
    + intros q1 q2 w1 w2 a Hq1 Hq2 Hx1 Hx2 U1 U2 S1 S2. apply Hput in Hx1 as [[-> ->]|[Hn1 Hx1]]; apply Hput in Hx2 as [[-> ->]|[Hn2 Hx2]]; [done|..|exact (O2 _ _ _ _ _ Hq1 Hq2 Hx1 Hx2 U1 U2 S1 S2)];
        destruct Hown as [Hu|[Ha Hi]]; congruence.
    + intros q1 q2 w1 w2 a Hq1 Hq2 Hx1 Hx2 U1 U2 S1 S2. apply Hput in Hx1 as [[-> ->]|[Hn1 Hx1]]; apply Hput in Hx2 as [[-> ->]|[Hn2 Hx2]]; [done|..|exact (O3 _ _ _ _ _ Hq1 Hq2 Hx1 Hx2 U1 U2 S1 S2)];
        destruct Hown as [Hu|[Ha Hi]]; congruence.
    + intros k q Hq. destruct (O4 k q Hq) as (Hbq & w & Hw & Hk). split; [done|]. exists w. cbn. rewrite lookup_insert_ne; [done|]. apply not_eq_sym, Hold. by eexists.
    + intros q Hq. destruct (O5 q Hq) as (w & Hw & Hk). exists w. cbn. rewrite lookup_insert_ne; [done|]. apply not_eq_sym, Hold. by eexists.
  - unfold now, view. cbn. rewrite Hm. cbn. apply view_mgr_eq.
    + intros k q Hq. destruct (O4 k q Hq) as (_ & w & Hw & _). apply (view_ptr_plug (bump h)). apply Hold. by eexists.
    + intros q Hq. destruct (O5 q Hq) as (w & Hw & _). apply (key_ptr_plug (bump h)). apply Hold. by eexists.
Qed.
(** arrays and import objects *)
Lemma inv_put_arr h a xs ys : inv h -> (base <= a)%N -> h_arr h !! a = Some xs -> (length xs <= length ys)%nat -> inv (put_arr a ys h).
Proof.
  intros [HW HF HC HP HL (m & Hm & [O1 O2 O3 O4 O5])] Hb Ha Hlen. pose proof (wf_arr _ HW _ _ Ha) as Hlt.
  assert (Hmono : forall b zs, h_arr h !! b = Some zs -> exists ws, h_arr (put_arr a ys h) !! b = Some ws /\ (length zs <= length ws)%nat).
  { intros b zs Hz. cbn. destruct (decide (b = a)) as [->|Hn]; [rewrite lookup_insert; exists ys; split; [done|]; by simplify_eq|rewrite lookup_insert_ne by done; by exists zs]. }
  split; [|split|done|done|apply log_cons; [done|lia]|].
  - split; cbn.
    + apply HW.
    + intros l x Hx. destruct (wf_plug _ HW _ _ Hx) as [Hl Hw]. split; [done|]. apply (plug_wf_mono h); [exact Hmono|by intros|exact Hw].
    + intros l x Hx. destruct (decide (l = a)) as [->|Hn]; [done|]. rewrite lookup_insert_ne in Hx by done. by eapply wf_arr.
    + apply HW.
    + apply HW.
  - apply HF.
  - apply HF.
  - intros l Hl. cbn. rewrite lookup_insert_ne by lia. by apply HF.
  - apply HF.
  - apply HF.
  - exists m. split; [done|]. by split.
Qed.
Lemma inv_new_arr h xs : inv h -> inv (put_arr (h_next h) xs (bump h)) /\ h_arr h !! h_next h = None.
Proof.
  intros [HW HF HC HP HL (m & Hm & [O1 O2 O3 O4 O5])].
  assert (Hnone : h_arr h !! h_next h = None). { destruct (h_arr h !! h_next h) eqn:Hx; [|done]. apply (wf_arr _ HW) in Hx. lia. }
  assert (Hmono : forall b zs, h_arr h !! b = Some zs -> exists ws, h_arr (put_arr (h_next h) xs (bump h)) !! b = Some ws /\ (length zs <= length ws)%nat).
  { intros b zs Hz. cbn. rewrite lookup_insert_ne by (intros <-; by rewrite Hnone in Hz). by exists zs. }
  pose proof (fr_next _ _ HF) as Hle. split; [|done].
  split; [|split|done|done|apply log_cons; [done|lia]|].
  - split; cbn.
    + intros l x Hx. destruct (wf_mgr _ HW _ _ Hx) as [Hl Hw]. split; [lia|done].
    + intros l x Hx. destruct (wf_plug _ HW _ _ Hx) as [Hl Hw]. split; [lia|]. apply (plug_wf_mono h); [exact Hmono|by intros|exact Hw].
    + intros l x Hx. destruct (decide (l = h_next h)) as [->|Hn]; [lia|]. rewrite lookup_insert_ne in Hx by done. apply (wf_arr _ HW) in Hx. lia.
    + intros l x Hx. apply (wf_imp _ HW) in Hx. lia.
    + apply HW.
  - cbn. lia.
  - apply HF.
  - intros l Hl. cbn. rewrite lookup_insert_ne by lia. by apply HF.
  - apply HF.
  - apply HF.
  - exists m. split; [done|]. by split.
Qed.
Lemma inv_put_imp h a ys : inv h -> (base <= a)%N -> is_Some (h_imp h !! a) -> inv (put_imp a ys h).
Proof.
  intros [HW HF HC HP HL (m & Hm & [O1 O2 O3 O4 O5])] Hb [x0 Ha]. pose proof (wf_imp _ HW _ _ Ha) as Hlt.
  split; [|split|done|done|apply log_cons; [done|lia]|].
  - split; cbn.
    + apply HW.
    + intros l x Hx. destruct (wf_plug _ HW _ _ Hx) as [Hl Hw]. split; [done|]. apply (plug_wf_mono h); [by eauto|intros i Hi0; cbn; by apply insert_is_some|exact Hw].
    + apply HW.
    + intros l x Hx. destruct (decide (l = a)) as [->|Hn]; [done|]. rewrite lookup_insert_ne in Hx by done. by eapply wf_imp.
    + apply HW.
  - apply HF.
  - apply HF.
  - apply HF.
  - intros l Hl. cbn. rewrite lookup_insert_ne by lia. by apply HF.
  - apply HF.
  - exists m. split; [done|]. by split.
Qed.
Lemma inv_new_imp h : inv h -> inv (put_imp (h_next h) [] (bump h)) /\ h_imp h !! h_next h = None.
Proof.
  intros [HW HF HC HP HL (m & Hm & [O1 O2 O3 O4 O5])].
  assert (Hnone : h_imp h !! h_next h = None). { destruct (h_imp h !! h_next h) eqn:Hx; [|done]. apply (wf_imp _ HW) in Hx. lia. }
  pose proof (fr_next _ _ HF) as Hle. split; [|done].
  split; [|split|done|done|apply log_cons; [done|lia]|].
  - split; cbn.
    + intros l x Hx. destruct (wf_mgr _ HW _ _ Hx) as [Hl Hw]. split; [lia|done].
    + intros l x Hx. destruct (wf_plug _ HW _ _ Hx) as [Hl Hw]. split; [lia|]. apply (plug_wf_mono h); [by eauto|intros i Hi0; cbn; by apply insert_is_some|exact Hw].
    + intros l x Hx. apply (wf_arr _ HW) in Hx. lia.
    + intros l x Hx. destruct (decide (l = h_next h)) as [->|Hn]; [lia|]. rewrite lookup_insert_ne in Hx by done. apply (wf_imp _ HW) in Hx. lia.
    + apply HW.
  - cbn. lia.
  - apply HF.
  - apply HF.
  - intros l Hl. cbn. rewrite lookup_insert_ne by lia. by apply HF.
  - apply HF.
  - exists m. split; [done|]. by split.
Qed.
(** a store into the manager under construction *)
Lemma inv_put_mgr h m m' : inv h -> h_mgr h !! pm = Some m -> (own h m -> own h m') -> inv (put_mgr pm m' h).
Proof.
  intros [HW HF HC HP HL (m1 & Hm & HO)] Hm' Ho. simplify_eq. specialize (Ho HO). pose proof (wf_mgr _ HW _ _ Hm) as [Hlt _].
  split; [|split|done|done|apply log_cons; [done|lia]|].
  - split; cbn.
    + intros l x Hx. destruct (decide (l = pm)) as [->|Hn].
      * rewrite lookup_insert in Hx. injection Hx as <-. split; [done|]. destruct Ho as [_ _ _ O4 O5].
        split; [intros k p Hp; by destruct (O4 k p Hp) as (_ & Hv)|intros p Hp; exact (O5 p Hp)].
      * rewrite lookup_insert_ne in Hx by done. apply (wf_mgr _ HW _ _ Hx).
    + apply HW.
    + apply HW.
    + apply HW.
    + intros l Hl. apply insert_is_some. by apply HW.
  - apply HF.
  - apply HF.
  - apply HF.
  - apply HF.
  - intros l Hl. cbn. rewrite lookup_insert_ne by lia. by apply HF.
  - exists m'. cbn. rewrite lookup_insert. split; [done|]. destruct Ho as [O1 O2 O3 O4 O5]. by split.
Qed.
Lemma own_same h m m' : hm_map m' = hm_map m -> hm_ordered m' = hm_ordered m -> own h m -> own h m'.
Proof. intros H1 H2 [O1 O2 O3 O4 O5]. split; [done..|by rewrite H1|by rewrite H1, H2]. Qed.

(** what changes in the manager when one plugin object changes *)
Lemma now_same h h' m : h_mgr h !! pm = Some m -> h_mgr h' !! pm = Some m -> (forall k q, hm_map m !! k = Some q -> view_ptr h' q = view_ptr h q) ->
  (forall q, q ∈ hm_ordered m -> key_ptr h' q = key_ptr h q) -> now h' = now h.
Proof. intros H1 H2 H3 H4. rewrite (now_mgr h m H1), (now_mgr h' m H2). by apply view_mgr_eq. Qed.
Lemma now_change h h' m k p x : h_mgr h !! pm = Some m -> h_mgr h' !! pm = Some m -> hm_map m !! k = Some p ->
  (forall k' q, hm_map m !! k' = Some q -> k' <> k -> view_ptr h' q = view_ptr h q) -> (forall q, q ∈ hm_ordered m -> key_ptr h' q = key_ptr h q) ->
  view_ptr h' p = Some x -> now h' = upd_map <[k := x]> (now h).
Proof.
  intros H1 H2 Hk Hq Ho Hx. rewrite (now_mgr h m H1), (now_mgr h' m H2). unfold view_mgr, upd_map. cbn. f_equal; [|by apply omap_ext_in].
  apply map_eq. intros k'. rewrite lookup_omap. destruct (decide (k' = k)) as [->|Hn].
  - rewrite lookup_insert, Hk. exact Hx.
  - rewrite lookup_insert_ne by done. rewrite lookup_omap. destruct (hm_map m !! k') as [q|] eqn:Hl; [|done]. cbn. by eapply Hq.
Qed.

Lemma take_insert_snoc {A} (xs : list A) n d : (n < length xs)%nat -> take (S n) (<[n := d]> xs) = take n xs ++ [d].
Proof.
  revert n. induction xs as [|x xs IH]; intros n Hn; [simpl in Hn; lia|]. destruct n as [|n]; [done|]. simpl. f_equal. apply IH. simpl in Hn. lia.
Qed.
Lemma hadd_dep_spec h m k p v d : inv h -> h_mgr h !! pm = Some m -> hm_map m !! k = Some p -> h_plug h !! p = Some v -> hp_unchanged v = false ->
  exists h', hadd_dep p d h = Ret (h', Val tt) /\ inv h' /\  h_mgr h' !! pm = Some m /\
  (exists s, h_plug h' = <[p := hp_set_deps s v]> (h_plug h)) /\
  now h' = upd_map <[k := add_dep d (view_plugin h v)]> (now h).
Proof.
  intros HI Hm Hk Hp Hu. pose proof HI as [HW HF HC HP HL (m1 & Hm1 & HO)]. simplify_eq. pose proof HO as [O1 O2 O3 O4 O5].
  destruct (O4 k p Hk) as (Hb & v1 & Hv1 & Hkey). simplify_eq. pose proof (wf_plug _ HW _ _ Hp) as [Hlt [Hs Hi]].
  pose proof (O1 p v Hb Hp) as Hpl. unfold placed in Hpl. rewrite Hu in Hpl. destruct Hpl as [Hpa Hpi].
  unfold hadd_dep, hbind, get_plug. rewrite Hp. cbn [bind fst snd].
  (* the new slice lives in [h2], where only arrays have changed *)
  assert (Hgen : forall h' h2 s2, inv h2 -> h_plug h2 = h_plug h -> h_mgr h2 = h_mgr h -> h_imp h2 = h_imp h ->
    (exists b, sl_arr s2 = Some b /\ (base <= b)%N /\ (sl_arr (hp_deps v) = Some b \/ h_arr h !! b = None)) -> slice_wf h2 s2 ->
    (forall q w a, (q <> p) -> h_plug h !! q = Some w -> (hp_unchanged w = true -> (base <= q)%N -> True) -> sl_arr (hp_deps w) = Some a -> (exists k', hm_map m !! k' = Some q) -> h_arr h2 !! a = h_arr h !! a) ->
    slice_view h2 s2 = slice_view h (hp_deps v) ++ [d] ->
    h' = put_plug p (hp_set_deps s2 v) h2 -> inv h' /\ h_mgr h' !! pm = Some m /\
      (exists s, h_plug h' = <[p := hp_set_deps s v]> (h_plug h)) /\
      now h' = upd_map <[name2key (hp_name v) := add_dep d (view_plugin h v)]> (now h)).
  { intros h' h2 s2 HI2 E1 E2 E3 (b & Hb2 & Hbb & Hbo) Hws Hoth Hview ->. assert (Hp2 : h_plug h2 !! p = Some v) by (by rewrite E1).
    split_and!.
    - eapply inv_put_plug; [exact HI2|exact Hb|exact Hp2|done|done| | |  |by left].
      + split; [done|]. cbn. intros i Hx. rewrite E3. by apply Hi.
      + unfold placed. cbn. rewrite Hu. split; [|done]. intros a Ha. by simplify_eq.
      + cbn. destruct Hbo as [Hbo|Hbo]; [left; by rewrite Hb2, Hbo|]. right. intros q w a Hq Hw _ Ha Ha2. rewrite E1 in Hw.
        destruct (wf_plug _ HW _ _ Hw) as [_ [Hsw _]]. destruct (Hsw a Ha) as (xs & Hxs & _). rewrite Hb2 in Ha2. injection Ha2 as <-. by rewrite Hbo in Hxs.
    - cbn. by rewrite E2.
    - exists s2. cbn. by rewrite E1.
    - eapply now_change; [exact Hm|cbn; by rewrite E2|exact Hk| | |].
      + intros k' q Hq Hn. assert (Hqp : q <> p). { intros ->. destruct (O4 k' p Hq) as (_ & w & Hw & Hkw). by simplify_eq. }
        rewrite view_ptr_plug by done. unfold view_ptr. rewrite E1. destruct (h_plug h !! q) as [w|] eqn:Hw; [|done]. cbn. f_equal. apply view_plugin_eq.
        * intros a Ha. eapply (Hoth q w a); [done|done|done|done|by exists k'].
        * by rewrite E3.
      + intros q Hq. destruct (decide (q = p)) as [->|Hn]; [unfold key_ptr; cbn; by rewrite lookup_insert, Hp|].
        rewrite key_ptr_plug by done. unfold key_ptr. by rewrite E1.
      + unfold view_ptr. cbn. rewrite lookup_insert. cbn. f_equal. unfold view_plugin, add_dep. cbn.
        replace (slice_view (put_plug p (hp_set_deps s2 v) h2) s2) with (slice_view h2 s2) by done. rewrite Hview. f_equal.
        apply import_view_eq. intros a _. cbn. by rewrite E3. }
  unfold slice_append. destruct (sl_arr (hp_deps v)) as [a|] eqn:Ha.
  - destruct (Hs a Ha) as (xs & Hxs & Hlen). rewrite Hxs.
    change (default [] (Some xs)) with xs. cbv zeta. destruct (Nat.ltb_spec (sl_len (hp_deps v)) (length xs)) as [Hlt2|Hge]; cbn [bind fst snd].
    + unfold set_plug. cbn [h_plug put_arr]. rewrite Hp.
      eexists. split; [done|]. eapply (Hgen _ (put_arr a (<[sl_len (hp_deps v) := d]> xs) h) (mkSlice (Some a) (S (sl_len (hp_deps v))))); [|done..| | | | |reflexivity].
      * eapply inv_put_arr; [exact HI|by apply Hpa|exact Hxs|]. by rewrite insert_length.
      * exists a. cbn. split; [done|]. split; [by apply Hpa|by left].
      * intros b [= <-]. cbn. rewrite lookup_insert. eexists. split; [done|]. rewrite insert_length. lia.
      * intros q w b Hn Hw _ Hbw (k' & Hk'). cbn. rewrite lookup_insert_ne; [done|]. intros <-. destruct (O4 k' q Hk') as (Hqb & _).
        destruct (hp_unchanged w) eqn:Huw.
        -- pose proof (O1 q w Hqb Hw) as Hplw. unfold placed in Hplw. rewrite Huw in Hplw. destruct Hplw as [Hplw _]. specialize (Hplw a Hbw). specialize (Hpa a eq_refl). lia.
        -- apply Hn. exact (O2 _ _ _ _ _ Hqb Hb Hw Hp Huw Hu Hbw Ha).
      * unfold slice_view. cbn. rewrite lookup_insert, Ha, Hxs. cbn [default]. change (default [] (Some (<[sl_len (hp_deps v):=d]> xs))) with (<[sl_len (hp_deps v):=d]> xs).
        change (default [] (Some xs)) with xs. by apply take_insert_snoc.
    + unfold hbind, new_arr, hret. cbn [bind fst snd]. unfold set_plug. cbn [h_plug put_plug put_arr bump]. rewrite Hp.
      destruct (inv_new_arr h (take (sl_len (hp_deps v)) xs ++ d :: replicate (grow (sl_len (hp_deps v))) "") HI) as [HI2 Hnone].
      pose proof (fr_next _ _ HF) as Hle. assert (Hlt3 : length (take (sl_len (hp_deps v)) xs) = sl_len (hp_deps v)) by (rewrite take_length; lia).
      eexists. split; [done|]. eapply (Hgen _ (put_arr (h_next h) (take (sl_len (hp_deps v)) xs ++ d :: replicate (grow (sl_len (hp_deps v))) EmptyString) (bump h)) (mkSlice (Some (h_next h)) (S (sl_len (hp_deps v))))); [exact HI2|done..| | | | |reflexivity].
      * exists (h_next h). cbn. split; [done|]. split; [lia|by right].
      * intros b [= <-]. cbn. rewrite lookup_insert. eexists. split; [done|]. rewrite app_length. cbn [length]. lia.
      * intros q w b Hn Hw _ Hbw _. cbn. rewrite lookup_insert_ne; [done|]. intros <-. destruct (wf_plug _ HW _ _ Hw) as [_ [Hsw _]]. destruct (Hsw _ Hbw) as (zs & Hz & _). by rewrite Hnone in Hz.
      * unfold slice_view. cbn. rewrite lookup_insert, Ha, Hxs. cbn [default from_option id].
        replace (S (sl_len (hp_deps v))) with (length (take (sl_len (hp_deps v)) xs ++ [d])) by (rewrite app_length, Hlt3; cbn; lia).
        replace (take (sl_len (hp_deps v)) xs ++ d :: replicate (grow (sl_len (hp_deps v))) "") with ((take (sl_len (hp_deps v)) xs ++ [d]) ++ replicate (grow (sl_len (hp_deps v))) "") by (by rewrite <- app_assoc).
        by rewrite take_app.
  - unfold hbind, new_arr, hret. cbn [bind fst snd]. unfold set_plug. cbn [h_plug put_plug put_arr bump]. rewrite Hp.
    destruct (inv_new_arr h (d :: replicate (grow 0) "") HI) as [HI2 Hnone]. pose proof (fr_next _ _ HF) as Hle.
    eexists. split; [done|]. eapply (Hgen _ (put_arr (h_next h) (d :: replicate (grow 0) EmptyString) (bump h)) (mkSlice (Some (h_next h)) 1)); [exact HI2|done..| | | | |reflexivity].
    * exists (h_next h). cbn. split; [done|]. split; [lia|by right].
    * intros b [= <-]. cbn. rewrite lookup_insert. eexists. split; [done|]. cbn. lia.
    * intros q w b Hn Hw _ Hbw _. cbn. rewrite lookup_insert_ne; [done|]. intros <-. destruct (wf_plug _ HW _ _ Hw) as [_ [Hsw _]]. destruct (Hsw _ Hbw) as (zs & Hz & _). by rewrite Hnone in Hz.
    * unfold slice_view. cbn. rewrite lookup_insert, Ha. cbn. by rewrite take_0.
Qed.
End Proofs.
