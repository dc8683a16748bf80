(** The pointer program of HeapModel.v does what the program with values does. *)
From Verif Require Export HeapProofs.

(** ** Two programs that perform the same actions *)
(** [Q] relates the results; Current() answers [cur].  Iterations over the same keys may list them differently. *)
Inductive rel (cur : option mgr) {A B} (Q : A -> B -> Prop) : prog A -> prog B -> Prop :=
  | rel_ret a b : Q a b -> rel cur Q (Ret a) (Ret b)
  | rel_act X (a : act X) k k' : (forall x, valid a x -> rel cur Q (k x) (k' x)) -> rel cur Q (Act a k) (Act a k')
  | rel_iter l l' k k' : Permutation l l' -> (forall x, Permutation x l -> rel cur Q (k x) (k' x)) -> rel cur Q (Act (AIter l) k) (Act (AIter l') k')
  | rel_cur k k' : rel cur Q (k cur) (k' cur) -> rel cur Q (Act ALoadCurrent k) (Act ALoadCurrent k').

Section Rel.
Context (cur : option mgr).
Lemma rel_sound {A B} (Q : A -> B -> Prop) p p' : rel cur Q p p' -> forall t r, exec p t r -> (forall x, saw_current t x -> x = cur) -> exists r', exec p' t r' /\ Q r r'.
Proof.
  induction 1 as [a b HQ|X a k k' _ IH|l l' k k' Hl _ IH|k k' _ IH]; intros t r H Hc.
  - destruct H as [-> ->]. exists b. by split.
  - destruct H as (x & t' & Hv & -> & H). destruct (IH x Hv t' r H) as (r' & H' & HQ).
    { intros y Hy. apply Hc. unfold saw_current. apply elem_of_app. by right. }
    exists r'. split; [|done]. by exists x, t'.
  - destruct H as (x & t' & Hv & -> & H). destruct (IH x Hv t' r H Hc) as (r' & H' & HQ). exists r'. split; [|done]. exists x, t'. split; [|done].
    cbn in Hv |- *. by transitivity l.
  - destruct H as (x & t' & Hv & -> & H). assert (x = cur) as -> by (apply Hc; left). destruct (IH t' r H) as (r' & H' & HQ).
    { intros y Hy. apply Hc. by right. }
    exists r'. split; [|done]. by exists cur, t'.
Qed.
Lemma rel_complete {A B} (Q : A -> B -> Prop) p p' : rel cur Q p p' -> forall t r', exec p' t r' -> (forall x, saw_current t x -> x = cur) -> exists r, exec p t r /\ Q r r'.
Proof.
  induction 1 as [a b HQ|X a k k' _ IH|l l' k k' Hl _ IH|k k' _ IH]; intros t r H Hc.
  - destruct H as [-> ->]. exists a. by split.
  - destruct H as (x & t' & Hv & -> & H). destruct (IH x Hv t' r H) as (r' & H' & HQ).
    { intros y Hy. apply Hc. unfold saw_current. apply elem_of_app. by right. }
    exists r'. split; [|done]. by exists x, t'.
  - destruct H as (x & t' & Hv & -> & H). cbn in Hv. assert (Hv' : Permutation x l) by (by transitivity l').
    destruct (IH x Hv' t' r H Hc) as (r' & H' & HQ). exists r'. split; [|done]. by exists x, t'.
  - destruct H as (x & t' & Hv & -> & H). assert (x = cur) as -> by (apply Hc; left). destruct (IH t' r H) as (r' & H' & HQ).
    { intros y Hy. apply Hc. by right. }
    exists r'. split; [|done]. by exists cur, t'.
Qed.
Lemma rel_bind {A B A' B'} (Q : A -> B -> Prop) (Q' : A' -> B' -> Prop) p p' f f' :
  rel cur Q p p' -> (forall a b, Q a b -> rel cur Q' (f a) (f' b)) -> rel cur Q' (bind p f) (bind p' f').
Proof.
  intros H Hf. induction H as [a b HQ|X a k k' _ IH|l l' k k' Hl _ IH|k k' _ IH]; cbn [bind].
  - by apply Hf.
  - by apply rel_act.
  - by apply rel_iter.
  - by apply rel_cur.
Qed.
Lemma rel_mono {A B} (Q Q' : A -> B -> Prop) p p' : rel cur Q p p' -> (forall a b, Q a b -> Q' a b) -> rel cur Q' p p'.
Proof.
  intros H Hf. induction H as [a b HQ|X a k k' _ IH|l l' k k' Hl _ IH|k k' _ IH].
  - apply rel_ret. by apply Hf.
  - by apply rel_act.
  - by apply rel_iter.
  - by apply rel_cur.
Qed.
Lemma rel_refl {A} (p : prog A) : rel cur eq p p.
Proof. induction p as [a|X a k IH]; [by apply rel_ret|]. apply rel_act. intros x _. apply IH. Qed.
End Rel.

Section Sim.
Context {E : GoEnv} {HE : HeapEnv} (h0 : heap) (pm : loc) (cur : option mgr).
Notation base := (h_next h0).
Notation inv := (inv h0 pm).
Notation now := (now pm).

Definition good (J : heap -> Prop) {A} (x : heap * outcome A) (y : mgr * outcome A) : Prop :=
  snd x = snd y /\ fst y = now (fst x) /\ inv (fst x) /\ (is_val (snd x) -> J (fst x)).
(** From heap [h] the pointer computation [mh] does what [m] does from the manager's value; afterwards [J]. *)
Definition sim (J : heap -> Prop) (h : heap) {A} (mh : HM A) (m : SM A) : Prop := rel cur (good J) (mh h) (m (now h)).

Lemma sim_bind {A B} J J' h (mh : HM A) m (f : A -> HM B) g : sim J h mh m ->
  (forall a h', inv h' -> J h' -> sim J' h' (f a) (g a)) -> sim J' h (hbind mh f) (sbind m g).
Proof.
  intros H Hf. unfold sim, hbind, sbind. eapply rel_bind; [exact H|]. intros [h1 o1] [s1 o2] (He & Hs & Hi & Hj). cbn in He, Hs, Hi, Hj |- *. subst.
  destruct o2 as [a|e|x]; [apply Hf; [done|by apply Hj]|..]; apply rel_ret; by split_and!.
Qed.
Lemma sim_mono {A} (J J' : heap -> Prop) h (mh : HM A) m : sim J h mh m -> (forall h', inv h' -> J h' -> J' h') -> sim J' h mh m.
Proof. intros H HJ. unfold sim. eapply rel_mono; [exact H|]. intros a b (H1 & H2 & H3 & H4). split_and!; [done..|]. intros Hv. apply HJ; [done|by apply H4]. Qed.
Lemma sim_ret {A} (J : heap -> Prop) h (a : A) : inv h -> J h -> sim J h (hret a) (sret a).
Proof. intros. apply rel_ret. by split_and!. Qed.
Lemma sim_err {A} (J : heap -> Prop) h e : inv h -> sim J h (herr (A := A) e) (serr e).
Proof. intros. apply rel_ret. by split_and!. Qed.
Lemma sim_pan {A} (J : heap -> Prop) h x : inv h -> sim J h (hpan (A := A) x) (span x).
Proof. intros. apply rel_ret. by split_and!. Qed.
Lemma sim_do {X B} (J' : heap -> Prop) h (a : act X) (f : X -> HM B) g : (forall x, valid a x -> sim J' h (f x) (g x)) -> sim J' h (hbind (hdo a) f) (sbind (sdo a) g).
Proof. intros H. unfold sim, hbind, hdo, sbind, sdo. cbn [bind fst snd]. by apply rel_act. Qed.
Lemma sim_iter {B} (J' : heap -> Prop) h l l' (f : list string -> HM B) g : Permutation l l' -> (forall x, Permutation x l -> sim J' h (f x) (g x)) ->
  sim J' h (hbind (hdo (AIter l)) f) (sbind (sdo (AIter l')) g).
Proof. intros Hl H. unfold sim, hbind, hdo, sbind, sdo. cbn [bind fst snd]. by apply rel_iter. Qed.
Lemma sim_lift {A B} (J' : heap -> Prop) h (p : prog (outcome A)) (f : A -> HM B) g : inv h -> (forall a, sim J' h (f a) (g a)) -> sim J' h (hbind (hlift p) f) (sbind (slift p) g).
Proof.
  intros Hi H. apply (sim_bind (fun h' => h' = h)); [|by intros a h' _ ->].
  unfold sim, hlift, slift. eapply rel_bind; [apply rel_refl|]. intros o o' <-. apply rel_ret. by split_and!.
Qed.
Lemma sim_for {A} (J : heap -> Prop) l h (body : A -> HM unit) body' : inv h -> J h -> (forall x h', x ∈ l -> inv h' -> J h' -> sim J h' (body x) (body' x)) ->
  sim J h (hfor l body) (sfor l body').
Proof.
  revert h. induction l as [|x l IH]; intros h Hi Hj Hb; cbn [hfor sfor]; [by apply sim_ret|].
  apply (sim_bind J); [apply Hb; [left|done..]|]. intros _ h' Hi' Hj'. apply IH; [done..|]. intros y h2 Hy. apply Hb. by right.
Qed.
Lemma sim_for2 {A B} (R : A -> B -> Prop) (J : heap -> Prop) l l' h (body : A -> HM unit) body' : Forall2 R l l' -> inv h -> J h -> (forall x y h', R x y -> inv h' -> J h' -> sim J h' (body x) (body' y)) ->
  sim J h (hfor l body) (sfor l' body').
Proof.
  intros HR. revert h. induction HR as [|x y l l' Hx _ IH]; intros h Hi Hj Hb; cbn [hfor sfor]; [by apply sim_ret|].
  apply (sim_bind J); [by apply Hb|]. intros _ h' Hi' Hj'. by apply IH.
Qed.

(** ** Reading *)
Lemma hbind_get_mgr {B} h l m (f : hmgr -> HM B) : h_mgr h !! l = Some m -> hbind (get_mgr l) f h = f m h.
Proof. intros H. unfold hbind, get_mgr. by rewrite H. Qed.
Lemma hbind_get_plug {B} h p v (f : hplugin -> HM B) : h_plug h !! p = Some v -> hbind (get_plug p) f h = f v h.
Proof. intros H. unfold hbind, get_plug. by rewrite H. Qed.
Lemma hbind_see_plug {B} h p v (f : plugin -> HM B) : h_plug h !! p = Some v -> hbind (see_plug p) f h = f (view_plugin h v) h.
Proof. intros H. unfold hbind, see_plug. by rewrite H. Qed.
Lemma hbind_see_mgr {B} h l m (f : mgr -> HM B) : h_mgr h !! l = Some m -> hbind (see_mgr l) f h = f (view_mgr h m) h.
Proof. intros H. unfold hbind, see_mgr. by rewrite H. Qed.
Lemma hbind_set_plug {B} h p v g (f : unit -> HM B) : h_plug h !! p = Some v -> hbind (set_plug p g) f h = f tt (put_plug p (g v) h).
Proof. intros H. unfold hbind, set_plug. by rewrite H. Qed.
Lemma hbind_new_plug {B} h v (f : loc -> HM B) : hbind (new_plug v) f h = f (h_next h) (put_plug (h_next h) v (bump h)).
Proof. done. Qed.
Lemma hbind_ret {A B} h (a : A) (f : A -> HM B) : hbind (hret a) f h = f a h.
Proof. done. Qed.

Lemma inv_mgr h : inv h -> exists m, h_mgr h !! pm = Some m /\ own h0 h m.
Proof. intros HI. apply HI. Qed.
Lemma look h m k : inv h -> h_mgr h !! pm = Some m ->
  (hm_map m !! k = None /\ pm_map (now h) !! k = None) \/
  (exists p v, hm_map m !! k = Some p /\ h_plug h !! p = Some v /\ pm_map (now h) !! k = Some (view_plugin h v) /\ (base <= p)%N /\ name2key (hp_name v) = k).
Proof.
  intros HI Hm. destruct (inv_mgr h HI) as (m1 & Hm1 & HO). simplify_eq. rewrite (now_mgr pm h m Hm). cbn. rewrite lookup_omap.
  destruct (hm_map m !! k) as [p|] eqn:Hk; [|by left]. right. destruct (ow_map _ _ _ HO k p Hk) as (Hb & v & Hv & Hn). exists p, v. split_and!; [done..| |done|done].
  cbn. unfold view_ptr. by rewrite Hv.
Qed.
Lemma now_dom h m k : inv h -> h_mgr h !! pm = Some m -> is_Some (hm_map m !! k) <-> is_Some (pm_map (now h) !! k).
Proof.
  intros HI Hm. destruct (look h m k HI Hm) as [[-> ->]|(p & v & -> & _ & -> & _)]; split; intros [x Hx]; try done; by eexists.
Qed.
Lemma map_keys_perm {A B} (a : gmap string A) (b : gmap string B) : (forall k, is_Some (a !! k) <-> is_Some (b !! k)) -> Permutation (map_keys a) (map_keys b).
Proof.
  intros H. assert (Hin : forall C (c : gmap string C) k, k ∈ map_keys c <-> is_Some (c !! k)).
  { intros C c k. unfold map_keys. change (map fst (map_to_list c)) with ((map_to_list c).*1). rewrite elem_of_list_fmap. split.
    - intros ([k' x] & -> & Hx). apply elem_of_map_to_list in Hx. by eexists.
    - intros [x Hx]. exists (k, x). split; [done|]. by apply elem_of_map_to_list. }
  apply NoDup_Permutation; [apply NoDup_fst_map_to_list..|]. intros k. rewrite !Hin. apply H.
Qed.
Lemma now_keys h m : inv h -> h_mgr h !! pm = Some m -> Permutation (map_keys (hm_map m)) (map_keys (pm_map (now h))).
Proof. intros HI Hm. apply map_keys_perm. intros k. by apply now_dom. Qed.
Lemma now_size h m : inv h -> h_mgr h !! pm = Some m -> size (hm_map m) = size (pm_map (now h)).
Proof.
  intros HI Hm. pose proof (now_keys h m HI Hm) as HP. apply Permutation_length in HP. unfold map_keys in HP. rewrite !map_length in HP. exact HP.
Qed.
Lemma now_id h m : h_mgr h !! pm = Some m -> pm_id (now h) = hm_id m.
Proof. intros H. by rewrite (now_mgr pm h m H). Qed.

(** ** The manager object under construction *)
Lemma sim_set_mgr (J : heap -> Prop) h m g g' : inv h -> h_mgr h !! pm = Some m -> (own h0 h m -> own h0 h (g m)) ->
  view_mgr h (g m) = g' (view_mgr h m) -> (inv (put_mgr pm (g m) h) -> J (put_mgr pm (g m) h)) -> sim J h (set_mgr pm g) (smod g').
Proof.
  intros HI Hm Ho Hv HJ. unfold sim, set_mgr, smod. rewrite Hm. apply rel_ret. pose proof (inv_put_mgr h0 pm h m (g m) HI Hm Ho) as HI'. split_and!; [done| |done|].
  - cbn. rewrite (now_mgr pm h m Hm), <- Hv. symmetry. apply (now_mgr pm (put_mgr pm (g m) h)). cbn. by rewrite lookup_insert.
  - intros _. by apply HJ.
Qed.
End Sim.
