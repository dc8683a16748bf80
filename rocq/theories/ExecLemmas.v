(** Generic facts about programs and [exec]. *)
From Verif Require Export Prog.

Lemma exec_bind {A B} (p : prog A) (f : A -> prog B) t r :
  exec (bind p f) t r <-> exists t1 t2 a, t = t1 ++ t2 /\ exec p t1 a /\ exec (f a) t2 r.
Proof.
  revert t; induction p as [a|X a k IH]; intros t; simpl.
  - split.
    + intros H; exists [], t, a; auto.
    + intros (t1 & t2 & a' & -> & [-> ->] & H); done.
  - split.
    + intros (x & t' & Hv & -> & H). apply IH in H as (t1 & t2 & a' & -> & H1 & H2).
      exists (ev a x ++ t1), t2, a'. rewrite app_assoc. split_and!; [done| |done].
      exists x, t1; auto.
    + intros (t1 & t2 & a' & -> & (x & t' & Hv & -> & H1) & H2).
      exists x, (t' ++ t2). rewrite app_assoc. split_and!; [done..|].
      apply IH. exists t', t2, a'; auto.
Qed.

Lemma exec_ret {A} (a : A) t r : exec (Ret a) t r <-> t = [] /\ r = a.
Proof. done. Qed.
Lemma exec_act {A X} (a : act X) (k : X -> prog A) t r :
  exec (Act a k) t r <-> exists x t', valid a x /\ t = ev a x ++ t' /\ exec (k x) t' r.
Proof. done. Qed.

Lemma exec_do {X} (a : act X) t r : exec (do a) t r <-> valid a r /\ t = ev a r.
Proof.
  unfold do; rewrite exec_act. split.
  - intros (x & t' & Hv & -> & [-> ->]). rewrite app_nil_r; auto.
  - intros [Hv ->]. exists r, []. rewrite app_nil_r; simpl; auto.
Qed.


(** SM combinators reduce *)
Lemma sbind_sget {B} (f : mgr -> SM B) s : sbind sget f s = f s s.
Proof. done. Qed.
Lemma sbind_smod {B} g (f : unit -> SM B) s : sbind (smod g) f s = f tt (g s).
Proof. done. Qed.
Lemma sbind_sret {A B} (a : A) (f : A -> SM B) s : sbind (sret a) f s = f a s.
Proof. done. Qed.
Lemma sbind_serr {A B} e (f : A -> SM B) s : sbind (serr e) f s = Ret (s, Err e).
Proof. done. Qed.
Lemma sbind_span {A B} e (f : A -> SM B) s : sbind (span e) f s = Ret (s, Pan e).
Proof. done. Qed.
Lemma sbind_sdo {A B} (a : act A) (f : A -> SM B) s : sbind (sdo a) f s = Act a (fun x => f x s).
Proof. done. Qed.
Lemma sbind_spure {A B} (o : outcome A) (f : A -> SM B) s :
  sbind (spure o) f s = match o with Val a => f a s | Err e => Ret (s, Err e) | Pan x => Ret (s, Pan x) end.
Proof. done. Qed.

Lemma bind_do {X B} (a : act X) (f : X -> prog B) : bind (do a) f = Act a f.
Proof. done. Qed.
Lemma bind_ret {A B} (a : A) (f : A -> prog B) : bind (Ret a) f = f a.
Proof. done. Qed.

(** [fails o o']: both are the same error or panic, at possibly different types. *)
Definition fails {A B} (o : outcome A) (o' : outcome B) : Prop :=
  match o, o' with
  | Err e, Err e' => e = e'
  | Pan x, Pan x' => x = x'
  | _, _ => False
  end.
Definition is_val {A} (o : outcome A) : Prop := match o with Val _ => True | _ => False end.

Lemma fails_not_val {A B} (o : outcome A) (o' : outcome B) : fails o o' -> ~ is_val o'.
Proof. destruct o, o'; simpl; tauto. Qed.

Lemma exec_sbind {A B} (m : SM A) (f : A -> SM B) s t s' o :
  exec (sbind m f s) t (s', o) <->
  (exists t1 t2 s1 a, t = t1 ++ t2 /\ exec (m s) t1 (s1, Val a) /\ exec (f a s1) t2 (s', o)) \/
  (exists o1, exec (m s) t (s', o1) /\ fails o1 o).
Proof.
  unfold sbind. rewrite exec_bind. split.
  - intros (t1 & t2 & [s1 o1] & -> & H1 & H2); simpl in H2. destruct o1 as [a|e|x].
    + left; eauto 10.
    + right. destruct H2 as [-> [= -> ->]]. rewrite app_nil_r. exists (Err e); split; done.
    + right. destruct H2 as [-> [= -> ->]]. rewrite app_nil_r. exists (Pan x); split; done.
  - intros [(t1 & t2 & s1 & a & -> & H1 & H2)|(o1 & H1 & Hf)].
    + exists t1, t2, (s1, Val a); auto.
    + destruct o1, o; try done; simpl in Hf; subst.
      * exists t, [], (s', Err e0). rewrite app_nil_r; simpl; auto.
      * exists t, [], (s', Pan p0). rewrite app_nil_r; simpl; auto.
Qed.

Lemma exec_sbind_val {A B} (m : SM A) (f : A -> SM B) s t s' b :
  exec (sbind m f s) t (s', Val b) <->
  (exists t1 t2 s1 a, t = t1 ++ t2 /\ exec (m s) t1 (s1, Val a) /\ exec (f a s1) t2 (s', Val b)).
Proof.
  rewrite exec_sbind. split; [|by left].
  intros [?|(o1 & _ & Hf)]; [done|]. by destruct o1.
Qed.

Lemma exec_slift {A} (p : prog (outcome A)) s t s' o :
  exec (slift p s) t (s', o) <-> s' = s /\ exec p t o.
Proof.
  unfold slift. rewrite exec_bind. split.
  - intros (t1 & t2 & a & -> & H1 & [-> [= -> ->]]). rewrite app_nil_r; auto.
  - intros [-> H]. exists t, [], o. rewrite app_nil_r; simpl; auto.
Qed.

(** inversion tactics *)
Ltac xinv1 H :=
  lazymatch type of H with
  | exec (Ret _) _ _ =>
      let E := fresh "E" in destruct H as [E H]; try subst;
      first [ injection H as H; subst | discriminate H | subst | idtac ]
  | exec (sret _ _) _ _ => unfold sret in H; xinv1 H
  | exec (serr _ _) _ _ => unfold serr in H; xinv1 H
  | exec (span _ _) _ _ => unfold span in H; xinv1 H
  | exec (smod _ _) _ _ => unfold smod in H; xinv1 H
  | exec (spure _ _) _ _ => unfold spure in H; xinv1 H
  | exec (sbind sget _ _) _ _ => rewrite sbind_sget in H
  | exec (sbind (smod _) _ _) _ _ => rewrite sbind_smod in H
  | exec (sbind (sret _) _ _) _ _ => rewrite sbind_sret in H
  | exec (sbind (serr _) _ _) _ _ => rewrite sbind_serr in H
  | exec (sbind (span _) _ _) _ _ => rewrite sbind_span in H
  | exec (sbind (spure _) _ _) _ _ => rewrite sbind_spure in H
  | exec (sbind (sdo _) _ _) _ _ => rewrite sbind_sdo in H; xinv1 H
  | exec (bind (do _) _) _ _ => rewrite bind_do in H; xinv1 H
  | exec (bind (Ret _) _) _ _ => rewrite bind_ret in H
  | exec (slift _ _) _ _ =>
      let E := fresh "E" in apply exec_slift in H as [E H]; try subst
  | exec (do _) _ _ =>
      let E := fresh "Hv" in apply exec_do in H as [E H]; simpl ev in H; try subst
  | exec (Act _ _) _ _ =>
      let x := fresh "x" in let t := fresh "t" in let Hv := fresh "Hv" in let E := fresh "E" in
      apply (proj1 (exec_act _ _ _ _)) in H; destruct H as (x & t & Hv & E & H); simpl ev in E; try subst; cbv beta in H
  | exec (sbind _ _ _) _ (_, Val _) =>
      let t1 := fresh "t" in let t2 := fresh "t" in let s1 := fresh "s" in let a := fresh "a" in
      let E := fresh "E" in let H1 := fresh "H" in
      apply exec_sbind_val in H as (t1 & t2 & s1 & a & E & H1 & H); try subst
  end.
Tactic Notation "xinv" hyp(H) := xinv1 H.

(** ** Loops *)

(** [loop body l s ts s']: the iterations over [l] all succeed, with the traces [ts]. *)
Inductive loop {A} (body : A -> SM unit) : list A -> mgr -> list (list event) -> mgr -> Prop :=
  | loop_nil s : loop body [] s [] s
  | loop_cons x l s t s1 ts s2 :
      exec (body x s) t (s1, Val tt) -> loop body l s1 ts s2 -> loop body (x :: l) s (t :: ts) s2.

Lemma exec_sfor_val {A} (body : A -> SM unit) l s t s' :
  exec (sfor l body s) t (s', Val tt) <-> exists ts, t = concat ts /\ loop body l s ts s'.
Proof.
  revert s t; induction l as [|x l IH]; intros s t; simpl.
  - split.
    + intros [-> [= ->]]. exists []; split; [done|constructor].
    + intros (ts & -> & H). inversion H; subst. done.
  - rewrite exec_sbind_val. split.
    + intros (t1 & t2 & s1 & [] & -> & H1 & H2). apply IH in H2 as (ts & -> & H2).
      exists (t1 :: ts); split; [done|]. econstructor; eauto.
    + intros (ts & -> & H). inversion H as [|? ? ? t1 s1 ts' ? Hb Hl]; subst.
      exists t1, (concat ts'), s1, tt. split_and!; [done..|]. apply IH; eauto.
Qed.

Lemma exec_sfor_fail {A} (body : A -> SM unit) l s t s' o :
  exec (sfor l body s) t (s', o) -> ~ is_val o ->
  exists l1 x l2 ts s1 t2, l = l1 ++ x :: l2 /\ t = concat ts ++ t2 /\
    loop body l1 s ts s1 /\ exec (body x s1) t2 (s', o).
Proof.
  revert s t; induction l as [|x l IH]; intros s t; simpl.
  - intros [-> [= -> ->]] Hn. simpl in Hn; tauto.
  - rewrite exec_sbind. intros [(t1 & t2 & s1 & [] & -> & H1 & H2)|(o1 & H1 & Hf)] Hn.
    + apply IH in H2 as (l1 & x' & l2 & ts & s2 & t3 & -> & -> & Hl & H3); [|done].
      exists (x :: l1), x', l2, (t1 :: ts), s2, t3. simpl. rewrite app_assoc. split_and!; [done..| |done].
      econstructor; eauto.
    + exists [], x, l, [], s, t. simpl. split_and!; [done..|constructor|].
      destruct o1, o; try done; simpl in Hf; by subst.
Qed.





(** loops without state *)


(** ** An executable interpreter: an oracle chooses the responses, knowing the past. *)
Definition oracle := list event -> forall X, act X -> X.
Fixpoint run {A} (o : oracle) (h : list event) (p : prog A) : list event * A :=
  match p with
  | Ret a => ([], a)
  | @Act _ X a k =>
      let x := o h X a in
      let r := run o (h ++ ev a x) (k x) in
      (ev a x ++ fst r, snd r)
  end.
Lemma run_exec {A} (o : oracle) h (p : prog A) :
  (forall h X (a : act X), valid a (o h X a)) -> exec p (fst (run o h p)) (snd (run o h p)).
Proof.
  intros Hv. revert h; induction p as [a|X a k IH]; intros h; simpl; [done|].
  eexists _, _; split_and!; [apply Hv|reflexivity|apply IH].
Qed.

Ltac fall := repeat first [apply Forall_nil_2 | apply Forall_cons_2; [eauto 10|] | apply Forall_app_2].

(** ** Which actions a program can perform at all *)
Fixpoint only {A} (P : forall X, act X -> Prop) (p : prog A) : Prop :=
  match p with
  | Ret _ => True
  | Act a k => P _ a /\ forall x, only P (k x)
  end.
Lemma only_bind {A B} (P : forall X, act X -> Prop) (p : prog A) (f : A -> prog B) :
  only P p -> (forall a, only P (f a)) -> only P (bind p f).
Proof. induction p as [a|X a k IH]; simpl; [auto|]. intros [H1 H2] Hf; split; auto. Qed.
Lemma only_do {X} (P : forall X, act X -> Prop) (a : act X) : P X a -> only P (do a).
Proof. simpl; auto. Qed.
Lemma only_exec {A} (P : forall X, act X -> Prop) (Q : event -> Prop) (p : prog A) t r :
  (forall X (a : act X) x, P X a -> Forall Q (ev a x)) -> only P p -> exec p t r -> Forall Q t.
Proof.
  intros HPQ. revert t; induction p as [a|X a k IH]; intros t; simpl.
  - intros _ [-> _]; done.
  - intros [Ha Hk] (x & t' & _ & -> & H). apply Forall_app; split; [auto|]. eapply IH; eauto.
Qed.
Lemma only_impl {A} (P Q : forall X, act X -> Prop) (p : prog A) :
  (forall X (a : act X), P X a -> Q X a) -> only P p -> only Q p.
Proof. intros HPQ; induction p as [a|X a k IH]; simpl; [done|]. intros [? ?]; auto. Qed.

Definition sonly {A} (P : forall X, act X -> Prop) (m : SM A) : Prop := forall s, only P (m s).
Lemma sonly_sbind {A B} (P : forall X, act X -> Prop) (m : SM A) (f : A -> SM B) :
  sonly P m -> (forall a, sonly P (f a)) -> sonly P (sbind m f).
Proof.
  intros Hm Hf s. apply only_bind; [apply Hm|]. intros [s1 [a|e|x]]; simpl; [apply Hf|done|done].
Qed.
Lemma sonly_sget (P : forall X, act X -> Prop) : sonly P sget. Proof. done. Qed.
Lemma sonly_sret {A} (P : forall X, act X -> Prop) (a : A) : sonly P (sret a). Proof. done. Qed.
Lemma sonly_serr {A} (P : forall X, act X -> Prop) e : sonly P (@serr A e). Proof. done. Qed.
Lemma sonly_span {A} (P : forall X, act X -> Prop) e : sonly P (@span A e). Proof. done. Qed.
Lemma sonly_smod (P : forall X, act X -> Prop) f : sonly P (smod f). Proof. done. Qed.
Lemma sonly_spure {A} (P : forall X, act X -> Prop) (o : outcome A) : sonly P (spure o). Proof. done. Qed.
Lemma sonly_sdo {X} (P : forall X, act X -> Prop) (a : act X) : P X a -> sonly P (sdo a).
Proof. intros H s; simpl; auto. Qed.
Lemma sonly_slift {A} (P : forall X, act X -> Prop) (p : prog (outcome A)) : only P p -> sonly P (slift p).
Proof. intros H s. apply only_bind; [done|]. intros; simpl; done. Qed.
Lemma sonly_sfor {A} (P : forall X, act X -> Prop) (l : list A) body :
  (forall x, x ∈ l -> sonly P (body x)) -> sonly P (sfor l body).
Proof.
  induction l as [|x l IH]; simpl; intros H; [apply sonly_sret|].
  apply sonly_sbind; [apply H; by left|]. intros _. apply IH. intros; apply H; by right.
Qed.
Lemma only_ofor {A} (P : forall X, act X -> Prop) (l : list A) body :
  (forall x, x ∈ l -> only P (body x)) -> only P (ofor l body).
Proof.
  induction l as [|x l IH]; simpl; intros H; [done|].
  apply only_bind; [apply H; by left|]. intros [[]|e|p]; [|done..]. apply IH. intros; apply H; by right.
Qed.
Lemma sonly_exec {A} (P : forall X, act X -> Prop) (Q : event -> Prop) (m : SM A) s t r :
  (forall X (a : act X) x, P X a -> Forall Q (ev a x)) -> sonly P m -> exec (m s) t r -> Forall Q t.
Proof. intros HPQ Hm. apply only_exec with P; auto. Qed.

Ltac only_step :=
  lazymatch goal with
  | |- only _ (bind _ _) => apply only_bind; [|intros ?]
  | |- only _ (do _) => apply only_do
  | |- only _ (ofor _ _) => apply only_ofor; intros ? _
  | |- sonly _ (sbind _ _) => apply sonly_sbind; [|intros ?]
  | |- sonly _ sget => apply sonly_sget
  | |- sonly _ (sret _) => apply sonly_sret
  | |- sonly _ (serr _) => apply sonly_serr
  | |- sonly _ (span _) => apply sonly_span
  | |- sonly _ (smod _) => apply sonly_smod
  | |- sonly _ (spure _) => apply sonly_spure
  | |- sonly _ (sdo _) => apply sonly_sdo
  | |- sonly _ (slift _) => apply sonly_slift
  | |- sonly _ (sfor _ _) => apply sonly_sfor; intros ? _
  end.


Global Arguments exec {A} p t r : simpl never.
