(** A small concrete world, used to show that the hypotheses of the theorems are met by non-trivial runs. *)
From Verif Require Export Spec ExecLemmas.
Local Open Scope N_scope.

(** assignable: identical types; sha1: the content itself; xxhash32: a constant *)
Definition type_id (t : gtype) : N := match t with TPtr i _ => i | TStruct i _ => i | TOther i _ => i end.
Definition demo_role_type (r : role) : gtype := TOther 1000 OFunc.
#[global] Instance demo_env : GoEnv :=
  {| assignable a b := N.eqb (type_id a) (type_id b); sha1 s := s; xxhash32 _ := 48879; role_type := demo_role_type |}.

Record demo_world := mkDemo {
  d_cur : option mgr;
  d_dir : string;
  d_listing : list (string * bool);
  d_content : string -> string;
  d_mid : N;
  d_call : forall r, callee -> outcome (role_resp r);
  d_cb : N -> outcome (option gerror);
  d_ext : outcome iface;
  d_sym : string -> option gvalue;
  d_open : string -> outcome handle }.

Definition demo_sym (s : string) : option gvalue := Some (GV (TOther 1000 OFunc) false 7 None).

(** the instances created so far, in [base + 1 ..] *)
Definition demo (base : N) (w : demo_world) : oracle := fun h X a =>
  match a in act X return X with
  | ALock => tt | AUnlock => tt
  | AGetDir => d_dir w
  | ASetDir _ => tt
  | ALoadCurrent => d_cur w
  | AStoreCurrent _ => tt
  | ANewInst _ _ => (base + 1 + N.of_nat (length (created h)))%N
  | ARefInc _ _ => 2%Z
  | ARefDec _ _ => 0%Z
  | AOnce _ => true
  | AAddCounter => tt
  | ALoadCounter => 0%Z
  | ASpawnFree _ _ => tt
  | ASleep _ _ => tt
  | ANewMgr => (d_mid w, (moment0, 7%N))
  | ANow => (1000 + base)%N
  | AIter keys => keys
  | AStat _ => Val true
  | AAbs d => Val d
  | AReadDir _ => Val (d_listing w)
  | AReadFile f => Val (d_content w f)
  | AMkdirAll _ => None
  | AWriteFile _ _ => None
  | AOpen f => d_open w f
  | ALookupSym _ s => d_sym w s
  | ACall r c _ => d_call w r c
  | ANewExt => d_ext w
  | ACallback cb _ _ => d_cb w cb
  end.

Definition demo_ok (w : demo_world) : Prop :=
  valid_listing (d_listing w) /\ (forall r c, valid_call r (d_call w r c)) /\
  (forall cb, valid (ACallback cb (mkMgr 0 (moment0, 0%N) ∅ [] 0 ∅ ∅ ∅ None) None) (d_cb w cb)) /\ valid ANewExt (d_ext w) /\
  (forall f, valid (AOpen f) (d_open w f)).
Lemma demo_valid base w : demo_ok w -> forall h X (a : act X), valid a (demo base w h X a).
Proof. intros (H1 & H2 & H3 & H4 & H5) h X a. destruct a; first [done|exact proper0|apply H2|apply (H5 f)|apply (H3 cb)|apply Permutation_refl]. Qed.
Lemma demo_exec {A} base w (p : prog A) : demo_ok w ->
  exec p (fst (run (demo base w) [] p)) (snd (run (demo base w) [] p)).
Proof. intros H. apply run_exec. by apply demo_valid. Qed.

(** ** Three plugins: a (not reloadable), b importing A, c importing B (and ignoring a field) *)
Definition ty_export (n : N) : gtype := TPtr (100 + n) (TOther n OBasic).
Definition val_export (n : N) : gvalue := GV (ty_export n) false n None.
Definition num (name : string) : N :=
  if String.eqb name "a" then 1 else if String.eqb name "b" then 2 else if String.eqb name "c" then 3 else 9.
Definition fld (name tag : string) (n : N) : sfield := SField name tag false true (ty_export n).
Definition imports (name : string) : iface :=
  if String.eqb name "b" then Some (GV (TPtr 201 (TStruct 202 [fld "A" "" 1])) false 1 None)
  else if String.eqb name "c" then Some (GV (TPtr 203 (TStruct 204 [fld "B" "" 2; fld "Zzz" "-" 9; SField "x" "" false false (ty_export 9)])) false 1 None)
  else None.

Definition good_call (reloadable : string -> bool) (r : role) (c : callee) : outcome (role_resp r) :=
  match r return outcome (role_resp r) with
  | ROnLoad => Val None
  | ROnInit => Val ([(c_name c, num (c_name c))], None)
  | ROnFree => Val tt
  | RExport => Val (Some (val_export (num (c_name c))))
  | RImport => Val (imports (c_name c))
  | RInvokeFunc => Val (None, None)
  | RReloadable => Val (reloadable (c_name c))
  | RLiveFuncs => Val (Some [(("live_" +:+ c_name c)%string, num (c_name c))])
  | RLiveTypes => Val (Some [])
  end.
Definition reloadable_abc (n : string) : bool := negb (String.eqb n "a").
Lemma good_call_valid rl r c : valid_call r (good_call rl r c).
Proof.
  destruct r; simpl; try done.
  - unfold imports. destruct (String.eqb (c_name c) "b"); [|destruct (String.eqb (c_name c) "c")]; simpl; [| |done].
    + repeat constructor; intros; vm_compute; done.
    + repeat constructor; intros; vm_compute; done.
  - repeat constructor. set_solver.
  - constructor.
Qed.

Definition world0 : demo_world := mkDemo None "/p" [("a.so", false); ("b.so", false); ("c.so", false); ("note.txt", false)]
  (fun f => f) 1 (good_call reloadable_abc) (fun _ => Val None) (Val None) demo_sym (fun f => Val 5%N).
Definition dyn : opts := NewPluginManagerSwapper [WithReloadCallback (Some 4%N)].

Lemma world_listing : valid_listing [("a.so", false); ("b.so", false); ("c.so", false); ("note.txt", false)].
Proof.
  split.
  - apply (bool_decide_unpack _). vm_compute. done.
  - repeat constructor; try done; simpl; unfold no_slash; vm_compute; intuition discriminate.
Qed.
Lemma world0_ok : demo_ok world0.
Proof. split_and!; try done; [apply world_listing|intros; apply good_call_valid]. Qed.

Definition run0 := run (demo 0 world0) [] (LoadPlugins dyn 77).
Definition t0 : list event := fst run0.
Definition m0 : mgr := match after None t0 with Some m => m | None => mkMgr 0 (moment0, 0%N) ∅ [] 0 ∅ ∅ ∅ None end.

(** the first load succeeds and publishes a manager with the plugins a, b, c *)
Example run0_ok : map pl_name (Plugins m0) = ["a"; "b"; "c"] /\ after None t0 = Some m0 /\ created t0 = [1; 2; 3]%N.
Proof. vm_compute. done. Qed.

(** then c is rebuilt *)
Definition world1 : demo_world := mkDemo (Some m0) "/p" [("a.so", false); ("b.so", false); ("c.so", false); ("note.txt", false)]
  (fun f => if String.eqb f "/p/c.so" then "c2" else if String.eqb f "/p/a.so" then "a2" else f) 2 (good_call reloadable_abc) (fun _ => Val None) (Val None) demo_sym (fun f => Val 5%N).
Lemma world1_ok : demo_ok world1.
Proof. split_and!; try done; [apply world_listing|intros; apply good_call_valid]. Qed.
Definition run1 := run (demo 3 world1) [] (ReloadWithCallback dyn 78 (Some 5%N)).
Definition t1 : list event := fst run1.
Definition m1 : mgr := match after (Some m0) t1 with Some m => m | None => m0 end.
Example run1_ok : after (Some m0) t1 = Some m1 /\ created t1 = [4]%N /\
  map (fun p => (pl_name p, pl_note p, pl_inst p)) (Plugins m1) = [("a", "not reloadable", 1%N); ("b", "unchanged", 2%N); ("c", "", 4%N)].
Proof. vm_compute. done. Qed.

Lemma saw_dec (t : list event) (cur : option mgr) :
  omap (fun e => match e with EvLoadCurrent x => Some x | _ => None end) t = [cur] ->
  forall x, saw_current t x -> x = cur.
Proof.
  intros H x Hx. assert (Hin : x ∈ omap (fun e => match e with EvLoadCurrent x => Some x | _ => None end) t).
  { apply elem_of_list_omap. eexists. split; [exact Hx|done]. }
  rewrite H in Hin. by apply elem_of_list_singleton in Hin.
Qed.


Lemma t0_exec : exec (LoadPlugins dyn 77) t0 (snd run0).
Proof. exact (demo_exec 0 world0 (LoadPlugins dyn 77) world0_ok). Qed.
Lemma t1_exec : exec (ReloadWithCallback dyn 78 (Some 5)) t1 (snd run1).
Proof. exact (demo_exec 3 world1 (ReloadWithCallback dyn 78 (Some 5)) world1_ok). Qed.
Lemma t0_saw : forall x, saw_current t0 x -> x = None.
Proof. apply saw_dec. vm_compute. reflexivity. Qed.
Lemma t1_saw : forall x, saw_current t1 x -> x = Some m0.
Proof. apply saw_dec. vm_compute. reflexivity. Qed.
Lemma t0_after : after None t0 = Some m0.
Proof. vm_compute. reflexivity. Qed.
Lemma t1_after : after (Some m0) t1 = Some m1.
Proof. vm_compute. reflexivity. Qed.
Lemma fresh0 : fresh_objects t0.
Proof. unfold fresh_objects. apply (bool_decide_unpack _). vm_compute. exact I. Qed.
Lemma fresh1 : fresh_objects (t0 ++ t1).
Proof. unfold fresh_objects. apply (bool_decide_unpack _). vm_compute. exact I. Qed.
Lemma stored (t : list event) (m : mgr) : forall cur, after cur t = Some m -> cur = Some m \/ published t m.
Proof.
  unfold published. induction t as [|e t IH]; intros cur H; simpl in H; [by left|].
  apply IH in H as [H|H]; [|right; by apply elem_of_list_further].
  destruct e; try (by left). injection H as ->. right. apply elem_of_list_here.
Qed.
Lemma published0 : published t0 m0.
Proof. destruct (stored t0 m0 None t0_after) as [H|H]; [discriminate|exact H]. Qed.
Global Opaque t0 run0 m0 t1 run1 m1.

Lemma history0 : history dyn t0 (Some m0).
Proof.
  rewrite <- t0_after. apply (history_call dyn [] None _ t0 _ (history_start dyn) (call_LoadPlugins dyn 77) t0_exec t0_saw).
Qed.
Lemma next0 : next_call dyn [] None (LoadPlugins dyn 77) t0 (snd run0).
Proof. split; [constructor|]. split; [constructor|]. split; [apply t0_exec|]. split; [apply t0_saw|apply fresh0]. Qed.
Lemma next1 : next_call dyn t0 (Some m0) (ReloadWithCallback dyn 78 (Some 5)) t1 (snd run1).
Proof. split; [apply history0|]. split; [constructor|]. split; [apply t1_exec|]. split; [apply t1_saw|apply fresh1]. Qed.
Lemma m1_new : pm_id m1 <> pm_id m0.
Proof. vm_compute. discriminate. Qed.
Lemma published1 : published t1 m1.
Proof. destruct (stored t1 m1 (Some m0) t1_after) as [H|H]; [exfalso; apply m1_new; congruence|exact H]. Qed.
Lemma history1 : history dyn (t0 ++ t1) (Some m1).
Proof. rewrite <- t1_after. eapply history_call; [apply history0|constructor|apply t1_exec|apply t1_saw]. Qed.
