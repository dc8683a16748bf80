(** More concrete worlds, for the examples beside the theorems. *)
From Verif Require Export Demo.
Local Open Scope N_scope.

(** ** Any run of [demo] is a legal first (or later) call *)
Lemma demo_saw {A} base w (p : prog A) : forall h x, saw_current (fst (run (demo base w) h p)) x -> x = d_cur w.
Proof.
  unfold saw_current. induction p as [a|X a k IH]; intros h x; simpl; [by rewrite elem_of_nil|].
  rewrite elem_of_app. intros [Hin|Hin]; [|by eapply IH].
  destruct a; simpl in Hin; try (by apply elem_of_nil in Hin); apply elem_of_list_singleton in Hin; try discriminate Hin. by injection Hin.
Qed.

Lemma demo_created_ge {A} base w (p : prog A) : forall h,
  (forall i, i ∈ created (fst (run (demo base w) h p)) -> base + 1 + N.of_nat (length (created h)) <= i) /\
  NoDup (created (fst (run (demo base w) h p))).
Proof.
  induction p as [a|X a k IH]; intros h; simpl; [split; [intros i Hi; by apply elem_of_nil in Hi|constructor]|].
  set (x := demo base w h X a). destruct (IH x (h ++ ev a x)) as [IH1 IH2]. unfold created in *. rewrite omap_app.
  assert (Hcase : omap new_inst (ev a x) = [] \/ omap new_inst (ev a x) = [base + 1 + N.of_nat (length (omap new_inst h))]).
  { destruct a; try (by left). right. done. }
  destruct Hcase as [Hn|Hn]; rewrite Hn; rewrite omap_app, Hn, app_length in IH1; simpl in IH1.
  - rewrite Nat.add_0_r in IH1. done.
  - split.
    + intros i. rewrite elem_of_app, elem_of_list_singleton. intros [->|Hi]; [lia|]. apply IH1 in Hi. lia.
    + simpl. constructor; [|done]. intros Hi. apply IH1 in Hi. lia.
Qed.

Definition demo_run (base : N) (w : demo_world) (o : opts) (a : api) : list event * outcome (option Details) :=
  run (demo base w) [] (api_prog o a).

Lemma api_load_call {E : GoEnv} o a : load_call o (api_prog o a).
Proof. destruct a; constructor. Qed.

Lemma demo_next o h cur base w a : history o h cur -> d_cur w = cur -> fresh_objects h -> (forall i, i ∈ created h -> i <= base) -> demo_ok w ->
  next_call o h cur (api_prog o a) (fst (demo_run base w o a)) (snd (demo_run base w o a)).
Proof.
  intros HH <- Hf Hle Hok. split_and!; [done|apply api_load_call|by apply demo_exec|apply demo_saw|].
  unfold fresh_objects in *. unfold created in *. rewrite omap_app. destruct (demo_created_ge base w (api_prog o a) []) as [H1 H2].
  apply NoDup_app. split_and!; [done| |done]. intros i Hi Hi2. apply Hle in Hi. apply H1 in Hi2. simpl in Hi2. lia.
Qed.
Lemma demo_first o w a r : d_cur w = None -> demo_ok w -> snd (demo_run 0 w o a) = r ->
  next_call o [] None (api_prog o a) (fst (demo_run 0 w o a)) r.
Proof. intros H1 H2 <-. apply demo_next; [constructor|done|constructor|by intros i Hi%elem_of_nil|done]. Qed.
Lemma demo_second w a r : d_cur w = Some m0 -> demo_ok w -> snd (demo_run 3 w dyn a) = r ->
  next_call dyn t0 (Some m0) (api_prog dyn a) (fst (demo_run 3 w dyn a)) r.
Proof.
  intros H1 H2 <-. apply demo_next; [apply history0|done|apply fresh0| |done].
  assert (Hc : created t0 = [1; 2; 3]) by apply run0_ok. intros i. rewrite Hc. rewrite !elem_of_cons, elem_of_nil. lia.
Qed.

(** ** Variations of the first world *)
Definition world_calls (f : forall r, callee -> outcome (role_resp r)) (w : demo_world) : demo_world :=
  mkDemo (d_cur w) (d_dir w) (d_listing w) (d_content w) (d_mid w) f (d_cb w) (d_ext w) (d_sym w) (d_open w).
Definition world_listing_is (l : list (string * bool)) (w : demo_world) : demo_world :=
  mkDemo (d_cur w) (d_dir w) l (d_content w) (d_mid w) (d_call w) (d_cb w) (d_ext w) (d_sym w) (d_open w).
Definition world_cb (f : N -> outcome (option gerror)) (w : demo_world) : demo_world :=
  mkDemo (d_cur w) (d_dir w) (d_listing w) (d_content w) (d_mid w) (d_call w) f (d_ext w) (d_sym w) (d_open w).
Definition world_ext (f : outcome iface) (w : demo_world) : demo_world :=
  mkDemo (d_cur w) (d_dir w) (d_listing w) (d_content w) (d_mid w) (d_call w) (d_cb w) f (d_sym w) (d_open w).
Definition world_sym (f : string -> option gvalue) (w : demo_world) : demo_world :=
  mkDemo (d_cur w) (d_dir w) (d_listing w) (d_content w) (d_mid w) (d_call w) (d_cb w) (d_ext w) f (d_open w).

Lemma listing_ok l : bool_decide (NoDup (map fst l)) = true ->
  forallb (fun e => negb (String.eqb (fst e) "") && negb (existsb (Ascii.eqb slash) (list_ascii_of_string (fst e)))) l = true -> valid_listing l.
Proof.
  intros H1 H2. split; [by apply bool_decide_eq_true in H1|]. apply Forall_forall. intros e He. rewrite forallb_forall in H2.
  apply elem_of_list_In, H2 in He. apply andb_true_iff in He as [Ha Hb]. apply negb_true_iff, String.eqb_neq in Ha. apply negb_true_iff in Hb.
  split; [done|]. unfold no_slash. intros Hin. enough (existsb (Ascii.eqb slash) (list_ascii_of_string (fst e)) = true) by congruence.
  apply existsb_exists. exists slash. split; [by apply Hin|by apply Ascii.eqb_refl].
Qed.

(** a imports B and b imports A *)
Definition imports_cyclic (name : string) : iface :=
  if String.eqb name "a" then Some (GV (TPtr 205 (TStruct 206 [fld "B" "" 2])) false 1 None) else imports name.
Definition calls_cyclic (r : role) (c : callee) : outcome (role_resp r) :=
  match r return outcome (role_resp r) -> outcome (role_resp r) with
  | RImport => fun _ => Val (imports_cyclic (c_name c))
  | _ => fun x => x
  end (good_call (fun _ => true) r c).
Definition world_cyclic : demo_world := world_calls calls_cyclic world0.
Lemma world_cyclic_ok : demo_ok world_cyclic.
Proof.
  split_and!; try done; [apply world_listing|]. intros r c. destruct r; try apply good_call_valid.
  simpl. unfold imports_cyclic. destruct (String.eqb _ _); [|apply (good_call_valid (fun _ => true) RImport c)]. repeat constructor; intros; vm_compute; done.
Qed.

(** OnLoad of b reports an error; OnInit of c panics *)
Definition calls_onload (r : role) (c : callee) : outcome (role_resp r) :=
  match r return outcome (role_resp r) -> outcome (role_resp r) with
  | ROnLoad => fun x => if String.eqb (c_name c) "b" then Val (Some (EOpaque 13)) else x
  | _ => fun x => x
  end (good_call reloadable_abc r c).
Definition world_onload : demo_world := world_calls calls_onload world0.
Lemma world_onload_ok : demo_ok world_onload.
Proof.
  split_and!; try done; [apply world_listing|]. intros r c. destruct r; try apply good_call_valid.
  simpl. destruct (String.eqb _ _); [by eexists|done].
Qed.
Definition calls_oninit (r : role) (c : callee) : outcome (role_resp r) :=
  match r return outcome (role_resp r) -> outcome (role_resp r) with
  | ROnInit => fun x => if String.eqb (c_name c) "c" then Pan (PUser 7) else x
  | _ => fun x => x
  end (good_call reloadable_abc r c).
Definition world_oninit : demo_world := world_calls calls_oninit world0.
Lemma world_oninit_ok : demo_ok world_oninit.
Proof.
  split_and!; try done; [apply world_listing|]. intros r c. destruct r; try apply good_call_valid.
  simpl. destruct (String.eqb _ _); [by eexists|done].
Qed.

(** directories *)
Definition world_empty : demo_world := world_listing_is [("note.txt", false); ("sub.so", true)] world0.
Lemma world_empty_ok : demo_ok world_empty.
Proof. split_and!; try done; [by apply listing_ok; vm_compute|intros; apply good_call_valid]. Qed.
Definition world_dup : demo_world := world_listing_is [("A.so", false); ("a.so", false); ("b.so", false)] world0.
Lemma world_dup_ok : demo_ok world_dup.
Proof. split_and!; try done; [by apply listing_ok; vm_compute|intros; apply good_call_valid]. Qed.
Definition world_mixed : demo_world := world_listing_is [("Foo.so", false); ("a.so", false); ("b.so", false)] world0.
Lemma world_mixed_ok : demo_ok world_mixed.
Proof. split_and!; try done; [by apply listing_ok; vm_compute|intros; apply good_call_valid]. Qed.

(** callbacks and the extension constructor *)
Definition world_badcb : demo_world := world_cb (fun cb => if N.eqb cb 4 then Pan (PUser 3) else Val None) world1.
Lemma world_badcb_ok : demo_ok world_badcb.
Proof. split_and!; try done; [apply world_listing|intros; apply good_call_valid|]. intros cb. simpl. destruct (cb =? 4); [by eexists|done]. Qed.
Definition world_badext : demo_world := world_ext (Pan (PUser 8)) world0.
Lemma world_badext_ok : demo_ok world_badext.
Proof. split_and!; try done; [apply world_listing|intros; apply good_call_valid|]. by eexists. Qed.

(** symbols *)
Definition world_missing : demo_world := world_sym (fun s => if String.eqb s "OnFree" || String.eqb s "Import" then None else demo_sym s) world0.
Lemma world_missing_ok : demo_ok world_missing.
Proof. split_and!; try done; [apply world_listing|intros; apply good_call_valid]. Qed.
Definition world_mistyped : demo_world := world_sym (fun s => if String.eqb s "OnFree" then Some (GV (TOther 3 OBasic) false 0 None) else demo_sym s) world0.
Lemma world_mistyped_ok : demo_ok world_mistyped.
Proof. split_and!; try done; [apply world_listing|intros; apply good_call_valid]. Qed.

(** whitelists, static mode *)
Definition dyn_wl (l : list string) : opts := NewPluginManagerSwapper [WithWhitelist l].
Definition reg (name : string) : StaticPlugin := mkStatic name (mkFuncs (Some 1) (Some 2) (Some 3) (Some 4) (Some 5) (Some 6) (Some 7) (Some 8) (Some 9)).
Definition statics_abc : gmap string (option StaticPlugin) := list_to_map [("a", Some (reg "a")); ("b", Some (reg "b")); ("c", Some (reg "c"))].
Definition stat : opts := NewPluginManagerSwapper [WithStaticPlugins (Some statics_abc)].
Lemma distinct_dynamic {G : GoEnv} o : o_static o = None -> distinct_registrations o.
Proof. intros H st Hst. congruence. Qed.
Lemma distinct_stat : distinct_registrations stat.
Proof.
  assert (Hs : o_static stat = Some statics_abc) by done. intros st Hst n1 n2 sp1 sp2 H1 H2.
  rewrite Hs in Hst. injection Hst as <-. unfold statics_abc in H1, H2.
  assert (Hk : forall n sp, (list_to_map [("a", Some (reg "a")); ("b", Some (reg "b")); ("c", Some (reg "c"))] : gmap string (option StaticPlugin)) !! n = Some (Some sp) ->
    sp_name sp = n /\ to_lower n = n).
  { intros n sp Hin. apply elem_of_list_to_map_2 in Hin. rewrite !elem_of_cons, elem_of_nil in Hin.
    destruct Hin as [Hin|[Hin|[Hin|[]]]]; injection Hin as -> ->; done. }
  apply Hk in H1 as [-> H1]. apply Hk in H2 as [-> H2]. unfold same_name. congruence.
Qed.
(** the two good calls in terms of [api] *)
Lemma first_load : next_call dyn [] None (api_prog dyn (Call_LoadPlugins 77)) t0 (snd run0).
Proof. apply next0. Qed.
Lemma second_load : next_call dyn t0 (Some m0) (api_prog dyn (Call_Reload 78 (Some 5))) t1 (snd run1).
Proof. apply next1. Qed.
(** the plugin of that name *)
Definition plug (m : mgr) (n : string) : plugin :=
  match FindPlugin m n with Some p => p | None => mkPlugin "" "" "" 0 "" false None no_funcs [] 0 None false [] end.
(** after the first load: only b is rebuilt; b is removed *)
Definition world_rebuilt : demo_world :=
  mkDemo (Some m0) "/p" [("a.so", false); ("b.so", false); ("c.so", false)] (fun f => if String.eqb f "/p/b.so" then "b2" else f) 2
    (good_call reloadable_abc) (fun _ => Val None) (Val None) demo_sym (fun f => Val 5).
Lemma world_rebuilt_ok : demo_ok world_rebuilt.
Proof. split_and!; try done; [by apply listing_ok; vm_compute|intros; apply good_call_valid]. Qed.
Definition world_removed : demo_world := world_listing_is [("a.so", false); ("c.so", false)] world_rebuilt.
Lemma world_removed_ok : demo_ok world_removed.
Proof. split_and!; try done; [by apply listing_ok; vm_compute|intros; apply good_call_valid]. Qed.
(** c offers the live function of b *)
Definition calls_duplive (r : role) (c : callee) : outcome (role_resp r) :=
  match r return outcome (role_resp r) -> outcome (role_resp r) with
  | RLiveFuncs => fun x => if String.eqb (c_name c) "c" then Val (Some [("live_c", 1); ("live_b", 2)]) else x
  | _ => fun x => x
  end (good_call reloadable_abc r c).
Definition world_duplive : demo_world := world_calls calls_duplive world0.
Lemma world_duplive_ok : demo_ok world_duplive.
Proof.
  split_and!; try done; [apply world_listing|]. intros r c. destruct r; try apply good_call_valid.
  unfold world_duplive, calls_duplive. simpl. destruct (String.eqb _ _); [|apply (good_call_valid reloadable_abc RLiveFuncs c)].
  apply (bool_decide_unpack _). vm_compute. exact I.
Qed.
