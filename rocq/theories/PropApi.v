(** C30, C34, C35: Plugin.Lookup, InvokeEach, FindPlugin. *)
From Verif Require Export PropDetails.

Section Props.
Context {E : GoEnv}.

(** ** C30 *)
(** What Lookup(symName, out) of a plugin with symbol table [P] does: the symbol is looked up only if name and target are
    well-formed; [Val v]: returned nil after writing v to *out; [Err e]: returned e without writing. *)
Inductive lookup_spec (P : option handle) (symName : string) (out : iface) : list event -> outcome gvalue -> Prop :=
  | ls_empty : symName = "" -> lookup_spec P symName out [] (Err ESymEmpty)
  | ls_nil : symName <> "" -> is_nil out = true -> lookup_spec P symName out [] (Err EOutNil)
  | ls_nonptr o : symName <> "" -> is_nil out = false -> out = Some o -> kind_of (gv_type o) <> KPtr -> lookup_spec P symName out [] (Err EOutNotPtr)
  | ls_static id T n po : symName <> "" -> P = None -> out = Some (GV (TPtr id T) false n po) -> lookup_spec P symName out [] (Pan PNil)
  | ls_unknown h id T n po : symName <> "" -> P = Some h -> out = Some (GV (TPtr id T) false n po) ->
      lookup_spec P symName out [EvLookupSym h symName None] (Err ENotExist)
  | ls_direct h id T n po v : symName <> "" -> P = Some h -> out = Some (GV (TPtr id T) false n po) -> assignable (gv_type v) T = true ->
      lookup_spec P symName out [EvLookupSym h symName (Some v)] (Val v)
  | ls_pointee h id T n po idv T' nv w : symName <> "" -> P = Some h -> out = Some (GV (TPtr id T) false n po) ->
      assignable (TPtr idv T') T = false -> assignable T' T = true ->
      lookup_spec P symName out [EvLookupSym h symName (Some (GV (TPtr idv T') false nv (Some w)))] (Val w)
  | ls_mistyped h id T n po v : symName <> "" -> P = Some h -> out = Some (GV (TPtr id T) false n po) ->
      assignable (gv_type v) T = false -> (forall idv T', gv_type v = TPtr idv T' -> assignable T' T = false) ->
      lookup_spec P symName out [EvLookupSym h symName (Some v)] (Err (ECannotAssign symName)).

(** a pointer symbol is never nil: plugin.Lookup returns the address of a variable *)
Definition real_symbols (t : list event) : Prop :=
  forall h sym v id T, EvLookupSym h sym (Some v) ∈ t -> gv_type v = TPtr id T -> gv_nil v = false /\ gv_pointee v <> None.

Theorem C30_lookup p symName out t r : exec (Plugin_Lookup p symName out) t r -> real_symbols t -> lookup_spec (pl_P p) symName out t r.
Proof.
  unfold Plugin_Lookup. destruct (String.eqb_spec symName "") as [->|Hs]; [intros [-> ->] _; by constructor|].
  destruct (is_nil out) eqn:Hnil; [intros [-> ->] _; by constructor|]. destruct out as [[ty b n po]|]; [|done]. cbn [gv_type].
  destruct ty as [id T|id fs|id k]; [|intros [-> ->] _; by eapply ls_nonptr|intros [-> ->] _; eapply ls_nonptr; [done..|by destruct k]].
  assert (b = false) as -> by exact Hnil.
  destruct (pl_P p) as [h|]; [|intros [-> ->] _; by eapply ls_static].
  intros (s & t' & _ & -> & H) Hreal. destruct s as [v|]; [|destruct H as [-> ->]; by eapply ls_unknown].
  destruct (assignable (gv_type v) T) eqn:Ha; [destruct H as [-> ->]; by eapply ls_direct|].
  destruct v as [[idv T'|idv fs|idv k] bv nv pv]; cbn [gv_type] in *; [|destruct H as [-> ->]; by eapply ls_mistyped..].
  destruct (assignable T' T) eqn:Ha'; [|destruct H as [-> ->]; eapply ls_mistyped; [done..|intros ? ? [= -> ->]; done]].
  destruct (Hreal h symName (GV (TPtr idv T') bv nv pv) idv T') as [Hb Hp]; [apply elem_of_app; left; by left|done|].
  cbn in Hb, Hp. subst bv. destruct pv as [w|]; [|done]. cbn in H. destruct H as [-> ->]. by eapply ls_pointee.
Qed.
(** Every well-formed Lookup on a plugin of a statically linked manager panics; in dynamic mode none does. *)
Theorem C30_static_lookup_panics o st h m p symName id T n po t r : history o h (Some m) -> fresh_objects h -> o_static o = Some st -> holds m p ->
  symName <> "" -> exec (Plugin_Lookup p symName (Some (GV (TPtr id T) false n po))) t r -> t = [] /\ r = Pan PNil.
Proof.
  intros HH HF Hst Hp Hs Hx. destruct (history_origin _ _ _ _ HH HF eq_refl) as (h0 & cur0 & pr & t0 & r0 & h1 & _ & Hn & Hpub).
  destruct (spub_inv _ _ _ _ _ _ _ _ Hst Hn Hpub) as (data & sel & s & tn & tl & HP).
  destruct (static_ok_facts _ _ _ _ _ (proj1 (spub_made _ _ _ _ _ _ _ _ _ _ _ HP)) (spub_ok _ _ _ _ _ _ _ _ _ _ _ HP)) as (_ & F2 & _).
  destruct (F2 p Hp) as (_ & _ & _ & _ & _ & _ & HP0 & _). unfold Plugin_Lookup in Hx. apply String.eqb_neq in Hs. rewrite Hs, HP0 in Hx. exact Hx.
Qed.
Theorem C30_dynamic_lookup_never_panics o h m p symName out t r : history o h (Some m) -> o_static o = None -> holds m p ->
  exec (Plugin_Lookup p symName out) t r -> real_symbols t -> forall x, r <> Pan x.
Proof.
  intros HH Hst Hp Hx Hreal x ->. apply Plugins_lookup in Hp as [k Hk]. destruct (history_sound _ _ _ Hst HH m eq_refl) as [_ Hs].
  destruct (Hs _ _ Hk) as (_ & _ & _ & _ & _ & _ & Ho & _). destruct Ho as (? & ? & ? & hd & ? & ? & ? & ? & ? & _ & _ & _ & _ & _ & _ & HP & _).
  apply C30_lookup in Hx; [|done]. rewrite HP in Hx. by inversion Hx.
Qed.

(** ** C34 *)
(** The function is there (a nil func cannot be called; the attempt panics and is recovered like any other). *)
Definition has_invoke (p : plugin) : bool := negb (bool_decide (get_func RInvokeFunc (pl_funcs p) = None)).
Definition invoke_calls (m : mgr) (name : string) (params : N) (ps : list plugin) : list callsig :=
  map (called RInvokeFunc (pm_id m) (ArgInvoke name params)) (List.filter has_invoke ps).

Lemma invoke_all mid name params ps t r : exec (ofor ps (invokeOne mid name params)) t r -> r = Val tt /\
  call_sigs t = map (called RInvokeFunc mid (ArgInvoke name params)) (List.filter has_invoke ps) /\ length t = length (call_sigs t).
Proof.
  revert t. induction ps as [|p ps IH]; intros t H; cbn [ofor] in H.
  - by destruct H as [-> ->].
  - apply exec_bind in H as (t1 & t2 & u & -> & H1 & H2). unfold invokeOne in H1.
    apply exec_bind in H1 as (t3 & t4 & x & -> & H1 & [-> ->]). assert (Hx : logged (ignored x) = Val tt) by (by destruct x). rewrite Hx in H2.
    apply IH in H2 as (-> & H2 & H3). split; [done|]. rewrite app_nil_r. rewrite call_sigs_app, !app_length, H2.
    unfold call in H1. cbn [List.filter]. rewrite H2 in H3.
    assert (Hh : has_invoke p = match get_func RInvokeFunc (pl_funcs p) with Some _ => true | None => false end).
    { unfold has_invoke. by destruct (get_func RInvokeFunc (pl_funcs p)). }
    rewrite Hh. destruct (get_func RInvokeFunc (pl_funcs p)) as [c|] eqn:Hf.
    + apply exec_do in H1 as [_ ->]. cbn [map]. unfold called at 2. rewrite Hf. cbn. split; [done|]. by rewrite H3.
    + destruct H1 as [-> ->]. cbn. done.
Qed.
(** InvokeEach calls InvokeFunc with the name and the parameters exactly once on every plugin in the order of Plugins(),
    InvokeEachBackward in the reverse order, whatever the calls do; nothing else happens and no panic gets out. *)
Theorem C34_InvokeEach m name params t r : exec (InvokeEach m name params) t r -> r = Val tt /\
  call_sigs t = invoke_calls m name params (Plugins m) /\ length t = length (call_sigs t).
Proof. apply invoke_all. Qed.
Theorem C34_InvokeEachBackward m name params t r : exec (InvokeEachBackward m name params) t r -> r = Val tt /\
  call_sigs t = invoke_calls m name params (rev (Plugins m)) /\ length t = length (call_sigs t).
Proof. apply invoke_all. Qed.
(** In static mode every plugin has the function. *)
Theorem C34_static_has_invoke o st h m p : history o h (Some m) -> fresh_objects h -> o_static o = Some st -> holds m p -> has_invoke p = true.
Proof.
  intros HH HF Hst Hp. destruct (history_origin _ _ _ _ HH HF eq_refl) as (h0 & cur0 & pr & t0 & r0 & h1 & _ & Hn & Hpub).
  destruct (spub_inv _ _ _ _ _ _ _ _ Hst Hn Hpub) as (data & sel & s & tn & tl & HP).
  destruct (spub_ok _ _ _ _ _ _ _ _ _ _ _ HP) as (t1 & t2 & s1 & -> & Hg & Hl).
  destruct (sgathered_facts _ _ _ _ (proj1 (spub_made _ _ _ _ _ _ _ _ _ _ _ HP)) Hg) as (G1 & G2 & G3 & _).
  destruct (sgathered_lookup _ _ _ _ Hg) as [_ L2].
  apply exec_lifecycle in Hl; [|done..]. destruct Hl as (u1 & u2 & u3 & u4 & u5 & _ & _ & _ & _ & _ & _ & _ & _ & Hcore & _).
  apply Plugins_lookup in Hp as [k Hk]. destruct (core_lookup _ _ _ _ Hcore Hk) as (q & Hq & Hc).
  destruct (L2 _ _ Hq) as (n & sp & c1 & c2 & _ & _ & Hfs & Hall & _). destruct Hfs as (_ & _ & _ & _ & _ & _ & _ & Hff & _).
  unfold has_invoke. assert (pl_funcs p = pl_funcs q) as -> by exact (f_equal pl_funcs Hc). rewrite Hff. specialize (Hall RInvokeFunc).
  by rewrite bool_decide_false.
Qed.

(** ** C35 *)
Theorem C35_case_insensitive m a b : same_name a b -> FindPlugin m a = FindPlugin m b.
Proof. unfold same_name, FindPlugin, name2key. by intros ->. Qed.
Theorem C35_finds_the_plugin o h m name p : history o h (Some m) -> fresh_objects h ->
  FindPlugin m name = Some p <-> holds m p /\ same_name (pl_name p) name.
Proof.
  intros HH HF. destruct (history_origin _ _ _ _ HH HF eq_refl) as (h0 & cur0 & pr & t0 & r0 & h1 & _ & Hn & Hpub).
  destruct (pub_ready _ _ _ _ _ _ _ Hn Hpub) as [Hk (_ & _ & _ & Hperm & _)]. unfold FindPlugin, same_name. split.
  - intros Hf. split; [by eapply elem_Plugins|]. by apply (Hk _ _ Hf).
  - intros [Hp Hs]. apply Plugins_lookup in Hp as [k Hkp]. unfold name2key. rewrite <- Hs. rewrite <- (Hk _ _ Hkp) in Hkp. exact Hkp.
Qed.
Theorem C35_not_found o h m name : history o h (Some m) -> fresh_objects h ->
  FindPlugin m name = None <-> forall p, holds m p -> ~ same_name (pl_name p) name.
Proof.
  intros HH HF. split.
  - intros Hno p Hp Hs. assert (Hf : FindPlugin m name = Some p) by (by eapply C35_finds_the_plugin). congruence.
  - intros Hno. destruct (FindPlugin m name) as [p|] eqn:Hf; [|done]. eapply C35_finds_the_plugin in Hf as [Hp Hs]; [|done..]. by destruct (Hno p Hp).
Qed.
End Props.

(** ** Concrete cases *)
Example C34_case : invoke_calls m0 "hi" 3 (Plugins m0) = map (called RInvokeFunc 1 (ArgInvoke "hi" 3)) [plug m0 "a"; plug m0 "b"; plug m0 "c"] /\
  exec (InvokeEach m0 "hi" 3) (fst (run (demo 0 world0) [] (InvokeEach m0 "hi" 3))) (Val tt).
Proof. split; [vm_compute; reflexivity|]. assert (H : snd (run (demo 0 world0) [] (InvokeEach m0 "hi" 3)) = Val tt) by (vm_compute; reflexivity). rewrite <- H. by apply demo_exec, world0_ok. Qed.
Example C35_case : history dyn t0 (Some m0) /\ fresh_objects t0 /\ FindPlugin m0 "B" = Some (plug m0 "b") /\ FindPlugin m0 "bb" = None.
Proof. split_and!; [apply history0|apply fresh0|vm_compute; reflexivity..]. Qed.
Definition run_lookup := run (demo 0 world0) [] (Plugin_Lookup (plug m0 "b") "Foo" (Some (GV (TPtr 0 (TOther 1000 OFunc)) false 0 None))).
Example C30_case : exec (Plugin_Lookup (plug m0 "b") "Foo" (Some (GV (TPtr 0 (TOther 1000 OFunc)) false 0 None))) (fst run_lookup) (snd run_lookup) /\
  run_lookup = ([EvLookupSym 5%N "Foo" (demo_sym "Foo")], Val (GV (TOther 1000 OFunc) false 7 None)) /\ real_symbols (fst run_lookup).
Proof.
  assert (Hr : run_lookup = ([EvLookupSym 5%N "Foo" (demo_sym "Foo")], Val (GV (TOther 1000 OFunc) false 7 None))) by (vm_compute; reflexivity).
  split_and!; [by apply demo_exec, world0_ok|exact Hr|]. rewrite Hr. clear Hr.
  intros h sym v id T Hin Hty. cbn in Hin. apply elem_of_list_singleton in Hin as [= -> -> ->]. done.
Qed.
Example C30_static_case : next_call stat [] None (api_prog stat (Call_LoadPlugins 1)) t_stat (snd (demo_run 0 world0 stat (Call_LoadPlugins 1))) /\
  omap (fun e => match e with EvStore m => Some (map (fun p => bool_decide (pl_P p = None)) (Plugins m)) | _ => None end) t_stat = [[true; true; true]].
Proof. split; [exact (proj1 C31_case)|vm_compute; reflexivity]. Qed.

Print Assumptions C30_lookup.
Print Assumptions C30_static_lookup_panics.
Print Assumptions C30_dynamic_lookup_never_panics.
Print Assumptions C34_InvokeEach.
Print Assumptions C34_InvokeEachBackward.
Print Assumptions C34_static_has_invoke.
Print Assumptions C35_case_insensitive.
Print Assumptions C35_finds_the_plugin.
Print Assumptions C35_not_found.
