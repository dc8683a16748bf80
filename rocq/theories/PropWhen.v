(** C68: Plugin.When and Plugin.Note. *)
From Verif Require Export PropWire PropStatic PropOrder.

(** What Plugin.Note of a plugin that has just been created says. *)
Definition note_of_new (o : opts) : string := match o_static o with Some _ => "ok" | None => "" end.

Section Props.
Context {E : GoEnv}.

(** One reading of the clock, [w], is the When of every plugin the load creates; a plugin that is carried over keeps the
    When it had.  Note tells the two kinds of plugins apart. *)
Theorem C68_when_and_note o h cur a t r m :
  next_call o h cur (api_prog o a) t r -> published t m ->
  exists w, forall p, holds m p ->
    (pl_inst p ∈ created t -> EvNow w ∈ t /\ pl_when p = w /\ pl_note p = note_of_new o) /\
    (pl_inst p ∉ created t -> exists om q, cur = Some om /\ holds om q /\ pl_inst q = pl_inst p /\ pl_when p = pl_when q /\
       pl_note p = if pl_reloadable p then "unchanged" else "not reloadable").
Proof.
  intros Hn Hpub.
  assert (Hold : forall p, holds m p -> pl_inst p ∉ created t -> exists om q, cur = Some om /\ holds om q /\ pl_inst q = pl_inst p /\ pl_when p = pl_when q /\
       pl_note p = if pl_reloadable p then "unchanged" else "not reloadable").
  { intros p Hp Hnc. destruct (published_plugins _ _ _ _ _ _ _ _ Hn Hpub Hp) as [[_ (Hb & _)]|(_ & _ & _ & om & q & -> & Hq & Hs & Hnote)]; [done|].
    exists om, q. destruct Hs as (_ & _ & _ & S1 & _ & _ & _ & S2 & _ & S3 & _). split_and!; [done|done|by symmetry|done|by rewrite S3]. }
  enough (exists w, forall p, holds m p -> pl_unchanged p = false -> EvNow w ∈ t /\ pl_when p = w /\ pl_note p = note_of_new o) as [w Hw].
  { exists w. intros p Hp. split; [|by apply Hold]. intros Hc. apply Hw; [done|]. by apply (new_iff _ _ _ _ _ _ _ _ Hn Hpub Hp). }
  unfold note_of_new. destruct (o_static o) as [statics|] eqn:Hs.
  - destruct (spub_inv _ _ _ _ _ _ _ _ Hs Hn Hpub) as (data & sel & s & tn & tl & P).
    destruct (spub_ok _ _ _ _ _ _ _ _ _ _ _ P) as (t1 & t2 & s1 & Htl & Hg & Hl).
    pose proof (sgathered_facts _ _ _ _ (proj1 (spub_made _ _ _ _ _ _ _ _ _ _ _ P)) Hg) as (G1 & G2 & G3 & G4 & G5 & _).
    apply exec_lifecycle in Hl; [|done..].
    destruct Hl as (t3 & t4 & t5 & t6 & t7 & _ & _ & _ & _ & _ & _ & _ & _ & Hcm & _).
    destruct (sgathered_lookup _ _ _ _ Hg) as [_ Hlook]. exists (pm_when s1). intros p Hp _.
    apply Plugins_lookup in Hp as [k Hk]. destruct (core_lookup m s1 k p Hcm Hk) as (q & Hq & Hc).
    destruct (Hlook k q Hq) as (name & sp & c1 & c2 & _ & _ & (_ & _ & _ & F4 & F5 & _) & _).
    assert (pl_when p = pl_when q) as -> by exact (f_equal pl_when Hc). assert (pl_note p = pl_note q) as -> by exact (f_equal pl_note Hc).
    split_and!; [|done|done]. rewrite (spub_trace _ _ _ _ _ _ _ _ _ _ _ P), Htl. destruct Hg as (now & ps & ts & _ & -> & ->).
    rewrite !elem_of_app. cbn [pm_when upd_when]. set_solver.
  - pose proof (run_pub _ _ _ _ _ _ _ (next_run _ _ _ _ _ _ Hn) Hpub)
      as (ta & s & t1 & s1 & t2 & ps & ks & tz & d & Ht & Hr & Hb & Sa & Sz & HG & HL).
    destruct (exec_lifecycle _ _ _ _ _ (g_ordered _ _ _ _ _ _ _ HG) (g_funcs _ _ _ _ _ _ _ HG) (g_types _ _ _ _ _ _ _ HG) HL)
      as (a1 & a2 & a3 & a4 & a5 & _ & _ & _ & _ & _ & _ & _ & _ & Hcore & _).
    destruct (g_when _ _ _ _ _ _ _ HG) as [w Hw]. exists w. intros p Hp Hu. apply Plugins_lookup in Hp as (k & Hk).
    assert (Hm : p ∈ mplugins (pm_map m)) by (apply elem_mplugins; by exists k).
    destruct (gath_members _ _ _ _ _ _ _ _ p HG Hcore Hm) as [[_ (q & Hq & He)]|[Hu' _]]; [|congruence].
    destruct (Hw q Hq) as [W1 W2]. split_and!.
    + rewrite Ht, !elem_of_app. tauto.
    + rewrite <- W2. exact (f_equal pl_when He).
    + destruct (pub_inv _ _ _ _ _ _ _ Hs Hn Hpub) as (data & cbs & tp & files & s' & tn & tl & add & P).
      pose proof (pub_sound _ _ _ _ _ _ _ _ _ _ _ _ _ _ _ P) as Hso.
      destruct (proj2 Hso k p Hk) as (_ & _ & _ & _ & _ & _ & _ & Hnote & _). by apply Hnote.
Qed.

(** However often a plugin has been carried over: its When was read from the clock by the very load that created it. *)
Theorem C68_when_is_the_time_of_creation o h m p : history o h (Some m) -> fresh_objects h -> holds m p ->
  exists h0 cur pr t r h1, h = h0 ++ t ++ h1 /\ next_call o h0 cur pr t r /\ pl_inst p ∈ created t /\ EvNow (pl_when p) ∈ t.
Proof.
  intros HH. remember (Some m) as cur eqn:Hcur. revert m p Hcur.
  induction HH as [|h cur pr t r HH IH HC HE HS]; [done|]. intros m p Hc HF Hp.
  assert (HF0 : fresh_objects h) by (unfold fresh_objects in *; rewrite created_app in HF; by apply NoDup_app in HF as (? & _)).
  assert (Hext : forall m0 q, cur = Some m0 -> holds m0 q -> exists h0 cur0 pr0 t0 r0 h1, h ++ t = h0 ++ t0 ++ h1 /\ next_call o h0 cur0 pr0 t0 r0 /\ pl_inst q ∈ created t0 /\ EvNow (pl_when q) ∈ t0).
  { intros m0 q H0 Hq. destruct (IH m0 q H0 HF0 Hq) as (h0 & cur0 & pr0 & t0 & r0 & h1 & -> & H1 & H2 & H3).
    exists h0, cur0, pr0, t0, r0, (h1 ++ t). split_and!; try done. by rewrite <- !(assoc_L (++)). }
  apply published_after in Hc as [->|Hpub]; [by eapply Hext|].
  assert (Hn : next_call o h cur pr t r) by done.
  assert (exists a, pr = api_prog o a) as [a ->].
  { destruct HC; [by exists (Call_LoadPlugins data)|by eexists (Call_Reload data _)]. }
  destruct (C68_when_and_note _ _ _ _ _ _ _ Hn Hpub) as [w Hw]. destruct (Hw p Hp) as [H1 H2].
  destruct (decide (pl_inst p ∈ created t)) as [Hin|Hni].
  - destruct (H1 Hin) as (W1 & W2 & _). exists h, cur, (api_prog o a), t, r, []. rewrite app_nil_r, W2. done.
  - destruct (H2 Hni) as (om & q & -> & Hq & <- & -> & _). by eapply Hext.
Qed.
End Props.

(** ** Concrete cases *)
(** The second load of Worlds.v keeps a and b, created at time 1000, and creates c at time 1003. *)
Example C68_case : next_call dyn t0 (Some m0) (api_prog dyn (Call_Reload 78 (Some 5%N))) t1 (snd run1) /\ published t1 m1 /\
  map (fun p => (pl_name p, pl_when p, pl_note p)) (Plugins m0) = [("a", 1000%N, ""); ("b", 1000%N, ""); ("c", 1000%N, "")] /\
  map (fun p => (pl_name p, pl_when p, pl_note p)) (Plugins m1) = [("a", 1000%N, "not reloadable"); ("b", 1000%N, "unchanged"); ("c", 1003%N, "")] /\
  history dyn (t0 ++ t1) (Some m1) /\ fresh_objects (t0 ++ t1).
Proof. split_and!; [apply second_load|apply published1|vm_compute; reflexivity..|apply history1|apply fresh1]. Qed.
Example C68_static_case : next_call stat [] None (api_prog stat (Call_LoadPlugins 1)) t_stat (snd (demo_run 0 world0 stat (Call_LoadPlugins 1))) /\
  omap (fun e => match e with EvStore m => Some (map (fun p => (pl_name p, pl_when p, pl_note p)) (Plugins m)) | _ => None end) t_stat =
    [[("a", 1000%N, "ok"); ("b", 1000%N, "ok"); ("c", 1000%N, "ok")]].
Proof. split; [apply C31_case|vm_compute; reflexivity]. Qed.

Print Assumptions C68_when_and_note.
Print Assumptions C68_when_is_the_time_of_creation.
