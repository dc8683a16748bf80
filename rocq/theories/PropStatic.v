(** C22 (one call), C31 - C33, C41: static mode, the reload counter, options. *)
From Verif Require Export PropSwapper.

Section Props.
Context {E : GoEnv}.

(** ** C22 *)
Lemma counted_app t1 t2 : counted (t1 ++ t2) = (counted t1 + counted t2)%nat.
Proof. unfold counted. by rewrite omap_app, app_length. Qed.
Lemma counted_none t : Forall (fun e => e <> EvAddCounter) t -> counted t = 0%nat.
Proof. intros H. unfold counted. rewrite omap_none; [done|]. eapply Forall_impl; [exact H|]. by intros []. Qed.
Lemma counted_inner t : Forall inner t -> counted t = 0%nat.
Proof. intros H. apply counted_none. eapply Forall_impl; [exact H|]. by intros []. Qed.

Theorem C22_one_call o h cur a t r : next_call o h cur (api_prog o a) t r ->
  counted t = match a, r with Call_Reload _ _, Val _ => 1%nat | _, _ => 0%nat end.
Proof.
  intros Hn. destruct (o_static o) as [st|] eqn:Hst.
  - destruct (next_static _ _ _ _ _ _ _ Hn Hst) as [(data & tb & -> & -> & Hs)|(data & extra & -> & -> & ->)]; [|done].
    destruct (static_shape _ _ _ _ _ _ Hs) as (ti & tz & -> & Hi & Hz).
    change (EvLock :: (ti ++ tz) ++ [EvUnlock]) with ([EvLock] ++ (ti ++ tz) ++ [EvUnlock]). rewrite !counted_app, (counted_inner _ Hi).
    by destruct Hz as [[-> _]|(new & d & -> & _)].
  - destruct (next_dir _ _ _ _ _ _ Hn Hst) as (tb & add & -> & Hd & Hadd).
    change (EvLock :: tb ++ add ++ [EvUnlock]) with ([EvLock] ++ tb ++ add ++ [EvUnlock]). rewrite !counted_app.
    assert (counted tb = 0%nat) as ->.
    { destruct (dir_shape _ _ _ _ _ Hd) as (ti & tz & -> & Hi & Hz). rewrite counted_app, (counted_inner _ Hi).
      destruct Hz as [[-> _]|(new & old & d & -> & _)]; [done|]. by destruct old. }
    subst add. destruct a; [done|]. destruct r as [d| |]; [rewrite decide_True by done|rewrite decide_False by (by intros [])..]; done.
Qed.

(** ** C32 *)
Theorem C32_reload_is_refused o data extra t r : StaticLinkingMode o = true ->
  exec (ReloadWithCallback o data extra) t r <-> t = [] /\ r = Err EStaticMode.
Proof. unfold StaticLinkingMode, ReloadWithCallback. destruct (o_static o); [|done]. intros _. simpl. naive_solver. Qed.

(** ** C41 *)
(** What the options in a list say about one setting: the last one counts, else the default. *)
Definition last_given {A} (default_value : A) (f : Option -> option A) (options : list Option) : A :=
  default default_value (last (omap f options)).

Lemma last_given_snoc {A} (d : A) f l x : last_given d f (l ++ [x]) = match f x with Some a => a | None => last_given d f l end.
Proof.
  unfold last_given. rewrite omap_app. cbn [omap list_omap]. destruct (f x); [by rewrite last_snoc|by rewrite app_nil_r].
Qed.
Theorem C41_last_option_counts options : NewPluginManagerSwapper options =
  {| o_newExt := last_given false (fun x => match x with WithExtensionNewer b => Some b | _ => None end) options;
     o_reloadCallback := last_given None (fun x => match x with WithReloadCallback cb => Some cb | _ => None end) options;
     o_freeDelay := last_given (300 * second)%Z (fun x => match x with WithFreeDelay d => Some d | _ => None end) options;
     o_whitelist := last_given [] (fun x => match x with WithWhitelist l => Some l | _ => None end) options;
     o_static := last_given None (fun x => match x with WithStaticPlugins s => Some s | _ => None end) options |}.
Proof.
  unfold NewPluginManagerSwapper. induction options as [|x l IH] using rev_ind; [done|].
  rewrite fold_left_app, IH. rewrite !last_given_snoc. by destruct x.
Qed.
(** Which setting an option is about. *)
Inductive setting := SLogger | SFreeDelay | SReloadCallback | SExtension | SStatic | SWhitelist.
Definition setting_of (x : Option) : setting :=
  match x with
  | WithLogger => SLogger | WithFreeDelay _ => SFreeDelay | WithReloadCallback _ => SReloadCallback | WithExtensionNewer _ => SExtension
  | WithStaticPlugins _ => SStatic | WithWhitelist _ => SWhitelist
  end.
#[global] Instance setting_eq_dec : EqDecision setting.
Proof. solve_decision. Defined.
Definition about (s : setting) (options : list Option) : list Option := List.filter (fun x => bool_decide (setting_of x = s)) options.

Lemma omap_about {A} (f : Option -> option A) s options : (forall x, setting_of x <> s -> f x = None) -> omap f (about s options) = omap f options.
Proof.
  intros Hf. unfold about. induction options as [|x l IH]; [done|]. cbn [List.filter]. case_bool_decide as Hs; cbn [omap list_omap]; [|rewrite (Hf x Hs)];
    unfold omap in *; by rewrite IH.
Qed.
(** The order of options about different settings does not matter. *)
Theorem C41_order_is_irrelevant options1 options2 : (forall s, about s options1 = about s options2) ->
  NewPluginManagerSwapper options1 = NewPluginManagerSwapper options2.
Proof.
  intros H. rewrite !C41_last_option_counts.
  assert (Hx : forall A (d : A) f s, (forall x, setting_of x <> s -> f x = None) -> last_given d f options1 = last_given d f options2).
  { intros A d f s Hf. unfold last_given. by rewrite <- (omap_about f s options1 Hf), <- (omap_about f s options2 Hf), H. }
  f_equal; [apply (Hx _ _ _ SExtension)|apply (Hx _ _ _ SReloadCallback)|apply (Hx _ _ _ SFreeDelay)|apply (Hx _ _ _ SWhitelist)|apply (Hx _ _ _ SStatic)];
    by intros [].
Qed.
Lemma given_snoc x l : (forall s, x <> WithStaticPlugins s) ->
  (exists l1 l2 table, l ++ [x] = l1 ++ WithStaticPlugins (Some table) :: l2 /\ forall s, WithStaticPlugins s ∉ l2) <->
  (exists l1 l2 table, l = l1 ++ WithStaticPlugins (Some table) :: l2 /\ forall s, WithStaticPlugins s ∉ l2).
Proof.
  intros Hx. split.
  - intros (l1 & l2 & tb & Heq & Hl). destruct l2 as [|y l2 _] using rev_ind.
    + apply app_inj_tail in Heq as [_ ->]. by destruct (Hx (Some tb)).
    + rewrite app_comm_cons, (assoc_L (++)) in Heq. apply app_inj_tail in Heq as [-> ->]. exists l1, l2, tb. split; [done|].
      intros s Hs. eapply Hl. apply elem_of_app. by left.
  - intros (l1 & l2 & tb & -> & Hl). exists l1, (l2 ++ [x]), tb. split; [by rewrite <- (assoc_L (++))|].
    intros s Hs. apply elem_of_app in Hs as [Hs|Hs]; [by eapply Hl|]. apply elem_of_list_singleton in Hs. by eapply Hx.
Qed.
Theorem C32_static_mode_iff_configured options : StaticLinkingMode (NewPluginManagerSwapper options) = true <->
  exists l1 l2 table, options = l1 ++ WithStaticPlugins (Some table) :: l2 /\ forall s, WithStaticPlugins s ∉ l2.
Proof.
  rewrite C41_last_option_counts. unfold StaticLinkingMode. cbn [o_static].
  induction options as [|x l IH] using rev_ind.
  - split; [done|]. intros (l1 & l2 & tb & H & _). by destruct l1.
  - rewrite last_given_snoc. destruct x as [| | | |s|]; cbn match.
    1-4,6: rewrite IH; symmetry; by apply given_snoc.
    split.
    + destruct s as [tb|]; [|done]. intros _. exists l, [], tb. split; [done|]. intros s Hs. by apply elem_of_nil in Hs.
    + intros (l1 & l2 & tb & Heq & Hl). destruct l2 as [|y l2 _] using rev_ind.
      * apply app_inj_tail in Heq as [_ [= ->]]. done.
      * rewrite app_comm_cons, (assoc_L (++)) in Heq. apply app_inj_tail in Heq as [_ <-]. exfalso. eapply Hl. apply elem_of_app. right. by left.
Qed.

(** ** C31 *)
(** The registrations a load takes: all of them, or those whitelisted. *)
Definition taken (o : opts) (n : string) : Prop := o_whitelist o = [] \/ n ∈ o_whitelist o.

Lemma selected_lookup o st sel n : selected o st sel -> sel !! n = if decide (taken o n) then st !! n else None.
Proof.
  unfold selected, taken. destruct (o_whitelist o) as [|x wl].
  - intros ->. rewrite decide_True; [done|by left].
  - intros H. rewrite H. destruct (decide (n ∈ x :: wl)); [rewrite decide_True; [done|by right]|rewrite decide_False; [done|naive_solver]].
Qed.

(** the plugins after a complete static load *)
Lemma static_ok_facts sel data s t m : blank_mgr s -> static_ok sel data s t m ->
  length (created t) = size sel /\
  (forall p, holds m p -> pl_inst p ∈ created t /\ exists n sp, sel !! n = Some (Some sp) /\ pl_name p = sp_name sp /\ pl_funcs p = sp_funcs sp /\ pl_P p = None /\ pl_sha1 p = "" /\ pl_note p = "ok" /\
     forall n' sp', sel !! n' = Some (Some sp') -> same_name (sp_name sp') (sp_name sp) -> str_le n' n) /\
  (forall n osp, sel !! n = Some osp -> exists sp p, osp = Some sp /\ holds m p /\ same_name (pl_name p) (sp_name sp)) /\
  map (fun p => name2key (pl_name p)) (Plugins m) = pm_ordered m /\ NoDup (pm_ordered m).
Proof.
  intros Hb (t1 & t2 & s1 & -> & Hg & Hl). destruct (sgathered_facts _ _ _ _ Hb Hg) as (G1 & G2 & G3 & G4 & G5 & G6 & G7).
  pose proof (life_refs _ _ _ _ _ G1 G2 G3 Hl) as Hrf. destruct (sgathered_lookup _ _ _ _ Hg) as [L1 L2]. pose proof (sgathered_keyed _ _ _ _ Hg) as Hky.
  apply exec_lifecycle in Hl; [|done..].
  destruct Hl as (u1 & u2 & u3 & u4 & u5 & _ & _ & _ & _ & _ & _ & _ & _ & Hcore & _ & _ & _ & _ & HI & _).
  destruct (HI (or_intror eq_refl)) as (_ & (_ & _ & _ & Hp & _) & _).
  assert (Hky' : keyed (pm_map m)) by (by eapply keyed_core).
  split_and!.
  - rewrite created_app, (rf_created _ _ _ _ _ Hrf), app_nil_r. destruct Hg as (now & ps & ts & HF & -> & _).
    change (created (EvNow now :: concat ts)) with (created (concat ts)).
    destruct (sopened_all_facts _ _ _ _ _ HF) as (_ & -> & _). rewrite map_length.
    assert (length (sort_strings (map_keys sel)) = length ps) as <-. { clear -HF. induction HF; simpl; congruence. }
    rewrite sort_strings_perm. unfold map_keys. by rewrite map_length.
  - intros p Hh. apply Plugins_lookup in Hh as [k Hk]. destruct (core_lookup _ _ _ _ Hcore Hk) as (q & Hq & Hc).
    destruct (L2 _ _ Hq) as (n0 & sp0 & c1 & c2 & _ & _ & _ & _ & _ & _ & ta & tz & Ht).
    destruct (sgathered_last _ _ _ _ _ _ Hg Hq) as (n & sp & Hn & Hfs & Hkk & Hlast).
    destruct Hfs as (F1 & _ & F4 & _ & F5 & _ & F2 & F3 & _).
    destruct (core_inst _ _ Hc) as (I1 & _ & I3).
    assert (pl_funcs p = pl_funcs q) by exact (f_equal pl_funcs Hc). assert (pl_P p = pl_P q) by exact (f_equal pl_P Hc). assert (pl_sha1 p = pl_sha1 q) by exact (f_equal pl_sha1 Hc).
    assert (pl_note p = pl_note q) by exact (f_equal pl_note Hc). split.
    + rewrite created_app. apply elem_of_app. left. rewrite Ht, !created_app, I1. apply elem_of_app. right. apply elem_of_app. left. cbn. left.
    + exists n, sp. split_and!; [done|congruence..|]. intros n' sp' Hn' Hsame. apply (Hlast n' sp' Hn'). rewrite <- Hkk. exact Hsame.
  - intros n osp Hn. destruct (L1 _ _ Hn) as (sp & -> & q & Hq).
    destruct (core_lookup s1 m _ _ (eq_sym Hcore) Hq) as (p & Hk & _). exists sp, p. split_and!; [done|by eapply elem_Plugins|].
    unfold same_name. apply (Hky' _ _ Hk).
  - by apply map_key_Plugins.
  - rewrite Hp. unfold map_keys. apply NoDup_fst_map_to_list.
Qed.

(** A static LoadPlugins that publishes a manager reports every registration it took as "ok"; every plugin of the new manager
    is new, was made from one of these registrations and has its functions, and that registration is the last, in the order of
    the names they are registered under, of those whose plugins have that name up to case; for every registration the manager has a plugin
    of that name (up to case). *)
Theorem C31_static_load o st h cur a t r m : next_call o h cur (api_prog o a) t r -> o_static o = Some st -> published t m ->
  exists data d, a = Call_LoadPlugins data /\ r = Val (Some d) /\
    (forall n note, d !! n = Some note <-> taken o n /\ is_Some (st !! n) /\ note = "ok") /\
    (forall p, holds m p -> pl_inst p ∈ created t /\
       exists n sp, taken o n /\ st !! n = Some (Some sp) /\ pl_name p = sp_name sp /\ pl_funcs p = sp_funcs sp /\ pl_sha1 p = "" /\ pl_note p = "ok" /\
         forall n' sp', taken o n' -> st !! n' = Some (Some sp') -> same_name (sp_name sp') (sp_name sp) -> str_le n' n) /\
    (forall n, taken o n -> is_Some (st !! n) -> exists sp p, st !! n = Some (Some sp) /\ holds m p /\ same_name (pl_name p) (sp_name sp)).
Proof.
  intros Hn Hst Hpub. destruct (spub_inv _ _ _ _ _ _ _ _ Hst Hn Hpub) as (data & sel & s & tn & tl & HP).
  destruct (static_ok_facts _ _ _ _ _ (proj1 (spub_made _ _ _ _ _ _ _ _ _ _ _ HP)) (spub_ok _ _ _ _ _ _ _ _ _ _ _ HP)) as (_ & F2 & F3 & _).
  destruct (spub_events _ _ _ _ _ _ _ _ _ _ _ HP) as (_ & _ & _ & Hcr & _).
  assert (Hsel : forall n, sel !! n = if decide (taken o n) then st !! n else None).
  { intros n. apply selected_lookup. apply HP. }
  pose proof (spub_res _ _ _ _ _ _ _ _ _ _ _ HP) as Hr.
  destruct (next_static _ _ _ _ _ _ _ Hn Hst) as [(data' & _ & -> & _)|(data' & extra & _ & -> & _)]; [|by apply elem_of_nil in Hpub].
  exists data', ((fun _ => "ok") <$> sel). split_and!; [done|done|..].
  - intros n note. rewrite lookup_fmap, Hsel. destruct (decide (taken o n)) as [Ht|Ht]; [|simpl; split; [done|by intros [? _]]].
    destruct (st !! n) as [x|]; simpl; split; [intros [= <-]; by eauto|by intros (_ & _ & ->)|done|by intros (_ & [? ?] & _)].
  - intros p Hp. destruct (F2 p Hp) as (G1 & n & sp & G2 & G3 & G4 & _ & G5 & G6 & G7). rewrite Hcr. split; [done|]. exists n, sp. rewrite Hsel in G2.
    destruct (decide (taken o n)); [|done]. split_and!; [done..|]. intros n' sp' T' Hn'. apply G7. by rewrite Hsel, decide_True.
  - intros n Ht [osp Hosp]. destruct (F3 n osp) as (sp & p & -> & Hp & Hs); [by rewrite Hsel, decide_True|]. by eauto.
Qed.

(** If two registrations the load takes have the same name up to case, nothing is refused, but the manager has fewer plugins
    than Details reports as "ok", and fewer than were started: at least one is lost. *)
Theorem C31_case_variants_are_dropped o st h cur a t d m n1 n2 sp1 sp2 : next_call o h cur (api_prog o a) t (Val (Some d)) ->
  o_static o = Some st -> published t m ->
  n1 <> n2 -> taken o n1 -> taken o n2 -> st !! n1 = Some (Some sp1) -> st !! n2 = Some (Some sp2) -> same_name (sp_name sp1) (sp_name sp2) ->
  (length (Plugins m) < size d)%nat /\ length (created t) = size d.
Proof.
  intros Hn Hst Hpub Hne T1 T2 S1 S2 Hsame. destruct (spub_inv _ _ _ _ _ _ _ _ Hst Hn Hpub) as (data & sel & s & tn & tl & HP).
  destruct (static_ok_facts _ _ _ _ _ (proj1 (spub_made _ _ _ _ _ _ _ _ _ _ _ HP)) (spub_ok _ _ _ _ _ _ _ _ _ _ _ HP)) as (F1 & F2 & _ & F4 & F5).
  destruct (spub_events _ _ _ _ _ _ _ _ _ _ _ HP) as (_ & _ & _ & Hcr & _).
  assert (Hsel : forall n, sel !! n = if decide (taken o n) then st !! n else None).
  { intros n. apply selected_lookup. apply HP. }
  pose proof (spub_res _ _ _ _ _ _ _ _ _ _ _ HP) as [= ->]. rewrite map_size_fmap, Hcr. split; [|done].
  set (key := fun x : string * option StaticPlugin => match snd x with Some sp => name2key (sp_name sp) | None => "" end).
  assert (Hsub : pm_ordered m ⊆+ map key (map_to_list (delete n2 sel))).
  { apply NoDup_submseteq; [done|]. intros k Hk. rewrite <- F4 in Hk. apply elem_of_list_fmap in Hk as (p & -> & Hp).
    destruct (F2 p Hp) as (_ & n & sp & Hn' & Hname & _). rewrite Hname. apply elem_of_list_fmap.
    destruct (decide (n = n2)) as [->|Hnn].
    - exists (n1, Some sp1). split; [|apply elem_of_map_to_list; rewrite lookup_delete_ne by done; by rewrite Hsel, decide_True].
      cbn. rewrite Hsel, decide_True in Hn' by done. assert (sp = sp2) as -> by congruence. unfold name2key. by symmetry.
    - exists (n, Some sp). split; [done|]. apply elem_of_map_to_list. by rewrite lookup_delete_ne. }
  apply submseteq_length in Hsub. rewrite map_length in Hsub. rewrite <- F4, map_length in Hsub.
  assert (Hsz : length (map_to_list (delete n2 sel)) = size (delete n2 sel)) by done. rewrite Hsz in Hsub.
  assert (H2 : is_Some (sel !! n2)). { exists (Some sp2). by rewrite Hsel, decide_True. }
  destruct H2 as [x Hx]. pose proof (map_size_delete_Some n2 sel (mk_is_Some _ _ Hx)) as Hd.
  assert (size sel <> 0)%nat. { intros H0. apply map_size_empty_inv in H0. subst sel. by rewrite lookup_empty in Hx. }
  rewrite Hd in Hsub. lia.
Qed.

(** ** C33 *)
(** A whitelisted name without a registration: nothing is touched, and the error names the first such name (unless the
    extension constructor panics first). *)
Theorem C33_unknown_name_is_refused o st h cur data t r l1 name l2 : next_call o h cur (LoadPlugins o data) t r -> o_static o = Some st ->
  o_whitelist o = l1 ++ name :: l2 -> st !! name = None -> (forall n, n ∈ l1 -> st !! n <> None) ->
  untouched t /\ after cur t = cur /\ (r = Err (ENoStatic name) \/ exists x, r = Pan x /\ EvNewExt (Pan x) ∈ t).
Proof.
  intros Hn Hst Hwl Hno Hl1. assert (Hname : name ∈ o_whitelist o) by (rewrite Hwl; apply elem_of_app; right; left).
  destruct (next_static o st h cur (Call_LoadPlugins data) t r Hn Hst) as [(data' & tb & _ & -> & Hs)|(? & ? & ? & _)]; [|done].
  assert (Hw : untouched tb -> (~ is_val r) -> untouched (EvLock :: tb ++ [EvUnlock]) /\ after cur (EvLock :: tb ++ [EvUnlock]) = cur).
  { intros Hu Hr. split.
    - intros e He. apply elem_of_cons in He as [->|He]; [done|]. apply elem_of_app in He as [He|He]; [by apply Hu|]. by apply elem_of_list_singleton in He as ->.
    - by apply (C08_failed_call_changes_nothing o h cur (Call_LoadPlugins data) _ r Hn). }
  destruct Hs as [mid dn x Hx Hy|tn s nm Hm _ Hin Hnone (k1 & k2 & Hk & Hkf)|tn s sel tl s' e Hm Hh _ Hf _ _|tn s sel tl new tc e Hm Hh _ Hf _ _ _|tn s sel tl new Hm Hh _ Hf _ _].
  - destruct Hw as [H1 H2]; [|by intros []|].
    + intros e He. rewrite !elem_of_cons, elem_of_nil in He. by destruct He as [->|[->|?]].
    + split_and!; [done..|]. right. exists x. split; [done|]. right. right. left.
  - assert (nm = name) as ->.
    { rewrite Hwl in Hk. clear -Hk Hno Hl1 Hnone Hkf. revert k1 Hk Hkf. induction l1 as [|y l IH]; intros [|z k] Hk Hkf.
      - by injection Hk.
      - injection Hk as -> _. exfalso. apply (Hkf z); [left|done].
      - injection Hk as -> _. exfalso. apply (Hl1 nm); [left|done].
      - injection Hk as -> Hk. apply (IH (fun n Hn => Hl1 n (elem_of_list_further _ _ _ Hn)) k Hk). intros n Hn. apply Hkf. by right. }
    destruct Hw as [H1 H2]; [by eapply made_untouched|by intros []|]. split_and!; [done..|by left].
  - exfalso. by eapply Hf.
  - exfalso. by eapply Hf.
  - exfalso. by eapply Hf.
Qed.
(** Otherwise exactly the listed registrations are taken; repetitions make no difference. *)
Theorem C33_whitelisted_are_loaded o st h cur a t d : next_call o h cur (api_prog o a) t (Val (Some d)) -> o_static o = Some st -> o_whitelist o <> [] ->
  (forall n, n ∈ o_whitelist o -> is_Some (st !! n)) /\ (forall n, is_Some (d !! n) <-> n ∈ o_whitelist o) /\
  exists m, published t m /\ forall p, holds m p -> exists n sp, n ∈ o_whitelist o /\ st !! n = Some (Some sp) /\ pl_name p = sp_name sp /\ pl_funcs p = sp_funcs sp.
Proof.
  intros Hn Hst Hwl. destruct (next_static _ _ _ _ _ _ _ Hn Hst) as [(data & tb & -> & Ht & Hs)|(data & extra & _ & _ & ?)]; [|done].
  assert (Hp : exists m, published t m /\ forall n, n ∈ o_whitelist o -> st !! n <> None).
  { inversion Hs; subst. eexists. split; [|done]. unfold published. right. rewrite !elem_of_app. left. right. right. right. left. }
  destruct Hp as (m & Hpub & Hf). destruct (C31_static_load _ _ _ _ _ _ _ _ Hn Hst Hpub) as (data' & d' & _ & [= ->] & D1 & D2 & _).
  assert (Hreg : forall n, n ∈ o_whitelist o -> is_Some (st !! n)).
  { intros n Hin. specialize (Hf n Hin). destruct (st !! n); [by eexists|done]. }
  split_and!; [done| |exists m; split; [done|]].
  - intros n. split.
    + intros [note Hd]. apply D1 in Hd as ([?|?] & _); done.
    + intros Hin. exists "ok". apply D1. split_and!; [by right|by apply Hreg|done].
  - intros p Hp. destruct (D2 p Hp) as (_ & n & sp & [?|Ht'] & H1 & H2 & H3 & _); [done|]. by eauto 10.
Qed.
End Props.

(** ** Concrete cases *)
Example C22_case : next_call dyn t0 (Some m0) (api_prog dyn (Call_Reload 78 (Some 5%N))) t1 (snd run1) /\ is_val (snd run1) /\ counted t1 = 1%nat /\ counted t0 = 0%nat.
Proof. split_and!; [apply second_load|vm_compute; exact I|vm_compute; reflexivity..]. Qed.
Example C32_case : StaticLinkingMode stat = true /\ StaticLinkingMode dyn = false /\
  StaticLinkingMode (NewPluginManagerSwapper [WithStaticPlugins (Some statics_abc); WithFreeDelay 3; WithStaticPlugins None]) = false.
Proof. done. Qed.
Example C41_case : about SWhitelist [WithFreeDelay 3; WithWhitelist ["a"]; WithFreeDelay 9; WithWhitelist ["b"]] = [WithWhitelist ["a"]; WithWhitelist ["b"]] /\
  (forall s, about s [WithFreeDelay 3; WithWhitelist ["a"]; WithFreeDelay 9] = about s [WithWhitelist ["a"]; WithFreeDelay 3; WithFreeDelay 9]) /\
  o_freeDelay (NewPluginManagerSwapper [WithFreeDelay 3; WithWhitelist ["a"]; WithFreeDelay 9]) = 9%Z.
Proof. split_and!; [vm_compute; reflexivity|intros []; vm_compute; reflexivity|vm_compute; reflexivity]. Qed.

Definition t_stat := fst (demo_run 0 world0 stat (Call_LoadPlugins 1)).
Example C31_case : next_call stat [] None (api_prog stat (Call_LoadPlugins 1)) t_stat (snd (demo_run 0 world0 stat (Call_LoadPlugins 1))) /\
  o_static stat = Some statics_abc /\ omap (fun e => match e with EvStore m => Some (map pl_name (Plugins m)) | _ => None end) t_stat = [["a"; "b"; "c"]].
Proof. split_and!; [apply demo_first; [done|apply world0_ok|done]|done|vm_compute; reflexivity]. Qed.
Definition stat_variants : opts := NewPluginManagerSwapper [WithStaticPlugins (Some (list_to_map [("A", Some (reg "A")); ("a", Some (reg "a")); ("b", Some (reg "b"))]))].
Definition result_of (r : outcome (option Details)) : Details := match r with Val (Some d) => d | _ => ∅ end.
Definition d_variants := result_of (snd (demo_run 0 world0 stat_variants (Call_LoadPlugins 1))).
Example C31_variants_case :
  next_call stat_variants [] None (api_prog stat_variants (Call_LoadPlugins 1)) (fst (demo_run 0 world0 stat_variants (Call_LoadPlugins 1)))
    (Val (Some d_variants)) /\ size d_variants = 3%nat /\
  omap (fun e => match e with EvStore m => Some (map pl_name (Plugins m)) | _ => None end) (fst (demo_run 0 world0 stat_variants (Call_LoadPlugins 1))) = [["a"; "b"]].
Proof. split_and!; [apply demo_first; [done|apply world0_ok|vm_compute; reflexivity]|vm_compute; reflexivity..]. Qed.
(** three plugins are opened, of which two are in the manager; each of the two is started, the third is not *)
Example C02_variants_case : let t := fst (demo_run 0 world0 stat_variants (Call_LoadPlugins 1)) in
  next_call stat_variants [] None (api_prog stat_variants (Call_LoadPlugins 1)) t (Val (Some d_variants)) /\
  length (created t) = 3%nat /\ omap (fun e => match e with EvStore m => Some (map pl_name (new_in t m)) | _ => None end) t = [["a"; "b"]] /\
  map (fun c => (cs_role c, cs_name c, cs_inst c)) (List.filter (fun c => bool_decide (cs_role c = RExport \/ cs_role c = ROnInit)) (call_sigs t)) =
    [(RExport, "A", 1%N); (RExport, "a", 2%N); (RExport, "b", 3%N); (ROnInit, "a", 2%N); (ROnInit, "b", 3%N)].
Proof. split_and!; [apply C31_variants_case|vm_compute; reflexivity..]. Qed.
Definition stat_wl (l : list string) : opts := NewPluginManagerSwapper [WithStaticPlugins (Some statics_abc); WithWhitelist l].
Example C33_case : next_call (stat_wl ["a"; "x"; "y"]) [] None (LoadPlugins (stat_wl ["a"; "x"; "y"]) 1) (fst (demo_run 0 world0 (stat_wl ["a"; "x"; "y"]) (Call_LoadPlugins 1)))
    (Err (ENoStatic "x")) /\ statics_abc !! "x" = None.
Proof. split; [apply (demo_first (stat_wl ["a"; "x"; "y"]) world0 (Call_LoadPlugins 1)); [done|apply world0_ok|vm_compute; reflexivity]|vm_compute; reflexivity]. Qed.
Definition d_wl := result_of (snd (demo_run 0 world0 (stat_wl ["b"; "a"; "b"]) (Call_LoadPlugins 1))).
Example C33_loaded_case : map (fun n => d_wl !! n) ["a"; "b"; "c"] = [Some "ok"; Some "ok"; None] /\ next_call (stat_wl ["b"; "a"; "b"]) [] None (api_prog (stat_wl ["b"; "a"; "b"]) (Call_LoadPlugins 1))
    (fst (demo_run 0 world0 (stat_wl ["b"; "a"; "b"]) (Call_LoadPlugins 1))) (Val (Some d_wl)).
Proof. split; [vm_compute; reflexivity|]. apply demo_first; [done|apply world0_ok|vm_compute; reflexivity]. Qed.

Print Assumptions C22_one_call.
Print Assumptions C31_static_load.
Print Assumptions C31_case_variants_are_dropped.
Print Assumptions C32_reload_is_refused.
Print Assumptions C32_static_mode_iff_configured.
Print Assumptions C33_unknown_name_is_refused.
Print Assumptions C33_whitelisted_are_loaded.
Print Assumptions C41_last_option_counts.
Print Assumptions C41_order_is_irrelevant.
