(** Every way in which opening one plugin can fail *)
From Verif Require Export FileProofs.

Section Proofs.
Context {E : GoEnv}.

(** the plugin's private copy was made and opened: handle [h], new object [j] *)
Definition open_head (s : mgr) (i : fileInfo) (j : inst) (r : outcome handle) : list event :=
  [EvMkdir (copy_dir (pm_dirName s) i) None; EvWriteFile (copy_dst (pm_dirName s) i) (fi_data i) None;
   EvNewInst (pm_id s) (fi_name i) j; EvOpen (copy_dst (pm_dirName s) i) r].
Definition lookups (h : handle) (ans : role -> option gvalue) (rs : list role) : list event :=
  map (fun r => EvLookupSym h (role_symbol r) (ans r)) rs.
(** the call of a function of the plugin panicked, or the function is nil *)
Definition call_panic (mid : N) (name : string) (j : inst) (f : option N) (r : role) (x : gpanic) : list event -> Prop := fun t =>
  (f = None /\ x = PNil /\ t = []) \/
  (exists c, f = Some c /\ t = [EvCall r (mkCallee mid name j c) ArgNone (Pan x)] /\ outside_panic x).

Inductive open_error (s : mgr) (i : fileInfo) : list event -> outcome unit -> Prop :=
  | oe_mkdir e : outside e -> open_error s i [EvMkdir (copy_dir (pm_dirName s) i) (Some e)] (Err e)
  | oe_write e : outside e -> open_error s i
      [EvMkdir (copy_dir (pm_dirName s) i) None; EvWriteFile (copy_dst (pm_dirName s) i) (fi_data i) (Some e)] (Err e)
  | oe_open j e : outside e -> open_error s i (open_head s i j (Err e)) (Err e)
  | oe_init j x : outside_panic x -> open_error s i (open_head s i j (Pan x)) (Pan x)
  | oe_type j h ans rs r rs' sym o : funcItems = rs ++ r :: rs' -> ans r = Some sym -> sym_value r sym = None ->
      (forall r' v, r' ∈ rs -> ans r' = Some v -> sym_value r' v <> None) ->
      (o = Err (ECannotAssign (role_symbol r)) \/ o = Pan PNil) ->
      open_error s i (open_head s i j (Val h) ++ lookups h ans (rs ++ [r])) o
  | oe_missing j h ans r : ans r = None ->
      (forall r' v, ans r' = Some v -> sym_value r' v <> None) ->
      open_error s i (open_head s i j (Val h) ++ lookups h ans funcItems)
        (Err (EMissingFuncs (map role_symbol (List.filter (fun r => bool_decide (ans r = None)) funcItems))))
  | oe_reloadable j h ans f x t : (forall r, exists sym v, ans r = Some sym /\ sym_value r sym = Some v /\ get_func r f = code_of v) ->
      call_panic (pm_id s) (fi_name i) j (get_func RReloadable f) RReloadable x t ->
      open_error s i (open_head s i j (Val h) ++ lookups h ans funcItems ++ t) (Err (EPanic (Some (fi_name i)) x))
  | oe_export j h ans f c b x t : (forall r, exists sym v, ans r = Some sym /\ sym_value r sym = Some v /\ get_func r f = code_of v) ->
      get_func RReloadable f = Some c ->
      call_panic (pm_id s) (fi_name i) j (get_func RExport f) RExport x t ->
      open_error s i (open_head s i j (Val h) ++ lookups h ans funcItems ++
         EvCall RReloadable (mkCallee (pm_id s) (fi_name i) j c) ArgNone (Val b) :: t) (Err (EPanic (Some (fi_name i)) x)).

(** an answer function agreeing with [ans] except at [r] *)
Definition upd_ans (ans : role -> option gvalue) (r : role) (v : option gvalue) : role -> option gvalue :=
  fun r' => if decide (r' = r) then v else ans r'.
Lemma lookups_upd h ans r v rs : r ∉ rs -> lookups h (upd_ans ans r v) rs = lookups h ans rs.
Proof.
  intros Hr. unfold lookups. apply map_ext_in. intros r' Hin. unfold upd_ans. rewrite decide_False; [done|].
  intros ->. apply Hr. by apply elem_of_list_In.
Qed.

Lemma sym_value_lookup p r h t o : pl_P p = Some h -> exec (Plugin_Lookup p (role_symbol r) (out_ptr r)) t o ->
  exists s, t = [EvLookupSym h (role_symbol r) s] /\
    match s with
    | None => o = Err ENotExist
    | Some sym => match sym_value r sym with
                  | Some v => o = Val v
                  | None => o = Err (ECannotAssign (role_symbol r)) \/ o = Pan PNil
                  end
    end.
Proof.
  intros Hp H. destruct (exec_Lookup_role _ _ _ _ _ Hp H) as (s & -> & Hs). exists s. split; [done|].
  destruct s as [sym|]; [|done]. unfold sym_value. destruct Hs as [[-> ->]|[-> Hs]]; [done|].
  destruct (gv_type sym) as [id e|id fs|id k]; [|by left..].
  destruct (assignable e (role_type r)); [|by left]. destruct (gv_pointee sym); [done|by right].
Qed.

Lemma exec_lookupAll_fail items : forall p missing h t o,
  pl_P p = Some h -> NoDup items -> exec (lookupAll items p missing) t o -> ~ is_val o ->
  exists ans rs r rs' sym, items = rs ++ r :: rs' /\ ans r = Some sym /\ sym_value r sym = None /\
    (forall r' v, r' ∈ rs -> ans r' = Some v -> sym_value r' v <> None) /\ t = lookups h ans (rs ++ [r]) /\
    (o = Err (ECannotAssign (role_symbol r)) \/ o = Pan PNil).
Proof.
  induction items as [|r items IH]; intros p missing h t o HP Hnd; cbn [lookupAll].
  - intros [-> ->] Hn. by destruct Hn.
  - apply NoDup_cons in Hnd as [Hr Hnd]. rewrite exec_bind. intros (u1 & u2 & o1 & -> & H1 & H2) Hn.
    destruct (sym_value_lookup _ _ _ _ _ HP H1) as (s & -> & Hs).
    assert (Hgo : forall p' m', pl_P p' = Some h -> exec (lookupAll items p' m') u2 o ->
      (forall v, s = Some v -> sym_value r v <> None) ->
      exists ans rs r0 rs' sym, r :: items = rs ++ r0 :: rs' /\ ans r0 = Some sym /\ sym_value r0 sym = None /\
        (forall r' v, r' ∈ rs -> ans r' = Some v -> sym_value r' v <> None) /\
        [EvLookupSym h (role_symbol r) s] ++ u2 = lookups h ans (rs ++ [r0]) /\
        (o = Err (ECannotAssign (role_symbol r0)) \/ o = Pan PNil)).
    { intros p' m' HP' Hx Hgood. destruct (IH _ _ _ _ _ HP' Hnd Hx Hn) as (ans & rs & r0 & rs' & sym & -> & Ha & Hv & Hg & -> & Ho).
      assert (Hne : r0 <> r) by (intros ->; apply Hr; apply elem_of_app; right; left).
      assert (Hnr : r ∉ rs ++ [r0]).
      { intros Hin. apply Hr. apply elem_of_app in Hin as [Hin|Hin]; apply elem_of_app; [by left|]. apply elem_of_list_singleton in Hin as ->. right; left. }
      exists (upd_ans ans r s), (r :: rs), r0, rs', sym. split_and!; try done.
      - unfold upd_ans. by rewrite decide_False.
      - intros r' v Hin Hav. unfold upd_ans in Hav. case_decide; [subst; by apply Hgood|]. apply elem_of_cons in Hin as [|Hin]; [done|]. by apply (Hg r').
      - change ((r :: rs) ++ [r0]) with (r :: (rs ++ [r0])).
        assert (lookups h (upd_ans ans r s) (r :: rs ++ [r0]) = EvLookupSym h (role_symbol r) (upd_ans ans r s r) :: lookups h (upd_ans ans r s) (rs ++ [r0])) as -> by done.
        rewrite lookups_upd by done. unfold upd_ans. by rewrite decide_True. }
    destruct s as [sym|].
    + destruct (sym_value r sym) as [v|] eqn:Hv.
      * subst o1. eapply Hgo; [|exact H2|]; [done|]. intros v' [= <-]. congruence.
      * exists (fun _ => Some sym), [], r, items, sym. destruct Hs as [->| ->]; apply exec_ret in H2 as [-> ->]; split_and!; try done; auto; intros r' v' Hin; by apply elem_of_nil in Hin.
    + subst o1. eapply Hgo; [|exact H2|]; done.
Qed.

Lemma exec_recovered_panic r mid p t x :
  exec (let* o := call r mid p ArgNone in Ret (recovered (pl_name p) o)) t (Err (EPanic (Some (pl_name p)) x)) ->
  call_panic mid (pl_name p) (pl_inst p) (get_func r (pl_funcs p)) r x t.
Proof.
  intros H. apply exec_recovered in H as (o1 & H & Ho). apply exec_call in H as [(Hf & -> & ->)|(c & Hf & Hv & ->)].
  - injection Ho as ->. by left.
  - right. exists c. split; [done|]. destruct o1 as [v|e|y]; simpl in Ho; [done| |].
    + exfalso. by destruct r.
    + injection Ho as ->. split; [done|]. by destruct r.
Qed.

Lemma exec_loadPlugin_fail i s t s' o : exec (loadPlugin (Some i) s) t (s', o) -> ~ is_val o -> open_error s i t o.
Proof.
  unfold loadPlugin. intros H Hn. apply exec_sbind in H as [(u1 & u2 & s1 & dst & -> & Hc & H)|(o1 & Hc & Hf)].
  2: { unfold copyPlugin in Hc. do 2 xinv Hc. destruct x as [e|].
       - xinv Hc. destruct o as [|e2|]; simpl in Hf; try done. subst e2. by apply oe_mkdir.
       - xinv Hc. destruct x as [e|]; xinv Hc; [|by destruct Hf]. destruct o as [|e2|]; simpl in Hf; try done. subst e2. by apply oe_write. }
  destruct (exec_copyPlugin _ _ _ _ _ Hc) as (-> & _ & _ & _ & Hd). destruct (Hd _ eq_refl) as [-> ->].
  rewrite sbind_sget in H. rewrite sbind_sdo in H. apply (proj1 (exec_act _ _ _ _)) in H as (j & u3 & _ & -> & H). cbv beta in H.
  apply exec_sbind in H as [(u4 & u5 & s2 & h & -> & Ho & H)|(o1 & Ho & Hf)].
  2: { apply exec_slift in Ho as [-> Ho]. apply exec_do in Ho as [Hv ->]. destruct o1 as [|e1|x1], o as [|e2|x2]; simpl in Hf; try done; subst.
       - by apply (oe_open s i j).
       - by apply (oe_init s i j). }
  apply exec_slift in Ho as [-> Ho]. apply exec_do in Ho as [_ ->]. cbv zeta in H.
  set (p := mkPlugin _ _ _ _ _ _ _ _ _ _ _ _ _) in H.
  apply exec_sbind in H as [(u6 & u7 & s3 & [p' miss] & -> & Hl & H)|(o1 & Hl & Hf)].
  2: { apply exec_slift in Hl as [-> Hl].
       destruct (exec_lookupAll_fail funcItems p [] h u5 o1) as (ans & rs & r & rs' & sym & Hit & Ha & Hv & Hg & -> & Hor);
         [done|apply funcItems_nodup|done|by destruct o1, o|].
       assert (Ho' : o = Err (ECannotAssign (role_symbol r)) \/ o = Pan PNil).
       { destruct Hor as [->| ->]; destruct o; simpl in Hf; try done; subst; auto. }
       exact (oe_type s i j h ans rs r rs' sym o Hit Ha Hv Hg Ho'). }
  apply exec_slift in Hl as [-> Hl].
  destruct (exec_lookupAll funcItems p [] h u6 _ eq_refl funcItems_nodup Hl) as (_ & Hlk).
  destruct (Hlk _ _ eq_refl) as (ans & f' & -> & Hmiss & -> & _ & Hnone & Hsome). clear Hlk.
  destruct miss as [|m1 miss].
  - assert (Hall : forall r, exists sym v, ans r = Some sym /\ sym_value r sym = Some v /\ get_func r f' = code_of v).
    { intros r. destruct (ans r) as [sym|] eqn:Ha.
      - destruct (Hsome r sym (funcItems_all r) Ha) as (v & ? & ?). eauto.
      - exfalso. symmetry in Hmiss. rewrite app_nil_l in Hmiss. apply map_eq_nil in Hmiss.
        assert (Hin : In r (List.filter (fun r => bool_decide (ans r = None)) funcItems)).
        { apply filter_In. split; [apply elem_of_list_In, funcItems_all|]. by apply bool_decide_eq_true. }
        by rewrite Hmiss in Hin. }
    unfold admitPlugin in H. rewrite sbind_sget in H.
    apply exec_sbind in H as [(u8 & u9 & s4 & b & -> & Hr & H)|(o1 & Hr & Hf)].
    + apply exec_slift in Hr as [-> Hr]. apply (exec_recovered_call RReloadable) in Hr as [(v & [= <-] & _ & _ & _ & c & Hc1 & ->)|(x & ? & _)]; [|done].
      cbv zeta in H. apply exec_sbind in H as [(u10 & u11 & s5 & v & -> & He & H)|(o1 & He & Hf)].
      * unfold smod in H. destruct H as [_ H]. injection H as _ ->. by destruct Hn.
      * apply exec_slift in He as [-> He].
        destruct o1 as [v|e|x]; [by destruct Hf| |].
        -- assert (exists y, e = EPanic (Some (fi_name i)) y) as [y ->].
           { apply (exec_recovered_call RExport) in He as [(v & ? & _)|(x & ? & _)]; [done|]. simplify_eq. eauto. }
           apply (exec_recovered_panic RExport _ (set_reloadable b (set_funcs f' p))) in He. simpl in He, Hc1.
           destruct o as [|e2|]; simpl in Hf; try done. subst e2.
           exact (oe_export s i j h ans f' c b y _ Hall Hc1 He).
        -- apply (exec_recovered_call RExport) in He as [(v & ? & _)|(y & ? & _)]; done.
    + apply exec_slift in Hr as [-> Hr]. destruct o1 as [v|e|x]; [by destruct Hf| |].
      * assert (exists y, e = EPanic (Some (fi_name i)) y) as [y ->].
        { apply (exec_recovered_call RReloadable) in Hr as [(v & ? & _)|(x & ? & _)]; [done|]. simplify_eq. eauto. }
        apply (exec_recovered_panic RReloadable _ (set_funcs f' p)) in Hr. simpl in Hr.
        destruct o as [|e2|]; simpl in Hf; try done. subst e2.
        exact (oe_reloadable s i j h ans f' y _ Hall Hr).
      * apply (exec_recovered_call RReloadable) in Hr as [(v & ? & _)|(y & ? & _)]; done.
  - xinv H. rewrite app_nil_r, Hmiss, app_nil_l.
    assert (exists r, ans r = None) as [r Hr].
    { symmetry in Hmiss. rewrite app_nil_l in Hmiss. destruct (List.filter _ funcItems) as [|r l] eqn:Hl'; [done|]. exists r.
      assert (Hin : In r (List.filter (fun r => bool_decide (ans r = None)) funcItems)) by (rewrite Hl'; by left).
      apply filter_In in Hin as [_ Hin]. by apply bool_decide_eq_true in Hin. }
    apply (oe_missing s i j h ans r Hr).
    intros r' v Ha. destruct (Hsome r' v (funcItems_all r') Ha) as (w & Hw & _). congruence.
Qed.

End Proofs.
