(** C47: which files the builder takes. *)
From Verif Require Export ToolCopy PropGen.
Local Open Scope nat_scope.

(** ** Specification *)
Definition ends (suf s : string) : Prop := exists a, s = a +:+ suf.
Definition generated : list string := ["hotswap.bureau.go"; "hotswap.main.go"; "hotswap.live.go"].
(** is a file of this (base) name to be copied *)
Definition wanted (include exclude : option (string -> bool)) (name : string) : Prop :=
  (ends ".go" name /\ ~ ends "_test.go" name /\ name ∉ generated) \/
  (~ ends ".go" name /\ (exists inc, include = Some inc /\ inc name = true) /\ forall exc, exclude = Some exc -> exc name = false).
(** an entry of the tree below the plugin directory: the components of its path below that directory *)
Definition tree := list (list string * visit).
Definition good_tree (t : tree) : Prop := forall cs v, (cs, v) ∈ t -> Forall normal cs /\ (v = VFile -> cs <> []).
Definition walk_of (root : list string) (t : tree) : list (string * visit) := map (fun e => (render (root ++ fst e), snd e)) t.
Definition flawed (t : tree) : Prop := (exists cs e, (cs, VErr e) ∈ t) \/ (exists cs e, (cs, VDir (Some e)) ∈ t).

(** ** Proofs *)
Lemma has_suffix_spec suf s : has_suffix suf s = true <-> ends suf s.
Proof. split; [intros H; exists (trim_suffix suf s); by apply suffix_inv|]. intros [a ->]. apply suffix_app. Qed.
Lemma ends_base suf d b : no_slash suf -> ends suf (d +:+ "/" +:+ b) <-> ends suf b.
Proof.
  intros Hs. split.
  - intros [a E]. apply (f_equal list_ascii_of_string) in E. rewrite !las_app in E.
    apply app_eq_inv in E as [(k & E1 & E2)|(k & E1 & E2)].
    + exfalso. apply Hs. rewrite E2. apply in_or_app. right. by left.
    + change (list_ascii_of_string "/") with [slash] in E2. destruct k as [|c k].
      * exfalso. apply Hs. cbn [app] in E2. rewrite <- E2. by left.
      * injection E2 as _ E2. exists (string_of_list_ascii k). apply las_inj. rewrite las_app, list_ascii_of_string_of_list_ascii. done.
  - intros [a ->]. exists (d +:+ "/" +:+ a). by rewrite !str_app_assoc.
Qed.
Lemma suffix_render suf cs b : no_slash suf -> has_suffix suf (render (cs ++ [b])) = has_suffix suf b.
Proof.
  intros H. destruct (render_snoc cs b) as (d & -> & _). apply eq_bool_prop_intro. rewrite !Is_true_true, !has_suffix_spec. by apply ends_base.
Qed.
Lemma rel_below ps cs : Forall normal (ps ++ cs) -> cs <> [] -> Rel (render ps) (render (ps ++ cs)) = Some (join_with "/" cs).
Proof.
  intros H Hne. assert (Hp := H). apply Forall_app in Hp as [Hp _].
  destruct (Rel_render ps (ps ++ cs) Hp H) as (b & t & E & ->); [intros E; apply (f_equal length) in E; rewrite app_length in E; destruct cs; [done|cbn [length] in E; lia]|].
  destruct (strip_common_spec ps (ps ++ cs)) as (k & b0 & t0 & E' & E1 & E2 & Hd). rewrite E in E'. injection E' as <- <-.
  destruct b as [|x b].
  - rewrite app_nil_r in E1. subst k. apply app_inv_head in E2. by subst t.
  - exfalso. rewrite E1 in E2. rewrite <- app_assoc in E2. apply app_inv_head in E2. symmetry in E2. by apply (Hd x b x (b ++ cs)).
Qed.
Lemma rel_self ps : Forall normal ps -> Rel (render ps) (render ps) = Some ".".
Proof. intros H. unfold Rel. by rewrite Clean_render, String.eqb_refl. Qed.
Lemma resolve_dot r cs : forall st, Forall piece cs -> resolve r st (cs ++ ["."]) = rev st ++ nonempty cs.
Proof.
  induction cs as [|c cs IH]; intros st H; [by rewrite app_nil_r|].
  apply Forall_cons in H as [[->|(H1 & H2 & H3 & H4)] H]; [by apply IH|].
  cbn [resolve List.filter app]. destruct (String.eqb_spec c ""); [done|]. destruct (String.eqb_spec c "."); [done|].
  destruct (String.eqb_spec c ".."); [done|]. cbn [orb negb]. rewrite IH by done. cbn [rev]. by rewrite <- app_assoc.
Qed.
Lemma join_dot ts : Forall normal ts -> GoJoin [render ts; "."] = render ts.
Proof.
  intros H. unfold GoJoin. cbn [drop_empty]. unfold render at 1. cbn [String.append].
  change (Clean (render ts +:+ String slash ".") = render ts). unfold Clean.
  assert (E : rooted (render ts +:+ String slash ".") = true) by apply rooted_slash. rewrite E, split_app, (split_simple ".") by (unfold no_slash; cbn; intuition discriminate).
  rewrite resolve_dot by by apply render_pieces. cbn [rev app]. by rewrite render_nonempty.
Qed.
Lemma join_base cs b : normal b -> path_base (join_with "/" (cs ++ [b])) = b.
Proof.
  intros (H1 & _ & _ & H4). destruct cs as [|c l].
  - change (path_base b = b). assert (E := no_slash_base b H1 H4). done.
  - rewrite join_snoc by done. by apply path_base_slash.
Qed.
Lemma taken_spec inc exc ps cs b : Forall normal (ps ++ cs ++ [b]) ->
  takesFile inc exc (render (ps ++ cs ++ [b])) (join_with "/" (cs ++ [b])) = true <-> wanted inc exc b.
Proof.
  intros H. assert (Hb : normal b). { rewrite (assoc_L (++)) in H. apply Forall_app in H as [_ H]. by rewrite Forall_singleton in H. }
  unfold takesFile. rewrite (assoc_L (++)), !suffix_render, base_render, join_base by (done || (unfold no_slash; cbn; intuition discriminate)).
  assert (Hgo := has_suffix_spec ".go" b). assert (Htest := has_suffix_spec "_test.go" b). unfold wanted.
  assert (Hin : ends "_test.go" b -> ends ".go" b). { intros [a ->]. exists (a +:+ "_test"). by rewrite <- str_app_assoc. }
  destruct (has_suffix "_test.go" b).
  { split; [done|]. assert (Ht : ends "_test.go" b) by by apply Htest. intros [(_ & ? & _)|(? & _)]; [done|]. exfalso. auto. }
  assert (Ht : ~ ends "_test.go" b) by (intros Hx; apply Htest in Hx; done).
  destruct (has_suffix ".go" b).
  - assert (Hg : ends ".go" b) by by apply Hgo. rewrite negb_true_iff, bool_decide_eq_false. split; [intros Hx; left; by repeat split|].
    intros [(_ & _ & Hx)|(? & _)]; done.
  - assert (Hg : ~ ends ".go" b) by (intros Hx; apply Hgo in Hx; done). unfold rexMatch. split.
    + intros Hx. right. split; [done|]. destruct inc as [inc|]; [|done]. destruct exc as [exc|].
      * apply andb_true_iff in Hx as [Hx Hy]. split; [by exists inc|]. intros ? [= <-]. by apply negb_true_iff.
      * split; [by exists inc|]. done.
    + intros [(? & _)|(_ & (i & -> & Hi) & He)]; [done|]. destruct exc as [e|]; [|done]. by rewrite Hi, (He e).
Qed.

Definition base_of (cs : list string) : string := List.last cs "".
Lemma base_of_snoc cs b : base_of (cs ++ [b]) = b.
Proof. apply List.last_last. Qed.

Lemma collect_inv ps ts inc exc : Forall normal ps -> Forall normal ts -> forall t dirs files, good_tree t ->
  match collectLoop (render ps) (render ts) inc exc (walk_of ps t) dirs files with
  | Done (dirs', files') =>
      ~ flawed t /\
      dirs' = dirs ++ map (fun cs => render (ts ++ cs)) (omap (fun e => match snd e with VDir _ => Some (fst e) | _ => None end) t) /\
      exists fs, files' = files ++ map (join_with "/") fs /\ fs `sublist_of` (omap (fun e => match snd e with VFile => Some (fst e) | _ => None end) t) /\
        forall cs, cs ∈ fs <-> (cs, VFile) ∈ t /\ wanted inc exc (base_of cs)
  | Panics _ => flawed t
  end.
Proof.
  intros Hps Hts. induction t as [|[cs v] t IH]; intros dirs files Hg.
  - cbn. split; [by intros [(cs & e & H%elem_of_nil)|(cs & e & H%elem_of_nil)]|]. split; [by rewrite app_nil_r|]. exists []. split; [by rewrite app_nil_r|]. split; [done|].
    intros cs. split; [by intros ?%elem_of_nil|]. by intros [?%elem_of_nil _].
  - destruct (Hg cs v) as [Hcs Hf]; [by left|]. assert (Hg' : good_tree t) by (intros cs' v' Hin; apply Hg; by right).
    assert (Hall : Forall normal (ps ++ cs)) by by apply Forall_app.
    cbn [walk_of map fst snd collectLoop]. fold (walk_of ps t). destruct v as [e|[e|]|].
    + left. exists cs, e. by left.
    + assert (Hr : exists rel, Rel (render ps) (render (ps ++ cs)) = Some rel).
      { destruct cs as [|c l]; [rewrite app_nil_r, rel_self by done; by eexists|]. rewrite rel_below by done. by eexists. }
      destruct Hr as [rel ->]. right. exists cs, e. by left.
    + assert (Hr : exists rel, Rel (render ps) (render (ps ++ cs)) = Some rel /\ GoJoin [render ts; rel] = render (ts ++ cs)).
      { destruct cs as [|c l].
        - exists ".". rewrite !app_nil_r, rel_self by done. split; [done|]. by apply join_dot.
        - exists (join_with "/" (c :: l)). rewrite rel_below by done. split; [done|]. rewrite GoJoin_render, split_join; try done.
          + by rewrite nonempty_normal.
          + by apply normal_no_slash.
          + rewrite split_join; [by apply normal_piece|by apply normal_no_slash|done]. }
      destruct Hr as (rel & -> & ->). specialize (IH (dirs ++ [render (ts ++ cs)]) files Hg').
      destruct (collectLoop _ _ _ _ _ _ _) as [[dirs' files']|].
      * destruct IH as (H1 & H2 & fs & H3 & H4 & H5). split.
        { intros [(cs' & e & [[=]|H]%elem_of_cons)|(cs' & e & [[=]|H]%elem_of_cons)]; apply H1; [left|right]; by exists cs', e. }
        split; [by rewrite H2, <- (assoc_L (++))|]. exists fs. split; [done|]. split; [done|].
        intros cs'. rewrite H5, elem_of_cons. split; [tauto|]. intros [[[=]|?] ?]. done.
      * destruct IH as [(cs' & e & H)|(cs' & e & H)]; [left|right]; exists cs', e; by right.
    + specialize (Hf eq_refl). rewrite rel_below by done.
      assert (Ht : takesFile inc exc (render (ps ++ cs)) (join_with "/" cs) = true <-> wanted inc exc (base_of cs)).
      { destruct (exists_last Hf) as (l & b & E). subst cs. rewrite base_of_snoc. by apply taken_spec. }
      specialize (IH dirs (if takesFile inc exc (render (ps ++ cs)) (join_with "/" cs) then files ++ [join_with "/" cs] else files) Hg').
      destruct (collectLoop _ _ _ _ _ _ _) as [[dirs' files']|].
      * destruct IH as (H1 & H2 & fs & H3 & H4 & H5). split.
        { intros [(cs' & e & [[=]|H]%elem_of_cons)|(cs' & e & [[=]|H]%elem_of_cons)]; apply H1; [left|right]; by exists cs', e. }
        split; [done|]. destruct (takesFile inc exc (render (ps ++ cs)) (join_with "/" cs)).
        -- exists (cs :: fs). split; [by rewrite H3, <- (assoc_L (++))|]. split; [by apply sublist_skip|].
           intros cs'. rewrite !elem_of_cons, H5. split.
           ++ intros [->|[? ?]]; [|tauto]. split; [by left|]. by apply Ht.
           ++ intros [[[= ->]|?] ?]; [by left|]. by right.
        -- exists fs. split; [done|]. split; [by apply sublist_cons|]. intros cs'. rewrite elem_of_cons, H5. split; [tauto|].
           intros [[[= ->]|?] Hw]; [|done]. apply Ht in Hw. done.
      * destruct IH as [(cs' & e & H)|(cs' & e & H)]; [left|right]; exists cs', e; by right.
Qed.

Lemma sublist_NoDup {A} (l l' : list A) : l `sublist_of` l' -> NoDup l' -> NoDup l.
Proof.
  induction 1 as [|x l l' Hs IH|x l l' Hs IH]; [done| |].
  - intros [Hx H]%NoDup_cons. constructor; [|by apply IH]. intros Hin. apply Hx. eapply elem_of_submseteq; [exact Hin|by apply sublist_submseteq].
  - intros [Hx H]%NoDup_cons. by apply IH.
Qed.
(** ** C47 *)
(** The builder takes exactly the wanted files of the tree, as paths below the plugin directory. *)
Theorem C47_files_taken ps ts inc exc t dirs files : Forall normal ps -> Forall normal ts -> good_tree t ->
  collectFiles (render ps) (render ts) inc exc (walk_of ps t) = Done (dirs, files) ->
  forall rel, rel ∈ files <-> exists cs, rel = join_with "/" cs /\ (cs, VFile) ∈ t /\ wanted inc exc (base_of cs).
Proof.
  intros H1 H2 H3 E rel. assert (H := collect_inv ps ts inc exc H1 H2 t [] [] H3). unfold collectFiles in E. rewrite E in H.
  destruct H as (_ & _ & fs & -> & _ & H). rewrite app_nil_l, elem_of_list_fmap. split; intros (cs & -> & Hc); exists cs; (split; [done|]); by apply H.
Qed.
(** ... each once, in the order of the walk, *)
Theorem C47_once_and_in_order ps ts inc exc t dirs files : Forall normal ps -> Forall normal ts -> good_tree t ->
  collectFiles (render ps) (render ts) inc exc (walk_of ps t) = Done (dirs, files) ->
  files `sublist_of` map (join_with "/") (omap (fun e => match snd e with VFile => Some (fst e) | _ => None end) t) /\
  (NoDup (map fst t) -> NoDup files).
Proof.
  intros H1 H2 H3 E. assert (H := collect_inv ps ts inc exc H1 H2 t [] [] H3). unfold collectFiles in E. rewrite E in H.
  destruct H as (_ & _ & fs & -> & Hs & H). rewrite app_nil_l.
  assert (Hm : forall l l' : list (list string), l `sublist_of` l' -> map (join_with "/") l `sublist_of` map (join_with "/") l').
  { induction 1; cbn [map]; by constructor. }
  split; [by apply Hm|]. intros Hnd.
  assert (Hsub : forall t : tree, omap (fun e => match snd e with VFile => Some (fst e) | _ => None end) t `sublist_of` map fst t).
  { clear. induction t as [|[cs v] t IH]; [done|]. cbn [omap list_omap map fst snd]. destruct v; cbn; by constructor. }
  assert (Hn : NoDup fs). { eapply sublist_NoDup; [|exact Hnd]. etrans; [exact Hs|apply Hsub]. }
  apply (NoDup_fmap_2_strong (join_with "/")); [|done]. intros x y Hx Hy Exy. apply H in Hx as [Hx _]. apply H in Hy as [Hy _].
  apply H3 in Hx as [Hx1 Hx2], Hy as [Hy1 Hy2]. rewrite <- (split_join x), <- (split_join y); auto using normal_no_slash. by rewrite Exy.
Qed.
(** ... and creates the temporary copy of every directory of the tree.  It fails exactly if the walk or a MkdirAll fails. *)
Theorem C47_directories ps ts inc exc t dirs files : Forall normal ps -> Forall normal ts -> good_tree t ->
  collectFiles (render ps) (render ts) inc exc (walk_of ps t) = Done (dirs, files) ->
  forall d, d ∈ dirs <-> exists cs r, d = render (ts ++ cs) /\ (cs, VDir r) ∈ t.
Proof.
  intros H1 H2 H3 E d. assert (H := collect_inv ps ts inc exc H1 H2 t [] [] H3). unfold collectFiles in E. rewrite E in H.
  destruct H as (_ & -> & _). rewrite app_nil_l, elem_of_list_fmap. split.
  - intros (cs & -> & Hc). apply elem_of_list_omap in Hc as ([cs' v] & Hin & Hv). cbn [snd fst] in Hv. destruct v as [|r|]; try done. injection Hv as ->. by exists cs, r.
  - intros (cs & r & -> & Hin). exists cs. split; [done|]. apply elem_of_list_omap. by exists (cs, VDir r).
Qed.
Theorem C47_fails_only_on_errors ps ts inc exc t : Forall normal ps -> Forall normal ts -> good_tree t ->
  (exists e, collectFiles (render ps) (render ts) inc exc (walk_of ps t) = Panics e) <-> flawed t.
Proof.
  intros H1 H2 H3. assert (H := collect_inv ps ts inc exc H1 H2 t [] [] H3). fold (collectFiles (render ps) (render ts) inc exc (walk_of ps t)) in H.
  destruct (collectFiles _ _ _ _ _) as [[dirs files]|e]; split.
  - by intros [e ?].
  - intros Hf. by destruct H as [? _].
  - done.
  - intros _. by exists e.
Qed.
(** --exclude without --include has no effect, and --exclude never removes a .go file. *)
Theorem C47_exclude_spares_go_files ps ts inc exc exc' t dirs files dirs' files' : Forall normal ps -> Forall normal ts -> good_tree t ->
  collectFiles (render ps) (render ts) inc exc (walk_of ps t) = Done (dirs, files) ->
  collectFiles (render ps) (render ts) inc exc' (walk_of ps t) = Done (dirs', files') ->
  forall rel, ends ".go" rel -> rel ∈ files <-> rel ∈ files'.
Proof.
  intros H1 H2 H3 E E' rel Hr. rewrite (C47_files_taken _ _ _ _ _ _ _ H1 H2 H3 E), (C47_files_taken _ _ _ _ _ _ _ H1 H2 H3 E').
  assert (Hw : forall e e' cs, rel = join_with "/" cs -> (cs, VFile) ∈ t -> wanted inc e (base_of cs) -> wanted inc e' (base_of cs)).
  { intros e e' cs -> Hin [?|(Hn & _)]; [by left|]. exfalso. apply Hn. apply H3 in Hin as [_ Hne]. specialize (Hne eq_refl).
    destruct (exists_last Hne) as (l & b & El). subst cs. rewrite base_of_snoc. destruct l as [|x l]; [done|].
    rewrite join_snoc in Hr by done. eapply (ends_base ".go"); [|exact Hr]. unfold no_slash. cbn. intuition discriminate. }
  split; intros (cs & -> & Hin & Hc); exists cs; eauto.
Qed.
Theorem C47_exclude_alone ps ts exc t : Forall normal ps -> Forall normal ts -> good_tree t ->
  collectFiles (render ps) (render ts) None exc (walk_of ps t) = collectFiles (render ps) (render ts) None None (walk_of ps t).
Proof.
  intros H1 H2 H3. unfold collectFiles. generalize (@nil string) at 1 3. generalize (@nil string). revert H3.
  induction t as [|[cs v] t IH]; intros Hg fs ds; [done|]. assert (Hg' : good_tree t) by (intros cs' v' Hin; apply Hg; by right).
  cbn [walk_of map fst snd collectLoop]. fold (walk_of ps t). destruct v as [e|[e|]|]; [done| | |]; destruct (Rel _ _) as [rel|]; try done; by apply IH.
Qed.
Definition demo_tree : tree :=
  [([], VDir None); (["a.go"], VFile); (["a_test.go"], VFile); (["hotswap.live.go"], VFile); (["data.json"], VFile); (["secret.json"], VFile);
   (["sub"], VDir None); (["sub"; "_test.go"], VFile); (["sub"; "b.go"], VFile); (["sub"; "notes"], VFile)].
Definition json (s : string) : bool := has_suffix ".json" s.
Definition secret (s : string) : bool := has_prefix "secret" s || has_suffix ".go" s.
Example C47_case : collectFiles (render ["p"; "plug"]) (render ["p"; "tmp"]) (Some json) (Some secret) (walk_of ["p"; "plug"] demo_tree)
  = Done (["/p/tmp"; "/p/tmp/sub"], ["a.go"; "data.json"; "sub/b.go"]).
Proof. vm_compute. reflexivity. Qed.
Example C47_case_good : good_tree demo_tree.
Proof.
  assert (H : forallb (fun e => forallb (fun c => negb (String.eqb c "") && negb (String.eqb c ".") && negb (String.eqb c "..") && forallb (fun a => negb (Ascii.eqb a slash)) (list_ascii_of_string c)) (fst e)
    && match snd e, fst e with VFile, [] => false | _, _ => true end) demo_tree = true) by (vm_compute; reflexivity).
  intros cs v Hin. rewrite forallb_forall in H. apply elem_of_list_In in Hin. apply H in Hin. cbn [fst snd] in Hin. apply andb_true_iff in Hin as [Hc Hv]. split.
  - rewrite forallb_forall in Hc. apply Forall_forall. intros c Hc'. apply elem_of_list_In in Hc'. apply Hc in Hc'.
    rewrite !andb_true_iff, !negb_true_iff, !String.eqb_neq in Hc'. destruct Hc' as (((H1 & H2) & H3) & H4). split; [done|]. split; [done|]. split; [done|].
    intros Hs. rewrite forallb_forall in H4. apply H4 in Hs. done.
  - intros -> ->. done.
Qed.
Print Assumptions C47_files_taken.
Print Assumptions C47_once_and_in_order.
Print Assumptions C47_directories.
Print Assumptions C47_fails_only_on_errors.
Print Assumptions C47_exclude_spares_go_files.
Print Assumptions C47_exclude_alone.
