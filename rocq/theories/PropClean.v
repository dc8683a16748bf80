(** C63: static builds and `--clean` in the plugin directory. *)
From Verif Require Export ToolCopy ToolStatic PropGen.
Local Open Scope nat_scope.

(** ** Specification *)
(** the names of the files the tool generates in the plugin directory *)
Definition generated (b : string) : Prop := b = "hotswap.bureau.go" \/ b = "hotswap.main.go" \/ b = "hotswap.live.go".
(** the last component of a path below the plugin directory *)
Definition named (p : list string) (b : string) : Prop := exists q, p = q ++ [b].
(** at or below the directory hotswapbureau of the plugin directory *)
Definition in_bureau (p : list string) : Prop := exists q, p = "hotswapbureau" :: q.
(** a directory tree: no file has entries below it, and directories are there themselves *)
Definition well_formed (t : ptree) : Prop := forall p b n, t !! (p ++ [b]) = Some n -> p = [] \/ t !! p = Some NDir.
(** nothing of the tool is in the plugin directory *)
Definition pristine (t : ptree) : Prop :=
  (forall p b c, generated b -> t !! (p ++ [b]) <> Some (NFile c)) /\ (forall p, in_bureau p -> t !! p = None).
(** the state in which a build or `--clean` leaves the two directories *)
Notation left_by r := (fst (fst r)).

(** ** Lemmas *)
Lemma last_named p b : last p = Some b <-> named p b.
Proof. rewrite last_Some. split; intros [q ->]; by exists q. Qed.
Lemma marked_spec p : marked p = true <-> exists b, generated b /\ named p b.
Proof.
  unfold marked, baseName. rewrite existsb_exists. split.
  - intros (x & Hx & Heq). apply String.eqb_eq in Heq. destruct (last p) as [b|] eqn:E; cbn [default] in Heq.
    + change (id b = x) in Heq. unfold id in Heq. subst x. apply last_named in E. exists b. split; [|done]. cbn [hotswapFiles In] in Hx. unfold generated. intuition.
    + cbn in Heq. subst x. cbn [hotswapFiles In] in Hx. intuition discriminate.
  - intros (b & Hb & Hn). apply last_named in Hn. rewrite Hn. exists b. split; [|by apply String.eqb_eq].
    cbn [hotswapFiles In]. destruct Hb as [->|[->| ->]]; tauto.
Qed.
Lemma marked_app p b : marked (p ++ [b]) = true <-> generated b.
Proof.
  rewrite marked_spec. split; [|intros H; exists b; split; [done|by exists p]].
  intros (b' & H & q & E). apply app_inj_tail in E as [_ ->]. done.
Qed.
Lemma remove_marked_lookup t p : removeMarked t !! p = match t !! p with Some (NFile c) => if marked p then None else Some (NFile c) | x => x end.
Proof.
  unfold removeMarked. rewrite map_filter_lookup. destruct (t !! p) as [[c|]|]; [| |done]; cbn [mbind option_bind].
  - destruct (marked p) eqn:E; [rewrite option_guard_False|rewrite option_guard_True]; cbn [fst snd]; rewrite ?E; done.
  - by rewrite option_guard_True.
Qed.
Definition under (p : list string) : bool := match p with x :: _ => String.eqb x bureau | [] => false end.
Lemma under_spec p : under p = true <-> in_bureau p.
Proof.
  unfold under, in_bureau, bureau. destruct p as [|x p]; [split; [done|intros [q ?]; done]|].
  rewrite String.eqb_eq. split; [intros ->; by exists p|intros [q [= -> _]]; done].
Qed.
Lemma remove_bureau_lookup co t p : removeBureau co t !! p =
  match co, t !! [bureau] with true, Some NDir => if under p then None else t !! p | _, _ => t !! p end.
Proof.
  unfold removeBureau. destruct co; [|done]. destruct (t !! [bureau]) as [[c|]|] eqn:E; [done| |done].
  rewrite map_filter_lookup. change (match p with [] => false | x :: _ => String.eqb x bureau end) with (under p).
  destruct (t !! p) as [n|] eqn:Ep; cbn [mbind option_bind]; [|by destruct (under p)].
  destruct (under p) eqn:Eu; [rewrite option_guard_False|rewrite option_guard_True]; cbn [fst snd]; try done.
  - change (negb (under p) = true -> False). rewrite Eu. done.
  - change (negb (under p) = true). by rewrite Eu.
Qed.
Lemma write_node_cases p c s : (exists m, writeNode p c s = (s, Panics m)) \/
  (writeNode p c s = (mkDirs (<[p := NFile c]> (ds_plugin s)) (ds_out s), Done tt) /\ ds_plugin s !! p <> Some NDir).
Proof.
  unfold writeNode. destruct (ds_plugin s !! p) as [[c0|]|] eqn:E; [|left; eauto|].
  - destruct (removelast p) as [|x q]; [right; by split|]. destruct (ds_plugin s !! (x :: q)) as [[]|]; eauto; right; by split.
  - destruct (removelast p) as [|x q]; [right; by split|]. destruct (ds_plugin s !! (x :: q)) as [[]|]; eauto; right; by split.
Qed.

(** *** A relation kept by all steps: user files and directories stay *)
Record kept (t t' : ptree) : Prop := {
  k_user : forall p, marked p = false -> p <> [bureau] -> t' !! p = t !! p;
  k_bureau : t' !! [bureau] = t !! [bureau] \/ (t !! [bureau] = None /\ t' !! [bureau] = Some NDir);
  k_dir : forall p, t !! p = Some NDir -> t' !! p = Some NDir;
  k_nodir : forall p, p <> [bureau] -> t' !! p = Some NDir -> t !! p = Some NDir }.
Lemma bureau_not_marked : marked [bureau] = false. Proof. done. Qed.
Lemma kept_refl t : kept t t. Proof. split; auto. Qed.
Lemma kept_trans t1 t2 t3 : kept t1 t2 -> kept t2 t3 -> kept t1 t3.
Proof.
  intros [U1 B1 D1 N1] [U2 B2 D2 N2]. split.
  - intros p H1 H2. by rewrite U2, U1.
  - destruct B1 as [B1|[B1 B1']], B2 as [B2|[B2 B2']].
    + left. by rewrite B2. + right. rewrite <- B1. done. + right. rewrite B2. done. + congruence.
  - intros p H. by apply D2, D1.
  - intros p Hp H. by apply N1, N2.
Qed.
Lemma kept_remove t : kept t (removeMarked t).
Proof.
  split.
  - intros p H _. rewrite remove_marked_lookup, H. by destruct (t !! p) as [[]|].
  - left. rewrite remove_marked_lookup, bureau_not_marked. by destruct (t !! [bureau]) as [[]|].
  - intros p H. by rewrite remove_marked_lookup, H.
  - intros p _. rewrite remove_marked_lookup. destruct (t !! p) as [[]|]; [by destruct (marked p)|done|done].
Qed.
Lemma kept_insert t p c : marked p = true -> t !! p <> Some NDir -> kept t (<[p := NFile c]> t).
Proof.
  intros Hm Hd. split.
  - intros q H _. rewrite lookup_insert_ne; [done|congruence].
  - left. rewrite lookup_insert_ne; [done|]. intros ->. done.
  - intros q H. rewrite lookup_insert_ne; [done|congruence].
  - intros q _. destruct (decide (q = p)) as [->|Hne]; [by rewrite lookup_insert|by rewrite lookup_insert_ne].
Qed.
Lemma kept_write p c s : marked p = true -> kept (ds_plugin s) (ds_plugin (fst (writeNode p c s))).
Proof. intros H. destruct (write_node_cases p c s) as [[m ->]|[-> Hd]]; [apply kept_refl|]. by apply kept_insert. Qed.
Lemma kept_bureau text s : kept (ds_plugin s) (ds_plugin (fst (genBureau text s))).
Proof.
  unfold genBureau. assert (H : ds_plugin s !! [bureau] = None \/ ds_plugin s !! [bureau] = Some NDir ->
    kept (ds_plugin s) (ds_plugin (fst (writeNode [bureau; "hotswap.bureau.go"] text (mkDirs (<[[bureau] := NDir]> (ds_plugin s)) (ds_out s)))))).
  { intros H. eapply kept_trans; [|by apply kept_write]. cbn [ds_plugin]. split.
    - intros p _ Hp. by rewrite lookup_insert_ne.
    - rewrite lookup_insert. destruct H as [H|H]; [right; done|left; done].
    - intros p Hp. destruct (decide (p = [bureau])) as [->|Hne]; [by rewrite lookup_insert|by rewrite lookup_insert_ne].
    - intros p Hp. by rewrite lookup_insert_ne. }
  destruct (ds_plugin s !! [bureau]) as [[c|]|] eqn:E; [apply kept_refl| |]; apply H; auto.
Qed.
Lemma kept_main pkg text s : kept (ds_plugin s) (ds_plugin (fst (genMain pkg text s))).
Proof. unfold genMain. destruct pkg; [|apply kept_refl]. by apply kept_write. Qed.
Lemma kept_lives stop lives s : kept (ds_plugin s) (ds_plugin (left_by (genLives stop lives s))).
Proof.
  revert stop s. induction lives as [|[dir text] lives IH]; intros stop s; cbn [genLives]; [apply kept_refl|].
  assert (Hw := kept_write (dir ++ ["hotswap.live.go"]) text s ltac:(apply marked_app; unfold generated; tauto)).
  assert (H : kept (ds_plugin s) (ds_plugin (left_by (let r := writeNode (dir ++ ["hotswap.live.go"]) text s in
     match snd r with Panics _ => (r, false) | Done _ => genLives (option_map pred stop) lives (fst r) end)))).
  { cbv zeta. destruct (writeNode _ text s) as [s1 [u|m]]; cbn [fst snd] in *; [|done]. by eapply kept_trans; [|apply IH]. }
  destruct stop as [[|n]|]; [apply kept_refl|exact H|exact H].
Qed.
Lemma kept_epilogue j s : ds_plugin (fst (epilogue j s)) = ds_plugin s.
Proof.
  unfold epilogue. destruct (jb_gen j); [|done]. destruct (writeFile _ _ _); [|done]. by destruct (writeFile _ _ _).
Qed.
Lemma remove_static_plugin co outBase s : ds_plugin (fst (removeStaticFiles co outBase s)) = removeBureau co (removeMarked (ds_plugin s)).
Proof. unfold removeStaticFiles. by destruct (removeInitFiles outBase (ds_out s)). Qed.
Lemma and_then_kept t r f : kept t (ds_plugin (fst r)) -> (forall s, kept (ds_plugin s) (ds_plugin (fst (f s)))) -> kept t (ds_plugin (fst (andThen r f))).
Proof. intros H1 H2. unfold andThen. destruct r as [s [u|m]]; cbn [fst snd] in *; [|done]. by eapply kept_trans. Qed.
Lemma kept_job j s : kept (ds_plugin s) (ds_plugin (left_by (staticJob j s))).
Proof.
  unfold staticJob. destruct (jb_early j); [apply kept_refl|]. destruct (jb_found j) as [lives|m]; [|apply kept_refl]. cbv zeta.
  assert (H : kept (ds_plugin s) (ds_plugin (fst (andThen (removeStaticFiles false (jb_outBase j) s)
    (fun s => andThen (genBureau (jb_bureau j) s) (genMain (jb_pkg j) (jb_main j))))))).
  { apply and_then_kept; [rewrite remove_static_plugin; apply kept_remove|]. intros s1. apply and_then_kept; [apply kept_bureau|apply kept_main]. }
  destruct (andThen _ _) as [s1 [u|m]]; cbn [fst snd] in *; [|done].
  assert (H1 := kept_trans _ _ _ H (kept_lives (jb_stop j) lives s1)).
  destruct (genLives (jb_stop j) lives s1) as [r b]; cbn [fst snd] in *. destruct b; [|done]. cbn [fst].
  unfold andThen. destruct r as [s2 [u2|m2]]; cbn [fst snd] in *; [|done]. by rewrite kept_epilogue.
Qed.

(** ** C63 *)
(** A static build, however it ends - regularly, with an error or interrupted -, leaves everything in the plugin directory alone except files of
    the three generated names; all it can add beside those is the directory hotswapbureau. *)
Theorem C63_build_keeps_user_files j s : let t := ds_plugin s in let t' := ds_plugin (left_by (staticJob j s)) in
  (forall p b, ~ generated b -> p ++ [b] <> ["hotswapbureau"] -> t' !! (p ++ [b]) = t !! (p ++ [b])) /\
  (forall p, t !! p = Some NDir -> t' !! p = Some NDir) /\
  (t' !! ["hotswapbureau"] = t !! ["hotswapbureau"] \/ (t !! ["hotswapbureau"] = None /\ t' !! ["hotswapbureau"] = Some NDir)).
Proof.
  cbv zeta. destruct (kept_job j s) as [U B D _]. split; [|split; done]. intros p b Hb Hp. apply U; [|done].
  destruct (marked (p ++ [b])) eqn:E; [|done]. by apply marked_app in E.
Qed.

(** *** Closed forms *)
Lemma nodup_fst_inj {A B} (l : list (A * B)) a b b' : List.NoDup (map fst l) -> In (a, b) l -> In (a, b') l -> b = b'.
Proof.
  induction l as [|[x y] l IH]; [done|]. cbn [map fst]. intros [Hn Hnd]%List.NoDup_cons_iff [E1|H1] [E2|H2].
  - congruence.
  - injection E1 as -> ->. by destruct Hn; apply (in_map fst) in H2.
  - injection E2 as -> ->. by destruct Hn; apply (in_map fst) in H1.
  - by apply IH.
Qed.
Definition put (t : ptree) (l : list string * string) : ptree := <[fst l ++ ["hotswap.live.go"] := NFile (snd l)]> t.
Lemma lives_done stop lives s s' u : genLives stop lives s = ((s', Done u), true) -> s' = mkDirs (foldl put (ds_plugin s) lives) (ds_out s).
Proof.
  revert stop s. induction lives as [|[dir text] lives IH]; intros stop s; cbn [genLives].
  - intros [= <- _]. by destruct s.
  - assert (H : (let r := writeNode (dir ++ ["hotswap.live.go"]) text s in
      match snd r with Panics _ => (r, false) | Done _ => genLives (option_map pred stop) lives (fst r) end) = ((s', Done u), true) ->
      s' = mkDirs (foldl put (ds_plugin s) ((dir, text) :: lives)) (ds_out s)).
    { cbv zeta. destruct (write_node_cases (dir ++ ["hotswap.live.go"]) text s) as [[m ->]|[-> _]]; [done|]. cbn [fst snd]. intros H.
      apply IH in H. cbn [ds_plugin ds_out] in H. exact H. }
    destruct stop as [[|n]|]; [done|exact H|exact H].
Qed.
Lemma live_inj d d' : d ++ ["hotswap.live.go"] = d' ++ ["hotswap.live.go"] -> d = d'.
Proof. intros H. by apply app_inj_tail in H as [-> _]. Qed.
Lemma put_lookup lives t p : List.NoDup (map fst lives) ->
  (exists dir c, In (dir, c) lives /\ p = dir ++ ["hotswap.live.go"] /\ foldl put t lives !! p = Some (NFile c)) \/
  ((forall dir c, In (dir, c) lives -> p <> dir ++ ["hotswap.live.go"]) /\ foldl put t lives !! p = t !! p).
Proof.
  revert t. induction lives as [|[dir text] lives IH]; intros t Hnd; cbn [foldl].
  - right. split; [by intros ? ? []|done].
  - cbn [map fst] in Hnd. apply List.NoDup_cons_iff in Hnd as [Hn Hnd]. destruct (IH (put t (dir, text)) Hnd) as [(d & c & Hin & Hp & Hl)|[Hno Hl]].
    + left. exists d, c. split; [by right|done].
    + destruct (decide (p = dir ++ ["hotswap.live.go"])) as [Hp|Hp].
      * left. exists dir, text. split; [by left|]. split; [done|]. rewrite Hl. unfold put. cbn [fst snd]. rewrite <- Hp. apply lookup_insert.
      * right. split.
        -- intros d c [[= <- <-]|Hin]; [done|by eapply Hno].
        -- rewrite Hl. unfold put. cbn [fst snd]. by rewrite lookup_insert_ne.
Qed.
Lemma bureau_done text s s' u : genBureau text s = (s', Done u) ->
  s' = mkDirs (<[[bureau; "hotswap.bureau.go"] := NFile text]> (<[[bureau] := NDir]> (ds_plugin s))) (ds_out s).
Proof.
  unfold genBureau. assert (H : writeNode [bureau; "hotswap.bureau.go"] text (mkDirs (<[[bureau] := NDir]> (ds_plugin s)) (ds_out s)) = (s', Done u) ->
    s' = mkDirs (<[[bureau; "hotswap.bureau.go"] := NFile text]> (<[[bureau] := NDir]> (ds_plugin s))) (ds_out s)).
  { destruct (write_node_cases [bureau; "hotswap.bureau.go"] text (mkDirs (<[[bureau] := NDir]> (ds_plugin s)) (ds_out s))) as [[m ->]|[-> _]]; [done|].
    intros [= <- _]. done. }
  destruct (ds_plugin s !! [bureau]) as [[c|]|]; [done|exact H|exact H].
Qed.
Lemma main_done pkg text s s' u : genMain pkg text s = (s', Done u) ->
  exists n, pkg = Done n /\ s' = mkDirs (<[["hotswap.main.go"] := NFile (text n)]> (ds_plugin s)) (ds_out s).
Proof.
  unfold genMain. destruct pkg as [n|]; [|done]. intros H. exists n. split; [done|].
  destruct (write_node_cases ["hotswap.main.go"] (text n) s) as [[m E]|[E _]]; rewrite E in H; [done|]. by injection H as <-.
Qed.
Lemma epilogue_done j s s' u : epilogue j s = (s', Done u) ->
  exists i, jb_gen j = Done i /\ s' = mkDirs (ds_plugin s) (<[tableFile := File (CTable (jb_outPkg j))]> (<[initFile (jb_plugin j) := File (CInit i)]> (ds_out s))).
Proof.
  unfold epilogue. destruct (jb_gen j) as [i|]; [|done]. destruct (writeFile (initFile _) _ _) as [d1|] eqn:E1; [|done].
  destruct (writeFile tableFile _ d1) as [d2|] eqn:E2; [|done]. intros [= <- _]. apply write_done in E1, E2. subst. eauto.
Qed.
Definition base_tree (j : job) (n : string) (t : ptree) : ptree :=
  <[["hotswap.main.go"] := NFile (jb_main j n)]> (<[[bureau; "hotswap.bureau.go"] := NFile (jb_bureau j)]> (<[[bureau] := NDir]> (removeMarked t))).
Definition prepared (j : job) (s : dirs) : dirs * tool unit :=
  andThen (removeStaticFiles false (jb_outBase j) s) (fun s => andThen (genBureau (jb_bureau j) s) (genMain (jb_pkg j) (jb_main j))).
Lemma prepared_done j s s' u : prepared j s = (s', Done u) -> exists n d,
  jb_pkg j = Done n /\ removeInitFiles (jb_outBase j) (ds_out s) = Done d /\ s' = mkDirs (base_tree j n (ds_plugin s)) d.
Proof.
  unfold prepared, removeStaticFiles. destruct (removeInitFiles (jb_outBase j) (ds_out s)) as [d|] eqn:Ed; [|done]. unfold andThen. cbn [fst snd removeBureau].
  destruct (genBureau (jb_bureau j) _) as [s1 [u1|]] eqn:E1; [|done]. cbn [fst snd].
  apply bureau_done in E1. cbn [ds_plugin ds_out] in E1. intros E2.
  apply main_done in E2 as (n & En & E2). exists n, d. subst. done.
Qed.
Lemma job_unfold j s : staticJob j s =
  if jb_early j then ((s, Done tt), false) else
  match jb_found j with
  | Panics m => ((s, Panics m), false)
  | Done lives =>
      match snd (prepared j s) with
      | Panics _ => (prepared j s, false)
      | Done _ =>
          let rb := genLives (jb_stop j) lives (fst (prepared j s)) in
          if snd rb then (andThen (fst rb) (epilogue j), true) else (fst rb, false)
      end
  end.
Proof. done. Qed.
Lemma job_done j s s' u : staticJob j s = ((s', Done u), true) -> exists lives n i d,
  jb_found j = Done lives /\ jb_pkg j = Done n /\ jb_gen j = Done i /\ removeInitFiles (jb_outBase j) (ds_out s) = Done d /\
  ds_plugin s' = foldl put (base_tree j n (ds_plugin s)) lives /\
  ds_out s' = <[tableFile := File (CTable (jb_outPkg j))]> (<[initFile (jb_plugin j) := File (CInit i)]> d).
Proof.
  rewrite job_unfold. destruct (jb_early j); [done|]. destruct (jb_found j) as [lives|m]; [|done].
  destruct (prepared j s) as [s2 [u2|]] eqn:E2; [|done]. cbn [fst snd]. apply prepared_done in E2 as (n & d & En & Ed & E2).
  destruct (genLives (jb_stop j) lives s2) as [[s3 r] b] eqn:E3. cbv zeta. destruct b; [|done]. cbn [fst snd].
  unfold andThen. cbn [fst snd]. destruct r as [u3|]; [|done]. apply lives_done in E3. destruct (epilogue j s3) as [s4 r4] eqn:E4. intros [= -> ->].
  apply epilogue_done in E4 as (i & Ei & E4). exists lives, n, i, d. subst. cbn [ds_plugin ds_out]. auto 10.
Qed.

(** After a build that came to its end, the files of the generated names are exactly the new ones: hotswap.main.go, hotswapbureau/hotswap.bureau.go and a
    hotswap.live.go in every directory with live functions or types.  Those of earlier builds are gone, wherever they were.
    [lives]: the directories found to have live names (no directory twice: they are the keys of a map), with the text generated. *)
Theorem C63_build_result j s s' u : staticJob j s = ((s', Done u), true) ->
  exists lives pkg, jb_found j = Done lives /\ jb_pkg j = Done pkg /\
  (List.NoDup (map fst lives) -> forall p b c, generated b ->
    (ds_plugin s' !! (p ++ [b]) = Some (NFile c) <->
      (p = [] /\ b = "hotswap.main.go" /\ c = jb_main j pkg) \/
      (p = ["hotswapbureau"] /\ b = "hotswap.bureau.go" /\ c = jb_bureau j) \/
      (b = "hotswap.live.go" /\ In (p, c) lives))).
Proof.
  intros H. apply job_done in H as (lives & n & i & d & Hl & Hn & _ & _ & Hp & _). exists lives, n. split; [done|]. split; [done|].
  intros Hnd p b c Hb. rewrite Hp.
  assert (Hbase : base_tree j n (ds_plugin s) !! (p ++ [b]) = Some (NFile c) <->
    (p = [] /\ b = "hotswap.main.go" /\ c = jb_main j n) \/ (p = ["hotswapbureau"] /\ b = "hotswap.bureau.go" /\ c = jb_bureau j)).
  { unfold base_tree. destruct (decide (p ++ [b] = ["hotswap.main.go"])) as [E|E].
    { rewrite E, lookup_insert. change ["hotswap.main.go"] with ([] ++ ["hotswap.main.go"]) in E. apply app_inj_tail in E as [-> ->]. split.
      - intros [= <-]. by left.
      - intros [(_ & _ & ->)|(? & _)]; done. }
    rewrite lookup_insert_ne by done. destruct (decide (p ++ [b] = [bureau; "hotswap.bureau.go"])) as [E1|E1].
    { rewrite E1, lookup_insert. change [bureau; "hotswap.bureau.go"] with ([bureau] ++ ["hotswap.bureau.go"]) in E1. apply app_inj_tail in E1 as [-> ->]. split.
      - intros [= <-]. by right.
      - intros [(? & _)|(_ & _ & ->)]; done. }
    rewrite lookup_insert_ne by done. destruct (decide (p ++ [b] = [bureau])) as [E2|E2].
    { change [bureau] with ([] ++ [bureau]) in E2. apply app_inj_tail in E2 as [-> ->]. unfold generated, bureau in Hb. intuition discriminate. }
    rewrite lookup_insert_ne by done. rewrite remove_marked_lookup. assert (Hm : marked (p ++ [b]) = true) by by apply marked_app. rewrite Hm.
    split; [by destruct (ds_plugin s !! (p ++ [b])) as [[]|]|]. intros [(-> & -> & _)|(-> & -> & _)]; done. }
  destruct (put_lookup lives (base_tree j n (ds_plugin s)) (p ++ [b]) Hnd) as [(dir & c' & Hin & E & ->)|[Hno ->]].
  - apply app_inj_tail in E as [-> ->]. split.
    + intros [= <-]. right. by right.
    + intros [(_ & ? & _)|[(_ & ? & _)|[_ Hin']]]; [done|done|]. f_equal. f_equal. eapply nodup_fst_inj; eauto.
  - rewrite Hbase. split; [tauto|]. intros [H|[H|[-> Hin]]]; [tauto|tauto|]. by destruct (Hno _ _ Hin).
Qed.

(** `--clean` removes every file of a generated name and everything in the directory hotswapbureau - whoever put it there - and nothing else. *)
Theorem C63_clean_result outBase s : let t := ds_plugin s in let t' := ds_plugin (fst (cleanJob outBase s)) in
  (forall p b c, generated b -> t' !! (p ++ [b]) <> Some (NFile c)) /\
  (t !! ["hotswapbureau"] = Some NDir -> forall p, in_bureau p -> t' !! p = None) /\
  (forall p b, ~ in_bureau (p ++ [b]) -> ~ generated b \/ t !! (p ++ [b]) = Some NDir -> t' !! (p ++ [b]) = t !! (p ++ [b])).
Proof.
  cbv zeta. unfold cleanJob. rewrite remove_static_plugin. set (t := ds_plugin s).
  assert (Hl : forall p, removeBureau true (removeMarked t) !! p = match t !! [bureau] with Some NDir => if under p then None else removeMarked t !! p | _ => removeMarked t !! p end).
  { intros p. rewrite remove_bureau_lookup, (remove_marked_lookup t [bureau]), bureau_not_marked. by destruct (t !! [bureau]) as [[]|]. }
  split; [|split].
  - intros p b c Hb. rewrite Hl. assert (H : removeMarked t !! (p ++ [b]) <> Some (NFile c)).
    { rewrite remove_marked_lookup. apply (marked_app p) in Hb. rewrite Hb. by destruct (t !! (p ++ [b])) as [[]|]. }
    destruct (t !! [bureau]) as [[]|]; [done|by destruct (under _)|done].
  - intros Hd p Hp. apply under_spec in Hp. change (t !! [bureau] = Some NDir) in Hd. by rewrite Hl, Hd, Hp.
  - intros p b Hp Hb. assert (Hu : under (p ++ [b]) = false) by (destruct (under (p ++ [b])) eqn:E; [by apply under_spec in E|done]).
    rewrite Hl, Hu. assert (H : removeMarked t !! (p ++ [b]) = t !! (p ++ [b])).
    { rewrite remove_marked_lookup. destruct (t !! (p ++ [b])) as [[c|]|] eqn:E; [|done|done]. destruct Hb as [Hb|Hb]; [|done].
      destruct (marked (p ++ [b])) eqn:Em; [by apply marked_app in Em|done]. }
    by destruct (t !! [bureau]) as [[]|].
Qed.
(** `--clean` undoes a static build, however the build ended: a plugin directory that had nothing of the tool in it before is as it was. *)
Theorem C63_clean_undoes j outBase s : pristine (ds_plugin s) ->
  ds_plugin (fst (cleanJob outBase (left_by (staticJob j s)))) = ds_plugin s.
Proof.
  intros [Hg Hb]. destruct (kept_job j s) as [U B D N]. unfold cleanJob. rewrite remove_static_plugin.
  set (t' := ds_plugin (left_by (staticJob j s))) in *. set (t := ds_plugin s) in *. apply map_eq. intros p.
  rewrite remove_bureau_lookup, (remove_marked_lookup t' [bureau]), bureau_not_marked, remove_marked_lookup.
  assert (Hn : t !! [bureau] = None) by (apply Hb; by exists []). rewrite Hn in B.
  assert (Hout : p <> [bureau] -> match t' !! p with Some (NFile c) => if marked p then None else Some (NFile c) | x => x end = t !! p).
  { intros Hp. destruct (marked p) eqn:Em.
    - assert (Ht : forall c, t !! p <> Some (NFile c)). { intros c. apply marked_spec in Em as (b & Hgb & q & ->). by apply Hg. }
      destruct (t' !! p) as [[c|]|] eqn:E.
      + destruct (t !! p) as [[c'|]|] eqn:Et; [by destruct (Ht c')| |done]. apply D in Et. congruence.
      + symmetry. by apply N.
      + destruct (t !! p) as [[c'|]|] eqn:Et; [by destruct (Ht c')| |done]. apply D in Et. congruence.
    - rewrite <- U by done. by destruct (t' !! p) as [[]|]. }
  destruct B as [B|[_ B]]; rewrite B.
  - destruct (decide (p = [bureau])) as [->|Hp]; [by rewrite B, Hn|by apply Hout].
  - destruct (under p) eqn:Eu.
    + symmetry. apply Hb. by apply under_spec.
    + apply Hout. intros ->. done.
Qed.

(** *** Building again *)
Definition same_dirs (t t' : ptree) : Prop := forall p, t !! p = Some NDir <-> t' !! p = Some NDir.
Lemma same_after t p c : t !! p <> Some NDir -> same_dirs t (<[p := NFile c]> t).
Proof. intros H q. destruct (decide (q = p)) as [->|Hne]; [by rewrite lookup_insert|by rewrite lookup_insert_ne]. Qed.
Lemma same_trans t1 t2 t3 : same_dirs t1 t2 -> same_dirs t2 t3 -> same_dirs t1 t3.
Proof. intros H1 H2 p. specialize (H1 p). specialize (H2 p). tauto. Qed.
Lemma same_sym t1 t2 : same_dirs t1 t2 -> same_dirs t2 t1.
Proof. intros H p. specialize (H p). tauto. Qed.
Lemma same_remove t : same_dirs t (removeMarked t).
Proof. intros p. rewrite remove_marked_lookup. destruct (t !! p) as [[]|]; [by destruct (marked p)|done|done]. Qed.
Lemma write_again p c s u s2 s' : same_dirs (ds_plugin s) (ds_plugin s') -> writeNode p c s = (s2, Done u) ->
  writeNode p c s' = (mkDirs (<[p := NFile c]> (ds_plugin s')) (ds_out s'), Done tt) /\ same_dirs (ds_plugin s) (ds_plugin s2).
Proof.
  intros Hs H. assert (Hd : ds_plugin s !! p <> Some NDir) by (intros E; unfold writeNode in H; rewrite E in H; by destruct (removelast p)).
  split.
  - assert (Hd' : ds_plugin s' !! p <> Some NDir) by (intros E; by apply Hs in E). unfold writeNode in *.
    assert (H1 : match removelast p with [] => True | q => ds_plugin s !! q = Some NDir end).
    { destruct (ds_plugin s !! p) as [[]|]; [|done|]; (destruct (removelast p) as [|x q]; [done|]); by destruct (ds_plugin s !! (x :: q)) as [[]|]. }
    destruct (removelast p) as [|x q]; [|apply Hs in H1; rewrite H1]; by destruct (ds_plugin s' !! p) as [[]|].
  - destruct (write_node_cases p c s) as [[m E]|[E _]]; rewrite E in H; [done|]. injection H as <- _. cbn [ds_plugin]. by apply same_after.
Qed.
Lemma lives_again stop lives s u s2 s' : same_dirs (ds_plugin s) (ds_plugin s') -> genLives stop lives s = ((s2, Done u), true) ->
  genLives stop lives s' = ((mkDirs (foldl put (ds_plugin s') lives) (ds_out s'), Done tt), true) /\ same_dirs (ds_plugin s) (ds_plugin s2).
Proof.
  revert stop s s'. induction lives as [|[dir text] lives IH]; intros stop s s' Hs; cbn [genLives].
  { intros [= <- _]. split; [by destruct s'|]. by intros ?. }
  assert (H : (let r := writeNode (dir ++ ["hotswap.live.go"]) text s in
      match snd r with Panics _ => (r, false) | Done _ => genLives (option_map pred stop) lives (fst r) end) = ((s2, Done u), true) ->
    (let r := writeNode (dir ++ ["hotswap.live.go"]) text s' in
      match snd r with Panics _ => (r, false) | Done _ => genLives (option_map pred stop) lives (fst r) end) =
    ((mkDirs (foldl put (ds_plugin s') ((dir, text) :: lives)) (ds_out s'), Done tt), true) /\ same_dirs (ds_plugin s) (ds_plugin s2)).
  { cbv zeta. destruct (writeNode _ text s) as [s3 [u3|m]] eqn:E; [|done]. cbn [fst snd]. intros H.
    destruct (write_again _ _ _ _ _ s' Hs E) as [E' Hs3]. rewrite E'. cbn [fst snd].
    apply (IH _ _ (mkDirs (<[dir ++ ["hotswap.live.go"] := NFile text]> (ds_plugin s')) (ds_out s'))) in H as [H Hs2].
    - cbn [ds_plugin ds_out] in H. split; [exact H|]. by eapply same_trans.
    - cbn [ds_plugin]. eapply same_trans; [apply same_sym; exact Hs3|]. eapply same_trans; [exact Hs|]. apply same_after.
      intros Hd. apply Hs in Hd. unfold writeNode in E. rewrite Hd in E. done. }
  destruct stop as [[|n]|]; [done|exact H|exact H].
Qed.
Lemma again_tree lives t p : List.NoDup (map fst lives) -> forall j n,
  let t' := foldl put (base_tree j n t) lives in foldl put (base_tree j n t') lives !! p = t' !! p.
Proof.
  intros Hnd j n. cbv zeta. set (t' := foldl put (base_tree j n t) lives).
  destruct (put_lookup lives (base_tree j n t') p Hnd) as [(dir & c & Hin & Hp & ->)|[Hno ->]];
    destruct (put_lookup lives (base_tree j n t) p Hnd) as [(dir' & c' & Hin' & Hp' & E)|[Hno' E]]; fold t' in E.
  - rewrite E. subst p. apply live_inj in Hp' as <-. do 2 f_equal. by eapply nodup_fst_inj.
  - by destruct (Hno' _ _ Hin).
  - by destruct (Hno _ _ Hin').
  - unfold base_tree in *. destruct (decide (p = ["hotswap.main.go"])) as [->|H1]; [rewrite lookup_insert in *; done|].
    rewrite lookup_insert_ne in * by done. destruct (decide (p = [bureau; "hotswap.bureau.go"])) as [->|H2]; [rewrite lookup_insert in *; done|].
    rewrite lookup_insert_ne in * by done. destruct (decide (p = [bureau])) as [->|H3]; [rewrite lookup_insert in *; done|].
    rewrite lookup_insert_ne in * by done. rewrite remove_marked_lookup, E, remove_marked_lookup.
    destruct (t !! p) as [[c|]|]; [|done|done]. by destruct (marked p).
Qed.
(** Building once more - nothing else having changed - succeeds and changes nothing, in both directories. *)
Theorem C63_rebuild_same j s s' u : staticJob j s = ((s', Done u), true) -> (forall lives, jb_found j = Done lives -> List.NoDup (map fst lives)) ->
  staticJob j s' = ((s', Done tt), true).
Proof.
  intros H Hnd. pose proof (job_done _ _ _ _ H) as (lives & n & i & d & Hl & Hn & Hi & Hd & Ht & Ho). specialize (Hnd _ Hl).
  rewrite job_unfold in H |- *. destruct (jb_early j); [done|]. rewrite Hl in *.
  destruct (prepared j s) as [s2 [u2|]] eqn:E2; [|done]. cbn [fst snd] in H. pose proof (prepared_done _ _ _ _ E2) as (n' & d0 & Hn' & Hd0 & Es2).
  rewrite Hn in Hn'. injection Hn' as <-. rewrite Hd in Hd0. injection Hd0 as <-.
  destruct (genLives (jb_stop j) lives s2) as [[s3 r] b] eqn:E3. cbv zeta in H. destruct b; [|done]. cbn [fst snd] in H.
  unfold andThen in H. cbn [fst snd] in H. destruct r as [u3|]; [|done]. pose proof (lives_done _ _ _ _ _ E3) as Es3.
  assert (Hs23 : same_dirs (ds_plugin s2) (ds_plugin s3)).
  { destruct (lives_again _ _ _ _ _ s2 ltac:(by intros ?) E3) as [_ Hs]. done. }
  assert (Hs2' : same_dirs (ds_plugin s2) (ds_plugin s')) by (rewrite Ht; subst s3 s2; exact Hs23).
  (* the first part *)
  assert (Hbur : ds_plugin s' !! [bureau] = Some NDir).
  { apply Hs2'. subst s2. cbn [ds_plugin]. unfold base_tree. rewrite !lookup_insert_ne by done. by rewrite lookup_insert. }
  assert (Hmain : ds_plugin s2 !! ["hotswap.main.go"] <> Some NDir) by (subst s2; cbn [ds_plugin]; unfold base_tree; by rewrite lookup_insert).
  assert (Hbf : ds_plugin s2 !! [bureau; "hotswap.bureau.go"] <> Some NDir).
  { subst s2; cbn [ds_plugin]; unfold base_tree. rewrite lookup_insert_ne by done. by rewrite lookup_insert. }
  destruct (removeInitFiles (jb_outBase j) (ds_out s')) as [d'|] eqn:Ed'; [|unfold removeInitFiles in *; by destruct (isInitFile _)].
  assert (E2' : prepared j s' = (mkDirs (base_tree j n (ds_plugin s')) d', Done tt)).
  { unfold prepared, removeStaticFiles. rewrite Ed'. unfold andThen. cbn [fst snd removeBureau]. unfold genBureau. cbn [ds_plugin ds_out].
    assert (Hb' : removeMarked (ds_plugin s') !! [bureau] = Some NDir) by (by apply (proj1 (same_remove _ _))). rewrite Hb'.
    assert (Hx : removeMarked (ds_plugin s') !! [bureau; "hotswap.bureau.go"] <> Some NDir) by (intros E; by apply (proj2 (same_remove _ _)), Hs2' in E).
    assert (Hy : removeMarked (ds_plugin s') !! ["hotswap.main.go"] <> Some NDir) by (intros E; by apply (proj2 (same_remove _ _)), Hs2' in E).
    assert (Hz : genMain (jb_pkg j) (jb_main j) (mkDirs (<[[bureau; "hotswap.bureau.go"] := NFile (jb_bureau j)]> (<[[bureau] := NDir]> (removeMarked (ds_plugin s')))) d') =
      (mkDirs (base_tree j n (ds_plugin s')) d', Done tt)).
    { unfold genMain. rewrite Hn. unfold writeNode. cbn [ds_plugin ds_out removelast]. rewrite !lookup_insert_ne by done.
      by destruct (removeMarked (ds_plugin s') !! ["hotswap.main.go"]) as [[]|]. }
    assert (Hw : writeNode [bureau; "hotswap.bureau.go"] (jb_bureau j) (mkDirs (<[[bureau] := NDir]> (removeMarked (ds_plugin s'))) d') =
      (mkDirs (<[[bureau; "hotswap.bureau.go"] := NFile (jb_bureau j)]> (<[[bureau] := NDir]> (removeMarked (ds_plugin s')))) d', Done tt)).
    { unfold writeNode. cbn [ds_plugin ds_out removelast]. rewrite lookup_insert. rewrite lookup_insert_ne by done.
      by destruct (removeMarked (ds_plugin s') !! [bureau; "hotswap.bureau.go"]) as [[]|]. }
    rewrite Hw. cbn [fst snd]. exact Hz. }
  rewrite E2'. cbn [fst snd].
  assert (Hsame : same_dirs (ds_plugin s2) (base_tree j n (ds_plugin s'))).
  { eapply same_trans; [exact Hs2'|]. eapply same_trans; [apply same_remove|]. unfold base_tree. intros p.
    destruct (decide (p = ["hotswap.main.go"])) as [->|H1].
    { rewrite lookup_insert. split; [|done]. intros E. by apply (proj2 (same_remove _ _)), Hs2' in E. }
    rewrite lookup_insert_ne by done. destruct (decide (p = [bureau; "hotswap.bureau.go"])) as [->|H2].
    { rewrite lookup_insert. split; [|done]. intros E. by apply (proj2 (same_remove _ _)), Hs2' in E. }
    rewrite lookup_insert_ne by done. destruct (decide (p = [bureau])) as [->|H3].
    { rewrite lookup_insert. split; [done|]. intros _. by apply (proj1 (same_remove _ _)). }
    by rewrite lookup_insert_ne. }
  destruct (lives_again _ _ _ _ _ (mkDirs (base_tree j n (ds_plugin s')) d') Hsame E3) as [E3' _]. rewrite E3'. cbv zeta. cbn [fst snd]. f_equal.
  unfold andThen. cbn [fst snd ds_plugin ds_out]. unfold epilogue. rewrite Hi. cbn [ds_plugin ds_out].
  assert (Hlk := remove_lookup _ _ _ Ed').
  assert (Hi' : writeFile (initFile (jb_plugin j)) (CInit i) d' = Done (<[initFile (jb_plugin j) := File (CInit i)]> d')).
  { unfold writeFile. rewrite Hlk, Ho. rewrite lookup_insert_ne by (intros E; symmetry in E; by apply init_not_table in E). rewrite lookup_insert. by destruct (isInitFile _). }
  rewrite Hi'. assert (Htb : writeFile tableFile (CTable (jb_outPkg j)) (<[initFile (jb_plugin j) := File (CInit i)]> d') =
    Done (<[tableFile := File (CTable (jb_outPkg j))]> (<[initFile (jb_plugin j) := File (CInit i)]> d'))).
  { unfold writeFile. rewrite lookup_insert_ne by apply init_not_table. rewrite Hlk, Ho, lookup_insert. by rewrite table_not_init. }
  rewrite Htb. destruct s' as [t' o']. cbn [ds_plugin ds_out] in *. f_equal. f_equal.
  - apply map_eq. intros p. rewrite Ht. by apply again_tree.
  - apply map_eq. intros name. assert (Hlk0 := remove_lookup _ _ _ Hd name). rewrite Ho in *.
    destruct (decide (name = tableFile)) as [->|H1]; [by rewrite !lookup_insert|]. rewrite !(lookup_insert_ne _ tableFile) by done.
    destruct (decide (name = initFile (jb_plugin j))) as [->|H2]; [by rewrite !lookup_insert|]. rewrite !(lookup_insert_ne _ (initFile _)) by done.
    rewrite Hlk, !lookup_insert_ne by done. rewrite Hlk0. destruct (ds_out s !! name) as [[c|]|]; [|done|done]. by destruct (isInitFile name).
Qed.
(** The output directory after a build that came to its end is the one of C53. *)
Theorem C63_output j s s' u : staticJob j s = ((s', Done u), true) ->
  staticBuild (jb_outBase j) (jb_outPkg j) (jb_plugin j) (jb_gen j) (ds_out s) = Done (ds_out s').
Proof.
  rewrite job_unfold. destruct (jb_early j); [done|]. destruct (jb_found j) as [lives|m]; [|done].
  destruct (prepared j s) as [s2 [u2|]] eqn:E2; [|done]. cbn [fst snd]. apply prepared_done in E2 as (n & d & En & Ed & E2).
  destruct (genLives (jb_stop j) lives s2) as [[s3 r] b] eqn:E3. cbv zeta. destruct b; [|done]. cbn [fst snd].
  unfold andThen. cbn [fst snd]. destruct r as [u3|]; [|done]. apply lives_done in E3. subst s3 s2. cbn [ds_plugin ds_out].
  unfold epilogue, staticBuild. cbn [ds_plugin ds_out]. rewrite Ed. destruct (jb_gen j) as [i|]; [|done]. destruct (writeFile (initFile _) _ d) as [d1|]; [|done].
  destruct (writeFile tableFile _ d1) as [d2|]; [|done]. by intros [= <- _].
Qed.
(** Errors in the live functions and types, or an interrupt while looking for them, leave both directories as they were. *)
Theorem C63_refused_early j s : jb_early j = true \/ (exists m, jb_found j = Panics m) -> left_by (staticJob j s) = s.
Proof. rewrite job_unfold. destruct (jb_early j); [done|]. intros [?|[m ->]]; done. Qed.
(** A build that stops later - interrupted or with an error - has already deleted the registrations of all plugins and made none: the output
    directory then registers no plugin.  (Unless the tool took the output directory itself for a registration file and gave up.) *)
Lemma lives_out stop lives s : ds_out (left_by (genLives stop lives s)) = ds_out s.
Proof.
  revert stop s. induction lives as [|[dir text] lives IH]; intros stop s; cbn [genLives]; [done|].
  assert (H : ds_out (left_by (let r := writeNode (dir ++ ["hotswap.live.go"]) text s in
     match snd r with Panics _ => (r, false) | Done _ => genLives (option_map pred stop) lives (fst r) end)) = ds_out s).
  { cbv zeta. destruct (write_node_cases (dir ++ ["hotswap.live.go"]) text s) as [[m ->]|[-> _]]; cbn [fst snd]; [done|]. by rewrite IH. }
  destruct stop as [[|n]|]; [done|exact H|exact H].
Qed.
Lemma prepared_out j s : (exists m, removeInitFiles (jb_outBase j) (ds_out s) = Panics m) \/ removeInitFiles (jb_outBase j) (ds_out s) = Done (ds_out (fst (prepared j s))).
Proof.
  unfold prepared, removeStaticFiles. destruct (removeInitFiles (jb_outBase j) (ds_out s)) as [d|] eqn:Ed; [|eauto]. right.
  unfold andThen. cbn [fst snd]. assert (H : forall t s, ds_out (fst (genBureau t s)) = ds_out s).
  { intros t s0. unfold genBureau. assert (Hw : ds_out (fst (writeNode [bureau; "hotswap.bureau.go"] t (mkDirs (<[[bureau] := NDir]> (ds_plugin s0)) (ds_out s0)))) = ds_out s0).
    { by destruct (write_node_cases [bureau; "hotswap.bureau.go"] t (mkDirs (<[[bureau] := NDir]> (ds_plugin s0)) (ds_out s0))) as [[m ->]|[-> _]]. }
    by destruct (ds_plugin s0 !! [bureau]) as [[]|]. }
  assert (H2 : forall s, ds_out (fst (genMain (jb_pkg j) (jb_main j) s)) = ds_out s).
  { intros s0. unfold genMain. destruct (jb_pkg j) as [n|]; [|done]. by destruct (write_node_cases ["hotswap.main.go"] (jb_main j n) s0) as [[m ->]|[-> _]]. }
  specialize (H (jb_bureau j) (mkDirs (removeBureau false (removeMarked (ds_plugin s))) d)).
  destruct (genBureau _ _) as [s1 [u1|]] eqn:E1; cbn [fst snd] in *; [rewrite H2|]; by rewrite H.
Qed.
Lemma cleared outBase d d1 : removeInitFiles outBase d = Done d1 -> forall q, plugin_name q -> ~ registered d1 q.
Proof.
  intros H q [Hq1 Hq2] [i Hi]. rewrite (remove_lookup _ _ _ H), (init_file_matches q Hq1 Hq2) in Hi. by destruct (d !! initFile q) as [[]|].
Qed.
Theorem C63_unfinished j s s' r : staticJob j s = ((s', r), false) -> ~ looks_like_init (jb_outBase j) ->
  s' = s \/ (forall q, plugin_name q -> ~ registered (ds_out s') q).
Proof.
  rewrite job_unfold. intros H Hi. destruct (jb_early j); [left; by injection H|]. destruct (jb_found j) as [lives|m]; [|left; by injection H].
  right. destruct (prepared_out j s) as [[m Hm]|Hout].
  { unfold removeInitFiles in Hm. destruct (isInitFile (jb_outBase j)) eqn:E; [|done]. by apply isInitFile_spec in E. }
  destruct (prepared j s) as [s2 [u2|]] eqn:E2; cbn [fst snd] in *.
  - assert (Hl := lives_out (jb_stop j) lives s2). destruct (genLives (jb_stop j) lives s2) as [[s3 r3] b] eqn:E3. cbv zeta in H.
    cbn [fst snd] in *. destruct b; [done|]. injection H as <- <-. rewrite Hl. by eapply cleared.
  - injection H as <- <-. by eapply cleared.
Qed.

(** ** A concrete case *)
(** A plugin with a live directory sub, a left-over hotswap.live.go in old, and a file the user put into hotswapbureau. *)
Definition demo_tree : ptree :=
  list_to_map [(["main.go"], NFile "m"); (["sub"], NDir); (["sub"; "live.go"], NFile "l"); (["old"], NDir); (["old"; "hotswap.live.go"], NFile "stale");
    (["old"; "x.go"], NFile "x"); (["hotswapbureau"], NDir); (["hotswapbureau"; "notes.txt"], NFile "mine")].
Definition demo_job : job :=
  mkJob "a" (Done [(["sub"], "live text")]) false None (Done "main") "bureau text" (fun p => "package " +:+ p) (Done (init_of "a")) "out" "main".
Definition demo_out : outdir := {[ initFile "b" := File (CInit (init_of "b")) ]}.
Definition look (t : ptree) (p : list string) : option (option string) := match t !! p with Some (NFile c) => Some (Some c) | Some NDir => Some None | None => None end.
Example C63_case : let rb := staticJob demo_job (mkDirs demo_tree demo_out) in let t := ds_plugin (left_by rb) in
  snd rb = true /\ snd (fst rb) = Done tt /\
  map (look t) [["main.go"]; ["hotswap.main.go"]; ["hotswapbureau"; "hotswap.bureau.go"]; ["sub"; "hotswap.live.go"]; ["old"; "hotswap.live.go"]; ["old"; "x.go"]; ["hotswapbureau"; "notes.txt"]] =
    [Some (Some "m"); Some (Some "package main"); Some (Some "bureau text"); Some (Some "live text"); None; Some (Some "x"); Some (Some "mine")].
Proof. vm_compute. auto. Qed.
(** and `--clean` afterwards deletes the file of the user in hotswapbureau *)
Example C63_clean_case : let t := ds_plugin (fst (cleanJob "out" (left_by (staticJob demo_job (mkDirs demo_tree demo_out))))) in
  map (look t) [["main.go"]; ["hotswap.main.go"]; ["hotswapbureau"]; ["hotswapbureau"; "notes.txt"]; ["sub"; "hotswap.live.go"]; ["sub"; "live.go"]; ["sub"]] =
    [Some (Some "m"); None; None; None; None; Some (Some "l"); Some None].
Proof. vm_compute. auto. Qed.
(** A pristine directory, and an interrupted build of it: plugin b is no longer registered. *)
Definition demo_clean : ptree := list_to_map [(["main.go"], NFile "m"); (["sub"], NDir); (["sub"; "live.go"], NFile "l")].
Definition stopped_job : job :=
  mkJob "a" (Done [(["sub"], "live text")]) false (Some 0) (Done "main") "bureau text" (fun p => "package " +:+ p) (Done (init_of "a")) "out" "main".
Example C63_interrupted_case : let rb := staticJob stopped_job (mkDirs demo_clean demo_out) in
  snd rb = false /\ registered demo_out "b" /\ ds_out (left_by rb) !! initFile "b" = None /\ look (ds_plugin (left_by rb)) ["hotswap.main.go"] = Some (Some "package main").
Proof. cbv zeta. split; [vm_compute; reflexivity|]. split; [exists (init_of "b"); vm_compute; reflexivity|]. split; vm_compute; reflexivity. Qed.
Print Assumptions C63_build_keeps_user_files.
Print Assumptions C63_build_result.
Print Assumptions C63_clean_result.
Print Assumptions C63_clean_undoes.
Print Assumptions C63_rebuild_same.
Print Assumptions C63_output.
Print Assumptions C63_refused_early.
Print Assumptions C63_unfinished.
