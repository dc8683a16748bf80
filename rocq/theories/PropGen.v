(** C53: static builds and the registrations of other plugins. *)
From Verif Require Export PropPaths PropCopy.
Local Open Scope nat_scope.

(** [s] contains no newline *)
Definition one_line (s : string) : Prop := ~ In "010"%char (list_ascii_of_string s).
(** the file names the tool takes for registration files: the pattern may occur anywhere in the name *)
Definition looks_like_init (s : string) : Prop :=
  exists a x b, s = a +:+ "hotswap.staticPluginInit." +:+ x +:+ ".go" +:+ b /\ x <> "" /\ one_line x.

Lemma has_prefix_app p s : has_prefix p s = true <-> exists r, s = p +:+ r.
Proof.
  unfold has_prefix. revert s. induction p as [|c p IH]; intros s.
  - split; [intros _; by exists s|]. by destruct s.
  - destruct s as [|c' s]; cbn [String.prefix].
    + split; [done|]. by intros [r ?].
    + destruct (ascii_dec c c') as [->|Hc].
      * rewrite IH. split; intros [r E]; exists r; [by subst s|]. by injection E as ->.
      * split; [done|]. intros [r E]. by injection E as ? _.
Qed.
Lemma then_go_spec s : then_go s = true <-> exists x b, s = x +:+ ".go" +:+ b /\ one_line x.
Proof.
  induction s as [|c s IH].
  - split; [done|]. intros (x & b & E & _). by destruct x.
  - cbn [then_go]. rewrite orb_true_iff, has_prefix_app, andb_true_iff, IH, negb_true_iff, Ascii.eqb_neq. split.
    + intros [[r ->]|(Hc & x & b & -> & Hx)].
      * exists "", r. split; [done|]. by intros [].
      * exists (String c x), b. split; [done|]. intros [?|?]; done.
    + intros (x & b & E & Hx). destruct x as [|c' x]; [left; by exists b|]. injection E as -> ->. right. split.
      * intros ->. apply Hx. by left.
      * exists x, b. split; [done|]. intros ?. apply Hx. by right.
Qed.
Lemma init_tail_spec s : init_tail s = true <-> exists x b, s = x +:+ ".go" +:+ b /\ x <> "" /\ one_line x.
Proof.
  destruct s as [|c s]; cbn [init_tail].
  - split; [done|]. intros (x & b & E & _). by destruct x.
  - rewrite andb_true_iff, negb_true_iff, Ascii.eqb_neq, then_go_spec. split.
    + intros (Hc & x & b & -> & Hx). exists (String c x), b. split; [done|]. split; [done|]. intros [?|?]; done.
    + intros (x & b & E & Hn & Hx). destruct x as [|c' x]; [done|]. injection E as -> ->. split.
      * intros ->. apply Hx. by left.
      * exists x, b. split; [done|]. intros ?. apply Hx. by right.
Qed.
Lemma sub_tail p r : substring (String.length p) (String.length (p +:+ r) - String.length p) (p +:+ r) = r.
Proof. rewrite slen_app. replace (String.length p + String.length r - String.length p) with (String.length r) by lia. apply sub_app. Qed.
Lemma isInitFile_spec s : isInitFile s = true <-> looks_like_init s.
Proof.
  unfold looks_like_init. induction s as [|c s IH].
  - split; [done|]. intros (a & x & b & E & _). by destruct a.
  - cbn [isInitFile]. rewrite orb_true_iff, andb_true_iff, IH. split.
    + intros [[Hp Ht]|(a & x & b & -> & Hx)].
      * apply has_prefix_app in Hp as [r Hr]. rewrite Hr, sub_tail in Ht. apply init_tail_spec in Ht as (x & b & -> & Hx).
        exists "", x, b. by rewrite Hr.
      * exists (String c a), x, b. done.
    + intros (a & x & b & E & Hx). destruct a as [|c' a].
      * left. rewrite E. split; [apply has_prefix_app; by eexists|].
        change ("" +:+ "hotswap.staticPluginInit." +:+ x +:+ ".go" +:+ b) with (init_prefix +:+ (x +:+ ".go" +:+ b)).
        rewrite sub_tail. apply init_tail_spec. by exists x, b.
      * right. injection E as -> ->. by exists a, x, b.
Qed.
Lemma init_file_matches p : p <> "" -> one_line p -> isInitFile (initFile p) = true.
Proof. intros H1 H2. apply isInitFile_spec. exists "", p, "". split; [|done]. unfold initFile. by rewrite (las_inj (".go" +:+ "") ".go" eq_refl). Qed.
Lemma init_file_inj p q : initFile p = initFile q -> p = q.
Proof.
  unfold initFile. intros E. apply str_app_inj in E. apply (f_equal list_ascii_of_string) in E. rewrite !las_app in E.
  apply app_inv_tail in E. by apply las_inj.
Qed.
Lemma init_not_table p : initFile p <> tableFile.
Proof. unfold initFile, tableFile. intros E. apply (f_equal (substring 20 1)) in E. cbn in E. done. Qed.
Lemma table_not_init : isInitFile tableFile = false.
Proof. reflexivity. Qed.

(** ** C53 *)
(** the plugin [p] is registered by the files of the output directory *)
Definition registered (d : outdir) (p : string) : Prop := exists i, d !! initFile p = Some (File (CInit i)).
(** a directory name can be a plugin name; one with a newline is left out *)
Definition plugin_name (p : string) : Prop := p <> "" /\ one_line p.

Lemma remove_lookup outBase d d1 : removeInitFiles outBase d = Done d1 ->
  forall name, d1 !! name = match d !! name with Some (File c) => if isInitFile name then None else Some (File c) | x => x end.
Proof.
  unfold removeInitFiles. destruct (isInitFile outBase); [done|]. intros [= <-] name. rewrite map_filter_lookup. destruct (d !! name) as [[c|]|]; [| |done].
  - cbn [mbind option_bind]. destruct (isInitFile name) eqn:E; [rewrite option_guard_False|rewrite option_guard_True]; cbn [fst snd]; rewrite ?E; done.
  - cbn [mbind option_bind]. by rewrite option_guard_True.
Qed.
Lemma write_done name c d d1 : writeFile name c d = Done d1 -> d1 = <[name := File c]> d.
Proof. unfold writeFile. destruct (d !! name) as [[|]|]; intros [=]; done. Qed.

(** What a successful static build leaves in the output directory: its registration, the table file, every subdirectory, and every file that was
    there and does not look like a registration; all other registrations are gone. *)
Theorem C53_build_result outBase outPkg p gen d d' : staticBuild outBase outPkg p gen d = Done d' ->
  exists i, gen = Done i /\
  forall name, d' !! name =
    if String.eqb name tableFile then Some (File (CTable outPkg))
    else if String.eqb name (initFile p) then Some (File (CInit i))
    else match d !! name with Some (File c) => if isInitFile name then None else Some (File c) | x => x end.
Proof.
  unfold staticBuild. destruct (removeInitFiles outBase d) as [d1|] eqn:E1; [|done]. destruct gen as [i|]; [|done].
  destruct (writeFile (initFile p) (CInit i) d1) as [d2|] eqn:E2; [|done]. intros E3. apply write_done in E2, E3. exists i. split; [done|]. subst d' d2. intros name.
  destruct (String.eqb_spec name tableFile) as [->|H1]; [by rewrite lookup_insert|]. rewrite lookup_insert_ne by done.
  destruct (String.eqb_spec name (initFile p)) as [->|H2]; [by rewrite lookup_insert|]. rewrite lookup_insert_ne by done. by apply (remove_lookup outBase).
Qed.
(** The files taken for registrations are those whose name contains hotswap.staticPluginInit.<something>.go, whoever wrote them. *)
Theorem C53_which_files s : isInitFile s = true <-> looks_like_init s.
Proof. apply isInitFile_spec. Qed.
(** After a build only the plugin just built is registered, whatever was registered before. *)
Theorem C53_only_the_last outBase outPkg p gen d d' : staticBuild outBase outPkg p gen d = Done d' ->
  forall q, plugin_name q -> registered d' q <-> q = p.
Proof.
  intros E q [Hq1 Hq2]. destruct (C53_build_result _ _ _ _ _ _ E) as (i & _ & H). unfold registered. rewrite H.
  destruct (String.eqb_spec (initFile q) tableFile) as [E1|_]; [by apply init_not_table in E1|].
  destruct (String.eqb_spec (initFile q) (initFile p)) as [E1|E1].
  - apply init_file_inj in E1. split; [done|]. intros _. by exists i.
  - split; [|intros ->; done]. intros [i' H']. rewrite (init_file_matches q Hq1 Hq2) in H'. destruct (d !! initFile q) as [[|]|]; done.
Qed.
(** A sequence of builds into the same output directory *)
Fixpoint builds (outBase outPkg : string) (l : list (string * tool staticInit)) (d : outdir) : tool outdir :=
  match l with
  | [] => Done d
  | (p, gen) :: l => match staticBuild outBase outPkg p gen d with Done d => builds outBase outPkg l d | Panics m => Panics m end
  end.
Theorem C53_sequence outBase outPkg l p gen d d' : builds outBase outPkg (l ++ [(p, gen)]) d = Done d' ->
  forall q, plugin_name q -> registered d' q <-> q = p.
Proof.
  revert d. induction l as [|[q g] l IH]; intros d; cbn [builds app].
  - destruct (staticBuild outBase outPkg p gen d) as [d1|] eqn:E; [|done]. intros [= <-]. by apply (C53_only_the_last outBase outPkg p gen d).
  - destruct (staticBuild outBase outPkg q g d) as [d1|] eqn:E; [|done]. apply IH.
Qed.
(** `--clean` of one plugin unregisters every plugin. *)
Theorem C53_clean outBase d d' : cleanBuild outBase d = Done d' -> forall q, plugin_name q -> ~ registered d' q.
Proof.
  intros E q [H1 H2] [i H]. rewrite (remove_lookup _ _ _ E), (init_file_matches q H1 H2) in H. destruct (d !! initFile q) as [[|]|]; done.
Qed.
Definition init_of (p : string) : staticInit := mkInit p p (p, "example.com/" +:+ p) [].
Example C53_case : exists d', builds "out" "main" [("a", Done (init_of "a")); ("b", Done (init_of "b")); ("c", Done (init_of "c"))]
    {[ "main.go" := File (COther "package main"); "old.hotswap.staticPluginInit.x.go.bak" := File (COther ""); "sub" := Subdir ]} = Done d' /\
  registered d' "c" /\ ~ registered d' "a" /\ ~ registered d' "b" /\ d' !! "main.go" = Some (File (COther "package main")) /\
  d' !! "old.hotswap.staticPluginInit.x.go.bak" = None /\ d' !! "sub" = Some Subdir.
Proof.
  eexists. split; [vm_compute; reflexivity|]. unfold registered. split; [exists (init_of "c"); vm_compute; reflexivity|].
  split; [intros [i H]; vm_compute in H; discriminate|]. split; [intros [i H]; vm_compute in H; discriminate|]. repeat split; vm_compute; reflexivity.
Qed.
Print Assumptions C53_build_result.
Print Assumptions C53_which_files.
Print Assumptions C53_only_the_last.
Print Assumptions C53_sequence.
Print Assumptions C53_clean.
