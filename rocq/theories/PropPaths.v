(** Properties of the build tool's directories: C50, C51, C52, C53. *)
From Verif Require Export PathProofs ListProofs.
Local Open Scope nat_scope.

(** [below d p]: the directory [p] is [d] or somewhere below it *)
Definition below (d p : list string) : Prop := exists r, p = d ++ r.

(** ** C50 *)
Lemma tmp_name_normal b x : no_slash b -> no_slash x -> normal (b +:+ "-" +:+ x) /\ (b <> "" -> b +:+ "-" +:+ x <> b).
Proof.
  intros Hb Hx.
  assert (Hd : In "-"%char (list_ascii_of_string (b +:+ "-" +:+ x))) by (rewrite las_app; apply in_or_app; right; by left).
  split.
  - repeat split.
    + intros E. rewrite E in Hd. by destruct Hd.
    + intros E. rewrite E in Hd. destruct Hd as [H|[]]; done.
    + intros E. rewrite E in Hd. destruct Hd as [H|[H|[]]]; done.
    + unfold no_slash. rewrite las_app. intros [H|H]%in_app_or; [done|]. destruct H as [H|H]; [done|]. done.
  - intros _ E. apply (f_equal String.length) in E. rewrite !slen_app in E. change (String.length "-") with 1 in E. lia.
Qed.
Lemma removed_shape fl ps pkg commit now existed ends d : Forall normal ps -> no_slash commit -> no_slash now ->
  d ∈ removedDirs fl (makeSetup fl (render ps) pkg commit now) existed ends ->
  fl_static fl = false /\ exists cs b', d = render (cs ++ [b']) /\ Forall normal (cs ++ [b']) /\ ~ below (cs ++ [b']) ps /\ (ps = [] /\ cs = [] \/ exists b, ps = cs ++ [b]).
Proof.
  intros Hps Hc Hn Hd. unfold removedDirs, makeSetup in Hd. destruct (fl_static fl) eqn:Hs.
  { exfalso. cbn [negb andb app su_leaveTemps] in Hd. rewrite orb_true_r in Hd. cbn [negb] in Hd. rewrite andb_false_r in Hd. by apply elem_of_nil in Hd. }
  split; [done|]. cbn [su_tmpDir su_leaveTemps] in Hd.
  assert (Hd' : d = GoJoin [GoDir (render ps); path_base (render ps) +:+ "-" +:+ commit +:+ "-" +:+ now]).
  { apply elem_of_app in Hd as [Hd|Hd].
    - destruct (negb false && existed); [by apply elem_of_list_singleton in Hd|by apply elem_of_nil in Hd].
    - destruct (ends && _); [by apply elem_of_list_singleton in Hd|by apply elem_of_nil in Hd]. }
  clear Hd. subst d.
  assert (Hx : no_slash (commit +:+ "-" +:+ now)).
  { unfold no_slash. rewrite !las_app. intros [H|H]%in_app_or; [done|]. destruct H as [H|H]; done. }
  destruct ps as [|b ps _] using rev_ind.
  - exists [], ("" +:+ "-" +:+ commit +:+ "-" +:+ now).
    destruct (tmp_name_normal "" (commit +:+ "-" +:+ now)) as [Hnm _]; [by intros []|done|].
    change (render []) with "/". rewrite GoDir_root, base_root. change "/" with (render []) at 1. split; [|split; [|split]].
    + rewrite GoJoin_render; [|done|].
      * change ("/" +:+ "-" +:+ commit +:+ "-" +:+ now) with ("" +:+ String slash ("" +:+ "-" +:+ commit +:+ "-" +:+ now)). rewrite split_app, nonempty_app.
        destruct Hnm as (H1 & _ & _ & H4). rewrite (split_simple _ H4). reflexivity.
      * change ("/" +:+ "-" +:+ commit +:+ "-" +:+ now) with ("" +:+ String slash ("" +:+ "-" +:+ commit +:+ "-" +:+ now)). rewrite split_app. destruct Hnm as (H1 & H2 & H3 & H4).
        rewrite (split_simple _ H4). apply Forall_app. split; [by repeat constructor|]. rewrite Forall_singleton. right. by repeat split.
    + rewrite app_nil_l. by apply Forall_singleton.
    + intros [r E]. done.
    + by left.
  - assert (Hps' := Hps). apply Forall_app in Hps' as [Hcs Hb]. rewrite Forall_singleton in Hb.
    destruct (tmp_name_normal b (commit +:+ "-" +:+ now)) as [Hnm Hdiff]; [by destruct Hb as (?&?&?&?)|done|].
    exists ps, (b +:+ "-" +:+ commit +:+ "-" +:+ now). rewrite GoDir_render, base_render by done. split; [|split; [|split]].
    + by apply GoJoin_normal.
    + apply Forall_app. by rewrite Forall_singleton.
    + intros [r E]. rewrite <- app_assoc in E. apply app_inv_head in E. injection E as E _. symmetry in E. apply Hdiff in E; [done|]. by destruct Hb.
    + right. by exists b.
Qed.
(** Whatever the flags, whether a temporary directory was left over, and however far the program came: a directory that is removed is a
    sibling of the plugin directory, neither the plugin directory itself nor one of its ancestors, and in a static build nothing is removed. *)
Theorem C50_source_never_deleted fl ps pkg commit now existed ends d :
  Forall normal ps -> no_slash commit -> no_slash now ->
  d ∈ removedDirs fl (makeSetup fl (render ps) pkg commit now) existed ends ->
  fl_static fl = false /\ exists cs b', d = render (cs ++ [b']) /\ ~ below (cs ++ [b']) ps /\ (ps = [] /\ cs = [] \/ exists b, ps = cs ++ [b] /\ b <> b').
Proof.
  intros H1 H2 H3 H4. destruct (removed_shape _ _ _ _ _ _ _ _ H1 H2 H3 H4) as (H & cs & b' & E & Hn & Hb & H5). split; [done|].
  exists cs, b'. split; [done|]. split; [done|]. destruct H5 as [?|[b ->]]; [by left|]. right. exists b. split; [done|].
  intros ->. apply Hb. exists []. by rewrite app_nil_r.
Qed.
(** With --leaveTemps, without go build, or in static mode the end of the program removes nothing. *)
Theorem C50_kept_when_asked fl ps pkg commit now ends :
  fl_leaveTemps fl = true \/ fl_goBuild fl = false \/ fl_static fl = true ->
  removedDirs fl (makeSetup fl (render ps) pkg commit now) false ends = [].
Proof.
  intros H. unfold removedDirs. rewrite andb_false_r. cbn [app].
  assert (E : su_leaveTemps (makeSetup fl (render ps) pkg commit now) = true).
  { unfold makeSetup. destruct (fl_static fl) eqn:Hs; cbn [su_leaveTemps]; destruct H as [H|[H|H]]; rewrite ?H, ?orb_true_r; done. }
  rewrite E. cbn [negb]. by rewrite andb_false_r.
Qed.
Definition build_flags : flags := mkFlags false true false.
Example C50_case : removedDirs build_flags (makeSetup build_flags (render ["home"; "me"; "plug"]) "example.com/me/plug" "20230101000000-0a1b2c3d" "02150405") true true
  = ["/home/me/plug-20230101000000-0a1b2c3d-02150405"; "/home/me/plug-20230101000000-0a1b2c3d-02150405"].
Proof. reflexivity. Qed.
Print Assumptions C50_source_never_deleted.
Print Assumptions C50_kept_when_asked.

(** ** C51 *)
Lemma gomod_normal : normal "go.mod".
Proof. repeat split; try done. unfold no_slash. cbn. intuition discriminate. Qed.
Lemma render_ne cs : String.eqb (render cs) "" = false.
Proof. reflexivity. Qed.
(** the search passes a directory without go.mod *)
Lemma search_up (gomod : gomods) cs c a : Forall normal (cs ++ [c]) -> gomod (render ((cs ++ [c]) ++ ["go.mod"])) = None ->
  searchStep gomod (Searching (render (cs ++ [c])) a) = Searching (render cs) (a ++ [c]).
Proof.
  intros H1 H2. unfold searchStep. rewrite render_ne, GoJoin_normal, H2 by (done || apply gomod_normal).
  rewrite GoDir_render by done. apply Forall_app in H1 as [_ H1]. rewrite Forall_singleton in H1. by rewrite base_render.
Qed.
Lemma search_up_all (gomod : gomods) cs rest : forall a, Forall normal (cs ++ rest) ->
  (forall p c r, rest = p ++ c :: r -> gomod (render (cs ++ p ++ [c; "go.mod"])) = None) ->
  searchRounds (length rest) gomod (Searching (render (cs ++ rest)) a) = Searching (render cs) (a ++ rev rest).
Proof.
  induction rest as [|c rest IH] using rev_ind; intros a H1 H2; [by rewrite !app_nil_r|].
  rewrite app_length, Nat.add_comm. cbn [length Nat.add searchRounds].
  rewrite (assoc_L (++)), search_up; [| by rewrite <- (assoc_L (++)) |].
  - rewrite IH.
    + by rewrite rev_app_distr, <- (assoc_L (++)).
    + rewrite (assoc_L (++)) in H1. by apply Forall_app in H1 as [? _].
    + intros p x r ->. apply (H2 p x (r ++ [c])). by rewrite <- (assoc_L (++)).
  - rewrite <- !(assoc_L (++)). change ([c] ++ ["go.mod"]) with [c; "go.mod"]. by apply (H2 rest c []).
Qed.
Lemma rounds_stable n gomod s : (match s with Searching _ _ => False | _ => True end) -> searchRounds n gomod s = s.
Proof. induction n as [|n IH]; intros H; [done|]. cbn [searchRounds]. destruct s; [done|..]; by apply IH. Qed.
Lemma rounds_add n m gomod : forall s, searchRounds (n + m) gomod s = searchRounds m gomod (searchRounds n gomod s).
Proof. induction n as [|n IH]; intros s; [done|]. cbn [searchRounds Nat.add]. apply IH. Qed.

(** The nearest go.mod is in the directory [top], the package is in [top]/[rest]: the package path is the module path followed by [rest]. *)
Theorem C51_package_path (gomod : gomods) top rest ms :
  Forall normal (top ++ rest) -> Forall normal ms -> ms <> [] ->
  (forall p c r, rest = p ++ c :: r -> gomod (render (top ++ p ++ [c; "go.mod"])) = None) ->
  gomod (render (top ++ ["go.mod"])) = Some (inl (join_with "/" ms)) ->
  forall n, length rest < n -> searchRounds n gomod (Searching (render (top ++ rest)) []) = Found (join_with "/" (ms ++ rest)).
Proof.
  intros H1 H2 H3 H4 H5 n Hn.
  replace n with (length rest + S (n - length rest - 1)) by lia. rewrite rounds_add, search_up_all by done.
  cbn [searchRounds app].
  assert (E : searchStep gomod (Searching (render top) (rev rest)) = Found (join_with "/" (ms ++ rest))).
  { apply Forall_app in H1 as [Ht Hr]. unfold searchStep. rewrite render_ne, GoJoin_normal, H5 by (done || apply gomod_normal).
    destruct ms as [|m ms]; [done|]. apply Forall_cons in H2 as [Hm H2]. destruct (first_byte m ms Hm) as (x & s & E & _). rewrite E. cbn [String.eqb].
    rewrite <- E, rev_involutive. rewrite GoJoin_relative; [done| |done]. apply Forall_app. split; [|done]. by constructor. }
  rewrite E. by apply rounds_stable.
Qed.
(** A go.mod that cannot be read or has no module path ends the search with an error. *)
Theorem C51_bad_go_mod (gomod : gomods) top rest e :
  Forall normal (top ++ rest) ->
  (forall p c r, rest = p ++ c :: r -> gomod (render (top ++ p ++ [c; "go.mod"])) = None) ->
  gomod (render (top ++ ["go.mod"])) = Some (inr e) ->
  forall n, length rest < n -> searchRounds n gomod (Searching (render (top ++ rest)) []) = Failed e.
Proof.
  intros H1 H4 H5 n Hn.
  replace n with (length rest + S (n - length rest - 1)) by lia. rewrite rounds_add, search_up_all by done.
  cbn [searchRounds]. rewrite app_nil_l.
  assert (E : searchStep gomod (Searching (render top) (rev rest)) = Failed e).
  { apply Forall_app in H1 as [Ht Hr]. unfold searchStep. by rewrite render_ne, GoJoin_normal, H5 by (done || apply gomod_normal). }
  rewrite E. by apply rounds_stable.
Qed.
(** No go.mod in the directory or any ancestor: however many rounds the search is given, it is still searching. *)
Theorem C51_never_ends (gomod : gomods) cs :
  Forall normal cs -> (forall p, below p cs -> gomod (render (p ++ ["go.mod"])) = None) ->
  forall n, exists d a, searchRounds n gomod (Searching (render cs) []) = Searching d a.
Proof.
  intros H1 H2.
  assert (Hroot : gomod "/go.mod" = None) by (apply (H2 []); by exists cs).
  assert (Hr : forall n a, exists d a', searchRounds n gomod (Searching "/" a) = Searching d a').
  { induction n as [|n IH]; intros a; [by exists "/", a|]. cbn [searchRounds].
    assert (E : searchStep gomod (Searching "/" a) = Searching "/" (a ++ ["/"])).
    { unfold searchStep. change (String.eqb "/" "") with false. change (GoJoin ["/"; "go.mod"]) with "/go.mod". rewrite Hroot.
      by rewrite GoDir_root, base_root. }
    rewrite E. apply IH. }
  assert (Hall : forall rest top a, cs = top ++ rest -> searchRounds (length top) gomod (Searching (render top) a) = Searching "/" (a ++ rev top)).
  { intros rest top a E. apply (search_up_all gomod [] top a).
    - rewrite E in H1. by apply Forall_app in H1 as [? _].
    - intros p c r Ep. rewrite app_nil_l. change [c; "go.mod"] with ([c] ++ ["go.mod"]). rewrite (assoc_L (++)). apply H2. exists (r ++ rest).
      rewrite E, Ep. by rewrite <- !(assoc_L (++)). }
  intros n. specialize (Hall [] cs []). rewrite app_nil_r in Hall. specialize (Hall eq_refl).
  (* fewer rounds than components: had it stopped, it would have stayed stopped *)
  destruct (searchRounds n gomod (Searching (render cs) [])) as [d a|p|e] eqn:E; [by exists d, a|exfalso..].
  - destruct (Hr n ([] ++ rev cs)) as (d & a & E1). rewrite <- Hall, <- rounds_add, Nat.add_comm, rounds_add, E in E1. rewrite rounds_stable in E1; done.
  - destruct (Hr n ([] ++ rev cs)) as (d & a & E1). rewrite <- Hall, <- rounds_add, Nat.add_comm, rounds_add, E in E1. rewrite rounds_stable in E1; done.
Qed.
(** The name made of a directory name: every character ([runes]) that is not a letter, a digit or '_' becomes '_', and '_' is removed at both ends. *)
Definition word_chars : list ascii := list_ascii_of_string "ABCDEFGHIJKLMNOPQRSTUVWXYZabcdefghijklmnopqrstuvwxyz0123456789_".
Definition word_name (s n : string) : Prop :=
  exists i j, map (fun r => if bool_decide (r ∈ map N_of_ascii word_chars) then ascii_of_N r else underscore) (runes s) = repeat underscore i ++ list_ascii_of_string n ++ repeat underscore j /\
    (forall r, n <> "_" +:+ r) /\ (forall r, n <> r +:+ "_").
Lemma word_rune_spec r : word_rune r = bool_decide (r ∈ map N_of_ascii word_chars).
Proof.
  destruct (N.lt_ge_cases r 128) as [Hr|Hr].
  - assert (H : forallb (fun k => Bool.eqb (word_rune (N.of_nat k)) (bool_decide (N.of_nat k ∈ map N_of_ascii word_chars))) (seq 0 128) = true) by (vm_compute; reflexivity).
    rewrite forallb_forall in H. specialize (H (N.to_nat r) ltac:(apply in_seq; lia)). rewrite N2Nat.id in H. by apply Bool.eqb_prop in H.
  - rewrite bool_decide_false.
    + unfold word_rune. rewrite !orb_false_iff, !andb_false_iff, !N.leb_gt, N.eqb_neq. lia.
    + intros H. assert (Ha : Forall (fun x => (x < 128)%N) (map N_of_ascii word_chars)) by (apply (bool_decide_unpack _); vm_compute; exact I).
      rewrite Forall_forall in Ha. specialize (Ha _ H). lia.
Qed.
Lemma trim_left_spec l : exists i, l = repeat underscore i ++ trim_left l /\ (forall r, trim_left l <> underscore :: r).
Proof.
  induction l as [|c l (i & IH & Hh)]; [by exists 0|]. cbn [trim_left]. destruct (Ascii.eqb_spec c underscore) as [->|Hc].
  - exists (S i). split; [|done]. cbn [repeat app]. by f_equal.
  - exists 0. split; [done|]. intros r [= ? _]. done.
Qed.
Lemma trim_left_unique i l : (forall r, l <> underscore :: r) -> trim_left (repeat underscore i ++ l) = l.
Proof. intros H. induction i as [|i IH]; [|exact IH]. destruct l as [|c l]; [done|]. cbn [repeat app trim_left]. destruct (Ascii.eqb_spec c underscore) as [->|Hc]; [exfalso; by apply (H l)|done]. Qed.
Lemma rev_repeat {A} (x : A) n : rev (repeat x n) = repeat x n.
Proof. induction n as [|n IH]; [done|]. cbn [repeat rev]. rewrite IH. clear IH. induction n as [|n IH]; [done|]. cbn [repeat app]. by rewrite IH. Qed.
Lemma trim_left_nil i : trim_left (repeat underscore i) = [].
Proof. induction i; done. Qed.
Lemma wordName_spec s n : n = wordName s <-> word_name s n.
Proof.
  unfold wordName, word_name. set (l := map _ (runes s)).
  assert (Hl : map (fun r => if bool_decide (r ∈ map N_of_ascii word_chars) then ascii_of_N r else underscore) (runes s) = l).
  { unfold l. apply map_ext. intros r. by rewrite word_rune_spec. }
  rewrite Hl. clearbody l. clear Hl s. split.
  - intros ->. destruct (trim_left_spec l) as (i & H1 & H2). destruct (trim_left_spec (rev (trim_left l))) as (j & H3 & H4).
    exists i, j. rewrite list_ascii_of_string_of_list_ascii. apply (f_equal (@rev ascii)) in H3. rewrite rev_app_distr, rev_involutive, rev_repeat in H3.
    rewrite <- H3. split_and!; [done| |].
    + intros r E. apply (f_equal list_ascii_of_string) in E. rewrite list_ascii_of_string_of_list_ascii, las_app in E. rewrite E in H3. cbn in H3. apply (H2 _ H3).
    + intros r E. apply (f_equal list_ascii_of_string) in E. rewrite list_ascii_of_string_of_list_ascii, las_app in E. apply (f_equal (@rev ascii)) in E. rewrite rev_involutive, rev_app_distr in E. apply (H4 _ E).
  - intros (i & j & -> & H1 & H2). destruct n as [|c n].
    { cbn [list_ascii_of_string app]. rewrite <- repeat_app, trim_left_nil. done. }
    rewrite trim_left_unique; [|intros r [= -> _]; by apply (H1 n)].
    rewrite rev_app_distr, rev_repeat, trim_left_unique; [by rewrite rev_involutive, string_of_list_ascii_of_string|].
    intros r E. apply (f_equal (@rev ascii)) in E. rewrite rev_involutive in E. apply (H2 (string_of_list_ascii (rev r))).
    apply (f_equal string_of_list_ascii) in E. rewrite string_of_list_ascii_of_string in E. rewrite E. cbn [rev].
    rewrite <- (string_of_list_ascii_of_string (string_of_list_ascii (rev r) +:+ "_")), las_app, list_ascii_of_string_of_list_ascii. done.
Qed.
(** The package name: exactly one package in the directory, test files included, or none and a directory name with a letter, digit or inner '_'. *)
Theorem C51_package_name dir pkgs n :
  packageName dir pkgs = Done n <-> (pkgs = [n] /\ n <> "") \/ (pkgs = [] /\ word_name (path_base dir) n /\ n <> "").
Proof.
  rewrite <- wordName_spec. unfold packageName. destruct pkgs as [|p [|q l]].
  - destruct (String.eqb_spec (wordName (path_base dir)) "") as [E|E]; split.
    + done.
    + intros [[? _]|(_ & -> & ?)]; done.
    + intros [= <-]. by right.
    + intros [[? _]|(_ & -> & ?)]; done.
  - destruct (String.eqb_spec p "") as [E|E]; split.
    + done.
    + intros [[[= ->] ?]|(? & _)]; done.
    + intros [= <-]. by left.
    + intros [[[= ->] ?]|(? & _)]; done.
  - split; [done|]. intros [[? _]|(? & _)]; done.
Qed.
Definition one_mod : gomods := fun f => if String.eqb f "/src/app/go.mod" then Some (inl "example.com/app") else None.
Example C51_case : searchRounds 3 one_mod (Searching (render ["src"; "app"; "plugin"; "a"]) []) = Found "example.com/app/plugin/a".
Proof. reflexivity. Qed.
Example C51_case_never : searchRounds 9 one_mod (Searching (render ["home"; "me"]) []) = Searching "/" ["me"; "home"; "/"; "/"; "/"; "/"; "/"; "/"; "/"].
Proof. reflexivity. Qed.
Example C51_case_name : packageName "/src/app/my-plugin" [] = Done "my_plugin" /\ packageName "/src/app/x" ["x"; "x_test"] = Panics "/src/app/x contains several packages" /\
  packageName ("/src/app/a" +:+ of_runes [233%N] +:+ "b") [] = Done "a_b".
Proof. split_and!; reflexivity. Qed.
Print Assumptions C51_package_path.
Print Assumptions C51_bad_go_mod.
Print Assumptions C51_never_ends.
Print Assumptions C51_package_name.

(** ** C52 *)
Lemma dotdot_join c l : normal c -> has_prefix ".." (join_with "/" (c :: l)) = has_prefix ".." c.
Proof.
  intros (H1 & H2 & H3 & H4). destruct l as [|y l]; [done|]. rewrite join_cons. unfold has_prefix.
  destruct c as [|a [|b c]]; [done| |].
  - change (String a "" +:+ String slash (join_with "/" (y :: l))) with (String a (String slash (join_with "/" (y :: l)))).
    cbn [String.prefix]. destruct (ascii_dec "." a); [by subst|done].
  - change (String a (String b c) +:+ String slash (join_with "/" (y :: l))) with (String a (String b (c +:+ String slash (join_with "/" (y :: l))))).
    cbn [String.prefix]. destruct (ascii_dec "." a); [|done]. destruct (ascii_dec "." b); [|done]. destruct c; done.
Qed.
(** A static build accepts an output directory exactly if it is not the plugin directory or below it - or is below a first component that starts with "..". *)
Theorem C52_output_directory p o : Forall normal p -> Forall normal o ->
  outputCheck true (render p) (render o) = Done tt <-> ~ below p o \/ exists c r, o = p ++ c :: r /\ has_prefix ".." c = true.
Proof.
  intros Hp Ho. unfold outputCheck. destruct (String.eqb_spec (render o) (render p)) as [E|E].
  - apply render_inj in E; [|done..]. subst o. split; [done|]. intros [H|(c & r & E & _)].
    + exfalso. apply H. exists []. by rewrite app_nil_r.
    + apply (f_equal length) in E. rewrite app_length in E. cbn [length] in E. lia.
  - assert (Hne : p <> o) by (by intros ->).
    destruct (Rel_render p o Hp Ho Hne) as (b & t & Hs & ->).
    destruct (strip_common_spec p o) as (k & b0 & t0 & Hs' & E1 & E2 & Hd). rewrite Hs in Hs'. injection Hs' as <- <-.
    destruct b as [|x b].
    + rewrite app_nil_r in E1. subst k. cbn [map]. rewrite app_nil_l. destruct t as [|c r]; [by rewrite app_nil_r in E2; subst|].
      assert (Hc : normal c). { rewrite E2 in Ho. apply Forall_app in Ho as [_ Ho]. by apply Forall_cons in Ho as [? _]. }
      rewrite dotdot_join by done. destruct (has_prefix ".." c) eqn:Hc'; split; [|done|done|].
      * intros _. right. by exists c, r.
      * intros [H|(c' & r' & E3 & E4)]; [exfalso; apply H; by exists (c :: r)|]. rewrite E3 in E2. apply app_inv_head in E2. injection E2 as -> _. congruence.
    + assert (E3 : has_prefix ".." (join_with "/" (map (fun _ => "..") (x :: b) ++ t)) = true).
      { cbn [map app]. destruct (map (fun _ => "..") b ++ t); reflexivity. }
      rewrite E3. split; [|done]. intros _. left. intros [r E4].
      rewrite E1 in E4. rewrite E2, <- (assoc_L (++)) in E4. apply app_inv_head in E4. destruct t as [|y ts]; [done|]. injection E4 as E4 _. by apply (Hd x b y ts).
Qed.
(** A dynamic build accepts every output directory. *)
Theorem C52_dynamic_builds_accept_all p o : outputCheck false p o = Done tt.
Proof. reflexivity. Qed.
Example C52_case :
  outputCheck true (render ["src"; "plug"]) (render ["src"; "plug"; "out"]) = Panics "<outputDir> must not be a subdirectory of <pluginDir>" /\
  outputCheck true (render ["src"; "plug"]) (render ["src"; "plug"]) = Panics "<pluginDir> and <outputDir> must not be identical" /\
  outputCheck true (render ["src"; "plug"]) (render ["src"; "out"]) = Done tt /\
  outputCheck true (render ["src"; "plug"]) (render ["src"; "plug"; "..out"]) = Done tt.
Proof. repeat split; reflexivity. Qed.
Print Assumptions C52_output_directory.
