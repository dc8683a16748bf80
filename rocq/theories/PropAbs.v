(** C66: directory arguments and temporary directories of the build tool *)
From Verif Require Export ToolAbs.
Local Open Scope nat_scope.

(** ** Specification *)
(** One component of a path, seen from the directory [here] (a list of names from the root): "" and "." stay, ".." goes up (the root is its
    own parent), any other name goes down. *)
Definition walk (here : list string) (c : string) : list string :=
  if decide (c = "" \/ c = ".") then here else if decide (c = "..") then removelast here else here ++ [c].
(** The directory the argument [s] leads to from the working directory [wd]. *)
Definition leads_to (wd s : string) : list string :=
  fold_left walk (split_slash s) (if rooted s then [] else fold_left walk (split_slash wd) []).
(** same day of the month, hour, minute and second *)
Definition same_second (t u : moment) : Prop := dd t = dd u /\ hh t = hh u /\ mi t = mi u /\ ss t = ss u.

(** ** Paths *)
Lemma split_no_slash s : Forall no_slash (split_slash s).
Proof.
  induction s as [|c s IH]; [constructor; [intros []|constructor]|]. cbn [split_slash]. destruct (Ascii.eqb_spec c slash) as [->|Hc].
  - constructor; [intros []|done].
  - destruct (split_slash s) as [|x l]; [constructor; [|constructor]|].
    + intros [H|[]]. done.
    + apply Forall_cons in IH as [Hx Hl]. constructor; [|done]. intros [H|H]; [done|]. by apply Hx.
Qed.
Lemma resolve_walk cs : forall st, Forall (fun c => c <> "..") st -> resolve true st cs = fold_left walk cs (rev st).
Proof.
  induction cs as [|c cs IH]; intros st Hst; [done|]. cbn [resolve fold_left]. unfold walk at 2.
  destruct (String.eqb_spec c "") as [->|H1]; [rewrite decide_True by (by left); by apply IH|].
  destruct (String.eqb_spec c ".") as [->|H2]; [rewrite decide_True by (by right); by apply IH|].
  cbn [orb]. rewrite decide_False by (by intros [?|?]). destruct (String.eqb_spec c "..") as [->|H3].
  - rewrite decide_True by done. destruct st as [|x st]; [by apply IH|]. apply Forall_cons in Hst as [Hx Hst].
    destruct (String.eqb_spec x "..") as [->|_]; [done|]. cbn [rev]. rewrite removelast_last. by apply IH.
  - rewrite decide_False by done. rewrite IH by (by constructor). done.
Qed.
Lemma walk_normal cs : forall here, Forall no_slash cs -> Forall normal here -> Forall normal (fold_left walk cs here).
Proof.
  induction cs as [|c cs IH]; intros here Hcs Hh; [done|]. apply Forall_cons in Hcs as [Hc Hcs]. cbn [fold_left]. apply IH; [done|].
  unfold walk. destruct (decide _) as [_|H1]; [done|]. destruct (decide _) as [_|H2].
  - destruct here as [|x here] using rev_ind; [done|]. rewrite removelast_last. by apply Forall_app in Hh as [? _].
  - apply Forall_app. split; [done|]. constructor; [|constructor]. split_and!; [by intros ->; apply H1; left|by intros ->; apply H1; right|done|done].
Qed.
Lemma Clean_walk s : rooted s = true -> Clean s = render (fold_left walk (split_slash s) []).
Proof. intros Hr. unfold Clean. rewrite Hr, resolve_walk by constructor. done. Qed.

(** ** C66 *)
(** The absolute path of an argument is the directory it leads to, without "", "." or ".." in it. *)
Theorem C66_absolute_path wd s : rooted wd = true -> GoAbs wd s = render (leads_to wd s) /\ Forall normal (leads_to wd s).
Proof.
  intros Hw. unfold GoAbs, leads_to. destruct (rooted s) eqn:Hs.
  - split; [by apply Clean_walk|]. apply walk_normal; [apply split_no_slash|constructor].
  - split; [|apply walk_normal; [apply split_no_slash|apply walk_normal; [apply split_no_slash|constructor]]].
    destruct wd as [|c wd]; [done|]. unfold GoJoin. cbn [drop_empty]. change (join_with "/" [String c wd; s]) with (String c wd +:+ String slash s).
    assert (Hr : rooted (String c wd +:+ String slash s) = true).
    { assert (c = slash) as -> by (by destruct c as [[] [] [] [] [] [] [] []]). apply rooted_slash. }
    rewrite Clean_walk by done. by rewrite split_app, fold_left_app.
Qed.
(** So the checks of C50 and C52 apply to whatever the user typed. *)
Theorem C66_output_check_of_arguments wd p o : rooted wd = true ->
  outputCheck true (GoAbs wd p) (GoAbs wd o) = Done tt <->
  ~ below (leads_to wd p) (leads_to wd o) \/ exists c r, leads_to wd o = leads_to wd p ++ c :: r /\ has_prefix ".." c = true.
Proof.
  intros Hw. destruct (C66_absolute_path wd p Hw) as [-> Hp], (C66_absolute_path wd o Hw) as [-> Ho]. by apply C52_output_directory.
Qed.

(** ** Names *)
Lemma app_right_inj a b x y : String.length x = String.length y -> a +:+ x = b +:+ y -> a = b /\ x = y.
Proof.
  intros Hl H. apply app_left_inj; [|done]. apply (f_equal String.length) in H. rewrite !slen_app in H. lia.
Qed.
Lemma stamp_inj t u : proper t -> proper u -> stamp t = stamp u <-> same_second t u.
Proof.
  intros (?&?&?&?&?&?) (?&?&?&?&?&?). unfold stamp, same_second. split.
  - intros Q1. apply app_left_inj in Q1 as [Q2 Q1]; [|done]. apply app_left_inj in Q1 as [Q3 Q1]; [|done]. apply app_left_inj in Q1 as [Q4 Q1]; [|done].
    apply pad2_inj in Q1, Q2, Q3, Q4; done.
  - by intros (-> & -> & -> & ->).
Qed.
Lemma sub_length n s : n <= String.length s -> String.length (substring 0 n s) = n.
Proof. revert s. induction n as [|n IH]; intros s H; [by destruct s|]. destruct s as [|c s]; cbn [String.length substring] in *; [lia|]. by rewrite IH by lia. Qed.
Lemma sub_no_slash n s : no_slash s -> no_slash (substring 0 n s).
Proof.
  revert s. induction n as [|n IH]; intros s H; [destruct s; intros []|]. destruct s as [|c s]; [intros []|]. cbn [substring].
  intros [Hc|Hc]; [apply H; by left|]. apply (IH s); [|done]. intros Hs. apply H. by right.
Qed.
Lemma stamp_no_slash t : proper t -> no_slash (stamp t).
Proof. intros (?&?&?&?&?&?). unfold stamp. rewrite !no_slash_app. split_and!; by apply pad2_no_slash. Qed.
Lemma commit_info t hash c : proper t -> no_slash hash -> commitInfo t hash = Done c ->
  8 <= String.length hash /\ c = compact t +:+ "-" +:+ substring 0 8 hash /\ String.length c = 21 /\ no_slash c.
Proof.
  intros Hp Hs H. unfold commitInfo in H. destruct (Nat.ltb_spec (String.length hash) 8) as [Hl|Hl]; [done|]. injection H as <-. split_and!; [done|done| |].
  - rewrite !slen_app, compact_length, sub_length by done. done.
  - destruct Hp as (?&?&?&?&?&?). unfold compact. rewrite !no_slash_app. split_and!; try (by apply pad2_no_slash). { intros [H'|[]]; done. } by apply sub_no_slash.
Qed.
(** the temporary directory of a dynamic build *)
Lemma temp_dir fl cs b pkg commit now : fl_static fl = false -> Forall normal (cs ++ [b]) -> no_slash commit -> no_slash now ->
  su_tmpDir (makeSetup fl (render (cs ++ [b])) pkg commit now) = render (cs ++ [b +:+ "-" +:+ commit +:+ "-" +:+ now]) /\
  normal (b +:+ "-" +:+ commit +:+ "-" +:+ now).
Proof.
  intros Hs H Hc Hn. assert (Hb : normal b) by (apply Forall_app in H as [_ H]; by rewrite Forall_singleton in H).
  assert (Hcs : Forall normal cs) by (by apply Forall_app in H as [? _]).
  destruct (tmp_name_normal b (commit +:+ "-" +:+ now)) as [Hnm _]; [by destruct Hb as (?&?&?&?)| |].
  { rewrite !no_slash_app. split_and!; [done| |done]. intros [H'|[]]; done. }
  split; [|done]. unfold makeSetup. rewrite Hs. cbn [su_tmpDir]. rewrite base_render by done. rewrite GoDir_render by done. by apply GoJoin_normal.
Qed.

(** Two dynamic builds use the same temporary directory exactly if they build the same directory, at the same commit (its time up to
    the century, and the first eight digits of its hash), and were started at the same second of the same day of the month - of
    whatever month.  In particular the temporary directories of different plugins are always different. *)
Theorem C66_same_temporary_directory fl fl' cs b pkg ct hash info t cs' b' pkg' ct' hash' info' t' :
  fl_static fl = false -> fl_static fl' = false -> Forall normal (cs ++ [b]) -> Forall normal (cs' ++ [b']) ->
  proper ct -> proper t -> proper ct' -> proper t' -> no_slash hash -> no_slash hash' ->
  commitInfo ct hash = Done info -> commitInfo ct' hash' = Done info' ->
  su_tmpDir (makeSetup fl (render (cs ++ [b])) pkg info (stamp t)) = su_tmpDir (makeSetup fl' (render (cs' ++ [b'])) pkg' info' (stamp t')) <->
  cs = cs' /\ b = b' /\ ct = ct' /\ substring 0 8 hash = substring 0 8 hash' /\ same_second t t'.
Proof.
  intros Hs Hs' Hn Hn' Hct Ht Hct' Ht' Hh Hh' Hi Hi'.
  destruct (commit_info _ _ _ Hct Hh Hi) as (Hl & E & Hlen & Hns), (commit_info _ _ _ Hct' Hh' Hi') as (Hl' & E' & Hlen' & Hns').
  destruct (temp_dir fl cs b pkg info (stamp t)) as [-> Hnm]; [done|done|done|by apply stamp_no_slash|].
  destruct (temp_dir fl' cs' b' pkg' info' (stamp t')) as [-> Hnm']; [done|done|done|by apply stamp_no_slash|].
  rewrite <- stamp_inj, <- (compact_inj ct ct') by done. split.
  - intros Heq. apply render_inj in Heq; [|apply Forall_app; split; [by apply Forall_app in Hn as [? _]|by constructor]|apply Forall_app; split; [by apply Forall_app in Hn' as [? _]|by constructor]].
    apply app_inj_tail in Heq as [-> Heq]. split; [done|].
    apply app_right_inj in Heq as [-> Heq]; [|rewrite !slen_app, Hlen, Hlen'; done]. split; [done|].
    apply app_left_inj in Heq as [_ Heq]; [|done]. apply app_left_inj in Heq as [Heq H2]; [|congruence]. apply app_left_inj in H2 as [_ H2]; [|done].
    rewrite E, E' in Heq. apply app_left_inj in Heq as [H1 Heq]; [|done]. apply app_left_inj in Heq as [_ Heq]; [|done]. done.
  - intros (-> & -> & Hc & Hsub & Hst). rewrite E, E', Hc, Hsub, Hst. done.
Qed.
(** Then the later one removes the directory of the other one before it starts, whatever its own flags. *)
Theorem C66_later_build_removes_it fl fl' ps pkg info t t' ends : fl_static fl = false -> fl_static fl' = false -> proper t -> proper t' -> same_second t t' ->
  su_tmpDir (makeSetup fl (render ps) pkg info (stamp t)) ∈ removedDirs fl' (makeSetup fl' (render ps) pkg info (stamp t')) true ends.
Proof.
  intros Hs Hs' Hp Hp' Hst. apply stamp_inj in Hst; [|done..]. rewrite Hst. unfold removedDirs, makeSetup. rewrite Hs, Hs'. cbn [negb andb su_tmpDir]. apply elem_of_app. left. by left.
Qed.

(** ** The package path of the temporary directory *)
(** The plugin is in [q]/[b] below the nearest go.mod: the temporary directory belongs to the same module, and the package path the
    generated code uses for it is its real package path. *)
Theorem C66_temporary_package (gomod : gomods) fl top q b ms commit now : fl_static fl = false ->
  Forall normal (top ++ q ++ [b]) -> Forall normal ms -> ms <> [] -> no_slash commit -> no_slash now ->
  (forall p c r, q ++ [b] = p ++ c :: r -> gomod (render (top ++ p ++ [c; "go.mod"])) = None) ->
  gomod (render (top ++ ["go.mod"])) = Some (inl (join_with "/" ms)) ->
  let su := makeSetup fl (render (top ++ q ++ [b])) (join_with "/" (ms ++ q ++ [b])) commit now in
  gomod (GoJoin [su_tmpDir su; "go.mod"]) = None ->
  forall n, length q + 1 < n -> searchRounds n gomod (Searching (su_tmpDir su) []) = Found (su_tmpPkgPath su).
Proof.
  intros Hs Hall Hms Hne Hc Hn Hno Htop su Htmp n Hlt.
  set (x := b +:+ "-" +:+ commit +:+ "-" +:+ now).
  assert (Hcs : Forall normal (top ++ q)) by (rewrite (assoc_L (++)) in Hall; by apply Forall_app in Hall as [? _]).
  destruct (temp_dir fl (top ++ q) b (join_with "/" (ms ++ q ++ [b])) commit now Hs) as [Hd Hx]; [by rewrite <- (assoc_L (++))|done|done|]. fold x in Hd, Hx.
  assert (Hd' : su_tmpDir su = render (top ++ q ++ [x])). { rewrite <- (assoc_L (++)) in Hd. rewrite <- (assoc_L (++)) in Hd. exact Hd. }
  assert (Hallx : Forall normal (top ++ q ++ [x])) by (rewrite (assoc_L (++)); apply Forall_app; split; [done|by constructor]).
  assert (Hmq : Forall normal (ms ++ q)) by (apply Forall_app; split; [done|by apply Forall_app in Hcs as [_ ?]]).
  assert (Hb : normal b) by (apply Forall_app in Hall as [_ H]; apply Forall_app in H as [_ H]; by rewrite Forall_singleton in H).
  assert (Hpkg : su_tmpPkgPath su = join_with "/" (ms ++ q ++ [x])).
  { unfold su, makeSetup. rewrite Hs. cbn [su_tmpPkgPath]. rewrite (assoc_L (++) ms q [b]), dir_relative by (apply Forall_app; split; [done|by constructor]).
    rewrite (assoc_L (++) top q [b]), base_render by done. fold x.
    destruct (ms ++ q) as [|y l] eqn:E; [by destruct ms|]. rewrite <- E. rewrite GoJoin_relative; [by rewrite <- (assoc_L (++))| |by rewrite E].
    apply Forall_app. split; [by rewrite E|by constructor]. }
  rewrite Hd', Hpkg. apply C51_package_path; try done.
  - intros p c r E. destruct (decide (r = [])) as [->|Hr].
    + apply app_inj_tail in E as [<- <-]. rewrite Hd' in Htmp. rewrite GoJoin_normal in Htmp; [|done|apply gomod_normal]. rewrite <- Htmp. f_equal. f_equal. by rewrite <- !(assoc_L (++)).
    + destruct (exists_last Hr) as (r0 & z & ->). change (p ++ c :: r0 ++ [z]) with (p ++ (c :: r0) ++ [z]) in E. rewrite (assoc_L (++)) in E. apply app_inj_tail in E as [-> _].
      apply (Hno p c (r0 ++ [b])). by rewrite <- (assoc_L (++)).
  - rewrite app_length. cbn [length]. lia.
Qed.
(** But if the plugin directory is the root of its module (it has the go.mod itself), the temporary directory lies outside of the module. *)
Theorem C66_plugin_at_module_root (gomod : gomods) fl cs b pkg commit now : fl_static fl = false -> Forall normal (cs ++ [b]) -> no_slash commit -> no_slash now ->
  let su := makeSetup fl (render (cs ++ [b])) pkg commit now in
  exists tmp, su_tmpDir su = render tmp /\ ~ below (cs ++ [b]) tmp /\
    ((forall p, below p tmp -> gomod (render (p ++ ["go.mod"])) = None) -> forall n, exists d a, searchRounds n gomod (Searching (su_tmpDir su) []) = Searching d a).
Proof.
  intros Hs H Hc Hn su. destruct (temp_dir fl cs b pkg commit now Hs H Hc Hn) as [Hd Hx]. eexists. split; [exact Hd|]. split.
  - intros (r & E). destruct r as [|y r]; [|apply (f_equal length) in E; rewrite !app_length in E; cbn [length] in E; lia].
    rewrite app_nil_r in E. apply app_inj_tail in E as [_ E]. destruct (tmp_name_normal b (commit +:+ "-" +:+ now)) as [_ Hne].
    + apply Forall_app in H as [_ H]. rewrite Forall_singleton in H. by destruct H as (?&?&?&?).
    + rewrite !no_slash_app. split_and!; [done| |done]. intros [H'|[]]; done.
    + apply Hne; [|done]. apply Forall_app in H as [_ H]. rewrite Forall_singleton in H. by destruct H as (?&?&?&?).
  - intros Hno. unfold su. rewrite Hd. apply C51_never_ends; [|done]. apply Forall_app. split; [by apply Forall_app in H as [? _]|by constructor].
Qed.

(** ** Concrete cases *)
Definition oct5 : moment := mkMoment 21 10 5 9 7 30.
Definition nov5 : moment := mkMoment 22 11 5 9 7 30.
Definition a_hash : string := "0a1b2c3d4e5f60718293a4b5c6d7e8f901234567".
Example C66_paths_case : GoAbs "/home/me" "../you/./plug//a/.." = "/home/you/plug" /\ leads_to "/home/me" "../you/./plug//a/.." = ["home"; "you"; "plug"] /\
  GoAbs "/home/me" "/../../x" = "/x" /\ GoAbs "/home/me" "" = "/home/me".
Proof. split_and!; reflexivity. Qed.
Example C66_output_case : outputCheck true (GoAbs "/src" "plug/") (GoAbs "/src" "out/../plug/gen") = Panics "<outputDir> must not be a subdirectory of <pluginDir>" /\
  outputCheck true (GoAbs "/src" "plug") (GoAbs "/src" "plug/../out") = Done tt.
Proof. split; reflexivity. Qed.
Example C66_names_case : commitInfo oct5 a_hash = Done "211005090730-0a1b2c3d" /\ proper oct5 /\ proper nov5 /\ same_second oct5 nov5 /\ oct5 <> nov5 /\
  su_tmpDir (makeSetup build_flags (render ["src"; "plug"]) "m/plug" "211005090730-0a1b2c3d" (stamp nov5)) = "/src/plug-211005090730-0a1b2c3d-05090730".
Proof. split_and!; try reflexivity; try (unfold proper, oct5, nov5; cbn; lia); unfold same_second, oct5, nov5; cbn; done. Qed.
Example C66_package_case : searchRounds 4 one_mod (Searching (su_tmpDir (makeSetup build_flags (render ["src"; "app"; "plugin"; "a"]) "example.com/app/plugin/a" "c" "n")) []) =
  Found (su_tmpPkgPath (makeSetup build_flags (render ["src"; "app"; "plugin"; "a"]) "example.com/app/plugin/a" "c" "n")) /\
  su_tmpPkgPath (makeSetup build_flags (render ["src"; "app"; "plugin"; "a"]) "example.com/app/plugin/a" "c" "n") = "example.com/app/plugin/a-c-n".
Proof. split; reflexivity. Qed.
Example C66_root_case : searchRounds 6 one_mod (Searching (su_tmpDir (makeSetup build_flags (render ["src"; "app"]) "example.com/app" "c" "n")) []) = Searching "/" ["app-c-n"; "src"; "/"; "/"; "/"; "/"].
Proof. reflexivity. Qed.
Print Assumptions C66_absolute_path.
Print Assumptions C66_output_check_of_arguments.
Print Assumptions C66_same_temporary_directory.
Print Assumptions C66_later_build_removes_it.
Print Assumptions C66_temporary_package.
Print Assumptions C66_plugin_at_module_root.
