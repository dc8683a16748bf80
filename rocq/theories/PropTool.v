(** C44, C45: the functions a plugin package must declare, and the generated registration of a static plugin. *)
From Verif Require Export ToolDecls.

(** ** Specification *)
(** the functions a plugin must declare, alphabetically; static builds also need the two generated ones *)
Definition seven : list string := ["Export"; "Import"; "InvokeFunc"; "OnFree"; "OnInit"; "OnLoad"; "Reloadable"].
Definition nine : list string := ["Export"; "HotswapLiveFuncs"; "HotswapLiveTypes"; "Import"; "InvokeFunc"; "OnFree"; "OnInit"; "OnLoad"; "Reloadable"].
Definition required (pkgName : string) : list string := if String.eqb pkgName "" then seven else nine.
(** some non-test file has a top-level function without receiver of that name *)
Definition declared (files : list (string * list decl)) (name : string) : Prop :=
  exists f ds, (f, ds) ∈ files /\ has_suffix "_test.go" f = false /\ DFunc false name ∈ ds.
(** "a", "a and b", "a, b and c", ... *)
Fixpoint english (l : list string) : string :=
  match l with
  | [] => ""
  | [x] => x
  | [x; y] => x +:+ " and " +:+ y
  | x :: l => x +:+ ", " +:+ english l
  end.

Global Instance decl_eq_dec : EqDecision decl.
Proof. solve_decision. Defined.
Global Instance declared_dec files name : Decision (declared files name).
Proof.
  refine (cast_if (decide (Exists (fun f => has_suffix "_test.go" (fst f) = false /\ DFunc false name ∈ snd f) files))); rewrite Exists_exists in *; unfold declared.
  - destruct e as ([f ds] & Hin & ? & ?). by exists f, ds.
  - intros (f & ds & Hin & H1 & H2). apply n. by exists (f, ds).
Defined.
(** the required functions that are not declared *)
Definition undeclared (pkgName : string) (files : list (string * list decl)) : list string :=
  List.filter (fun n => negb (bool_decide (declared files n))) (required pkgName).

(** ** Proofs *)
Lemma str_app_assoc a b c : a +:+ (b +:+ c) = (a +:+ b) +:+ c.
Proof. induction a as [|x a IH]; [done|]. change (String x (a +:+ (b +:+ c)) = String x ((a +:+ b) +:+ c)). by rewrite IH. Qed.
Lemma english_more l : (2 <= length l)%nat -> english l = join_with ", " (removelast l) +:+ " and " +:+ List.last l "".
Proof.
  induction l as [|x l IH]; cbn [length]; [lia|]. intros Hl. destruct l as [|y l]; [cbn in Hl; lia|]. destruct l as [|z l]; [done|].
  change (english (x :: y :: z :: l)) with (x +:+ ", " +:+ english (y :: z :: l)). rewrite IH by (cbn; lia).
  change (removelast (x :: y :: z :: l)) with (x :: removelast (y :: z :: l)). change (List.last (x :: y :: z :: l) "") with (List.last (y :: z :: l) "").
  change (join_with ", " (x :: removelast (y :: z :: l))) with (x +:+ ", " +:+ join_with ", " (removelast (y :: z :: l))). by rewrite !str_app_assoc.
Qed.
Lemma Join_english l : Join l = english l.
Proof. destruct l as [|x [|y [|z l]]]; try done. rewrite english_more by (cbn; lia). done. Qed.

Lemma note_decls pkgName ds : forall m n, fold_left (noteFunc pkgName) ds m !! n =
  match m !! n with None => None | Some v => if decide (DFunc false n ∈ ds) then Some (pkgName +:+ "." +:+ n) else Some v end.
Proof.
  induction ds as [|d ds IH]; intros m n; cbn [fold_left].
  - destruct (m !! n); [|done]. rewrite decide_False; [done|]. apply not_elem_of_nil.
  - rewrite IH. clear IH. assert (Hn : noteFunc pkgName m d !! n = match m !! n with None => None | Some v => if decide (d = DFunc false n) then Some (pkgName +:+ "." +:+ n) else Some v end).
    { destruct d as [[] name|specs|]; cbn [noteFunc]; try (destruct (m !! n); [by rewrite decide_False|done]).
      destruct (decide (name = n)) as [->|Hne].
      - destruct (m !! n) eqn:Hm; [|by rewrite Hm]. rewrite lookup_insert. by rewrite decide_True.
      - assert (Hd : DFunc false name <> DFunc false n) by congruence.
        destruct (m !! name) eqn:Hm; [rewrite lookup_insert_ne by done|]; (destruct (m !! n); [by rewrite decide_False|done]). }
    rewrite Hn. destruct (m !! n); [|done]. destruct (decide (d = DFunc false n)) as [->|Hd].
    + rewrite (decide_True (P := DFunc false n ∈ DFunc false n :: ds) _ _ (elem_of_list_here _ _)). by destruct (decide _).
    + destruct (decide (DFunc false n ∈ ds)) as [Hin|Hin].
      * rewrite decide_True; [done|]. by right.
      * rewrite decide_False; [done|]. intros [Heq|?]%elem_of_cons; [by apply Hd|done].
Qed.
Lemma note_files pkgName files : forall m n, noteFiles pkgName files m !! n =
  match m !! n with None => None | Some v => if decide (declared files n) then Some (pkgName +:+ "." +:+ n) else Some v end.
Proof.
  unfold noteFiles. induction files as [|[f ds] files IH]; intros m n; cbn [fold_left fst snd].
  - destruct (m !! n); [|done]. rewrite decide_False; [done|]. intros (f & ds & Hin & _). by apply elem_of_nil in Hin.
  - rewrite IH. destruct (has_suffix "_test.go" f) eqn:Hs.
    + destruct (m !! n); [|done]. assert (Hd : declared ((f, ds) :: files) n <-> declared files n).
      { unfold declared. split; intros (f' & ds' & Hin & H1 & H2); exists f', ds'; (split; [|done]).
        - apply elem_of_cons in Hin as [[= -> ->]|Hin]; [congruence|done].
        - by right. }
      destruct (decide (declared files n)); [by rewrite decide_True by tauto|by rewrite decide_False by tauto].
    + rewrite note_decls. destruct (m !! n); [|done]. destruct (decide (DFunc false n ∈ ds)) as [Hin|Hin].
      * rewrite (decide_True (P := declared ((f, ds) :: files) n)); [by destruct (decide _)|]. exists f, ds. split; [left|done].
      * assert (Hd : declared ((f, ds) :: files) n <-> declared files n).
        { unfold declared. split; intros (f' & ds' & Hin' & H1 & H2); exists f', ds'; (split; [|done]).
          - apply elem_of_cons in Hin' as [[= -> ->]|Hin']; [done|done].
          - by right. }
        destruct (decide (declared files n)); [by rewrite decide_True by tauto|by rewrite decide_False by tauto].
Qed.

Lemma required_lookup pkgName n : requiredFuncs pkgName !! n = if decide (n ∈ required pkgName) then Some "nil" else None.
Proof.
  unfold requiredFuncs, required. destruct (String.eqb pkgName "").
  - destruct (decide (n ∈ seven)) as [Hin|Hin].
    + unfold seven in Hin. repeat (apply elem_of_cons in Hin as [->|Hin]; [vm_compute; reflexivity|]). by apply elem_of_nil in Hin.
    + destruct (decide (n = "HotswapLiveTypes")) as [->|H1]; [vm_compute; reflexivity|]. rewrite lookup_delete_ne by done.
      destruct (decide (n = "HotswapLiveFuncs")) as [->|H2]; [vm_compute; reflexivity|]. rewrite lookup_delete_ne by done.
      apply not_elem_of_list_to_map_1. intros Hn. cbn in Hn. unfold seven in Hin. revert Hin Hn. rewrite !elem_of_cons. tauto.
  - destruct (decide (n ∈ nine)) as [Hin|Hin].
    + unfold nine in Hin. repeat (apply elem_of_cons in Hin as [->|Hin]; [vm_compute; reflexivity|]). by apply elem_of_nil in Hin.
    + apply not_elem_of_list_to_map_1. intros Hn. cbn in Hn. unfold nine in Hin. revert Hin Hn. rewrite !elem_of_cons. tauto.
Qed.
Lemma required_sorted pkgName : sort_strings (required pkgName) = required pkgName /\ NoDup (required pkgName).
Proof.
  unfold required. destruct (String.eqb pkgName ""); (split; [vm_compute; reflexivity|]); apply (bool_decide_unpack _); vm_compute; exact I.
Qed.

Lemma list_filter_perm {A} (P : A -> bool) l l' : Permutation l l' -> Permutation (List.filter P l) (List.filter P l').
Proof.
  induction 1 as [|x l l' _ IH|x y l|l l' l'' _ IH1 _ IH2]; cbn; [done|by destruct (P x); [constructor|]|destruct (P x), (P y); try done; constructor|by etrans].
Qed.
Lemma list_filter_ssorted (P : string -> bool) l : StronglySorted str_le l -> StronglySorted str_le (List.filter P l).
Proof.
  induction 1 as [|x l Hl IH Hx]; cbn; [constructor|]. destruct (P x); [|done]. constructor; [done|]. apply Forall_forall. intros y Hy.
  apply elem_of_list_In, filter_In in Hy as [Hy _]. rewrite Forall_forall in Hx. apply Hx. by apply elem_of_list_In.
Qed.
Lemma sorted_filter (P : string -> bool) l l' : Permutation l l' -> sort_strings l' = l' -> sort_strings (List.filter P l) = List.filter P l'.
Proof.
  intros Hp Hs. rewrite (sort_strings_eq _ _ (list_filter_perm P _ _ Hp)).
  apply (Sorted_unique str_le); [apply sort_strings_sorted| |apply sort_strings_perm].
  apply StronglySorted_Sorted, list_filter_ssorted. rewrite <- Hs. apply sort_strings_ssorted.
Qed.

Lemma dot_not_nil pkgName n : pkgName +:+ "." +:+ n <> "nil".
Proof.
  destruct pkgName as [|a [|b [|c [|d p]]]]; intros H; inversion H.
Qed.

Lemma parse_cases pkgName files it : Permutation it (required pkgName) ->
  parseRequiredPluginFuncs pkgName files it =
  match undeclared pkgName files with
  | [] => Done (map (fun n => (n, pkgName +:+ "." +:+ n)) (required pkgName))
  | l => Panics ("missing fundamental plugin functions: " +:+ english l)
  end.
Proof.
  intros Hp. unfold parseRequiredPluginFuncs. set (m := noteFiles pkgName files (requiredFuncs pkgName)).
  destruct (required_sorted pkgName) as [Hs Hnd].
  assert (Hm : forall k, k ∈ required pkgName -> m !! k = Some (if decide (declared files k) then pkgName +:+ "." +:+ k else "nil")).
  { intros k Hk. unfold m. rewrite note_files, required_lookup, decide_True by done. by destruct (decide _). }
  assert (Hf : forall k, k ∈ it -> bool_decide (m !! k = Some "nil") = negb (bool_decide (declared files k))).
  { intros k Hk. rewrite Hp in Hk. rewrite (Hm k Hk). destruct (decide (declared files k)) as [Hd|Hd].
    - rewrite (bool_decide_eq_true_2 _ Hd). apply bool_decide_eq_false_2. intros [= H]. by apply dot_not_nil in H.
    - rewrite (bool_decide_eq_false_2 _ Hd). by apply bool_decide_eq_true_2. }
  assert (H1 : List.filter (fun k => bool_decide (m !! k = Some "nil")) it = List.filter (fun k => negb (bool_decide (declared files k))) it).
  { apply filter_ext_in. intros k Hk. apply Hf. by apply elem_of_list_In. }
  assert (H2 : List.filter (fun k => negb (bool_decide (m !! k = Some "nil"))) it = List.filter (fun k => bool_decide (declared files k)) it).
  { apply filter_ext_in. intros k Hk. rewrite Hf by (by apply elem_of_list_In). apply negb_involutive. }
  rewrite H1, H2. clear H1 H2 Hf.
  assert (Hu : sort_strings (List.filter (fun k => negb (bool_decide (declared files k))) it) = undeclared pkgName files) by (by apply sorted_filter).
  destruct (List.filter (fun k => negb (bool_decide (declared files k))) it) as [|x l] eqn:He.
  - change (sort_strings []) with (@nil string) in Hu. rewrite <- Hu. f_equal.
    assert (Ha : List.filter (fun k => bool_decide (declared files k)) it = it).
    { clear -He. induction it as [|k it IH]; [done|]. cbn in He |- *. destruct (bool_decide (declared files k)); [|done]. cbn in He. by rewrite IH. }
    rewrite Ha, (sort_strings_eq _ _ Hp), Hs. apply map_ext_in. intros k Hk. apply elem_of_list_In in Hk. rewrite (Hm k Hk). cbn. f_equal.
    rewrite decide_True; [done|]. apply dec_stable. intros Hd. assert (Hin : k ∈ undeclared pkgName files); [|rewrite <- Hu in Hin; by apply elem_of_nil in Hin].
    apply elem_of_list_In, filter_In. split; [by apply elem_of_list_In|]. by rewrite (bool_decide_eq_false_2 _ Hd).
  - rewrite Hu, Join_english. destruct (undeclared pkgName files) as [|y l'] eqn:Hl; [|done].
    apply (f_equal (@length _)) in Hu. assert (Hlen : length (sort_strings (x :: l)) = length (x :: l)) by (apply Permutation_length, sort_strings_perm). rewrite Hlen in Hu. done.
Qed.

Lemma undeclared_nil pkgName files : undeclared pkgName files = [] <-> forall n, n ∈ required pkgName -> declared files n.
Proof.
  unfold undeclared. split.
  - intros Hu n Hn. apply dec_stable. intros Hd. assert (Hin : n ∈ List.filter (fun n => negb (bool_decide (declared files n))) (required pkgName)); [|rewrite Hu in Hin; by apply elem_of_nil in Hin].
    apply elem_of_list_In, filter_In. split; [by apply elem_of_list_In|]. by rewrite (bool_decide_eq_false_2 _ Hd).
  - intros H. destruct (List.filter _ _) as [|x l] eqn:He; [done|]. assert (Hin : In x (x :: l)) by by left. rewrite <- He in Hin. apply filter_In in Hin as [Hin Hx].
    apply elem_of_list_In in Hin. rewrite (bool_decide_eq_true_2 _ (H x Hin)) in Hx. done.
Qed.

(** ** C45 *)
(** The check refuses a package exactly when a required function is not declared, and names exactly those, alphabetically.
    [it]: any order in which the tool's map of names is iterated. *)
Theorem C45_refuses_exactly_incomplete_packages pkgName files it msg : Permutation it (required pkgName) ->
  parseRequiredPluginFuncs pkgName files it = Panics msg <->
  (exists n, n ∈ required pkgName /\ ~ declared files n) /\ msg = "missing fundamental plugin functions: " +:+ english (undeclared pkgName files).
Proof.
  intros Hp. rewrite parse_cases by done. destruct (undeclared pkgName files) as [|x l] eqn:Hu.
  - split; [done|]. intros [(n & Hn & Hd) _]. destruct Hd. by apply (proj1 (undeclared_nil _ _) Hu).
  - split.
    + intros [= <-]. split; [|done]. exists x. assert (Hin : In x (x :: l)) by by left. rewrite <- Hu in Hin. apply filter_In in Hin as [Hin Hx]. split; [by apply elem_of_list_In|].
      intros Hd. by rewrite (bool_decide_eq_true_2 _ Hd) in Hx.
    + by intros [_ ->].
Qed.
(** A dynamic build checks the seven functions, unless the check is switched off. *)
Theorem C45_dynamic_build env files it : Permutation it seven ->
  checkRequired env files it = Done tt <-> (env = "false" \/ env = "0") \/ (forall n, n ∈ seven -> declared files n).
Proof.
  intros Hp. unfold checkRequired. destruct (String.eqb_spec env "false") as [->|H1]; [cbn; tauto|]. destruct (String.eqb_spec env "0") as [->|H2]; [cbn; tauto|]. cbn [orb].
  change seven with (required "") in *. rewrite parse_cases by done. rewrite <- undeclared_nil. destruct (undeclared "" files) as [|x l]; (split; [|try done]).
  - by right.
  - done.
  - intros [[?|?]|?]; done.
Qed.
(** A static build has generated hotswap.main.go (hotswapMain.tpl:13-19) in the plugin directory before it checks, so
    that the plugin itself still has to declare the same seven functions only. *)
Definition generatedMain : string * list decl := ("hotswap.main.go", [DOther; DFunc false "HotswapLiveFuncs"; DFunc false "HotswapLiveTypes"]).
Theorem C45_static_build plugin pkgName pkgPath files it : Permutation it nine -> pkgName <> "" -> generatedMain ∈ files ->
  (exists i, genHotswapStaticPluginInit plugin pkgName pkgPath files it = Done i) <-> (forall n, n ∈ seven -> declared files n).
Proof.
  intros Hp Hne Hg. unfold genHotswapStaticPluginInit. assert (Hi : String.eqb (importName pkgName) "" = false).
  { apply String.eqb_neq. unfold importName. by destruct (String.eqb pkgName "hotswap"). }
  assert (Hr : required (importName pkgName) = nine) by (unfold required; by rewrite Hi). rewrite parse_cases by (by rewrite Hr).
  assert (Hu : undeclared (importName pkgName) files = [] <-> forall n, n ∈ seven -> declared files n).
  { rewrite undeclared_nil, Hr. split; intros H n Hn.
    - apply H. unfold seven, nine in *. revert Hn. rewrite !elem_of_cons. tauto.
    - unfold nine in Hn. rewrite !elem_of_cons in Hn.
      assert (Hgen : forall k, k = "HotswapLiveFuncs" \/ k = "HotswapLiveTypes" -> declared files k).
      { intros k Hk. exists "hotswap.main.go", [DOther; DFunc false "HotswapLiveFuncs"; DFunc false "HotswapLiveTypes"]. split; [done|]. split; [done|]. destruct Hk as [->| ->]; [right; left|right; right; left]. }
      destruct Hn as [->|[->|[->|Hn]]]; [apply H; left|apply Hgen; tauto|apply Hgen; tauto|]. apply H. unfold seven. rewrite !elem_of_cons. tauto. }
  rewrite <- Hu. destruct (undeclared (importName pkgName) files) as [|x l]; split; try done; [by eexists|by intros [? ?]].
Qed.

(** ** C44 *)
(** The generated registration passes each of the nine functions of the package into the slot of the same name, registers the plugin
    under its name, and imports the package under a name different from that of hotswap itself.
    [eval]: what Go makes of a qualified identifier; [code n]: the function [n] of the plugin package. *)
Theorem C44_every_function_in_its_slot plugin pkgName pkgPath files it i eval code :
  Permutation it nine -> pkgName <> "" -> genHotswapStaticPluginInit plugin pkgName pkgPath files it = Done i ->
  (forall n, eval (fst (si_import i) +:+ "." +:+ n) = Some (code n)) ->
  fst (si_import i) <> "hotswap" /\ snd (si_import i) = pkgPath /\
  exists sp, runInit eval i = Some (plugin, sp) /\ sp_name sp = plugin /\ forall r, get_func r (sp_funcs sp) = Some (code (role_symbol r)).
Proof.
  intros Hp Hne Hg Hev. unfold genHotswapStaticPluginInit in Hg. assert (Hi : String.eqb (importName pkgName) "" = false).
  { apply String.eqb_neq. unfold importName. by destruct (String.eqb pkgName "hotswap"). }
  assert (Hr : required (importName pkgName) = nine) by (unfold required; by rewrite Hi). rewrite parse_cases in Hg by (by rewrite Hr).
  destruct (undeclared (importName pkgName) files); [|done]. injection Hg as <-. cbn [si_import fst snd] in *. split; [|split; [done|]].
  - unfold importName. by destruct (String.eqb_spec pkgName "hotswap").
  - unfold runInit. cbn [si_args si_key si_name]. rewrite Hr. unfold nine. cbn [map snd]. rewrite !Hev. eexists. split; [reflexivity|]. split; [done|]. by intros [].
Qed.

(** ** Concrete cases *)
Definition demo_files : list (string * list decl) :=
  [("main.go", [DOther; DFunc false "OnLoad"; DFunc true "OnFree"; DFunc false "OnInit"; DFunc false "Reloadable"; DFunc false "InvokeFunc"]);
   ("x_test.go", [DFunc false "Import"]); ("export.go", [DFunc false "Export"; DType [("live_T", true)]])].
Example C45_case : Permutation (rev seven) (required "") /\
  parseRequiredPluginFuncs "" demo_files (rev seven) = Panics "missing fundamental plugin functions: Import and OnFree".
Proof. split; [apply Permutation_sym, Permutation_rev|vm_compute; reflexivity]. Qed.
Definition demo_files2 : list (string * list decl) := demo_files ++ [generatedMain; ("more.go", [DFunc false "Import"; DFunc false "OnFree"])].
Example C44_case : Permutation nine nine /\ generatedMain ∈ demo_files2 /\
  genHotswapStaticPluginInit "arya" "hotswap" "x.y/z/arya" demo_files2 nine = Done (mkInit "arya" "arya" ("hotswapx", "x.y/z/arya")
    ["hotswapx.Export"; "hotswapx.HotswapLiveFuncs"; "hotswapx.HotswapLiveTypes"; "hotswapx.Import"; "hotswapx.InvokeFunc"; "hotswapx.OnFree"; "hotswapx.OnInit"; "hotswapx.OnLoad"; "hotswapx.Reloadable"]).
Proof. split; [done|]. split; [apply elem_of_list_In; cbn; tauto|vm_compute; reflexivity]. Qed.

Print Assumptions C45_refuses_exactly_incomplete_packages.
Print Assumptions C45_dynamic_build.
Print Assumptions C45_static_build.
Print Assumptions C44_every_function_in_its_slot.
