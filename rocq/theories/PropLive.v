(** C46: which live functions and live types the tool registers. *)
From Verif Require Export PropTool.

(** ** Specification *)
(** the name starts with the prefix, ignoring case; the tool has lower-cased and trimmed the prefix (build.go:172) *)
Definition live_name (prefix n : string) : bool := has_prefix prefix (to_lower n).
(** the functions (without receiver) and the types declared by a package, in order; a type with the mark "is a struct" *)
Definition functions (pkg : package) : list string := flat_map (fun synt => flat_map (fun d => match d with DFunc false n => [n] | _ => [] end) synt) (pk_syntax pkg).
Definition types (pkg : package) : list (string * bool) := flat_map (fun synt => flat_map (fun d => match d with DType specs => specs | _ => [] end) synt) (pk_syntax pkg).
(** packages without Go files are ignored *)
Definition has_code (pkg : package) : Prop := pk_gofiles pkg <> [].
Definition dir_of (dirOf : string -> string) (pkg : package) : string := dirOf (hd "" (pk_gofiles pkg)).
(** every name that is to be registered, with repetitions *)
Definition live_funcs_of (prefix : string) (pkg : package) : list string := List.filter (live_name prefix) (functions pkg).
Definition live_types_of (prefix : string) (pkg : package) : list (string * bool) := List.filter (fun t => live_name prefix (fst t)) (types pkg).
Definition code_of_all (pkgs : list package) : list package := List.filter (fun p => negb (bool_decide (pk_gofiles p = []))) pkgs.
Definition registrable (prefix : string) (pkgs : list package) : list string :=
  flat_map (fun p => live_funcs_of prefix p ++ map fst (List.filter snd (live_types_of prefix p))) (code_of_all pkgs).
(** the live types that are not structs *)
Definition unsuitable (prefix : string) (pkgs : list package) : list (string * bool) :=
  flat_map (fun p => List.filter (fun t => negb (snd t)) (live_types_of prefix p)) (code_of_all pkgs).

(** ** Occurrences *)
Inductive kind := KFunc | KType (struct : bool).
Record occ := mkOcc { oc_dir : string; oc_pkg : package; oc_kind : kind; oc_name : string }.
Definition decl_occs (dir : string) (pkg : package) (d : decl) : list occ :=
  match d with
  | DFunc false n => [mkOcc dir pkg KFunc n]
  | DType specs => map (fun s => mkOcc dir pkg (KType (snd s)) (fst s)) specs
  | _ => []
  end.
Definition pkg_occs (dirOf : string -> string) (pkg : package) : list occ :=
  match pk_gofiles pkg with [] => [] | f :: _ => flat_map (flat_map (decl_occs (dirOf f) pkg)) (pk_syntax pkg) end.
Definition occ_step (prefix : string) (s : live) (o : occ) : live :=
  match oc_kind o with
  | KFunc => liveFunc prefix (oc_dir o) (oc_pkg o) s (oc_name o)
  | KType st => liveType prefix (oc_dir o) (oc_pkg o) s (oc_name o, st)
  end.
Lemma fold_left_flat_map {A B S} (f : S -> B -> S) (g : A -> list B) l : forall s, fold_left f (flat_map g l) s = fold_left (fun s x => fold_left f (g x) s) l s.
Proof. induction l as [|x l IH]; intros s; [done|]. cbn [flat_map fold_left]. by rewrite fold_left_app, IH. Qed.
Lemma fold_left_ext {A S} (f g : S -> A -> S) l : (forall s x, f s x = g s x) -> forall s, fold_left f l s = fold_left g l s.
Proof. intros H. induction l as [|x l IH]; intros s; [done|]. cbn. by rewrite H, IH. Qed.
Lemma decl_steps prefix dir pkg s d : liveDecl prefix dir pkg s d = fold_left (occ_step prefix) (decl_occs dir pkg d) s.
Proof.
  destruct d as [[] n|specs|]; try done. cbn [liveDecl decl_occs]. revert s. induction specs as [|[n st] specs IH]; intros s; [done|]. cbn [fold_left map]. by rewrite IH.
Qed.
Lemma pkg_steps dirOf prefix s pkg : livePackage dirOf prefix s pkg = fold_left (occ_step prefix) (pkg_occs dirOf pkg) s.
Proof.
  unfold livePackage, pkg_occs. destruct (pk_gofiles pkg) as [|f fs]; [done|]. rewrite fold_left_flat_map. apply fold_left_ext. intros s' synt.
  rewrite fold_left_flat_map. apply fold_left_ext. intros s'' d. apply decl_steps.
Qed.
Definition all_occs (dirOf : string -> string) (pkgs : list package) : list occ := flat_map (pkg_occs dirOf) pkgs.
Lemma all_steps dirOf prefix pkgs s : fold_left (livePackage dirOf prefix) pkgs s = fold_left (occ_step prefix) (all_occs dirOf pkgs) s.
Proof. unfold all_occs. rewrite fold_left_flat_map. apply fold_left_ext. intros. apply pkg_steps. Qed.

(** *** The state after some occurrences *)
Definition is_live (prefix : string) (o : occ) : bool := live_name prefix (oc_name o).
Definition is_good (prefix : string) (o : occ) : bool := is_live prefix o && match oc_kind o with KType false => false | _ => true end.
Definition is_func (o : occ) : bool := match oc_kind o with KFunc => true | _ => false end.
Definition names_of (prefix dir : string) (fn : bool) (os : list occ) : list string :=
  map oc_name (List.filter (fun o => is_good prefix o && String.eqb (oc_dir o) dir && Bool.eqb (is_func o) fn) os).
Record after_occs (prefix : string) (os : list occ) (s : live) : Prop := {
  ao_names : lv_names s = list_to_set (map oc_name (List.filter (is_good prefix) os));
  ao_count : (length (lv_errs s) + size (lv_names s))%nat = length (List.filter (is_live prefix) os);
  ao_funcs : lv_errs s = [] -> forall d, default [] (lv_funcs s !! d) = names_of prefix d true os;
  ao_types : lv_errs s = [] -> forall d, default [] (lv_types s !! d) = names_of prefix d false os;
  ao_pkgs : lv_errs s = [] -> forall d, match lv_pkgs s !! d with
     | Some p => exists o, o ∈ os /\ is_good prefix o = true /\ oc_dir o = d /\ oc_pkg o = p
     | None => forall o, o ∈ os -> is_good prefix o = true -> oc_dir o <> d end }.
Lemma names_snoc prefix d fn os o : names_of prefix d fn (os ++ [o]) = names_of prefix d fn os ++ (if is_good prefix o && String.eqb (oc_dir o) d && Bool.eqb (is_func o) fn then [oc_name o] else []).
Proof. unfold names_of. rewrite List.filter_app, map_app. cbn [List.filter]. by destruct (is_good prefix o && String.eqb (oc_dir o) d && Bool.eqb (is_func o) fn). Qed.
Lemma push_default k x (m : gmap string (list string)) d : default [] (push k x m !! d) = default [] (m !! d) ++ (if String.eqb k d then [x] else []).
Proof.
  unfold push. destruct (String.eqb_spec k d) as [->|Hne]; [by rewrite lookup_insert|]. rewrite lookup_insert_ne by done. by rewrite (right_id_L [] (++)).
Qed.
Lemma step_dead prefix os s o : after_occs prefix os s -> is_live prefix o = false -> after_occs prefix (os ++ [o]) s.
Proof.
  intros [H1 H2 H3 H4 H5] Hl. assert (Hg : is_good prefix o = false) by (unfold is_good; by rewrite Hl). split.
  - rewrite List.filter_app. cbn [List.filter]. rewrite Hg. by rewrite (right_id_L [] (++)).
  - rewrite List.filter_app. cbn [List.filter]. rewrite Hl. by rewrite (right_id_L [] (++)).
  - intros He d. rewrite names_snoc, Hg. cbn [andb]. rewrite (right_id_L [] (++)). by apply H3.
  - intros He d. rewrite names_snoc, Hg. cbn [andb]. rewrite (right_id_L [] (++)). by apply H4.
  - intros He d. specialize (H5 He d). destruct (lv_pkgs s !! d).
    + destruct H5 as (o' & Hin & ?). exists o'. split; [rewrite elem_of_app; by left|done].
    + intros o' Hin. apply elem_of_app in Hin as [Hin|Hin]; [by apply H5|]. apply elem_of_list_singleton in Hin as ->. by rewrite Hg.
Qed.
Lemma step_error prefix os s o msg : after_occs prefix os s -> is_live prefix o = true -> (is_good prefix o = false \/ oc_name o ∈ lv_names s) ->
  after_occs prefix (os ++ [o]) (mkLive (lv_names s) (lv_funcs s) (lv_types s) (lv_pkgs s) (lv_errs s ++ [msg])).
Proof.
  intros [H1 H2 H3 H4 H5] Hl Hb. split; cbn [lv_names lv_errs lv_funcs lv_types lv_pkgs].
  - rewrite List.filter_app, map_app, list_to_set_app_L, <- H1. cbn [List.filter]. destruct (is_good prefix o) eqn:Hg; [|cbn; by rewrite (right_id_L ∅ (∪))].
    destruct Hb as [?|Hb]; [done|]. cbn. set_solver.
  - rewrite List.filter_app, !app_length. cbn [List.filter]. rewrite Hl. cbn [length]. lia.
  - intros He. apply app_eq_nil in He as [_ He]. discriminate He.
  - intros He. apply app_eq_nil in He as [_ He]. discriminate He.
  - intros He. apply app_eq_nil in He as [_ He]. discriminate He.
Qed.
Lemma step_good prefix os s o fs ts : after_occs prefix os s -> is_good prefix o = true -> oc_name o ∉ lv_names s ->
  (forall d, default [] (fs !! d) = default [] (lv_funcs s !! d) ++ (if String.eqb (oc_dir o) d && is_func o then [oc_name o] else [])) ->
  (forall d, default [] (ts !! d) = default [] (lv_types s !! d) ++ (if String.eqb (oc_dir o) d && negb (is_func o) then [oc_name o] else [])) ->
  after_occs prefix (os ++ [o]) (mkLive ({[oc_name o]} ∪ lv_names s) fs ts (<[oc_dir o := oc_pkg o]> (lv_pkgs s)) (lv_errs s)).
Proof.
  intros [H1 H2 H3 H4 H5] Hg Hn Hf Ht. assert (Hl : is_live prefix o = true) by (unfold is_good in Hg; by apply andb_true_iff in Hg as [? _]).
  split; cbn [lv_names lv_errs lv_funcs lv_types lv_pkgs].
  - rewrite List.filter_app, map_app, list_to_set_app_L, <- H1. cbn [List.filter]. rewrite Hg. cbn. set_solver.
  - rewrite List.filter_app, app_length. cbn [List.filter]. rewrite Hl. cbn [length]. rewrite size_union by set_solver. rewrite size_singleton. lia.
  - intros He d. rewrite names_snoc, Hg, Hf, H3 by done. cbn [andb]. by destruct (String.eqb (oc_dir o) d), (is_func o).
  - intros He d. rewrite names_snoc, Hg, Ht, H4 by done. cbn [andb]. by destruct (String.eqb (oc_dir o) d), (is_func o).
  - intros He d. specialize (H5 He d). destruct (decide (oc_dir o = d)) as [<-|Hne].
    + rewrite lookup_insert. exists o. split; [rewrite elem_of_app; right; by apply elem_of_list_singleton|done].
    + rewrite lookup_insert_ne by done. destruct (lv_pkgs s !! d).
      * destruct H5 as (o' & Hin & ?). exists o'. split; [rewrite elem_of_app; by left|done].
      * intros o' Hin Hgo. apply elem_of_app in Hin as [Hin|Hin]; [by apply H5|]. by apply elem_of_list_singleton in Hin as ->.
Qed.
Lemma step_ok prefix os s o : after_occs prefix os s -> after_occs prefix (os ++ [o]) (occ_step prefix s o).
Proof.
  intros HA. destruct o as [dir pkg k n]. unfold occ_step. cbn [oc_kind oc_dir oc_pkg oc_name].
  destruct k as [|st].
  - unfold liveFunc. destruct (has_prefix prefix (to_lower n)) eqn:Hp; [|by apply step_dead]. destruct (bool_decide (n ∈ lv_names s)) eqn:Hb.
    + apply bool_decide_eq_true in Hb. apply step_error; [done|exact Hp|by right].
    + apply bool_decide_eq_false in Hb. apply (step_good prefix os s (mkOcc dir pkg KFunc n)); [done|unfold is_good, is_live, live_name; cbn [oc_name oc_kind]; by rewrite Hp|done|..]; intros d; cbn [oc_dir oc_name is_func oc_kind negb].
      * rewrite push_default. by rewrite andb_true_r.
      * rewrite andb_false_r. by rewrite (right_id_L [] (++)).
  - unfold liveType. cbn [fst snd]. destruct (has_prefix prefix (to_lower n)) eqn:Hp; [|by apply step_dead].
    destruct st; cbn [negb]; [|apply step_error; [done|exact Hp|left; unfold is_good; cbn; apply andb_false_r]].
    destruct (bool_decide (n ∈ lv_names s)) eqn:Hb.
    + apply bool_decide_eq_true in Hb. apply step_error; [done|exact Hp|by right].
    + apply bool_decide_eq_false in Hb. apply (step_good prefix os s (mkOcc dir pkg (KType true) n)); [done|unfold is_good, is_live, live_name; cbn [oc_name oc_kind]; by rewrite Hp|done|..]; intros d; cbn [oc_dir oc_name is_func oc_kind negb].
      * rewrite andb_false_r. by rewrite (right_id_L [] (++)).
      * rewrite push_default. by rewrite andb_true_r.
Qed.
Lemma steps_ok prefix os : after_occs prefix os (fold_left (occ_step prefix) os no_live).
Proof.
  induction os as [|o os IH] using rev_ind.
  - split; try done. intros _ d. cbn. rewrite lookup_empty. intros o Hin. by apply elem_of_nil in Hin.
  - rewrite fold_left_app. cbn [fold_left]. by apply step_ok.
Qed.

(** *** Counting *)
Lemma set_size_le (l : list string) : (size (list_to_set l : gset string) <= length l)%nat.
Proof.
  induction l as [|x l IH]; [cbn; by rewrite size_empty|]. cbn [list_to_set length]. rewrite size_union_alt, size_singleton.
  assert (size ((list_to_set l : gset string) ∖ {[x]}) <= size (list_to_set l : gset string))%nat by (apply subseteq_size; set_solver). unfold list_to_set in *. lia.
Qed.
Lemma set_size_nodup (l : list string) : size (list_to_set l : gset string) = length l -> NoDup l.
Proof.
  induction l as [|x l IH]; [constructor|]. cbn [list_to_set length]. intros Hs. pose proof (set_size_le l) as Hle. destruct (decide (x ∈ l)) as [Hin|Hin].
  - assert (He : ({[x]} ∪ list_to_set l : gset string) = list_to_set l) by set_solver. change (foldr (λ x0 X, {[x0]} ∪ X) ∅ l) with (list_to_set l : gset string) in Hs. rewrite He in Hs. lia.
  - constructor; [done|]. apply IH. change (foldr (λ x0 X, {[x0]} ∪ X) ∅ l) with (list_to_set l : gset string) in Hs. rewrite size_union in Hs by set_solver. rewrite size_singleton in Hs. lia.
Qed.

(** *** Occurrences and the specification *)
Lemma filter_flat_map {A B} (P : B -> bool) (f : A -> list B) l : List.filter P (flat_map f l) = flat_map (fun x => List.filter P (f x)) l.
Proof. induction l as [|x l IH]; [done|]. cbn [flat_map]. by rewrite List.filter_app, IH. Qed.
Lemma occ_elem dirOf pkgs o : o ∈ all_occs dirOf pkgs <-> exists pkg, pkg ∈ pkgs /\ has_code pkg /\ oc_pkg o = pkg /\ oc_dir o = dir_of dirOf pkg /\
  match oc_kind o with KFunc => oc_name o ∈ functions pkg | KType st => (oc_name o, st) ∈ types pkg end.
Proof.
  unfold all_occs. rewrite elem_of_list_In, in_flat_map.
  assert (Hp : forall pkg, In o (pkg_occs dirOf pkg) <-> has_code pkg /\ oc_pkg o = pkg /\ oc_dir o = dir_of dirOf pkg /\
    match oc_kind o with KFunc => oc_name o ∈ functions pkg | KType st => (oc_name o, st) ∈ types pkg end).
  { intros pkg. unfold pkg_occs, has_code, dir_of. destruct (pk_gofiles pkg) as [|f fs]; [cbn; split; [done|by intros (? & _)]|]. cbn [hd].
    unfold functions, types. rewrite in_flat_map. setoid_rewrite in_flat_map.
    split.
    - intros (synt & Hs & d & Hd & Ho). split; [done|]. destruct d as [[] n|specs|]; cbn [decl_occs] in Ho; try done.
      + destruct Ho as [<-|[]]. cbn [oc_pkg oc_dir oc_kind oc_name]. split; [done|]. split; [done|]. apply elem_of_list_In, in_flat_map. exists synt. split; [done|]. apply in_flat_map. eexists. split; [exact Hd|]. by left.
      + apply in_map_iff in Ho as ([n st] & <- & Hin). cbn [oc_pkg oc_dir oc_kind oc_name fst snd]. split; [done|]. split; [done|]. apply elem_of_list_In, in_flat_map. exists synt. split; [done|]. apply in_flat_map. eexists. split; [exact Hd|]. done.
    - intros (_ & Hpk & Hdir & Hk). destruct o as [od opk k n]. cbn [oc_pkg oc_dir oc_kind oc_name] in *. subst od opk. destruct k as [|st].
      + apply elem_of_list_In, in_flat_map in Hk as (synt & Hs & Hk). apply in_flat_map in Hk as (d & Hd & Hk). exists synt. split; [done|]. exists d. split; [done|]. destruct d as [[] n'|specs|]; try done. destruct Hk as [->|[]]. by left.
      + apply elem_of_list_In, in_flat_map in Hk as (synt & Hs & Hk). apply in_flat_map in Hk as (d & Hd & Hk). exists synt. split; [done|]. exists d. split; [done|]. destruct d as [[] n'|specs|]; try done.
        cbn [decl_occs]. apply in_map_iff. by exists (n, st). }
  setoid_rewrite Hp. setoid_rewrite elem_of_list_In. split; [intros (p & H); by exists p|intros (p & H); by exists p].
Qed.
(** the good occurrences have the registrable names, the other live ones are the unsuitable types *)
Lemma perm_flat_map {A B} (f g : A -> list B) l : (forall x, Permutation (f x) (g x)) -> Permutation (flat_map f l) (flat_map g l).
Proof. intros H. induction l as [|x l IH]; [done|]. cbn. by rewrite H, IH. Qed.
Lemma map_flat_map {A B C} (h : B -> C) (f : A -> list B) l : map h (flat_map f l) = flat_map (fun x => map h (f x)) l.
Proof. induction l as [|x l IH]; [done|]. cbn. by rewrite map_app, IH. Qed.
Lemma flat_map_app_perm {A B} (f g : A -> list B) l : Permutation (flat_map (fun x => f x ++ g x) l) (flat_map f l ++ flat_map g l).
Proof. induction l as [|x l IH]; [done|]. cbn. rewrite IH. rewrite <- !(assoc_L (++)). apply Permutation_app_head. rewrite !(assoc_L (++)). apply Permutation_app_tail, Permutation_app_comm. Qed.
Lemma good_of_decl prefix dir pkg d :
  map oc_name (List.filter (is_good prefix) (decl_occs dir pkg d)) =
  List.filter (live_name prefix) (match d with DFunc false n => [n] | _ => [] end) ++
  map fst (List.filter snd (List.filter (fun t => live_name prefix (fst t)) (match d with DType specs => specs | _ => [] end))).
Proof.
  destruct d as [[] n|specs|]; try done.
  - cbn [decl_occs List.filter app map]. unfold is_good, is_live. cbn [oc_name oc_kind]. rewrite andb_true_r. by destruct (live_name prefix n).
  - cbn [decl_occs List.filter app]. induction specs as [|[n st] specs IH]; [done|]. cbn [map List.filter fst snd]. unfold is_good at 1, is_live at 1. cbn [oc_name oc_kind].
    destruct (live_name prefix n); cbn [andb List.filter]; [|done]. destruct st; cbn [List.filter snd map fst oc_name]; by rewrite IH.
Qed.
Lemma code_flat {B} (f : package -> list B) pkgs : (forall p, pk_gofiles p = [] -> f p = []) -> flat_map f pkgs = flat_map f (code_of_all pkgs).
Proof.
  intros H. induction pkgs as [|p pkgs IH]; [done|]. cbn. rewrite IH. destruct (bool_decide (pk_gofiles p = [])) eqn:Hb; [|done]. apply bool_decide_eq_true in Hb. by rewrite H.
Qed.
Lemma flat_map_ext_code {B} (f g : package -> list B) pkgs : (forall p, has_code p -> Permutation (f p) (g p)) -> Permutation (flat_map f (code_of_all pkgs)) (flat_map g (code_of_all pkgs)).
Proof.
  intros H. induction pkgs as [|p pkgs IH]; [done|]. cbn. destruct (bool_decide (pk_gofiles p = [])) eqn:Hb; [done|]. apply bool_decide_eq_false in Hb. cbn. by rewrite (H p Hb), IH.
Qed.
Lemma good_names dirOf prefix pkgs : Permutation (map oc_name (List.filter (is_good prefix) (all_occs dirOf pkgs))) (registrable prefix pkgs).
Proof.
  unfold all_occs, registrable. rewrite filter_flat_map, map_flat_map. rewrite code_flat by (intros p Hp; unfold pkg_occs; by rewrite Hp).
  apply flat_map_ext_code. intros p Hp. unfold pkg_occs. unfold has_code in Hp. destruct (pk_gofiles p) as [|f fs]; [done|]. clear Hp.
  unfold live_funcs_of, live_types_of, functions, types. rewrite !filter_flat_map, !map_flat_map.
  rewrite <- flat_map_app_perm. apply perm_flat_map. intros synt. rewrite !filter_flat_map, !map_flat_map. rewrite <- flat_map_app_perm. apply perm_flat_map. intros d.
  by rewrite (good_of_decl prefix (dirOf f) p d).
Qed.
Definition is_bad (prefix : string) (o : occ) : bool := is_live prefix o && match oc_kind o with KType false => true | _ => false end.
Lemma bad_of_decl prefix dir pkg d :
  length (List.filter (is_bad prefix) (decl_occs dir pkg d)) =
  length (List.filter (fun t => negb (snd t)) (List.filter (fun t => live_name prefix (fst t)) (match d with DType specs => specs | _ => [] end))).
Proof.
  destruct d as [[] n|specs|]; try done.
  - cbn [decl_occs List.filter length]. unfold is_bad, is_live. cbn [oc_name oc_kind]. by rewrite andb_false_r.
  - cbn [decl_occs]. induction specs as [|[n st] specs IH]; [done|]. cbn [map List.filter fst snd]. unfold is_bad at 1, is_live at 1. cbn [oc_name oc_kind].
    destruct (live_name prefix n); cbn [andb List.filter]; [|done]. destruct st; cbn [List.filter snd negb length]; by rewrite IH.
Qed.
Lemma flat_map_length {A B C} (f : A -> list B) (g : A -> list C) l : (forall x, length (f x) = length (g x)) -> length (flat_map f l) = length (flat_map g l).
Proof. intros H. induction l as [|x l IH]; [done|]. cbn. by rewrite !app_length, H, IH. Qed.
Lemma flat_map_length_in {A B C} (f : A -> list B) (g : A -> list C) l : (forall x, In x l -> length (f x) = length (g x)) -> length (flat_map f l) = length (flat_map g l).
Proof. intros H. induction l as [|x l IH]; [done|]. cbn. rewrite !app_length, H by (by left). f_equal. apply IH. intros y Hy. apply H. by right. Qed.
Lemma bad_count dirOf prefix pkgs : length (List.filter (is_bad prefix) (all_occs dirOf pkgs)) = length (unsuitable prefix pkgs).
Proof.
  unfold all_occs, unsuitable. rewrite filter_flat_map. rewrite code_flat by (intros p Hp; unfold pkg_occs; by rewrite Hp).
  apply flat_map_length_in. intros p Hp. apply filter_In in Hp as [_ Hp]. unfold pkg_occs. destruct (pk_gofiles p) as [|f fs]; [done|].
  unfold live_types_of, types. rewrite !filter_flat_map. apply flat_map_length. intros synt. rewrite !filter_flat_map. apply flat_map_length. intros d. apply bad_of_decl.
Qed.
Lemma live_split prefix os : length (List.filter (is_live prefix) os) = (length (List.filter (is_good prefix) os) + length (List.filter (is_bad prefix) os))%nat.
Proof.
  induction os as [|o os IH]; [done|]. cbn [List.filter]. unfold is_good at 1, is_bad at 1. destruct (is_live prefix o); cbn [andb]; [|done]. destruct (oc_kind o) as [|[]]; cbn [length]; lia.
Qed.

(** ** C46: refusal *)
(** The build prints one error for every live type that is not a struct and for every repeated use of a registrable name,
    and fails if there is any. *)
Theorem C46_errors dirOf prefix pkgs :
  match collectLive dirOf prefix pkgs with
  | inl _ => unsuitable prefix pkgs = [] /\ NoDup (registrable prefix pkgs)
  | inr errs => (unsuitable prefix pkgs <> [] \/ ~ NoDup (registrable prefix pkgs)) /\
      length errs = (length (unsuitable prefix pkgs) + (length (registrable prefix pkgs) - size (list_to_set (registrable prefix pkgs) : gset string)))%nat
  end.
Proof.
  unfold collectLive. rewrite all_steps. set (s := fold_left _ _ _). pose proof (steps_ok prefix (all_occs dirOf pkgs)) as [H1 H2 _ _ _]. fold s in H1, H2.
  pose proof (good_names dirOf prefix pkgs) as Hg. pose proof (bad_count dirOf prefix pkgs) as Hb. rewrite live_split, Hb in H2.
  assert (Hl : length (List.filter (is_good prefix) (all_occs dirOf pkgs)) = length (registrable prefix pkgs)) by (rewrite <- Hg; by rewrite map_length).
  assert (Hsz : size (lv_names s) = size (list_to_set (registrable prefix pkgs) : gset string)) by (rewrite H1; f_equal; by rewrite Hg).
  rewrite Hl, Hsz in H2. pose proof (set_size_le (registrable prefix pkgs)) as Hle.
  destruct (lv_errs s) as [|e errs] eqn:He.
  - cbn [length] in H2. split.
    + apply nil_length_inv. lia.
    + apply set_size_nodup. lia.
  - split; [|lia]. destruct (decide (unsuitable prefix pkgs = [])) as [Hu|Hu]; [|by left]. right. intros Hnd. rewrite Hu, (size_list_to_set _ Hnd) in H2. cbn [length] in H2. lia.
Qed.

(** ** Registration at start-up *)
Lemma register_all path names : forall t, NoDup names -> (forall n, n ∈ names -> t !! n = None) ->
  exists t', registerAll path names t = Some t' /\ forall n v, t' !! n = Some v <-> t !! n = Some v \/ (n ∈ names /\ v = (path, n)).
Proof.
  induction names as [|n names IH]; intros t Hnd Hf; cbn [registerAll].
  - exists t. split; [done|]. intros n v. rewrite elem_of_nil. tauto.
  - apply NoDup_cons in Hnd as [Hn Hnd]. unfold Register. rewrite (Hf n (elem_of_list_here _ _)).
    destruct (IH (<[n := (path, n)]> t) Hnd) as (t' & Ht & Hl).
    { intros k Hk. rewrite lookup_insert_ne by (intros ->; done). apply Hf. by right. }
    exists t'. split; [done|]. intros k v. rewrite Hl. rewrite elem_of_cons. destruct (decide (n = k)) as [<-|Hne].
    + rewrite lookup_insert. rewrite (Hf n (elem_of_list_here _ _)). split; [intros [[= <-]|[? _]]; [right; split; [by left|done]|done]|].
      intros [?|[_ ->]]; [done|by left].
    + rewrite lookup_insert_ne by done. split; [tauto|]. intros [?|[[->|?] ?]]; [by left|done|by right].
Qed.
(** The registration of a name that is registered already panics; that is the only panic. *)
Theorem C46_registered_twice_panics path names t : registerAll path names t = None <-> ~ NoDup names \/ exists n, n ∈ names /\ t !! n <> None.
Proof.
  revert t. induction names as [|n names IH]; intros t; cbn [registerAll].
  - split; [done|]. intros [H|(n & Hn & _)]; [exfalso; apply H; constructor|by apply elem_of_nil in Hn].
  - unfold Register. destruct (t !! n) as [v|] eqn:Hn.
    + split; [|done]. intros _. right. exists n. split; [by left|congruence].
    + rewrite IH. clear IH. split.
      * intros [H|(k & Hk & Hl)]; [left; intros Hnd; by apply NoDup_cons in Hnd as [_ ?]|]. destruct (decide (n = k)) as [->|Hne].
        { left. intros Hnd. by apply NoDup_cons in Hnd as [? _]. }
        rewrite lookup_insert_ne in Hl by done. right. exists k. split; [by right|done].
      * intros [H|(k & Hk & Hl)].
        { destruct (decide (n ∈ names)) as [Hin|Hin].
          - right. exists n. split; [done|]. by rewrite lookup_insert.
          - left. intros Hnd. apply H. by constructor. }
        apply elem_of_cons in Hk as [->|Hk]; [congruence|]. right. exists k. split; [done|]. destruct (decide (n = k)) as [->|Hne]; [by rewrite lookup_insert|by rewrite lookup_insert_ne].
Qed.
(** the functions and types of each live directory *)
Definition fs_at (s : live) (d : string) : list string := default [] (lv_funcs s !! d).
Definition ts_at (s : live) (d : string) : list string := default [] (lv_types s !! d).
Lemma start_up tmp imports s (pk : string -> package) : forall dirs ft, NoDup dirs ->
  (forall d, d ∈ dirs -> lv_pkgs s !! d = Some (pk d) /\ linked tmp imports (pk d) = true) ->
  (forall d, d ∈ dirs -> NoDup (fs_at s d) /\ NoDup (ts_at s d)) ->
  (forall d d' n, d ∈ dirs -> d' ∈ dirs -> (n ∈ fs_at s d /\ n ∈ fs_at s d' \/ n ∈ ts_at s d /\ n ∈ ts_at s d') -> d = d') ->
  (forall d n, d ∈ dirs -> (n ∈ fs_at s d -> fst ft !! n = None) /\ (n ∈ ts_at s d -> snd ft !! n = None)) ->
  exists F T, startUp tmp imports s dirs ft = Some (F, T) /\
    (forall n v, F !! n = Some v <-> fst ft !! n = Some v \/ exists d, d ∈ dirs /\ n ∈ fs_at s d /\ v = (pk_path (pk d), n)) /\
    (forall n v, T !! n = Some v <-> snd ft !! n = Some v \/ exists d, d ∈ dirs /\ n ∈ ts_at s d /\ v = (pk_path (pk d), n)).
Proof.
  induction dirs as [|d dirs IH]; intros [F0 T0] Hnd Hpk Hself Hcross Hfree.
  - exists F0, T0. split; [done|]. split; intros n v; (split; [by left|intros [?|(d & Hd & _)]; [done|by apply elem_of_nil in Hd]]).
  - apply NoDup_cons in Hnd as [Hd Hnd]. cbn [startUp]. unfold liveInit. destruct (Hpk d (elem_of_list_here _ _)) as [Hp Hlk]. rewrite Hp. rewrite Hlk.
    fold (fs_at s d) (ts_at s d). unfold runLive. cbn [fst snd] in *. destruct (Hself d (elem_of_list_here _ _)) as [S1 S2].
    destruct (register_all (pk_path (pk d)) (fs_at s d) F0 S1) as (F1 & E1 & HF1); [intros n Hn; by apply (Hfree d n (elem_of_list_here _ _))|].
    destruct (register_all (pk_path (pk d)) (ts_at s d) T0 S2) as (T1 & E2 & HT1); [intros n Hn; by apply (Hfree d n (elem_of_list_here _ _))|].
    rewrite E1, E2. destruct (IH (F1, T1) Hnd) as (F & T & Est & HF & HT).
    + intros d' Hd'. apply Hpk. by right.
    + intros d' Hd'. apply Hself. by right.
    + intros d1 d2 n H1 H2. apply Hcross; by right.
    + intros d' n Hd'. cbn [fst snd]. destruct (Hfree d' n (elem_of_list_further _ _ _ Hd')) as [H1 H2]. split; intros Hn.
      * destruct (F1 !! n) as [v|] eqn:Hv; [|done]. apply HF1 in Hv as [Hv|[Hv _]]; [rewrite H1 in Hv by done; done|]. exfalso. apply Hd.
        rewrite (Hcross d d' n (elem_of_list_here _ _) (elem_of_list_further _ _ _ Hd')); [done|]. by left.
      * destruct (T1 !! n) as [v|] eqn:Hv; [|done]. apply HT1 in Hv as [Hv|[Hv _]]; [rewrite H2 in Hv by done; done|]. exfalso. apply Hd.
        rewrite (Hcross d d' n (elem_of_list_here _ _) (elem_of_list_further _ _ _ Hd')); [done|]. by right.
    + exists F, T. split; [done|]. cbn [fst snd] in HF, HT. split; intros n v.
      * rewrite HF, HF1. split.
        -- intros [[?|[? ->]]|(d' & ? & ?)]; [by left|right; exists d; split; [left|done]|right; exists d'; split; [by right|done]].
        -- intros [?|(d' & Hd' & Hn & ->)]; [left; by left|]. apply elem_of_cons in Hd' as [->|Hd']; [left; by right|]. right. by exists d'.
      * rewrite HT, HT1. split.
        -- intros [[?|[? ->]]|(d' & ? & ?)]; [by left|right; exists d; split; [left|done]|right; exists d'; split; [by right|done]].
        -- intros [?|(d' & Hd' & Hn & ->)]; [left; by left|]. apply elem_of_cons in Hd' as [->|Hd']; [left; by right|]. right. by exists d'.
Qed.

Lemma nodup_name {A} (f : A -> string) l x y : NoDup (map f l) -> x ∈ l -> y ∈ l -> f x = f y -> x = y.
Proof.
  induction l as [|z l IH]; cbn [map]; intros Hnd Hx Hy Heq; [by apply elem_of_nil in Hx|]. apply NoDup_cons in Hnd as [Hz Hnd].
  apply elem_of_cons in Hx as [->|Hx]; apply elem_of_cons in Hy as [->|Hy]; [done|..|by apply IH].
  - destruct Hz. rewrite Heq. apply elem_of_list_fmap. by exists y.
  - destruct Hz. rewrite <- Heq. apply elem_of_list_fmap. by exists x.
Qed.
Lemma nodup_filter {A} (f : A -> string) (P Q : A -> bool) l : (forall x, Q x = true -> P x = true) -> NoDup (map f (List.filter P l)) -> NoDup (map f (List.filter Q l)).
Proof.
  intros H. induction l as [|x l IH]; [done|]. cbn [List.filter]. destruct (Q x) eqn:HQ.
  - rewrite (H x HQ). cbn [map]. intros [Hn Hnd]%NoDup_cons. apply NoDup_cons. split; [|by apply IH]. intros (y & Hy & Hin)%elem_of_list_fmap. apply Hn. rewrite Hy. apply elem_of_list_fmap. exists y. split; [done|].
    apply elem_of_list_In, filter_In in Hin as [Hin HQy]. apply elem_of_list_In, filter_In. auto.
  - destruct (P x); [|done]. cbn [map]. intros [_ Hnd]%NoDup_cons. by apply IH.
Qed.
Lemma elem_names_of prefix d fn os n : n ∈ names_of prefix d fn os <-> exists o, o ∈ os /\ is_good prefix o = true /\ oc_dir o = d /\ is_func o = fn /\ oc_name o = n.
Proof.
  unfold names_of. rewrite elem_of_list_In, in_map_iff. setoid_rewrite filter_In. setoid_rewrite elem_of_list_In. split.
  - intros (o & Hn & Hin & Hb). apply andb_true_iff in Hb as [Hb Hf]. apply andb_true_iff in Hb as [Hg Hd]. exists o. split; [done|]. split; [done|]. split; [by apply String.eqb_eq|]. split; [by apply eqb_prop|done].
  - intros (o & Hin & Hg & <- & <- & <-). exists o. split; [done|]. split; [done|]. by rewrite Hg, String.eqb_refl, eqb_reflx.
Qed.

(** ** C46: what is registered *)
(** If the build does not fail, then at start-up the registrations do not panic - in whatever order Go runs the init functions
    of the live packages -, and afterwards the table of live functions has exactly the receiver-less functions, and the table of live
    types exactly the struct types, with the prefix, of all packages of the plugin, each from its own package.
    [it]: iteration order of the tool's map when it generates the imports. *)
Theorem C46_tables dirOf prefix pkgs s tmpPkgPath it dirs :
  (forall p q, p ∈ pkgs -> q ∈ pkgs -> has_code p -> has_code q -> dir_of dirOf p = dir_of dirOf q -> p = q) ->
  collectLive dirOf prefix pkgs = inl s ->
  Permutation it (map fst (map_to_list (lv_pkgs s))) -> Permutation dirs (map fst (map_to_list (lv_pkgs s))) ->
  exists F T, startUp tmpPkgPath (mainImports tmpPkgPath s it) s dirs (∅, ∅) = Some (F, T) /\
    (forall n v, F !! n = Some v <-> exists pkg, pkg ∈ pkgs /\ has_code pkg /\ n ∈ functions pkg /\ live_name prefix n = true /\ v = (pk_path pkg, n)) /\
    (forall n v, T !! n = Some v <-> exists pkg, pkg ∈ pkgs /\ has_code pkg /\ (n, true) ∈ types pkg /\ live_name prefix n = true /\ v = (pk_path pkg, n)).
Proof.
  intros Hdirs Hc Hit Hds. pose proof (C46_errors dirOf prefix pkgs) as Herr. rewrite Hc in Herr. destruct Herr as [_ Hnd].
  unfold collectLive in Hc. rewrite all_steps in Hc. set (os := all_occs dirOf pkgs) in *. pose proof (steps_ok prefix os) as HA.
  destruct (lv_errs (fold_left (occ_step prefix) os no_live)) eqn:He; [|done]. injection Hc as Hs. rewrite Hs in HA, He. destruct HA as [_ _ Hf Ht Hp]. specialize (Hf He). specialize (Ht He). specialize (Hp He). clear Hs.
  assert (Hgn : NoDup (map oc_name (List.filter (is_good prefix) os))) by (unfold os; by rewrite (good_names dirOf prefix pkgs)).
  assert (Huniq : forall o1 o2, o1 ∈ os -> o2 ∈ os -> is_good prefix o1 = true -> is_good prefix o2 = true -> oc_name o1 = oc_name o2 -> o1 = o2).
  { intros o1 o2 I1 I2 G1 G2. apply (nodup_name oc_name _ _ _ Hgn); apply elem_of_list_In, filter_In; (split; [by apply elem_of_list_In|done]). }
  assert (Hkey : forall d, d ∈ map fst (map_to_list (lv_pkgs s)) <-> is_Some (lv_pkgs s !! d)).
  { intros d. rewrite elem_of_list_fmap. split; [intros ([k v] & -> & Hin); apply elem_of_map_to_list in Hin; by eexists|intros [v Hv]; exists (d, v); split; [done|by apply elem_of_map_to_list]]. }
  assert (Hpd : forall p, exists pk : string -> package, pk = fun d => default p (lv_pkgs s !! d)) by (intros p; by eexists).
  destruct (Hpd (mkPkg "" "" [] [])) as [pk Hpk]. clear Hpd.
  assert (HP : forall d, d ∈ dirs -> lv_pkgs s !! d = Some (pk d)).
  { intros d Hd. rewrite Hds, Hkey in Hd. destruct Hd as [v Hv]. rewrite Hpk, Hv. done. }
  destruct (start_up tmpPkgPath (mainImports tmpPkgPath s it) s pk dirs (∅, ∅)) as (F & T & HS & HF & HT).
  - rewrite Hds. apply NoDup_fst_map_to_list.
  - intros d Hd. split; [by apply HP|]. unfold linked. destruct (String.eqb (pk_path (pk d)) tmpPkgPath) eqn:Htp; [done|]. apply bool_decide_eq_true. unfold mainImports. rewrite elem_of_sort_strings.
    apply elem_of_list_omap. exists d. split; [by rewrite Hit, <- Hds|]. by rewrite (HP d Hd), Htp.
  - intros d _. unfold fs_at, ts_at. rewrite Hf, Ht. unfold names_of. split; (apply (nodup_filter oc_name (is_good prefix)); [|done]); intros o Ho; apply andb_true_iff in Ho as [Ho _]; by apply andb_true_iff in Ho as [Ho _].
  - intros d d' n _ _. unfold fs_at, ts_at. rewrite !Hf, !Ht, !elem_names_of.
    intros [[(o & I1 & G1 & <- & _ & N1) (o' & I2 & G2 & <- & _ & N2)]|[(o & I1 & G1 & <- & _ & N1) (o' & I2 & G2 & <- & _ & N2)]]; f_equal; apply Huniq; try done; congruence.
  - intros d n _. cbn [fst snd]. rewrite !lookup_empty. done.
  - exists F, T. split; [done|]. cbn [fst snd] in HF, HT.
    assert (Hown : forall o, o ∈ os -> is_good prefix o = true -> oc_dir o ∈ dirs /\ pk (oc_dir o) = oc_pkg o).
    { intros o Ho Hg. specialize (Hp (oc_dir o)). destruct (lv_pkgs s !! oc_dir o) as [p|] eqn:Hl; [|by destruct (Hp o Ho Hg)].
      assert (Hd : oc_dir o ∈ dirs) by (rewrite Hds, Hkey; by eexists). split; [done|]. specialize (HP _ Hd). rewrite Hl in HP. injection HP as <-.
      destruct Hp as (o' & Ho' & _ & Hdo & <-). apply occ_elem in Ho as (p1 & I1 & C1 & E1 & D1 & _). apply occ_elem in Ho' as (p2 & I2 & C2 & E2 & D2 & _).
      rewrite E1, E2. apply Hdirs; try done. congruence. }
    assert (Hlive : forall o, is_good prefix o = true -> live_name prefix (oc_name o) = true).
    { intros o Hg. unfold is_good in Hg. by apply andb_true_iff in Hg as [Hg _]. }
    split; intros n v.
    + rewrite HF, lookup_empty. split.
      * intros [?|(d & Hd & Hn & ->)]; [done|]. unfold fs_at in Hn. rewrite Hf, elem_names_of in Hn. destruct Hn as (o & Ho & Hg & <- & Hfn & <-). destruct (Hown o Ho Hg) as [_ ->].
        apply occ_elem in Ho as (p & I1 & C1 & E1 & D1 & HK). exists p. destruct (oc_kind o) as [|st] eqn:Hk; [|unfold is_func in Hfn; rewrite Hk in Hfn; done].
        split; [done|]. split; [done|]. split; [done|]. split; [by apply Hlive|by rewrite E1].
      * intros (p & I1 & C1 & Hn & Hl & ->). right. set (o := mkOcc (dir_of dirOf p) p KFunc n).
        assert (Ho : o ∈ os) by (apply occ_elem; by exists p). assert (Hg : is_good prefix o = true) by (unfold is_good, is_live, o; cbn [oc_name oc_kind]; by rewrite Hl).
        destruct (Hown o Ho Hg) as [Hd Hpo]. exists (oc_dir o). split; [done|]. rewrite Hpo. split; [|done]. unfold fs_at. rewrite Hf, elem_names_of. by exists o.
    + rewrite HT, lookup_empty. split.
      * intros [?|(d & Hd & Hn & ->)]; [done|]. unfold ts_at in Hn. rewrite Ht, elem_names_of in Hn. destruct Hn as (o & Ho & Hg & <- & Hfn & <-). destruct (Hown o Ho Hg) as [_ ->].
        apply occ_elem in Ho as (p & I1 & C1 & E1 & D1 & HK). exists p. destruct (oc_kind o) as [|st] eqn:Hk; [unfold is_func in Hfn; rewrite Hk in Hfn; done|].
        assert (st = true) as -> by (unfold is_good in Hg; rewrite Hk in Hg; destruct st; [done|by rewrite andb_false_r in Hg]).
        split; [done|]. split; [done|]. split; [done|]. split; [by apply Hlive|by rewrite E1].
      * intros (p & I1 & C1 & Hn & Hl & ->). right. set (o := mkOcc (dir_of dirOf p) p (KType true) n).
        assert (Ho : o ∈ os) by (apply occ_elem; by exists p). assert (Hg : is_good prefix o = true) by (unfold is_good, is_live, o; cbn [oc_name oc_kind]; by rewrite Hl).
        destruct (Hown o Ho Hg) as [Hd Hpo]. exists (oc_dir o). split; [done|]. rewrite Hpo. split; [|done]. unfold ts_at. rewrite Ht, elem_names_of. by exists o.
Qed.

(** ** Concrete cases *)
Definition demo_pkgs : list package :=
  [mkPkg "m/p" "p" ["/w/p/main.go"; "/w/p/x.go"] [[DOther; DFunc false "live_Foo"; DFunc true "live_Foo"; DFunc false "OnLoad"]; [DType [("Live_T", true); ("t", false)]; DFunc false "LIVE_bar"]];
   mkPkg "m/p/q" "q" ["/w/p/q/q.go"] [[DType [("live_foo", true)]; DFunc false "live_Baz"]];
   mkPkg "m/p/docs" "docs" [] [[DFunc false "live_Foo"]]].
Definition demo_live : live := match collectLive path_dir "live_" demo_pkgs with inl s => s | inr _ => no_live end.
(** the two names that differ in case only are different names *)
Example C46_case : (forall p q, p ∈ demo_pkgs -> q ∈ demo_pkgs -> has_code p -> has_code q -> dir_of path_dir p = dir_of path_dir q -> p = q) /\
  collectLive path_dir "live_" demo_pkgs = inl demo_live /\ Permutation ["/w/p/q"; "/w/p"] (map fst (map_to_list (lv_pkgs demo_live))) /\
  match startUp "m/p" (mainImports "m/p" demo_live ["/w/p/q"; "/w/p"]) demo_live ["/w/p"; "/w/p/q"] (∅, ∅) with
  | Some (F, T) => map (fun n => F !! n) ["live_Foo"; "LIVE_bar"; "live_Baz"; "OnLoad"] = [Some ("m/p", "live_Foo"); Some ("m/p", "LIVE_bar"); Some ("m/p/q", "live_Baz"); None] /\
      map (fun n => T !! n) ["Live_T"; "live_foo"; "t"] = [Some ("m/p", "Live_T"); Some ("m/p/q", "live_foo"); None]
  | None => False
  end.
Proof.
  split; [|split; [|split]].
  - intros p q Hp Hq Cp Cq. unfold demo_pkgs in Hp, Hq. rewrite !elem_of_cons, elem_of_nil in Hp, Hq.
    destruct Hp as [->|[->|[->|[]]]]; destruct Hq as [->|[->|[->|[]]]]; try reflexivity; intros H; vm_compute in H; try discriminate H; exfalso; first [by apply Cp|by apply Cq].
  - unfold demo_live. assert (Hl : match collectLive path_dir "live_" demo_pkgs with inl _ => true | _ => false end = true) by (vm_compute; reflexivity).
    destruct (collectLive path_dir "live_" demo_pkgs); [reflexivity|discriminate Hl].
  - assert (He : map fst (map_to_list (lv_pkgs demo_live)) = ["/w/p"; "/w/p/q"]) by (vm_compute; reflexivity). rewrite He. constructor.
  - vm_compute. split; reflexivity.
Qed.
Example C46_errors_case : collectLive path_dir "live_" (demo_pkgs ++ [mkPkg "m/p/r" "r" ["/w/p/r/r.go"] [[DFunc false "LIVE_bar"; DType [("Live_i", false)]]]]) =
  inr ["duplicate live func/type name detected: LIVE_bar"; "Live_i (a live type) must be a simple struct. package: m/p/r"].
Proof. vm_compute. reflexivity. Qed.

Print Assumptions C46_errors.
Example C46_twice_case : registerAll "m/p" ["live_a"; "live_b"; "live_a"] ∅ = None /\ registerAll "m/p" ["live_a"; "live_b"] ∅ <> None.
Proof. split; [reflexivity|]. (intros H; apply (f_equal (fun o => match o with Some _ => true | None => false end)) in H; discriminate H). Qed.
Print Assumptions C46_registered_twice_panics.
Print Assumptions C46_tables.
