(** C36, C37: Details. *)
From Verif Require Export PropStatic.

Section Props.
Context {E : GoEnv}.

(** ** C36 *)
(** The note a load reports for plugin [p]. *)
Definition verdict (t : list event) (p : plugin) : string :=
  if bool_decide (pl_inst p ∈ created t) then "ok" else if pl_reloadable p then "unchanged" else "not reloadable".

Theorem C36_details_are_true o h cur a t d m : next_call o h cur (api_prog o a) t (Val (Some d)) -> o_static o = None -> published t m ->
  (forall file note, d !! file = Some note <-> exists p, holds m p /\ pl_file p = file /\ note = verdict t p) /\
  (forall p q, holds m p -> holds m q -> pl_file p = pl_file q -> p = q) /\
  size d = length (Plugins m).
Proof.
  intros Hn Hst Hpub. destruct (pub_inv _ _ _ _ _ _ _ Hst Hn Hpub) as (data & cbs & tp & files & s & tn & tl & add & HP).
  pose proof (pub_sound _ _ _ _ _ _ _ _ _ _ _ _ _ _ _ HP) as [[Hdr1 (_ & _ & Hperm & _)] Hs].
  pose proof (pub_res _ _ _ _ _ _ _ _ _ _ _ _ _ _ _ HP) as [= ->].
  pose proof (load_ok_lookup _ _ _ _ _ _ (proj1 (pub_made _ _ _ _ _ _ _ _ _ _ _ _ _ _ _ HP)) (pub_ok _ _ _ _ _ _ _ _ _ _ _ _ _ _ _ HP)) as
    (fds & Hfds & _ & _ & Hfiles & _ & _ & Hlook).
  assert (Hin : forall k p, pm_map m !! k = Some p -> exists f, f ∈ files /\ file_key f = k).
  { intros k p Hk. destruct (Hlook k p Hk) as (f & c & Hf & Hkf & _). exists f. split; [|done]. rewrite <- Hfds. apply elem_of_list_fmap. by exists (f, c). }
  assert (Hinj : forall k1 k2 p q, pm_map m !! k1 = Some p -> pm_map m !! k2 = Some q -> pl_file p = pl_file q -> k1 = k2).
  { intros k1 k2 p q H1 H2 Hf. destruct (Hs _ _ H1) as (_ & _ & F1 & _). destruct (Hs _ _ H2) as (_ & _ & F2 & _). congruence. }
  assert (Hnote : forall k p, pm_map m !! k = Some p -> detail_of p = verdict t p).
  { intros k p Hk. assert (Hp : holds m p) by (by eapply elem_Plugins). destruct (Hs _ _ Hk) as (_ & _ & _ & _ & _ & _ & _ & N1 & N2).
    pose proof (new_iff _ _ _ _ _ _ _ _ Hn Hpub Hp) as Hnew. unfold verdict, detail_of. destruct (pl_unchanged p) eqn:Hu.
    - rewrite bool_decide_false by (rewrite Hnew; done). rewrite (N2 eq_refl). by destruct (pl_reloadable p).
    - rewrite bool_decide_true by (by apply Hnew). by rewrite (N1 eq_refl). }
  assert (Hlk : forall file note, details_of m files ∅ !! file = Some note <-> exists p, holds m p /\ pl_file p = file /\ note = verdict t p).
  { intros file note. rewrite details_of_lookup; [|done|].
    - rewrite lookup_empty. split.
      + intros [(f & p & Hf & Hk & <- & <-)|[_ ?]]; [|done]. exists p. split; [by eapply elem_Plugins|]. split; [done|]. by eapply Hnote.
      + intros (p & Hp & <- & ->). left. apply Plugins_lookup in Hp as [k Hk]. destruct (Hin _ _ Hk) as (f & Hf & Hkf). subst k.
        exists f, p. split_and!; [done..|]. by eapply Hnote.
    - intros f1 f2 p1 p2 _ _ K1 K2 Hff. assert (file_key f1 = file_key f2) as He by (by eapply Hinj). rewrite He in K1. congruence. }
  assert (Hpq : forall p q, holds m p -> holds m q -> pl_file p = pl_file q -> p = q).
  { intros p q Hp Hq Hff. apply Plugins_lookup in Hp as [k1 K1]. apply Plugins_lookup in Hq as [k2 K2]. assert (k1 = k2) as -> by (by eapply Hinj). congruence. }
  split_and!; [done|done|].
  assert (Hperm2 : Permutation (map_keys (details_of m files ∅)) (map pl_file (Plugins m))).
  { apply NoDup_Permutation.
    - apply NoDup_fst_map_to_list.
    - apply NoDup_fmap_2_strong; [intros x y Hx Hy; by apply Hpq|]. apply (NoDup_fmap_1 pl_name). change (pl_name <$> Plugins m) with (map pl_name (Plugins m)).
      rewrite (sound_names _ _ (pub_sound _ _ _ _ _ _ _ _ _ _ _ _ _ _ _ HP)), Hperm. apply NoDup_fst_map_to_list.
    - intros file. unfold map_keys. rewrite elem_of_list_fmap. split.
      + intros ((f & n) & -> & Hf). apply elem_of_map_to_list, Hlk in Hf as (p & Hp & <- & _). apply elem_of_list_fmap. by exists p.
      + intros Hf. apply elem_of_list_fmap in Hf as (p & -> & Hp). exists (pl_file p, verdict t p). split; [done|]. apply elem_of_map_to_list, Hlk. by exists p. }
  apply Permutation_length in Hperm2. unfold map_keys in Hperm2. rewrite !map_length in Hperm2. exact Hperm2.
Qed.
(** There is one entry per plugin file. *)
Theorem C36_one_entry_per_file o h cur a t d m dir entries : next_call o h cur (api_prog o a) t (Val (Some d)) -> o_static o = None -> published t m ->
  listed t dir entries -> size d = length (plugin_files (o_whitelist o) entries).
Proof.
  intros Hn Hst Hpub Hl. destruct (C36_details_are_true _ _ _ _ _ _ _ Hn Hst Hpub) as (_ & _ & ->).
  destruct (pub_inv _ _ _ _ _ _ _ Hst Hn Hpub) as (data & cbs & tp & files & s & tn & tl & add & HP).
  destruct (pub_listed _ _ _ _ _ _ _ _ _ _ _ _ _ _ _ _ _ HP Hl) as (_ & Hf & _).
  destruct (plugins_per_file _ _ _ _ _ _ _ _ _ _ _ _ _ _ _ HP) as (_ & Hp). apply Permutation_length in Hp. rewrite !map_length in Hp. rewrite Hp, Hf. by rewrite map_length.
Qed.

(** ** C37 *)
Definition entry_text (file note : string) : string := plugin_of (path_base file) +:+ ": " +:+ note.
(** The text of a list of entries. *)
Fixpoint entries_text (l : list (string * string)) : string :=
  match l with
  | [] => ""
  | [(file, note)] => entry_text file note
  | (file, note) :: l' => entry_text file note +:+ ", " +:+ entries_text l'
  end.
(** Details.String() lists every entry once, in the order of the files, whatever the map iteration order was. *)
Theorem C37_details_string d t s : exec (Details_String d) t s <->
  t = [] /\ exists l, Permutation l (map_to_list d) /\ StronglySorted (fun x y => str_le (fst x) (fst y)) l /\ s = entries_text l.
Proof.
  assert (Htxt : forall ks, entries_text (map (fun k => (k, default "" (d !! k))) ks) = join_with ", " (map (detail_entry d) ks)).
  { induction ks as [|k [|k' ks] IH]; [done|done|]. cbn [map] in *. cbn [entries_text join_with] in *. by rewrite IH. }
  assert (Hkeys : forall ks, Permutation ks (map_keys d) -> Permutation (map (fun k => (k, default "" (d !! k))) ks) (map_to_list d)).
  { intros ks Hk. rewrite Hk. unfold map_keys. rewrite map_map. apply reflexive_eq. rewrite <- (map_id (map_to_list d)) at 2. apply map_ext_in.
    intros [k v] Hin. apply elem_of_list_In, elem_of_map_to_list in Hin. simpl. by rewrite Hin. }
  split.
  - intros (it & t' & Hperm & -> & -> & ->). split; [done|]. simpl in Hperm. exists (map (fun k => (k, default "" (d !! k))) (sort_strings it)). split_and!.
    + apply Hkeys. by rewrite sort_strings_perm.
    + pose proof (sort_strings_ssorted it) as Hs. induction Hs as [|x l Hs IH HF]; simpl; constructor; [done|].
      rewrite Forall_map. eapply Forall_impl; [exact HF|]. done.
    + by rewrite Htxt.
  - intros (-> & l & Hperm & Hs & ->). exists (map_keys d), []. split_and!; [apply Permutation_refl|done|done|]. symmetry.
    assert (Hl : l = map (fun k => (k, default "" (d !! k))) (map fst l)).
    { rewrite map_map. rewrite <- (map_id l) at 1. apply map_ext_in. intros [k v] Hin. apply elem_of_list_In in Hin. rewrite Hperm in Hin.
      apply elem_of_map_to_list in Hin. simpl. by rewrite Hin. }
    assert (sort_strings (map_keys d) = map fst l) as ->.
    { apply (Sorted_unique str_le); [apply sort_strings_sorted| |].
      - apply StronglySorted_Sorted. clear -Hs. induction Hs as [|x l Hs IH HF]; simpl; constructor; [done|]. by rewrite Forall_map.
      - rewrite sort_strings_perm. unfold map_keys. by rewrite Hperm. }
    rewrite <- Htxt. by rewrite <- Hl.
Qed.
(** ... so it is a function of the entries. *)
Theorem C37_deterministic d t1 t2 s1 s2 : exec (Details_String d) t1 s1 -> exec (Details_String d) t2 s2 -> s1 = s2.
Proof.
  intros (i1 & t1' & P1 & _ & _ & ->) (i2 & t2' & P2 & _ & _ & ->). simpl in *. assert (sort_strings i1 = sort_strings i2) as ->; [|done].
  apply sort_strings_eq. by rewrite P1, P2.
Qed.
End Props.

(** ** Concrete cases *)
Definition d1 := result_of (snd run1).
Example C36_case : next_call dyn t0 (Some m0) (api_prog dyn (Call_Reload 78 (Some 5%N))) t1 (Val (Some d1)) /\ published t1 m1 /\
  map (fun f => d1 !! f) ["/p/a.so"; "/p/b.so"; "/p/c.so"] = [Some "not reloadable"; Some "unchanged"; Some "ok"].
Proof.
  split_and!; [|apply published1|vm_compute; reflexivity]. assert (snd run1 = Val (Some d1)) as <- by (vm_compute; reflexivity). apply second_load.
Qed.
Example C37_case : snd (run (demo 0 world0) [] (Details_String d1)) = "a: not reloadable, b: unchanged, c: ok".
Proof. vm_compute. reflexivity. Qed.

Print Assumptions C36_details_are_true.
Print Assumptions C36_one_entry_per_file.
Print Assumptions C37_details_string.
Print Assumptions C37_deterministic.
