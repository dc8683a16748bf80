(** What a load does with the directory listing *)
From Verif Require Export OpenProofs.

Section Proofs.
Context {E : GoEnv}.

(** ** Suffixes *)
Lemma slen_app a b : String.length (a +:+ b) = (String.length a + String.length b)%nat.
Proof. induction a as [|c a IH]; [done|]. change (String c a +:+ b) with (String c (a +:+ b)). simpl. by rewrite IH. Qed.
Lemma sub_0_app a b : substring 0 (String.length a) (a +:+ b) = a.
Proof.
  induction a as [|c a IH]; [by destruct b|]. change (String c a +:+ b) with (String c (a +:+ b)). simpl. by rewrite IH.
Qed.
Lemma sub_all b : substring 0 (String.length b) b = b.
Proof. induction b as [|c b IH]; [done|]. simpl. by rewrite IH. Qed.
Lemma sub_app a b : substring (String.length a) (String.length b) (a +:+ b) = b.
Proof. induction a as [|c a IH]; [apply sub_all|]. change (String c a +:+ b) with (String c (a +:+ b)). simpl. done. Qed.
Lemma sub_split s : forall k, (k <= String.length s)%nat -> s = substring 0 k s +:+ substring k (String.length s - k) s.
Proof.
  induction s as [|c s IH]; intros k Hk.
  - simpl in Hk. assert (k = 0%nat) as -> by lia. done.
  - destruct k as [|k].
    + change (substring 0 0 (String c s)) with "". rewrite Nat.sub_0_r, sub_all. done.
    + change (substring 0 (S k) (String c s)) with (String c (substring 0 k s)).
      change (substring (S k) (String.length (String c s) - S k) (String c s)) with (substring k (String.length s - k) s).
      change (String c (substring 0 k s) +:+ ?x) with (String c (substring 0 k s +:+ x)). f_equal. apply IH. simpl in Hk. lia.
Qed.
Lemma suffix_app n suf : has_suffix suf (n +:+ suf) = true /\ trim_suffix suf (n +:+ suf) = n.
Proof.
  assert (H : has_suffix suf (n +:+ suf) = true).
  { unfold has_suffix. rewrite slen_app. replace (String.length n + String.length suf - String.length suf)%nat with (String.length n) by lia.
    rewrite sub_app, String.eqb_refl, andb_true_r. apply Nat.leb_le. lia. }
  split; [done|]. unfold trim_suffix. rewrite H, slen_app. replace (String.length n + String.length suf - String.length suf)%nat with (String.length n) by lia.
  apply sub_0_app.
Qed.
Lemma suffix_inv s suf : has_suffix suf s = true -> s = trim_suffix suf s +:+ suf.
Proof.
  intros H. unfold trim_suffix. rewrite H. unfold has_suffix in H. apply andb_true_iff in H as [H1 H2]. apply Nat.leb_le in H1. apply String.eqb_eq in H2.
  rewrite (sub_split s (String.length s - String.length suf)) at 1 by lia. f_equal.
  replace (String.length s - (String.length s - String.length suf))%nat with (String.length suf) by lia. exact H2.
Qed.

Lemma plugin_of_spec f n : has_suffix ".so" f = true /\ plugin_of f = n <-> f = n +:+ ".so".
Proof.
  split.
  - intros [H <-]. by apply suffix_inv.
  - intros ->. apply suffix_app.
Qed.

(** ** The whitelist *)
Global Instance has_file_dec entries n : Decision (has_file entries n).
Proof. unfold has_file. apply _. Defined.

Definition wl_good (wl : list string) (entries : list (string * bool)) : Prop :=
  NoDup wl /\ forall n, n ∈ wl -> has_file entries n.
Lemma found_spec wl dir entries : wl <> [] -> Forall (fun e => fst e <> "" /\ no_slash (fst e)) entries ->
  forall n, n ∈ snd (selectFiles wl dir entries) <-> n ∈ wl /\ has_file entries n.
Proof.
  intros Hw HF n. rewrite (proj2 (selectFiles_spec wl dir entries HF)). split.
  - intros (_ & f & Hf & Hn). apply elem_plugin_files in Hf as (Hin & Hs & [?|Hwl]); [done|]. rewrite Hn in Hwl. split; [done|].
    unfold has_file. rewrite <- (proj1 (plugin_of_spec f n)) by done. done.
  - intros (Hwl & Hf). split; [done|]. exists (n +:+ ".so"). destruct (proj2 (plugin_of_spec (n +:+ ".so") n) eq_refl) as [Hs Hp]. split; [|done].
    apply elem_plugin_files. split_and!; [done|done|]. right. by rewrite Hp.
Qed.

Lemma list_set_size (l : list string) : (size (list_to_set l : gset string) <= length l)%nat /\ (size (list_to_set l : gset string) = length l -> NoDup l).
Proof.
  induction l as [|x l [IH1 IH2]]; [split; [done|constructor]|]. simpl list_to_set. destruct (decide (x ∈ l)) as [Hx|Hx].
  - assert ({[x]} ∪ list_to_set l = (list_to_set l : gset string)) as ->. { apply set_eq. intros y. rewrite elem_of_union, elem_of_singleton, elem_of_list_to_set. set_solver. }
    simpl. split; [lia|]. intros H. lia.
  - rewrite size_union, size_singleton by (rewrite disjoint_singleton_l, elem_of_list_to_set; done). simpl. split; [lia|]. intros H. constructor; [done|]. apply IH2. lia.
Qed.
Lemma wl_size (wl : list string) (found : gset string) (P : string -> Prop) : (forall n, n ∈ found <-> n ∈ wl /\ P n) ->
  (size found = length wl <-> NoDup wl /\ forall n, n ∈ wl -> P n).
Proof.
  intros Hf. destruct (list_set_size wl) as [Hle Hnd].
  assert (Hsub : found ⊆ list_to_set wl). { intros n. rewrite Hf, elem_of_list_to_set. tauto. }
  pose proof (subseteq_size _ _ Hsub) as Hs. split.
  - intros He. assert (Hs2 : size (list_to_set wl : gset string) = length wl) by lia. split; [by apply Hnd|].
    intros n Hn. destruct (decide (n ∈ found)) as [Hin|Hout]; [by apply Hf in Hin as [_ ?]|]. exfalso.
    assert (Hlt : found ⊂ list_to_set wl). { split; [done|]. intros Hc. apply Hout, Hc. by apply elem_of_list_to_set. }
    apply subset_size in Hlt. lia.
  - intros [HN HP]. assert (found = list_to_set wl) as ->. { apply set_eq. intros n. rewrite Hf, elem_of_list_to_set. split; [tauto|]. auto. }
    rewrite size_list_to_set by done. done.
Qed.

Lemma missing_spec wl dir entries : wl <> [] -> Forall (fun e => fst e <> "" /\ no_slash (fst e)) entries ->
  missing_plugins wl (snd (selectFiles wl dir entries)) = List.filter (fun n => bool_decide (~ has_file entries n)) wl.
Proof.
  intros Hw HF. unfold missing_plugins. apply filter_ext_in. intros n Hn. rewrite <- bool_decide_not. apply bool_decide_ext.
  rewrite found_spec by done. apply elem_of_list_In in Hn. tauto.
Qed.

(** ** Events of the loading part *)
Definition file_event (e : event) : Prop :=
  match e with EvGetDir _ | EvSetDir _ | EvStat _ _ | EvAbs _ _ | EvReadDir _ _ | EvLock | EvUnlock | EvAddCounter => False | _ => True end.
Lemma private_file t : Forall private_event t -> Forall file_event t.
Proof. intros H. eapply Forall_impl; [exact H|]. by intros []. Qed.
Lemma file_run_events o files data cbs t r : file_run o files data cbs t r -> Forall file_event t.
Proof.
  assert (Hm : forall b tn s, made b tn s -> Forall file_event tn) by (intros b tn s (_ & -> & _); destruct b; repeat constructor).
  assert (Ha : forall new old l, Forall file_event (map (accepted new old) l)) by (intros new old l; induction l; by constructor).
  intros [old mid dn x He Hx|old tn s tl s' e Hmd Hh Hp Hf|old tn s tl new tc e Hmd Hh Hp Hok Hc|old tn s tl new Hmd Hh Hp Hok].
  - repeat constructor.
  - constructor; [done|]. apply Forall_app_2; [eauto|by apply private_file].
  - constructor; [done|]. apply Forall_app_2; [eauto|]. apply Forall_app_2; [by apply private_file|].
    destruct Hc as (c1 & cb & c2 & rr & tf & _ & -> & _ & (ps & ts & -> & HF & _)). apply Forall_app_2; [done|]. constructor; [done|].
    apply private_file. by eapply freed_private.
  - constructor; [done|]. apply Forall_app_2; [eauto|]. apply Forall_app_2; [by apply private_file|]. apply Forall_app_2; [done|].
    apply Forall_app_2; [|repeat constructor]. destruct old; repeat constructor.
Qed.

Lemma untouched_app t1 t2 : untouched t1 -> untouched t2 -> untouched (t1 ++ t2).
Proof. intros H1 H2 e He. apply elem_of_app in He as [?|?]; auto. Qed.
Lemma untouched_forall t : Forall (fun e => touches_plugins e = false) t -> untouched t.
Proof. intros H e He. rewrite Forall_forall in H. by apply H. Qed.

(** what a call does with the listing it obtained *)
Lemma listed_run o h cur a t r dir entries :
  next_call o h cur (api_prog o a) t r -> o_static o = None -> listed t dir entries ->
  valid_listing entries /\
  ((o_whitelist o <> [] /\ ~ wl_good (o_whitelist o) entries /\ untouched t /\ no_publish t /\
      r = Err (EMissingPlugins (List.filter (fun n => bool_decide (~ has_file entries n)) (o_whitelist o)))) \/
   ((o_whitelist o = [] \/ wl_good (o_whitelist o) entries) /\ plugin_files (o_whitelist o) entries = [] /\ r = Val None /\ untouched t /\ no_publish t) \/
   ((o_whitelist o = [] \/ wl_good (o_whitelist o) entries) /\ plugin_files (o_whitelist o) entries <> [] /\
      exists ta tl tz, t = ta ++ tl ++ tz /\ untouched ta /\ untouched tz /\
        file_run o (map (path_join dir) (plugin_files (o_whitelist o) entries)) (api_data a) (api_cbs o a) tl r)).
Proof.
  intros HN Hst HL. destruct (next_dir _ _ _ _ _ _ HN Hst) as (tb & add & -> & Hd & Hadd).
  assert (Hadd' : untouched (add ++ [EvUnlock]) /\ listed tb dir entries /\ no_publish (add ++ [EvUnlock])).
  { assert (add = [] \/ add = [EvAddCounter]) as Ha by (subst add; destruct a; [by left|]; case_decide; auto). clear Hadd. split_and!.
    - apply untouched_forall. destruct Ha as [-> | ->]; repeat constructor.
    - unfold listed in HL. apply elem_of_cons in HL as [|HL]; [done|]. apply elem_of_app in HL as [HL|HL]; [done|].
      destruct Ha as [-> | ->]; repeat (apply elem_of_cons in HL as [|HL]; [done|]); by apply elem_of_nil in HL.
    - destruct Ha as [-> | ->]; nopub. }
  destruct Hadd' as (Hu & HLb & Hnp). clear HL Hadd.
  assert (Hlock : untouched [EvLock]) by (apply untouched_forall; repeat constructor).
  destruct Hd as [tp e Hr|tp Hc|tp files tl r' Hc Hne Hf].
  - assert (HR : exists d1 d2 files found, tp = [EvGetDir d1; EvStat d1 (Val true); EvGetDir d2; EvAbs d2 (Val dir); EvReadDir dir (Val entries)] /\
        valid_listing entries /\ selectFiles (o_whitelist o) dir entries = (files, found) /\ whitelist_ok (o_whitelist o) found = false /\
        e = EMissingPlugins (missing_plugins (o_whitelist o) found)).
    { unfold listed in HLb. destruct Hr; repeat (apply elem_of_cons in HLb as [HLb|HLb]; [try discriminate HLb|]); try (by apply elem_of_nil in HLb).
      injection HLb as -> ->. eauto 10. }
    destruct HR as (d1 & d2 & files & found & -> & Hv & Hsel & Hok & ->). split; [done|]. left.
    assert (Hw : o_whitelist o <> []) by (intros Hz; by rewrite Hz in Hok). destruct Hv as [Hnd HF].
    assert (Hfound : found = snd (selectFiles (o_whitelist o) dir entries)) by (by rewrite Hsel). split_and!.
    + done.
    + intros Hg. assert (Hs : size found = length (o_whitelist o)).
      { apply (wl_size _ _ (has_file entries)); [|exact Hg]. rewrite Hfound. by apply found_spec. }
      unfold whitelist_ok in Hok. destruct (o_whitelist o); [done|]. apply Nat.eqb_neq in Hok. by rewrite Hs in Hok.
    + change (EvLock :: ?x) with ([EvLock] ++ x). apply untouched_app; [done|]. apply untouched_app; [|done]. apply untouched_forall. repeat constructor.
    + constructor; [done|]. apply no_publish_app; [nopub|done].
    + by rewrite Hfound, missing_spec.
  - destruct (chosen_files _ _ _ Hc) as (dir' & es & _ & Huniq & Hv & Hfiles). destruct (Huniq _ _ HLb) as [<- <-].
    pose proof (silent_chosen _ _ _ Hc) as _. split; [done|]. right; left. split_and!.
    + destruct Hc as (d1 & d2 & abs & es & found & -> & _ & Hv' & Hsel & Hok).
      destruct (decide (o_whitelist o = [])) as [|Hw]; [by left|right].
      unfold listed in HLb. repeat (apply elem_of_cons in HLb as [HLb|HLb]; [try discriminate HLb|]); try (by apply elem_of_nil in HLb). injection HLb as -> ->.
      apply (wl_size _ found); [|destruct (o_whitelist o); [done|by apply Nat.eqb_eq in Hok]]. destruct Hv' as [_ HF].
      intros n. replace found with (snd (selectFiles (o_whitelist o) abs es)) by (by rewrite Hsel). by apply found_spec.
    + symmetry in Hfiles. by apply map_eq_nil in Hfiles.
    + done.
    + change (EvLock :: ?x) with ([EvLock] ++ x). apply untouched_app; [done|]. apply untouched_app; [|done].
      destruct Hc as (d1 & d2 & abs & es & found & -> & _). apply untouched_forall. repeat constructor.
    + constructor; [done|]. apply no_publish_app; [|done]. destruct Hc as (d1 & d2 & abs & es & found & -> & _). nopub.
  - assert (HLp : listed tp dir entries).
    { unfold listed in *. apply elem_of_app in HLb as [?|HLb]; [done|]. pose proof (file_run_events _ _ _ _ _ _ Hf) as HF.
      rewrite Forall_forall in HF. by apply HF in HLb. }
    destruct (chosen_files _ _ _ Hc) as (dir' & es & _ & Huniq & Hv & ->). destruct (Huniq _ _ HLp) as [<- <-].
    split; [done|]. right; right. split_and!.
    + destruct Hc as (d1 & d2 & abs & es & found & -> & _ & Hv' & Hsel & Hok).
      destruct (decide (o_whitelist o = [])) as [|Hw]; [by left|right].
      unfold listed in HLp. repeat (apply elem_of_cons in HLp as [HLp|HLp]; [try discriminate HLp|]); try (by apply elem_of_nil in HLp). injection HLp as -> ->.
      apply (wl_size _ found); [|destruct (o_whitelist o); [done|by apply Nat.eqb_eq in Hok]]. destruct Hv' as [_ HF].
      intros n. replace found with (snd (selectFiles (o_whitelist o) abs es)) by (by rewrite Hsel). by apply found_spec.
    + intros Hz. by rewrite Hz in Hne.
    + exists (EvLock :: tp), tl, (add ++ [EvUnlock]). split_and!; [simpl; by rewrite <- !(assoc_L (++))| |done|done].
      change (EvLock :: tp) with ([EvLock] ++ tp). apply untouched_app; [done|]. destruct Hc as (d1 & d2 & abs & es & found & -> & _). apply untouched_forall. repeat constructor.
Qed.

(** the errors of the lifecycle *)
Definition life_error (e : gerror) : Prop :=
  match e with
  | EOpaque _ | EPanic _ _ | EImportShape _ | EAnonField _ _ | EUnknownDep _ _ | ENotReloadableDep _ _ | ENotAssignable _ _ _
  | ECyclic _ | ERebuilt _ _ | ENilLiveFuncs _ | ENilLiveTypes _ | EDupLiveFunc _ _ _ | EDupLiveType _ _ _ => True
  | _ => False
  end.
Lemma bad_field_error M p f e : bad_field M p f (Err e) -> life_error e.
Proof.
  intros [[_ [= ->]]|[[_ [= ->]]|(q & _ & [(_ & _ & [= ->])|(x & _ & [[_ [= ->]]|[_ ?]])])]]; done.
Qed.
Lemma lifecycle_errors data s t s' e : pm_ordered s = [] -> pm_livefuncs s = ∅ -> pm_livetypes s = ∅ ->
  exec (lifecycle data s) t (s', Err e) -> life_error e.
Proof.
  intros H1 H2 H3 Hx. apply exec_lifecycle in Hx as (u1 & u2 & u3 & u4 & u5 & _ & _ & _ & _ & _ & _ & _ & _ & _ & _ & _ & _ & _ & _ & _ & _ & _ & _ & He); [|done..].
  destruct (He e eq_refl) as [[Hi _]|Hl].
  - apply exec_initDeps_fail in Hi; [|by intros []]. destruct Hi as [(k & p & _ & _ & [(x & [= ->] & _)|(imp & _ & [[_ [= ->]]|(fs & f & _ & _ & Hb)])])|(_ & [(l & z & [= ->] & _)|[[? _]|(k & p & d & q & _ & [= ->] & _)]])]; try done.
    by eapply bad_field_error.
  - destruct Hl as [([n ->] & _)|[(p & x & _ & ->)|[(p & _ & [[-> _]|[-> _]])|[(l1 & p & l2 & q & n & an & _ & _ & -> & _)|(l1 & p & l2 & q & n & an & _ & _ & -> & _)]]]]; done.
Qed.

End Proofs.
