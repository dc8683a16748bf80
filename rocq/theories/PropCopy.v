(** C38: the private copies of plugins. *)
From Verif Require Export PropDetails PropApi.

Ltac notin H := cbn in H; repeat (apply elem_of_cons in H as [H|H]; [try discriminate H|]); try (by apply elem_of_nil in H).

Section Props.
Context {E : GoEnv}.

(** ** Text *)
Lemma split_last {A} (x : A) (a b a' b' : list A) : x ∉ b -> x ∉ b' -> a ++ x :: b = a' ++ x :: b' -> a = a' /\ b = b'.
Proof.
  intros Hb Hb' Heq. apply app_eq_inv in Heq as [(k & -> & Hk)|(k & -> & Hk)].
  - destruct k as [|y k]; [injection Hk as ->; by rewrite (right_id_L [] (++))|]. injection Hk as <- ->. exfalso. apply Hb'. rewrite elem_of_app. right. left.
  - destruct k as [|y k]; [injection Hk as ->; by rewrite (right_id_L [] (++))|]. injection Hk as <- ->. exfalso. apply Hb. rewrite elem_of_app. right. left.
Qed.
Lemma las_inj a b : list_ascii_of_string a = list_ascii_of_string b -> a = b.
Proof. intros H. rewrite <- (string_of_list_ascii_of_string a), <- (string_of_list_ascii_of_string b). by rewrite H. Qed.
Lemma split_str (c : ascii) a b a' b' : c ∉ list_ascii_of_string b -> c ∉ list_ascii_of_string b' -> a +:+ String c b = a' +:+ String c b' -> a = a' /\ b = b'.
Proof.
  intros Hb Hb' Heq. apply (f_equal list_ascii_of_string) in Heq. rewrite !las_app in Heq. cbn [list_ascii_of_string] in Heq.
  destruct (split_last _ _ _ _ _ Hb Hb' Heq). split; by apply las_inj.
Qed.

Lemma path_dir_join dir n : no_slash n -> path_dir (path_join dir n) = if String.eqb dir "" then "/" else dir.
Proof.
  intros Hn. unfold path_dir, path_join. assert (Hd : forall l r, ~ In slash l -> drop_until_slash (l ++ slash :: r) = r).
  { induction l as [|c l IH]; intros r Hl; cbn; [done|]. destruct (Ascii.eqb_spec c slash) as [->|Hc]; [exfalso; apply Hl; by left|]. apply IH. intros H. apply Hl. by right. }
  assert (Hr : ~ In slash (rev (list_ascii_of_string n))) by (rewrite <- in_rev; exact Hn).
  destruct (String.eqb_spec dir "/") as [->|Hne].
  - change (list_ascii_of_string ("/" +:+ n)) with (slash :: list_ascii_of_string n). cbn [rev]. rewrite Hd by done. done.
  - rewrite !las_app. change (list_ascii_of_string "/") with [slash]. rewrite !rev_app_distr. change (rev [slash]) with [slash]. rewrite <- (assoc_L (++)). cbn [app]. rewrite Hd by done.
    destruct (String.eqb_spec dir "") as [->|Hne']; [done|]. destruct (rev (list_ascii_of_string dir)) as [|c l] eqn:Hrev.
    + exfalso. apply Hne'. apply las_inj. rewrite <- (rev_involutive (list_ascii_of_string dir)), Hrev. done.
    + rewrite <- Hrev, rev_involutive. apply string_of_list_ascii_of_string.
Qed.
(** joining is unambiguous *)
Lemma path_join_split d1 n1 d2 n2 : d1 <> "" -> d2 <> "" -> no_slash n1 -> no_slash n2 -> path_join d1 n1 = path_join d2 n2 -> d1 = d2 /\ n1 = n2.
Proof.
  intros H1 H2 N1 N2 Heq. assert (Hd : d1 = d2).
  { pose proof (path_dir_join d1 n1 N1) as E1. pose proof (path_dir_join d2 n2 N2) as E2. rewrite Heq in E1. rewrite E1 in E2.
    destruct (String.eqb_spec d1 ""); [done|]. destruct (String.eqb_spec d2 ""); done. }
  split; [done|]. rewrite Hd in Heq. by apply path_join_inj in Heq.
Qed.
Lemma path_join_ne d n : path_join d n <> "".
Proof. unfold path_join. destruct (String.eqb d "/"); [done|]. by destruct d. Qed.
Lemma path_dir_ne s : path_dir s <> "".
Proof.
  unfold path_dir. destruct (drop_until_slash _) as [|c l]; [done|]. destruct (rev (c :: l)) eqn:Hr; [|done]. apply (f_equal (@length _)) in Hr. rewrite rev_length in Hr. done.
Qed.

(** *** Hexadecimal digits *)
Definition digit_of (c : ascii) : N := let n := N_of_ascii c in if (n <? 58)%N then (n - 48)%N else (n - 87)%N.
Fixpoint hexparse (v : N) (s : string) : N := match s with EmptyString => v | String c s => hexparse (v * 16 + digit_of c) s end.
Lemma hex_digit_facts n : (n < 16)%N -> digit_of (hex_digit n) = n /\ hex_digit n <> "x"%char /\ hex_digit n <> "-"%char /\ hex_digit n <> slash.
Proof.
  intros Hn. assert (Hc : (n = 0 \/ n = 1 \/ n = 2 \/ n = 3 \/ n = 4 \/ n = 5 \/ n = 6 \/ n = 7 \/ n = 8 \/ n = 9 \/ n = 10 \/ n = 11 \/ n = 12 \/ n = 13 \/ n = 14 \/ n = 15)%N) by lia.
  repeat (destruct Hc as [->|Hc]; [vm_compute; done|]). subst n. vm_compute. done.
Qed.
Lemma hex_digits_value fuel : forall n acc, hexparse 0 (hex_digits fuel n acc) = hexparse (n mod 16 ^ N.of_nat fuel) acc.
Proof.
  induction fuel as [|fuel IH]; intros n acc; cbn [hex_digits]; [by rewrite N.pow_0_r, N.mod_1_r|].
  assert (Hm : (n mod 16 < 16)%N) by (apply N.mod_lt; lia). destruct (hex_digit_facts _ Hm) as (Hd & _).
  rewrite Nat2N.inj_succ, N.pow_succ_r'. destruct (N.ltb_spec n 16) as [Hn|Hn].
  - cbn [hexparse]. rewrite Hd. f_equal. rewrite N.mul_0_l, N.add_0_l. rewrite !N.mod_small; [done| |done]. assert (1 <= 16 ^ N.of_nat fuel)%N by (assert (16 ^ N.of_nat fuel <> 0)%N by (by apply N.pow_nonzero); lia). nia.
  - rewrite IH. cbn [hexparse]. rewrite Hd. f_equal. rewrite N.mod_mul_r by (first [done|apply N.pow_nonzero; done]). lia.
Qed.
Lemma hex_digits_chars fuel c : c = "x"%char \/ c = "-"%char \/ c = slash -> forall n acc, c ∉ list_ascii_of_string acc -> c ∉ list_ascii_of_string (hex_digits fuel n acc).
Proof.
  intros Hc. induction fuel as [|fuel IH]; intros n acc Hacc; cbn [hex_digits]; [done|].
  assert (Hm : (n mod 16 < 16)%N) by (apply N.mod_lt; lia). destruct (hex_digit_facts _ Hm) as (_ & H1 & H2 & H3).
  assert (Hn : c ∉ list_ascii_of_string (String (hex_digit (n mod 16)) acc)).
  { cbn [list_ascii_of_string]. apply not_elem_of_cons. split; [|done]. destruct Hc as [->|[->| ->]]; congruence. }
  destruct (n <? 16)%N; [done|]. by apply IH.
Qed.
Lemma spaces_chars k c : c <> " "%char -> c ∉ list_ascii_of_string (spaces k).
Proof. intros Hc. induction k as [|k IH]; cbn; [apply not_elem_of_nil|]. apply not_elem_of_cons. done. Qed.
Lemma fmt_chars c n : c = "-"%char \/ c = slash -> c ∉ list_ascii_of_string (fmt_sharp8x n).
Proof.
  intros Hc. unfold fmt_sharp8x. rewrite !las_app, !elem_of_app. intros [H|[H|H]].
  - revert H. apply spaces_chars. by destruct Hc as [->| ->].
  - destruct Hc as [->| ->]; notin H.
  - revert H. apply hex_digits_chars; [tauto|apply not_elem_of_nil].
Qed.
Lemma fmt_inj n1 n2 : fmt_sharp8x n1 = fmt_sharp8x n2 -> (n1 mod 2 ^ 32 = n2 mod 2 ^ 32)%N.
Proof.
  unfold fmt_sharp8x. intros Heq.
  assert (Hs : forall k n, spaces k +:+ "0x" +:+ hex_digits 8 n "" = (spaces k +:+ "0") +:+ String "x" (hex_digits 8 n "")).
  { intros k n. apply las_inj. rewrite !las_app. cbn [list_ascii_of_string]. by rewrite <- (assoc_L (++)). }
  rewrite !Hs in Heq. apply split_str in Heq as [_ Heq]; [|apply hex_digits_chars; [tauto|apply not_elem_of_nil]..].
  apply (f_equal (hexparse 0)) in Heq. rewrite !hex_digits_value in Heq. exact Heq.
Qed.

(** ** Where the copy of a file goes *)
Lemma copy_name_split n1 t1 n2 t2 : "-"%char ∉ list_ascii_of_string t1 -> "-"%char ∉ list_ascii_of_string t2 -> n1 +:+ "-" +:+ t1 +:+ FileNameExt = n2 +:+ "-" +:+ t2 +:+ FileNameExt -> n1 = n2 /\ t1 = t2.
Proof.
  intros H1 H2 Heq. assert (He : forall t, "-"%char ∉ list_ascii_of_string t -> "-"%char ∉ list_ascii_of_string (t +:+ FileNameExt)).
  { intros t Ht. rewrite las_app, elem_of_app. intros [?|H]; [done|]. notin H. }
  destruct (split_str "-" n1 (t1 +:+ FileNameExt) n2 (t2 +:+ FileNameExt) (He _ H1) (He _ H2) Heq) as [-> Hs]. split; [done|].
  apply (f_equal list_ascii_of_string) in Hs. rewrite !las_app in Hs. apply app_inj_2 in Hs as [Hs _]; [by apply las_inj|done].
Qed.
Lemma copy_dst_inj dn1 i1 dn2 i2 : no_slash dn1 -> no_slash dn2 -> no_slash (fi_name i1) -> no_slash (fi_name i2) -> copy_dst dn1 i1 = copy_dst dn2 i2 ->
  dn1 = dn2 /\ path_dir (fi_file i1) = path_dir (fi_file i2) /\ fi_name i1 = fi_name i2 /\ (xxhash32 (fi_sha1 i1) mod 2 ^ 32 = xxhash32 (fi_sha1 i2) mod 2 ^ 32)%N.
Proof.
  intros D1 D2 N1 N2 Heq. unfold copy_dst, copy_dir in Heq.
  assert (Hns : forall i, no_slash (fi_name i) -> no_slash (fi_name i +:+ "-" +:+ fmt_sharp8x (xxhash32 (fi_sha1 i)) +:+ FileNameExt)).
  { intros i Hi. unfold no_slash. rewrite !las_app. rewrite <- elem_of_list_In, !elem_of_app. intros [H|[H|[H|H]]].
    - apply elem_of_list_In in H. by apply Hi.
    - notin H.
    - revert H. apply fmt_chars. by right.
    - notin H. }
  apply path_join_split in Heq as [Hd Hn]; [|apply path_join_ne..|by apply Hns|by apply Hns].
  apply path_join_split in Hd as [Hd ->]; [|apply path_join_ne..|done|done].
  assert (Htmp : no_slash "tmp") by (intros [?|[?|[?|[]]]]; discriminate).
  apply path_join_split in Hd as [Hd _]; [|apply path_dir_ne..|done|done].
  apply copy_name_split in Hn as [Hn Hx]; [|apply fmt_chars; by left..]. apply fmt_inj in Hx. done.
Qed.

(** ** The copies a call makes *)
(** Specification: the files written, with the content written, in order. *)
Definition writes (t : list event) : list (string * string) := omap (fun e => match e with EvWriteFile f d _ => Some (f, d) | _ => None end) t.
(** every file opened as a plugin has been written before the call ends *)
Definition covered (t : list event) : Prop := forall f r, EvOpen f r ∈ t -> exists d, EvWriteFile f d None ∈ t.
Definition no_copy (e : event) : Prop := match e with EvWriteFile _ _ _ | EvOpen _ _ => False | _ => True end.

Lemma writes_app t1 t2 : writes (t1 ++ t2) = writes t1 ++ writes t2.
Proof. apply omap_app. Qed.
Lemma covered_app t1 t2 : covered t1 -> covered t2 -> covered (t1 ++ t2).
Proof.
  intros H1 H2 f r Hin. apply elem_of_app in Hin as [Hin|Hin]; [destruct (H1 _ _ Hin) as [d Hd]|destruct (H2 _ _ Hin) as [d Hd]]; exists d; apply elem_of_app; tauto.
Qed.
Lemma no_copy_writes t : Forall no_copy t -> writes t = [] /\ covered t.
Proof.
  intros HF. split.
  - induction HF as [|e t He Ht IH]; [done|]. by destruct e.
  - intros f r Hin. rewrite Forall_forall in HF. by apply HF in Hin.
Qed.
Lemma no_copy_calls Q t : Forall (call_in Q) t -> Forall no_copy t.
Proof. intros H. eapply Forall_impl; [exact H|]. by intros []. Qed.
Lemma no_copy_lifecycle data s t s' o : pm_ordered s = [] -> pm_livefuncs s = ∅ -> pm_livetypes s = ∅ ->
  exec (lifecycle data s) t (s', o) -> Forall no_copy t.
Proof.
  intros H1 H2 H3 Hx. apply exec_lifecycle in Hx as (u1 & u2 & u3 & u4 & u5 & -> & F1 & F2 & F3 & F4 & F5 & _); [|done..].
  repeat (apply Forall_app; split); eapply no_copy_calls; [exact F1|exact F2|exact F3|exact F4|exact F5].
Qed.
Lemma no_copy_freed mid p t : freed_one mid p t -> Forall no_copy t.
Proof.
  intros (v & t' & -> & [[_ ->]|[_ [->|(t'' & -> & [[Hn ->]|(c & x & Hc & ->)])]]]); repeat constructor.
Qed.
Lemma no_copy_released m t : released m t -> Forall no_copy t.
Proof.
  intros (ps & ts & -> & HF & _). apply Forall_concat. clear -HF. induction HF as [|p u ps ts Hp _ IH]; [constructor|]. constructor; [by eapply no_copy_freed|done].
Qed.
Lemma no_copy_made b tn s : made b tn s -> Forall no_copy tn.
Proof. intros (_ & -> & _). destruct b; repeat constructor. Qed.
Lemma no_copy_accepted new old l : Forall no_copy (map (accepted new old) l).
Proof. apply Forall_forall. intros e (x & -> & _)%elem_of_list_fmap. done. Qed.
Lemma no_copy_callback cbs new old t e : callback_failed cbs new old t e -> Forall no_copy t.
Proof.
  intros (c1 & cb & c2 & r & tf & _ & -> & _ & HR). apply Forall_app. split; [apply no_copy_accepted|]. constructor; [done|]. by eapply no_copy_released.
Qed.
Lemma no_copy_chosen o tp files : chosen o tp files -> Forall no_copy tp.
Proof. intros (d1 & d2 & abs & es & fo & -> & _). repeat constructor. Qed.
Lemma no_copy_refused o tp e : refused o tp e -> Forall no_copy tp.
Proof. destruct 1; repeat constructor. Qed.
Lemma no_copy_spawned o old : Forall no_copy (spawned o old).
Proof. destruct old; repeat constructor. Qed.
Lemma no_copy_reads fds : Forall no_copy (reads fds).
Proof. apply Forall_forall. intros e (x & -> & _)%elem_of_list_fmap. done. Qed.
Lemma no_copy_carry mid t : carry_events mid t -> Forall no_copy t.
Proof. intros H. eapply Forall_impl; [exact H|]. by intros e [(i & v & ->)|(w & ->)]. Qed.
Lemma no_copy_lookups h ans rs : Forall no_copy (lookups h ans rs).
Proof. apply Forall_forall. intros e (x & -> & _)%elem_of_list_fmap. done. Qed.

Definition write_of (dn : string) (i : fileInfo) : string * string := (copy_dst dn i, fi_data i).

Lemma head_writes s i j r t : Forall no_copy t -> writes (open_head s i j r ++ t) = [write_of (pm_dirName s) i] /\ covered (open_head s i j r ++ t).
Proof.
  intros HF. destruct (no_copy_writes t HF) as [Hw Hc]. split; [rewrite writes_app, Hw; done|]. apply covered_app; [|done].
  intros f x Hin. unfold open_head in Hin. exists (fi_data i). apply elem_of_cons in Hin as [Hin|Hin]; [discriminate|]. apply elem_of_cons in Hin as [Hin|Hin]; [discriminate|].
  apply elem_of_cons in Hin as [Hin|Hin]; [discriminate|]. apply elem_of_list_singleton in Hin. injection Hin as -> ->. right. left.
Qed.
Lemma opened_writes infos s name p t : opened infos s name p t -> exists i, infos !! name = Some i /\ writes t = [write_of (pm_dirName s) i] /\ covered t.
Proof.
  intros (i & h & ans & c1 & c2 & Hi & _ & _ & _ & _ & _ & ->). exists i. split; [done|]. unfold open_trace. apply (head_writes s i (pl_inst p) (Val h)).
  apply Forall_app. split; [apply (no_copy_lookups h ans)|repeat constructor].
Qed.
Lemma opened_all_writes infos s ns ps ts : Forall3 (opened infos s) ns ps ts ->
  exists is, Forall2 (fun n i => infos !! n = Some i) ns is /\ writes (concat ts) = map (write_of (pm_dirName s)) is /\ covered (concat ts).
Proof.
  intros HF. induction HF as [|n p t ns ps ts Ho _ (is & H2 & Hw & Hc)].
  - exists []. split; [constructor|]. split; [done|]. intros f r Hin. by apply elem_of_nil in Hin.
  - apply opened_writes in Ho as (i & Hi & Hwi & Hci). exists (i :: is). split; [by constructor|]. cbn [concat]. rewrite writes_app, Hwi, Hw. split; [done|]. by apply covered_app.
Qed.
Lemma call_panic_no_copy mid n j f r x t : call_panic mid n j f r x t -> Forall no_copy t.
Proof. intros [(_ & _ & ->)|(c & _ & -> & _)]; repeat constructor. Qed.
Lemma open_error_writes s i t o : open_error s i t o -> (writes t = [] \/ writes t = [write_of (pm_dirName s) i]) /\ covered t.
Proof.
  assert (Hh : forall j r u, Forall no_copy u -> (writes (open_head s i j r ++ u) = [] \/ writes (open_head s i j r ++ u) = [write_of (pm_dirName s) i]) /\ covered (open_head s i j r ++ u)).
  { intros j r u Hu. destruct (head_writes s i j r u Hu) as [H1 H2]. split; [by right|done]. }
  destruct 1.
  - split; [by left|]. intros f r Hin. by apply elem_of_list_singleton in Hin.
  - split; [by right|]. intros f r Hin. apply elem_of_cons in Hin as [Hin|Hin]; [discriminate|]. by apply elem_of_list_singleton in Hin.
  - rewrite <- (right_id_L [] (++) (open_head s i j (Err e))). apply Hh. constructor.
  - rewrite <- (right_id_L [] (++) (open_head s i j (Pan x))). apply Hh. constructor.
  - apply Hh, no_copy_lookups.
  - apply Hh, no_copy_lookups.
  - apply Hh, Forall_app. split; [apply no_copy_lookups|by eapply call_panic_no_copy].
  - apply Hh, Forall_app. split; [apply no_copy_lookups|constructor; [done|by eapply call_panic_no_copy]].
Qed.

(** what one load writes: the copies of some of the files it read, of different plugins *)
Definition copying (files : list string) (dn : string) (t : list event) : Prop :=
  covered t /\ exists is, writes t = map (write_of dn) is /\ NoDup (map fi_name is) /\
    forall i, i ∈ is -> exists f d, i = info_of f d /\ f ∈ files /\ EvReadFile f (Val d) ∈ t.

Lemma no_copying files dn t : Forall no_copy t -> copying files dn t.
Proof. intros HF. destruct (no_copy_writes t HF) as [Hw Hc]. split; [done|]. exists []. split; [done|]. split; [constructor|]. intros i Hi. by apply elem_of_nil in Hi. Qed.
Lemma copying_pad files dn t1 t t2 : Forall no_copy t1 -> copying files dn t -> Forall no_copy t2 -> copying files dn (t1 ++ t ++ t2).
Proof.
  intros H1 (Hc & is & Hw & Hnd & Hi) H2. destruct (no_copy_writes _ H1) as [Hw1 Hc1]. destruct (no_copy_writes _ H2) as [Hw2 Hc2]. split; [by repeat apply covered_app|].
  exists is. split; [rewrite !writes_app, Hw1, Hw2, (right_id_L [] (++)); done|]. split; [done|]. intros i Hin. destruct (Hi i Hin) as (f & d & ? & ? & Hr). exists f, d. split; [done|]. split; [done|].
  rewrite !elem_of_app. tauto.
Qed.

Lemma infos_origin old fds n i : NoDup (map file_key (map fst fds)) -> to_open old (infos_of fds) !! n = Some i ->
  exists f d, i = info_of f d /\ (f, d) ∈ fds /\ name2key (fi_name i) = n.
Proof.
  intros Hnd Hi. apply to_open_lookup in Hi as [Hi _]. pose proof (infos_key _ _ _ Hnd Hi) as Hk. apply infos_lookup in Hi as (f & d & Hin & _ & ->); [|done]. by exists f, d.
Qed.
Lemma names_distinct old fds ns is : NoDup (map file_key (map fst fds)) -> NoDup ns -> Forall2 (fun n i => to_open old (infos_of fds) !! n = Some i) ns is -> NoDup (map fi_name is).
Proof.
  intros Hnd Hns HF. apply (NoDup_fmap_1 name2key). enough (He : map name2key (map fi_name is) = ns) by (rewrite <- He in Hns; exact Hns).
  clear Hns. induction HF as [|n i ns is Hi _ IH]; [done|]. apply infos_origin in Hi as (f & d & _ & _ & Hn); [|done]. cbn [map]. by rewrite IH, Hn.
Qed.
Lemma in_reads f d fds : (f, d) ∈ fds -> EvReadFile f (Val d) ∈ reads fds.
Proof. intros H. apply elem_of_list_fmap. by exists (f, d). Qed.

Lemma copying_of files old s fds ti ns is tw : map fst fds = files -> NoDup (map file_key (map fst fds)) -> carry_events (pm_id s) ti -> NoDup ns ->
  Forall2 (fun n i => to_open old (infos_of fds) !! n = Some i) ns is -> writes tw = map (write_of (pm_dirName s)) is -> covered tw ->
  copying files (pm_dirName s) (reads fds ++ ti ++ tw).
Proof.
  intros <- Hnd Hti Hns HF Hw Hc. destruct (no_copy_writes _ (no_copy_reads fds)) as [Hw1 Hc1]. destruct (no_copy_writes _ (no_copy_carry _ _ Hti)) as [Hw2 Hc2].
  split; [by repeat apply covered_app|]. exists is. split; [by rewrite !writes_app, Hw1, Hw2, Hw|]. split; [by eapply names_distinct|].
  intros i Hi. apply elem_of_list_lookup in Hi as [k Hk]. destruct (Forall2_lookup_r _ _ _ _ _ HF Hk) as (n & _ & Hn). apply infos_origin in Hn as (f & d & -> & Hfd & _); [|done].
  exists f, d. split; [done|]. split; [apply elem_of_list_fmap; by exists (f, d)|]. rewrite elem_of_app. left. by apply in_reads.
Qed.

Lemma gathered_copying files old s t s' : gathered files old s t s' -> copying files (pm_dirName s) t.
Proof.
  intros (fds & ti & now & ps & ts & Hf & (Hnd & _ & Hti & _ & HF) & -> & _).
  assert (Hn : NoDup (info_names (to_open old (infos_of fds)))).
  { destruct (opened_names old s fds now _ [] ps ts Hnd (eq_sym (app_nil_r _)) HF) as (_ & _ & H & _). done. }
  apply opened_all_writes in HF as (is & HF & Hw & Hc). by eapply copying_of.
Qed.
Lemma gather_failed_copying files old s t s' o : gather_failed files old s t s' o -> copying files (pm_dirName s) t.
Proof.
  intros [k Hk|fds f rest e Hf Hnd He|fds ti now n1 name n2 ps ts tl s1 o1 o' Hf (Hnd & _ & Hti & _ & HF) Hn Hs1 Hof Hex -> Hnv].
  - apply no_copying. constructor.
  - apply no_copying. apply Forall_app. split; [apply no_copy_reads|repeat constructor].
  - assert (Hnn : NoDup (n1 ++ name :: n2)).
    { rewrite <- Hn. apply (NoDup_fmap_1 name2key). apply info_names_nodup. intros k i Hi. apply to_open_lookup in Hi as [Hi _]. by eapply infos_key. }
    apply opened_all_writes in HF as (is & HF & Hw & Hc). change (pm_dirName (upd_when now s)) with (pm_dirName s) in Hw.
    assert (Hdn : pm_dirName s1 = pm_dirName s) by (rewrite Hs1; done).
    assert (Hs : NoDup n1) by (apply NoDup_app in Hnn; tauto).
    destruct (to_open old (infos_of fds) !! name) as [i|] eqn:Hi.
    + apply exec_loadPlugin_fail in Hex; [|destruct o1; cbn in Hnv |- *; tauto]. apply open_error_writes in Hex as [[He|He] Hce].
      * eapply (copying_of _ old s fds ti n1 is); try done; [|by apply covered_app]. by rewrite writes_app, Hw, He, (right_id_L [] (++)).
      * eapply (copying_of _ old s fds ti (n1 ++ [name]) (is ++ [i])); try done; [..|by apply covered_app].
        -- rewrite (assoc_L (++) n1 [name] n2) in Hnn || (replace (n1 ++ name :: n2) with ((n1 ++ [name]) ++ n2) in Hnn by (by rewrite <- (assoc_L (++)))). apply NoDup_app in Hnn. tauto.
        -- apply Forall2_app; [done|]. by constructor.
        -- rewrite writes_app, Hw, He, map_app, Hdn. done.
    + cbn [loadPlugin] in Hex. xinv Hex. rewrite (right_id_L [] (++)). by eapply copying_of.
Qed.

Lemma body_copying files old data s t s' o : blank_mgr s -> body_ran files old data s t s' o -> copying files (pm_dirName s) t.
Proof.
  intros Hb [Hg|(t1 & t2 & s1 & -> & Hg & Hl)]; [by eapply gather_failed_copying|]. pose proof (gathered_copying _ _ _ _ _ Hg) as HC.
  destruct (gathered_facts _ _ _ _ _ Hb Hg) as (H1 & H2 & H3 & _). apply (copying_pad _ _ [] t1 t2); [constructor|done|]. by eapply no_copy_lifecycle.
Qed.
Lemma load_ok_copying files old data s t new : blank_mgr s -> load_ok files old data s t new -> copying files (pm_dirName s) t.
Proof. intros Hb HL. eapply body_copying; [done|]. right. exact HL. Qed.
Lemma load_failed_copying files old data s t s' e : blank_mgr s -> load_failed files old data s t s' e -> copying files (pm_dirName s) t.
Proof.
  intros Hb (tb & tf & ob & -> & _ & _ & HB & HR & _). apply (copying_pad _ _ [] tb tf); [constructor|by eapply body_copying|by eapply no_copy_released].
Qed.
Lemma file_copying o files data cbs t r : file_run o files data cbs t r -> exists mid born, EvNewMgr mid born ∈ t /\ copying files (dir_name born) t.
Proof.
  destruct 1 as [old mid dn x Hn Hx|old tn s tl s' e Hm _ _ HL|old tn s tl new tc e Hm _ _ HL HC|old tn s tl new Hm _ _ HL].
  - exists mid, dn. split; [right; left|]. apply no_copying. repeat constructor.
  - exists (pm_id s), (pm_born s). pose proof Hm as (Hb & Htn & _). split; [rewrite Htn; right; left|].
    rewrite <- (right_id_L [] (++) tl). apply (copying_pad _ _ (EvLoadCurrent old :: tn) tl []); [constructor; [done|by eapply no_copy_made]|by eapply load_failed_copying|constructor].
  - exists (pm_id s), (pm_born s). pose proof Hm as (Hb & Htn & _). split; [rewrite Htn; right; left|].
    apply (copying_pad _ _ (EvLoadCurrent old :: tn) tl tc); [constructor; [done|by eapply no_copy_made]|by eapply load_ok_copying|by eapply no_copy_callback].
  - exists (pm_id s), (pm_born s). pose proof Hm as (Hb & Htn & _). split; [rewrite Htn; right; left|].
    apply (copying_pad _ _ (EvLoadCurrent old :: tn) tl); [constructor; [done|by eapply no_copy_made]|by eapply load_ok_copying|].
    apply Forall_app. split; [apply no_copy_accepted|]. apply Forall_app. split; [apply no_copy_spawned|repeat constructor].
Qed.

(** one call *)
Lemma call_copying o h cur a t r : next_call o h cur (api_prog o a) t r -> o_static o = None ->
  (Forall no_copy t) \/ exists dir entries mid born, EvNewMgr mid born ∈ t /\ listed t dir entries /\ valid_listing entries /\ copying (map (path_join dir) (plugin_files (o_whitelist o) entries)) (dir_name born) t.
Proof.
  intros HN Hs. destruct (next_dir _ _ _ _ _ _ HN Hs) as (tb & add & -> & HD & Hadd). clear HN.
  assert (Hz : Forall no_copy (add ++ [EvUnlock])). { rewrite Hadd. destruct a; [repeat constructor|]. destruct (decide (is_val r)); repeat constructor. } clear Hadd.
  destruct HD as [tp e Hr|tp Hc|tp files tl r Hc Hne HF].
  - left. constructor; [done|]. apply Forall_app. split; [by eapply no_copy_refused|done].
  - left. constructor; [done|]. apply Forall_app. split; [by eapply no_copy_chosen|done].
  - right. destruct (chosen_files _ _ _ Hc) as (dir & es & Hl & _ & Hv & ->). apply file_copying in HF as (mid & dn & Hm & HC). exists dir, es, mid, dn.
    split; [right; rewrite !elem_of_app; tauto|]. split; [unfold listed in *; right; rewrite !elem_of_app; tauto|]. split; [done|].
    rewrite <- (assoc_L (++) tp tl). apply (copying_pad _ _ (EvLock :: tp) tl (add ++ [EvUnlock])); [|done|done]. constructor; [done|by eapply no_copy_chosen].
Qed.

Lemma substring_sub n : forall k s c, In c (list_ascii_of_string (substring k n s)) -> In c (list_ascii_of_string s).
Proof.
  induction n as [|n IH]; intros k s c.
  - revert k. induction s as [|a s IHs]; intros k; destruct k; cbn; try tauto. intros H. right. by eapply IHs.
  - revert k. induction s as [|a s IHs]; intros k; destruct k; cbn [substring list_ascii_of_string]; try (by intros []).
    + intros [<-|H]; [by left|]. right. by eapply IH.
    + intros H. right. by eapply IHs.
Qed.
Lemma plugin_of_no_slash n : no_slash n -> no_slash (plugin_of n).
Proof. unfold no_slash, plugin_of, trim_suffix. intros Hn. destruct (has_suffix ".so" n); [|done]. intros H. by apply substring_sub in H. Qed.

(** Specification: [f] is the place of a private copy of the content [d] of the plugin file [file], made by a manager
    whose private directory is called [dn]. *)
Definition copy_of (dn file d f : string) : Prop := f = copy_dst dn (info_of file d).

(** ** C38 *)
Lemma exec_born {A} (p : prog A) : forall t r mid born, exec p t r -> EvNewMgr mid born ∈ t -> proper (fst born).
Proof.
  induction p as [a|X a k IH]; intros t r mid born H Hin.
  - destruct H as [-> _]. by apply elem_of_nil in Hin.
  - destruct H as (x & t' & Hv & -> & H). apply elem_of_app in Hin as [Hin|Hin]; [|exact (IH x _ _ _ _ H Hin)]. clear IH H.
    destruct a; cbn [ev] in Hin; repeat (apply elem_of_cons in Hin as [Hin|Hin]; [try done|]); try (by apply elem_of_nil in Hin).
    injection Hin as -> ->. exact Hv.
Qed.
Lemma born_proper o h cur a t r mid born : next_call o h cur (api_prog o a) t r -> EvNewMgr mid born ∈ t -> proper (fst born).
Proof. intros (_ & _ & H & _) Hin. exact (exec_born _ _ _ _ _ H Hin). Qed.
Lemma private_copies o h cur a t r f d : next_call o h cur (api_prog o a) t r -> o_static o = None -> (f, d) ∈ writes t ->
  exists mid born dir entries n, EvNewMgr mid born ∈ t /\ listed t dir entries /\ valid_listing entries /\ n ∈ plugin_files (o_whitelist o) entries /\
    EvReadFile (path_join dir n) (Val d) ∈ t /\ copy_of (dir_name born) (path_join dir n) d f.
Proof.
  intros HN Hs Hin. destruct (call_copying _ _ _ _ _ _ HN Hs) as [HF|(dir & es & mid & dn & Hm & Hl & Hv & _ & is & Hw & _ & Hi)].
  - destruct (no_copy_writes _ HF) as [Hw _]. rewrite Hw in Hin. by apply elem_of_nil in Hin.
  - rewrite Hw in Hin. apply elem_of_list_fmap in Hin as (i & Hfd & Hin). destruct (Hi i Hin) as (f' & d' & -> & Hf & Hr).
    apply elem_of_list_fmap in Hf as (n & -> & Hn). injection Hfd as -> ->. by exists mid, dn, dir, es, n.
Qed.
(** Every file a load writes is the private copy of a plugin file it read, in the private directory of the manager it
    made, and plugins are opened from such copies only. *)
Theorem C38_only_private_copies o h cur a t r f d : next_call o h cur (api_prog o a) t r -> o_static o = None -> (f, d) ∈ writes t ->
  exists mid born dir entries n, EvNewMgr mid born ∈ t /\ listed t dir entries /\ n ∈ plugin_files (o_whitelist o) entries /\
    EvReadFile (path_join dir n) (Val d) ∈ t /\ copy_of (dir_name born) (path_join dir n) d f.
Proof.
  intros HN Hs Hin. destruct (private_copies _ _ _ _ _ _ _ _ HN Hs Hin) as (mid & dn & dir & es & n & ? & ? & _ & ?). by exists mid, dn, dir, es, n.
Qed.
Theorem C38_opened_from_copies o h cur a t r f x : next_call o h cur (api_prog o a) t r -> o_static o = None -> EvOpen f x ∈ t ->
  exists d, EvWriteFile f d None ∈ t.
Proof.
  intros HN Hs Hin. destruct (call_copying _ _ _ _ _ _ HN Hs) as [HF|(dir & es & mid & dn & Hm & Hl & Hv & Hc & _)].
  - rewrite Forall_forall in HF. by apply HF in Hin.
  - by apply (Hc f x).
Qed.
(** No two copies of one load go to the same place: no copy overwrites another. *)
Theorem C38_copies_of_one_load_differ o h cur a t r : next_call o h cur (api_prog o a) t r -> o_static o = None -> NoDup (map fst (writes t)).
Proof.
  intros HN Hs. destruct (call_copying _ _ _ _ _ _ HN Hs) as [HF|(dir & es & mid & dn & Hm & Hl & [_ Hv] & _ & is & Hw & Hnd & Hi)].
  - destruct (no_copy_writes _ HF) as [Hw _]. rewrite Hw. constructor.
  - rewrite Hw, map_map. cbn [write_of fst]. clear Hw HN.
    assert (Hd : forall i, i ∈ is -> copy_dir (dir_name dn) i = path_join (path_join (if String.eqb dir "" then "/" else dir) "tmp") (dir_name dn)).
    { intros i Hin. destruct (Hi i Hin) as (f & d & -> & Hf & _). apply elem_of_list_fmap in Hf as (n & -> & Hn). unfold copy_dir. cbn [fi_file info_of]. rewrite path_dir_join; [done|].
      apply elem_plugin_files in Hn as (Hn & _). rewrite Forall_forall in Hv. by apply (Hv _) in Hn as [_ Hn]. }
    clear Hi. revert Hnd Hd. induction is as [|i is IH]; cbn [map]; intros Hnd Hd; [constructor|]. apply NoDup_cons in Hnd as [Hni Hnd]. apply NoDup_cons. split.
    + intros (i' & Heq & Hin)%elem_of_list_fmap. apply Hni. apply elem_of_list_fmap. exists i'. split; [|done].
      unfold write_of in Heq. cbn [fst] in Heq. unfold copy_dst in Heq. rewrite (Hd i (elem_of_list_here _ _)), (Hd i' (elem_of_list_further _ _ _ Hin)) in Heq. apply path_join_inj in Heq.
      apply copy_name_split in Heq as [Heq _]; [done|apply fmt_chars; by left..].
    + apply IH; [done|]. intros j Hj. apply Hd. by right.
Qed.
(** Two loads write to the same place only for the same plugin name, the same directory, when made in the same second by the same process,
    and for the same hash of the content. *)
Theorem C38_copies_of_two_loads_differ o1 h1 cur1 a1 t1 r1 o2 h2 cur2 a2 t2 r2 f d1 d2 :
  next_call o1 h1 cur1 (api_prog o1 a1) t1 r1 -> o_static o1 = None -> next_call o2 h2 cur2 (api_prog o2 a2) t2 r2 -> o_static o2 = None ->
  (f, d1) ∈ writes t1 -> (f, d2) ∈ writes t2 ->
  (exists mid1 mid2 born, EvNewMgr mid1 born ∈ t1 /\ EvNewMgr mid2 born ∈ t2) /\
  exists file1 file2, EvReadFile file1 (Val d1) ∈ t1 /\ EvReadFile file2 (Val d2) ∈ t2 /\ path_dir file1 = path_dir file2 /\ pluginName file1 = pluginName file2 /\
    (xxhash32 (sha1 d1) mod 2 ^ 32 = xxhash32 (sha1 d2) mod 2 ^ 32)%N.
Proof.
  intros HN1 Hs1 HN2 Hs2 Hw1 Hw2.
  assert (Hnm : forall wl dir entries n d, valid_listing entries -> n ∈ plugin_files wl entries -> no_slash (fi_name (info_of (path_join dir n) d))).
  { intros wl dir entries n d [_ Hv] Hn. apply elem_plugin_files in Hn as (Hn & _). rewrite Forall_forall in Hv. apply Hv in Hn as [Hne Hn]. cbn [fst] in Hne, Hn.
    cbn [fi_name info_of]. rewrite pluginName_join by done. by apply plugin_of_no_slash. }
  destruct (private_copies _ _ _ _ _ _ _ _ HN1 Hs1 Hw1) as (m1 & dn1 & dir1 & es1 & n1 & Hm1 & Hl1 & Hv1 & Hn1 & Hr1 & Hc1).
  destruct (private_copies _ _ _ _ _ _ _ _ HN2 Hs2 Hw2) as (m2 & dn2 & dir2 & es2 & n2 & Hm2 & Hl2 & Hv2 & Hn2 & Hr2 & Hc2).
  unfold copy_of in Hc1, Hc2. rewrite Hc1 in Hc2. apply copy_dst_inj in Hc2 as (Hdne & Hd & Hnn & Hh).
  - apply dir_name_inj in Hdne as <-; [|exact (born_proper _ _ _ _ _ _ _ _ HN1 Hm1)|exact (born_proper _ _ _ _ _ _ _ _ HN2 Hm2)]. split; [by exists m1, m2, dn1|]. by exists (path_join dir1 n1), (path_join dir2 n2).
  - apply dir_name_no_slash. exact (born_proper _ _ _ _ _ _ _ _ HN1 Hm1).
  - apply dir_name_no_slash. exact (born_proper _ _ _ _ _ _ _ _ HN2 Hm2).
  - exact (Hnm _ _ _ _ _ Hv1 Hn1).
  - exact (Hnm _ _ _ _ _ Hv2 Hn2).
Qed.
End Props.

(** ** Concrete cases *)
(** three copies, of different plugins *)
Example C38_case : next_call dyn [] None (api_prog dyn (Call_LoadPlugins 77)) t0 (snd run0) /\ o_static dyn = None /\
  writes t0 = [("/p/tmp/211102150405-7/a-  0xbeef.so", "/p/a.so"); ("/p/tmp/211102150405-7/b-  0xbeef.so", "/p/b.so"); ("/p/tmp/211102150405-7/c-  0xbeef.so", "/p/c.so")] /\
  EvOpen "/p/tmp/211102150405-7/a-  0xbeef.so" (Val 5%N) ∈ t0.
Proof.
  split_and!; [apply first_load|done|vm_compute; reflexivity|]. apply elem_of_list_In; vm_compute; tauto.
Qed.
(** two loads of the same second in one process, with contents of equal hash, do share a path: the conclusion cannot be
    strengthened to "different paths" *)
Example C38_shared_case : next_call dyn t0 (Some m0) (api_prog dyn (Call_Reload 78 (Some 5%N))) t1 (snd run1) /\
  writes t1 = [("/p/tmp/211102150405-7/c-  0xbeef.so", "c2")].
Proof. split_and!; [apply second_load|vm_compute; reflexivity]. Qed.

Print Assumptions C38_only_private_copies.
Print Assumptions C38_opened_from_copies.
Print Assumptions C38_copies_of_one_load_differ.
Print Assumptions C38_copies_of_two_loads_differ.
