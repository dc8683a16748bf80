(** What "up to case" and "lower case" mean, letter by letter: the reading of [same_name] and [to_lower] in C10, C13, C27,
    C28, C31, C35, C46, C55. *)
From Verif Require Export PropLive PropApi PathProofs PropCopy.

(** ** UTF-8 *)
(** How a string is read: the encoding of a character, or a byte that begins none (which reads as U+FFFD), and then the rest. *)
Theorem C35_reading_means s : match s with
  | "" => runes s = []
  | String c s' =>
      (exists r rest, valid_rune r = true /\ s = of_runes [r] +:+ rest /\ runes s = r :: runes rest) \/
      (forall r rest, valid_rune r = true -> s <> of_runes [r] +:+ rest) /\ runes s = 65533%N :: runes s'
  end.
Proof.
  destruct s as [|c s]; [done|].
  assert (Hof : forall r, of_runes [r] = string_of_bytes (rune_bytes r)) by (intros r; unfold of_runes; cbn [map concat]; by rewrite app_nil_r).
  destruct (runes_reads c s) as [(r & rest & Hv & He)|[H1 H2]].
  - left. exists r, rest. rewrite Hof. split_and!; [done|done|]. rewrite He. by apply runes_bytes.
  - right. split; [|exact H2]. intros r rest Hv He. rewrite Hof in He. apply H1. by exists r, rest.
Qed.

Definition small : string := "abcdefghijklmnopqrstuvwxyz".
Definition capital : string := "ABCDEFGHIJKLMNOPQRSTUVWXYZ".
(** The [i]-th letter of the alphabet, small and capital. *)
Definition letter (i : nat) (s c : ascii) : Prop := String.get i small = Some s /\ String.get i capital = Some c.
(** Two characters (Unicode code points) that differ in case at most: the same character, a small and a capital letter of the alphabet, or,
    if one of them is beyond ASCII, two characters with the same lower case in the Unicode table. *)
Definition same_letter (x y : N) : Prop :=
  x = y \/ (exists i s c, letter i s c /\ (x = N_of_ascii s /\ y = N_of_ascii c \/ x = N_of_ascii c /\ y = N_of_ascii s)) \/
  (128 <= x \/ 128 <= y)%N /\ lower_rune x = lower_rune y.
Definition same_word (a b : list N) : Prop := length a = length b /\ forall i x y, a !! i = Some x -> b !! i = Some y -> same_letter x y.
(** The same word, but for the case of its letters ([runes]: the characters of a string). *)
Definition same_letters (a b : string) : Prop := same_word (runes a) (runes b).
(** A capital letter of the alphabet, or a character beyond ASCII with another lower case. *)
Definition capital_rune (r : N) : Prop := (exists j c, String.get j capital = Some c /\ r = N_of_ascii c) \/ (128 <= r)%N /\ lower_rune r <> r.
Definition has_capital (a : string) : Prop := exists r, r ∈ runes a /\ capital_rune r.
(** A string that is UTF-8: the encoding of some characters. *)
Definition utf8 (a : string) : Prop := exists l, Forall (fun r => valid_rune r = true) l /\ a = of_runes l.
(** A string of ASCII characters. *)
Definition plain (a : string) : Prop := forall i c, String.get i a = Some c -> (N_of_ascii c < 128)%N.

Definition all_bytes : list ascii := map ascii_of_nat (seq 0 256).
Lemma all_bytes_in c : c ∈ all_bytes.
Proof.
  unfold all_bytes. rewrite <- (ascii_nat_embedding c). apply elem_of_list_fmap_1, elem_of_seq. split; [lia|]. apply nat_ascii_bounded.
Qed.
Lemma capital_length i c : String.get i capital = Some c -> (i < 26)%nat.
Proof. intros Hc. do 26 (destruct i as [|i]; [lia|]). by destruct i. Qed.

(** The relation between an ASCII character and its lower case, read off the two alphabets. *)
Definition lower_ascii (c : ascii) : ascii := ascii_of_N (lower_rune (N_of_ascii c)).
Definition lower_check (c : ascii) : bool := if (128 <=? N_of_ascii c)%N then true else
  (N_of_ascii (lower_ascii c) =? lower_rune (N_of_ascii c))%N &&
  match find (fun i => bool_decide (String.get i capital = Some c)) (seq 0 26) with
  | Some i => bool_decide (String.get i small = Some (lower_ascii c))
  | None => bool_decide (lower_ascii c = c)
  end.
Lemma lower_checked c : lower_check c = true.
Proof.
  assert (H : forallb lower_check all_bytes = true) by (vm_compute; reflexivity).
  rewrite forallb_forall in H. apply H, elem_of_list_In, all_bytes_in.
Qed.
Lemma lower_rune_cases_ascii r : (r < 128)%N -> exists c, r = N_of_ascii c /\
  ((exists i s, letter i s c /\ lower_rune r = N_of_ascii s) \/ (lower_rune r = r /\ forall i, String.get i capital <> Some c)).
Proof.
  intros Hr. exists (ascii_of_N r). assert (Hc : N_of_ascii (ascii_of_N r) = r) by (apply byte_ascii; lia). split; [done|].
  pose proof (lower_checked (ascii_of_N r)) as H. unfold lower_check in H. rewrite Hc in H. destruct (N.leb_spec 128 r); [lia|].
  apply andb_true_iff in H as [H1 H]. apply N.eqb_eq in H1. destruct (find _ _) as [i|] eqn:Hf.
  - left. exists i, (lower_ascii (ascii_of_N r)). apply find_some in Hf as [_ Hf]. apply bool_decide_eq_true in Hf, H. by split.
  - right. apply bool_decide_eq_true in H. split; [by rewrite <- H1, H|]. intros i Hi.
    assert (Hin : In i (seq 0 26)) by (apply in_seq; apply capital_length in Hi; lia).
    pose proof (find_none _ _ Hf _ Hin) as Hn. cbv beta in Hn. by apply bool_decide_eq_false in Hn.
Qed.
Lemma letter_lower i s c : letter i s c -> lower_rune (N_of_ascii c) = N_of_ascii s /\ lower_rune (N_of_ascii s) = N_of_ascii s /\ N_of_ascii c <> N_of_ascii s.
Proof.
  intros [Hs Hc]. assert (Hi : (i < 26)%nat) by (by eapply capital_length).
  do 26 (destruct i as [|i]; [cbn in Hs, Hc; injection Hs as <-; injection Hc as <-; split_and!; [reflexivity|reflexivity|by vm_compute]|]). lia.
Qed.
Lemma letter_code i j s s' c c' : letter i s c -> letter j s' c' -> N_of_ascii s = N_of_ascii s' -> i = j /\ s = s' /\ c = c'.
Proof.
  intros [S1 C1] [S2 C2] H. assert (s = s') as <- by (rewrite <- (ascii_N_embedding s), <- (ascii_N_embedding s'); by f_equal).
  assert (i = j) as <-; [|split_and!; congruence].
  assert (I1 : (i < 26)%nat) by (by eapply capital_length). assert (I2 : (j < 26)%nat) by (by eapply capital_length).
  assert (Hinj : forallb (fun i => forallb (fun j => if bool_decide (String.get i small = String.get j small) then Nat.eqb i j else true) (seq 0 26)) (seq 0 26) = true) by (vm_compute; reflexivity).
  rewrite forallb_forall in Hinj. specialize (Hinj i). rewrite forallb_forall in Hinj. specialize (Hinj ltac:(apply in_seq; lia) j ltac:(apply in_seq; lia)).
  rewrite bool_decide_true in Hinj by congruence. by apply Nat.eqb_eq.
Qed.
Lemma same_letter_lower x y : same_letter x y <-> lower_rune x = lower_rune y.
Proof.
  split.
  - intros [->|[(i & s & c & H & [[-> ->]|[-> ->]])|[_ H]]]; [done|..|done]; apply letter_lower in H as (H1 & H2 & _); congruence.
  - intros H. destruct (N.le_gt_cases 128 x) as [Hx|Hx]; [right; right; by auto|]. destruct (N.le_gt_cases 128 y) as [Hy|Hy]; [right; right; by auto|].
    destruct (lower_rune_cases_ascii x Hx) as (c & -> & [(i & s & Hi & Lx)|[Lx _]]), (lower_rune_cases_ascii y Hy) as (d & -> & [(j & s' & Hj & Ly)|[Ly _]]).
    + left. assert (Hs : N_of_ascii s = N_of_ascii s') by congruence. destruct (letter_code _ _ _ _ _ _ Hi Hj Hs) as (_ & _ & ->). done.
    + right. left. exists i, s, c. split; [done|]. right. split; congruence.
    + right. left. exists j, s', d. split; [done|]. left. split; congruence.
    + left. congruence.
Qed.
Lemma same_word_lower a b : same_word a b <-> map lower_rune a = map lower_rune b.
Proof.
  revert b. induction a as [|x a IH]; intros [|y b].
  - split; [done|]. split; [done|]. by intros [|i] ??.
  - split; [by intros [? _]|done].
  - split; [by intros [? _]|done].
  - cbn [map]. split.
    + intros [L H]. f_equal; [apply same_letter_lower; by apply (H O)|]. apply IH. split; [by injection L|]. intros i. apply (H (S i)).
    + intros [= H1 H2]. apply IH in H2 as [L H2]. split; [exact (f_equal S L)|]. intros [|i] u v.
      * intros [= <-] [= <-]. by apply same_letter_lower.
      * apply H2.
Qed.

Theorem C35_same_name_means a b : same_name a b <-> same_letters a b.
Proof. unfold same_name, same_letters. rewrite same_word_lower. apply to_lower_eq. Qed.

(** For ASCII names, byte by byte: only the letters of the alphabet have two forms. *)
Lemma plain_cons c a : plain (String c a) <-> (N_of_ascii c < 128)%N /\ plain a.
Proof.
  split.
  - intros H. split; [by apply (H O)|]. intros i. apply (H (S i)).
  - intros [H1 H2] [|i] x; [intros [= <-]; done|apply H2].
Qed.
Lemma runes_plain a : plain a -> runes a = map N_of_ascii (list_ascii_of_string a).
Proof.
  induction a as [|c a IH]; [done|]. rewrite plain_cons. intros [H1 H2]. rewrite <- (ascii_N_embedding c) at 1. rewrite runes_one by done. by rewrite IH.
Qed.
Theorem C35_same_ascii_name_means a b : plain a -> plain b ->
  same_name a b <-> String.length a = String.length b /\ forall i c d, String.get i a = Some c -> String.get i b = Some d -> c = d \/ exists j, letter j c d \/ letter j d c.
Proof.
  intros Ha Hb. rewrite C35_same_name_means. unfold same_letters. rewrite !runes_plain by done.
  assert (Hl : forall c d, (N_of_ascii c < 128)%N -> (N_of_ascii d < 128)%N -> same_letter (N_of_ascii c) (N_of_ascii d) <-> c = d \/ exists j, letter j c d \/ letter j d c).
  { intros c d Hc Hd. unfold same_letter.
    assert (Hi : forall x y, N_of_ascii x = N_of_ascii y -> x = y) by (intros x y Hxy; rewrite <- (ascii_N_embedding x), <- (ascii_N_embedding y); by f_equal). split.
    - intros [H|[(j & s & k & H & [[H1 H2]|[H1 H2]])|[[?|?] _]]]; [left; by apply Hi|..|lia|lia]; apply Hi in H1, H2; subst; right; exists j; auto.
    - intros [->|(j & [H|H])]; [by left|..]; right; left; [exists j, c, d|exists j, d, c]; auto. }
  revert b Hb. induction a as [|c a IH]; intros [|d b] Hb.
  - split; [by intros _|]. intros _. split; [done|]. by intros [|i] ??.
  - split; [by intros [? _]|by intros [? _]].
  - split; [by intros [? _]|by intros [? _]].
  - rewrite plain_cons in Ha, Hb. destruct Ha as [Ha1 Ha2], Hb as [Hb1 Hb2]. specialize (IH Ha2 b Hb2). cbn [list_ascii_of_string map]. split.
    + intros [L H]. destruct (proj1 IH) as [L' H'].
      { split; [by injection L|]. intros i. apply (H (S i)). }
      split; [exact (f_equal S L')|]. intros [|i] x y; [|apply H']. intros [= <-] [= <-]. apply Hl; [done..|]. by apply (H O).
    + intros [L H]. destruct (proj2 IH) as [L' H'].
      { split; [by injection L|]. intros i. apply (H (S i)). }
      split; [exact (f_equal S L')|]. intros [|i] x y; [|apply H']. intros [= <-] [= <-]. apply Hl; [done..|]. by apply (H O).
Qed.

(** FindPlugin, with the meaning of "up to case" spelt out. *)
Theorem C35_case_insensitive_letters m a b : same_letters a b -> FindPlugin m a = FindPlugin m b.
Proof. intros H. apply C35_case_insensitive. by apply C35_same_name_means. Qed.

Lemma capital_rune_lower r : capital_rune r <-> lower_rune r <> r.
Proof.
  unfold capital_rune. destruct (N.le_gt_cases 128 r) as [Hr|Hr].
  - split; [|by right]. intros [(j & c & Hj & ->)|[_ ?]]; [|done]. assert (K : (j < 26)%nat) by (by eapply capital_length).
    do 26 (destruct j as [|j]; [cbn in Hj; injection Hj as <-; by vm_compute in Hr|]). lia.
  - split.
    + intros [(j & c & Hj & ->)|[? _]]; [|lia]. assert (K : (j < 26)%nat) by (by eapply capital_length). destruct (String.get j small) as [s|] eqn:Hs.
      * destruct (letter_lower j s c (conj Hs Hj)) as (H1 & _ & H2). congruence.
      * exfalso. do 26 (destruct j as [|j]; [done|]). lia.
    + intros H. left. destruct (lower_rune_cases_ascii r Hr) as (c & -> & [(i & s & [_ Hi] & Lx)|[Lx _]]); [|done]. by exists i, c.
Qed.
Lemma utf8_spec a : utf8 a <-> of_runes (runes a) = a.
Proof.
  split; [intros (l & Hl & ->); by rewrite runes_of_runes|]. intros H. exists (runes a). split; [apply runes_valid|done].
Qed.

(** A name is its own lower case iff it is UTF-8 and has no capital letter. *)
Theorem C28_lower_case_means a : to_lower a = a <-> utf8 a /\ ~ has_capital a.
Proof.
  rewrite utf8_spec. split.
  - intros H. split.
    + rewrite <- H, runes_to_lower. done.
    + intros (r & Hr & Hc). apply capital_rune_lower in Hc. apply Hc. apply (f_equal runes) in H. rewrite runes_to_lower in H. clear Hc.
      induction (runes a) as [|x l IH]; [by apply elem_of_nil in Hr|]. cbn [map] in H. injection H as H1 H2. apply elem_of_cons in Hr as [->|Hr]; [done|by apply IH].
  - intros [Hu Hn]. unfold to_lower. rewrite <- Hu at 2. f_equal.
    assert (H : forall r, r ∈ runes a -> lower_rune r = r).
    { intros r Hr. destruct (N.eq_dec (lower_rune r) r) as [|Hne]; [done|]. exfalso. apply Hn. exists r. split; [done|]. by apply capital_rune_lower. }
    clear -H. induction (runes a) as [|x l IH]; [done|]. cbn [map]. f_equal; [apply H; by left|]. apply IH. intros r Hr. apply H. by right.
Qed.

(** The builder's test of a name against the prefix given with --livePrefix, which the builder lower-cases first
    (build.go:172). *)
Theorem C46_prefix_means prefix n :
  live_name (to_lower prefix) n = true <-> exists start rest, runes n = start ++ rest /\ same_word start (runes prefix).
Proof.
  unfold live_name, to_lower.
  assert (Hq : forall p x, has_prefix p x = true <-> exists y, x = p +:+ y).
  { clear. induction p as [|c p IH]; intros x; simpl; [split; [intros _; by exists x|by destruct x]|]. destruct x as [|d x]; simpl; [split; [done|by intros [y ?]]|].
    destruct (ascii_dec c d) as [->|Hne]; [rewrite IH|]; split.
    - intros [y ->]. by exists y.
    - intros [y [= ->]]. by exists y.
    - done.
    - by intros [y [= ? _]]. }
  rewrite Hq. clear Hq.
  assert (Hv : forall l, Forall (fun r => valid_rune r = true) l -> Forall (fun r => valid_rune r = true) (map lower_rune l)).
  { intros l H. induction H as [|r l Hr _ IH]; [constructor|]. constructor; [by apply lower_rune_valid|done]. }
  pose proof (Hv _ (runes_valid prefix)) as H1. pose proof (Hv _ (runes_valid n)) as H2. setoid_rewrite same_word_lower.
  assert (Hp : (exists y, of_runes (map lower_rune (runes n)) = of_runes (map lower_rune (runes prefix)) +:+ y) <-> exists rest, map lower_rune (runes n) = map lower_rune (runes prefix) ++ rest).
  { revert H1 H2. generalize (map lower_rune (runes n)) as l2, (map lower_rune (runes prefix)) as l1. clear. intros l2 l1 H1 H2. split.
    - intros [y Hy]. apply (f_equal runes) in Hy. rewrite runes_of_runes in Hy by done. exists (runes y). rewrite Hy. clear Hy H2 l2.
      induction H1 as [|r l Hr _ IH]; [done|]. rewrite of_runes_cons, string_of_bytes_app, <- str_app_assoc, runes_bytes by done. cbn [app]. f_equal. exact IH.
    - intros [rest ->]. exists (of_runes rest). unfold of_runes. rewrite map_app, concat_app. apply string_of_bytes_app. }
  rewrite Hp. split.
  - intros [rest Hr]. exists (firstn (length (runes prefix)) (runes n)), (skipn (length (runes prefix)) (runes n)). split; [by rewrite firstn_skipn|].
    rewrite <- firstn_map, Hr. rewrite <- (map_length lower_rune (runes prefix)) at 1. by rewrite firstn_app, Nat.sub_diag, firstn_O, app_nil_r, firstn_all.
  - intros (start & rest & -> & Hs). exists (map lower_rune rest). by rewrite map_app, Hs.
Qed.

(** ** Imported fields (C10) *)
(** A field of the Import() struct counts if its name begins with a capital letter; beyond ASCII, a byte counts as
    capital if it is the code of a Latin-1 capital letter. *)
Definition latin_capital (c : ascii) : Prop := (192 <= N_of_ascii c <= 214 \/ 216 <= N_of_ascii c <= 222)%N.
Theorem C10_dependency_field_means f :
  dep_field f = true <-> exists c rest, sf_name f = String c rest /\ sf_tag f <> "-" /\ ((exists i, String.get i capital = Some c) \/ latin_capital c).
Proof.
  assert (Hc : forall c, is_upper_byte c = true <-> (exists i, String.get i capital = Some c) \/ latin_capital c).
  { intros c. unfold latin_capital.
    assert (H : forallb (fun c => Bool.eqb (is_upper_byte c) (existsb (fun i => bool_decide (String.get i capital = Some c)) (seq 0 26) ||
       ((192 <=? N_of_ascii c) && (N_of_ascii c <=? 214) || (216 <=? N_of_ascii c) && (N_of_ascii c <=? 222)))%N) all_bytes = true) by (vm_compute; reflexivity).
    rewrite forallb_forall in H. specialize (H c (proj1 (elem_of_list_In _ _) (all_bytes_in c))). apply Bool.eqb_prop in H.
    rewrite H, !orb_true_iff, !andb_true_iff, !N.leb_le, existsb_exists. apply or_iff_compat_r. split.
    - intros (i & _ & Hi). exists i. by apply bool_decide_eq_true in Hi.
    - intros [i Hi]. exists i. split; [apply in_seq; apply capital_length in Hi; lia|by apply bool_decide_eq_true]. }
  unfold dep_field. destruct (sf_name f) as [|c rest].
  - split; [done|]. by intros (c & rest & ? & _).
  - rewrite andb_true_iff, negb_true_iff, Hc. split.
    + intros [H1 H2]. exists c, rest. split_and!; [done|by apply String.eqb_neq|done].
    + intros (c' & rest' & [= <- <-] & H1 & H2). split; [done|by apply String.eqb_neq].
Qed.
(** nil: no value at all, or a nil channel, function, map, pointer, interface or slice. *)
Theorem C10_nil_means (v : iface) :
  is_nil v = true <-> v = None \/ exists g, v = Some g /\ gv_nil g = true /\ kind_of (gv_type g) ∈ [KChan; KFunc; KMap; KPtr; KUnsafePointer; KInterface; KSlice].
Proof.
  destruct v as [g|]; cbn [is_nil]; [|split; [by left|done]]. split.
  - intros H. right. exists g. split; [done|]. destruct (kind_of (gv_type g)); try done; (split; [done|]); apply elem_of_list_In; simpl; tauto.
  - intros [?|(g' & [= <-] & H & Hin)]; [done|]. apply elem_of_list_In in Hin. simpl in Hin. destruct (kind_of (gv_type g)); try done; intuition discriminate.
Qed.

(** ** Paths (C26, C36, C38, C60) *)
(** The absolute path with the given components. *)
Definition path_of (cs : list string) : string := match cs with [] => "/" | _ => fold_right (fun c s => "/" +:+ c +:+ s) "" cs end.
Lemma path_of_render cs : path_of cs = render cs.
Proof.
  destruct cs as [|c cs]; [done|]. unfold path_of, render. cbn [fold_right]. f_equal.
  revert c. induction cs as [|d cs IH]; intros c; [clear; cbn [fold_right join_with]; induction c as [|x c IH]; [done|]; exact (f_equal (String x) IH)|]. cbn [fold_right]. rewrite (join_cons c d cs).
  f_equal. change (String slash (join_with "/" (d :: cs))) with ("/" +:+ join_with "/" (d :: cs)). by rewrite <- IH.
Qed.
Theorem C38_paths_mean dir n : Forall normal dir -> normal n ->
  path_join (path_of dir) n = path_of (dir ++ [n]) /\ path_dir (path_of (dir ++ [n])) = path_of dir /\ path_base (path_of (dir ++ [n])) = n.
Proof.
  intros Hd Hn. rewrite !path_of_render.
  assert (Hj : path_join (render dir) n = render (dir ++ [n])).
  { destruct (render_snoc dir n) as (d & -> & [[-> ->]|[Hne ->]]); [done|]. unfold path_join.
    destruct (String.eqb_spec (render dir) "/") as [He|_]; [|done]. exfalso. destruct dir as [|c l]; [done|].
    apply Forall_cons in Hd as [Hc _]. destruct (first_byte c l Hc) as (x & s & Hx & _). unfold render in He. by rewrite Hx in He. }
  split_and!; [done| |by apply base_render]. rewrite <- Hj, path_dir_join by apply Hn. done.
Qed.
(** The plugin of a file: its base name without the extension. *)
Theorem C60_plugin_name_means dir n : Forall normal dir -> normal (n +:+ ".so") -> pluginName (path_of (dir ++ [n +:+ ".so"])) = n.
Proof.
  intros Hd Hn. unfold pluginName. rewrite path_of_render, base_render by done. apply suffix_app.
Qed.

(** ** Concrete cases *)
(* "Kelvin" written with the Kelvin sign (U+212A) is "kelvin"; the Greek capital delta is a capital; a lone byte 0xFF is not UTF-8. *)
Definition kelvin : string := of_runes [8490%N] +:+ "elvin".
Example C35_letters_case : same_letters "Live_Abc-9" "live_aBC-9" /\ ~ same_letters "live_abc" "live-abc" /\ ~ has_capital "live_" /\ has_capital "liVe" /\
  same_letters kelvin "KELVIN" /\ has_capital (of_runes [916%N]) /\ utf8 kelvin /\ String.length kelvin = 8%nat /\ ~ plain kelvin /\ plain "liVe" /\
  ~ utf8 (String "255" "") /\ runes (String "255" "x") = [65533; 120]%N.
Proof.
  split_and!.
  - apply C35_same_name_means. reflexivity.
  - rewrite <- C35_same_name_means. unfold same_name. vm_compute. discriminate.
  - assert (H : to_lower "live_" = "live_") by reflexivity. by apply C28_lower_case_means in H as [_ H].
  - exists 86%N. split; [vm_compute; right; right; left|]. left. by exists 21%nat, "V"%char.
  - apply C35_same_name_means. reflexivity.
  - exists 916%N. split; [vm_compute; left|]. right. split; [lia|]. vm_compute. discriminate.
  - apply utf8_spec. reflexivity.
  - reflexivity.
  - intros H. specialize (H O "226"%char eq_refl). vm_compute in H. discriminate.
  - intros i c. do 4 (destruct i as [|i]; [intros [= <-]; vm_compute; reflexivity|]). by destruct i.
  - rewrite utf8_spec. vm_compute. discriminate.
  - reflexivity.
Qed.

Example C38_paths_case : Forall normal ["srv"; "plugins"] /\ normal "Arena.so" /\ path_of ["srv"; "plugins"; "Arena.so"] = "/srv/plugins/Arena.so" /\
  pluginName "/srv/plugins/Arena.so" = "Arena".
Proof.
  assert (Hn : forall s, s <> "" -> s <> "." -> s <> ".." -> existsb (Ascii.eqb slash) (list_ascii_of_string s) = false -> normal s).
  { intros s H1 H2 H3 H4. split_and!; try done. unfold no_slash. intros Hin. assert (existsb (Ascii.eqb slash) (list_ascii_of_string s) = true); [|congruence].
    apply existsb_exists. exists slash. split; [done|reflexivity]. }
  split_and!; [repeat constructor; apply Hn; try discriminate; reflexivity|apply Hn; try discriminate; reflexivity|reflexivity|vm_compute; reflexivity].
Qed.

Print Assumptions C35_reading_means.
Print Assumptions C35_same_name_means.
Print Assumptions C35_same_ascii_name_means.
Print Assumptions C35_case_insensitive_letters.
Print Assumptions C28_lower_case_means.
Print Assumptions C46_prefix_means.
Print Assumptions C10_dependency_field_means.
Print Assumptions C10_nil_means.
Print Assumptions C38_paths_mean.
Print Assumptions C60_plugin_name_means.
