(** C48: rewriting of import paths and package clauses. *)
From Verif Require Export PropCollect.
Local Open Scope nat_scope.

(** ** Specification *)
Definition dq : ascii := "034"%char.
Definition bq : ascii := "`"%char.
Definition unquoted (s : string) : Prop := forall c, In c (list_ascii_of_string s) -> c <> dq /\ c <> bq.
(** A text cut at its quote characters (double quotes and back quotes): what precedes the first one, then every quote character with the piece after it *)
Fixpoint text (t0 : string) (l : list (ascii * string)) : string := match l with [] => t0 | (q, t) :: l => t0 +:+ String q (text t l) end.
Definition next (l : list (ascii * string)) : option ascii := match l with [] => None | (q, _) :: _ => Some q end.
(** The piece [t] between the quote [q] and the next quote names the package or one below it: it is the path, closed by the same quote, or starts with the path and a slash. *)
Definition names (pkg : string) (q : ascii) (t : string) (nx : option ascii) : Prop := (t = pkg /\ nx = Some q) \/ exists r, t = pkg +:+ "/" +:+ r.
(** [rewritten pkg tmp l l']: in [l'] the path is replaced by [tmp] in the pieces of [l] that name the package or one below it, and nothing else changed *)
Inductive rewritten (pkg tmp : string) : list (ascii * string) -> list (ascii * string) -> Prop :=
| rw_nil : rewritten pkg tmp [] []
| rw_named q x l l' : names pkg q (pkg +:+ x) (next l) -> rewritten pkg tmp l l' -> rewritten pkg tmp ((q, pkg +:+ x) :: l) ((q, tmp +:+ x) :: l')
| rw_other q t l l' : ~ names pkg q t (next l) -> rewritten pkg tmp l l' -> rewritten pkg tmp ((q, t) :: l) ((q, t) :: l').
(** the path twice between three equal quotes, without anything else - not found in Go code outside of comments *)
Definition overlapping (pkg : string) (l : list (ascii * string)) : Prop := exists l1 q l2, l = l1 ++ (q, pkg) :: (q, pkg) :: l2 /\ next l2 = Some q.
Definition good_text (t0 : string) (l : list (ascii * string)) : Prop :=
  unquoted t0 /\ forall q t, (q, t) ∈ l -> (q = dq \/ q = bq) /\ unquoted t.

(** ** Proofs *)
Lemma unquoted_app a b : unquoted (a +:+ b) <-> unquoted a /\ unquoted b.
Proof.
  unfold unquoted. rewrite las_app. setoid_rewrite in_app_iff. split; [intros H; split; intros c Hc; apply H; tauto|]. intros [H1 H2] c [?|?]; auto.
Qed.
Lemma unquoted_cons c s : unquoted (String c s) -> c <> dq /\ c <> bq /\ unquoted s.
Proof. intros H. destruct (H c) as [? ?]; [by left|]. repeat split; try done; apply H; by right. Qed.

Lemma replace_plain old new q o x : forall s, old = String q o -> ~ In q (list_ascii_of_string x) -> replaceFrom 0 old new (x +:+ s) = x +:+ replaceFrom 0 old new s.
Proof.
  induction x as [|c x IH]; intros s -> Hq; [done|]. change (String c x +:+ s) with (String c (x +:+ s)). cbn [replaceFrom].
  destruct (has_prefix (String q o) (String c (x +:+ s))) eqn:E.
  - exfalso. apply has_prefix_app in E as [r E]. injection E as -> _. apply Hq. by left.
  - rewrite IH; [done|done|]. intros ?. apply Hq. by right.
Qed.
Lemma replace_skip old new x s : replaceFrom (String.length x) old new (x +:+ s) = replaceFrom 0 old new s.
Proof. induction x as [|c x IH]; [done|]. apply IH. Qed.
Lemma text_head t0 l : text t0 l = t0 +:+ text "" l.
Proof. destruct l as [|[q t] l]; cbn [text]; [|done]. apply las_inj. by rewrite las_app, app_nil_r. Qed.
(** a quote-free prefix of a piece followed by more text lies in the piece *)
Lemma prefix_in_piece p t l : unquoted p -> (forall q t', (q, t') ∈ l -> q = dq \/ q = bq) -> has_prefix p (text t l) = has_prefix p t.
Proof.
  intros Hp Hl. apply eq_bool_prop_intro. rewrite !Is_true_true, !has_prefix_app. rewrite text_head. split.
  - intros [r E]. apply (f_equal list_ascii_of_string) in E. rewrite !las_app in E. apply app_eq_inv in E as [(k & E1 & E2)|(k & E1 & E2)].
    + exists (string_of_list_ascii k). apply las_inj. by rewrite las_app, list_ascii_of_string_of_list_ascii.
    + destruct k as [|c k].
      * exists "". apply las_inj. rewrite las_app. cbn [list_ascii_of_string]. rewrite app_nil_r. by rewrite app_nil_r in E1.
      * exfalso. destruct l as [|[q t'] l]; [done|]. cbn [text] in E2. change ("" +:+ String q (text t' l)) with (String q (text t' l)) in E2.
        injection E2 as -> _. assert (Hc : In c (list_ascii_of_string p)) by (rewrite E1; apply in_or_app; right; by left).
        apply Hp in Hc as [? ?]. destruct (Hl c t') as [->| ->]; [by left|done..].
  - intros [r ->]. exists (r +:+ text "" l). by rewrite str_app_assoc.
Qed.

Lemma quote_out q t : unquoted t -> q = dq \/ q = bq -> ~ In q (list_ascii_of_string t).
Proof. intros Ht Hq Hin. apply Ht in Hin as [? ?]. by destruct Hq. Qed.

(** one pass for sub-packages *)
Definition subPass (q : ascii) (pkg tmp : string) (l : list (ascii * string)) : list (ascii * string) :=
  map (fun e => if Ascii.eqb (fst e) q && has_prefix (pkg +:+ "/") (snd e)
                then (fst e, tmp +:+ "/" +:+ skip_bytes (String.length (pkg +:+ "/")) (snd e)) else e) l.
Lemma skip_app a b : skip_bytes (String.length a) (a +:+ b) = b.
Proof. apply sub_tail. Qed.
Lemma replace_sub q pkg tmp t0 l : q = dq \/ q = bq -> unquoted pkg -> good_text t0 l ->
  ReplaceAll (text t0 l) (String q (pkg +:+ "/")) (String q (tmp +:+ "/")) = text t0 (subPass q pkg tmp l).
Proof.
  intros Hq Hpkg. unfold ReplaceAll. revert t0. induction l as [|[q' t] l IH]; intros t0 [Ht0 Hl].
  - cbn [text subPass map]. assert (E := replace_plain (String q (pkg +:+ "/")) (String q (tmp +:+ "/")) q (pkg +:+ "/") t0 "" eq_refl (quote_out q t0 Ht0 Hq)).
    cbn [replaceFrom] in E. assert (E1 : t0 +:+ "" = t0) by (apply las_inj; by rewrite las_app, app_nil_r). by rewrite E1 in E.
  - destruct (Hl q' t) as [Hq' Ht]; [by left|]. assert (Hg : good_text t l) by (split; [done|]; intros ? ? ?; apply Hl; by right).
    cbn [text]. rewrite (replace_plain _ _ q (pkg +:+ "/")) by (done || by apply quote_out).
    assert (Hp : has_prefix (String q (pkg +:+ "/")) (String q' (text t l)) = Ascii.eqb q' q && has_prefix (pkg +:+ "/") t).
    { unfold has_prefix at 1. cbn [String.prefix]. fold (has_prefix (pkg +:+ "/") (text t l)).
      rewrite prefix_in_piece.
      - destruct (ascii_dec q q') as [->|Hne]; [by rewrite Ascii.eqb_refl|]. by rewrite (proj2 (Ascii.eqb_neq q' q)) by congruence.
      - apply unquoted_app. split; [done|]. intros c Hc. destruct Hc as [<-|[]]. done.
      - intros q0 t' Hin. destruct (Hl q0 t'); [by right|done]. }
    cbn [replaceFrom subPass map fst snd]. rewrite Hp. fold (subPass q pkg tmp l). destruct (Ascii.eqb q' q && has_prefix (pkg +:+ "/") t) eqn:E.
    + apply andb_true_iff in E as [E1 E2]. apply Ascii.eqb_eq in E1. subst q'. apply has_prefix_app in E2 as [r ->]. rewrite skip_app.
      rewrite text_head. replace (String.length (String q (pkg +:+ "/")) - 1) with (String.length (pkg +:+ "/")) by (cbn [String.length]; lia).
      rewrite <- str_app_assoc, replace_skip. rewrite <- text_head. cbn [text]. rewrite IH.
      * rewrite (text_head (tmp +:+ "/" +:+ r)), (text_head r). f_equal. change (String q (tmp +:+ "/") +:+ ?x) with (String q ((tmp +:+ "/") +:+ x)). f_equal. by rewrite !str_app_assoc.
      * split; [|apply Hg]. apply unquoted_app in Ht as [_ Ht]. done.
    + cbn [text]. by rewrite IH.
Qed.

(** one pass for the path itself *)
Definition closes (q : ascii) (l : list (ascii * string)) : bool := match l with (q', _) :: _ => Ascii.eqb q' q | [] => false end.
Fixpoint exactPass (q : ascii) (pkg tmp : string) (l : list (ascii * string)) : list (ascii * string) :=
  match l with
  | [] => []
  | (q', t) :: l => (q', if Ascii.eqb q' q && String.eqb t pkg && closes q l then tmp else t) :: exactPass q pkg tmp l
  end.
Lemma closes_next q l : closes q l = true <-> next l = Some q.
Proof. destruct l as [|[q' t] l]; cbn [closes next]; [done|]. rewrite Ascii.eqb_eq. split; congruence. Qed.
Lemma prefix_closed q pkg t l : unquoted pkg -> unquoted t -> q = dq \/ q = bq -> (forall q' t', (q', t') ∈ l -> q' = dq \/ q' = bq) ->
  has_prefix (pkg +:+ String q "") (text t l) = String.eqb t pkg && closes q l.
Proof.
  intros Hp Ht Hq Hl. apply eq_bool_prop_intro. rewrite !Is_true_true, has_prefix_app, andb_true_iff, String.eqb_eq. split.
  - intros [r E]. rewrite <- str_app_assoc in E. change (String q "" +:+ r) with (String q r) in E.
    destruct l as [|[q' t'] l].
    + exfalso. cbn [text] in E. subst t. apply unquoted_app in Ht as [_ Ht]. apply unquoted_cons in Ht as (? & ? & _). by destruct Hq.
    + cbn [text] in E. apply (f_equal list_ascii_of_string) in E. rewrite !las_app in E. cbn [list_ascii_of_string] in E.
      assert (Hq' : q' = dq \/ q' = bq) by (apply (Hl q' t'); by left).
      assert (H : list_ascii_of_string t = list_ascii_of_string pkg /\ q' = q).
      { apply app_eq_inv in E as [(k & E1 & E2)|(k & E1 & E2)]; (destruct k as [|c k]; [rewrite app_nil_r in E1; injection E2; intros; split; congruence|]); exfalso; injection E2 as <- _.
        - assert (Hc : In q (list_ascii_of_string t)) by (rewrite E1; apply in_or_app; right; by left). by apply (quote_out q t) in Hc.
        - assert (Hc : In q' (list_ascii_of_string pkg)) by (rewrite E1; apply in_or_app; right; by left). by apply (quote_out q' pkg) in Hc. }
      destruct H as [H ->]. apply las_inj in H. split; [done|]. cbn [closes]. apply Ascii.eqb_refl.
  - intros [-> Hc]. destruct l as [|[q' t'] l]; [done|]. cbn [closes] in Hc. apply Ascii.eqb_eq in Hc as ->. cbn [text]. exists (text t' l). by rewrite <- str_app_assoc.
Qed.
Definition overlapping_at (q : ascii) (pkg : string) (l : list (ascii * string)) : Prop := exists l1 l2, l = l1 ++ (q, pkg) :: (q, pkg) :: l2 /\ next l2 = Some q.
Lemma replace_exact q pkg tmp : q = dq \/ q = bq -> unquoted pkg -> forall n l t0, length l < n -> good_text t0 l -> ~ overlapping_at q pkg l ->
  ReplaceAll (text t0 l) (String q (pkg +:+ String q "")) (String q (tmp +:+ String q "")) = text t0 (exactPass q pkg tmp l).
Proof.
  intros Hq Hpkg. unfold ReplaceAll. induction n as [|n IH]; [lia|]. intros l t0 Hn [Ht0 Hl] Hov. destruct l as [|[q' t] l].
  - cbn [text exactPass]. assert (E := replace_plain (String q (pkg +:+ String q "")) (String q (tmp +:+ String q "")) q (pkg +:+ String q "") t0 "" eq_refl (quote_out q t0 Ht0 Hq)).
    cbn [replaceFrom] in E. assert (E1 : t0 +:+ "" = t0) by (apply las_inj; by rewrite las_app, app_nil_r). by rewrite E1 in E.
  - destruct (Hl q' t) as [Hq' Ht]; [by left|]. assert (Hg : good_text t l) by (split; [done|]; intros ? ? ?; apply Hl; by right).
    assert (Hov' : ~ overlapping_at q pkg l). { intros (l1 & l2 & -> & H). apply Hov. by exists ((q', t) :: l1), l2. }
    cbn [text]. rewrite (replace_plain _ _ q (pkg +:+ String q "")) by (done || by apply quote_out).
    assert (Hp : has_prefix (String q (pkg +:+ String q "")) (String q' (text t l)) = Ascii.eqb q' q && String.eqb t pkg && closes q l).
    { unfold has_prefix at 1. cbn [String.prefix]. fold (has_prefix (pkg +:+ String q "") (text t l)).
      rewrite prefix_closed; [|done..|].
      - destruct (ascii_dec q q') as [->|Hne]; [by rewrite Ascii.eqb_refl|]. by rewrite (proj2 (Ascii.eqb_neq q' q)) by congruence.
      - intros q0 t' Hin. destruct (Hl q0 t'); [by right|done]. }
    cbn [replaceFrom exactPass]. rewrite Hp. destruct (Ascii.eqb q' q && String.eqb t pkg && closes q l) eqn:E.
    + apply andb_true_iff in E as [E E3]. apply andb_true_iff in E as [E1 E2]. apply Ascii.eqb_eq in E1. apply String.eqb_eq in E2. subst q' t.
      destruct l as [|[q' t] l]; [done|]. cbn [closes] in E3. apply Ascii.eqb_eq in E3. subst q'. cbn [text exactPass].
      replace (String.length (String q (pkg +:+ String q "")) - 1) with (String.length (pkg +:+ String q "")) by (cbn [String.length]; lia).
      replace (pkg +:+ String q (text t l)) with ((pkg +:+ String q "") +:+ text t l) by (by rewrite <- str_app_assoc). rewrite replace_skip, IH.
      * assert (E : Ascii.eqb q q && String.eqb t pkg && closes q l = false).
        { destruct (Ascii.eqb q q && String.eqb t pkg && closes q l) eqn:E; [|done]. exfalso. apply andb_true_iff in E as [E E3]. apply andb_true_iff in E as [_ E2].
          apply String.eqb_eq in E2. subst t. apply Hov. exists [], l. split; [done|]. by apply closes_next. }
        rewrite E. f_equal. change (String q (tmp +:+ String q "") +:+ ?x) with (String q ((tmp +:+ String q "") +:+ x)). f_equal. rewrite <- str_app_assoc. done.
      * cbn [length] in Hn. lia.
      * destruct Hg as [_ Hg]. split; [by apply (Hg q); left|]. intros ? ? ?. apply Hg. by right.
      * intros (l1 & l2 & -> & H). apply Hov'. by exists ((q, t) :: l1), l2.
    + cbn [text]. rewrite IH; [done| |done|done]. cbn [length] in Hn. lia.
Qed.

(** ** The four passes together *)
Lemma sub_quotes q pkg tmp l : map fst (subPass q pkg tmp l) = map fst l.
Proof. unfold subPass. induction l as [|[q' t] l IH]; [done|]. cbn [map fst snd]. rewrite IH. by destruct (Ascii.eqb q' q && has_prefix (pkg +:+ "/") t). Qed.
Lemma exact_quotes q pkg tmp l : map fst (exactPass q pkg tmp l) = map fst l.
Proof. induction l as [|[q' t] l IH]; [done|]. cbn [exactPass map fst snd]. by rewrite IH. Qed.
Lemma next_quotes l l' : map fst l = map fst l' -> next l = next l'.
Proof. destruct l as [|[q t] l], l' as [|[q' t'] l']; cbn; congruence. Qed.
Lemma skip_unquoted n t : unquoted t -> unquoted (skip_bytes n t).
Proof. intros H c Hc. apply H. unfold skip_bytes in Hc. by apply substring_sub in Hc. Qed.
Lemma sub_good q pkg tmp t0 l : unquoted tmp -> good_text t0 l -> good_text t0 (subPass q pkg tmp l).
Proof.
  intros Htmp [H0 Hl]. split; [done|]. intros q' t' Hin. apply elem_of_list_fmap in Hin as ([q1 t1] & E & Hin). apply Hl in Hin as [H1 H2]. cbn [fst snd] in E.
  destruct (Ascii.eqb q1 q && has_prefix (pkg +:+ "/") t1); injection E as -> ->; [|done]. split; [done|].
  apply unquoted_app. split; [done|]. apply unquoted_app. split; [intros c [<-|[]]; done|]. by apply skip_unquoted.
Qed.
Lemma exact_good q pkg tmp t0 l : unquoted tmp -> good_text t0 l -> good_text t0 (exactPass q pkg tmp l).
Proof.
  intros Htmp [H0 Hl]. split; [done|]. clear H0. induction l as [|[q1 t1] l IH]; [by intros ? ? ?%elem_of_nil|].
  cbn [exactPass]. intros q' t' [E|Hin]%elem_of_cons; [|apply IH; [|done]; intros; apply Hl; by right].
  destruct (Hl q1 t1) as [H1 H2]; [by left|]. injection E as -> ->. split; [done|]. by destruct (_ && closes q l).
Qed.
(** a pass for one quote leaves the overlaps of the other as they are *)
Definition same_for (q : ascii) (a b : ascii * string) : Prop := fst a = fst b /\ (fst a = q -> a = b).
Lemma sub_same q q' pkg tmp l : q <> q' -> Forall2 (same_for q') (subPass q pkg tmp l) l.
Proof.
  intros Hne. induction l as [|[q1 t1] l IH]; constructor; [|done]. cbn [fst snd]. destruct (Ascii.eqb_spec q1 q) as [->|_]; cbn [andb]; [|done].
  destruct (has_prefix (pkg +:+ "/") t1); [|done]. split; [done|]. cbn. congruence.
Qed.
Lemma exact_same q q' pkg tmp l : q <> q' -> Forall2 (same_for q') (exactPass q pkg tmp l) l.
Proof.
  intros Hne. induction l as [|[q1 t1] l IH]; cbn [exactPass]; constructor; [|done]. destruct (Ascii.eqb_spec q1 q) as [->|_]; cbn [andb]; [|done].
  split; [done|]. cbn. congruence.
Qed.
Lemma overlap_same q pkg l l' : Forall2 (same_for q) l l' -> overlapping_at q pkg l -> overlapping_at q pkg l'.
Proof.
  intros H (l1 & l2 & -> & Hn). apply Forall2_app_inv_l in H as (k1 & k & H1 & H2 & ->).
  apply Forall2_cons_inv_l in H2 as ([qa ta] & k' & [_ Ha] & H2 & ->). apply Forall2_cons_inv_l in H2 as ([qb tb] & k2 & [_ Hb] & H2 & ->).
  rewrite <- (Ha eq_refl), <- (Hb eq_refl). exists k1, k2. split; [done|]. rewrite <- Hn. symmetry. apply next_quotes. clear - H2. induction H2 as [|a b l l' [H _] H2 IH]; [done|].
  cbn [map]. by rewrite H, IH.
Qed.
Definition fourPasses (pkg tmp : string) (l : list (ascii * string)) : list (ascii * string) :=
  subPass bq pkg tmp (exactPass bq pkg tmp (subPass dq pkg tmp (exactPass dq pkg tmp l))).
Definition subPiece (q : ascii) (pkg tmp : string) (q' : ascii) (t : string) : string :=
  if Ascii.eqb q' q && has_prefix (pkg +:+ "/") t then tmp +:+ "/" +:+ skip_bytes (String.length (pkg +:+ "/")) t else t.
Lemma sub_cons q pkg tmp q' t l : subPass q pkg tmp ((q', t) :: l) = (q', subPiece q pkg tmp q' t) :: subPass q pkg tmp l.
Proof. unfold subPass, subPiece. cbn [map fst snd]. by destruct (Ascii.eqb q' q && has_prefix (pkg +:+ "/") t). Qed.
Lemma closes_quotes q l l' : map fst l = map fst l' -> closes q l = closes q l'.
Proof. destruct l as [|[a t] l], l' as [|[b t'] l']; cbn; congruence. Qed.
Lemma four_cons pkg tmp q t l : fourPasses pkg tmp ((q, t) :: l) =
  (let t1 := if Ascii.eqb q dq && String.eqb t pkg && closes dq l then tmp else t in
   let t2 := subPiece dq pkg tmp q t1 in
   let t3 := if Ascii.eqb q bq && String.eqb t2 pkg && closes bq l then tmp else t2 in
   (q, subPiece bq pkg tmp q t3)) :: fourPasses pkg tmp l.
Proof.
  unfold fourPasses. cbn [exactPass]. rewrite sub_cons. cbn [exactPass]. rewrite sub_cons.
  by rewrite (closes_quotes bq (subPass dq pkg tmp (exactPass dq pkg tmp l)) l) by (by rewrite sub_quotes, exact_quotes).
Qed.
Lemma named_dec pkg q t l : Ascii.eqb q q && String.eqb t pkg && closes q l || has_prefix (pkg +:+ "/") t = true <-> names pkg q t (next l).
Proof.
  unfold names. rewrite Ascii.eqb_refl. cbn [andb]. rewrite orb_true_iff, andb_true_iff, String.eqb_eq, closes_next, has_prefix_app.
  split; (intros [?|[r E]]; [by left|right; exists r]); rewrite E; by rewrite str_app_assoc.
Qed.
(** what the two passes for the quote of the piece make of it *)
Lemma two_passes pkg tmp q t l : has_prefix (pkg +:+ "/") tmp = false ->
  (exists x, t = pkg +:+ x /\ names pkg q t (next l) /\ subPiece q pkg tmp q (if Ascii.eqb q q && String.eqb t pkg && closes q l then tmp else t) = tmp +:+ x) \/
  (~ names pkg q t (next l) /\ subPiece q pkg tmp q (if Ascii.eqb q q && String.eqb t pkg && closes q l then tmp else t) = t).
Proof.
  intros Ht. assert (Hd := named_dec pkg q t l). unfold subPiece. rewrite Ascii.eqb_refl in *. cbn [andb] in *.
  destruct (String.eqb t pkg && closes q l) eqn:E.
  - left. apply andb_true_iff in E as [E1 E2]. apply String.eqb_eq in E1. subst t. exists "". rewrite Ht.
    split; [apply las_inj; by rewrite las_app, app_nil_r|]. split; [by apply Hd|]. apply las_inj. by rewrite las_app, app_nil_r.
  - cbn [orb] in Hd. destruct (has_prefix (pkg +:+ "/") t) eqn:E1.
    + left. apply has_prefix_app in E1 as [r E1]. exists ("/" +:+ r). split; [by rewrite E1, str_app_assoc|]. split; [by apply Hd|]. by rewrite E1, skip_app.
    + right. split; [|done]. intros Hn. apply Hd in Hn. done.
Qed.
Lemma sub_miss q q' pkg tmp t : q <> q' -> subPiece q pkg tmp q' t = t.
Proof. intros H. unfold subPiece. by rewrite (proj2 (Ascii.eqb_neq q' q)) by congruence. Qed.
Lemma four_rewritten pkg tmp t0 l : has_prefix (pkg +:+ "/") tmp = false -> good_text t0 l -> rewritten pkg tmp l (fourPasses pkg tmp l).
Proof.
  intros Ht [_ Hl]. induction l as [|[q t] l IH]; [constructor|]. rewrite four_cons. cbv zeta.
  assert (IH' : rewritten pkg tmp l (fourPasses pkg tmp l)) by (apply IH; intros; apply Hl; by right). clear IH.
  destruct (Hl q t) as [Hq _]; [by left|].
  destruct Hq as [-> | ->].
  - change (Ascii.eqb dq bq) with false. cbn [andb]. rewrite (sub_miss bq dq) by done.
    destruct (two_passes pkg tmp dq t l Ht) as [(x & -> & Hn & E)|(Hn & E)]; rewrite E; by constructor.
  - change (Ascii.eqb bq dq) with false. cbn [andb]. rewrite (sub_miss dq bq) by done.
    destruct (two_passes pkg tmp bq t l Ht) as [(x & -> & Hn & E)|(Hn & E)]; rewrite E; by constructor.
Qed.
Lemma replace_all_four pkg tmp t0 l : unquoted pkg -> unquoted tmp -> good_text t0 l -> ~ overlapping pkg l ->
  replaceImports pkg tmp (text t0 l) = text t0 (fourPasses pkg tmp l).
Proof.
  intros Hp Htmp Hg Hov. unfold replaceImports.
  assert (Hd : ~ overlapping_at dq pkg l) by (intros (l1 & l2 & -> & H); apply Hov; by exists l1, dq, l2).
  assert (Hb : ~ overlapping_at bq pkg l) by (intros (l1 & l2 & -> & H); apply Hov; by exists l1, bq, l2).
  change (quote +:+ pkg +:+ quote) with (String dq (pkg +:+ String dq "")). change (quote +:+ tmp +:+ quote) with (String dq (tmp +:+ String dq "")).
  change (quote +:+ pkg +:+ "/") with (String dq (pkg +:+ "/")). change (quote +:+ tmp +:+ "/") with (String dq (tmp +:+ "/")).
  change (backquote +:+ pkg +:+ backquote) with (String bq (pkg +:+ String bq "")). change (backquote +:+ tmp +:+ backquote) with (String bq (tmp +:+ String bq "")).
  change (backquote +:+ pkg +:+ "/") with (String bq (pkg +:+ "/")). change (backquote +:+ tmp +:+ "/") with (String bq (tmp +:+ "/")).
  rewrite (replace_exact dq pkg tmp (or_introl eq_refl) Hp (S (length l))) by (done || lia).
  rewrite (replace_sub dq pkg tmp); [|by left|done|by apply exact_good].
  rewrite (replace_exact bq pkg tmp (or_intror eq_refl) Hp (S (length (subPass dq pkg tmp (exactPass dq pkg tmp l))))); [|lia| |].
  - rewrite (replace_sub bq pkg tmp); [done|by right|done|]. by repeat (apply exact_good || apply sub_good).
  - by apply sub_good, exact_good.
  - intros H. apply Hb. eapply overlap_same; [apply (exact_same dq bq pkg tmp); done|]. eapply overlap_same; [apply (sub_same dq bq pkg tmp); done|]. exact H.
Qed.

(** ** C48 *)
(** Every text can be cut at its quotes, in one way only. *)
Theorem C48_every_text s : exists t0 l, s = text t0 l /\ good_text t0 l.
Proof.
  induction s as [|c s (t0 & l & -> & H0 & Hl)].
  - exists "", []. split; [done|]. split; [by intros ? []|]. by intros ? ? ?%elem_of_nil.
  - destruct (decide (c = dq \/ c = bq)) as [Hc|Hc].
    + exists "", ((c, t0) :: l). split; [done|]. split; [by intros ? []|]. intros q t [[= -> ->]|Hin]%elem_of_cons; [done|]. by apply Hl.
    + exists (String c t0), l. split; [by rewrite (text_head t0), (text_head (String c t0))|]. split; [|done].
      intros x [<-|Hx]; [split; intros ->; apply Hc; auto|by apply H0].
Qed.
(** The four replacements rewrite exactly the quoted paths that name the package or one below it. *)
Theorem C48_imports pkg tmp t0 l : unquoted pkg -> unquoted tmp -> ~ (exists r, tmp = pkg +:+ "/" +:+ r) -> good_text t0 l -> ~ overlapping pkg l ->
  exists l', rewritten pkg tmp l l' /\ replaceImports pkg tmp (text t0 l) = text t0 l'.
Proof.
  intros H1 H2 H3 H4 H5. exists (fourPasses pkg tmp l). split; [|by apply replace_all_four]. apply (four_rewritten pkg tmp t0); [|done].
  destruct (has_prefix (pkg +:+ "/") tmp) eqn:E; [|done]. exfalso. apply H3. apply has_prefix_app in E as [r ->]. exists r. by rewrite str_app_assoc.
Qed.

(** The path of the temporary package is a sibling of the package path, so the condition on it is met in every dynamic build. *)
Lemma dir_relative ds x : Forall normal (ds ++ [x]) -> GoDir (join_with "/" (ds ++ [x])) = match ds with [] => "." | _ => join_with "/" ds end.
Proof.
  intros H. assert (Hx : normal x). { apply Forall_app in H as [_ H]. by rewrite Forall_singleton in H. } destruct Hx as (H1 & H2 & H3 & H4).
  unfold GoDir. rewrite split_join; [|by apply normal_no_slash|by destruct ds]. rewrite rev_app_distr. cbn [rev app].
  destruct ds as [|d ds]; [done|].
  assert (Hr : rev (d :: ds) <> []) by (intros E; apply (f_equal (@rev _)) in E; by rewrite rev_involutive in E).
  destruct (rev (d :: ds)) as [|y l] eqn:E; [done|]. rewrite <- E, rev_involutive.
  assert (Hds : Forall normal (d :: ds)) by (by apply Forall_app in H as [? _]).
  change (join_with "/" (d :: ds) +:+ "/") with (join_with "/" (d :: ds) +:+ String slash "").
  unfold Clean. assert (Hr0 : rooted (join_with "/" (d :: ds) +:+ String slash "") = false).
  { destruct (first_byte d ds) as (c & s & Es & Hc); [by apply Forall_cons in Hds as [? _]|]. rewrite Es. unfold rooted.
    change (has_prefix "/" (String c s +:+ String slash "")) with (if ascii_dec slash c then has_prefix "" (s +:+ String slash "") else false). destruct (ascii_dec slash c); [congruence|done]. }
  rewrite Hr0, split_app, split_join by (done || by apply normal_no_slash). rewrite resolve_pieces.
  - cbn [rev]. rewrite app_nil_l. change (split_slash "") with [""]. rewrite nonempty_app, nonempty_normal by done. cbn [List.filter String.eqb negb]. rewrite app_nil_r.
    destruct (first_byte d ds) as (c & s & Es & Hc); [by apply Forall_cons in Hds as [? _]|]. by rewrite Es.
  - apply Forall_app. split; [by apply normal_piece|]. repeat constructor.
Qed.
Lemma join_sibling ds x : Forall normal ds -> normal x -> GoJoin [match ds with [] => "." | _ => join_with "/" ds end; x] = join_with "/" (ds ++ [x]).
Proof.
  intros Hds Hx. destruct ds as [|d ds].
  - unfold GoJoin. cbn [drop_empty]. change (Clean ("." +:+ String slash x) = x). destruct Hx as (H1 & H2 & H3 & H4).
    unfold Clean. change (rooted ("." +:+ String slash x)) with false. rewrite split_app, (split_simple x H4). change (split_slash ".") with ["."].
    change (resolve false [] (["."] ++ [x])) with (resolve false [] [x]). cbn [resolve]. destruct (String.eqb_spec x ""); [done|]. destruct (String.eqb_spec x "."); [done|]. destruct (String.eqb_spec x ".."); [done|].
    cbn [orb rev app join_with]. destruct (String.eqb_spec x ""); done.
  - apply (GoJoin_relative (d :: ds) [x]); [|done]. apply Forall_app. by rewrite Forall_singleton.
Qed.
Theorem C48_temporary_path fl ps ds x commit now : Forall normal (ds ++ [x]) -> Forall normal ps -> ps <> [] -> no_slash commit -> no_slash now -> fl_static fl = false ->
  unquoted (join_with "/" (ds ++ [x])) -> unquoted (base_of ps) -> unquoted commit -> unquoted now ->
  let tmp := su_tmpPkgPath (makeSetup fl (render ps) (join_with "/" (ds ++ [x])) commit now) in
  tmp = join_with "/" (ds ++ [base_of ps +:+ "-" +:+ commit +:+ "-" +:+ now]) /\
  unquoted tmp /\ ~ (exists r, tmp = join_with "/" (ds ++ [x]) +:+ "/" +:+ r).
Proof.
  intros Hdx Hps Hne Hc Hn Hs Hq Hqb Hqc Hqn. unfold makeSetup. rewrite Hs. cbn [su_tmpPkgPath]. rewrite dir_relative by done.
  destruct (exists_last Hne) as (p0 & b & ->). rewrite base_of_snoc in *.
  assert (Hb : normal b). { apply Forall_app in Hps as [_ H]. by rewrite Forall_singleton in H. } rewrite base_render by done.
  destruct (tmp_name_normal b (commit +:+ "-" +:+ now)) as [Hnm _].
  { by destruct Hb as (?&?&?&?). }
  { unfold no_slash. rewrite !las_app. intros [H|H]%in_app_or; [done|]. destruct H as [H|H]; done. }
  assert (Hds : Forall normal ds) by (by apply Forall_app in Hdx as [? _]). rewrite join_sibling by done.
  assert (Hdash : unquoted "-") by (intros c [<-|[]]; done).
  assert (Hqn' : unquoted (b +:+ "-" +:+ commit +:+ "-" +:+ now)) by (by rewrite !unquoted_app).
  split; [done|]. split.
  - destruct ds as [|d ds]; [done|]. rewrite join_snoc in Hq |- * by done. apply unquoted_app in Hq as [Hq1 Hq2]. apply unquoted_app. split; [done|].
    intros c [<-|Hin]; [done|by apply Hqn'].
  - intros [r E]. apply (f_equal split_slash) in E. change (join_with "/" (ds ++ [x]) +:+ "/" +:+ r) with (join_with "/" (ds ++ [x]) +:+ String slash r) in E.
    rewrite split_app, !split_join in E.
    + apply (f_equal length) in E. rewrite !app_length in E. cbn [length] in E. assert (Hr := split_ne r). destruct (split_slash r); [done|]. cbn [length] in E. lia.
    + by apply normal_no_slash.
    + by destruct ds.
    + apply normal_no_slash. apply Forall_app. by rewrite Forall_singleton.
    + by destruct ds.
Qed.

(** ** The package clause *)
Definition nl : string := String "010"%char "".
(** the word package begins a line of [s]; [first]: the beginning of [s] is the beginning of a line *)
Definition package_line (first : bool) (s : string) : Prop := exists a b, s = a +:+ "package" +:+ b /\ ((a = "" /\ first = true) \/ ends nl a).
Definition all_bytes (f : ascii -> bool) (s : string) : Prop := forall c, In c (list_ascii_of_string s) -> f c = true.

Lemma length_list_ascii s : length (list_ascii_of_string s) = String.length s.
Proof. induction s as [|c s IH]; [done|]. cbn [list_ascii_of_string length String.length]. by rewrite IH. Qed.
Definition lineAfter (bol : bool) (x : string) : bool := match rev (list_ascii_of_string x) with [] => bol | c :: _ => Ascii.eqb c "010"%char end.
Lemma line_after_cons bol c x : lineAfter bol (String c x) = lineAfter (Ascii.eqb c "010"%char) x.
Proof. unfold lineAfter. cbn [list_ascii_of_string rev]. by destruct (rev (list_ascii_of_string x)). Qed.
Lemma clauses_plain x : forall bol s,
  (forall a b, x +:+ s = a +:+ "package" +:+ b -> String.length a < String.length x -> (a = "" /\ bol = true) \/ ends nl a -> False) ->
  replaceClauses bol 0 (x +:+ s) = x +:+ replaceClauses (lineAfter bol x) 0 s.
Proof.
  induction x as [|c x IH]; intros bol s H; [done|]. rewrite line_after_cons. change (String c x +:+ s) with (String c (x +:+ s)). cbn [replaceClauses].
  assert (E : (if bol then clauseLength (String c (x +:+ s)) else None) = None).
  { destruct bol; [|done]. unfold clauseLength. destruct (has_prefix "package" (String c (x +:+ s))) eqn:Hp; [|done]. exfalso.
    apply has_prefix_app in Hp as [r Hr]. apply (H "" r); [done|cbn [String.length]; lia|by left]. }
  rewrite E, IH; [done|]. intros a b Eab Hlen Hst. apply (H (String c a) b).
  - change (String c x +:+ s) with (String c (x +:+ s)). by rewrite Eab.
  - cbn [String.length]. lia.
  - right. destruct Hst as [[-> Hc]|[y ->]].
    + apply Ascii.eqb_eq in Hc as ->. by exists "".
    + by exists (String c y).
Qed.
Lemma clauses_skip y : forall bol s, replaceClauses bol (String.length y) (y +:+ s) = replaceClauses (lineAfter bol y) 0 s.
Proof.
  induction y as [|c y IH]; intros bol s; [done|]. rewrite line_after_cons. change (String c y +:+ s) with (String c (y +:+ s)).
  cbn [String.length replaceClauses]. apply IH.
Qed.
Lemma span_app f x s : all_bytes f x -> span_len f (x +:+ s) = String.length x + span_len f s.
Proof.
  induction x as [|c x IH]; intros H; [done|]. change (String c x +:+ s) with (String c (x +:+ s)). cbn [span_len String.length].
  rewrite (H c) by (by left). rewrite IH; [done|]. intros d Hd. apply H. by right.
Qed.
Lemma span_stop f s : (match s with EmptyString => True | String c _ => f c = false end) -> span_len f s = 0.
Proof. destruct s as [|c s]; [done|]. cbn [span_len]. by intros ->. Qed.
Definition starts_with (f : ascii -> bool) (s : string) : Prop := match s with EmptyString => True | String c _ => f c = true end.
Lemma clause_length ws name post : ws <> "" -> all_bytes re_space ws -> name <> "" -> all_bytes (fun c => negb (re_space c)) name -> starts_with re_space post ->
  clauseLength ("package" +:+ ws +:+ name +:+ post) = Some (7 + String.length ws + String.length name).
Proof.
  intros H1 H2 H3 H4 H5. unfold clauseLength.
  assert (E : has_prefix "package" ("package" +:+ ws +:+ name +:+ post) = true) by (apply has_prefix_app; by eexists). rewrite E.
  assert (E0 : skip_bytes 7 ("package" +:+ ws +:+ name +:+ post) = ws +:+ name +:+ post) by (apply (skip_app "package")). rewrite E0. cbv zeta.
  assert (E1 : span_len re_space (ws +:+ name +:+ post) = String.length ws).
  { rewrite span_app by done. rewrite span_stop; [lia|]. destruct name as [|c name]; [done|]. change (String c name +:+ post) with (String c (name +:+ post)).
    specialize (H4 c (or_introl eq_refl)). by apply negb_true_iff in H4. }
  rewrite E1.
  assert (E2 : skip_bytes (7 + String.length ws) ("package" +:+ ws +:+ name +:+ post) = name +:+ post).
  { rewrite str_app_assoc. replace (7 + String.length ws) with (String.length ("package" +:+ ws)) by (by rewrite slen_app). apply skip_app. }
  rewrite E2. rewrite span_app by done. rewrite span_stop.
  - rewrite Nat.add_0_r. destruct (Nat.eqb_spec (String.length ws) 0) as [E3|_]; [by destruct ws|]. destruct (Nat.eqb_spec (String.length name) 0) as [E3|_]; [by destruct name|]. done.
  - destruct post as [|c post]; [done|]. cbn in H5. by rewrite H5.
Qed.
Lemma nonspace_line c : negb (re_space c) = true -> Ascii.eqb c "010"%char = false.
Proof. intros H. destruct (Ascii.eqb_spec c "010"%char) as [->|]; done. Qed.
(** The one package clause of a file - on a line before and after which no line begins with the word package - becomes the clause of package main. *)
Lemma clause_replaced pre ws name post : (pre = "" \/ ends nl pre) -> ws <> "" -> all_bytes re_space ws -> name <> "" -> all_bytes (fun c => negb (re_space c)) name ->
  starts_with re_space post -> ~ package_line true pre -> ~ package_line false post ->
  replaceClauses true 0 (pre +:+ "package" +:+ ws +:+ name +:+ post) = pre +:+ "package main" +:+ post.
Proof.
  intros Hpre H1 H2 H3 H4 H5 Hp1 Hp2. rewrite clauses_plain.
  - f_equal. assert (E0 : lineAfter true pre = true).
    { destruct Hpre as [->|[y ->]]; [done|]. unfold lineAfter. rewrite las_app, rev_app_distr. done. }
    rewrite E0. set (cl := "package" +:+ ws +:+ name +:+ post).
    assert (E1 : replaceClauses true 0 cl = "package main" +:+ replaceClauses false (7 + String.length ws + String.length name - 1) ("ackage" +:+ ws +:+ name +:+ post)).
    { unfold cl. assert (E := clause_length ws name post H1 H2 H3 H4 H5). change ("package" +:+ ws +:+ name +:+ post) with (String "p" ("ackage" +:+ ws +:+ name +:+ post)) in *.
      cbn [replaceClauses]. by rewrite E. }
    rewrite E1. f_equal.
    replace ("ackage" +:+ ws +:+ name +:+ post) with (("ackage" +:+ ws +:+ name) +:+ post) by (by rewrite <- !str_app_assoc).
    replace (7 + String.length ws + String.length name - 1) with (String.length ("ackage" +:+ ws +:+ name)) by (rewrite !slen_app; change (String.length "ackage") with 6; lia).
    rewrite clauses_skip.
    assert (E2 : lineAfter false ("ackage" +:+ ws +:+ name) = false).
    { unfold lineAfter. rewrite !las_app, !rev_app_distr. destruct (rev (list_ascii_of_string name)) as [|c l] eqn:En.
      - exfalso. apply H3. apply las_inj. apply (f_equal (@rev _)) in En. by rewrite rev_involutive in En.
      - cbn [app]. apply nonspace_line, H4. rewrite in_rev, En. by left. }
    rewrite E2. assert (Ep : post +:+ "" = post) by (apply las_inj; by rewrite las_app, app_nil_r).
    transitivity (replaceClauses false 0 (post +:+ "")); [by rewrite Ep|]. rewrite clauses_plain; [cbn [replaceClauses]; done|].
    intros a b Eab Hlen Hst. rewrite Ep in Eab. apply Hp2. exists a, b. split; [done|]. destruct Hst as [[_ ?]|?]; [done|by right].
  - intros a b Eab Hlen Hst.
    (* the word would have to reach beyond the newline that ends the text before the clause *)
    apply (f_equal list_ascii_of_string) in Eab. rewrite !las_app in Eab.
    apply app_eq_inv in Eab as [(k & E1 & E2)|(k & E1 & E2)]; [|apply (f_equal length) in E1; rewrite app_length, !length_list_ascii in E1; lia].
    destruct Hpre as [->|[y Ey]]; [cbn [String.length] in Hlen; lia|].
    apply app_eq_inv in E2 as [(k2 & E3 & E4)|(k2 & E3 & E4)].
    + (* [k] is a proper part of the word, so it has no newline, but it ends the text before the clause *)
      destruct k as [|c k _] using rev_ind; [apply (f_equal length) in E1; rewrite app_length, !length_list_ascii in E1; cbn [length] in E1; lia|].
      assert (Hc : c = "010"%char).
      { rewrite Ey, las_app in E1. change (list_ascii_of_string nl) with ["010"%char] in E1. rewrite app_assoc in E1. by apply app_inj_tail in E1 as [_ <-]. }
      subst c. assert (Hin : In "010"%char (list_ascii_of_string "package")) by (rewrite E3; apply in_or_app; left; apply in_or_app; right; by left).
      cbn in Hin. intuition discriminate.
    + apply Hp1. exists a, (string_of_list_ascii k2). split; [|done]. apply las_inj. by rewrite !las_app, list_ascii_of_string_of_list_ascii, E1, E3.
Qed.

(** ** C48, for whole files.  [cs]: the components of the file's path below the plugin directory. *)
Lemma dir_is_dot cs : Forall normal cs -> cs <> [] -> String.eqb (GoDir (join_with "/" cs)) "." = true <-> length cs = 1.
Proof.
  intros H Hne. destruct (exists_last Hne) as (ds & x & ->). rewrite dir_relative by done. rewrite app_length. cbn [length]. destruct ds as [|d ds]; [done|].
  rewrite String.eqb_eq. split; [|cbn [length]; lia]. intros E. exfalso.
  assert (Hd : normal d) by (by apply Forall_cons in H as [? _]). destruct ds as [|y ds].
  - change (d = ".") in E. by destruct Hd as (_ & ? & _).
  - apply (f_equal split_slash) in E. change (split_slash ".") with ["."] in E. rewrite split_join in E; [done| |done].
    apply normal_no_slash. by apply Forall_app in H as [? _].
Qed.
(** A .go file in a sub-directory: only the import paths are rewritten. *)
Theorem C48_file_in_a_subdirectory pkg tmp cs t0 l : Forall normal cs -> 2 <= length cs -> ends ".go" (base_of cs) ->
  unquoted pkg -> unquoted tmp -> ~ (exists r, tmp = pkg +:+ "/" +:+ r) -> good_text t0 l -> ~ overlapping pkg l ->
  exists l', rewritten pkg tmp l l' /\ copied pkg tmp (join_with "/" cs) (text t0 l) = text t0 l'.
Proof.
  intros Hcs Hlen Hgo H1 H2 H3 H4 H5. assert (Hne : cs <> []) by (by destruct cs; [cbn in Hlen; lia|]).
  unfold copied, replaceCode. assert (Hs : has_suffix ".go" (join_with "/" cs) = true).
  { destruct (exists_last Hne) as (ds & x & ->). rewrite base_of_snoc in Hgo. apply has_suffix_spec. destruct ds as [|d ds]; [done|].
    rewrite join_snoc by done. apply (ends_base ".go"); [unfold no_slash; cbn; intuition discriminate|done]. }
  rewrite Hs. destruct (String.eqb (GoDir (join_with "/" cs)) ".") eqn:E; [apply dir_is_dot in E; [lia|done..]|]. by apply C48_imports.
Qed.
(** A .go file in the plugin directory itself: its package clause becomes "package main" and then the import paths are rewritten. *)
Theorem C48_file_in_the_plugin_directory pkg tmp n pre ws name post t0 l : normal n -> ends ".go" n ->
  unquoted pkg -> unquoted tmp -> ~ (exists r, tmp = pkg +:+ "/" +:+ r) -> good_text t0 l -> ~ overlapping pkg l ->
  (pre = "" \/ ends nl pre) -> ws <> "" -> all_bytes re_space ws -> name <> "" -> all_bytes (fun c => negb (re_space c)) name -> starts_with re_space post ->
  ~ package_line true pre -> ~ package_line false post -> pre +:+ "package main" +:+ post = text t0 l ->
  exists l', rewritten pkg tmp l l' /\ copied pkg tmp n (pre +:+ "package" +:+ ws +:+ name +:+ post) = text t0 l'.
Proof.
  intros Hn Hgo H1 H2 H3 H4 H5 P1 P2 P3 P4 P5 P6 P7 P8 E. unfold copied, replaceCode. rewrite (proj2 (has_suffix_spec _ _) Hgo).
  assert (Hd : String.eqb (GoDir n) "." = true) by (apply (dir_is_dot [n]); [by apply Forall_singleton|done|done]). rewrite Hd.
  rewrite clause_replaced by done. rewrite E. by apply C48_imports.
Qed.
(** Any other file is copied unchanged. *)
Theorem C48_other_files pkg tmp rel data : ~ ends ".go" rel -> copied pkg tmp rel data = data.
Proof. intros H. unfold copied. destruct (has_suffix ".go" rel) eqn:E; [|done]. exfalso. apply H. by apply has_suffix_spec. Qed.

(** ** A case: the package itself, a package below it, a package with a similar name, a string that contains the path, raw strings *)
Definition dqs : string := String dq "".
Definition code1 : string :=
  "// package clause below" +:+ nl +:+ "package  plug" +:+ nl +:+ "import " +:+ dqs +:+ "m/plug" +:+ dqs +:+ nl +:+ "import " +:+ dqs +:+ "m/plug/sub" +:+ dqs +:+ nl +:+
  "import " +:+ dqs +:+ "m/plugin" +:+ dqs +:+ nl +:+ "import `m/plug/raw`" +:+ nl +:+ "var s = " +:+ dqs +:+ "see m/plug" +:+ dqs +:+ " + " +:+ dqs +:+ "m/plug`" +:+ dqs.
Example C48_case : copied "m/plug" "m/plug-c-n" "a.go" code1 =
  "// package clause below" +:+ nl +:+ "package main" +:+ nl +:+ "import " +:+ dqs +:+ "m/plug-c-n" +:+ dqs +:+ nl +:+ "import " +:+ dqs +:+ "m/plug-c-n/sub" +:+ dqs +:+ nl +:+
  "import " +:+ dqs +:+ "m/plugin" +:+ dqs +:+ nl +:+ "import `m/plug-c-n/raw`" +:+ nl +:+ "var s = " +:+ dqs +:+ "see m/plug" +:+ dqs +:+ " + " +:+ dqs +:+ "m/plug`" +:+ dqs
  /\ copied "m/plug" "m/plug-c-n" "sub/a.go" ("package sub" +:+ nl) = "package sub" +:+ nl
  /\ copied "m/plug" "m/plug-c-n" "data.txt" (dqs +:+ "m/plug" +:+ dqs) = dqs +:+ "m/plug" +:+ dqs.
Proof. repeat split; vm_compute; reflexivity. Qed.
Definition code2 : list (ascii * string) := [(dq, "m/plug"); (dq, nl); (bq, "m/plug/x"); (bq, "")].
Example C48_case_hypotheses : good_text "import " code2 /\ ~ overlapping "m/plug" code2 /\ unquoted "m/plug" /\ unquoted "m/plug-c-n" /\ ~ (exists r, "m/plug-c-n" = "m/plug" +:+ "/" +:+ r).
Proof.
  assert (Hu : forall s, forallb (fun c => negb (Ascii.eqb c dq) && negb (Ascii.eqb c bq)) (list_ascii_of_string s) = true -> unquoted s).
  { intros s H c Hc. rewrite forallb_forall in H. apply H in Hc. rewrite andb_true_iff, !negb_true_iff, !Ascii.eqb_neq in Hc. done. }
  split; [|split; [|split; [|split]]].
  - split; [by apply Hu|]. intros q t Hin. repeat (apply elem_of_cons in Hin as [E|Hin]; [injection E as -> ->; split; [by (left + right)|by apply Hu]|]). by apply elem_of_nil in Hin.
  - intros (l1 & q & l2 & E & _). destruct l1 as [|e1 [|e2 [|e3 [|e4 [|e5 l1]]]]]; cbn in E; try discriminate E. all: injection E; intros; discriminate.
  - by apply Hu.
  - by apply Hu.
  - intros [r E]. discriminate E.
Qed.
Print Assumptions C48_every_text.
Print Assumptions C48_imports.
Print Assumptions C48_temporary_path.
Print Assumptions C48_file_in_a_subdirectory.
Print Assumptions C48_file_in_the_plugin_directory.
Print Assumptions C48_other_files.

(** The space of a package clause: tab, line feed, form feed, carriage return and blank, as \s of Go's regexp. *)
Theorem C48_space_means c : re_space c = true <-> c ∈ ["009"; "010"; "012"; "013"; " "]%char.
Proof.
  assert (H : forallb (fun c => Bool.eqb (re_space c) (bool_decide (c ∈ ["009"; "010"; "012"; "013"; " "]%char))) (map ascii_of_nat (seq 0 256)) = true) by (vm_compute; reflexivity).
  rewrite forallb_forall in H. specialize (H c). rewrite <- elem_of_list_In in H.
  assert (Hin : c ∈ map ascii_of_nat (seq 0 256)).
  { rewrite <- (ascii_nat_embedding c). apply elem_of_list_fmap_1, elem_of_seq. split; [lia|]. apply nat_ascii_bounded. }
  apply H, Bool.eqb_prop in Hin. rewrite Hin. apply bool_decide_eq_true.
Qed.
Example C48_space_case : re_space " "%char = true /\ re_space "_"%char = false.
Proof. split; vm_compute; reflexivity. Qed.
Print Assumptions C48_space_means.
