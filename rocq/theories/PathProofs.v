(** Facts about the path functions on absolute clean paths, given as lists of components. *)
From Verif Require Export ToolPaths PropTool FileProofs.
Local Open Scope nat_scope.

(** a component of a clean path *)
Definition normal (c : string) : Prop := c <> "" /\ c <> "." /\ c <> ".." /\ no_slash c.
(** the absolute path with the given components *)
Definition render (cs : list string) : string := "/" +:+ join_with "/" cs.

Lemma split_app a b : split_slash (a +:+ String slash b) = split_slash a ++ split_slash b.
Proof.
  induction a as [|c a IH]; [reflexivity|].
  change (String c a +:+ String slash b) with (String c (a +:+ String slash b)). cbn [split_slash]. rewrite IH.
  destruct (Ascii.eqb c slash); [done|]. destruct (split_slash a) eqn:E; [|done].
  exfalso. destruct a as [|x a]; [done|]. cbn [split_slash] in E. destruct (Ascii.eqb x slash); [done|]. by destruct (split_slash a).
Qed.
Lemma split_ne s : split_slash s <> [].
Proof. destruct s as [|x a]; [done|]. cbn [split_slash]. destruct (Ascii.eqb x slash); [done|]. by destruct (split_slash a). Qed.
Lemma split_simple x : no_slash x -> split_slash x = [x].
Proof.
  induction x as [|c x IH]; [done|]. intros H. cbn [split_slash].
  destruct (Ascii.eqb_spec c slash) as [->|Hc]; [exfalso; apply H; by left|].
  rewrite IH; [done|]. intros Hin. apply H. by right.
Qed.
Lemma join_cons x y l : join_with "/" (x :: y :: l) = x +:+ String slash (join_with "/" (y :: l)).
Proof. reflexivity. Qed.
Lemma split_join cs : Forall no_slash cs -> cs <> [] -> split_slash (join_with "/" cs) = cs.
Proof.
  induction cs as [|x [|y l] IH]; intros H Hne; [done| |].
  - apply Forall_cons in H as [H _]. by apply split_simple.
  - apply Forall_cons in H as [Hx H]. rewrite join_cons, split_app, (split_simple _ Hx), IH by done. done.
Qed.
Lemma normal_no_slash cs : Forall normal cs -> Forall no_slash cs.
Proof. intros H. eapply Forall_impl; [exact H|]. by intros x (_ & _ & _ & ?). Qed.
Lemma split_render cs : Forall no_slash cs -> split_slash (render cs) = "" :: (match cs with [] => [""] | _ => cs end).
Proof.
  intros H. unfold render. change ("/" +:+ join_with "/" cs) with ("" +:+ String slash (join_with "/" cs)). rewrite split_app.
  destruct cs as [|x l]; [done|]. rewrite split_join by done. done.
Qed.

(** pieces a clean path may be cut into: components and empty strings *)
Definition piece (c : string) : Prop := c = "" \/ normal c.
Notation nonempty := (List.filter (fun c => negb (String.eqb c ""))).
Lemma resolve_pieces r cs : forall st, Forall piece cs -> resolve r st cs = rev st ++ nonempty cs.
Proof.
  induction cs as [|c cs IH]; intros st H; [by rewrite app_nil_r|].
  apply Forall_cons in H as [[->|(H1 & H2 & H3 & H4)] H]; [by apply IH|].
  cbn [resolve List.filter]. destruct (String.eqb_spec c ""); [done|]. destruct (String.eqb_spec c "."); [done|].
  destruct (String.eqb_spec c ".."); [done|]. cbn [orb negb]. rewrite IH by done. cbn [rev]. by rewrite <- app_assoc.
Qed.
Lemma normal_piece cs : Forall normal cs -> Forall piece cs.
Proof. intros H. eapply Forall_impl; [exact H|]. intros x ?. by right. Qed.
Lemma nonempty_normal cs : Forall normal cs -> nonempty cs = cs.
Proof.
  induction 1 as [|c cs (H1 & _) H IH]; [done|]. cbn [List.filter]. destruct (String.eqb_spec c ""); [done|]. cbn [negb]. by rewrite IH.
Qed.
Lemma nonempty_app a b : nonempty (a ++ b) = nonempty a ++ nonempty b.
Proof. apply List.filter_app. Qed.

Lemma Clean_rooted s cs : Forall piece (split_slash s) -> nonempty (split_slash s) = cs -> rooted s = true -> Clean s = render cs.
Proof. intros H1 H2 H3. unfold Clean. rewrite H3, resolve_pieces by done. cbn [rev app]. by rewrite H2. Qed.
Lemma rooted_slash s : rooted (String slash s) = true.
Proof. unfold rooted. change (has_prefix "/" (String slash s)) with (has_prefix "" s). by destruct s. Qed.
Lemma rooted_render cs : rooted (render cs) = true.
Proof. apply rooted_slash. Qed.
Lemma render_pieces cs : Forall normal cs -> Forall piece (split_slash (render cs)).
Proof.
  intros H. rewrite split_render by by apply normal_no_slash. constructor; [by left|]. destruct cs as [|x l]; [repeat constructor; by left|].
  by apply normal_piece.
Qed.
Lemma render_nonempty cs : Forall normal cs -> nonempty (split_slash (render cs)) = cs.
Proof. intros H. rewrite split_render by by apply normal_no_slash. destruct cs as [|x l]; [done|]. change (nonempty ("" :: x :: l)) with (nonempty (x :: l)). by apply nonempty_normal. Qed.
Lemma Clean_render cs : Forall normal cs -> Clean (render cs) = render cs.
Proof. intros H. apply Clean_rooted; [by apply render_pieces|by apply render_nonempty|apply rooted_render]. Qed.
Lemma elements_render cs : Forall normal cs -> ToolPaths.elements (render cs) = cs.
Proof. apply render_nonempty. Qed.
Lemma render_inj a b : Forall normal a -> Forall normal b -> render a = render b -> a = b.
Proof. intros Ha Hb E. by rewrite <- (elements_render a Ha), E, (elements_render b Hb). Qed.

Lemma join_snoc cs c : cs <> [] -> join_with "/" (cs ++ [c]) = join_with "/" cs +:+ String slash c.
Proof.
  induction cs as [|x [|y l] IH]; intros H; [done|done|].
  change ((x :: y :: l) ++ [c]) with (x :: y :: (l ++ [c])). rewrite join_cons. change (y :: l ++ [c]) with ((y :: l) ++ [c]). rewrite IH by done.
  rewrite join_cons. rewrite <- str_app_assoc. done.
Qed.
Lemma render_snoc cs c : exists d, render (cs ++ [c]) = d +:+ "/" +:+ c /\ (cs = [] /\ d = "" \/ cs <> [] /\ d = render cs).
Proof.
  destruct (decide (cs = [])) as [->|H]; [exists ""; by split; [|left]|]. exists (render cs). split; [|by right].
  unfold render. rewrite join_snoc by done. by rewrite <- str_app_assoc.
Qed.
Lemma base_render cs c : normal c -> path_base (render (cs ++ [c])) = c.
Proof. intros (H1 & _ & _ & H4). destruct (render_snoc cs c) as (d & -> & _). by apply path_base_slash. Qed.
Lemma base_root : path_base "/" = "/".
Proof. reflexivity. Qed.

Lemma GoDir_render cs c : Forall normal (cs ++ [c]) -> GoDir (render (cs ++ [c])) = render cs.
Proof.
  intros H. apply Forall_app in H as [H Hc]. rewrite Forall_singleton in Hc. destruct Hc as (Hc & _ & _ & Hs).
  unfold GoDir. destruct (render_snoc cs c) as (d & E & Hd). rewrite E.
  change (d +:+ "/" +:+ c) with (d +:+ String slash c). rewrite split_app, (split_simple c Hs), rev_app_distr.
  change (rev [c] ++ rev (split_slash d)) with (c :: rev (split_slash d)).
  assert (Hne : rev (split_slash d) <> []).
  { intros E1. apply (f_equal (@rev _)) in E1. rewrite rev_involutive in E1. by apply split_ne in E1. }
  destruct (rev (split_slash d)) as [|y l] eqn:E1; [done|]. rewrite <- E1, rev_involutive.
  destruct Hd as [[-> ->]|[Hcs ->]]; [reflexivity|].
  assert (E2 : join_with "/" (split_slash (render cs)) = render cs).
  { rewrite split_render by by apply normal_no_slash. destruct cs as [|x cs]; [done|]. unfold render. by rewrite join_cons. }
  rewrite E2. change (render cs +:+ "/") with (render cs +:+ String slash ""). apply Clean_rooted.
  - rewrite split_app. apply Forall_app. split; [by apply render_pieces|]. repeat constructor.
  - rewrite split_app, nonempty_app, render_nonempty by done. by rewrite app_nil_r.
  - apply rooted_slash.
Qed.
Lemma GoDir_root : GoDir "/" = "/".
Proof. reflexivity. Qed.

(** filepath.Join of an absolute path and a string of components *)
Lemma GoJoin_render cs n : Forall normal cs -> Forall piece (split_slash n) -> GoJoin [render cs; n] = render (cs ++ nonempty (split_slash n)).
Proof.
  intros H Hn. unfold GoJoin. cbn [drop_empty]. unfold render at 1. cbn [String.append].
  change (Clean (render cs +:+ String slash n) = render (cs ++ nonempty (split_slash n))).
  apply Clean_rooted.
  - rewrite split_app. apply Forall_app. split; [by apply render_pieces|done].
  - by rewrite split_app, nonempty_app, render_nonempty by done.
  - apply rooted_slash.
Qed.
Lemma GoJoin_normal cs n : Forall normal cs -> normal n -> GoJoin [render cs; n] = render (cs ++ [n]).
Proof.
  intros H Hn. destruct Hn as (H1 & H2 & H3 & H4). rewrite GoJoin_render; [|done|].
  - rewrite split_simple by done. cbn [List.filter]. destruct (String.eqb_spec n ""); done.
  - rewrite split_simple by done. rewrite Forall_singleton. right. by repeat split.
Qed.
Lemma join_app a b : a <> [] -> b <> [] -> join_with "/" (a ++ b) = join_with "/" a +:+ String slash (join_with "/" b).
Proof.
  induction a as [|x [|y l] IH]; intros H Hb; [done| |].
  - by destruct b.
  - change ((x :: y :: l) ++ b) with (x :: y :: (l ++ b)). rewrite join_cons. change (y :: l ++ b) with ((y :: l) ++ b). rewrite IH by done.
    rewrite join_cons, <- str_app_assoc. done.
Qed.
Lemma first_byte c l : normal c -> exists x s, join_with "/" (c :: l) = String x s /\ x <> slash.
Proof.
  intros (H1 & _ & _ & H4). destruct c as [|x c]; [done|]. exists x.
  assert (Hx : x <> slash) by (intros ->; apply H4; by left).
  destruct l as [|y l]; [by exists c|]. rewrite join_cons. by exists (c +:+ String slash (join_with "/" (y :: l))).
Qed.
Lemma Clean_relative cs : Forall normal cs -> cs <> [] -> Clean (join_with "/" cs) = join_with "/" cs.
Proof.
  intros H Hne. unfold Clean.
  destruct cs as [|c l]; [done|]. apply Forall_cons in H as [Hc H]. destruct (first_byte c l Hc) as (x & s & E & Hx).
  assert (Hr : rooted (join_with "/" (c :: l)) = false).
  { rewrite E. unfold rooted. change (has_prefix "/" (String x s)) with (if ascii_dec slash x then has_prefix "" s else false). by destruct (ascii_dec slash x). }
  rewrite Hr, split_join; [|apply normal_no_slash; by constructor|done]. rewrite resolve_pieces by (apply normal_piece; by constructor).
  cbn [rev app]. rewrite nonempty_normal by by constructor. rewrite E. done.
Qed.
Lemma GoJoin_relative ms rest : Forall normal (ms ++ rest) -> ms <> [] -> GoJoin (join_with "/" ms :: rest) = join_with "/" (ms ++ rest).
Proof.
  intros H Hne. unfold GoJoin.
  destruct ms as [|c l]; [done|]. assert (Hc : normal c) by (by apply Forall_cons in H as [? _]).
  destruct (first_byte c l Hc) as (x & s & E & Hx). rewrite E. cbn [drop_empty]. rewrite <- E.
  assert (E1 : join_with "/" (join_with "/" (c :: l) :: rest) = join_with "/" ((c :: l) ++ rest)).
  { destruct rest as [|y r]; [by rewrite app_nil_r|]. rewrite join_app by done. by rewrite join_cons. }
  rewrite E1. apply Clean_relative; [done|]. done.
Qed.

(** filepath.Rel *)
Lemma strip_common_spec b : forall t, exists k b' t', strip_common b t = (b', t') /\ b = k ++ b' /\ t = k ++ t' /\
  (forall x bs y ts, b' = x :: bs -> t' = y :: ts -> x <> y).
Proof.
  induction b as [|x b IH]; intros t; [by exists [], [], t|]. destruct t as [|y t]; [by exists [], (x :: b), []|].
  cbn [strip_common]. destruct (String.eqb_spec x y) as [->|Hxy].
  - destruct (IH t) as (k & b' & t' & E & -> & -> & H). exists (y :: k), b', t'. by rewrite E.
  - exists [], (x :: b), (y :: t). repeat split. by intros ???? [= -> ->] [= -> ->].
Qed.
Lemma render_dot cs : (String.eqb (render cs) ".") = false.
Proof. reflexivity. Qed.
Lemma Rel_render p o : Forall normal p -> Forall normal o -> p <> o ->
  exists b t, strip_common p o = (b, t) /\ Rel (render p) (render o) = Some (join_with "/" (map (fun _ => "..") b ++ t)).
Proof.
  intros Hp Ho Hne. unfold Rel. rewrite !Clean_render by done.
  destruct (String.eqb_spec (render o) (render p)) as [E|_]; [exfalso; apply render_inj in E; [by subst|done..]|].
  rewrite render_dot, !rooted_render, !elements_render by done. cbn [Bool.eqb].
  destruct (strip_common_spec p o) as (k & b & t & -> & E1 & E2 & _). exists b, t. split; [done|].
  destruct b as [|x b]; [done|]. destruct (String.eqb_spec x "..") as [->|_]; [|done].
  exfalso. rewrite E1 in Hp. apply Forall_app in Hp as [_ Hp]. apply Forall_cons in Hp as [(_ & _ & Hx & _) _]. done.
Qed.
