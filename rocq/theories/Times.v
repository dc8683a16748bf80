(** Points in time as the code prints them, and the names made from them. *)
From stdpp Require Import pretty.
From Verif Require Export Base.
Local Open Scope nat_scope.

(** A point in time as far as it is printed: the last two digits of the year, month, day, hour, minute, second. *)
Record moment := mkMoment { yy : nat; mo : nat; dd : nat; hh : nat; mi : nat; ss : nat }.
(** real moments have two-digit fields *)
Definition proper (t : moment) : Prop := yy t < 100 /\ mo t < 100 /\ dd t < 100 /\ hh t < 100 /\ mi t < 100 /\ ss t < 100.
(** 2 November 2021, 15:04:05, for the examples *)
Definition moment0 : moment := mkMoment 21 11 2 15 4 5.
Lemma proper0 : proper moment0. Proof. unfold proper, moment0; cbn; lia. Qed.
(** what time.Format writes for each two-digit field *)
Definition digit (n : nat) : ascii := ascii_of_nat (48 + n).
Definition pad2 (n : nat) : string := String (digit (n / 10)) (String (digit (n mod 10)) "").
(** time.Format(hutils.CompactDateTimeFormat), "060102150405" (internal/hutils/hutils.go:21) *)
Definition compact (t : moment) : string := pad2 (yy t) +:+ pad2 (mo t) +:+ pad2 (dd t) +:+ pad2 (hh t) +:+ pad2 (mi t) +:+ pad2 (ss t).
(** fmt.Sprintf("%s-%d", now, pid) (pluginManager.go:39-40): [born] is the time and the process id *)
Definition dir_name (born : moment * N) : string := compact (fst born) +:+ "-" +:+ pretty (snd born).

(** ** Facts *)
Lemma digit_inj a b : a < 10 -> b < 10 -> digit a = digit b -> a = b.
Proof. intros Ha Hb H. apply (f_equal nat_of_ascii) in H. unfold digit in H. rewrite !nat_ascii_embedding in H by lia. lia. Qed.
Lemma pad2_inj a b : a < 100 -> b < 100 -> pad2 a = pad2 b -> a = b.
Proof.
  intros Ha Hb H. unfold pad2 in H.
  assert (H1 : digit (a / 10) = digit (b / 10)). { apply (f_equal (fun s => match s with String c _ => c | _ => slash end)) in H. exact H. }
  assert (H2 : digit (a mod 10) = digit (b mod 10)). { apply (f_equal (fun s => match s with String _ (String c _) => c | _ => slash end)) in H. exact H. } clear H.
  apply digit_inj in H1; [|apply Nat.div_lt_upper_bound; lia..]. apply digit_inj in H2; [|apply Nat.mod_upper_bound; lia..].
  rewrite (Nat.div_mod a 10), (Nat.div_mod b 10) by lia. lia.
Qed.
Lemma digit_slash n : n < 10 -> digit n <> slash.
Proof. intros Hn H. apply (f_equal nat_of_ascii) in H. unfold digit in H. rewrite nat_ascii_embedding in H by lia. change (nat_of_ascii slash) with 47 in H. lia. Qed.
Lemma pad2_no_slash n : n < 100 -> no_slash (pad2 n).
Proof.
  intros Hn [H|[H|[]]]; (apply digit_slash in H; [done|]); [apply Nat.div_lt_upper_bound; lia|apply Nat.mod_upper_bound; lia].
Qed.
Lemma no_slash_app a b : no_slash (a +:+ b) <-> no_slash a /\ no_slash b.
Proof.
  unfold no_slash. induction a as [|c a IH]; [cbn; tauto|].
  change (list_ascii_of_string (String c a +:+ b)) with (c :: list_ascii_of_string (a +:+ b)). change (list_ascii_of_string (String c a)) with (c :: list_ascii_of_string a).
  cbn [In]. tauto.
Qed.
Lemma app_left_inj a : forall b x y, String.length a = String.length b -> a +:+ x = b +:+ y -> a = b /\ x = y.
Proof.
  induction a as [|c a IH]; intros [|d b] x y Hl H; try done. change (String c (a +:+ x) = String d (b +:+ y)) in H. injection H as -> H.
  cbn [String.length] in Hl. destruct (IH b x y) as [-> ->]; [lia|done|done].
Qed.
Lemma compact_length t : String.length (compact t) = 12. Proof. done. Qed.
Lemma compact_inj t u : proper t -> proper u -> compact t = compact u <-> t = u.
Proof.
  intros (?&?&?&?&?&?) (?&?&?&?&?&?). split; [|by intros ->]. unfold compact.
  intros Q1. apply app_left_inj in Q1 as [Q2 Q1]; [|done]. apply app_left_inj in Q1 as [Q3 Q1]; [|done]. apply app_left_inj in Q1 as [Q4 Q1]; [|done].
  apply app_left_inj in Q1 as [Q5 Q1]; [|done]. apply app_left_inj in Q1 as [Q6 Q1]; [|done].
  apply pad2_inj in Q1, Q2, Q3, Q4, Q5, Q6; [|done..]. destruct t, u. cbn in *. by subst.
Qed.
Lemma compact_no_slash t : proper t -> no_slash (compact t).
Proof. intros (?&?&?&?&?&?). unfold compact. rewrite !no_slash_app. split_and!; by apply pad2_no_slash. Qed.
Lemma pretty_char_slash x : pretty_N_char x <> slash.
Proof. unfold pretty_N_char. repeat case_match; done. Qed.
Lemma pretty_no_slash (n : N) : no_slash (pretty n).
Proof.
  unfold pretty, pretty_N. destruct (decide (n = 0%N)) as [|Hn]; [intros [H|[]]; done|].
  assert (H : forall x s, no_slash s -> no_slash (pretty_N_go x s)).
  { intros x. induction (N.lt_wf_0 x) as [x _ IH]. intros s Hs. destruct (decide (0 < x)%N) as [Hx|Hx].
    - rewrite pretty_N_go_step by done. apply IH; [apply N.div_lt; lia|]. intros [H|H]; [by apply pretty_char_slash in H|by apply Hs].
    - assert (x = 0%N) as -> by lia. by rewrite pretty_N_go_0. }
  apply H. intros [].
Qed.
Lemma dir_name_no_slash born : proper (fst born) -> no_slash (dir_name born).
Proof. intros Hp. unfold dir_name. rewrite !no_slash_app. split_and!; [by apply compact_no_slash|intros [H|[]]; done|apply pretty_no_slash]. Qed.
Lemma dir_name_inj a b : proper (fst a) -> proper (fst b) -> dir_name a = dir_name b -> a = b.
Proof.
  destruct a as [t n], b as [u k]. cbn [fst snd]. unfold dir_name. cbn [fst snd]. intros Ht Hu H. apply app_left_inj in H as [H1 H2]; [|done].
  apply (compact_inj _ _ Ht Hu) in H1 as ->. apply app_left_inj in H2 as [_ H2]; [|done]. by apply (inj pretty) in H2 as ->.
Qed.
