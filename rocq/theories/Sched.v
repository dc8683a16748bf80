(** An executable scheduler, to exhibit concrete interleavings. *)
From Verif Require Export Worlds ConcFinish.

Inductive cmd :=
  | SStart (k : task)                            (** the user starts a goroutine *)
  | STime (now : Z)                              (** time passes, until [now] *)
  | SRun (wd : demo_world) (j n : nat).          (** goroutine [j] makes [n] steps, in the surroundings [wd] *)

Definition sched_answer (wd : demo_world) (w : world) {X} (a : act X) : X :=
  match a in act X return X with
  | AGetDir => me_dir (w_mem w)
  | ALoadCurrent => me_current (w_mem w)
  | ALoadCounter => me_counter (w_mem w)
  | ARefInc _ i => (refs_of (w_mem w) i + 1)%Z
  | ARefDec _ i => (refs_of (w_mem w) i - 1)%Z
  | AOnce i => bool_decide (i ∉ me_once (w_mem w))
  | ANewMgr => ((N.of_nat (size (me_mgrs (w_mem w))) + 1)%N, (moment0, 7%N))
  | a => demo 0 wd (events (w_hist w)) _ a
  end.
Definition ok_answer (s : mem) {X} (a : act X) : X -> bool :=
  match a in act X return X -> bool with
  | ALock => fun _ => bool_decide (me_lock s = None)
  | ANewInst _ _ => fun i => bool_decide (me_refs s !! i = None)
  | ANewMgr => fun x => bool_decide (fst x ∉ me_mgrs s)
  | _ => fun _ => true
  end.
Definition awake_b (now started : Z) {X} (a : act X) : bool :=
  match a with ASleep _ delay => (started + delay <=? now)%Z | _ => true end.

Definition act_step (o : opts) (wd : demo_world) (w : world) (j : nat) (th : thread) {X} (a : act X) (k : X -> prog result) : world :=
  let x := sched_answer wd w a in
  if ok_answer (w_mem w) a x && awake_b (w_now w) (th_start th) a then
    mkWorld (w_now w) (update j (w_mem w) a x)
            (<[j := mkThread (th_task th) (th_start th) (k x) false]> (w_threads w) ++ spawns o (w_now w) a)
            (w_hist w ++ map (fun e => mkEntry (w_now w) j (th_task th) (Did e)) (ev a x))
  else w.
Definition one (o : opts) (wd : demo_world) (j : nat) (w : world) : world :=
  match w_threads w !! j with
  | None => w
  | Some th =>
      match th_prog th with
      | Ret _ => w
      | Act a k =>
          match calls a with
          | Some (r, c) =>
              if th_called th then act_step o wd w j th a k
              else mkWorld (w_now w) (w_mem w) (<[j := mkThread (th_task th) (th_start th) (th_prog th) true]> (w_threads w))
                           (w_hist w ++ [mkEntry (w_now w) j (th_task th) (Began r c)])
          | None => act_step o wd w j th a k
          end
      end
  end.
Definition user_b (k : task) : bool := match k with TFree _ _ => false | _ => true end.
Definition perform (o : opts) (c : cmd) (w : world) : world :=
  match c with
  | SStart k => if user_b k then mkWorld (w_now w) (w_mem w) (w_threads w ++ [start o (w_now w) k]) (w_hist w) else w
  | STime now => if (w_now w <=? now)%Z then mkWorld now (w_mem w) (w_threads w) (w_hist w) else w
  | SRun wd j n => Nat.iter n (one o wd j) w
  end.
Definition sched (o : opts) (cs : list cmd) (w : world) : world := fold_left (fun w c => perform o c w) cs w.

Lemma act_step_sound o wd w j th X (a : act X) k : demo_ok wd -> w_threads w !! j = Some th -> th_prog th = Act a k ->
  (calls a <> None -> th_called th = true) -> rtc (step o) w (act_step o wd w j th a k).
Proof.
  intros Hok Hth Hp Hc. unfold act_step. destruct (_ && _) eqn:Hb; [|done]. apply andb_true_iff in Hb as [Hb1 Hb2]. apply rtc_once. eapply step_act; try done.
  - pose proof (demo_valid 0 wd Hok (events (w_hist w)) X a) as Hv. by destruct a.
  - destruct a; try done; cbn in Hb1 |- *; by apply bool_decide_eq_true in Hb1.
  - destruct a; try done. cbn in Hb2 |- *. lia.
Qed.
Lemma one_sound o wd j w : demo_ok wd -> rtc (step o) w (one o wd j w).
Proof.
  intros Hok. unfold one. destruct (w_threads w !! j) as [th|] eqn:Hth; [|done]. destruct (th_prog th) as [|X a k] eqn:Hp; [done|].
  destruct (calls a) as [[r c]|] eqn:Hc; [|apply act_step_sound; try done; by rewrite Hc].
  destruct (th_called th) eqn:Hcl; [by apply act_step_sound|]. apply rtc_once. rewrite <- Hp. eapply step_begin; try done.
Qed.
Definition cmd_ok (c : cmd) : Prop := match c with SRun wd _ _ => demo_ok wd | _ => True end.
Lemma perform_sound o c w : cmd_ok c -> rtc (step o) w (perform o c w).
Proof.
  intros Hok. destruct c as [k|now|wd j n]; cbn.
  - destruct k; try done; apply rtc_once; by constructor.
  - destruct (_ <=? _)%Z eqn:Hle; [|done]. apply rtc_once. constructor. lia.
  - induction n as [|n IH]; [done|]. cbn. etrans; [by apply IH|by apply one_sound].
Qed.
Lemma sched_sound o cs : forall w, Forall cmd_ok cs -> rtc (step o) w (sched o cs w).
Proof. induction cs as [|c cs IH]; intros w Hok; [done|]. apply Forall_cons in Hok as [H1 H2]. etrans; [by apply perform_sound|by apply IH]. Qed.
Lemma sched_reach o dir cs : Forall cmd_ok cs -> reach o dir (sched o cs (initially dir)).
Proof. intros Hok. eapply reach_steps; [constructor|by apply sched_sound]. Qed.

(** what can be looked at *)
Definition ended (w : world) (j : nat) : bool := match w_threads w !! j with Some th => match th_prog th with Ret _ => true | _ => false end | None => false end.
Definition result_of_thread (w : world) (j : nat) : option result := match w_threads w !! j with Some th => match th_prog th with Ret r => Some r | _ => None end | None => None end.
