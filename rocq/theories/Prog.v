(** Programs: trees of atomic actions, and their "any environment" semantics [exec]. *)
From Verif Require Export GoTypes.

(** What a plugin function is called with. *)
Inductive callarg :=
  | ArgNone
  | ArgData (d : N)                     (** OnLoad(data) *)
  | ArgVault (mid : N)                  (** OnInit(&pm.Vault): the vault of manager [mid] *)
  | ArgInvoke (name : string) (params : N).

(** What a plugin function returns when it does not panic. *)
Definition role_resp (r : role) : Type :=
  match r with
  | ROnLoad => option gerror
  | ROnInit => list (string * N) * option gerror  (** DataBag assignments made by OnInit, error *)
  | ROnFree => unit
  | RExport | RImport => iface
  | RInvokeFunc => iface * option gerror
  | RReloadable => bool
  | RLiveFuncs | RLiveTypes => option (list (string * N)) (** nil, or the entries in iteration order *)
  end.

(** Who is called: on behalf of which manager, the plugin's name, its instance, the func value. *)
Record callee := mkCallee { c_mid : N; c_name : string; c_inst : inst; c_code : N }.

(** The atomic actions.  [act X] is answered by an [X]. *)
Inductive act : Type -> Type :=
  (* process-wide shared memory *)
  | ALock : act unit
  | AUnlock : act unit
  | AGetDir : act string
  | ASetDir (d : string) : act unit
  | ALoadCurrent : act (option mgr)
  | AStoreCurrent (m : mgr) : act unit
  | ANewInst (mid : N) (name : string) : act inst  (** newPlugin(): Refs = 1, fresh freeOnce *)
  | ARefInc (mid : N) (i : inst) : act Z     (** atomic increment, returns the new value *)
  | ARefDec (mid : N) (i : inst) : act Z     (** atomic decrement, returns the new value *)
  | AOnce (i : inst) : act bool              (** freeOnce.Do: does the body run? *)
  | AAddCounter : act unit
  | ALoadCounter : act Z
  | ASpawnFree (m : mgr) (delay : Z) : act unit (** go func() { sleep(delay); m.invokeEveryOnFree() } *)
  | ASleep (mid : N) (delay : Z) : act unit
  | ANewMgr : act (N * (moment * N))         (** a new PluginManager object; the time and the process id *)
  | ANow : act N                             (** time.Now() *)
  (* Go map iteration: the keys in some order *)
  | AIter (keys : list string) : act (list string)
  (* operating system *)
  | AStat (d : string) : act (outcome bool)  (** os.Stat(d): IsDir *)
  | AAbs (d : string) : act (outcome string)
  | AReadDir (d : string) : act (outcome (list (string * bool))) (** sorted (name, IsDir) *)
  | AReadFile (f : string) : act (outcome string)
  | AMkdirAll (d : string) : act (option gerror)
  | AWriteFile (f data : string) : act (option gerror)
  (* plugin runtime *)
  | AOpen (f : string) : act (outcome handle)
  | ALookupSym (h : handle) (sym : string) : act (option gvalue)
  (* user code *)
  | ACall (r : role) (c : callee) (arg : callarg) : act (outcome (role_resp r))
  | ANewExt : act (outcome iface)
  | ACallback (cb : N) (new : mgr) (old : option mgr) : act (outcome (option gerror)).

(** A program. *)
Inductive prog (A : Type) : Type :=
  | Ret (a : A)
  | Act {X : Type} (a : act X) (k : X -> prog A).
Arguments Ret {A} a. Arguments Act {A X} a k.

Fixpoint bind {A B} (p : prog A) (f : A -> prog B) : prog B :=
  match p with
  | Ret a => f a
  | Act a k => Act a (fun x => bind (k x) f)
  end.
Definition do {X} (a : act X) : prog X := Act a Ret.

Notation "'let*' x := p 'in' q" := (bind p (fun x => q))
  (at level 200, x name, p at level 200, q at level 200, right associativity).

(** ** Observable events *)
Inductive event :=
  | EvLock | EvUnlock
  | EvGetDir (d : string) | EvSetDir (d : string)
  | EvLoadCurrent (m : option mgr) | EvStore (m : mgr)
  | EvNewInst (mid : N) (name : string) (i : inst)
  | EvRefInc (mid : N) (i : inst) (v : Z) | EvRefDec (mid : N) (i : inst) (v : Z)
  | EvOnce (i : inst) (first : bool)
  | EvAddCounter | EvLoadCounter (v : Z)
  | EvSpawnFree (m : mgr) (delay : Z) | EvSleep (mid : N) (delay : Z)
  | EvNewMgr (mid : N) (born : moment * N) | EvNow (w : N)
  | EvStat (d : string) (r : outcome bool) | EvAbs (d : string) (r : outcome string)
  | EvReadDir (d : string) (r : outcome (list (string * bool)))
  | EvReadFile (f : string) (r : outcome string)
  | EvMkdir (d : string) (r : option gerror) | EvWriteFile (f data : string) (r : option gerror)
  | EvOpen (f : string) (r : outcome handle)
  | EvLookupSym (h : handle) (sym : string) (r : option gvalue)
  | EvCall (r : role) (c : callee) (arg : callarg) (x : outcome (role_resp r))
  | EvNewExt (r : outcome iface)
  | EvCallback (cb : N) (new : mgr) (old : option mgr) (r : outcome (option gerror)).

Definition ev {X} (a : act X) : X -> list event :=
  match a in act X return X -> list event with
  | ALock => fun _ => [EvLock]
  | AUnlock => fun _ => [EvUnlock]
  | AGetDir => fun d => [EvGetDir d]
  | ASetDir d => fun _ => [EvSetDir d]
  | ALoadCurrent => fun m => [EvLoadCurrent m]
  | AStoreCurrent m => fun _ => [EvStore m]
  | ANewInst mid name => fun i => [EvNewInst mid name i]
  | ARefInc mid i => fun v => [EvRefInc mid i v]
  | ARefDec mid i => fun v => [EvRefDec mid i v]
  | AOnce i => fun b => [EvOnce i b]
  | AAddCounter => fun _ => [EvAddCounter]
  | ALoadCounter => fun v => [EvLoadCounter v]
  | ASpawnFree m d => fun _ => [EvSpawnFree m d]
  | ASleep mid d => fun _ => [EvSleep mid d]
  | ANewMgr => fun x => [EvNewMgr (fst x) (snd x)]
  | ANow => fun w => [EvNow w]
  | AIter _ => fun _ => []
  | AStat d => fun r => [EvStat d r]
  | AAbs d => fun r => [EvAbs d r]
  | AReadDir d => fun r => [EvReadDir d r]
  | AReadFile f => fun r => [EvReadFile f r]
  | AMkdirAll d => fun r => [EvMkdir d r]
  | AWriteFile f data => fun r => [EvWriteFile f data r]
  | AOpen f => fun r => [EvOpen f r]
  | ALookupSym h s => fun r => [EvLookupSym h s r]
  | ACall r c arg => fun x => [EvCall r c arg x]
  | ANewExt => fun r => [EvNewExt r]
  | ACallback cb n o => fun r => [EvCallback cb n o r]
  end.

(** ** Which responses are possible at all *)

(** A struct field whose name starts with an ASCII byte is exported exactly when that byte is A-Z
    (Go language specification); names are never empty. *)
Definition valid_field (f : sfield) : Prop :=
  match sf_name f with
  | EmptyString => False
  | String c _ =>
      (N_of_ascii c < 128)%N -> sf_exported f = ((65 <=? N_of_ascii c) && (N_of_ascii c <=? 90))%N
  end.

(** A value whose type is a pointer to a struct has such fields only. *)
Definition valid_iface (v : iface) : Prop :=
  match v with
  | Some (GV (TPtr _ (TStruct _ fields)) _ _ _) => Forall valid_field fields
  | _ => True
  end.

(** A Go map has no two entries with the same key. *)
Definition valid_table (o : option (list (string * N))) : Prop :=
  match o with None => True | Some l => NoDup (map fst l) end.

(** A directory listing has simple, pairwise different names. *)
Definition valid_listing (l : list (string * bool)) : Prop :=
  NoDup (map fst l) /\ Forall (fun e => fst e <> "" /\ no_slash (fst e)) l.

(** Errors made outside hotswap (by the OS, the plugin runtime, plugin code, callbacks) are opaque. *)
Definition outside (e : gerror) : Prop := exists n, e = EOpaque n.
Definition outside_opt (e : option gerror) : Prop := match e with None => True | Some e => outside e end.

(** Panics raised outside hotswap. *)
Definition outside_panic (x : gpanic) : Prop := exists n, x = PUser n.

Definition valid_call (r : role) : outcome (role_resp r) -> Prop :=
  match r return outcome (role_resp r) -> Prop with
  | ROnLoad => fun o => match o with Val e => outside_opt e | Err _ => False | Pan x => outside_panic x end
  | ROnInit => fun o => match o with Val we => outside_opt (snd we) | Err _ => False | Pan x => outside_panic x end
  | RInvokeFunc => fun o => match o with Val ve => outside_opt (snd ve) | Err _ => False | Pan x => outside_panic x end
  | RImport => fun o => match o with Val v => valid_iface v | Err _ => False | Pan x => outside_panic x end
  | RLiveFuncs | RLiveTypes => fun o => match o with Val t => valid_table t | Err _ => False | Pan x => outside_panic x end
  | _ => fun o => match o with Val _ => True | Err _ => False | Pan x => outside_panic x end
  end.

(** OS calls and plugin.Open return an error; only plugin.Open (which runs package initialisers) can panic. *)
Definition no_panic {A} (o : outcome A) : Prop :=
  match o with Pan _ => False | Err e => outside e | Val _ => True end.

Definition valid {X} (a : act X) : X -> Prop :=
  match a in act X return X -> Prop with
  | ANewMgr => fun x => proper (fst (snd x))
  | AIter keys => fun l => Permutation l keys
  | AStat _ => no_panic
  | AAbs _ => no_panic
  | AReadDir _ => fun r => match r with Val l => valid_listing l | Err e => outside e | Pan _ => False end
  | AReadFile _ => no_panic
  | AMkdirAll _ => outside_opt
  | AWriteFile _ _ => outside_opt
  | AOpen _ => fun r => match r with Val _ => True | Err e => outside e | Pan x => outside_panic x end
  | ACall r _ _ => valid_call r
  | ANewExt => fun r => match r with Val _ => True | Err _ => False | Pan x => outside_panic x end
  | ACallback _ _ _ => fun r => match r with Val e => outside_opt e | Err _ => False | Pan x => outside_panic x end
  | _ => fun _ => True
  end.

(** [exec p t r]: with suitable responses of the environment, [p] performs the events [t] and returns [r]. *)
Fixpoint exec {A} (p : prog A) (t : list event) (r : A) : Prop :=
  match p with
  | Ret a => t = [] /\ r = a
  | Act a k => exists x t', valid a x /\ t = ev a x ++ t' /\ exec (k x) t' r
  end.

(** ** Computations on a manager object: state of the object, plus outcome. *)
Definition SM (A : Type) := mgr -> prog (mgr * outcome A).

Definition sret {A} (a : A) : SM A := fun s => Ret (s, Val a).
Definition serr {A} (e : gerror) : SM A := fun s => Ret (s, Err e).
Definition span {A} (p : gpanic) : SM A := fun s => Ret (s, Pan p).
Definition sbind {A B} (m : SM A) (f : A -> SM B) : SM B := fun s =>
  bind (m s) (fun so =>
    match snd so with
    | Val a => f a (fst so)
    | Err e => Ret (fst so, Err e)
    | Pan p => Ret (fst so, Pan p)
    end).
Definition sget : SM mgr := fun s => Ret (s, Val s).
Definition smod (f : mgr -> mgr) : SM unit := fun s => Ret (f s, Val tt).
(** perform an action whose response is a plain value *)
Definition sdo {X} (a : act X) : SM X := fun s => Act a (fun x => Ret (s, Val x)).
(** run a program returning an outcome *)
Definition slift {A} (p : prog (outcome A)) : SM A := fun s => bind p (fun o => Ret (s, o)).
(** lift a pure outcome *)
Definition spure {A} (o : outcome A) : SM A := fun s => Ret (s, o).

Notation "'let!' x := m 'in' f" := (sbind m (fun x => f))
  (at level 200, x name, m at level 200, f at level 200, right associativity).

(** for _, x := range l { body } with early return on error or panic *)
Fixpoint sfor {A} (l : list A) (body : A -> SM unit) : SM unit :=
  match l with
  | [] => sret tt
  | x :: l' => let! _ := body x in sfor l' body
  end.

(** same loop without manager state *)
Fixpoint ofor {A} (l : list A) (body : A -> prog (outcome unit)) : prog (outcome unit) :=
  match l with
  | [] => Ret (Val tt)
  | x :: l' => let* o := body x in
               match o with Val _ => ofor l' body | Err e => Ret (Err e) | Pan p => Ret (Pan p) end
  end.
