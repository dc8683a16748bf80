(** Base library: strings, sorting, small list facts.  No hotswap code here except the
    Go standard library string/path helpers the code calls. *)
From stdpp Require Export base list strings gmap sorting.
From Coq Require Export ZArith Lia.
Require Export Coq.Strings.Ascii.
Export String.StringSyntax.
From Verif Require Export Utf8.
Global Set Default Goal Selector "1".
Local Open Scope N_scope.

(** ** Bytes and strings.  A Go string is a byte sequence; [string] is a list of 8-bit [ascii]. *)

(** unicode.IsUpper(rune(b)) for a single byte b, as used in pluginManager.go:263: the byte is read as a
    Latin-1 code point: A-Z, and U+00C0..U+00DE except U+00D7 (the multiplication sign). *)
Definition is_upper_byte (c : ascii) : bool :=
  let n := N_of_ascii c in
  ((65 <=? n) && (n <=? 90)) || ((192 <=? n) && (n <=? 222) && negb (n =? 215)).

(** strings.HasSuffix *)
Definition has_suffix (suf s : string) : bool :=
  (String.length suf <=? String.length s)%nat &&
  String.eqb (substring (String.length s - String.length suf) (String.length suf) s) suf.

(** strings.TrimSuffix *)
Definition trim_suffix (suf s : string) : string :=
  if has_suffix suf s then substring 0 (String.length s - String.length suf) s else s.

(** strings.HasPrefix *)
Definition has_prefix (pre s : string) : bool := String.prefix pre s.

Definition slash : ascii := "/"%char.

Fixpoint drop_slashes (l : list ascii) : list ascii :=
  match l with
  | [] => []
  | c :: l' => if Ascii.eqb c slash then drop_slashes l' else l
  end.
Fixpoint take_until_slash (l : list ascii) : list ascii :=
  match l with
  | [] => []
  | c :: l' => if Ascii.eqb c slash then [] else c :: take_until_slash l'
  end.

(** filepath.Base on Unix (Go standard library): strip trailing slashes, keep what follows the last
    slash; "." for the empty path, "/" for a path of slashes only. *)
Definition path_base (s : string) : string :=
  if String.eqb s "" then "."
  else
    let r := drop_slashes (rev (list_ascii_of_string s)) in
    match r with
    | [] => "/"
    | _ => string_of_list_ascii (rev (take_until_slash r))
    end.

(** A simple file name: what a directory listing can contain. *)
Definition no_slash (s : string) : Prop := ~ In slash (list_ascii_of_string s).

(** filepath.Join(dir, name) for a clean absolute directory [dir] and a simple file name [name]. *)
Definition path_join (dir name : string) : string :=
  if String.eqb dir "/" then "/" +:+ name else dir +:+ "/" +:+ name.

(** filepath.Dir on a path of the form produced by [path_join] (everything before the last slash,
    "/" if nothing is left). *)
Fixpoint drop_until_slash (l : list ascii) : list ascii :=
  match l with
  | [] => []
  | c :: l' => if Ascii.eqb c slash then l' else drop_until_slash l'
  end.
Definition path_dir (s : string) : string :=
  match drop_until_slash (rev (list_ascii_of_string s)) with
  | [] => "/"
  | l => string_of_list_ascii (rev l)
  end.

(** strings.TrimSpace(s) == "": all runes are white space *)
Definition blank (s : string) : bool := forallb is_space (runes s).

(** ** sort.Strings: byte-wise lexicographic order. *)
Definition str_le (a b : string) : Prop := String.leb a b = true.
Global Instance str_le_dec : RelDecision str_le.
Proof. intros a b; unfold str_le; apply _. Defined.

Definition sort_strings (l : list string) : list string := merge_sort str_le l.

(** strings.Join *)
Fixpoint join_with (sep : string) (l : list string) : string :=
  match l with
  | [] => ""
  | [x] => x
  | x :: l' => x +:+ sep +:+ join_with sep l'
  end.

(** ** Facts *)
Lemma ascii_compare_lt_trans a b c :
  Ascii.compare a b = Lt -> Ascii.compare b c = Lt -> Ascii.compare a c = Lt.
Proof. unfold Ascii.compare; rewrite !N.compare_lt_iff; lia. Qed.
Lemma ascii_compare_refl a : Ascii.compare a a = Eq.
Proof. unfold Ascii.compare; apply N.compare_refl. Qed.

Lemma str_compare_trans a b c :
  String.compare a b <> Gt -> String.compare b c <> Gt -> String.compare a c <> Gt.
Proof.
  revert b c; induction a as [|x a IH]; intros [|y b] [|z c]; simpl; try congruence.
  destruct (Ascii.compare x y) eqn:E1; try congruence.
  - apply Ascii.compare_eq_iff in E1; subst y.
    destruct (Ascii.compare x z) eqn:E2; try congruence. apply IH.
  - intros _. destruct (Ascii.compare y z) eqn:E2; try congruence.
    + apply Ascii.compare_eq_iff in E2; subst z. rewrite E1; congruence.
    + rewrite (ascii_compare_lt_trans _ _ _ E1 E2). congruence.
Qed.

Lemma str_le_compare a b : str_le a b <-> String.compare a b <> Gt.
Proof. unfold str_le, String.leb. destruct (String.compare a b); split; congruence. Qed.

Global Instance str_le_trans : Transitive str_le.
Proof. intros a b c. rewrite !str_le_compare. apply str_compare_trans. Qed.
Global Instance str_le_total : Total str_le.
Proof.
  intros a b. rewrite !str_le_compare. rewrite (String.compare_antisym b a).
  destruct (String.compare a b); simpl; auto; try (left; congruence); right; congruence.
Qed.
Global Instance str_le_antisymm : AntiSymm (=) str_le.
Proof.
  intros a b. rewrite !str_le_compare. rewrite (String.compare_antisym b a).
  destruct (String.compare a b) eqn:E; simpl; intros; try congruence.
  apply String.compare_eq_iff; done.
Qed.

Lemma sort_strings_perm l : Permutation (sort_strings l) l.
Proof. apply merge_sort_Permutation. Qed.
Lemma sort_strings_sorted l : Sorted str_le (sort_strings l).
Proof. apply (Sorted_merge_sort str_le). Qed.
Lemma sort_strings_ssorted l : StronglySorted str_le (sort_strings l).
Proof. apply (StronglySorted_merge_sort str_le). Qed.
Lemma sort_strings_nodup l : NoDup l -> NoDup (sort_strings l).
Proof. rewrite sort_strings_perm; done. Qed.
Lemma elem_of_sort_strings x l : x ∈ sort_strings l <-> x ∈ l.
Proof. rewrite sort_strings_perm; done. Qed.
Lemma sort_strings_eq l l' : Permutation l l' -> sort_strings l = sort_strings l'.
Proof.
  intros H. apply (Sorted_unique str_le); [apply sort_strings_sorted..|].
  rewrite !sort_strings_perm; done.
Qed.

Lemma N_ascii_bound c : N_of_ascii c < 256.
Proof. apply Ascii.N_ascii_bounded. Qed.
