(** Model of how the build tool makes its directory arguments absolute and names its temporary directory. *)
From Verif Require Export PropImports Times.
Local Open Scope nat_scope.

(** filepath.Abs in the working directory [wd] (build.go:205-214, hutils.go:37) *)
Definition GoAbs (wd s : string) : string := if rooted s then Clean s else GoJoin [wd; s].

(** build.go:229: time.Now().Format("02150405"): day of the month, hour, minute, second *)
Definition stamp (t : moment) : string := pad2 (dd t) +:+ pad2 (hh t) +:+ pad2 (mi t) +:+ pad2 (ss t).
(** build.go:362-391 commitInfo: the time of the last commit in UTC in CompactDateTimeFormat (hutils.go:21), and the first eight
    bytes of its hash ([output1[:8]] panics if there are fewer).  Simplified: git's output is taken as already parsed. *)
Definition commitInfo (t : moment) (hash : string) : tool string :=
  if (String.length hash <? 8) then Panics "slice bounds out of range" else Done (compact t +:+ "-" +:+ substring 0 8 hash).
