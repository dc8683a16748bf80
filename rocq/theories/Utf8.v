(** UTF-8 and Unicode: the parts of Go's standard library (unicode/utf8, unicode, strings.Map) behind strings.ToLower,
    strings.TrimSpace and `for range` over a string, which pluginManager.go:586, hutils.go:25, hutils.go:55-61 and
    cli/hotswap/cmd/build.go:172, 1051, 1072 call.  A rune is a number; a string is a sequence of bytes. *)
From stdpp Require Export base list list_numbers strings.
From Coq Require Export ZArith Lia.
Require Export Coq.Strings.Ascii.
Export String.StringSyntax.
Local Open Scope N_scope.

Notation rune := N (only parsing).

(** utf8.RuneError, U+FFFD *)
Definition rune_error : rune := 65533.

(** utf8.DecodeRuneInString: the valid sequences are those of the tables [first] and [acceptRanges] of unicode/utf8; the first byte
    of anything else is decoded to [rune_error]. *)
Definition within (lo b hi : N) : bool := (lo <=? b) && (b <=? hi).
Definition cont (b : N) : bool := within 128 b 191.
Definition seq2 (b0 b1 : N) : bool := within 194 b0 223 && cont b1.
Definition seq3 (b0 b1 b2 : N) : bool :=
  ((b0 =? 224) && within 160 b1 191 || (within 225 b0 236 || within 238 b0 239) && cont b1 || (b0 =? 237) && within 128 b1 159) && cont b2.
Definition seq4 (b0 b1 b2 b3 : N) : bool :=
  ((b0 =? 240) && within 144 b1 191 || within 241 b0 243 && cont b1 || (b0 =? 244) && within 128 b1 143) && cont b2 && cont b3.
Definition one (b0 : N) : rune := if b0 <? 128 then b0 else rune_error.

(** `for _, r := range s` (the runes of a string) *)
Fixpoint runes (s : string) : list rune :=
  match s with
  | EmptyString => []
  | String c0 s1 =>
    let b0 := N_of_ascii c0 in
    match s1 with
    | EmptyString => [one b0]
    | String c1 s2 =>
      let b1 := N_of_ascii c1 in
      if seq2 b0 b1 then ((b0 - 192) * 64 + (b1 - 128)) :: runes s2
      else match s2 with
        | EmptyString => one b0 :: runes s1
        | String c2 s3 =>
          let b2 := N_of_ascii c2 in
          if seq3 b0 b1 b2 then ((b0 - 224) * 4096 + (b1 - 128) * 64 + (b2 - 128)) :: runes s3
          else match s3 with
            | EmptyString => one b0 :: runes s1
            | String c3 s4 =>
              let b3 := N_of_ascii c3 in
              if seq4 b0 b1 b2 b3 then ((b0 - 240) * 262144 + (b1 - 128) * 4096 + (b2 - 128) * 64 + (b3 - 128)) :: runes s4
              else one b0 :: runes s1
            end
        end
    end
  end.

(** A rune that UTF-8 can encode: no surrogate, at most U+10FFFF. *)
Definition valid_rune (r : rune) : bool := (r <? 55296) || within 57344 r 1114111.
(** utf8.AppendRune *)
Definition rune_bytes (r : rune) : list N :=
  if r <? 128 then [r]
  else if r <? 2048 then [192 + r / 64; 128 + r mod 64]
  else if negb (valid_rune r) then [239; 191; 189]
  else if r <? 65536 then [224 + r / 4096; 128 + (r / 64) mod 64; 128 + r mod 64]
  else [240 + r / 262144; 128 + (r / 4096) mod 64; 128 + (r / 64) mod 64; 128 + r mod 64].
Definition string_of_bytes (l : list N) : string := fold_right (fun b s => String (ascii_of_N b) s) "" l.
(** string(runes) *)
Definition of_runes (l : list rune) : string := string_of_bytes (concat (map rune_bytes l)).

(** unicode.ToLower: the runes it changes, as (first, last, step, difference).  Generated by tools/unicode_table.py from
    the data of Unicode 13.0, the version of Go 1.18 (go.mod) to 1.20. *)
Definition lower_table : list (N * N * N * Z) :=
  [
  (65, 90, 1, (32)%Z); (192, 214, 1, (32)%Z); (216, 222, 1, (32)%Z); (256, 302, 2, (1)%Z); (304, 304, 1, (-199)%Z); (306, 310, 2, (1)%Z);
  (313, 327, 2, (1)%Z); (330, 374, 2, (1)%Z); (376, 376, 1, (-121)%Z); (377, 381, 2, (1)%Z); (385, 385, 1, (210)%Z); (386, 388, 2, (1)%Z);
  (390, 390, 1, (206)%Z); (391, 391, 1, (1)%Z); (393, 394, 1, (205)%Z); (395, 395, 1, (1)%Z); (398, 398, 1, (79)%Z); (399, 399, 1, (202)%Z);
  (400, 400, 1, (203)%Z); (401, 401, 1, (1)%Z); (403, 403, 1, (205)%Z); (404, 404, 1, (207)%Z); (406, 406, 1, (211)%Z); (407, 407, 1, (209)%Z);
  (408, 408, 1, (1)%Z); (412, 412, 1, (211)%Z); (413, 413, 1, (213)%Z); (415, 415, 1, (214)%Z); (416, 420, 2, (1)%Z); (422, 422, 1, (218)%Z);
  (423, 423, 1, (1)%Z); (425, 425, 1, (218)%Z); (428, 428, 1, (1)%Z); (430, 430, 1, (218)%Z); (431, 431, 1, (1)%Z); (433, 434, 1, (217)%Z);
  (435, 437, 2, (1)%Z); (439, 439, 1, (219)%Z); (440, 440, 1, (1)%Z); (444, 444, 1, (1)%Z); (452, 452, 1, (2)%Z); (453, 453, 1, (1)%Z);
  (455, 455, 1, (2)%Z); (456, 456, 1, (1)%Z); (458, 458, 1, (2)%Z); (459, 475, 2, (1)%Z); (478, 494, 2, (1)%Z); (497, 497, 1, (2)%Z);
  (498, 500, 2, (1)%Z); (502, 502, 1, (-97)%Z); (503, 503, 1, (-56)%Z); (504, 542, 2, (1)%Z); (544, 544, 1, (-130)%Z); (546, 562, 2, (1)%Z);
  (570, 570, 1, (10795)%Z); (571, 571, 1, (1)%Z); (573, 573, 1, (-163)%Z); (574, 574, 1, (10792)%Z); (577, 577, 1, (1)%Z); (579, 579, 1, (-195)%Z);
  (580, 580, 1, (69)%Z); (581, 581, 1, (71)%Z); (582, 590, 2, (1)%Z); (880, 882, 2, (1)%Z); (886, 886, 1, (1)%Z); (895, 895, 1, (116)%Z);
  (902, 902, 1, (38)%Z); (904, 906, 1, (37)%Z); (908, 908, 1, (64)%Z); (910, 911, 1, (63)%Z); (913, 929, 1, (32)%Z); (931, 939, 1, (32)%Z);
  (975, 975, 1, (8)%Z); (984, 1006, 2, (1)%Z); (1012, 1012, 1, (-60)%Z); (1015, 1015, 1, (1)%Z); (1017, 1017, 1, (-7)%Z); (1018, 1018, 1, (1)%Z);
  (1021, 1023, 1, (-130)%Z); (1024, 1039, 1, (80)%Z); (1040, 1071, 1, (32)%Z); (1120, 1152, 2, (1)%Z); (1162, 1214, 2, (1)%Z);
  (1216, 1216, 1, (15)%Z); (1217, 1229, 2, (1)%Z); (1232, 1326, 2, (1)%Z); (1329, 1366, 1, (48)%Z); (4256, 4293, 1, (7264)%Z);
  (4295, 4295, 1, (7264)%Z); (4301, 4301, 1, (7264)%Z); (5024, 5103, 1, (38864)%Z); (5104, 5109, 1, (8)%Z); (7312, 7354, 1, (-3008)%Z);
  (7357, 7359, 1, (-3008)%Z); (7680, 7828, 2, (1)%Z); (7838, 7838, 1, (-7615)%Z); (7840, 7934, 2, (1)%Z); (7944, 7951, 1, (-8)%Z);
  (7960, 7965, 1, (-8)%Z); (7976, 7983, 1, (-8)%Z); (7992, 7999, 1, (-8)%Z); (8008, 8013, 1, (-8)%Z); (8025, 8031, 2, (-8)%Z);
  (8040, 8047, 1, (-8)%Z); (8072, 8079, 1, (-8)%Z); (8088, 8095, 1, (-8)%Z); (8104, 8111, 1, (-8)%Z); (8120, 8121, 1, (-8)%Z);
  (8122, 8123, 1, (-74)%Z); (8124, 8124, 1, (-9)%Z); (8136, 8139, 1, (-86)%Z); (8140, 8140, 1, (-9)%Z); (8152, 8153, 1, (-8)%Z);
  (8154, 8155, 1, (-100)%Z); (8168, 8169, 1, (-8)%Z); (8170, 8171, 1, (-112)%Z); (8172, 8172, 1, (-7)%Z); (8184, 8185, 1, (-128)%Z);
  (8186, 8187, 1, (-126)%Z); (8188, 8188, 1, (-9)%Z); (8486, 8486, 1, (-7517)%Z); (8490, 8490, 1, (-8383)%Z); (8491, 8491, 1, (-8262)%Z);
  (8498, 8498, 1, (28)%Z); (8544, 8559, 1, (16)%Z); (8579, 8579, 1, (1)%Z); (9398, 9423, 1, (26)%Z); (11264, 11310, 1, (48)%Z);
  (11360, 11360, 1, (1)%Z); (11362, 11362, 1, (-10743)%Z); (11363, 11363, 1, (-3814)%Z); (11364, 11364, 1, (-10727)%Z); (11367, 11371, 2, (1)%Z);
  (11373, 11373, 1, (-10780)%Z); (11374, 11374, 1, (-10749)%Z); (11375, 11375, 1, (-10783)%Z); (11376, 11376, 1, (-10782)%Z);
  (11378, 11378, 1, (1)%Z); (11381, 11381, 1, (1)%Z); (11390, 11391, 1, (-10815)%Z); (11392, 11490, 2, (1)%Z); (11499, 11501, 2, (1)%Z);
  (11506, 11506, 1, (1)%Z); (42560, 42604, 2, (1)%Z); (42624, 42650, 2, (1)%Z); (42786, 42798, 2, (1)%Z); (42802, 42862, 2, (1)%Z);
  (42873, 42875, 2, (1)%Z); (42877, 42877, 1, (-35332)%Z); (42878, 42886, 2, (1)%Z); (42891, 42891, 1, (1)%Z); (42893, 42893, 1, (-42280)%Z);
  (42896, 42898, 2, (1)%Z); (42902, 42920, 2, (1)%Z); (42922, 42922, 1, (-42308)%Z); (42923, 42923, 1, (-42319)%Z); (42924, 42924, 1, (-42315)%Z);
  (42925, 42925, 1, (-42305)%Z); (42926, 42926, 1, (-42308)%Z); (42928, 42928, 1, (-42258)%Z); (42929, 42929, 1, (-42282)%Z);
  (42930, 42930, 1, (-42261)%Z); (42931, 42931, 1, (928)%Z); (42932, 42942, 2, (1)%Z); (42946, 42946, 1, (1)%Z); (42948, 42948, 1, (-48)%Z);
  (42949, 42949, 1, (-42307)%Z); (42950, 42950, 1, (-35384)%Z); (42951, 42953, 2, (1)%Z); (42997, 42997, 1, (1)%Z); (65313, 65338, 1, (32)%Z);
  (66560, 66599, 1, (40)%Z); (66736, 66771, 1, (40)%Z); (68736, 68786, 1, (64)%Z); (71840, 71871, 1, (32)%Z); (93760, 93791, 1, (32)%Z);
  (125184, 125217, 1, (34)%Z)].
Definition in_range (r : rune) (e : N * N * N * Z) : bool := let '(lo, hi, step, d) := e in within lo r hi && ((r - lo) mod step =? 0).
Definition lower_rune (r : rune) : rune :=
  match find (in_range r) lower_table with Some (lo, hi, step, d) => Z.to_N (Z.of_N r + d) | None => r end.

(** strings.ToLower: the runes of the string, each in lower case.  (For a string of ASCII bytes only, and for one that nothing
    changes, Go takes a shortcut with the same result; bytes that are not UTF-8 become U+FFFD.) *)
Definition to_lower (s : string) : string := of_runes (map lower_rune (runes s)).

(** unicode.IsSpace *)
Definition is_space (r : rune) : bool :=
  within 9 r 13 || (r =? 32) || (r =? 133) || (r =? 160) || (r =? 5760) || within 8192 r 8202 || (r =? 8232) || (r =? 8233) || (r =? 8239) || (r =? 8287) || (r =? 12288).

(** ** Facts *)
Lemma within_spec lo b hi : within lo b hi = true <-> lo <= b <= hi.
Proof. unfold within. rewrite andb_true_iff, !N.leb_le. lia. Qed.
Lemma within_false lo b hi : within lo b hi = false <-> ~ lo <= b <= hi.
Proof. rewrite <- within_spec. by destruct (within lo b hi). Qed.

Lemma byte_ascii n : n < 256 -> N_of_ascii (ascii_of_N n) = n.
Proof. apply N_ascii_embedding. Qed.
Lemma of_runes_cons r l : of_runes (r :: l) = string_of_bytes (rune_bytes r ++ concat (map rune_bytes l)).
Proof. done. Qed.
Lemma string_of_bytes_app l1 l2 : string_of_bytes (l1 ++ l2) = String.append (string_of_bytes l1) (string_of_bytes l2).
Proof. induction l1 as [|b l IH]; [done|]. exact (f_equal (String (ascii_of_N b)) IH). Qed.

Lemma digit r : r = 64 * (r / 64) + r mod 64 /\ r mod 64 < 64.
Proof. split; [apply N.div_mod; lia|apply N.mod_lt; lia]. Qed.
Lemma div_4096 r : r / 4096 = r / 64 / 64. Proof. rewrite N.div_div by lia. done. Qed.
Lemma div_262144 r : r / 262144 = r / 64 / 64 / 64. Proof. rewrite !N.div_div by lia. done. Qed.
Lemma runes_one b s : b < 128 -> runes (String (ascii_of_N b) s) = b :: runes s.
Proof.
  intros Hb. cbn [runes]. rewrite byte_ascii by lia.
  assert (Ho : one b = b). { unfold one. destruct (N.ltb_spec b 128); [done|lia]. }
  assert (H2 : forall b1, seq2 b b1 = false). { intros b1. unfold seq2. assert (within 194 b 223 = false) as -> by (apply within_false; lia). done. }
  assert (H3 : forall b1 b2, seq3 b b1 b2 = false).
  { intros b1 b2. unfold seq3. assert ((b =? 224) = false) as -> by (apply N.eqb_neq; lia). assert ((b =? 237) = false) as -> by (apply N.eqb_neq; lia).
    assert (within 225 b 236 = false) as -> by (apply within_false; lia). assert (within 238 b 239 = false) as -> by (apply within_false; lia). done. }
  assert (H4 : forall b1 b2 b3, seq4 b b1 b2 b3 = false).
  { intros b1 b2 b3. unfold seq4. assert ((b =? 240) = false) as -> by (apply N.eqb_neq; lia). assert ((b =? 244) = false) as -> by (apply N.eqb_neq; lia).
    assert (within 241 b 243 = false) as -> by (apply within_false; lia). done. }
  rewrite Ho. destruct s as [|c1 [|c2 [|c3 s]]]; rewrite ?H2, ?H3, ?H4; done.
Qed.
Lemma runes_two b0 b1 s : b0 < 256 -> b1 < 256 -> seq2 b0 b1 = true -> runes (String (ascii_of_N b0) (String (ascii_of_N b1) s)) = ((b0 - 192) * 64 + (b1 - 128)) :: runes s.
Proof. intros H0 H1 H. cbn [runes]. rewrite !byte_ascii by done. by rewrite H. Qed.
Lemma runes_three b0 b1 b2 s : b0 < 256 -> b1 < 256 -> b2 < 256 -> seq2 b0 b1 = false -> seq3 b0 b1 b2 = true ->
  runes (String (ascii_of_N b0) (String (ascii_of_N b1) (String (ascii_of_N b2) s))) = ((b0 - 224) * 4096 + (b1 - 128) * 64 + (b2 - 128)) :: runes s.
Proof. intros H0 H1 H2 Ha Hb. cbn [runes]. rewrite !byte_ascii by done. by rewrite Ha, Hb. Qed.
Lemma runes_four b0 b1 b2 b3 s : b0 < 256 -> b1 < 256 -> b2 < 256 -> b3 < 256 -> seq2 b0 b1 = false -> seq3 b0 b1 b2 = false -> seq4 b0 b1 b2 b3 = true ->
  runes (String (ascii_of_N b0) (String (ascii_of_N b1) (String (ascii_of_N b2) (String (ascii_of_N b3) s)))) =
  ((b0 - 240) * 262144 + (b1 - 128) * 4096 + (b2 - 128) * 64 + (b3 - 128)) :: runes s.
Proof. intros H0 H1 H2 H3 Ha Hb Hc. cbn [runes]. rewrite !byte_ascii by done. by rewrite Ha, Hb, Hc. Qed.

Lemma str_cons c a b : String.append (String c a) b = String c (String.append a b). Proof. done. Qed.
Lemma str_nil b : String.append "" b = b. Proof. done. Qed.
(** decoding undoes encoding *)
Lemma runes_bytes r s : valid_rune r = true -> runes (String.append (string_of_bytes (rune_bytes r)) s) = r :: runes s.
Proof.
  intros Hv. unfold rune_bytes. rewrite div_4096, div_262144. destruct (digit r) as [E1 L1]. destruct (digit (r / 64)) as [E2 L2]. destruct (digit (r / 64 / 64)) as [E3 L3].
  set (d1 := r mod 64) in *. set (q1 := r / 64) in *. set (d2 := q1 mod 64) in *. set (q2 := q1 / 64) in *. set (d3 := q2 mod 64) in *. set (q3 := q2 / 64) in *. clearbody d1 d2 d3 q1 q2 q3.
  destruct (N.ltb_spec r 128) as [H1|H1]; [by apply runes_one|].
  destruct (N.ltb_spec r 2048) as [H2|H2].
  { cbn [string_of_bytes fold_right]; rewrite !str_cons, str_nil. rewrite runes_two; [f_equal; lia|lia|lia|].
    unfold seq2, cont. apply andb_true_iff. rewrite !within_spec. lia. }
  rewrite Hv. cbn [negb]. unfold valid_rune in Hv. apply orb_true_iff in Hv. rewrite N.ltb_lt, within_spec in Hv.
  destruct (N.ltb_spec r 65536) as [H3|H3].
  { cbn [string_of_bytes fold_right]; rewrite !str_cons, str_nil. rewrite runes_three; [f_equal; lia|lia|lia|lia| |].
    - unfold seq2. assert (within 194 (224 + q2) 223 = false) as -> by (apply within_false; lia). done.
    - unfold seq3, cont. rewrite !andb_true_iff, !orb_true_iff, !andb_true_iff, orb_true_iff, !N.eqb_eq, !within_spec. lia. }
  cbn [string_of_bytes fold_right]; rewrite !str_cons, str_nil. rewrite runes_four; [f_equal; lia|lia|lia|lia|lia| | |].
  - unfold seq2. assert (within 194 (240 + q3) 223 = false) as -> by (apply within_false; lia). done.
  - unfold seq3. assert ((240 + q3 =? 224) = false) as -> by (apply N.eqb_neq; lia). assert ((240 + q3 =? 237) = false) as -> by (apply N.eqb_neq; lia).
    assert (within 225 (240 + q3) 236 = false) as -> by (apply within_false; lia). assert (within 238 (240 + q3) 239 = false) as -> by (apply within_false; lia). done.
  - unfold seq4, cont. rewrite !andb_true_iff, !orb_true_iff, !andb_true_iff, !N.eqb_eq, !within_spec. lia.
Qed.
Lemma runes_of_runes l : Forall (fun r => valid_rune r = true) l -> runes (of_runes l) = l.
Proof.
  induction 1 as [|r l Hr _ IH]; [done|]. rewrite of_runes_cons, string_of_bytes_app, runes_bytes by done. by rewrite <- IH at 2.
Qed.

(** what is decoded is valid *)
Lemma one_valid b : valid_rune (one b) = true.
Proof. unfold one. destruct (N.ltb_spec b 128); [|done]. unfold valid_rune. destruct (N.ltb_spec b 55296); [done|lia]. Qed.
Lemma runes_valid s : Forall (fun r => valid_rune r = true) (runes s).
Proof.
  assert (Hv : forall r, (r < 55296 \/ 57344 <= r <= 1114111) -> valid_rune r = true).
  { intros r Hr. unfold valid_rune. apply orb_true_iff. by rewrite N.ltb_lt, within_spec. }
  remember (String.length s) as n eqn:Hn. revert s Hn. induction (lt_wf n) as [n _ IH]. intros s ->.
  assert (IH' : forall s', (String.length s' < String.length s)%nat -> Forall (fun r => valid_rune r = true) (runes s')) by (intros s' Hs; by eapply IH).
  clear IH. destruct s as [|c0 s1]; [constructor|]. cbn [runes]. pose proof (IH' s1 ltac:(cbn; lia)) as I1.
  destruct s1 as [|c1 s2]; [constructor; [apply one_valid|done]|]. pose proof (IH' s2 ltac:(cbn; lia)) as I2.
  pose proof (N_ascii_bounded c0). pose proof (N_ascii_bounded c1).
  destruct (seq2 _ _) eqn:E2.
  { constructor; [|done]. apply Hv. unfold seq2, cont in E2. apply andb_true_iff in E2. rewrite !within_spec in E2. lia. }
  destruct s2 as [|c2 s3]; [constructor; [apply one_valid|done]|]. pose proof (IH' s3 ltac:(cbn; lia)) as I3. pose proof (N_ascii_bounded c2).
  destruct (seq3 _ _ _) eqn:E3.
  { constructor; [|done]. apply Hv. unfold seq3, cont in E3. rewrite !andb_true_iff, !orb_true_iff, !andb_true_iff, orb_true_iff, !N.eqb_eq, !within_spec in E3. lia. }
  destruct s3 as [|c3 s4]; [constructor; [apply one_valid|done]|]. pose proof (IH' s4 ltac:(cbn; lia)) as I4. pose proof (N_ascii_bounded c3).
  destruct (seq4 _ _ _ _) eqn:E4.
  { constructor; [|done]. apply Hv. unfold seq4, cont in E4. rewrite !andb_true_iff, !orb_true_iff, !andb_true_iff, !N.eqb_eq, !within_spec in E4. lia. }
  constructor; [apply one_valid|done].
Qed.

(** the table *)
Definition enumerate (e : N * N * N * Z) : list N := let '(lo, hi, step, d) := e in map (fun i => lo + step * N.of_nat i) (seq 0 (S (N.to_nat ((hi - lo) / step)))).
Lemma in_range_enumerate r e : (let '(lo, hi, step, d) := e in 0 < step) -> in_range r e = true -> r ∈ enumerate e.
Proof.
  destruct e as [[[lo hi] step] d]. intros Hs. cbn [in_range enumerate]. rewrite andb_true_iff, within_spec, N.eqb_eq. intros [[H1 H2] H3].
  apply elem_of_list_fmap. exists (N.to_nat ((r - lo) / step)). pose proof (N.div_mod (r - lo) step ltac:(lia)) as Hd. rewrite H3 in Hd. split; [rewrite N2Nat.id; lia|].
  apply elem_of_seq. split; [lia|]. cbn. assert ((r - lo) / step <= (hi - lo) / step) by (apply N.div_le_mono; lia). lia.
Qed.
Definition table_ok : bool :=
  forallb (fun e : N * N * N * Z => let '(lo, hi, step, d) := e in (0 <? step) && forallb (fun r => (lower_rune (Z.to_N (Z.of_N r + d)) =? Z.to_N (Z.of_N r + d)) && valid_rune (Z.to_N (Z.of_N r + d))) (enumerate e)) lower_table.
Lemma table_checked : table_ok = true.
Proof. vm_compute. reflexivity. Qed.
Lemma lower_rune_cases r : lower_rune r = r \/ lower_rune (lower_rune r) = lower_rune r /\ valid_rune (lower_rune r) = true.
Proof.
  destruct (find (in_range r) lower_table) as [[[[lo hi] step] d]|] eqn:Hf; [|left; unfold lower_rune; by rewrite Hf]. right.
  assert (Hr : lower_rune r = Z.to_N (Z.of_N r + d)) by (unfold lower_rune; by rewrite Hf).
  apply find_some in Hf as [Hin Hr']. pose proof table_checked as HT. unfold table_ok in HT. rewrite forallb_forall in HT. specialize (HT _ Hin). cbn beta iota in HT.
  apply andb_true_iff in HT as [Hs HT]. apply N.ltb_lt in Hs. rewrite forallb_forall in HT.
  pose proof (in_range_enumerate _ (lo, hi, step, d) Hs Hr') as He. apply elem_of_list_In in He. specialize (HT _ He). apply andb_true_iff in HT as [HT1 HT2]. apply N.eqb_eq in HT1.
  rewrite Hr. by split.
Qed.
Lemma lower_rune_idem r : lower_rune (lower_rune r) = lower_rune r.
Proof. destruct (lower_rune_cases r) as [H|[H _]]; [by rewrite !H|done]. Qed.
Lemma lower_rune_valid r : valid_rune r = true -> valid_rune (lower_rune r) = true.
Proof. intros Hv. destruct (lower_rune_cases r) as [H|[_ H]]; [by rewrite H|done]. Qed.

Lemma runes_to_lower s : runes (to_lower s) = map lower_rune (runes s).
Proof.
  unfold to_lower. apply runes_of_runes. pose proof (runes_valid s) as H. induction H as [|r l Hr _ IH]; [constructor|]. constructor; [by apply lower_rune_valid|done].
Qed.
Lemma to_lower_idem s : to_lower (to_lower s) = to_lower s.
Proof.
  unfold to_lower at 1. rewrite runes_to_lower, map_map. unfold to_lower. f_equal. apply map_ext. intros r. apply lower_rune_idem.
Qed.
Lemma to_lower_eq a b : to_lower a = to_lower b <-> map lower_rune (runes a) = map lower_rune (runes b).
Proof. split; intros H; [rewrite <- !runes_to_lower; by f_equal|unfold to_lower; by rewrite H]. Qed.

(** how a string is read: [runes] takes the one encoded rune a string begins with, if any *)
Lemma of_byte c : ascii_of_N (N_of_ascii c) = c. Proof. apply ascii_N_embedding. Qed.
Lemma encode_two b0 b1 : seq2 b0 b1 = true -> valid_rune ((b0 - 192) * 64 + (b1 - 128)) = true /\ rune_bytes ((b0 - 192) * 64 + (b1 - 128)) = [b0; b1].
Proof.
  intros H. unfold seq2, cont in H. apply andb_true_iff in H. rewrite !within_spec in H. set (r := (b0 - 192) * 64 + (b1 - 128)).
  assert (Hq : r / 64 = b0 - 192). { symmetry. apply (N.div_unique r 64 (b0 - 192) (b1 - 128)); unfold r; lia. }
  assert (Hm : r mod 64 = b1 - 128). { symmetry. apply (N.mod_unique r 64 (b0 - 192) (b1 - 128)); unfold r; lia. }
  unfold rune_bytes, valid_rune. assert (Hr : 128 <= r < 2048) by (unfold r; lia). clearbody r. rewrite Hq, Hm.
  destruct (N.ltb_spec r 55296); [|lia]. destruct (N.ltb_spec r 128); [lia|]. destruct (N.ltb_spec r 2048); [|lia]. split; [done|]. f_equal; [lia|]. f_equal. lia.
Qed.
Lemma encode_three b0 b1 b2 : seq3 b0 b1 b2 = true ->
  valid_rune ((b0 - 224) * 4096 + (b1 - 128) * 64 + (b2 - 128)) = true /\ rune_bytes ((b0 - 224) * 4096 + (b1 - 128) * 64 + (b2 - 128)) = [b0; b1; b2].
Proof.
  intros H. unfold seq3, cont in H. rewrite !andb_true_iff, !orb_true_iff, !andb_true_iff, orb_true_iff, !N.eqb_eq, !within_spec in H.
  set (r := (b0 - 224) * 4096 + (b1 - 128) * 64 + (b2 - 128)).
  assert (Hq : r / 64 = (b0 - 224) * 64 + (b1 - 128)). { symmetry. apply (N.div_unique r 64 _ (b2 - 128)); unfold r; lia. }
  assert (Hm : r mod 64 = b2 - 128). { symmetry. apply (N.mod_unique r 64 ((b0 - 224) * 64 + (b1 - 128)) (b2 - 128)); unfold r; lia. }
  assert (Hq2 : r / 64 / 64 = b0 - 224). { rewrite Hq. symmetry. apply (N.div_unique _ 64 _ (b1 - 128)); lia. }
  assert (Hm2 : (r / 64) mod 64 = b1 - 128). { rewrite Hq. symmetry. apply (N.mod_unique _ 64 (b0 - 224) (b1 - 128)); lia. }
  assert (Hr : 2048 <= r < 55296 \/ 57344 <= r < 65536) by (unfold r; lia).
  assert (Hv : valid_rune r = true) by (unfold valid_rune; apply orb_true_iff; rewrite N.ltb_lt, within_spec; lia).
  unfold rune_bytes. rewrite Hv, div_4096, Hq2, Hm2, Hm. clearbody r. cbn [negb].
  destruct (N.ltb_spec r 128); [lia|]. destruct (N.ltb_spec r 2048); [lia|]. destruct (N.ltb_spec r 65536); [|lia]. split; [done|]. f_equal; [lia|]. f_equal; [lia|]. f_equal. lia.
Qed.
Lemma encode_four b0 b1 b2 b3 : seq4 b0 b1 b2 b3 = true ->
  valid_rune ((b0 - 240) * 262144 + (b1 - 128) * 4096 + (b2 - 128) * 64 + (b3 - 128)) = true /\
  rune_bytes ((b0 - 240) * 262144 + (b1 - 128) * 4096 + (b2 - 128) * 64 + (b3 - 128)) = [b0; b1; b2; b3].
Proof.
  intros H. unfold seq4, cont in H. rewrite !andb_true_iff, !orb_true_iff, !andb_true_iff, !N.eqb_eq, !within_spec in H.
  set (r := (b0 - 240) * 262144 + (b1 - 128) * 4096 + (b2 - 128) * 64 + (b3 - 128)).
  assert (Hq : r / 64 = (b0 - 240) * 4096 + (b1 - 128) * 64 + (b2 - 128)). { symmetry. apply (N.div_unique r 64 _ (b3 - 128)); unfold r; lia. }
  assert (Hm : r mod 64 = b3 - 128). { symmetry. apply (N.mod_unique r 64 ((b0 - 240) * 4096 + (b1 - 128) * 64 + (b2 - 128)) (b3 - 128)); unfold r; lia. }
  assert (Hq2 : r / 64 / 64 = (b0 - 240) * 64 + (b1 - 128)). { rewrite Hq. symmetry. apply (N.div_unique _ 64 _ (b2 - 128)); lia. }
  assert (Hm2 : (r / 64) mod 64 = b2 - 128). { rewrite Hq. symmetry. apply (N.mod_unique _ 64 ((b0 - 240) * 64 + (b1 - 128)) (b2 - 128)); lia. }
  assert (Hq3 : r / 64 / 64 / 64 = b0 - 240). { rewrite Hq2. symmetry. apply (N.div_unique _ 64 _ (b1 - 128)); lia. }
  assert (Hm3 : (r / 64 / 64) mod 64 = b1 - 128). { rewrite Hq2. symmetry. apply (N.mod_unique _ 64 (b0 - 240) (b1 - 128)); lia. }
  assert (Hr : 65536 <= r <= 1114111) by (unfold r; lia).
  assert (Hv : valid_rune r = true) by (unfold valid_rune; apply orb_true_iff; rewrite N.ltb_lt, within_spec; lia).
  unfold rune_bytes. rewrite Hv, div_4096, div_262144, Hq3, Hm3, Hm2, Hm. clearbody r. cbn [negb].
  destruct (N.ltb_spec r 128); [lia|]. destruct (N.ltb_spec r 2048); [lia|]. destruct (N.ltb_spec r 65536); [lia|]. split; [done|]. f_equal; [lia|]. f_equal; [lia|]. f_equal; [lia|]. f_equal. lia.
Qed.
Definition begins (s : string) : Prop := exists r rest, valid_rune r = true /\ s = String.append (string_of_bytes (rune_bytes r)) rest.
(** what a string without such a rune is read as *)
Lemma reads_cases c s : begins (String c s) \/ runes (String c s) = rune_error :: runes s.
Proof.
  destruct (N.ltb_spec (N_of_ascii c) 128) as [Hc|Hc].
  { left. exists (N_of_ascii c), s. unfold rune_bytes, valid_rune. destruct (N.ltb_spec (N_of_ascii c) 128); [|lia]. destruct (N.ltb_spec (N_of_ascii c) 55296); [|lia]. split; [done|].
    cbn [string_of_bytes fold_right]. by rewrite str_cons, str_nil, of_byte. }
  assert (Ho : one (N_of_ascii c) = rune_error) by (unfold one; destruct (N.ltb_spec (N_of_ascii c) 128); [lia|done]).
  cbn [runes]. rewrite !Ho.
  destruct s as [|c1 s2]; [by right|]. destruct (seq2 _ _) eqn:E2.
  { left. destruct (encode_two _ _ E2) as [Hv Hb]. eexists _, s2. split; [exact Hv|]. rewrite Hb. cbn [string_of_bytes fold_right]. by rewrite !str_cons, str_nil, !of_byte. }
  destruct s2 as [|c2 s3]; [by right|]. destruct (seq3 _ _ _) eqn:E3.
  { left. destruct (encode_three _ _ _ E3) as [Hv Hb]. eexists _, s3. split; [exact Hv|]. rewrite Hb. cbn [string_of_bytes fold_right]. by rewrite !str_cons, str_nil, !of_byte. }
  destruct s3 as [|c3 s4]; [by right|]. destruct (seq4 _ _ _ _) eqn:E4; [|by right].
  left. destruct (encode_four _ _ _ _ E4) as [Hv Hb]. eexists _, s4. split; [exact Hv|]. rewrite Hb. cbn [string_of_bytes fold_right]. by rewrite !str_cons, str_nil, !of_byte.
Qed.
Lemma error_dec s : {exists rest, s = String.append (string_of_bytes (rune_bytes rune_error)) rest} + {forall rest, s <> String.append (string_of_bytes (rune_bytes rune_error)) rest}.
Proof.
  change (string_of_bytes (rune_bytes rune_error)) with (String "239" (String "191" (String "189" ""))).
  destruct s as [|c0 [|c1 [|c2 s]]]; try (right; intros rest; rewrite !str_cons; discriminate).
  destruct (ascii_dec c0 "239") as [->|H]; [|right; intros rest; rewrite !str_cons; congruence].
  destruct (ascii_dec c1 "191") as [->|H]; [|right; intros rest; rewrite !str_cons; congruence].
  destruct (ascii_dec c2 "189") as [->|H]; [|right; intros rest; rewrite !str_cons; congruence].
  left. by exists s.
Qed.
(** reading a string: the rune it begins with, or U+FFFD for its first byte *)
Lemma runes_reads c s : begins (String c s) \/ ~ begins (String c s) /\ runes (String c s) = rune_error :: runes s.
Proof.
  destruct (reads_cases c s) as [H|H]; [by left|].
  destruct (error_dec (String c s)) as [(rest & He)|He]; [left; exists rune_error, rest; by split|]. right. split; [|done].
  intros (r & rest & Hv & Hr). rewrite Hr, runes_bytes in H by done. injection H as -> _. by apply (He rest).
Qed.
