(** * Proofs: the JSON written by Json.v reads back as Spec_Json says. *)
From Coq Require Import Floats.SpecFloat Ascii String List ZArith Bool Lia.
From Verif Require Import GoBase Float64 Storage Json Spec_Json BaseFacts.
Import ListNotations.
Open Scope N_scope.

(** ** UTF-8 *)
Lemma within_iff lo hi c : within lo hi c = true <-> lo <= c <= hi.
Proof. unfold within. rewrite andb_true_iff, !N.leb_le. tauto. Qed.
Lemma within_not lo hi c : within lo hi c = false <-> ~ (lo <= c <= hi).
Proof. rewrite <- within_iff. destruct (within lo hi c); intuition congruence. Qed.

Lemma div_eq a b q r : a = b * q + r -> r < b -> a / b = q.
Proof. intros H Hr. symmetry. apply (N.div_unique a b q r Hr). exact H. Qed.
Lemma mod_eq a b q r : a = b * q + r -> r < b -> a mod b = r.
Proof. intros H Hr. symmetry. apply (N.mod_unique a b q r Hr). exact H. Qed.

Lemma utf8_2 a b : 194 <= a <= 223 -> 128 <= b <= 191 ->
  let cp := (a - 192) * 64 + (b - 128) in scalar cp /\ utf8 cp = [a; b].
Proof.
  intros Ha Hb cp. assert (Hcp : cp = 64 * (a - 192) + (b - 128)) by (unfold cp; lia).
  split; [left; lia|]. unfold utf8.
  destruct (N.ltb_spec cp 128); [lia|]. destruct (N.ltb_spec cp 2048); [|lia].
  rewrite (div_eq cp 64 (a - 192) (b - 128)), (mod_eq cp 64 (a - 192) (b - 128)) by lia.
  repeat f_equal; lia.
Qed.
Lemma utf8_3 a b c : 224 <= a <= 239 -> 128 <= b <= 191 -> 128 <= c <= 191 ->
  (a = 224 -> 160 <= b) -> (a = 237 -> b <= 159) ->
  let cp := (a - 224) * 4096 + (b - 128) * 64 + (c - 128) in scalar cp /\ utf8 cp = [a; b; c].
Proof.
  intros Ha Hb Hc H1 H2 cp.
  assert (Hr : 2048 <= cp < 65536) by (unfold cp; lia).
  split. { unfold scalar, cp. destruct (N.eq_dec a 237) as [->|Hne]; [specialize (H2 eq_refl); lia|lia]. }
  unfold utf8. destruct (N.ltb_spec cp 128); [lia|]. destruct (N.ltb_spec cp 2048); [lia|]. destruct (N.ltb_spec cp 65536); [|lia].
  assert (E1 : cp / 4096 = a - 224) by (apply (div_eq _ _ _ ((b - 128) * 64 + (c - 128))); unfold cp; lia).
  assert (E2 : cp / 64 = (a - 224) * 64 + (b - 128)) by (apply (div_eq _ _ _ (c - 128)); unfold cp; lia).
  assert (E3 : cp mod 64 = c - 128) by (apply (mod_eq _ _ ((a - 224) * 64 + (b - 128))); unfold cp; lia).
  rewrite E1, E2, E3. rewrite (mod_eq _ 64 (a - 224) (b - 128)) by lia. repeat f_equal; lia.
Qed.
Lemma utf8_4 a b c d : 240 <= a <= 244 -> 128 <= b <= 191 -> 128 <= c <= 191 -> 128 <= d <= 191 ->
  (a = 240 -> 144 <= b) -> (a = 244 -> b <= 143) ->
  let cp := (a - 240) * 262144 + (b - 128) * 4096 + (c - 128) * 64 + (d - 128) in scalar cp /\ utf8 cp = [a; b; c; d].
Proof.
  intros Ha Hb Hc Hd H1 H2 cp.
  assert (Hr : 65536 <= cp) by (unfold cp; destruct (N.eq_dec a 240) as [->|]; [specialize (H1 eq_refl); lia|lia]).
  split. { right. unfold cp. split; [destruct (N.eq_dec a 240) as [->|]; [specialize (H1 eq_refl); lia|lia]|].
           destruct (N.eq_dec a 244) as [->|]; [specialize (H2 eq_refl); lia|lia]. }
  unfold utf8. destruct (N.ltb_spec cp 128); [lia|]. destruct (N.ltb_spec cp 2048); [lia|]. destruct (N.ltb_spec cp 65536); [lia|].
  assert (E1 : cp / 262144 = a - 240) by (apply (div_eq _ _ _ ((b - 128) * 4096 + (c - 128) * 64 + (d - 128))); unfold cp; lia).
  assert (E2 : cp / 4096 = (a - 240) * 64 + (b - 128)) by (apply (div_eq _ _ _ ((c - 128) * 64 + (d - 128))); unfold cp; lia).
  assert (E3 : cp / 64 = ((a - 240) * 64 + (b - 128)) * 64 + (c - 128)) by (apply (div_eq _ _ _ (d - 128)); unfold cp; lia).
  assert (E4 : cp mod 64 = d - 128) by (apply (mod_eq _ _ (((a - 240) * 64 + (b - 128)) * 64 + (c - 128))); unfold cp; lia).
  rewrite E1, E2, E3, E4. rewrite (mod_eq _ 64 (a - 240) (b - 128)) by lia.
  rewrite (mod_eq _ 64 ((a - 240) * 64 + (b - 128)) (c - 128)) by lia. repeat f_equal; lia.
Qed.

Lemma rune_some s ch r : rune s = Some (ch, r) ->
  exists cp, scalar cp /\ ch = utf8 cp /\ s = ch ++ r /\ Forall (fun c => 128 <= c) ch /\ ch <> [].
Proof.
  unfold rune. destruct s as [|a [|b s1]]; try discriminate.
  destruct (within 194 223 a) eqn:Ea.
  { apply within_iff in Ea. destruct (within 128 191 b) eqn:Eb; [|discriminate]. apply within_iff in Eb.
    intros H. injection H as <- <-. destruct (utf8_2 a b Ea Eb) as (Hs & Hu). eexists. split; [exact Hs|]. split; [symmetry; exact Hu|].
    split; [reflexivity|]. split; [repeat constructor; lia|discriminate]. }
  destruct s1 as [|c s2]; [discriminate|].
  destruct (within 224 239 a) eqn:Ea3.
  { apply within_iff in Ea3. destruct (_ && _) eqn:Eb; [|discriminate]. apply andb_true_iff in Eb. rewrite !within_iff in Eb. destruct Eb as [Eb Ec].
    intros H. injection H as <- <-.
    destruct (utf8_3 a b c Ea3) as (Hs & Hu); try lia.
    { destruct (a =? 224), (a =? 237); lia. }
    { intros ->. cbn in Eb. lia. } { intros ->. cbn in Eb. lia. }
    eexists. split; [exact Hs|]. split; [symmetry; exact Hu|]. split; [reflexivity|].
    split; [|discriminate]. assert (128 <= b) by (destruct (a =? 224), (a =? 237); lia). repeat constructor; lia. }
  destruct s2 as [|d s3]; [discriminate|].
  destruct (_ && _) eqn:Eb; [|discriminate]. rewrite !andb_true_iff, !within_iff in Eb. destruct Eb as [[[Ea4 Eb] Ec] Ed].
  intros H. injection H as <- <-.
  destruct (utf8_4 a b c d Ea4) as (Hs & Hu); try lia.
  { destruct (a =? 240), (a =? 244); lia. }
  { intros ->. cbn in Eb. lia. } { intros ->. cbn in Eb. lia. }
  eexists. split; [exact Hs|]. split; [symmetry; exact Hu|]. split; [reflexivity|].
  split; [|discriminate]. assert (128 <= b) by (destruct (a =? 240), (a =? 244); lia). repeat constructor; lia.
Qed.

Lemma mod64 n : n mod 64 < 64. Proof. apply N.mod_lt. discriminate. Qed.
Lemma rune_utf8 cp r : scalar cp -> 128 <= cp -> rune (utf8 cp ++ r) = Some (utf8 cp, r).
Proof.
  intros Hs Hge. unfold utf8.
  destruct (N.ltb_spec cp 128); [lia|].
  pose proof (mod64 cp) as M0. pose proof (N.div_mod cp 64 ltac:(discriminate)) as D0.
  destruct (N.ltb_spec cp 2048).
  { cbn [app rune]. assert (within 194 223 (192 + cp / 64) = true) as -> by (apply within_iff; lia).
    assert (within 128 191 (128 + cp mod 64) = true) as -> by (apply within_iff; lia). reflexivity. }
  pose proof (mod64 (cp / 64)) as M1. pose proof (N.div_mod (cp / 64) 64 ltac:(discriminate)) as D1.
  assert (Q1 : cp / 4096 = cp / 64 / 64) by (rewrite N.div_div by discriminate; reflexivity).
  destruct (N.ltb_spec cp 65536).
  { cbn [app rune]. rewrite Q1. set (x := cp / 64) in *. set (a := x / 64) in *. set (b := x mod 64) in *. set (c := cp mod 64) in *.
    assert (within 194 223 (224 + a) = false) as -> by (apply within_not; lia).
    assert (within 224 239 (224 + a) = true) as -> by (apply within_iff; lia).
    assert (within (if 224 + a =? 224 then 160 else 128) (if 224 + a =? 237 then 159 else 191) (128 + b) = true) as ->.
    { apply within_iff. unfold scalar in Hs. destruct (N.eqb_spec (224 + a) 224), (N.eqb_spec (224 + a) 237); lia. }
    assert (within 128 191 (128 + c) = true) as -> by (apply within_iff; lia). reflexivity. }
  pose proof (mod64 (cp / 4096)) as M2. pose proof (N.div_mod (cp / 4096) 64 ltac:(discriminate)) as D2.
  assert (Q2 : cp / 262144 = cp / 4096 / 64) by (rewrite N.div_div by discriminate; reflexivity).
  cbn [app rune]. rewrite Q2, Q1 in *. set (x := cp / 64) in *. set (y := x / 64) in *. set (a := y / 64) in *.
  set (b := y mod 64) in *. set (c := x mod 64) in *. set (d := cp mod 64) in *.
  unfold scalar in Hs.
  assert (within 194 223 (240 + a) = false) as -> by (apply within_not; lia).
  assert (within 224 239 (240 + a) = false) as -> by (apply within_not; lia).
  assert (within 240 244 (240 + a) = true) as -> by (apply within_iff; lia).
  assert (within (if 240 + a =? 240 then 144 else 128) (if 240 + a =? 244 then 143 else 191) (128 + b) = true) as ->.
  { apply within_iff. destruct (N.eqb_spec (240 + a) 240), (N.eqb_spec (240 + a) 244); lia. }
  assert (within 128 191 (128 + c) = true) as -> by (apply within_iff; lia).
  assert (within 128 191 (128 + d) = true) as -> by (apply within_iff; lia). reflexivity.
Qed.
Lemma utf8_ascii cp : cp < 128 -> utf8 cp = [cp].
Proof. intros H. unfold utf8. destruct (N.ltb_spec cp 128); [reflexivity|lia]. Qed.
Lemma rune_none c s : rune (c :: s) = None -> 128 <= c -> forall cp r, scalar cp -> c :: s <> utf8 cp ++ r.
Proof.
  intros Hn Hc cp r Hs Heq. destruct (N.lt_ge_cases cp 128) as [Hl|Hl].
  - rewrite (utf8_ascii cp Hl) in Heq. injection Heq as -> _. lia.
  - rewrite Heq, (rune_utf8 cp r Hs Hl) in Hn. discriminate.
Qed.

(** ** Strings *)
Lemma prepend_prepend a b o : prepend a (prepend b o) = prepend (a ++ b) o.
Proof. destruct o as [[t r]|]; [|reflexivity]. cbn. rewrite app_assoc. reflexivity. Qed.
Lemma read_high l X : Forall (fun c => 128 <= c) l -> read_str (l ++ X) = prepend l (read_str X).
Proof.
  induction 1 as [|c l Hc _ IH].
  - cbn [app]. destruct (read_str X) as [[t r]|]; reflexivity.
  - cbn [app read_str]. destruct (N.eqb_spec c 34); [lia|]. destruct (N.eqb_spec c 92); [lia|]. destruct (N.ltb_spec c 32); [lia|].
    rewrite IH, prepend_prepend. reflexivity.
Qed.
Lemma hex_inv n : n < 16 -> hex_value (hex_digit n) = Some n.
Proof.
  intros H. unfold hex_value, hex_digit. destruct (N.ltb_spec n 10).
  - destruct (N.leb_spec 48 (48 + n)); [|lia]. destruct (N.leb_spec (48 + n) 57); [|lia]. cbn [andb]. f_equal. lia.
  - destruct (N.leb_spec 48 (87 + n)); [|lia]. destruct (N.leb_spec (87 + n) 57); [lia|]. cbn [andb].
    destruct (N.leb_spec 97 (87 + n)); [|lia]. destruct (N.leb_spec (87 + n) 102); [|lia]. cbn [andb]. f_equal. lia.
Qed.
Lemma read_ascii c X : c < 128 -> read_str (esc_ascii c ++ X) = prepend [c] (read_str X).
Proof.
  intros Hc. unfold esc_ascii. destruct (html_safe c) eqn:Hs.
  { unfold html_safe in Hs. rewrite !andb_true_iff, negb_true_iff, !orb_false_iff, !N.eqb_neq, N.leb_le in Hs.
    destruct Hs as [[H1 _] [[[[H2 H3] _] _] _]]. cbn [app read_str].
    destruct (N.eqb_spec c 34); [lia|]. destruct (N.eqb_spec c 92); [lia|]. destruct (N.ltb_spec c 32); [lia|]. reflexivity. }
  destruct ((c =? 34) || (c =? 92)) eqn:Hq.
  { apply orb_true_iff in Hq. rewrite !N.eqb_eq in Hq. destruct Hq as [-> | ->]; reflexivity. }
  destruct (N.eqb_spec c 10) as [->|_]; [reflexivity|]. destruct (N.eqb_spec c 13) as [->|_]; [reflexivity|].
  destruct (N.eqb_spec c 9) as [->|_]; [reflexivity|].
  change (ltext "\u00") with [92; 117; 48; 48]. cbn [app read_str]. change (92 =? 34) with false. change (92 =? 92) with true. change (117 =? 117) with true.
  cbv iota. unfold hex4. change (hex_value 48) with (Some 0).
  assert (c / 16 < 16) by (apply N.div_lt_upper_bound; lia). assert (c mod 16 < 16) by (apply N.mod_lt; lia).
  rewrite !hex_inv by assumption. pose proof (N.div_mod c 16 ltac:(discriminate)) as HD.
  replace (4096 * 0 + 256 * 0 + 16 * (c / 16) + c mod 16) with c by lia.
  destruct (N.ltb_spec c 55296); [|lia]. cbn [orb]. rewrite utf8_ascii by exact Hc. reflexivity.
Qed.

Lemma esc_read fuel : forall s, (List.length s <= fuel)%nat ->
  exists t, shown s t /\ forall X, read_str (esc fuel s ++ [34] ++ X) = Some (t, X).
Proof.
  induction fuel as [|f IH]; intros s Hl.
  - destruct s; [|cbn in Hl; lia]. exists []. split; [exists []; split; [constructor|reflexivity]|reflexivity].
  - destruct s as [|c s]; [exists []; split; [exists []; split; [constructor|reflexivity]|reflexivity]|].
    cbn [List.length] in Hl. cbn [esc]. destruct (N.ltb_spec c 128) as [Hc|Hc].
    + destruct (IH s) as (t & (l & Hch & Ht) & Hr); [lia|].
      exists (c :: t). split.
      * exists (Some c :: l). split; [|cbn [flat_map]; rewrite utf8_ascii, Ht by exact Hc; reflexivity].
        change (c :: s) with ([c] ++ s). rewrite <- (utf8_ascii c Hc) at 1. constructor; [left; lia|exact Hch].
      * intros X. rewrite <- app_assoc, read_ascii, Hr by exact Hc. reflexivity.
    + destruct (rune (c :: s)) as [[ch r]|] eqn:Hrune.
      * destruct (rune_some _ _ _ Hrune) as (cp & Hs & Hcp & Heq & Hhigh & Hne).
        assert (Hlen : (List.length r <= f)%nat).
        { apply (f_equal (@List.length N)) in Heq. rewrite app_length in Heq. cbn in Heq. destruct ch; [congruence|]. cbn in Heq. lia. }
        destruct (IH r Hlen) as (t & (l & Hch & Ht) & Hr).
        exists (ch ++ t). split.
        -- exists (Some cp :: l). split; [rewrite Heq, Hcp; constructor; assumption|]. cbn [flat_map]. rewrite <- Hcp, Ht. reflexivity.
        -- intros X. rewrite <- app_assoc.
           destruct (str_eqb ch [226; 128; 168]) eqn:E1.
           { apply str_eqb_spec in E1. rewrite E1. change (ltext "\u2028") with [92;117;50;48;50;56]. cbn [app] in Hr. cbn. rewrite Hr. reflexivity. }
           destruct (str_eqb ch [226; 128; 169]) eqn:E2.
           { apply str_eqb_spec in E2. rewrite E2. change (ltext "\u2029") with [92;117;50;48;50;57]. cbn [app] in Hr. cbn. rewrite Hr. reflexivity. }
           rewrite read_high, Hr by exact Hhigh. reflexivity.
      * destruct (IH s) as (t & (l & Hch & Ht) & Hr); [lia|].
        exists (utf8 65533 ++ t). split.
        -- exists (None :: l). split; [constructor; [apply rune_none; assumption|exact Hch]|]. cbn [flat_map]. rewrite Ht. reflexivity.
        -- intros X. change (ltext "\ufffd") with [92;117;102;102;102;100]. cbn [app] in Hr. cbn. rewrite Hr. reflexivity.
Qed.

(** ** Values *)
Definition stop (r : gostr) : Prop := match r with [] => True | c :: _ => number_char c = false end.
Definition reads_as (txt : gostr) (v : json) : Prop :=
  forall fuel rest, stop rest -> (List.length txt <= fuel)%nat -> read_value fuel (txt ++ rest) = Some (v, rest).

Lemma reads_head txt v : reads_as txt v -> exists c t, txt = c :: t /\ c <> 93.
Proof.
  intros H. specialize (H (S (List.length txt)) [] I ltac:(lia)). rewrite app_nil_r in H.
  destruct txt as [|c t]; [discriminate H|]. exists c, t. split; [reflexivity|]. intros ->. cbn in H. discriminate H.
Qed.

Lemma reads_str s : exists t, shown s t /\ reads_as (json_str s) (JStr t).
Proof.
  destruct (esc_read (List.length s) s (le_n _)) as (t & Ht & Hr). exists t. split; [exact Ht|]. intros fuel rest _ Hf.
  destruct fuel as [|f]; [unfold json_str in Hf; cbn in Hf; lia|].
  unfold json_str. rewrite <- !app_assoc. cbn [app read_value]. change (34 =? 34) with true. cbv iota.
  specialize (Hr rest). cbn [app] in Hr. rewrite Hr. reflexivity.
Qed.

Lemma reads_null : reads_as (ltext "null") JNull.
Proof. intros [|f] rest _ H; [cbn in H; lia|]. reflexivity. Qed.

Lemma span_app p a r : forallb p a = true -> match r with [] => True | c :: _ => p c = false end -> span p (a ++ r) = (a, r).
Proof.
  induction a as [|c a IH]; intros Ha Hr; cbn [app].
  - destruct r as [|c r]; [reflexivity|]. cbn [span]. rewrite Hr. reflexivity.
  - cbn [forallb] in Ha. apply andb_true_iff in Ha. destruct Ha as [Hc Ha]. cbn [span]. rewrite Hc, (IH Ha Hr). reflexivity.
Qed.
Lemma digit_number c : digit c = true -> number_char c = true.
Proof. intros H. unfold number_char. rewrite H. reflexivity. Qed.
Lemma digits_number l : forallb digit l = true -> forallb number_char l = true.
Proof. rewrite !forallb_forall. intros H c Hc. apply digit_number, H, Hc. Qed.
Lemma digit_iff c : digit c = true <-> 48 <= c <= 57.
Proof. unfold digit. rewrite andb_true_iff, !N.leb_le. tauto. Qed.

(** decimal notation *)
Definition numeral_of (s : gostr) (n : N) : Prop :=
  exists c s', s = c :: s' /\ digit c = true /\ forallb digit s' = true /\ (c = 48 -> s' = [] /\ n = 0) /\ value_of s = Z.of_N n.
Lemma numeral_plain s n : numeral_of s n -> plain_int s = true /\ forallb digit s = true /\ value_of s = Z.of_N n.
Proof.
  intros (c & s' & -> & Hc & Hs & H0 & Hv). split; [|split; [cbn [forallb]; rewrite Hc; exact Hs|exact Hv]].
  cbn [plain_int]. destruct s' as [|d s']; [exact Hc|]. rewrite Hc, Hs.
  destruct (N.eqb_spec c 48) as [->|_]; [destruct (H0 eq_refl); discriminate|reflexivity].
Qed.
Lemma show_numeral fuel : forall n, n < 10 ^ N.of_nat fuel -> (0 < fuel)%nat -> numeral_of (show_digits fuel n) n.
Proof.
  induction fuel as [|f IH]; intros n Hn Hf; [lia|]. cbn [show_digits]. destruct (N.ltb_spec n 10) as [Hl|Hl].
  - exists (48 + n), []. split; [reflexivity|]. split; [apply digit_iff; lia|]. split; [reflexivity|]. split; [intros; split; [reflexivity|lia]|].
    unfold value_of. cbn [fold_left]. lia.
  - rewrite Nat2N.inj_succ, N.pow_succ_r' in Hn.
    assert (Hd : n / 10 < 10 ^ N.of_nat f) by (apply N.div_lt_upper_bound; lia).
    pose proof (N.div_mod n 10 ltac:(discriminate)) as HD. pose proof (N.mod_lt n 10 ltac:(discriminate)) as HM.
    assert (Hf' : (0 < f)%nat) by (destruct f; [cbn in Hd; assert (1 <= n / 10) by (apply N.div_le_lower_bound; lia); lia|lia]).
    destruct (IH (n / 10) Hd Hf') as (c & s' & Hs & Hc & Hs' & H0 & Hv).
    exists c, (s' ++ [48 + n mod 10]). rewrite Hs. split; [reflexivity|]. split; [exact Hc|].
    split; [rewrite forallb_app, Hs'; cbn [forallb]; rewrite (proj2 (digit_iff _)) by lia; reflexivity|].
    split; [intros E; destruct (H0 E) as [_ E0]; assert (1 <= n / 10) by (apply N.div_le_lower_bound; lia); lia|].
    change (c :: s' ++ [48 + n mod 10]) with ((c :: s') ++ [48 + n mod 10]).
    unfold value_of in *. rewrite fold_left_app, <- Hs, Hv. cbn [fold_left]. lia.
Qed.
Lemma reads_num txt v : stop [] -> read_num txt = Some (v, []) -> (forall r, stop r -> read_num (txt ++ r) = Some (v, r)) ->
  match txt with c :: _ => (c =? 34) || (c =? 123) || (c =? 91) || (c =? 110) || (c =? 116) || (c =? 102) = false | [] => False end -> reads_as txt v.
Proof.
  intros _ _ H Hh [|f] rest Hr Hf; destruct txt as [|c t]; try contradiction; [cbn in Hf; lia|].
  rewrite !orb_false_iff in Hh. destruct Hh as [[[[[H1 H2] H3] H4] H5] H6]. cbn [app read_value]. rewrite H1, H2, H3, H4, H5, H6. apply (H rest Hr).
Qed.
Lemma digit_head c : digit c = true -> (c =? 34) || (c =? 123) || (c =? 91) || (c =? 110) || (c =? 116) || (c =? 102) = false.
Proof. rewrite digit_iff. intros H. rewrite !orb_false_iff, !N.eqb_neq. lia. Qed.

Lemma uint_numeral n : numeral_of (json_uint n) n.
Proof.
  unfold json_uint. apply show_numeral; [|lia]. rewrite Nat2N.inj_succ, N2Nat.id.
  destruct (N.eq_dec n 0) as [->|Hn]; [reflexivity|].
  apply N.lt_le_trans with (2 ^ N.succ (N.log2 n)); [apply N.log2_spec; lia|apply N.pow_le_mono_l; lia].
Qed.
Lemma reads_uint n : reads_as (json_uint n) (JInt (Z.of_N n)).
Proof.
  pose proof (uint_numeral n) as Hs.
  destruct (numeral_plain _ _ Hs) as (Hp & Hd & Hv). destruct Hs as (c & s' & Hs & Hc & _).
  assert (G : forall r, stop r -> read_num (json_uint n ++ r) = Some (JInt (Z.of_N n), r)).
  { intros r Hr. unfold read_num. rewrite span_app; [|apply digits_number, Hd|exact Hr]. rewrite Hp, Hv. reflexivity. }
  apply reads_num; [exact I|pose proof (G [] I) as G0; rewrite app_nil_r in G0; exact G0|exact G|].
  rewrite Hs. apply digit_head, Hc.
Qed.
Lemma reads_int z : reads_as (json_int z) (JInt z).
Proof.
  unfold json_int. destruct (Z.ltb_spec z 0) as [Hneg|Hpos].
  - pose proof (uint_numeral (Z.to_N (- z))) as Hs.
    destruct (numeral_plain _ _ Hs) as (Hp & Hd & Hv).
    assert (Hz0 : str_eqb (json_uint (Z.to_N (- z))) [48] = false).
    { apply Bool.not_true_is_false. intros E. apply str_eqb_spec in E. rewrite E in Hv. cbn in Hv. lia. }
    assert (G : forall r, stop r -> read_num (([45] ++ json_uint (Z.to_N (- z))) ++ r) = Some (JInt z, r)).
    { intros r Hr. unfold read_num. rewrite span_app; [| |exact Hr].
      2:{ cbn [app forallb]. change (number_char 45) with true. cbn [andb]. apply digits_number, Hd. }
      cbn [app]. rewrite Hp, Hz0, Hv. change (45 =? 45) with true.
      assert (plain_int (45 :: json_uint (Z.to_N (- z))) = false) as ->.
      { cbn [plain_int]. destruct (json_uint (Z.to_N (- z))); reflexivity. }
      cbn [andb negb]. rewrite Z2N.id by lia. rewrite Z.opp_involutive. reflexivity. }
    apply reads_num; [exact I|pose proof (G [] I) as G0; rewrite app_nil_r in G0; exact G0|exact G|reflexivity].
  - rewrite <- (Z2N.id z) at 2 by lia. apply reads_uint.
Qed.

(** a number text of an arbitrary formatter *)
Lemma span_split p s a b : span p s = (a, b) -> s = a ++ b /\ forallb p a = true /\ match b with [] => True | c :: _ => p c = false end.
Proof.
  revert a b. induction s as [|c s IH]; intros a b H; cbn [span] in H; [injection H as <- <-; repeat split|].
  destruct (p c) eqn:Hc.
  - destruct (span p s) as [a' b'] eqn:Hs. injection H as <- <-. destruct (IH a' b' eq_refl) as (-> & Ha & Hb). cbn [forallb]. rewrite Hc. repeat split; assumption.
  - injection H as <- <-. repeat split. exact Hc.
Qed.
Lemma reads_float txt v : read_num txt = Some (v, []) -> reads_as txt v.
Proof.
  intros H. assert (Hall : forallb number_char txt = true).
  { unfold read_num in H. destruct (span number_char txt) as [a b] eqn:Hs. destruct (span_split _ _ _ _ Hs) as (-> & Ha & _).
    assert (b = []) as ->; [|rewrite app_nil_r; exact Ha].
    destruct (plain_int a); [congruence|]. destruct a as [|c a]; [discriminate|]. destruct (_ && _); [congruence|]. destruct (number _); congruence. }
  assert (G : forall r, stop r -> read_num (txt ++ r) = Some (v, r)).
  { intros r Hr. unfold read_num in H |- *. rewrite (span_app _ txt r Hall Hr).
    pose proof (span_app number_char txt [] Hall I) as H0. rewrite app_nil_r in H0. rewrite H0 in H.
    destruct (plain_int txt); [congruence|]. destruct txt as [|c t]; [discriminate|]. destruct (_ && _); [congruence|]. destruct (number _); congruence. }
  apply reads_num; [exact I|exact H|exact G|].
  destruct txt as [|c t]; [discriminate H|]. cbn [forallb] in Hall. apply andb_true_iff in Hall. destruct Hall as [Hc _].
  unfold number_char in Hc. rewrite !orb_true_iff, !N.eqb_eq, digit_iff in Hc. rewrite !orb_false_iff, !N.eqb_neq. lia.
Qed.

(** ** Structs and slices *)
Lemma sep_cons x l : l <> [] -> sep_by (x :: l) = x ++ [44] ++ sep_by l.
Proof. destruct l; [congruence|reflexivity]. Qed.

Lemma read_items_ok : forall l vs, Forall2 reads_as l vs -> l <> [] -> forall fuel rest,
  (List.length (sep_by l) < fuel)%nat -> read_items fuel (sep_by l ++ [93] ++ rest) = Some (vs, rest).
Proof.
  induction 1 as [|x v l vs Hx Hl IH]; intros Hne fuel rest Hf; [congruence|].
  destruct fuel as [|f]; [lia|]. destruct l as [|y l].
  - inversion Hl; subst. cbn [sep_by] in *. cbn [read_items]. rewrite Hx; [|reflexivity|lia]. cbn. reflexivity.
  - rewrite sep_cons in Hf |- * by discriminate. rewrite !app_length in Hf. cbn [List.length] in Hf.
    rewrite <- !app_assoc. cbn [read_items]. rewrite Hx; [|reflexivity|lia]. cbn [app]. change (44 =? 93) with false. change (44 =? 44) with true. cbv iota.
    change (sep_by (y :: l) ++ 93 :: rest) with (sep_by (y :: l) ++ [93] ++ rest). rewrite IH; [reflexivity|discriminate|lia].
Qed.
Lemma reads_slice l vs : Forall2 reads_as l vs ->
  reads_as (json_slice l) (match vs with [] => JNull | _ => JArr vs end).
Proof.
  intros H. destruct H as [|x v l vs Hx Hl]; [exact reads_null|].
  intros [|f] rest Hr Hf; [cbn in Hf; lia|]. unfold json_slice in *. rewrite !app_length in Hf. cbn [List.length] in Hf.
  destruct (reads_head x v Hx) as (c & t & Hxt & Hc).
  rewrite <- !app_assoc. cbn [app read_value]. change (91 =? 34) with false. change (91 =? 123) with false. change (91 =? 91) with true. cbv iota.
  assert (Hh : exists t', sep_by (x :: l) = c :: t') by (rewrite Hxt; destruct l; eexists; reflexivity). destruct Hh as (t' & Hh).
  assert (R : read_items f (sep_by (x :: l) ++ [93] ++ rest) = Some (v :: vs, rest)).
  { apply read_items_ok; [constructor; assumption|discriminate|lia]. }
  rewrite Hh in R |- *. cbn [app] in R |- *. destruct (N.eqb_spec c 93); [congruence|]. rewrite R. reflexivity.
Qed.

Lemma plain_key k : forallb (fun c => html_safe c) (ltext k) = true -> shown (ltext k) (ltext k) /\ json_str (ltext k) = [34] ++ ltext k ++ [34].
Proof.
  intros H. assert (G : forall s fuel, (List.length s <= fuel)%nat -> forallb html_safe s = true -> esc fuel s = s /\ chars s (map Some s) /\ flat_map (fun o => utf8 (match o with Some cp => cp | None => 65533 end)) (map Some s) = s).
  { clear. induction s as [|c s IH]; intros [|f] Hl Hs; try (cbn in Hl; lia); try (repeat split; constructor).
    cbn [forallb] in Hs. apply andb_true_iff in Hs. destruct Hs as [Hc Hs]. cbn [List.length] in Hl.
    destruct (IH f ltac:(lia) Hs) as (E1 & E2 & E3).
    assert (Hc' : c < 128) by (unfold html_safe in Hc; rewrite !andb_true_iff, N.ltb_lt in Hc; tauto).
    cbn [esc map flat_map]. destruct (N.ltb_spec c 128); [|lia]. unfold esc_ascii. rewrite Hc, E1, utf8_ascii, E3 by exact Hc'. cbn [app].
    split; [reflexivity|]. split; [|reflexivity].
    change (c :: s) with ([c] ++ s). rewrite <- (utf8_ascii c Hc') at 1. constructor; [left; lia|exact E2]. }
  destruct (G (ltext k) _ (le_n _) H) as (E1 & E2 & E3). split; [|unfold json_str; rewrite E1; reflexivity].
  exists (map Some (ltext k)). split; [exact E2|symmetry; exact E3].
Qed.

Definition member (kv : string * gostr) : gostr := json_str (ltext (fst kv)) ++ [58] ++ snd kv.
Lemma read_key s X : forallb html_safe s = true -> read_str (s ++ [34] ++ X) = Some (s, X).
Proof.
  induction s as [|c s IH]; intros H; [reflexivity|]. cbn [forallb] in H. apply andb_true_iff in H. destruct H as [Hc H].
  unfold html_safe in Hc. rewrite !andb_true_iff, negb_true_iff, !orb_false_iff, !N.eqb_neq, N.leb_le in Hc.
  destruct Hc as [[H1 _] [[[[H2 H3] _] _] _]]. cbn [app read_str].
  destruct (N.eqb_spec c 34); [lia|]. destruct (N.eqb_spec c 92); [lia|]. destruct (N.ltb_spec c 32); [lia|]. cbn [app] in IH. rewrite (IH H). reflexivity.
Qed.
Lemma read_members_ok : forall fs vs, Forall2 (fun kv m => reads_as (snd kv) (snd m) /\ ltext (fst kv) = fst m /\ forallb html_safe (ltext (fst kv)) = true) fs vs ->
  fs <> [] -> forall fuel rest, (List.length (sep_by (map member fs)) < fuel)%nat ->
  read_members fuel (sep_by (map member fs) ++ [125] ++ rest) = Some (vs, rest).
Proof.
  induction 1 as [|[k x] [k' v] fs vs (Hx & Hk & Hs) Hl IH]; intros Hne fuel rest Hf; [congruence|]. cbn [fst snd] in *. subst k'.
  destruct fuel as [|f]; [lia|].
  assert (Hm : member (k, x) = [34] ++ ltext k ++ [34] ++ [58] ++ x).
  { unfold member. cbn [fst snd]. destruct (plain_key k Hs) as (_ & ->). rewrite <- !app_assoc. reflexivity. }
  assert (Hlen : (List.length x < List.length (member (k, x)))%nat) by (rewrite Hm, !app_length; cbn; lia).
  destruct fs as [|kv fs].
  - inversion Hl; subst. cbn [map sep_by] in *. rewrite Hm, <- !app_assoc. cbn [app read_members]. change (34 =? 34) with true. cbv iota.
    pose proof (read_key (ltext k) ([58] ++ x ++ [125] ++ rest) Hs) as R. cbn [app] in R. rewrite R.
    change (58 =? 58) with true. cbv iota.
    change (x ++ 125 :: rest) with (x ++ [125] ++ rest). rewrite Hx; [|reflexivity|lia]. cbn. reflexivity.
  - cbn [map] in Hf |- *. rewrite sep_cons in Hf |- * by discriminate. rewrite !app_length in Hf. cbn [List.length] in Hf.
    change (member kv :: map member fs) with (map member (kv :: fs)) in *.
    rewrite Hm, <- !app_assoc. cbn [app read_members]. change (34 =? 34) with true. cbv iota.
    pose proof (read_key (ltext k) ([58] ++ x ++ [44] ++ sep_by (map member (kv :: fs)) ++ [125] ++ rest) Hs) as R. cbn [app] in R. rewrite R.
    change (58 =? 58) with true. cbv iota.
    change (x ++ 44 :: sep_by (map member (kv :: fs)) ++ 125 :: rest) with (x ++ [44] ++ sep_by (map member (kv :: fs)) ++ [125] ++ rest).
    rewrite Hx; [|reflexivity|lia]. cbn [app]. change (44 =? 125) with false. change (44 =? 44) with true. cbv iota.
    change (sep_by (map member (kv :: fs)) ++ 125 :: rest) with (sep_by (map member (kv :: fs)) ++ [125] ++ rest).
    rewrite IH; [reflexivity|discriminate|lia].
Qed.
Lemma json_struct_eq fs : json_struct fs = [123] ++ sep_by (map member fs) ++ [125].
Proof. reflexivity. Qed.
Lemma reads_struct fs vs : Forall2 (fun kv m => reads_as (snd kv) (snd m) /\ ltext (fst kv) = fst m /\ forallb html_safe (ltext (fst kv)) = true) fs vs ->
  fs <> [] -> reads_as (json_struct fs) (JObj vs).
Proof.
  intros H Hne [|f] rest Hr Hf; [cbn in Hf; lia|]. rewrite json_struct_eq in Hf |- *. rewrite !app_length in Hf. cbn [List.length] in Hf.
  rewrite <- !app_assoc. cbn [app read_value]. change (123 =? 34) with false. change (123 =? 123) with true. cbv iota.
  assert (Hf' : (List.length (sep_by (map member fs)) < f)%nat) by (set (k := List.length (sep_by (map member fs))) in *; lia).
  pose proof (read_members_ok fs vs H Hne f rest Hf') as R. cbn [app] in R.
  assert (Hh : exists t, sep_by (map member fs) = 34 :: t).
  { destruct fs as [|kv fs]; [congruence|]. cbn [map]. destruct fs; eexists; cbn [map sep_by]; unfold member, json_str; rewrite <- ?app_assoc; cbn [app]; reflexivity. }
  destruct Hh as (t & Hh). rewrite Hh in R |- *. cbn [app] in R |- *. change (34 =? 125) with false. cbv iota. rewrite R. reflexivity.
Qed.

(** ** Records *)
Section Rec.
Variable ft : f64 -> gostr.
Variable jf : f64 -> json.
Definition ok_float (x : f64) : Prop := match x with S754_nan | S754_infinity _ => False | _ => True end.
Hypothesis Hft : forall x, ok_float x -> read_num (ft x) = Some (jf x, []).

Lemma float_some x : ok_float x -> json_float ft x = Some (ft x) /\ reads_as (ft x) (jf x).
Proof. intros H. split; [destruct x; [reflexivity|contradiction|contradiction|reflexivity]|apply reads_float, Hft, H]. Qed.
Lemma float_none x : ~ ok_float x <-> json_float ft x = None.
Proof. destruct x; cbn; intuition discriminate. Qed.

(** texts and the values they must read as *)
Lemma obj_read : forall (fs : list (string * gostr)) (ps : list (string * (json -> Prop))),
  Forall2 (fun f p => fst f = fst p /\ forallb html_safe (ltext (fst f)) = true /\ exists v, reads_as (snd f) v /\ snd p v) fs ps ->
  fs <> [] -> exists v, reads_as (json_struct fs) v /\ jstruct ps v.
Proof.
  intros fs ps H Hne.
  assert (G : exists ms, Forall2 (fun kv m => reads_as (snd kv) (snd m) /\ ltext (fst kv) = fst m /\ forallb html_safe (ltext (fst kv)) = true) fs ms /\ jobj ps ms).
  { clear Hne. induction H as [|f p fs ps (Hk & Hs & v & Hr & Hp) _ IH]; [exists []; split; constructor|].
    destruct IH as (ms & H1 & H2). destruct f as [k x], p as [k' q]. cbn [fst snd] in *. subst k'.
    exists ((ltext k, v) :: ms). split; [constructor; [cbn; auto|exact H1]|]. constructor; assumption. }
  destruct G as (ms & H1 & H2). exists (JObj ms). split; [apply reads_struct; assumption|]. exists ms. split; [reflexivity|exact H2].
Qed.
Lemma fld_nat (k : string) n : forallb html_safe (ltext k) = true ->
  fst (k, json_uint n) = fst (k, jnat n) /\ forallb html_safe (ltext (fst (k, json_uint n))) = true /\ exists v, reads_as (snd (k, json_uint n)) v /\ snd (k, jnat n) v.
Proof. intros H. split; [reflexivity|]. split; [exact H|]. exists (JInt (Z.of_N n)). split; [apply reads_uint|reflexivity]. Qed.
Lemma fld_text (k : string) s : forallb html_safe (ltext k) = true ->
  fst (k, json_str s) = fst (k, jtext s) /\ forallb html_safe (ltext (fst (k, json_str s))) = true /\ exists v, reads_as (snd (k, json_str s)) v /\ snd (k, jtext s) v.
Proof. intros H. split; [reflexivity|]. split; [exact H|]. destruct (reads_str s) as (t & Ht & Hr). exists (JStr t). split; [exact Hr|]. exists t. auto. Qed.
Lemma fld_float (k : string) x : ok_float x -> forallb html_safe (ltext k) = true ->
  fst (k, ft x) = fst (k, jfloat jf x) /\ forallb html_safe (ltext (fst (k, ft x))) = true /\ exists v, reads_as (snd (k, ft x)) v /\ snd (k, jfloat jf x) v.
Proof. intros Hx H. split; [reflexivity|]. split; [exact H|]. exists (jf x). split; [apply float_some, Hx|reflexivity]. Qed.
Lemma fld_list {A} (k : string) (enc : list gostr) (p : A -> json -> Prop) l : forallb html_safe (ltext k) = true ->
  Forall2 (fun t x => exists v, reads_as t v /\ p x v) enc l ->
  fst (k, json_slice enc) = fst (k, jlist p l) /\ forallb html_safe (ltext (fst (k, json_slice enc))) = true /\
  exists v, reads_as (snd (k, json_slice enc)) v /\ snd (k, jlist p l) v.
Proof.
  intros Hk H. split; [reflexivity|]. split; [exact Hk|]. cbn [snd].
  assert (G : exists vs, Forall2 reads_as enc vs /\ Forall2 p l vs).
  { clear Hk. induction H as [|t x ts xs (v & H1 & H2) _ (vs & I1 & I2)]; [exists []; split; constructor|]. exists (v :: vs). split; constructor; assumption. }
  destruct G as (vs & H1 & H2). exists (match vs with [] => JNull | _ => JArr vs end). split; [apply reads_slice, H1|].
  destruct H2 as [|x v xs vs Hx Hxs]; [reflexivity|]. exists (v :: vs). split; [reflexivity|]. constructor; assumption.
Qed.

Lemma an_read s : exists v, reads_as (json_an s) v /\ an_doc s v.
Proof. apply obj_read; [|discriminate]. repeat first [apply Forall2_cons | apply Forall2_nil | apply fld_nat; reflexivity]. Qed.
Lemma loc_read s : ok_float (lsLat s) -> ok_float (lsLng s) -> exists t, json_loc ft s = Some t /\ exists v, reads_as t v /\ loc_doc jf s v.
Proof.
  intros H1 H2. unfold json_loc. rewrite (proj1 (float_some _ H1)), (proj1 (float_some _ H2)). eexists. split; [reflexivity|].
  apply obj_read; [|discriminate].
  apply Forall2_cons; [apply fld_float; [exact H1|reflexivity]|]. apply Forall2_cons; [apply fld_float; [exact H2|reflexivity]|].
  apply Forall2_cons; [apply fld_nat; reflexivity|]. apply Forall2_cons; [apply fld_text; reflexivity|]. constructor.
Qed.
Lemma liquid_read s : ok_float (lqL s) -> exists t, json_liquid ft s = Some t /\ exists v, reads_as t v /\ liquid_doc jf s v.
Proof.
  intros H. unfold json_liquid. rewrite (proj1 (float_some _ H)). eexists. split; [reflexivity|]. apply obj_read; [|discriminate].
  apply Forall2_cons; [apply fld_nat; reflexivity|]. apply Forall2_cons; [apply fld_nat; reflexivity|].
  apply Forall2_cons; [apply fld_text; reflexivity|]. apply Forall2_cons; [apply fld_text; reflexivity|].
  apply Forall2_cons; [apply fld_nat; reflexivity|]. apply Forall2_cons; [apply fld_float; [exact H|reflexivity]|]. constructor.
Qed.
Lemma all_some_spec {A B} (f : A -> option B) (q : B -> A -> Prop) l :
  (forall x, In x l -> exists t, f x = Some t /\ q t x) -> exists ts, all_some (map f l) = Some ts /\ Forall2 q ts l.
Proof.
  induction l as [|x l IH]; intros H; [exists []; split; [reflexivity|constructor]|].
  destruct (H x (or_introl eq_refl)) as (t & Ht & Hq). destruct IH as (ts & Hts & HF); [intros; apply H; right; assumption|].
  exists (t :: ts). cbn [map all_some]. rewrite Ht, Hts. split; [reflexivity|]. constructor; assumption.
Qed.

Definition floats_ok (n : nav_record) : Prop :=
  Forall (fun s => ok_float (lsLat s) /\ ok_float (lsLng s)) (nrLocs n) /\ Forall (fun s => ok_float (lqL s)) (nrLiq n).
Lemma record_read rdt n : floats_ok n -> exists b v, to_bytes ft rdt n = Some b /\ reads_as b v /\ record_doc jf rdt n v.
Proof.
  intros [HL HQ]. rewrite Forall_forall in HL, HQ. unfold to_bytes.
  destruct (all_some_spec (json_liquid ft) (fun t x => exists v, reads_as t v /\ liquid_doc jf x v) (nrLiq n)) as (ts & -> & HT).
  { intros x Hx. apply liquid_read, HQ, Hx. }
  destruct (all_some_spec (json_loc ft) (fun t x => exists v, reads_as t v /\ loc_doc jf x v) (nrLocs n)) as (us & -> & HU).
  { intros x Hx. apply loc_read; apply (HL x Hx). }
  match goal with |- exists b v, Some ?x = Some b /\ _ => exists x end.
  assert (G : forall (fs : list (string * gostr)) p, (exists v, reads_as (json_struct fs) v /\ p v) -> exists v, Some (json_struct fs) = Some (json_struct fs) /\ reads_as (json_struct fs) v /\ p v).
  { intros fs p (v & Hv). exists v. auto. }
  apply G. clear G. apply obj_read; [|discriminate].
  apply Forall2_cons; [apply fld_text; reflexivity|]. apply Forall2_cons; [apply fld_text; reflexivity|].
  apply Forall2_cons; [apply fld_nat; reflexivity|]. apply Forall2_cons; [apply fld_text; reflexivity|].
  apply Forall2_cons; [apply fld_nat; reflexivity|].
  apply Forall2_cons. { split; [reflexivity|]. split; [reflexivity|]. exists (JInt (nrNavTs n)). split; [apply reads_int|reflexivity]. }
  apply Forall2_cons. { apply fld_list; [reflexivity|]. induction (nrAn n) as [|s l IH]; constructor; [apply an_read|exact IH]. }
  apply Forall2_cons. { apply fld_list; [reflexivity|exact HT]. }
  apply Forall2_cons. { apply fld_list; [reflexivity|exact HU]. }
  apply Forall2_cons; [apply fld_nat; reflexivity|]. constructor.
Qed.
Lemma read_json_ok b v : reads_as b v -> read_json b = Some v.
Proof. intros H. unfold read_json. specialize (H (S (List.length b)) [] I ltac:(lia)). rewrite app_nil_r in H. rewrite H. reflexivity. Qed.
End Rec.

(** ** When text survives *)
Definition cp_of (s : gostr) : N :=
  match s with
  | [a] => a
  | [a; b] => (a - 192) * 64 + (b - 128)
  | [a; b; c] => (a - 224) * 4096 + (b - 128) * 64 + (c - 128)
  | [a; b; c; d] => (a - 240) * 262144 + (b - 128) * 4096 + (c - 128) * 64 + (d - 128)
  | _ => 0
  end.
Lemma add_sub_l x y : x + y - x = y. Proof. lia. Qed.
Lemma cp_utf8 cp : cp_of (utf8 cp) = cp.
Proof.
  pose proof (N.div_mod cp 64 ltac:(discriminate)) as D0.
  pose proof (N.div_mod (cp / 64) 64 ltac:(discriminate)) as D1.
  pose proof (N.div_mod (cp / 4096) 64 ltac:(discriminate)) as D2.
  assert (Q1 : cp / 4096 = cp / 64 / 64) by (rewrite N.div_div by discriminate; reflexivity).
  assert (Q2 : cp / 262144 = cp / 4096 / 64) by (rewrite N.div_div by discriminate; reflexivity).
  unfold utf8. destruct (cp <? 128); [reflexivity|].
  destruct (cp <? 2048); [|destruct (cp <? 65536)]; unfold cp_of; rewrite !add_sub_l.
  - clear D1 D2 Q1 Q2. set (x := cp / 64) in *. set (y := cp mod 64) in *. lia.
  - rewrite Q1 in *. clear D2 Q1 Q2. set (x := cp / 64) in *. set (a := x / 64) in *. set (b := x mod 64) in *. set (c := cp mod 64) in *. lia.
  - rewrite Q2. rewrite Q1 in *. clear Q1 Q2. set (x := cp / 64) in *. set (y := x / 64) in *. set (a := y / 64) in *.
    set (b := y mod 64) in *. set (c := x mod 64) in *. set (d := cp mod 64) in *. lia.
Qed.
Lemma utf8_inj a b : utf8 a = utf8 b -> a = b.
Proof. intros H. rewrite <- (cp_utf8 a), <- (cp_utf8 b), H. reflexivity. Qed.
Lemma chars_det s l : chars s l -> forall l', chars s l' -> l = l'.
Proof.
  induction 1 as [|cp s l Hs Hc IH|c s l Hn Hc IH]; intros l' H'.
  - inversion H' as [|cp s' l0 Hs Hc Heq|]; [reflexivity|].
    exfalso. destruct (utf8 cp) eqn:E; [|discriminate]. unfold utf8 in E. repeat match type of E with context [if ?c then _ else _] => destruct c end; discriminate.
  - inversion H' as [Heq|cp' s' l0 Hs' Hc' Heq|c' s' l0 Hn' Hc' Heq].
    + exfalso. destruct (utf8 cp) eqn:E; [|discriminate]. unfold utf8 in E. repeat match type of E with context [if ?c then _ else _] => destruct c end; discriminate.
    + assert (G : cp' = cp /\ s' = s).
      { destruct (N.lt_ge_cases cp 128) as [H1|H1], (N.lt_ge_cases cp' 128) as [H2|H2].
        - rewrite !utf8_ascii in Heq by assumption. injection Heq as -> ->. auto.
        - pose proof (rune_utf8 cp' s' Hs' H2) as R. rewrite Heq, (utf8_ascii cp H1) in R.
          destruct (rune_some _ _ _ R) as (x & _ & _ & E & F & Hne). destruct (utf8 cp'); [congruence|]. injection E as <- _. inversion F; lia.
        - pose proof (rune_utf8 cp s Hs H1) as R. rewrite <- Heq, (utf8_ascii cp' H2) in R.
          destruct (rune_some _ _ _ R) as (x & _ & _ & E & F & Hne). destruct (utf8 cp); [congruence|]. injection E as <- _. inversion F; lia.
        - pose proof (rune_utf8 cp' s' Hs' H2) as R. rewrite Heq, (rune_utf8 cp s Hs H1) in R. injection R as R1 R2. split; [apply utf8_inj; auto|auto]. }
      destruct G as [-> ->]. f_equal. apply IH, Hc'.
    + exfalso. symmetry in Heq. apply (Hn' cp s Hs). symmetry; symmetry; exact (eq_sym Heq).
  - inversion H' as [|cp' s' l0 Hs' Hc' Heq|c' s' l0 Hn' Hc' Heq].
    + exfalso. apply (Hn cp' s' Hs'). symmetry. exact Heq.
    + f_equal. apply IH, Hc'.
Qed.
Lemma shown_valid s t : valid_utf8 s -> shown s t -> t = s.
Proof.
  intros (cps & Hs & ->) (l & Hl & ->).
  assert (G : chars (flat_map utf8 cps) (map Some cps)).
  { clear Hl. induction Hs as [|cp cps H _ IH]; cbn; constructor; assumption. }
  rewrite (chars_det _ _ Hl _ G). clear. induction cps as [|c cps IH]; [reflexivity|]. cbn [map flat_map]. rewrite IH. reflexivity.
Qed.
Lemma shown_det s t t' : shown s t -> shown s t' -> t = t'.
Proof. intros (l & Hl & ->) (l' & Hl' & ->). rewrite (chars_det _ _ Hl _ Hl'). reflexivity. Qed.
Lemma ascii_valid s : Forall (fun c => c < 128) s -> valid_utf8 s.
Proof.
  intros H. exists s. split; [eapply Forall_impl; [|exact H]; intros c Hc; left; apply N.lt_trans with 128; [exact Hc|reflexivity]|].
  induction H as [|c s Hc _ IH]; [reflexivity|]. cbn [flat_map]. rewrite utf8_ascii, <- IH by exact Hc. reflexivity.
Qed.
