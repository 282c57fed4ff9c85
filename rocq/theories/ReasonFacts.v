(** * ReasonFacts: proofs about reasons. *)
From Coq Require Import Lia ZifyBool ZifyN ZifyNat String Ascii List.
From Verif Require Import GoBase Json Spec_Json JsonFacts BaseFacts Reason Spec_Reason.
Import ListNotations.
Local Open Scope N_scope.

(** ** White space and digits *)
Lemma blank_iff c : blank c = true <-> (c = 32 \/ c = 9 \/ c = 10 \/ c = 13).
Proof. unfold blank. rewrite !orb_true_iff, !N.eqb_eq. tauto. Qed.
Lemma skip_split s : exists w, s = w ++ skip_blank s /\ spaces w.
Proof.
  induction s as [|c s (w & H1 & H2)]; [exists []; split; [reflexivity|constructor]|].
  cbn [skip_blank]. destruct (blank c) eqn:B.
  - exists (c :: w). split; [cbn [app]; f_equal; exact H1|]. constructor; [apply blank_iff, B|exact H2].
  - exists []. split; [reflexivity|constructor].
Qed.
Lemma skip_spaces w s : spaces w -> skip_blank (w ++ s) = skip_blank s.
Proof.
  induction 1 as [|c w Hc Hw IH]; [reflexivity|]. cbn [app skip_blank].
  rewrite (proj2 (blank_iff c) Hc). exact IH.
Qed.
Lemma skip_all s : skip_blank s = [] <-> spaces s.
Proof.
  split.
  - intros H. destruct (skip_split s) as (w & H1 & H2). rewrite H, app_nil_r in H1. subst s. exact H2.
  - intros H. rewrite <- (app_nil_r s), (skip_spaces s [] H). reflexivity.
Qed.
Lemma skip_not c s : blank c = false -> skip_blank (c :: s) = c :: s.
Proof. intros H. cbn [skip_blank]. rewrite H. reflexivity. Qed.

Definition ends (r : gostr) : Prop := match r with [] => True | c :: _ => digit c = false end.
Lemma digits_split s d r : digits s = (d, r) -> s = d ++ r /\ forallb digit d = true /\ ends r.
Proof.
  revert d r. induction s as [|c s IH]; intros d r H; cbn [digits] in H.
  - injection H as <- <-. repeat split.
  - change (decimal_digit c) with (digit c) in H. destruct (digit c) eqn:B.
    + destruct (digits s) as [d' r'] eqn:D. injection H as <- <-. destruct (IH _ _ eq_refl) as (-> & H2 & H3).
      split; [reflexivity|]. split; [cbn [forallb]; rewrite B; exact H2|exact H3].
    + injection H as <- <-. split; [reflexivity|]. split; [reflexivity|exact B].
Qed.
Lemma digits_app d r : forallb digit d = true -> ends r -> digits (d ++ r) = (d, r).
Proof.
  induction d as [|c d IH]; intros Hd Hr; cbn [app digits].
  - destruct r as [|c r]; [reflexivity|]. cbn [digits]. change (decimal_digit c) with (digit c). cbn [ends] in Hr. rewrite Hr. reflexivity.
  - cbn [forallb] in Hd. apply andb_prop in Hd. destruct Hd as [Hc Hd]. change (decimal_digit c) with (digit c). rewrite Hc, (IH Hd Hr). reflexivity.
Qed.
Lemma plain_iff x d : plain_int (x :: d) = true <->
  forallb digit (x :: d) = true /\ ((x =? 48) && match d with [] => false | _ => true end) = false.
Proof.
  cbn [plain_int forallb]. destruct d as [|y d].
  - rewrite andb_false_r, andb_true_r. tauto.
  - rewrite andb_true_r. destruct (x =? 48); cbn [negb]; rewrite ?andb_false_r, ?andb_true_r; [split; [discriminate|intros [_ H]; discriminate H]|].
    split; [intros H; split; [exact H|reflexivity]|intros [H _]; exact H].
Qed.
Lemma digit_not_blank c : digit c = true -> blank c = false.
Proof. unfold digit, blank. intros H. rewrite !orb_false_iff, !N.eqb_neq. lia. Qed.
Lemma spaces_end w : spaces w -> ends w.
Proof. destruct 1 as [|c w Hc _]; [exact I|]. cbn [ends]. unfold digit. lia. Qed.
Lemma value_same d : fold_left (fun a c => 10 * a + (Z.of_N c - 48))%Z d 0%Z = value_of d.
Proof.
  unfold value_of. generalize 0%Z. induction d as [|c d IH]; intros a; [reflexivity|]. cbn [fold_left]. rewrite <- IH. f_equal. lia.
Qed.

(** ** Numbers *)
Lemma read_null w : spaces w -> read_int32 ([110; 117; 108; 108] ++ w) = Some 0%Z.
Proof. intros H. unfold read_int32. cbn. rewrite (proj2 (skip_all w) H). reflexivity. Qed.
Lemma read_digits x d w (neg : bool) : plain_int (x :: d) = true -> spaces w ->
  read_int32 ((if neg then [45] else []) ++ (x :: d) ++ w) =
  let v := if neg then (- value_of (x :: d))%Z else value_of (x :: d) in
  if ((- 2 ^ 31 <=? v) && (v <? 2 ^ 31))%Z then Some v else None.
Proof.
  intros Hp Hw. apply plain_iff in Hp. destruct Hp as [Hd Hz].
  assert (Hx : digit x = true) by (cbn [forallb] in Hd; apply andb_prop in Hd; apply Hd).
  assert (D : digits ((x :: d) ++ w) = (x :: d, w)) by (apply digits_app; [exact Hd|apply spaces_end, Hw]).
  assert (Hx' : 48 <= x <= 57) by (unfold digit in Hx; lia).
  unfold read_int32. destruct neg.
  - cbn [app]. rewrite skip_not by reflexivity. change (45 =? 110) with false. change (45 =? 45) with true. cbv iota.
    cbn [app] in D. rewrite D. rewrite Hz, (proj2 (skip_all w) Hw). cbv zeta. rewrite value_same. reflexivity.
  - cbn [app]. rewrite skip_not by (apply digit_not_blank, Hx). assert (x =? 110 = false) as -> by lia. assert (x =? 45 = false) as -> by lia.
    cbn [app] in D. rewrite D. rewrite Hz, (proj2 (skip_all w) Hw). cbv zeta. rewrite value_same. reflexivity.
Qed.
Lemma in_range v : ((- 2 ^ 31 <=? v) && (v <? 2 ^ 31))%Z = true <-> int32 v.
Proof. unfold int32. lia. Qed.
Lemma read_int32_iff b z : read_int32 b = Some z <-> exists w1 t w2, b = w1 ++ t ++ w2 /\ spaces w1 /\ spaces w2 /\
  ((t = key "null" /\ z = 0%Z) \/ (whole t z /\ int32 z)).
Proof.
  split.
  - intros H. unfold read_int32 in H. destruct (skip_split b) as (w1 & Hb & Hw1). exists w1.
    destruct (skip_blank b) as [|c s'] eqn:Es; [discriminate H|]. destruct (N.eqb_spec c 110) as [->|Hc].
    + destruct s' as [|u [|l [|l' r]]]; try discriminate H.
      destruct ((u =? 117) && (l =? 108) && (l' =? 108)) eqn:B; [|discriminate H].
      apply andb_prop in B. destruct B as [B B3]. apply andb_prop in B. destruct B as [B1 B2].
      apply N.eqb_eq in B1, B2, B3. subst u l l'. destruct (skip_blank r) eqn:Er; [|discriminate H]. injection H as <-.
      exists [110; 117; 108; 108], r. split; [exact Hb|]. split; [exact Hw1|]. split; [apply skip_all, Er|]. left. split; reflexivity.
    + destruct (digits (if c =? 45 then s' else c :: s')) as [d r] eqn:D. destruct (digits_split _ _ _ D) as (Hs & Hd & _).
      destruct d as [|x d']; [discriminate H|].
      destruct ((x =? 48) && match d' with [] => false | _ => true end) eqn:Hz; [discriminate H|].
      destruct (skip_blank r) eqn:Er; [|discriminate H]. apply skip_all in Er.
      assert (Hp : plain_int (x :: d') = true) by (apply plain_iff; split; assumption).
      cbv zeta in H. rewrite value_same in H. destruct (N.eqb_spec c 45) as [->|Hc'].
      * cbv zeta in H. destruct ((- 2 ^ 31 <=? - value_of (x :: d')) && (- value_of (x :: d') <? 2 ^ 31))%Z eqn:R; [|discriminate H].
        injection H as <-. exists (45 :: x :: d'), r. split; [rewrite Hb, Hs; reflexivity|]. split; [exact Hw1|]. split; [exact Er|].
        right. split; [|apply in_range, R]. exists (x :: d'). split; [exact Hp|]. right. split; reflexivity.
      * cbv zeta in H. destruct ((- 2 ^ 31 <=? value_of (x :: d')) && (value_of (x :: d') <? 2 ^ 31))%Z eqn:R; [|discriminate H].
        injection H as <-. exists (x :: d'), r. split; [rewrite Hb, Hs; reflexivity|]. split; [exact Hw1|]. split; [exact Er|].
        right. split; [|apply in_range, R]. exists (x :: d'). split; [exact Hp|]. left. split; reflexivity.
  - intros (w1 & t & w2 & -> & Hw1 & Hw2 & [(-> & ->)|((d & Hp & Hd) & Hr)]).
    + unfold read_int32. rewrite (skip_spaces w1) by exact Hw1. exact (read_null w2 Hw2).
    + assert (Hskip : forall x, read_int32 (w1 ++ x) = read_int32 x) by (intros x; unfold read_int32; rewrite (skip_spaces w1) by exact Hw1; reflexivity).
      rewrite Hskip. destruct d as [|x d]; [discriminate Hp|]. apply in_range in Hr.
      destruct Hd as [(-> & ->)|(-> & ->)].
      * pose proof (read_digits x d w2 false Hp Hw2) as G. cbv beta iota zeta in G. rewrite Hr in G. exact G.
      * pose proof (read_digits x d w2 true Hp Hw2) as G. cbv beta iota zeta in G. rewrite Hr in G. exact G.
Qed.
Lemma whole_int z : whole (json_int z) z.
Proof.
  unfold json_int. destruct (Z.ltb_spec z 0) as [Hn|Hp].
  - destruct (numeral_plain _ _ (uint_numeral (Z.to_N (- z)))) as (H1 & _ & H2). exists (json_uint (Z.to_N (- z))).
    split; [exact H1|]. right. split; [reflexivity|]. rewrite H2. lia.
  - destruct (numeral_plain _ _ (uint_numeral (Z.to_N z))) as (H1 & _ & H2). exists (json_uint (Z.to_N z)).
    split; [exact H1|]. left. split; [reflexivity|]. rewrite H2. lia.
Qed.

(** ** Strings *)
Lemma hex_same c : hex_digit_value c = hex_value c.
Proof. unfold hex_digit_value, hex_value. destruct ((48 <=? c) && (c <=? 57)); [reflexivity|]. destruct (N.leb_spec 97 c); cbn [andb].
  - destruct (c <=? 102); [f_equal; lia|]. destruct (N.leb_spec 65 c); cbn [andb]; [|reflexivity]. destruct (c <=? 70); [f_equal; lia|reflexivity].
  - destruct (N.leb_spec 65 c); cbn [andb]; [|reflexivity]. destruct (c <=? 70); [f_equal; lia|reflexivity].
Qed.
Lemma getu4_same a b c d : getu4 a b c d = hex4 a b c d.
Proof.
  unfold getu4, hex4. rewrite !hex_same. destruct (hex_value a); [|reflexivity]. destruct (hex_value b); [|reflexivity].
  destruct (hex_value c); [|reflexivity]. destruct (hex_value d); [|reflexivity]. f_equal. lia.
Qed.
Lemma put_front_some p o n r : put_front p o = Some (n, r) -> exists n', o = Some (n', r) /\ n = p ++ n'.
Proof. destruct o as [[t r']|]; [|discriminate]. cbn. intros H. injection H as <- <-. exists t. split; reflexivity. Qed.
Definition letter (c : N) : bool := ((65 <=? c) && (c <=? 90)) || (c =? 95).
Lemma encode_letter x n : forallb letter (encode_rune x ++ n) = true -> encode_rune x = [x] /\ forallb letter n = true.
Proof.
  unfold encode_rune, letter. destruct (N.ltb_spec x 128) as [H|H].
  - intros H'. split; [reflexivity|]. cbn [app forallb] in H'. apply andb_prop in H'. apply H'.
  - intros H'. exfalso. destruct (x <? 2048); [|destruct ((55296 <=? x) && (x <? 57344))];
      cbn [app forallb] in H'; apply andb_prop in H'; destruct H' as [H' _]; revert H'.
    + generalize (x / 64). intros y H'. lia.
    + intros H'. lia.
    + generalize (x / 4096). intros y H'. lia.
Qed.
Lemma unquote_spells k : forall s n r, (List.length s <= k)%nat -> forallb letter n = true -> unquote s = Some (n, r) ->
  exists t, s = t ++ 34 :: r /\ spells n t.
Proof.
  induction k as [|k IH]; intros s n r Hk Hn H; destruct s as [|c s]; try discriminate H; [cbn in Hk; lia|].
  cbn [List.length] in Hk. cbn [unquote] in H. destruct (N.eqb_spec c 34) as [->|H34].
  { injection H as <- <-. exists []. split; [reflexivity|constructor]. }
  destruct (N.eqb_spec c 92) as [->|H92].
  - destruct s as [|e r1]; [discriminate H|]. cbn [List.length] in Hk. destruct (N.eqb_spec e 117) as [->|He].
    + destruct r1 as [|h1 [|h2 [|h3 [|h4 r2]]]]; try discriminate H. cbn [List.length] in Hk.
      destruct (getu4 h1 h2 h3 h4) as [x|] eqn:G; [|discriminate H]. rewrite getu4_same in G.
      destruct (put_front_some _ _ _ _ H) as (n' & H' & ->). apply encode_letter in Hn. destruct Hn as [-> Hn].
      destruct (IH r2 n' r ltac:(lia) Hn H') as (t & -> & Ht). exists (92 :: 117 :: h1 :: h2 :: h3 :: h4 :: t).
      split; [reflexivity|]. cbn [app]. apply sp_u; assumption.
    + exfalso. repeat match type of H with (if ?b then _ else _) = _ => destruct b eqn:? end; try discriminate H;
        destruct (put_front_some _ _ _ _ H) as (n' & _ & ->); cbn [app forallb] in Hn; apply andb_prop in Hn; destruct Hn as [Hn _];
        unfold letter in Hn; lia.
  - destruct (N.ltb_spec c 32) as [Hl|Hl]; [discriminate H|]. destruct (put_front_some _ _ _ _ H) as (n' & H' & ->).
    cbn [app forallb] in Hn. apply andb_prop in Hn. destruct Hn as [_ Hn].
    destruct (IH s n' r ltac:(lia) Hn H') as (t & -> & Ht). exists (c :: t). split; [reflexivity|]. cbn [app]. apply sp_char; assumption.
Qed.
Lemma spells_unquote n t r : spells n t -> Forall (fun c => c < 128) n -> unquote (t ++ 34 :: r) = Some (n, r).
Proof.
  induction 1 as [|c n t H1 H2 H3 Ht IH|c n t h1 h2 h3 h4 Hh Ht IH]; intros Hn.
  - reflexivity.
  - inversion Hn; subst. cbn [app unquote]. rewrite (proj2 (N.eqb_neq c 34) H2), (proj2 (N.eqb_neq c 92) H3).
    assert (c <? 32 = false) as -> by lia. rewrite IH by assumption. reflexivity.
  - inversion Hn as [|? ? Hc]; subst. cbn [app unquote]. change (92 =? 34) with false. change (92 =? 92) with true. change (117 =? 117) with true.
    rewrite getu4_same, Hh, IH by assumption. unfold encode_rune. apply N.ltb_lt in Hc. rewrite Hc. reflexivity.
Qed.

(** ** The table *)
Lemma ltext_key s : ltext s = key s. Proof. reflexivity. Qed.
Lemma key_inj s t : key s = key t -> s = t.
Proof.
  unfold key. intros H. assert (list_ascii_of_string s = list_ascii_of_string t) as E.
  { revert H. generalize (list_ascii_of_string s) (list_ascii_of_string t). intros l. induction l as [|a l IH]; intros [|b m] H; try discriminate H; [reflexivity|].
    cbn in H. injection H as H1 H2. f_equal; [|apply IH, H2].
    rewrite <- (ascii_N_embedding a), <- (ascii_N_embedding b), H1. reflexivity. }
  rewrite <- (string_of_list_ascii_of_string s), <- (string_of_list_ascii_of_string t), E. reflexivity.
Qed.
Lemma declared_numbers : NoDup (map fst declared_reasons).
Proof. cbn. repeat constructor; cbn; intuition discriminate. Qed.
Lemma declared_names : NoDup (map snd declared_reasons).
Proof.
  assert (H : NoDup (map (fun p => key (snd p)) declared_reasons)).
  { assert (N0 : forallb (fun p => 1 =? List.length (filter (str_eqb (key (snd p))) (map (fun p => key (snd p)) declared_reasons)))%nat declared_reasons = true) by (vm_compute; reflexivity).
    revert N0. generalize declared_reasons. intros l H.
    assert (G : forall x, In x (map (fun p => key (snd p)) l) -> List.length (filter (str_eqb x) (map (fun p => key (snd p)) l)) = 1%nat).
    { intros x Hx. apply in_map_iff in Hx. destruct Hx as (p & <- & Hp). rewrite forallb_forall in H. symmetry. apply Nat.eqb_eq, H, Hp. }
    clear H. revert G. generalize (map (fun p : Z * string => key (snd p)) l). clear l. intros l.
    induction l as [|x l IH]; intros G; [constructor|].
    pose proof (G x (or_introl eq_refl)) as Gx. cbn [filter] in Gx. rewrite (proj2 (str_eqb_spec x x) eq_refl) in Gx. cbn [List.length] in Gx.
    assert (F : filter (str_eqb x) l = []) by (destruct (filter (str_eqb x) l); [reflexivity|cbn in Gx; lia]).
    assert (Hx : ~ In x l).
    { intros Hin. assert (In x (filter (str_eqb x) l)) as Hf by (apply filter_In; split; [exact Hin|apply str_eqb_spec; reflexivity]).
      rewrite F in Hf. exact Hf. }
    constructor; [exact Hx|]. apply IH. intros y Hy. specialize (G y (or_intror Hy)). cbn [filter] in G.
    destruct (str_eqb y x) eqn:Ey; [|exact G]. apply str_eqb_spec in Ey. subst y. contradiction. }
  clear -H. revert H. generalize declared_reasons. intros l. induction l as [|p l IH]; intros H; [constructor|].
  cbn [map] in *. inversion H as [|? ? H1 H2]; subst. constructor; [|apply IH, H2].
  intros Hin. apply H1. apply in_map_iff in Hin. destruct Hin as (q & Hq & Hq'). apply in_map_iff. exists q. split; [rewrite Hq; reflexivity|exact Hq'].
Qed.
Lemma declared_letters : forallb (fun p => forallb letter (key (snd p))) declared_reasons = true.
Proof. vm_compute. reflexivity. Qed.
Lemma names_declared : reason_names = declared_reasons. Proof. reflexivity. Qed.
Lemma values_declared : reason_values = declared_reasons. Proof. reflexivity. Qed.
Lemma name_of_iff l z s : NoDup (map fst l) -> (name_of l z = Some s <-> In (z, s) l).
Proof.
  induction l as [|[z' s'] l IH]; cbn [name_of map fst]; intros Hn; [split; [discriminate|intros []]|].
  inversion Hn as [|? ? H1 H2]; subst. destruct (Z.eqb_spec z' z) as [->|Hz].
  - split; [intros H; injection H as ->; left; reflexivity|]. intros [H|H]; [injection H as ->; reflexivity|].
    exfalso. apply H1. apply in_map_iff. exists (z, s). split; [reflexivity|exact H].
  - rewrite (IH H2). split; [intros H; right; exact H|]. intros [H|H]; [injection H as -> ->; contradiction|exact H].
Qed.
Lemma value_named_iff l n z : NoDup (map snd l) -> (value_named l n = Some z <-> exists s, In (z, s) l /\ n = key s).
Proof.
  induction l as [|[z' s'] l IH]; cbn [value_named map snd]; intros Hn; [split; [discriminate|intros (s & [] & _)]|].
  inversion Hn as [|? ? H1 H2]; subst. destruct (str_eqb (ltext s') n) eqn:En.
  - apply str_eqb_spec in En. rewrite ltext_key in En. split.
    + intros H. injection H as ->. exists s'. split; [left; reflexivity|symmetry; exact En].
    + intros (s & [H|H] & Hs); [injection H as -> ->; reflexivity|]. exfalso. apply H1.
      rewrite Hs in En. apply key_inj in En. subst s'. apply in_map_iff. exists (z, s). split; [reflexivity|exact H].
  - rewrite (IH H2). split; [intros (s & H & Hs); exists s; split; [right; exact H|exact Hs]|].
    intros (s & [H|H] & Hs); [|exists s; split; assumption]. injection H as -> ->. exfalso.
    assert (str_eqb (ltext s) n = true) by (apply str_eqb_spec; rewrite ltext_key; symmetry; exact Hs). congruence.
Qed.
Lemma letter_ascii n : forallb letter n = true -> Forall (fun c => c < 128) n.
Proof. rewrite forallb_forall, Forall_forall. intros H c Hc. specialize (H c Hc). unfold letter in H. lia. Qed.
Lemma declared_letter z s : In (z, s) declared_reasons -> forallb letter (key s) = true.
Proof. intros H. pose proof declared_letters as L. rewrite forallb_forall in L. exact (L (z, s) H). Qed.

Lemma quoted_iff q z : reason_json (34 :: q) = RVal z <->
  exists s t w, q = t ++ 34 :: w /\ spaces w /\ spells (key s) t /\ In (z, s) declared_reasons.
Proof.
  unfold reason_json. change (34 =? 34) with true. cbv iota. split.
  - intros H. destruct (unquote q) as [[n r]|] eqn:U; [|discriminate H]. destruct (skip_blank r) eqn:Sr; [|discriminate H].
    destruct (value_named reason_values n) as [z'|] eqn:V; [|discriminate H]. injection H as ->. rewrite values_declared in V.
    apply (value_named_iff _ _ _ declared_names) in V. destruct V as (s & Hs & ->).
    destruct (unquote_spells _ q _ r (le_n _) (declared_letter z s Hs) U) as (t & -> & Ht).
    exists s, t, r. split; [reflexivity|]. split; [apply skip_all, Sr|]. split; assumption.
  - intros (s & t & w & -> & Hw & Ht & Hs). rewrite (spells_unquote (key s) t w Ht (letter_ascii _ (declared_letter z s Hs))).
    rewrite (proj2 (skip_all w) Hw), values_declared.
    rewrite (proj2 (value_named_iff _ _ _ declared_names) (ex_intro _ s (conj Hs eq_refl))). reflexivity.
Qed.
Lemma unquoted_iff c b z : c <> 34 -> (reason_json (c :: b) = RVal z <-> read_int32 (c :: b) = Some z).
Proof.
  intros Hc. unfold reason_json. rewrite (proj2 (N.eqb_neq c 34) Hc). destruct (read_int32 (c :: b)); split; intros H; try discriminate H; congruence.
Qed.
Lemma letters_spell n : forallb letter n = true -> spells n n.
Proof.
  induction n as [|c n IH]; intros H; [constructor|]. cbn [forallb] in H. apply andb_prop in H. destruct H as [Hc H].
  unfold letter in Hc. apply sp_char; [lia|lia|lia|apply IH, H].
Qed.
Lemma string_named z s : In (z, s) declared_reasons -> reason_string z = key s.
Proof. intros H. unfold reason_string. rewrite names_declared, (proj2 (name_of_iff _ _ _ declared_numbers) H). reflexivity. Qed.
Lemma string_unnamed z : (forall s, ~ In (z, s) declared_reasons) -> reason_string z = json_int z.
Proof.
  intros H. unfold reason_string. rewrite names_declared. destruct (name_of declared_reasons z) as [s|] eqn:N0; [|reflexivity].
  exfalso. apply (H s). apply (name_of_iff _ _ _ declared_numbers), N0.
Qed.
Lemma named_or z : (exists s, In (z, s) declared_reasons) \/ forall s, ~ In (z, s) declared_reasons.
Proof.
  destruct (name_of declared_reasons z) as [s|] eqn:N0; [left; exists s; apply (name_of_iff _ _ _ declared_numbers), N0|].
  right. intros s H. apply (name_of_iff _ _ _ declared_numbers) in H. congruence.
Qed.
Lemma whole_inj s z z' : whole s z -> whole s z' -> z = z'.
Proof.
  intros (d & Hd & H) (d' & Hd' & H').
  assert (N45 : forall e, plain_int (45 :: e) = false) by (intros [|]; reflexivity).
  destruct H as [[-> ->]|[-> ->]], H' as [[H1 ->]|[H1 ->]].
  - subst. reflexivity.
  - subst. rewrite N45 in Hd. discriminate Hd.
  - subst d'. rewrite N45 in Hd'. discriminate Hd'.
  - injection H1 as ->. reflexivity.
Qed.
Lemma whole_letter s z : whole s z -> forallb letter s = true -> False.
Proof.
  intros (d & Hd & H) Hl. destruct d as [|x d]; [discriminate Hd|]. apply plain_iff in Hd. destruct Hd as [Hd _].
  cbn [forallb] in Hd. apply andb_prop in Hd. destruct Hd as [Hx _]. unfold digit in Hx.
  destruct H as [[-> _]|[-> _]]; cbn [forallb] in Hl; apply andb_prop in Hl; destruct Hl as [Hl _]; unfold letter in Hl; lia.
Qed.
Lemma string_inj z z' : reason_string z = reason_string z' -> z = z'.
Proof.
  intros H. destruct (named_or z) as [[s Hs]|Hs], (named_or z') as [[s' Hs']|Hs'].
  - rewrite (string_named z s Hs), (string_named z' s' Hs') in H. apply key_inj in H. subst s'.
    pose proof (proj2 (value_named_iff _ (key s) z declared_names) (ex_intro _ s (conj Hs eq_refl))) as V.
    rewrite (proj2 (value_named_iff _ (key s) z' declared_names) (ex_intro _ s (conj Hs' eq_refl))) in V. congruence.
  - exfalso. rewrite (string_named z s Hs), (string_unnamed z' Hs') in H. apply (whole_letter (json_int z') z'); [apply whole_int|].
    rewrite <- H. exact (declared_letter z s Hs).
  - exfalso. rewrite (string_named z' s' Hs'), (string_unnamed z Hs) in H. apply (whole_letter (json_int z) z); [apply whole_int|].
    rewrite H. exact (declared_letter z' s' Hs').
  - rewrite (string_unnamed z Hs), (string_unnamed z' Hs') in H. apply (whole_inj (json_int z)); [apply whole_int|]. rewrite H. apply whole_int.
Qed.
(** the quoted text of a reason *)
Lemma text_back z : reason_json (34 :: reason_string z ++ [34]) = RVal z <-> exists s, In (z, s) declared_reasons.
Proof.
  split.
  - intros H. destruct (named_or z) as [Hn|Hn]; [exact Hn|]. apply quoted_iff in H. destruct H as (s & _ & _ & _ & _ & _ & H). exists s. exact H.
  - intros (s & Hs). rewrite (string_named z s Hs). apply quoted_iff. exists s, (key s), []. split; [reflexivity|]. split; [constructor|].
    split; [apply letters_spell, (declared_letter z s Hs)|exact Hs].
Qed.
