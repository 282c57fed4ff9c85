(** * PkgJsonFacts: reading back what PkgJson.v writes. *)
From Coq Require Import Floats.SpecFloat String List ZArith Lia Bool.
From Verif Require Import GoBase Float64 SubRecords Records Package Storage Json PkgJson
  Spec_Bits Spec_Wf Spec_Rec Spec_Calendar Spec_Json Spec_PkgJson BaseFacts CalendarFacts JsonFacts DecWf DecWf2.
Import ListNotations.
Open Scope N_scope.

(** ** Base64 *)
Lemma b64_cases v : v < 64 ->
  (v < 26 /\ b64_char v = 65 + v) \/ (26 <= v < 52 /\ b64_char v = 71 + v) \/ (52 <= v < 62 /\ b64_char v = v - 4) \/
  (v = 62 /\ b64_char v = 43) \/ (v = 63 /\ b64_char v = 47).
Proof.
  intros H. unfold b64_char. destruct (N.ltb_spec v 26); [left; auto|]. destruct (N.ltb_spec v 52); [right; left; auto|].
  destruct (N.ltb_spec v 62); [right; right; left; auto|]. destruct (N.eqb_spec v 62); [right; right; right; left; auto|].
  right; right; right; right. split; [lia|reflexivity].
Qed.
Lemma sextet_char v : v < 64 -> sextet (b64_char v) = Some v /\ (b64_char v =? pad) = false /\ html_safe (b64_char v) = true.
Proof.
  intros H. assert (G : forallb (fun v => match sextet (b64_char v) with Some w => w =? v | None => false end &&
    negb (b64_char v =? pad) && html_safe (b64_char v)) (map N.of_nat (seq 0 64)) = true) by (vm_compute; reflexivity).
  rewrite forallb_forall in G. specialize (G v). rewrite !andb_true_iff, negb_true_iff in G.
  destruct G as [[G1 G2] G3]. { apply in_map_iff. exists (N.to_nat v). split; [lia|]. apply in_seq. lia. }
  destruct (sextet (b64_char v)); [|discriminate]. apply N.eqb_eq in G1. subst. auto.
Qed.
Lemma triple_ind (P : bytes -> Prop) : P [] -> (forall x, P [x]) -> (forall x y, P [x; y]) ->
  (forall x y z b, P b -> P (x :: y :: z :: b)) -> forall b, P b.
Proof.
  intros H0 H1 H2 H3 b. enough (G : forall n b, (List.length b <= n)%nat -> P b) by (apply (G (List.length b)); auto).
  induction n as [|n IH]; intros [|x [|y [|z b']]] Hl; cbn in Hl; auto; try lia. apply H3, IH. lia.
Qed.
Lemma div_lt a b c : b <> 0 -> a < b * c -> a / b < c.
Proof. intros. apply N.div_lt_upper_bound; assumption. Qed.
Lemma sext1 x : x < 256 -> x / 4 < 64. Proof. intros. apply div_lt; lia. Qed.
Lemma sext2 x y : y < 256 -> x mod 4 * 16 + y / 16 < 64.
Proof. intros. pose proof (N.mod_lt x 4). pose proof (div_lt y 16 16). lia. Qed.
Lemma sext3 y z : z < 256 -> y mod 16 * 4 + z / 64 < 64.
Proof. intros. pose proof (N.mod_lt y 16). pose proof (div_lt z 64 4). lia. Qed.
Lemma sext4 z : z mod 64 < 64. Proof. apply N.mod_lt. discriminate. Qed.
Lemma join1 x y : y < 256 -> 4 * (x / 4) + (x mod 4 * 16 + y / 16) / 16 = x.
Proof.
  intros. assert (y / 16 < 16) by (apply div_lt; lia). rewrite N.div_add_l by discriminate. rewrite (N.div_small (y / 16)) by assumption.
  rewrite N.add_0_r. symmetry. apply N.div_mod. discriminate.
Qed.
Lemma join2 x y z : y < 256 -> z < 256 -> (x mod 4 * 16 + y / 16) mod 16 * 16 + (y mod 16 * 4 + z / 64) / 4 = y.
Proof.
  intros. assert (y / 16 < 16) by (apply div_lt; lia). assert (z / 64 < 4) by (apply div_lt; lia).
  rewrite (N.add_comm (x mod 4 * 16)), N.mod_add by discriminate. rewrite (N.mod_small (y / 16)) by assumption.
  rewrite N.div_add_l by discriminate. rewrite (N.div_small (z / 64)) by assumption. rewrite N.add_0_r.
  rewrite N.mul_comm. symmetry. apply N.div_mod. discriminate.
Qed.
Lemma join3 y z : z < 256 -> (y mod 16 * 4 + z / 64) mod 4 * 64 + z mod 64 = z.
Proof.
  intros. assert (z / 64 < 4) by (apply div_lt; lia). rewrite (N.add_comm (y mod 16 * 4)), N.mod_add by discriminate.
  rewrite (N.mod_small (z / 64)) by assumption. rewrite N.mul_comm. symmetry. apply N.div_mod. discriminate.
Qed.
Lemma bytes_cons x b : bytes_ok (x :: b) = true -> x < 256 /\ bytes_ok b = true.
Proof. intros H. unfold bytes_ok in H. cbn [forallb] in H. apply andb_true_iff in H. destruct H as [H1 H2]. split; [apply byte_ok_lt; exact H1|exact H2]. Qed.
Lemma b64_spec b : bytes_ok b = true -> read_b64 (b64 b) = Some b /\ forallb html_safe (b64 b) = true.
Proof.
  induction b as [|x|x y|x y z b IH] using triple_ind; intros H; [split; reflexivity| | |].
  - apply bytes_cons in H. destruct H as [Hx _].
    pose proof (sextet_char _ (sext1 x Hx)) as (S1 & P1 & Q1). pose proof (sextet_char (x mod 4 * 16)) as S2.
    pose proof (sext2 x 0 ltac:(lia)) as L. rewrite N.div_0_l, N.add_0_r in L by discriminate. destruct (S2 L) as (S2' & P2 & Q2).
    cbn [b64]. cbn [read_b64 forallb]. rewrite S1, S2', Q1, Q2. split; [|reflexivity]. cbn [andb N.eqb pad Pos.eqb].
    pose proof (join1 x 0 ltac:(lia)) as J. rewrite N.div_0_l, N.add_0_r in J by discriminate. rewrite J. reflexivity.
  - apply bytes_cons in H. destruct H as [Hx H]. apply bytes_cons in H. destruct H as [Hy _].
    pose proof (sextet_char _ (sext1 x Hx)) as (S1 & P1 & Q1). pose proof (sextet_char _ (sext2 x y Hy)) as (S2 & P2 & Q2).
    pose proof (sext3 y 0 ltac:(lia)) as L. rewrite N.div_0_l, N.add_0_r in L by discriminate. pose proof (sextet_char _ L) as (S3 & P3 & Q3).
    cbn [b64]. cbn [read_b64 forallb]. rewrite S1, S2, S3, P3, Q1, Q2, Q3. split; [|reflexivity]. cbn [andb N.eqb pad Pos.eqb].
    rewrite (join1 x y Hy). pose proof (join2 x y 0 Hy ltac:(lia)) as J. rewrite N.div_0_l, N.add_0_r in J by discriminate. rewrite J. reflexivity.
  - apply bytes_cons in H. destruct H as [Hx H]. apply bytes_cons in H. destruct H as [Hy H]. apply bytes_cons in H. destruct H as [Hz H].
    destruct (IH H) as [I1 I2].
    pose proof (sextet_char _ (sext1 x Hx)) as (S1 & P1 & Q1). pose proof (sextet_char _ (sext2 x y Hy)) as (S2 & P2 & Q2).
    pose proof (sextet_char _ (sext3 y z Hz)) as (S3 & P3 & Q3). pose proof (sextet_char _ (sext4 z)) as (S4 & P4 & Q4).
    cbn [b64 app]. cbn [read_b64 forallb]. rewrite S1, S2, S3, S4, P3, P4, Q1, Q2, Q3, Q4, I1, I2. split; [|reflexivity]. cbn [andb].
    rewrite (join1 x y Hy), (join2 x y z Hy Hz), (join3 y z Hz).
    destruct (b64 b) eqn:Eb; [|reflexivity].
    cbn in I1. injection I1 as <-. reflexivity.
Qed.

(** ** Quoted plain text *)
Lemma reads_plain s : forallb html_safe s = true -> reads_as ([34] ++ s ++ [34]) (JStr s).
Proof.
  intros H fuel rest _ Hl. destruct fuel as [|f]; [cbn in Hl; lia|]. cbn [app read_value]. change (34 =? 34) with true. cbv iota.
  rewrite <- app_assoc. rewrite read_key by exact H. reflexivity.
Qed.
Lemma reads_bytes b : bytes_ok b = true -> exists v, reads_as (json_bytes b) v /\ jbytes b v.
Proof.
  intros H. destruct b as [|x b]; [exists JNull; split; [apply reads_null|reflexivity]|].
  destruct (b64_spec _ H) as [H1 H2]. exists (JStr (b64 (x :: b))). split; [apply reads_plain; exact H2|].
  exists (b64 (x :: b)). auto.
Qed.

(** ** Instants *)
Lemma dec_digits_safe w : forall v, forallb html_safe (dec_digits w v) = true.
Proof.
  induction w as [|w IH]; intros v; [reflexivity|]. cbn [dec_digits]. rewrite forallb_app, IH. cbn [forallb andb]. rewrite andb_true_r.
  assert (Z.of_N (Z.to_N (48 + v mod 10)) = 48 + v mod 10)%Z by (apply Z2N.id; pose proof (Z.mod_pos_bound v 10); lia).
  pose proof (Z.mod_pos_bound v 10). set (c := Z.to_N (48 + v mod 10)) in *. assert (48 <= c <= 57) by lia.
  unfold html_safe. rewrite !andb_true_iff, negb_true_iff, !orb_false_iff, N.leb_le, N.ltb_lt, !N.eqb_neq. lia.
Qed.
Lemma rfc_tail t : exists s, rfc3339 t = s ++ [90] /\ forallb html_safe s = true.
Proof.
  unfold rfc3339. destruct (civil_of_days (unix_of t / 86400)) as [[y m] d].
  eexists. split; [rewrite !app_assoc; reflexivity|]. rewrite !forallb_app, !dec_digits_safe. reflexivity.
Qed.
Lemma whole_fraction v : time_fraction (time_decode v) = [].
Proof. unfold time_fraction, time_decode. rewrite Z.mod_mul by discriminate. reflexivity. Qed.
Lemma json_time_ok v : v < 2 ^ 32 -> json_time (time_decode v) = Some ([34] ++ rfc3339 (time_decode v) ++ [34]).
Proof.
  intros H. unfold json_time. rewrite whole_fraction. destruct (unix_split v) as (H1 & _). rewrite H1, civil_2010.
  assert (v / 86400 < 49711) by (apply div_lt; change (2 ^ 32) with 4294967296 in H; lia).
  pose proof (year_range (v / 86400) H0) as Y. destruct (days_after_2010 (v / 86400)) as [[y m] d].
  assert ((0 <=? y)%Z && (y <=? 9999)%Z = true) as -> by (apply andb_true_iff; rewrite !Z.leb_le; lia).
  destruct (rfc_tail (time_decode v)) as (s & -> & _). rewrite removelast_last. rewrite <- !app_assoc. reflexivity.
Qed.
Lemma reads_time v : v < 2 ^ 32 -> exists t w, json_time (time_decode v) = Some t /\ reads_as t w /\ jinstant (time_decode v) w.
Proof.
  intros H. rewrite (json_time_ok v H). do 2 eexists. split; [reflexivity|]. split; [apply reads_plain|].
  - destruct (rfc_tail (time_decode v)) as (s & -> & Hs). rewrite forallb_app, Hs. reflexivity.
  - do 2 eexists. split; [reflexivity|]. split; [reflexivity|]. apply rfc_instant. exact H.
Qed.

(** ** Reading is stable: a value that reads from the start of a text reads the
    same with more fuel and more text behind it *)
Lemma read_str_more s : forall t r x, read_str s = Some (t, r) -> read_str (s ++ x) = Some (t, r ++ x) /\ (List.length r < List.length s)%nat.
Proof.
  enough (G : forall n s, (List.length s <= n)%nat -> forall t r x, read_str s = Some (t, r) -> read_str (s ++ x) = Some (t, r ++ x) /\ (List.length r < List.length s)%nat)
    by (intros; eapply G; eauto).
  clear s. induction n as [|n IH]; intros [|c s] Hl t r x H; try discriminate H; [cbn in Hl; lia|].
  assert (P : forall p o, prepend p o = Some (t, r) -> exists t', o = Some (t', r) /\ t = p ++ t').
  { intros p [[t' r']|] Hp; [|discriminate]. injection Hp as <- <-. eauto. }
  cbn [read_str app List.length] in *. destruct (c =? 34); [injection H as <- <-; split; [reflexivity|lia]|].
  destruct (c =? 92).
  - destruct s as [|e s]; [discriminate|]. cbn [app List.length] in *. destruct (e =? 117).
    + destruct s as [|h1 [|h2 [|h3 [|h4 s]]]]; try discriminate H. cbn [app List.length] in *.
      destruct (hex4 h1 h2 h3 h4); [|discriminate]. destruct ((n0 <? 55296) || (57344 <=? n0)); [|discriminate].
      apply P in H. destruct H as (t' & Ho & ->). destruct (IH s ltac:(lia) _ _ x Ho) as [-> L]. split; [reflexivity|lia].
    + destruct (escaped e); [|discriminate]. apply P in H. destruct H as (t' & Ho & ->).
      destruct (IH s ltac:(lia) _ _ x Ho) as [-> L]. split; [reflexivity|lia].
  - destruct (c <? 32); [discriminate|]. apply P in H. destruct H as (t' & Ho & ->).
    destruct (IH s ltac:(lia) _ _ x Ho) as [-> L]. split; [reflexivity|lia].
Qed.
Lemma read_num_more s v c r x : read_num s = Some (v, c :: r) ->
  read_num (s ++ x) = Some (v, (c :: r) ++ x) /\ (List.length (c :: r) < List.length s)%nat.
Proof.
  unfold read_num. destruct (span number_char s) as [t q] eqn:Es. intros H.
  assert (Hq : q = c :: r).
  { destruct (plain_int t); [injection H as _ <-; reflexivity|]. destruct t as [|d t]; [discriminate|].
    destruct ((d =? 45) && plain_int t && negb (str_eqb t [48])); [injection H as _ <-; reflexivity|].
    destruct (number (d :: t)); [injection H as _ <-; reflexivity|discriminate]. }
  subst q. destruct (span_split _ _ _ _ Es) as (-> & H1 & H2).
  rewrite <- app_assoc. rewrite (span_app _ t ((c :: r) ++ x) H1 H2).
  assert (t <> []) by (intros ->; discriminate H).
  split; [|rewrite app_length; destruct t; [congruence|cbn; lia]].
  destruct (plain_int t); [injection H as <-; reflexivity|]. destruct t as [|d t]; [discriminate|].
  destruct ((d =? 45) && plain_int t && negb (str_eqb t [48])); [injection H as <-; reflexivity|].
  destruct (number (d :: t)); [injection H as <-; reflexivity|discriminate].
Qed.
Definition num_head (s : gostr) : Prop :=
  match s with c :: _ => (c =? 34) || (c =? 123) || (c =? 91) || (c =? 110) || (c =? 116) || (c =? 102) = false | [] => True end.
Lemma read_more f : forall s,
  (forall v r x g, read_value f s = Some (v, r) -> (num_head s -> r <> []) -> (List.length s <= g + List.length r)%nat ->
     read_value g (s ++ x) = Some (v, r ++ x) /\ (List.length r < List.length s)%nat) /\
  (forall v r x g, read_items f s = Some (v, r) -> (List.length s <= g + List.length r)%nat ->
     read_items g (s ++ x) = Some (v, r ++ x) /\ (List.length r < List.length s)%nat) /\
  (forall v r x g, read_members f s = Some (v, r) -> (List.length s <= g + List.length r)%nat ->
     read_members g (s ++ x) = Some (v, r ++ x) /\ (List.length r < List.length s)%nat).
Proof.
  induction f as [|f IH]; intros s; [repeat split; intros; discriminate|].
  assert (Hr : forall x s, read_value f s = Some x -> snd x = [] \/ snd x <> []) by (intros [? []]; [left|right]; cbn; congruence).
  split; [|split].
  - intros v r x g H Hne Hg. destruct s as [|c s]; [discriminate|]. cbn [read_value] in H. cbn [num_head] in Hne.
    cbn [List.length] in *.
    destruct (c =? 34) eqn:E1.
    { destruct (read_str s) as [[t q]|] eqn:Er; [|discriminate]. injection H as <- <-.
      destruct (read_str_more _ _ _ x Er) as [Hm Hl]. destruct g as [|g]; [lia|]. cbn [app read_value]. rewrite E1, Hm. split; [reflexivity|lia]. }
    destruct (c =? 123) eqn:E2.
    { destruct s as [|d s]; [discriminate|]. destruct (d =? 125) eqn:Ed.
      - injection H as <- <-. cbn [List.length] in *. destruct g as [|g]; [lia|]. cbn [app read_value]. rewrite E1, E2, Ed. split; [reflexivity|lia].
      - destruct (read_members f (d :: s)) as [[m q]|] eqn:Er; [|discriminate]. injection H as <- <-.
        destruct g as [|g]; [exfalso; destruct (proj2 (proj2 (IH (d :: s))) _ _ x (List.length (d :: s)) Er ltac:(lia)) as [_ L]; lia|].
        destruct (proj2 (proj2 (IH (d :: s))) _ _ x g Er ltac:(lia)) as [Hm Hl].
        cbn [app] in *. cbn [read_value]. rewrite E1, E2, Ed, Hm. split; [reflexivity|lia]. }
    destruct (c =? 91) eqn:E3.
    { destruct s as [|d s]; [discriminate|]. destruct (d =? 93) eqn:Ed.
      - injection H as <- <-. cbn [List.length] in *. destruct g as [|g]; [lia|]. cbn [app read_value]. rewrite E1, E2, E3, Ed. split; [reflexivity|lia].
      - destruct (read_items f (d :: s)) as [[m q]|] eqn:Er; [|discriminate]. injection H as <- <-.
        destruct g as [|g]; [exfalso; destruct (proj1 (proj2 (IH (d :: s))) _ _ x (List.length (d :: s)) Er ltac:(lia)) as [_ L]; lia|].
        destruct (proj1 (proj2 (IH (d :: s))) _ _ x g Er ltac:(lia)) as [Hm Hl].
        cbn [app] in *. cbn [read_value]. rewrite E1, E2, E3, Ed, Hm. split; [reflexivity|lia]. }
    destruct (c =? 110) eqn:E4.
    { destruct s as [|u [|l1 [|l2 s]]]; try discriminate H. destruct ((u =? 117) && (l1 =? 108) && (l2 =? 108)) eqn:Ed; [|discriminate].
      injection H as <- <-. cbn [List.length] in *. destruct g as [|g]; [lia|]. cbn [app read_value]. rewrite E1, E2, E3, E4, Ed. split; [reflexivity|lia]. }
    destruct (c =? 116) eqn:E5.
    { destruct s as [|u [|l1 [|l2 s]]]; try discriminate H. destruct ((u =? 114) && (l1 =? 117) && (l2 =? 101)) eqn:Ed; [|discriminate].
      injection H as <- <-. cbn [List.length] in *. destruct g as [|g]; [lia|]. cbn [app read_value]. rewrite E1, E2, E3, E4, E5, Ed. split; [reflexivity|lia]. }
    destruct (c =? 102) eqn:E6.
    { destruct s as [|u [|l1 [|l2 [|l3 s]]]]; try discriminate H. destruct ((u =? 97) && (l1 =? 108) && (l2 =? 115) && (l3 =? 101)) eqn:Ed; [|discriminate].
      injection H as <- <-. cbn [List.length] in *. destruct g as [|g]; [lia|]. cbn [app read_value]. rewrite E1, E2, E3, E4, E5, E6, Ed. split; [reflexivity|lia]. }
    cbn [orb] in Hne. specialize (Hne eq_refl). destruct r as [|d r]; [congruence|].
    destruct (read_num_more _ _ _ _ x H) as [Hm Hl]. cbn [List.length] in *. destruct g as [|g]; [lia|].
    cbn [app] in *. cbn [read_value]. rewrite E1, E2, E3, E4, E5, E6, Hm. split; [reflexivity|lia].
  - intros v r x g H Hg. cbn [read_items] in H. destruct (read_value f s) as [[w [|c q]]|] eqn:Er; try discriminate H.
    destruct (proj1 (IH s) _ _ x (List.length s) Er ltac:(discriminate) ltac:(lia)) as [_ Hl]. cbn [List.length] in Hl.
    destruct (c =? 93) eqn:Ec.
    + injection H as <- <-. destruct g as [|g]; [lia|].
      destruct (proj1 (IH s) _ _ x g Er ltac:(discriminate) ltac:(cbn [List.length]; lia)) as [Hm _].
      cbn [read_items]. rewrite Hm. cbn [app]. rewrite Ec. split; [reflexivity|lia].
    + destruct (c =? 44) eqn:Ec2; [|discriminate]. destruct (read_items f q) as [[l q']|] eqn:Ei; [|discriminate]. injection H as <- <-.
      destruct (proj1 (proj2 (IH q)) _ _ x (List.length q) Ei ltac:(lia)) as [_ Hl2]. destruct g as [|g]; [lia|].
      destruct (proj1 (IH s) _ _ x g Er ltac:(discriminate) ltac:(cbn [List.length]; lia)) as [Hm _].
      destruct (proj1 (proj2 (IH q)) _ _ x g Ei ltac:(lia)) as [Hm2 _].
      cbn [read_items]. rewrite Hm. cbn [app]. rewrite Ec, Ec2, Hm2. split; [reflexivity|lia].
  - intros v r x g H Hg. destruct s as [|q s]; [discriminate|]. cbn [read_members List.length] in *.
    destruct (q =? 34) eqn:Eq; [|discriminate]. destruct (read_str s) as [[k [|colon s2]]|] eqn:Es; try discriminate H.
    destruct (read_str_more _ _ _ x Es) as [Hms Hls]. cbn [List.length] in Hls.
    destruct (colon =? 58) eqn:Eco; [|discriminate].
    destruct (read_value f s2) as [[w [|c q2]]|] eqn:Er; try discriminate H.
    destruct (proj1 (IH s2) _ _ x (List.length s2) Er ltac:(discriminate) ltac:(lia)) as [_ Hl]. cbn [List.length] in Hl.
    destruct (c =? 125) eqn:Ec.
    + injection H as <- <-. destruct g as [|g]; [lia|].
      destruct (proj1 (IH s2) _ _ x g Er ltac:(discriminate) ltac:(cbn [List.length]; lia)) as [Hm _].
      cbn [app] in *. cbn [read_members]. rewrite Eq, Hms. cbn [app]. rewrite Eco, Hm. rewrite Ec. split; [reflexivity|lia].
    + destruct (c =? 44) eqn:Ec2; [|discriminate]. destruct (read_members f q2) as [[l q']|] eqn:Ei; [|discriminate]. injection H as <- <-.
      destruct (proj2 (proj2 (IH q2)) _ _ x (List.length q2) Ei ltac:(lia)) as [_ Hl2]. destruct g as [|g]; [lia|].
      destruct (proj1 (IH s2) _ _ x g Er ltac:(discriminate) ltac:(cbn [List.length]; lia)) as [Hm _].
      destruct (proj2 (proj2 (IH q2)) _ _ x g Ei ltac:(lia)) as [Hm2 _].
      cbn [app] in *. cbn [read_members]. rewrite Eq, Hms. cbn [app]. rewrite Eco, Hm. rewrite Ec, Ec2, Hm2. split; [reflexivity|lia].
Qed.
Lemma reads_object t ms : read_json t = Some (JObj ms) -> reads_as t (JObj ms).
Proof.
  unfold read_json. destruct (read_value (S (List.length t)) t) as [[v [|]]|] eqn:H; try discriminate. intros Hv. injection Hv as ->.
  intros g rest _ Hg.
  assert (Hn : num_head t -> [] <> [] :> gostr).
  { intros Hn. exfalso. destruct t as [|c t]; [discriminate|]. cbn [num_head] in Hn. rewrite !orb_false_iff in Hn. destruct Hn as [[[[[E1 E2] E3] E4] E5] E6].
    cbn [read_value] in H. rewrite E1, E2, E3, E4, E5, E6 in H. unfold read_num in H. destruct (span number_char (c :: t)) as [a b].
    destruct (plain_int a); [discriminate|]. destruct a as [|d a]; [discriminate|].
    destruct ((d =? 45) && plain_int a && negb (str_eqb a [48])); [discriminate|]. destruct (number (d :: a)); discriminate. }
  destruct (proj1 (read_more _ t) _ _ rest g H Hn ltac:(cbn; lia)) as [Hm _]. exact Hm.
Qed.

Lemma reads_array l vs : Forall2 reads_as l vs -> reads_as (json_array l) (JArr vs).
Proof.
  intros H. destruct H as [|t v l vs Ht H].
  - intros [|f] rest _ Hl; [cbn in Hl; lia|]. reflexivity.
  - assert (G := reads_slice (t :: l) (v :: vs) (Forall2_cons _ _ Ht H)). exact G.
Qed.
Lemma fld_any (k : string) txt (p : json -> Prop) : forallb html_safe (ltext k) = true -> (exists v, reads_as txt v /\ p v) ->
  fst (k, txt) = fst (k, p) /\ forallb html_safe (ltext (fst (k, txt))) = true /\ exists v, reads_as (snd (k, txt)) v /\ snd (k, p) v.
Proof. intros H1 H2. auto. Qed.
Lemma split_reads {A} (p : A -> json -> Prop) ts l : Forall2 (fun t x => exists v, reads_as t v /\ p x v) ts l ->
  exists vs, Forall2 reads_as ts vs /\ Forall2 p l vs.
Proof. induction 1 as [|t x ts xs (v & H1 & H2) _ (vs & I1 & I2)]; [exists []; split; constructor|]. exists (v :: vs). split; constructor; assumption. Qed.

Section Pkg.
Context {E : go_env}.
Variable ft : f64 -> gostr.
Variable jf : f64 -> json.
Variable pj : pb_msg -> option gostr.
Variable jp : pb_msg -> json -> Prop.
Hypothesis Hft : forall x, ok_float x -> read_num (ft x) = Some (jf x, []).
Hypothesis Hpj : forall b m t, bytes_ok b = true -> pb_unmarshal b = Some m -> pj m = Some t -> exists ms, read_json t = Some (JObj ms) /\ jp m (JObj ms).
Hypothesis Hco : forall full v, full = 90 \/ full = 180 -> v < 2 ^ 32 -> ok_float (coord_decode full v).

Ltac fields := repeat first [apply Forall2_cons | apply Forall2_nil | apply fld_nat; reflexivity | apply fld_text; reflexivity].

Lemma pos_read e b : bytes_ok b = true -> pos_decode b = Ok e ->
  exists t, json_pos ft e = Some t /\ exists v, reads_as t v /\ pos_sub_doc jf e v.
Proof.
  intros Hb Hd. destruct (pos_dec_wf b e Hb Hd) as (_ & _ & (vt & Ht & Et) & (va & Ha & Ea) & (vo & Ho & Eo)).
  unfold json_pos, pos_sub_doc. rewrite Et, Ea, Eo.
  destruct (reads_time vt Ht) as (t & w & -> & Hr & Hi).
  destruct (float_some ft jf Hft _ (Hco 90 va (or_introl eq_refl) Ha)) as (-> & Ra).
  destruct (float_some ft jf Hft _ (Hco 180 vo (or_intror eq_refl) Ho)) as (-> & Ro).
  eexists. split; [reflexivity|]. apply obj_read; [|discriminate].
  apply Forall2_cons; [apply fld_any; [reflexivity|exists w; auto]|].
  apply Forall2_cons; [apply fld_any; [reflexivity|eexists; split; [exact Ra|reflexivity]]|].
  apply Forall2_cons; [apply fld_any; [reflexivity|eexists; split; [exact Ro|reflexivity]]|].
  fields.
Qed.
Lemma term_read e : wf_term e = true -> exists v, reads_as (json_term e) v /\ term_sub_doc e v.
Proof.
  intros Hw. assert (Hn : bytes_ok (NID e) = true).
  { unfold wf_term in Hw. rewrite !andb_true_iff in Hw.
    assert (Hx : opt_bytes 3 (NIDE e) (NID e) = true) by tauto. clear Hw. unfold opt_bytes in Hx.
    repeat match type of Hx with context [if ?c then _ else _] => destruct c end; rewrite ?andb_true_iff in Hx; try tauto;
      destruct (NID e); try reflexivity; try discriminate Hx; try (destruct Hx; discriminate). }
  apply obj_read; [|discriminate]. fields. apply fld_any; [reflexivity|]. apply reads_bytes. exact Hn.
Qed.
Lemma sr_read d : dec_sr d -> (forall m, d = SRPlus m -> pj m <> None) ->
  exists t, json_sr ft pj d = Some t /\ exists v, reads_as t v /\ sub_doc jf jp d v.
Proof.
  intros Hd Hm. destruct d; cbn [dec_sr json_sr sub_doc] in *;
    try (eexists; split; [reflexivity|]; apply obj_read; [|discriminate]; fields; fail).
  - destruct Hd as (b & Hb & Hd). eapply pos_read; eassumption.
  - eexists. split; [reflexivity|]. apply term_read. exact Hd.
  - specialize (Hm _ eq_refl). destruct (pj m) as [t|] eqn:Et; [|congruence]. exists t. split; [reflexivity|].
    destruct Hd as (b & Hb & Hu). destruct (Hpj _ _ _ Hb Hu Et) as (ms & E1 & E2). exists (JObj ms). split; [apply reads_object; exact E1|exact E2].
  - contradiction.
Qed.
Lemma rd_read rd : dec_rd rd -> (forall m, SRD rd = SRPlus m -> pj m <> None) ->
  exists t, json_rd ft pj rd = Some t /\ exists v, reads_as t v /\ rd_doc jf jp rd v.
Proof.
  intros (Hd & _) Hm. unfold json_rd. destruct (sr_read _ Hd Hm) as (t & -> & Hv). eexists. split; [reflexivity|].
  apply obj_read; [|discriminate]. fields. apply fld_any; [reflexivity|]. exact Hv.
Qed.
Lemma sdr_read last s : dec_sdr s -> (forall m, In m (set_messages [s]) -> pj m <> None) ->
  exists t, json_sdr ft pj last s = Some t /\ exists v, reads_as t v /\ sdr_doc jf jp s v.
Proof.
  intros Hs Hm. destruct Hs as (_ & _ & _ & _ & _ & _ & _ & _ & _ & _ & _ & Hs). unfold json_sdr.
  destruct (all_some_spec (json_rd ft pj) (fun t x => exists v, reads_as t v /\ rd_doc jf jp x v) (RD s)) as (ts & -> & Hts).
  { intros rd Hin. rewrite Forall_forall in Hs. apply rd_read; [apply Hs, Hin|]. intros m Hrd. apply Hm.
    unfold set_messages. cbn [flat_map]. rewrite app_nil_r. apply in_flat_map. exists rd. split; [exact Hin|]. rewrite Hrd. left. reflexivity. }
  eexists. split; [reflexivity|]. apply obj_read; [|discriminate]. fields. apply fld_any; [reflexivity|].
  apply split_reads in Hts. destruct Hts as (vs & H1 & H2). unfold rds_doc.
  destruct last.
  - eexists. split; [apply reads_slice; exact H1|]. destruct H2; [right; auto|]. left. eexists. split; [reflexivity|]. constructor; assumption.
  - eexists. split; [apply reads_array; exact H1|]. left. eexists. split; [reflexivity|]. exact H2.
Qed.
Lemma sds_read l : Forall dec_sdr l -> (forall m, In m (set_messages l) -> pj m <> None) ->
  exists t, json_sds ft pj l = Some t /\ exists v, reads_as t v /\ jarray (sdr_doc jf jp) l v.
Proof.
  intros Hl Hm. unfold json_sds.
  assert (G : exists ts, all_some (json_sdrs ft pj l) = Some ts /\ Forall2 (fun t x => exists v, reads_as t v /\ sdr_doc jf jp x v) ts l).
  { induction Hl as [|s l Hs Hl IH]; [exists []; split; [reflexivity|constructor]|].
    destruct IH as (ts & H1 & H2). { intros m Hin. apply Hm. unfold set_messages in *. cbn [flat_map]. apply in_or_app. right. exact Hin. }
    cbn [json_sdrs]. destruct (sdr_read (match l with [] => true | _ => false end) s Hs) as (t & Ht & Hv).
    { intros m Hin. apply Hm. unfold set_messages in *. cbn [flat_map] in *. rewrite app_nil_r in Hin. apply in_or_app. left. exact Hin. }
    rewrite Ht. cbn [all_some]. rewrite H1. exists (t :: ts). split; [reflexivity|]. constructor; assumption. }
  destruct G as (ts & -> & Hts). eexists. split; [reflexivity|]. apply split_reads in Hts. destruct Hts as (vs & H1 & H2).
  eexists. split; [apply reads_array; exact H1|]. eexists. split; [reflexivity|]. exact H2.
Qed.
Lemma pkg_read p f : pSFRD p = Some f -> dec_frame f -> (forall m, In m (messages p) -> pj m <> None) ->
  exists t v, pkg_to_bytes ft pj p = Some t /\ read_json t = Some v /\ package_doc jf jp p v.
Proof.
  intros Hf Hd Hm. unfold messages in Hm. rewrite Hf in Hm.
  assert (G : exists t, json_frame ft pj f = Some t /\ exists v, reads_as t v /\ frame_doc jf jp f v).
  { destruct f as [l|r]; cbn [json_frame frame_doc dec_frame] in *.
    - apply sds_read; assumption.
    - destruct Hd as (_ & _ & Hd). destruct (SDRS r) as [l|].
      + destruct Hd as (_ & Hd). destruct (sds_read l Hd Hm) as (t & -> & Hv). eexists. split; [reflexivity|].
        apply obj_read; [|discriminate]. fields. apply fld_any; [reflexivity|]. exact Hv.
      + eexists. split; [reflexivity|]. apply obj_read; [|discriminate]. fields. apply fld_any; [reflexivity|].
        exists JNull. split; [apply reads_null|reflexivity]. }
  destruct G as (t & Ht & Hv). unfold pkg_to_bytes, package_doc. rewrite Hf, Ht.
  match goal with |- context [json_struct ?fs] => set (flds := fs) end.
  match goal with |- context [jstruct ?fs] => set (ps := fs) end.
  assert (R : exists v, reads_as (json_struct flds) v /\ jstruct ps v).
  { apply obj_read; [|discriminate]. unfold flds, ps. fields; apply fld_any; try reflexivity. exact Hv. }
  destruct R as (v & R1 & R2). exists (json_struct flds), v. split; [reflexivity|]. split; [apply read_json_ok; exact R1|exact R2].
Qed.
(** when some message has no text *)
Lemma all_some_none {A B} (f : A -> option B) l x : In x l -> f x = None -> all_some (map f l) = None.
Proof.
  induction l as [|y l IH]; [intros []|]. intros [->|Hin] Hx; cbn [map all_some]; [rewrite Hx; reflexivity|].
  destruct (f y); [|reflexivity]. rewrite (IH Hin Hx). reflexivity.
Qed.
Lemma sdr_none last s m : In m (set_messages [s]) -> pj m = None -> json_sdr ft pj last s = None.
Proof.
  intros Hin Hm. unfold set_messages in Hin. cbn [flat_map] in Hin. rewrite app_nil_r in Hin. apply in_flat_map in Hin.
  destruct Hin as (rd & Hr & Hin). unfold json_sdr. rewrite (all_some_none _ _ rd Hr); [reflexivity|].
  unfold json_rd. destruct (SRD rd); try contradiction. destruct Hin as [->|[]]. cbn [json_sr]. rewrite Hm. reflexivity.
Qed.
Lemma sds_none l m : In m (set_messages l) -> pj m = None -> json_sds ft pj l = None.
Proof.
  intros Hin Hm. unfold json_sds. assert (all_some (json_sdrs ft pj l) = None) as ->; [|reflexivity].
  induction l as [|s l IH]; [contradiction|]. unfold set_messages in Hin. cbn [flat_map] in Hin. apply in_app_or in Hin.
  cbn [json_sdrs]. destruct Hin as [Hin|Hin].
  - rewrite (sdr_none _ s m); [reflexivity| |exact Hm]. unfold set_messages. cbn [flat_map]. rewrite app_nil_r. exact Hin.
  - cbn [all_some]. destruct (json_sdr ft pj _ s); [|reflexivity]. rewrite (IH Hin). reflexivity.
Qed.
Lemma pkg_none p m : In m (messages p) -> pj m = None -> pkg_to_bytes ft pj p = None.
Proof.
  intros Hin Hm. unfold messages in Hin. unfold pkg_to_bytes. destruct (pSFRD p) as [[l|r]|]; [| |contradiction].
  - cbn [json_frame]. rewrite (sds_none l m Hin Hm). reflexivity.
  - cbn [json_frame]. destruct (SDRS r) as [l|]; [|contradiction]. rewrite (sds_none l m Hin Hm). reflexivity.
Qed.
End Pkg.
